(** Properties C12 - C18: MBAP framing on a byte stream.

    [pol] is what the external copy function does when a piece does not fit;
    every theorem holds for both possibilities unless it names one. *)
From Verif Require Import Prelude Ser4 Messages Mbap SpecPdu SpecMbap MbapFacts MbapLemmas BufferSize.

(** Every byte stream is a sequence of items and an unfinished rest, in exactly
    one way; so quantifying over [framed] streams below is no restriction. *)
Theorem C13_framing_unambiguous : forall bs, bytes bs ->
  exists items tail, framed bs items tail /\
    forall items' tail', framed bs items' tail' -> items' = items /\ tail' = tail.
Proof. exact framing_unambiguous. Qed.
Print Assumptions C13_framing_unambiguous.

Example C13_framing_case :
  framed [0; 1; 0; 0; 0; 3; 9; 17; 18;  0; 2; 0; 5; 0; 0; 9;  0; 3]
         [frame 1 9 [17; 18]; {| i_tx := 2; i_proto := 5; i_unit := 9; i_body := None |}] [0; 3].
Proof.
  split; [|split; [reflexivity|left; reflexivity]].
  repeat constructor; vm_compute; try reflexivity; discriminate.
Qed.

(** ** C12: round trip under any chunking *)
Theorem C12_frames_round_trip : forall pol buf frames chunks tail,
  good_buf buf -> Forall frame_ok frames -> Forall bytes chunks ->
  List.concat chunks = flat_map (fun '(tx, unit, pdu) => frame_bytes tx unit pdu) frames ++ tail ->
  incomplete tail ->
  exists st', mbap_run pol (mbap_new buf) (map Chunk chunks) = Ret (st', map frame_message frames).
Proof. exact frames_round_trip. Qed.
Print Assumptions C12_frames_round_trip.

Example C12_case :
  let chunks := [[0; 1; 0]; []; [0; 0; 3; 9; 17]; [18; 0; 2; 0; 0; 0; 2; 9; 5; 0]] in
  good_buf (repeat 77 260) /\ Forall frame_ok [(1, 9, [17; 18]); (2, 9, [5])] /\ Forall bytes chunks /\
  List.concat chunks =
    flat_map (fun '(tx, unit, pdu) => frame_bytes tx unit pdu) [(1, 9, [17; 18]); (2, 9, [5])] ++ [0] /\
  incomplete [0].
Proof.
  split; [split; [reflexivity|repeat constructor]|].
  split; [repeat constructor; vm_compute; discriminate|].
  split; [repeat constructor|]. split; [reflexivity|left; reflexivity].
Qed.

(** ** C13: chunking independence *)
Theorem C13_chunking_independence : forall pol buf buf' chunks chunks' items tail,
  good_buf buf -> good_buf buf' -> Forall bytes chunks -> Forall bytes chunks' ->
  List.concat chunks = List.concat chunks' ->
  framed (List.concat chunks) items tail -> no_long items ->
  exists st st' outs,
    mbap_run pol (mbap_new buf) (map Chunk chunks) = Ret (st, outs) /\
    mbap_run pol (mbap_new buf') (map Chunk chunks') = Ret (st', outs).
Proof. exact chunking_independent. Qed.
Print Assumptions C13_chunking_independence.

Example C13_case : no_long [frame 1 9 [17; 18]; {| i_tx := 2; i_proto := 5; i_unit := 9; i_body := None |}].
Proof. repeat constructor; vm_compute; discriminate. Qed.

(** ** C14: over-long frames

    Full statement: an item announcing more than 254 bytes is skipped, and
    nothing depends on chunking.  Both halves fail: such a frame is delivered
    with 253 bytes of data, and if the copy is all-or-nothing the data depends
    on chunking.  What holds: exactly the announced bytes are consumed, so every
    other frame is delivered intact and in order. *)
Theorem C14_overlong_refuted :
  (forall pol, exists chunks st m,
     List.concat chunks = frame_bytes 1 2 long_body /\ Forall bytes chunks /\
     mbap_run pol (mbap_new (repeat 0 260)) (map Chunk chunks) = Ret (st, [m])) /\
  (exists chunks chunks' st st' outs outs',
     List.concat chunks = List.concat chunks' /\ Forall bytes chunks /\ Forall bytes chunks' /\
     mbap_run AllOrNothing (mbap_new (repeat 0 260)) (map Chunk chunks) = Ret (st, outs) /\
     mbap_run AllOrNothing (mbap_new (repeat 0 260)) (map Chunk chunks') = Ret (st', outs') /\
     outs <> outs').
Proof. exact overlong_refuted. Qed.
Print Assumptions C14_overlong_refuted.

Theorem C14_overlong_partial : forall pol buf chunks items tail,
  good_buf buf -> Forall bytes chunks -> framed (List.concat chunks) items tail ->
  exists st' outs, mbap_run pol (mbap_new buf) (map Chunk chunks) = Ret (st', outs) /\
    Forall2 got (filter deliverable (settled items tail)) outs.
Proof. exact overlong_framing. Qed.
Print Assumptions C14_overlong_partial.

(** With a truncating copy the result is at least determined by the stream. *)
Theorem C14_overlong_truncate_partial : forall buf chunks items tail,
  good_buf buf -> Forall bytes chunks -> framed (List.concat chunks) items tail ->
  exists st', mbap_run Truncate (mbap_new buf) (map Chunk chunks)
     = Ret (st', map truncated_message (filter deliverable (settled items tail))).
Proof. exact overlong_truncate. Qed.
Print Assumptions C14_overlong_truncate_partial.

Example C14_case : long (frame 1 2 long_body) /\ typed_item (frame 1 2 long_body).
Proof.
  split; [reflexivity|]. repeat split; try reflexivity; try (repeat constructor; fail).
  vm_compute. discriminate.
Qed.

(** ** C15: memory safety of the receiver

    [Ret] rather than [UB]: no read of an uninitialised value, no write outside
    the buffer, and termination.  What is delivered between two resets is what
    the stream between them demands. *)
Theorem C15_receiver_safety : forall pol buf ops,
  good_buf buf -> Forall op_bytes ops ->
  exists st' outss, mbap_run pol (mbap_new buf) ops = Ret (st', List.concat outss) /\
    List.length (p_buf st') = 260%nat /\
    Forall (fun m => (List.length (mb_data m) <= 253)%nat) (List.concat outss) /\
    Forall2 (fun seg outs => forall items tail, framed seg items tail ->
               Forall2 got (filter deliverable (settled items tail)) outs)
            (segments [] ops) outss.
Proof. exact receiver_safety. Qed.
Print Assumptions C15_receiver_safety.

(** The buffer has the size of the largest frames. *)
Theorem C15_buffer_size :
  (forall buf, bytes buf -> (List.length buf = MaxMbapSize <-> good_buf buf)) /\
  (forall tx unit pdu, (List.length (frame_bytes tx unit pdu) <= MaxMbapSize)%nat <-> (List.length pdu <= 253)%nat).
Proof. exact buffer_size. Qed.
Print Assumptions C15_buffer_size.

Example C15_case : Forall op_bytes [Chunk [1; 2; 3]; Reset; Chunk [0; 0; 0; 0; 255; 255; 1; 2]; Reset].
Proof. repeat constructor. Qed.

(** ** C16: prompt delivery

    Full statement: when the last byte of a frame has arrived the frame has been
    delivered.  It fails for a frame with an empty PDU, which waits for the first
    byte of the next frame; it holds for every other frame. *)
Theorem C16_prompt_delivery_refuted : forall pol, exists st st' m,
  mbap_run pol (mbap_new (repeat 0 260)) [Chunk (frame_bytes 1 2 [])] = Ret (st, []) /\
  mbap_run pol (mbap_new (repeat 0 260)) [Chunk (frame_bytes 1 2 []); Chunk [0]] = Ret (st', [m]).
Proof. exact empty_pdu_late. Qed.
Print Assumptions C16_prompt_delivery_refuted.

Theorem C16_prompt_delivery_partial : forall pol buf chunks items i,
  good_buf buf -> Forall bytes chunks -> Forall typed_item (items ++ [i]) ->
  List.concat chunks = flat_map item_bytes (items ++ [i]) ->
  i_body i <> Some [] -> no_long (items ++ [i]) ->
  exists st', mbap_run pol (mbap_new buf) (map Chunk chunks)
              = Ret (st', map item_message (filter deliverable (items ++ [i]))).
Proof. exact prompt. Qed.
Print Assumptions C16_prompt_delivery_partial.

(** The exception is exactly the empty PDU. *)
Theorem C16_empty_pdu_always_late : forall pol buf chunks items tx unit,
  good_buf buf -> Forall bytes chunks -> Forall typed_item items -> u16 tx -> u8 unit ->
  no_long items ->
  List.concat chunks = flat_map item_bytes items ++ frame_bytes tx unit [] ->
  exists st', mbap_run pol (mbap_new buf) (map Chunk chunks)
              = Ret (st', map item_message (filter deliverable items)).
Proof. exact empty_pdu_always_late. Qed.
Print Assumptions C16_empty_pdu_always_late.

Example C16_case :
  Forall typed_item ([frame 1 2 []] ++ [frame 3 4 [5]]) /\ no_long ([frame 1 2 []] ++ [frame 3 4 [5]]) /\
  i_body (frame 3 4 [5]) <> Some [].
Proof.
  split; [repeat constructor; vm_compute; try reflexivity; discriminate|].
  split; [repeat constructor; vm_compute; discriminate|discriminate].
Qed.

(** ** C17: resynchronisation *)
Theorem C17_mixed_stream : forall pol buf chunks items tail,
  good_buf buf -> Forall bytes chunks -> framed (List.concat chunks) items tail -> no_long items ->
  exists st', mbap_run pol (mbap_new buf) (map Chunk chunks)
              = Ret (st', map item_message (filter deliverable (settled items tail))).
Proof. exact mixed_stream. Qed.
Print Assumptions C17_mixed_stream.

Example C17_case :
  let items := [frame 1 9 [17; 18]; {| i_tx := 2; i_proto := 5; i_unit := 9; i_body := Some [3; 4] |};
                {| i_tx := 2; i_proto := 5; i_unit := 9; i_body := None |}; frame 3 9 [1]] in
  map item_message (filter deliverable (settled items [])) =
    [{| mb_unit := 9; mb_tx := 1; mb_data := [17; 18] |}; {| mb_unit := 9; mb_tx := 3; mb_data := [1] |}].
Proof. reflexivity. Qed.

(** ** C18: reset *)
Theorem C18_reset_forgets : forall pol buf buf' ops chunks items tail,
  good_buf buf -> good_buf buf' -> Forall op_bytes ops -> Forall bytes chunks ->
  framed (List.concat chunks) items tail -> no_long items ->
  exists st st1 st2 o1 o2,
    mbap_run pol (mbap_new buf) ops = Ret (st1, o1) /\
    mbap_run pol (mbap_new buf') (map Chunk chunks) = Ret (st2, o2) /\
    mbap_run pol (mbap_new buf) (ops ++ Reset :: map Chunk chunks) = Ret (st, o1 ++ o2).
Proof. exact reset_forgets. Qed.
Print Assumptions C18_reset_forgets.

(** The exclusion of over-long frames is necessary (for an all-or-nothing copy):
    such a frame delivers data received before the reset. *)
Theorem C18_overlong_leaks_refuted :
  exists chunks st st' outs outs',
    Forall bytes chunks /\
    mbap_run AllOrNothing (mbap_new (repeat 0 260)) (map Chunk chunks) = Ret (st, outs) /\
    mbap_run AllOrNothing (mbap_new (repeat 0 260))
       (Chunk (frame_bytes 9 9 [11; 22; 33]) :: Reset :: map Chunk chunks) = Ret (st', outs') /\
    outs = [{| mb_unit := 2; mb_tx := 1; mb_data := repeat 0 253 |}] /\
    outs' = [{| mb_unit := 9; mb_tx := 9; mb_data := [11; 22; 33] |};
             {| mb_unit := 2; mb_tx := 1; mb_data := [11; 22; 33] ++ repeat 0 250 |}].
Proof. exact stale_leak. Qed.
Print Assumptions C18_overlong_leaks_refuted.

Example C18_case :
  framed (List.concat [[0; 1; 0; 0; 0]; [3; 9; 17; 18]]) [frame 1 9 [17; 18]] [].
Proof.
  split; [|split; [reflexivity|left; reflexivity]].
  repeat constructor; vm_compute; try reflexivity; discriminate.
Qed.
