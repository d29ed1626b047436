(** In which pieces the bytes arrive at a server. *)
From Verif Require Import Prelude Ser4 Messages Mbap SpecMbap Server SpecServer SpecChunks ChunksFacts ChunksCases.

(** ** C121: a server does not notice in which pieces the bytes arrive

    Histories that differ in how received bytes are cut into pieces, and in what the memory
    of new connections held, have the same outputs in the same order and leave the sessions
    and the channel in the same state.  In full, refuted: over-long frames can tell, if
    copies that do not fit copy nothing. *)
Theorem C121_pieces_refuted :
  ~ (forall (W : Type) (on_request : N -> W -> request -> W * expected response * list api) (on_shutdown : N -> W -> W * list api), well_typed on_request ->
     forall pol w es es', rechunked es es' -> Forall typed_event es -> Forall typed_event es' ->
     exists s t w1 o, server_run on_request on_shutdown pol server_init w es = Ret (s, w1, o) /\
       server_run on_request on_shutdown pol server_init w es' = Ret (t, w1, o)).
Proof. exact pieces_noticed. Qed.
Print Assumptions C121_pieces_refuted.

(** It holds if copies that do not fit copy what fits, or without over-long frames. *)
Theorem C121_pieces_partial : forall {W : Type} (on_request : N -> W -> request -> W * expected response * list api) (on_shutdown : N -> W -> W * list api),
  forall pol w es es', rechunked es es' -> Forall typed_event es -> Forall typed_event es' ->
  pol = Truncate \/ all_short es ->
  exists s t w1 o, server_run on_request on_shutdown pol server_init w es = Ret (s, w1, o) /\
    server_run on_request on_shutdown pol server_init w es' = Ret (t, w1, o) /\ but_parsers s t.
Proof. exact @pieces_unnoticed. Qed.
Print Assumptions C121_pieces_partial.

Example C121_case : rechunked at_once bytewise /\ outputs AllOrNothing at_once = outputs AllOrNothing bytewise /\
  outputs AllOrNothing at_once = [OConsult 0 (ReadHoldingRegisters 5 1); OSend 9 (map Some (frame_bytes 1 2 [3; 2; 0; 7])); OSend 9 (map Some (frame_bytes 2 2 [227; 1]))].
Proof. exact bytewise_case. Qed.
Print Assumptions C121_case.

(** Bytes with which no frame ends are not noticed when they arrive: they may as well arrive
    after whatever happens next elsewhere. *)
Theorem C121_postponed_partial : forall {W : Type} (on_request : N -> W -> request -> W * expected response * list api) (on_shutdown : N -> W -> W * list api),
  forall pol w a c d e b, Forall typed_event (a ++ EReceive c d :: e :: b) -> elsewhere c e ->
  completes_nothing (arrived c [] a) d -> pol = Truncate \/ all_short (a ++ EReceive c d :: e :: b) ->
  exists s t w1 o, server_run on_request on_shutdown pol server_init w (a ++ EReceive c d :: e :: b) = Ret (s, w1, o) /\
    server_run on_request on_shutdown pol server_init w (a ++ e :: EReceive c d :: b) = Ret (t, w1, o) /\ but_parsers s t.
Proof. exact @postponed_unnoticed. Qed.
Print Assumptions C121_postponed_partial.

Example C121_late_case : outputs AllOrNothing others_first = OSend 8 (map Some (frame_bytes 7 2 [227; 1])) :: outputs AllOrNothing at_once /\
  completes_nothing (arrived 9 [] (opened ++ [EAccept 8 (repeat 0 260)])) (firstn 5 asked_twice).
Proof. exact late_case. Qed.
Print Assumptions C121_late_case.
