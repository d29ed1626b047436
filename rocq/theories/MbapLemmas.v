(** Lemmas in the form used by PropsMbap.v. *)
From Verif Require Import Tac Ser4 Messages Mbap SpecPdu SpecMbap BitFacts BuildFacts CodecLemmas MbapFacts.

Lemma matches_got pol i m : matches pol i m -> got i m.
Proof. intros (A & B & C & D & _). unfold got, received. auto. Qed.

Lemma Forall2_impl {A B} (P Q : A -> B -> Prop) l l' :
  (forall a b, P a b -> Q a b) -> Forall2 P l l' -> Forall2 Q l l'.
Proof. intros H. induction 1; constructor; auto. Qed.

Lemma settled_eq items tail : ~ ends_with_empty items tail -> settled items tail = items.
Proof.
  intros Hne. unfold settled. destruct tail as [|x tail]; [|reflexivity].
  destruct (rev items) as [|i is] eqn:Er; [reflexivity|].
  destruct (i_body i) as [[|y ys]|] eqn:Eb; try reflexivity.
  exfalso. apply Hne. split; [reflexivity|]. exists (rev is), i. split; [|exact Eb].
  rewrite <- (rev_involutive items), Er. reflexivity.
Qed.

Lemma delivery_settled pol st chunks items tail :
  R pol st [] -> Forall bytes chunks -> framed (List.concat chunks) items tail ->
  exists st' outs, mbap_run pol st (map Chunk chunks) = Ret (st', outs) /\
    good_buf (p_buf st') /\
    Forall2 (matches pol) (filter deliverable (settled items tail)) outs.
Proof.
  intros HR Hb Hf.
  destruct (run_chunks pol chunks st [] HR Hb) as (st1 & t1 & i1 & o1 & E1 & _ & _ & HR1 & _).
  destruct (delivery pol st chunks items tail HR Hb Hf) as (st' & outs & E & [[H _]|(H & Hs & _)]);
    rewrite E in E1; inversion E1; subst; exists st1, o1; (split; [exact E|]);
    (split; [apply HR1|]); [exact H|rewrite Hs; exact H].
Qed.

(** Any byte stream is framed. *)
Lemma repeat_bytes v n : u8 v -> bytes (repeat v n).
Proof. intros H. apply Forall_forall. intros x Hx. apply repeat_spec in Hx. subst. exact H. Qed.

Lemma good_zero : good_buf (repeat 0 260).
Proof. split; [apply repeat_length|]. apply repeat_bytes. reflexivity. Qed.

Lemma framed_total bs : bytes bs -> exists items tail, framed bs items tail.
Proof.
  intros Hb.
  destruct (run_chunks Truncate [bs] (mbap_new (repeat 0 260)) [] (R_new _ _ good_zero))
    as (st & t & items & outs & _ & Hty & E & HR & _); [repeat constructor; exact Hb|].
  cbn [List.concat app] in E. rewrite app_nil_r in E.
  destruct (R_tail _ _ _ HR) as [Hi|(i & Hti & -> & Hib)].
  - exists items, t. split; [exact Hty|]. auto.
  - exists (items ++ [i]), []. split; [apply Forall_app; auto|]. split; [|left; reflexivity].
    rewrite flat_map_app. cbn [flat_map]. rewrite !app_nil_r. exact E.
Qed.

Lemma framing_unambiguous bs : bytes bs ->
  exists items tail, framed bs items tail /\
    forall items' tail', framed bs items' tail' -> items' = items /\ tail' = tail.
Proof.
  intros Hb. destruct (framed_total bs Hb) as (items & tail & H). exists items, tail.
  split; [exact H|]. intros i' t' H'. exact (framed_unique _ _ _ _ _ H' H).
Qed.

(** ** Exact delivery *)
Lemma matches_exact pol is outs :
  Forall2 (matches pol) is outs -> no_long is -> outs = map item_message is.
Proof.
  induction 1 as [|i m is ms (A & B & C & _) _ IH]; intros Hn; [reflexivity|].
  apply Forall_cons_iff in Hn. destruct Hn as [Hi Hn]. cbn [map]. rewrite (IH Hn). f_equal.
  destruct m as [u t d]; cbn in *. unfold item_message. rewrite A, B, (C Hi). reflexivity.
Qed.

Lemma no_long_settled items tail : no_long items -> no_long (filter deliverable (settled items tail)).
Proof.
  intros H. apply Forall_forall. intros i Hi. apply filter_In in Hi. destruct Hi as [Hi _].
  unfold no_long in H. rewrite Forall_forall in H. apply H.
  unfold settled in Hi. destruct tail; [|exact Hi].
  destruct (rev items) as [|j is] eqn:E; [exact Hi|].
  destruct (i_body j) as [[|]|]; try exact Hi.
  rewrite <- (rev_involutive items), E. cbn [rev]. apply in_or_app. auto.
Qed.

Lemma exact_delivery pol st chunks items tail :
  R pol st [] -> Forall bytes chunks -> framed (List.concat chunks) items tail -> no_long items ->
  exists st', mbap_run pol st (map Chunk chunks)
              = Ret (st', map item_message (filter deliverable (settled items tail))).
Proof.
  intros HR Hb Hf Hn. destruct (delivery_settled pol st chunks items tail HR Hb Hf)
    as (st' & outs & E & _ & Hm).
  exists st'. rewrite E, (matches_exact _ _ _ Hm (no_long_settled _ _ Hn)). reflexivity.
Qed.

Lemma mixed_stream pol buf chunks items tail :
  good_buf buf -> Forall bytes chunks -> framed (List.concat chunks) items tail -> no_long items ->
  exists st', mbap_run pol (mbap_new buf) (map Chunk chunks)
              = Ret (st', map item_message (filter deliverable (settled items tail))).
Proof. intros Hg. apply exact_delivery, R_new, Hg. Qed.

Lemma chunking_independent pol buf buf' chunks chunks' items tail :
  good_buf buf -> good_buf buf' -> Forall bytes chunks -> Forall bytes chunks' ->
  List.concat chunks = List.concat chunks' ->
  framed (List.concat chunks) items tail -> no_long items ->
  exists st st' outs,
    mbap_run pol (mbap_new buf) (map Chunk chunks) = Ret (st, outs) /\
    mbap_run pol (mbap_new buf') (map Chunk chunks') = Ret (st', outs).
Proof.
  intros Hg Hg' Hb Hb' E Hf Hn.
  destruct (mixed_stream pol buf chunks items tail Hg Hb Hf Hn) as (st & H).
  rewrite E in Hf. destruct (mixed_stream pol buf' chunks' items tail Hg' Hb' Hf Hn) as (st' & H').
  eauto.
Qed.

Lemma frame_stream pol st frames chunks tail :
  R pol st [] -> Forall frame_ok frames -> Forall bytes chunks ->
  List.concat chunks = flat_map (fun f => item_bytes (frame_item f)) frames ++ tail ->
  incomplete tail ->
  exists st', mbap_run pol st (map Chunk chunks) = Ret (st', map frame_message frames).
Proof.
  intros HR Hf Hb E Hi.
  assert (Hfr : framed (List.concat chunks) (map frame_item frames) tail).
  { split; [|split; [|exact Hi]].
    - apply Forall_forall. intros i Hin. apply in_map_iff in Hin. destruct Hin as ([[tx u] pdu] & <- & Hin).
      rewrite Forall_forall in Hf. specialize (Hf _ Hin). cbn in Hf. destruct Hf as (A & B & C & D).
      unfold typed_item, body_of; cbn. repeat split; auto; try lia; exact eq_refl.
    - rewrite E. f_equal. clear. induction frames as [|f fs IH]; [reflexivity|]. cbn [flat_map map]. rewrite IH. reflexivity. }
  assert (Hnl : no_long (map frame_item frames)).
  { apply Forall_forall. intros i Hin. apply in_map_iff in Hin. destruct Hin as ([[tx u] pdu] & <- & Hin).
    rewrite Forall_forall in Hf. specialize (Hf _ Hin). cbn in Hf. unfold long, body_of; cbn. lia. }
  destruct (exact_delivery pol st chunks _ tail HR Hb Hfr Hnl) as (st' & ->).
  exists st'. do 2 f_equal. rewrite settled_eq.
  - clear -Hf. induction frames as [|[[tx u] pdu] fs IH]; [reflexivity|].
    apply Forall_cons_iff in Hf. destruct Hf as [_ Hf].
    cbn [map filter frame_item frame deliverable i_body i_proto]. rewrite N.eqb_refl. cbn [map].
    rewrite (IH Hf). reflexivity.
  - intros [_ (is & i & Em & Hbd)].
    assert (Hin : In i (map frame_item frames)) by (rewrite Em; apply in_or_app; right; left; reflexivity).
    apply in_map_iff in Hin. destruct Hin as ([[tx u] pdu] & <- & Hin).
    rewrite Forall_forall in Hf. specialize (Hf _ Hin). cbn in Hf. cbn in Hbd.
    injection Hbd as ->. destruct Hf as (_ & _ & _ & D & _). change (size (@nil N)) with 0 in D. lia.
Qed.

Lemma frames_round_trip pol buf frames chunks tail :
  good_buf buf -> Forall frame_ok frames -> Forall bytes chunks ->
  List.concat chunks = flat_map (fun '(tx, unit, pdu) => frame_bytes tx unit pdu) frames ++ tail ->
  incomplete tail ->
  exists st', mbap_run pol (mbap_new buf) (map Chunk chunks) = Ret (st', map frame_message frames).
Proof.
  intros Hg Hf Hb E. apply frame_stream; auto; [apply R_new; exact Hg|].
  rewrite E. f_equal. clear. induction frames as [|[[tx u] pdu] fs IH]; [reflexivity|].
  cbn [flat_map]. rewrite IH. reflexivity.
Qed.

(** ** Resets *)
Lemma run_app pol ops1 : forall st ops2,
  mbap_run pol st (ops1 ++ ops2) =
  let! (st1, o1) := mbap_run pol st ops1 in
  let! (st2, o2) := mbap_run pol st1 ops2 in Ret (st2, o1 ++ o2).
Proof.
  induction ops1 as [|o ops1 IH]; intros st ops2; cbn [app mbap_run obind].
  - destruct (mbap_run pol st ops2) as [[s o]|]; reflexivity.
  - destruct o as [d|].
    + destruct (mbap_parse pol st d) as [[s o]|]; cbn [obind]; [|reflexivity].
      rewrite IH. destruct (mbap_run pol s ops1) as [[s1 o1]|]; cbn [obind]; [|reflexivity].
      destruct (mbap_run pol s1 ops2) as [[s2 o2]|]; cbn [obind]; [|reflexivity].
      rewrite app_assoc. reflexivity.
    + rewrite IH. reflexivity.
Qed.

Lemma split_ops ops : exists cs rest, ops = map Chunk cs ++ rest /\
  (rest = [] \/ exists ops', rest = Reset :: ops' /\ (List.length ops' < List.length ops)%nat).
Proof.
  induction ops as [|[d|] ops (cs & rest & E & H)].
  - exists [], []. auto.
  - exists (d :: cs), rest. split; [rewrite E; reflexivity|].
    destruct H as [H|(o & H1 & H2)]; [auto|right; exists o; cbn; auto with arith].
  - exists [], (Reset :: ops). split; [reflexivity|]. right. exists ops. cbn. auto with arith.
Qed.

Lemma segments_chunks cs : forall cur rest,
  segments cur (map Chunk cs ++ rest) = segments (cur ++ List.concat cs) rest.
Proof.
  induction cs as [|c cs IH]; intros cur rest; cbn [map app segments List.concat].
  - rewrite app_nil_r. reflexivity.
  - rewrite IH, app_assoc. reflexivity.
Qed.

Lemma ops_chunks_bytes cs rest : Forall op_bytes (map Chunk cs ++ rest) -> Forall bytes cs /\ Forall op_bytes rest.
Proof.
  intros H. apply Forall_app in H. destruct H as [H1 H2]. split; [|exact H2].
  apply Forall_forall. intros c Hc. rewrite Forall_forall in H1.
  exact (H1 (Chunk c) (in_map Chunk _ _ Hc)).
Qed.

Lemma concat_bytes cs : Forall bytes cs -> bytes (List.concat cs).
Proof.
  induction 1 as [|c cs Hc _ IH]; [constructor|]. cbn. apply Forall_app; auto.
Qed.

Lemma run_segments pol ops st :
  R pol st [] -> Forall op_bytes ops ->
  exists st' outss, mbap_run pol st ops = Ret (st', List.concat outss) /\ good_buf (p_buf st') /\
    Forall2 (fun seg outs => forall items tail, framed seg items tail ->
               Forall2 (matches pol) (filter deliverable (settled items tail)) outs)
            (segments [] ops) outss.
Proof.
  remember (List.length ops) as n eqn:Hn. revert ops Hn st.
  induction n as [n IH] using lt_wf_ind. intros ops Hn st HR Hb. subst n.
  destruct (split_ops ops) as (cs & rest & E & Hrest).
  rewrite E in Hb |- *. destruct (ops_chunks_bytes _ _ Hb) as [Hcs Hrb].
  rewrite run_app, segments_chunks. cbn [app].
  destruct (framed_total _ (concat_bytes _ Hcs)) as (items & tail & Hf).
  destruct (delivery_settled pol st cs items tail HR Hcs Hf) as (st1 & outs & -> & Hg & Hm).
  cbn [obind].
  assert (Hm' : forall items tail, framed (List.concat cs) items tail ->
               Forall2 (matches pol) (filter deliverable (settled items tail)) outs).
  { intros i' t' Hf'. destruct (framed_unique _ _ _ _ _ Hf' Hf) as [-> ->]. exact Hm. }
  destruct Hrest as [->|(ops' & -> & Hlt)].
  - cbn [mbap_run obind segments]. exists st1, [outs]. split; [reflexivity|]. split; [exact Hg|]. repeat constructor. exact Hm'.
  - cbn [mbap_run segments]. apply Forall_cons_iff in Hrb. destruct Hrb as [_ Hrb].
    destruct (IH _ Hlt ops' eq_refl (mbap_reset st1) (R_reset pol st1 Hg) Hrb) as (st2 & outss & -> & Hg2 & H2).
    cbn [obind]. exists st2, (outs :: outss). split; [reflexivity|]. split; [exact Hg2|]. constructor; assumption.
Qed.

Lemma receiver_safety pol buf ops :
  good_buf buf -> Forall op_bytes ops ->
  exists st' outss, mbap_run pol (mbap_new buf) ops = Ret (st', List.concat outss) /\
    List.length (p_buf st') = 260%nat /\
    Forall (fun m => (List.length (mb_data m) <= 253)%nat) (List.concat outss) /\
    Forall2 (fun seg outs => forall items tail, framed seg items tail ->
               Forall2 got (filter deliverable (settled items tail)) outs)
            (segments [] ops) outss.
Proof.
  intros Hg Hb. destruct (run_segments pol ops (mbap_new buf) (R_new pol buf Hg) Hb) as (st & outss & E & Hg' & H).
  exists st, outss. split; [exact E|]. split; [apply Hg'|]. split.
  - destruct (run_safe pol ops (mbap_new buf) [] (R_new pol buf Hg) Hb) as (st2 & t2 & o2 & E2 & _ & H2).
    rewrite E in E2. inversion E2; subst.
    eapply Forall_impl; [|exact H2]. cbn. tauto.
  - eapply Forall2_impl; [|exact H]. cbn. intros seg outs Hs items tail Hf.
    eapply Forall2_impl; [|exact (Hs items tail Hf)]. intros i m. apply matches_got.
Qed.

Lemma overlong_framing pol buf chunks items tail :
  good_buf buf -> Forall bytes chunks -> framed (List.concat chunks) items tail ->
  exists st' outs, mbap_run pol (mbap_new buf) (map Chunk chunks) = Ret (st', outs) /\
    Forall2 got (filter deliverable (settled items tail)) outs.
Proof.
  intros Hg Hb Hf. destruct (delivery_settled pol _ chunks items tail (R_new pol buf Hg) Hb Hf)
    as (st' & outs & E & _ & H).
  exists st', outs. split; [exact E|]. eapply Forall2_impl; [|exact H]. apply matches_got.
Qed.

(** If copy_from truncates, the over-long case is at least deterministic. *)
Lemma overlong_truncate buf chunks items tail :
  good_buf buf -> Forall bytes chunks -> framed (List.concat chunks) items tail ->
  exists st', mbap_run Truncate (mbap_new buf) (map Chunk chunks)
     = Ret (st', map truncated_message (filter deliverable (settled items tail))).
Proof.
  intros Hg Hb Hf. destruct (delivery_settled Truncate _ chunks items tail (R_new _ buf Hg) Hb Hf)
    as (st' & outs & E & _ & H).
  exists st'. rewrite E. do 2 f_equal. clear E.
  induction H as [|i m is ms (A & B & _ & _ & C & _) _ IH]; [reflexivity|]. cbn [map]. rewrite IH.
  f_equal. destruct m as [u t d]; cbn in *. unfold truncated_message. rewrite A, B, (C eq_refl). reflexivity.
Qed.

Lemma prompt pol buf chunks items i :
  good_buf buf -> Forall bytes chunks -> Forall typed_item (items ++ [i]) ->
  List.concat chunks = flat_map item_bytes (items ++ [i]) ->
  i_body i <> Some [] -> no_long (items ++ [i]) ->
  exists st', mbap_run pol (mbap_new buf) (map Chunk chunks)
              = Ret (st', map item_message (filter deliverable (items ++ [i]))).
Proof.
  intros Hg Hb Hty E Hne Hnl.
  destruct (mixed_stream pol buf chunks (items ++ [i]) [] Hg Hb) as (st' & ->).
  - split; [exact Hty|]. split; [rewrite app_nil_r; exact E|]. left. reflexivity.
  - exact Hnl.
  - exists st'. do 4 f_equal. apply settled_eq. intros [_ (is & j & Ej & Hj)].
    apply app_inj_tail in Ej. destruct Ej as [_ ->]. contradiction.
Qed.

Lemma reset_forgets pol buf buf' ops chunks items tail :
  good_buf buf -> good_buf buf' -> Forall op_bytes ops -> Forall bytes chunks ->
  framed (List.concat chunks) items tail -> no_long items ->
  exists st st1 st2 o1 o2,
    mbap_run pol (mbap_new buf) ops = Ret (st1, o1) /\
    mbap_run pol (mbap_new buf') (map Chunk chunks) = Ret (st2, o2) /\
    mbap_run pol (mbap_new buf) (ops ++ Reset :: map Chunk chunks) = Ret (st, o1 ++ o2).
Proof.
  intros Hg Hg' Ho Hc Hf Hn.
  destruct (run_segments pol ops (mbap_new buf) (R_new pol buf Hg) Ho) as (st1 & outss & E1 & Hg1 & _).
  destruct (exact_delivery pol (mbap_new buf') chunks items tail (R_new pol buf' Hg') Hc Hf Hn) as (st2 & E2).
  destruct (exact_delivery pol (mbap_reset st1) chunks items tail (R_reset pol st1 Hg1) Hc Hf Hn) as (st3 & E3).
  do 5 eexists. split; [exact E1|]. split; [exact E2|].
  rewrite run_app, E1. cbn [obind mbap_run]. rewrite E3. reflexivity.
Qed.

(** ** Counterexamples *)
Definition long_body : list N := repeat 7 254.

(** An over-long frame is not skipped, whatever the copy policy. *)
Lemma overlong_refuted :
  (forall pol, exists chunks st m,
     List.concat chunks = frame_bytes 1 2 long_body /\ Forall bytes chunks /\
     mbap_run pol (mbap_new (repeat 0 260)) (map Chunk chunks) = Ret (st, [m])) /\
  (exists chunks chunks' st st' outs outs',
     List.concat chunks = List.concat chunks' /\ Forall bytes chunks /\ Forall bytes chunks' /\
     mbap_run AllOrNothing (mbap_new (repeat 0 260)) (map Chunk chunks) = Ret (st, outs) /\
     mbap_run AllOrNothing (mbap_new (repeat 0 260)) (map Chunk chunks') = Ret (st', outs') /\
     outs <> outs').
Proof.
  assert (Hb : bytes (frame_bytes 1 2 long_body)).
  { unfold frame_bytes, item_bytes. repeat (apply bytes_app; split); try (repeat constructor; fail). }
  assert (Hb2 : Forall bytes [firstn 8 (frame_bytes 1 2 long_body); skipn 8 (frame_bytes 1 2 long_body)]).
  { repeat constructor; try (apply repeat_bytes; reflexivity). }
  split.
  - intros pol. exists [frame_bytes 1 2 long_body].
    destruct pol; eexists; eexists; (split; [vm_compute; reflexivity|]); (split; [repeat constructor; exact Hb|]);
      vm_compute; reflexivity.
  - exists [frame_bytes 1 2 long_body],
           [firstn 8 (frame_bytes 1 2 long_body); skipn 8 (frame_bytes 1 2 long_body)].
    do 4 eexists. split; [vm_compute; reflexivity|]. split; [repeat constructor; exact Hb|].
    split; [exact Hb2|]. split; [vm_compute; reflexivity|]. split; [vm_compute; reflexivity|].
    intros H. discriminate H.
Qed.

(** With an all-or-nothing copy, an over-long frame hands bytes of an earlier
    frame, received before the reset, to the application. *)
Lemma stale_leak :
  exists chunks st st' outs outs',
    Forall bytes chunks /\
    mbap_run AllOrNothing (mbap_new (repeat 0 260)) (map Chunk chunks) = Ret (st, outs) /\
    mbap_run AllOrNothing (mbap_new (repeat 0 260))
       (Chunk (frame_bytes 9 9 [11; 22; 33]) :: Reset :: map Chunk chunks) = Ret (st', outs') /\
    outs = [{| mb_unit := 2; mb_tx := 1; mb_data := repeat 0 253 |}] /\
    outs' = [{| mb_unit := 9; mb_tx := 9; mb_data := [11; 22; 33] |};
             {| mb_unit := 2; mb_tx := 1; mb_data := [11; 22; 33] ++ repeat 0 250 |}].
Proof.
  assert (Hb : bytes (frame_bytes 1 2 long_body)).
  { unfold frame_bytes, item_bytes. repeat (apply bytes_app; split); try (repeat constructor; fail). }
  exists [frame_bytes 1 2 long_body]. do 4 eexists. split; [repeat constructor; exact Hb|].
  split; [vm_compute; reflexivity|]. split; [vm_compute; reflexivity|].
  split; vm_compute; reflexivity.
Qed.

(** A frame with an empty PDU is not delivered when its last byte arrives. *)
Lemma empty_pdu_late :
  forall pol, exists st st' m,
    mbap_run pol (mbap_new (repeat 0 260)) [Chunk (frame_bytes 1 2 [])] = Ret (st, []) /\
    mbap_run pol (mbap_new (repeat 0 260)) [Chunk (frame_bytes 1 2 []); Chunk [0]] = Ret (st', [m]).
Proof. intros []; do 3 eexists; split; vm_compute; reflexivity. Qed.

Lemma empty_pdu_always_late pol buf chunks items tx unit :
  good_buf buf -> Forall bytes chunks -> Forall typed_item items -> u16 tx -> u8 unit ->
  no_long items ->
  List.concat chunks = flat_map item_bytes items ++ frame_bytes tx unit [] ->
  exists st', mbap_run pol (mbap_new buf) (map Chunk chunks)
              = Ret (st', map item_message (filter deliverable items)).
Proof.
  intros Hg Hb Hty Ht Hu Hnl E.
  destruct (mixed_stream pol buf chunks (items ++ [frame tx unit []]) [] Hg Hb) as (st' & ->).
  - split; [|split; [|left; reflexivity]].
    + apply Forall_app; split; [exact Hty|]. repeat constructor; cbn; auto; try exact eq_refl.
      cbn. discriminate.
    + rewrite app_nil_r, flat_map_app. cbn [flat_map]. rewrite app_nil_r. exact E.
  - apply Forall_app; split; [exact Hnl|]. repeat constructor. unfold long, body_of; cbn. discriminate.
  - exists st'. unfold settled. rewrite rev_app_distr. cbn [rev app frame i_body].
    rewrite rev_involutive. reflexivity.
Qed.
