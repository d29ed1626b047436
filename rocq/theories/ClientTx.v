(** Proofs about the frames and transaction identifiers of the client channel. *)
From Verif Require Import Prelude Ser4 Messages Mbap SpecPdu SpecMbap Client SpecClient MbapFacts MbapLemmas BitFacts
  BuildFacts CodecLemmas FrameFacts ClientFacts ClientLemmas.
From Coq Require Import Lia.

Lemma sent_unique os i u t v u' t' v' : sorted (sent_ids os) ->
  In (Sent i u t v) os -> In (Sent i u' t' v') os -> (u, t, v) = (u', t', v').
Proof.
  intros S H H'. apply in_split in H. destruct H as (a & b & ->).
  apply in_app_or in H'. rewrite sent_app in S. cbn [sent_ids flat_map app] in S. fold (sent_ids b) in S.
  apply sorted_nodup in S. apply NoDup_remove_2 in S. rewrite in_app_iff in S.
  destruct H' as [H'|[H'|H']].
  - exfalso. apply S. left. apply in_sent. eauto.
  - injection H' as <- <- <-. reflexivity.
  - exfalso. apply S. right. apply in_sent. eauto.
Qed.

Section More.
Context {W : Type}.
Context (handler : nat -> W -> expected (list N) -> W * list capi).

(** ** The bytes of the frames *)
Lemma tx_range os s i u t v : core s os -> In (Sent i u t v) os -> u16 t.
Proof.
  intros C H. destruct (co_tx _ _ C) as (acc & _ & _ & _ & _ & _ & Htx & _).
  destruct (Htx _ _ _ _ H) as (n & _ & ->). unfold u16. apply N.mod_lt. discriminate.
Qed.

Lemma request_frames pol es s w os i u t v k r : history handler pol es s w os ->
  In (Sent i u t v) os -> In (Called i k) os -> k_msg k = request_message r -> typed_request r -> u8 (k_unit k) ->
  exists pdu, request_pdu r pdu /\ v = map Some (frame_bytes t (k_unit k) pdu) /\ u = k_unit k.
Proof.
  intros H Hs Hk Em Ht Hu. assert (Hc := H). apply history_reached in Hc. destruct Hc as (C & _).
  destruct (frames_sent _ _ _ _ _ _ _ _ _ _ H Hs) as (k' & Hk' & Hv & -> & ->).
  assert (k' = k) by (eapply call_unique; eauto). subst k'. rewrite Em in *.
  assert (Hl := valid_legal r Ht Hv). pose proof (request_length_bound r Hl).
  exists (enc_request r). split; [apply enc_request_pdu|]. split; [|reflexivity].
  apply mbap_build_fits; auto using enc_request_length.
  - eapply tx_range; eauto.
  - intros w1. apply build_request; assumption.
Qed.

(** ** Transaction identifiers *)
Lemma nodup_prefix {A} (a b : list A) : NoDup (a ++ b) -> NoDup a.
Proof.
  induction a as [|x a IH]; intros H; [constructor|]. cbn [app] in H. apply NoDup_cons_iff in H.
  constructor; [|tauto]. intros Hin. apply (proj1 H). apply in_or_app; auto.
Qed.

Definition early_valid (i : nat) (o : coutput) : bool :=
  match o with Called j k => Nat.ltb j i && im_valid (k_msg k) | _ => false end.

Lemma early_ids os i : List.length (filter (early_valid i) os) = List.length (called_ids (filter (early_valid i) os)).
Proof.
  induction os as [|o os IH]; [reflexivity|]. cbn [filter]. destruct (early_valid i o) eqn:E; [|exact IH].
  destruct o; try discriminate. cbn [List.length called_ids flat_map app]. rewrite IH. reflexivity.
Qed.

Lemma called_filter_nodup f os : NoDup (called_ids os) -> NoDup (called_ids (filter f os)).
Proof.
  induction os as [|o os IH]; intros H; [constructor|]. cbn [filter].
  assert (H' : NoDup (called_ids os)).
  { destruct o; cbn [called_ids flat_map app] in H; try exact H. apply NoDup_cons_iff in H. tauto. }
  destruct (f o); [|auto]. destruct o; cbn [called_ids flat_map app]; auto.
  cbn [called_ids flat_map app] in H. apply NoDup_cons_iff in H. constructor; [|auto].
  intros Hin. apply (proj1 H). fold (called_ids os). fold (called_ids (filter f os)) in Hin.
  apply in_called in Hin. destruct Hin as (k' & Hk). apply filter_In in Hk. apply in_called. exists k'. tauto.
Qed.

Lemma firstn_below (l : list nat) : sorted l -> forall n i, nth_error l n = Some i ->
  forall j, In j (firstn n l) <-> In j l /\ (j < i)%nat.
Proof.
  induction 1 as [|x l H IH Hx]; intros n i Hn j; [destruct n; discriminate|].
  rewrite Forall_forall in Hx. destruct n as [|n]; cbn [nth_error firstn In] in *.
  - injection Hn as <-. split; [tauto|]. intros [[->|Hj] Hlt]; [lia|]. specialize (Hx _ Hj). lia.
  - rewrite (IH _ _ Hn). split.
    + intros [->|[H1 H2]]; [|auto]. split; [auto|]. apply Hx. eapply nth_error_In; eauto.
    + intros [[->|H1] H2]; auto.
Qed.

Lemma tx_counts pol es s w os i u t v : history handler pol es s w os -> In (Sent i u t v) os ->
  t = N.of_nat (valid_before os i) mod 65536.
Proof.
  intros H Hs. apply history_reached in H. destruct H as (C & _).
  destruct (co_tx _ _ C) as (acc & Hso & _ & _ & _ & _ & Htx & Hdown & Hval & _).
  destruct (Htx _ _ _ _ Hs) as (n & Hn & ->). f_equal. f_equal.
  unfold valid_before. fold (early_valid i). rewrite early_ids.
  assert (Hl : List.length (firstn n acc) = n).
  { apply firstn_length_le. apply Nat.lt_le_incl. apply nth_error_Some. congruence. }
  assert (Hnd : NoDup (called_ids os)) by (rewrite (co_called _ _ C); apply seq_NoDup).
  assert (Heq : forall j, In j (firstn n acc) <-> In j (called_ids (filter (early_valid i) os))).
  { intros j. rewrite (firstn_below _ Hso _ _ Hn). rewrite in_called. split.
    - intros [Hj Hlt]. destruct (Hval _ Hj) as (k & Hk & Hv). exists k. apply filter_In. split; [exact Hk|].
      cbn [early_valid]. rewrite Hv. apply Nat.ltb_lt in Hlt. rewrite Hlt. reflexivity.
    - intros (k & Hk). apply filter_In in Hk. destruct Hk as [Hk Hf]. cbn [early_valid] in Hf. apply andb_prop in Hf.
      destruct Hf as [Hlt Hv]. apply Nat.ltb_lt in Hlt. split; [|exact Hlt].
      eapply Hdown; eauto. eapply nth_error_In; eauto. }
  rewrite <- Hl. apply Nat.le_antisymm; apply NoDup_incl_length.
  - apply sorted_nodup in Hso. rewrite <- (firstn_skipn n acc) in Hso. apply nodup_prefix in Hso. exact Hso.
  - intros j. apply Heq.
  - apply called_filter_nodup. exact Hnd.
  - intros j. apply Heq.
Qed.

Lemma valid_before_gap os i j k : NoDup (called_ids os) -> (i < j)%nat -> In (Called i k) os -> im_valid (k_msg k) = true ->
  (valid_before os i < valid_before os j)%nat /\ (valid_before os j - valid_before os i <= j - i)%nat.
Proof.
  intros Hnd Hij Hk Hv. unfold valid_before. fold (early_valid i) (early_valid j).
  rewrite !early_ids. set (A := called_ids (filter (early_valid i) os)). set (B := called_ids (filter (early_valid j) os)).
  assert (HA : forall x, In x A <-> (x < i)%nat /\ exists k, In (Called x k) os /\ im_valid (k_msg k) = true).
  { intros x. unfold A. rewrite in_called. split.
    - intros (k' & H). apply filter_In in H. destruct H as [H1 H2]. cbn [early_valid] in H2. apply andb_prop in H2.
      rewrite Nat.ltb_lt in H2. split; [tauto|]. exists k'. tauto.
    - intros (H1 & k' & H2 & H3). exists k'. apply filter_In. split; [exact H2|]. cbn [early_valid].
      rewrite H3. apply Nat.ltb_lt in H1. rewrite H1. reflexivity. }
  assert (HB : forall x, In x B <-> (x < j)%nat /\ exists k, In (Called x k) os /\ im_valid (k_msg k) = true).
  { intros x. unfold B. rewrite in_called. split.
    - intros (k' & H). apply filter_In in H. destruct H as [H1 H2]. cbn [early_valid] in H2. apply andb_prop in H2.
      rewrite Nat.ltb_lt in H2. split; [tauto|]. exists k'. tauto.
    - intros (H1 & k' & H2 & H3). exists k'. apply filter_In. split; [exact H2|]. cbn [early_valid].
      rewrite H3. apply Nat.ltb_lt in H1. rewrite H1. reflexivity. }
  split.
  - apply (NoDup_incl_length (l := i :: A) (l' := B)).
    + constructor; [rewrite HA; lia|]. apply called_filter_nodup. exact Hnd.
    + intros x [<-|Hx]; apply HB; [split; [lia|eauto]|]. apply HA in Hx. destruct Hx. split; [lia|assumption].
  - assert (Hl : (List.length B <= List.length (A ++ seq i (j - i)))%nat).
    { apply NoDup_incl_length; [apply called_filter_nodup; exact Hnd|].
      intros x Hx. apply HB in Hx. destruct Hx as [Hx Hex]. apply in_or_app.
      destruct (Nat.lt_ge_cases x i); [left; apply HA; auto|right; apply in_seq; lia]. }
    rewrite app_length, seq_length in Hl. lia.
Qed.

Lemma mod_distinct a b : (a < b)%nat -> N.of_nat b < N.of_nat a + 65536 -> N.of_nat a mod 65536 <> N.of_nat b mod 65536.
Proof.
  intros H1 H2 E.
  assert (Ha := N.div_mod (N.of_nat a) 65536 ltac:(discriminate)).
  assert (Hb := N.div_mod (N.of_nat b) 65536 ltac:(discriminate)).
  rewrite <- E in Hb. lia.
Qed.

Lemma tx_distinct pol es s w os i u t v j u' t' v' : history handler pol es s w os ->
  In (Sent i u t v) os -> In (Sent j u' t' v') os -> (i < j)%nat ->
  N.of_nat (valid_before os j) < N.of_nat (valid_before os i) + 65536 -> t <> t'.
Proof.
  intros H Hi Hj Hij Hgap. rewrite (tx_counts _ _ _ _ _ _ _ _ _ H Hi), (tx_counts _ _ _ _ _ _ _ _ _ H Hj).
  destruct (frames_sent _ _ _ _ _ _ _ _ _ _ H Hi) as (k & Hk & Hv & _).
  assert (Hc := H). apply history_reached in Hc. destruct Hc as (C & _).
  apply mod_distinct; [|exact Hgap]. apply (valid_before_gap os i j k); auto.
  rewrite (co_called _ _ C). apply seq_NoDup.
Qed.

Lemma tx_distinct_near pol es s w os i u t v j u' t' v' : history handler pol es s w os ->
  In (Sent i u t v) os -> In (Sent j u' t' v') os -> (i < j)%nat -> N.of_nat j < N.of_nat i + 65536 -> t <> t'.
Proof.
  intros H Hi Hj Hij Hgap. eapply (tx_distinct _ _ _ _ _ i _ _ _ j); eauto.
  destruct (frames_sent _ _ _ _ _ _ _ _ _ _ H Hi) as (k & Hk & Hv & _).
  assert (Hc := H). apply history_reached in Hc. destruct Hc as (C & _).
  assert (Hnd : NoDup (called_ids os)) by (rewrite (co_called _ _ C); apply seq_NoDup).
  destruct (valid_before_gap os i j k Hnd Hij Hk Hv) as [_ Hg]. lia.
Qed.
End More.
