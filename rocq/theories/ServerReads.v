(** Proofs about the reads of the connections of a server. *)
From Verif Require Import Prelude Ser4 Messages Mbap SpecPdu SpecMbap Server SpecServer ServerLemmas Listener SpecListener AsyncWrite ServerConn SpecConn ServerConnFacts ServerConnMore
  ServerTcp SpecServerTcp ServerTcpTrack ServerTcpTurns ServerTcpFacts ServerTcpLemmas.
From Coq Require Import Lia.

Lemma vrun_parts a : forall b s s2 o, vconn_run s (a ++ b) = Ret (s2, o) -> exists s1 o1 o2, vconn_run s a = Ret (s1, o1) /\ vconn_run s1 b = Ret (s2, o2).
Proof.
  induction a as [|e a IH]; intros b s s2 o E; [exists s, [], o; auto|]. cbn [app] in E. apply vrun_cons in E as (s1 & o1 & o2 & S0 & R & ->).
  apply IH in R as (s3 & o3 & o4 & R1 & R2). exists s3, (o1 ++ o3), o4. split; [|exact R2].
  cbn [vconn_run]. rewrite S0. cbn [obind]. rewrite R1. reflexivity.
Qed.

Lemma accepted_reads k rest v os : ~ In VStart rest -> vconn_run sconn_init (repeat VClose k ++ VStart :: rest) = Ret (v, os) -> reading v.
Proof.
  intros P E. assert (S0 : vconn_run sconn_init (repeat VClose k ++ [VStart]) = Ret (vmk false true true writer_init [(0%nat, true)] (repeat VDoClose k) 1, [])).
  { eapply (ServerTcpTrack.vrun_app _ _ _ _ []); [apply closes_run; reflexivity|]. reflexivity. }
  replace (repeat VClose k ++ VStart :: rest) with ((repeat VClose k ++ [VStart]) ++ rest) in E by (rewrite <- app_assoc; reflexivity).
  apply vrun_parts in E as (s1 & o1 & o2 & E1 & E2). rewrite S0 in E1. injection E1 as <- _. eapply reading_run; [|exact P|exact E2].
  split; [reflexivity|]. split; [right; reflexivity|]. split; discriminate.
Qed.

Section Reads.
Context {W : Type}.
Context (on_request : N -> W -> request -> W * expected response * list api).
Context (on_shutdown : N -> W -> W * list api).

Lemma peer_reads pol max w0 es h m c v : server_history on_request on_shutdown pol max w0 es h m -> us_conns h c = Some v -> reading v /\ kept v.
Proof.
  intros H C. destruct (server_parts _ _ _ _ _ _ _ _ H) as (_ & _ & _ & P). destruct (P c) as [R X]. rewrite C in R, X.
  destruct X as (k & rest & E & N1 & N2). rewrite E in R. split; [exact (accepted_reads _ _ _ _ N1 R)|].
  assert (F : Forall plain_event rest) by (apply Forall_forall; intros e I; split; intros ->; auto). exact (proj1 (accepted_run _ _ _ _ F R)).
Qed.

Lemma one_read_each pol max w0 es h m c v : server_history on_request on_shutdown pol max w0 es h m -> us_conns h c = Some v ->
  (List.length (vn_reads v) <= 1)%nat.
Proof. intros H C. destruct (peer_reads _ _ _ _ _ _ _ _ H C) as ((_ & [R|R] & _) & _); rewrite R; cbn; lia. Qed.

Lemma open_reads pol max w0 es h m c v : server_history on_request on_shutdown pol max w0 es h m -> us_conns h c = Some v ->
  vn_open v = true -> ~ In VDoClose (vn_queue v) -> exists r, vn_reads v = [(r, true)].
Proof.
  intros H C O Q. destruct (peer_reads _ _ _ _ _ _ _ _ H C) as ((_ & [R|R] & B & _) & (K1 & _ & K3)); [|eauto].
  exfalso. destruct (B R) as [X|X]; congruence.
Qed.
End Reads.
