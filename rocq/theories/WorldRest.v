(** When the whole is at rest, every request is completed. *)
From Verif Require Import Prelude Ser4 Messages Mbap Client Server Database System.
From Verif Require Import AsyncWrite ClientConn ClientTcp Listener ServerConn ServerTcp World.
From Verif Require Import SpecPdu SpecMbap SpecClient SpecServer SpecDb SpecConn SpecClientTcp SpecServerTcp SpecSystem SpecWorld.
From Verif Require Import ClientFacts ClientLemmas ClientOutcomes DatabaseFacts DbLemmas SystemFacts SystemSteps SystemServe NetFacts CodecLemmas.
From Verif Require Import TcpFacts TcpWire TcpOrder WorldConn WorldSim WorldServe WorldLink WorldLemmas WorldParts.
From Verif Require SystemLemmas.

Lemma taken_waits c : all_taken c -> ~ wwaits c.
Proof. intros H (o & Ho & Ha & Ht). destruct (H o Ho) as [K|K]; congruence. Qed.

Lemma channel_observed l : client_outputs (observed l) = channel_outs (client_marks l).
Proof.
  induction l as [|m l IH]; [reflexivity|]. change (m :: l) with ([m] ++ l). rewrite observed_app, client_marks_app, WorldSim.channel_outs_app.
  unfold client_outputs in *. rewrite flat_map_app, IH. f_equal. destruct m as [[]|[]|m|]; reflexivity.
Qed.

Section Rest.
Context {W : Type} (handler : nat -> W -> expected (list N) -> W * list capi) (pol : copy_policy).

Lemma rest_sent units d w0 es w l : Forall u8 units -> world_history handler pol units d w0 es w l -> orderly handler pol w0 es l ->
  walways handler pol timely_writes w0 es -> at_rest w l -> not_shut_down w -> cn_queue (tc_conn (wd_client w)) = [] ->
  forall i u tx f, In (YC (Sent i u tx f)) (observed l) -> In u units -> exists x, In (YC (Completed i x)) (observed l).
Proof.
  intros Hun ((max & buf & u0 & Hb & ->) & Hd & Ty & Hs & E) O Tw (g & c & v & R1 & R2 & R3 & R4 & R5 & R6 & R7 & R8 & R9 & R10 & R11 & R12) [S1 S2] Q i u tx f Hi Hu.
  destruct (world_sound (strict := true) handler pol Hs units max d _ buf u0 es w l Hun Hb Hd (holds_contents d) Ty E O (fun _ => Tw)) as (n & os & On & S & Sd).
  assert (Th := others_thin _ _ On). apply (thin_in _ _ _ Th) in Hi.
  enough (exists x, In (YC (Completed i x)) os) as (x & Hx) by (exists x; apply (thin_in _ _ _ Th); exact Hx).
  destruct S as [C T P Up Dn]. assert (Hc : cc_shutdown (n_client n) = false) by (rewrite (cp_channel _ _ C); exact S1).
  assert (Hn : cn_shutdown (tc_conn (wd_client w)) = false).
  { destruct (cn_shutdown (tc_conn (wd_client w))) eqn:K; [|reflexivity]. rewrite (cp_down _ _ C (or_introl K)) in Hc. discriminate Hc. }
  assert (U : upright (tc_conn (wd_client w))) by (split; [exact Hn|split; [exact R2|rewrite Q; intros []]]).
  assert (V := cp_conn _ _ C). destruct (ci_connected _ _ _ V R2 Hn) as (_ & _ & Hg). rewrite R3 in Hg. injection Hg as ->.
  assert (Hl := sp_conns _ _ _ _ P c v _ R8 R5). assert (Mc : mine (wd_links w) c) by (unfold mine; rewrite R5; discriminate).
  destruct (sp_inv _ _ _ _ P c v Mc R8) as (_ & _ & _ & Hv). destruct (Hv R9 R10) as [_ Hw].
  assert (Ho : n_out n = None).
  { destruct (n_out n) eqn:K; [|reflexivity]. exfalso. apply (taken_waits _ R4). rewrite <- K in *.
    apply (ci_busy _ _ _ V eq_refl Hn R2); [rewrite Q; intros []|rewrite K; discriminate]. }
  apply (net_quiet handler pol units _ n os (N.of_nat c) Sd Ho (cp_reading _ _ C U) Hl) with (u := u) (tx := tx) (f := f); try assumption.
  - destruct (n_dead n (N.of_nat c)) eqn:K; [|reflexivity]. contradiction (R12 (sp_dead _ _ _ _ P c K)).
  - rewrite <- Up. exact R6.
  - rewrite <- Dn. exact R7.
  - destruct (n_sout n (N.of_nat c)) eqn:K; [|reflexivity]. exfalso. apply (taken_waits _ R11). apply Hw. discriminate.
  - rewrite (sp_channel _ _ _ _ P). exact S2.
Qed.

Lemma world_channel units d w0 es w l : Forall u8 units -> world_history handler pol units d w0 es w l ->
  history handler pol (channel_ins (client_marks l)) (tc_channel (wd_client w)) (tc_user (wd_client w)) (client_outputs (observed l)) /\
  ordered (wd_client w).
Proof.
  intros Hu H. destruct (world_client handler pol units d w0 es w l Hu H) as (ces & Hc & _). rewrite channel_observed.
  split; [exact (channel_view _ _ _ _ _ Hc)|exact (history_ordered _ _ _ _ _ Hc)].
Qed.

Theorem rest_completed units d w0 es w l : Forall u8 units -> world_history handler pol units d w0 es w l -> orderly handler pol w0 es l ->
  walways handler pol timely_writes w0 es -> at_rest w l -> not_shut_down w -> calls_only units (observed l) -> each_completed (observed l).
Proof.
  intros Hu H O Tw R Sh Ca i k Hi. destruct (world_channel units d w0 es w l Hu H) as [Hh Hor].
  assert (Q : cc_queue (tc_channel (wd_client w)) = [] /\ cn_queue (tc_conn (wd_client w)) = []).
  { destruct R as (g & c & v & R1 & _). destruct Hor as [A B]. rewrite R1 in A, B. split; apply length_zero_iff_nil; symmetry; assumption. }
  destruct Q as [Q1 Q2]. assert (Hsent := rest_sent units d w0 es w l Hu H O Tw R Sh Q2).
  destruct (history_reached _ _ _ _ _ _ Hh) as (C & St & _).
  assert (Hcur : cc_current (tc_channel (wd_client w)) = None).
  { destruct (cc_current (tc_channel (wd_client w))) as [p|] eqn:Ep; [|reflexivity]. exfalso.
    assert (Hsp := co_current _ _ C _ Ep). apply in_couts in Hsp.
    destruct (co_service _ _ C p (or_introl Ep)) as (k' & Hk' & _ & Eu & _).
    assert (Hu' : In (pr_unit p) units) by (rewrite Eu; exact (Ca _ _ (proj1 (in_couts _ _) Hk'))).
    destruct (Hsent _ _ _ _ Hsp Hu') as (x & Hx).
    apply (co_gone _ _ C (pr_id p)).
    - apply in_completed. exists x. apply in_couts. exact Hx.
    - unfold live. rewrite Ep. left. reflexivity. }
  assert (Hi' : In i (completed_ids (client_outputs (observed l)) ++ live (tc_channel (wd_client w)))).
  { apply (co_all _ _ C (proj1 Sh)). apply in_couts in Hi.
    assert (Hx : In i (called_ids (client_outputs (observed l)))) by (apply in_called; eauto).
    rewrite (co_called _ _ C) in Hx. apply in_seq in Hx. lia. }
  apply in_app_or in Hi'. destruct Hi' as [Hi'|Hi'].
  - apply in_completed in Hi'. destruct Hi' as (x & Hx). exists x. apply in_couts. exact Hx.
  - exfalso. unfold live in Hi'. rewrite Hcur, (St Hcur), Q1 in Hi'. exact Hi'.
Qed.

(** What a handler is told. *)
Theorem network_outcomes units d w0 es w l : Forall u8 units -> world_history handler pol units d w0 es w l ->
  forall i u r t x, typed_request r -> In (YC (Called i (session_call u r t))) (observed l) -> In (YC (Completed i x)) (observed l) ->
  (~ legal_request r /\ x = Error EMalformedRequest) \/
  (legal_request r /\
    ((exists b, x = Value b) \/
     (x = Error ETimeout /\ exists t xs, In (WClient (TFire t xs)) es) \/
     (exists msg, x = Error (EConnection msg)) /\ In Failed (conn_outs (client_marks l)))).
Proof.
  intros Hu H i u r t x Hty Hc Hx. destruct (world_channel units d w0 es w l Hu H) as [Hh _].
  destruct (world_client handler pol units d w0 es w l Hu H) as (ces & Hces & Hin).
  destruct (history_reached _ _ _ _ _ _ Hh) as (C & _ & _). apply in_couts in Hc. apply in_couts in Hx.
  destruct (co_results _ _ C _ _ Hx) as (k & Hk & Ho). rewrite (call_unique _ _ _ _ _ _ _ _ _ Hh Hk Hc) in Ho.
  destruct Ho as [[Hv ->]|[Hv Ho]].
  - left. split; [|reflexivity]. intros Hl. apply legal_valid in Hl. cbn [k_msg session_call] in Hv. congruence.
  - right. split; [apply valid_legal; [exact Hty|exact Hv]|].
    destruct Ho as [Hb|[->|(m & ->)]]; [left; exact Hb| |].
    + right. left. split; [reflexivity|]. destruct (some_timeout _ _ _ _ _ _ _ Hh Hx) as (_ & t1 & _ & Hf).
      destruct Hces as (buf & u1 & _ & _ & Er). destruct (run_origin _ _ _ _ _ _ Er _ Hf) as (e & He & xs & ->). eauto.
    + right. right. split; [eauto|]. apply SystemLemmas.some_error with (1 := Hh) in Hx.
      destruct (history_wired _ _ _ _ _ Hces) as (_ & _ & _ & Pre & _).
      unfold channel_ins in Hx. apply in_flat_map in Hx. destruct Hx as (mk & Hm & Hx). destruct mk as [e| | |]; try contradiction Hx. destruct Hx as [->|[]].
      apply in_split in Hm. destruct Hm as (a & b & Em). destruct (Pre _ _ _ Em) as (a' & m' & -> & K); [exists (CError m); split; [reflexivity|exact Logic.I]|].
      destruct K as [(g & dd & _ & K)|(msg & -> & _)]; [discriminate K|]. rewrite Em, !WorldSim.conn_outs_app. apply in_or_app. left. apply in_or_app. right. left. reflexivity.
Qed.

Theorem rest_answered units d w0 es w l : Forall u8 units -> world_history handler pol units d w0 es w l -> orderly handler pol w0 es l ->
  walways handler pol timely_writes w0 es -> at_rest w l -> not_shut_down w -> calls_only units (observed l) -> peaceful es l ->
  forall i u r t, In (YC (Called i (session_call u r t))) (observed l) -> legal_request r -> exists x, In (YC (Completed i (Value x))) (observed l).
Proof.
  intros Hu H O Tw R Sh Ca [P1 P2] i u r t Hc Hl. destruct (rest_completed units d w0 es w l Hu H O Tw R Sh Ca _ _ Hc) as (x & Hx).
  assert (Ht : typed_request r) by (apply Hl).
  destruct (network_outcomes units d w0 es w l Hu H i u r t x Ht Hc Hx) as [[K _]|[_ [(b & ->)|[(_ & t1 & xs & K)|[_ K]]]]].
  - contradiction.
  - eauto.
  - contradiction (P1 _ _ K).
  - contradiction.
Qed.
End Rest.
