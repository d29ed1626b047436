(** The properties of the sessions of a channel. *)
From Verif Require Import Prelude Ser4 Messages Mbap SpecPdu SpecMbap Client SpecClient MbapFacts CodecLemmas
  ClientFacts ClientLemmas ClientShutdown ClientResponses ClientOutcomes ClientView
  Scheduled SpecScheduled ScheduledFacts ScheduledLemmas SessionCall Session SpecSession
  SessionLift SessionFacts SessionPolls SessionStop SessionInv.
From Coq Require Import Lia.

Local Notation answer := (expected response).

(** ** Lists *)
Lemma unique_output {A} (f : A -> list nat) L a b i : NoDup (flat_map f L) -> In a L -> In b L -> In i (f a) -> In i (f b) -> a = b.
Proof.
  induction L as [|c L IH]; intros Hn Ha Hb Hia Hib; [destruct Ha|]. cbn in Hn.
  assert (H1 : NoDup (flat_map f L)). { clear -Hn. induction (f c) as [|y l IHl]; [exact Hn|]. cbn in Hn. inversion Hn; auto. }
  assert (H2 : forall y, In y (f c) -> ~ In y (flat_map f L)).
  { clear -Hn. induction (f c) as [|y l IHl]; intros u Hu; [destruct Hu|]. cbn in Hn. inversion Hn as [|? ? G1 G2]; subst. destruct Hu as [->|Hu].
    - intros Hu. apply G1. apply in_or_app. right. exact Hu.
    - apply IHl; assumption. }
  destruct Ha as [->|Ha], Hb as [->|Hb].
  - reflexivity.
  - exfalso. apply (H2 _ Hia). apply in_flat_map. exists b. auto.
  - exfalso. apply (H2 _ Hib). apply in_flat_map. exists a. auto.
  - apply IH; assumption.
Qed.

Lemma in_inner o os : In o (inner os) <-> In o os /\ forall c, o <> Channel c.
Proof.
  unfold inner. rewrite filter_In. split; intros [H1 H2]; (split; [exact H1|]).
  - intros c ->. discriminate.
  - destruct o; try reflexivity. exfalso. exact (H2 _ eq_refl).
Qed.

Lemma in_channel c os : In c (of_channel os) <-> In (Channel c) os.
Proof.
  unfold of_channel. rewrite in_flat_map. split.
  - intros (o & H & Hc). destruct o; cbn in Hc; try contradiction. destruct Hc as [->|[]]. exact H.
  - intros H. exists (Channel c). split; [exact H|left; reflexivity].
Qed.

Lemma in_poll j o os : In o (of_poll j os) <-> In (Polled j o) os.
Proof.
  unfold of_poll. rewrite in_flat_map. split.
  - intros (x & H & Hc). destruct x; cbn in Hc; try contradiction. destruct (Nat.eqb_spec j0 j) as [->|]; [|destruct Hc].
    destruct Hc as [->|[]]. exact H.
  - intros H. exists (Polled j o). split; [exact H|]. rewrite Nat.eqb_refl. left. reflexivity.
Qed.

Lemma flat_inner {A} (f : koutput -> list A) os : (forall c, f (Channel c) = []) -> flat_map f (inner os) = flat_map f os.
Proof.
  intros H. unfold inner. induction os as [|o os IH]; [reflexivity|]. cbn. destruct o; cbn; rewrite IH; try reflexivity. rewrite H. reflexivity.
Qed.

Lemma of_poll_inner j os : of_poll j (inner os) = of_poll j os.
Proof. apply flat_inner. reflexivity. Qed.

(** The [n]-th call is that of number [n]. *)
Lemma nth_call os : forall i0 i k, called_ids os = seq i0 (List.length (called_ids os)) -> nth_error (calls_of os) i = Some k -> In (Called (i0 + i) k) os.
Proof.
  induction os as [|o os IH]; intros i0 i k Hs Hn; [destruct i; discriminate|].
  destruct o as [i' k'|i' u t v|i' y|i' t|]; cbn [called_ids calls_of flat_map app] in Hs, Hn; try (right; eapply IH; eassumption).
  cbn [List.length seq] in Hs. injection Hs as -> Hs. destruct i as [|i].
  - cbn in Hn. inversion Hn; subst. left. rewrite Nat.add_0_r. reflexivity.
  - right. rewrite <- Nat.add_succ_comm. apply IH; assumption.
Qed.

Lemma call_nth os : forall i0 i k, called_ids os = seq i0 (List.length (called_ids os)) -> In (Called i k) os -> exists n, i = (i0 + n)%nat /\ nth_error (calls_of os) n = Some k.
Proof.
  induction os as [|o os IH]; intros i0 i k Hs Hin; [destruct Hin|]. destruct Hin as [->|Hin].
  - cbn [called_ids flat_map app List.length seq] in Hs. injection Hs as -> _. exists O. split; [lia|reflexivity].
  - destruct o as [i' k'|i' u t v|i' y|i' t|]; cbn [called_ids calls_of flat_map app] in Hs |- *; try (eapply IH; eassumption).
    cbn [List.length seq] in Hs. injection Hs as -> Hs. destruct (IH _ _ _ Hs Hin) as (n & -> & Hn). exists (S n). split; [lia|exact Hn].
Qed.

(** ** Responses are bytes *)
Lemma result_bytes {W} (handler : nat -> W -> expected (list N) -> W * list capi) pol es : forall s w os i d,
  history handler pol es s w os -> In (Completed i (Value d)) os -> bytes d.
Proof.
  induction es as [|e es IH] using rev_ind; intros s w os i d H Hin.
  { destruct H as (buf & w0 & _ & _ & E). inversion E; subst. destruct Hin. }
  destruct (history_split _ _ _ _ _ _ _ H) as (s1 & w1 & os1 & o & H1 & Es & -> & Ht).
  apply in_app_or in Hin. destruct Hin as [Hin|Hin]; [exact (IH _ _ _ _ _ H1 Hin)|].
  apply in_split in Hin. destruct Hin as (o1 & o2 & Eo).
  assert (Hin : In (Completed i (Value d)) o) by (rewrite Eo; apply in_or_app; right; left; reflexivity).
  assert (Eo' : os1 ++ o = (os1 ++ o1) ++ Completed i (Value d) :: o2) by (rewrite Eo, app_assoc; reflexivity).
  destruct (response_source _ _ _ _ _ _ _ _ _ _ _ _ _ _ H1 Ht Es Eo') as (chunk & it & unit & tx & v & -> & _).
  { rewrite app_length. lia. }
  destruct (history_reached _ _ _ _ _ _ H1) as (C & St & (t & HR & Htr)).
  cbn [client_step] in Es. unfold on_receive in Es.
  destruct (cc_shutdown s1) eqn:Hs; [injection Es as <- <- <-; destruct Hin|].
  destruct (parse_spec pol _ _ chunk HR Ht) as (p' & t' & items & outs & Ep & Hty & Hcut & HR' & Hm & _).
  rewrite Ep in Es. cbn [obind] in Es. injection Es as Es.
  destruct (on_responses_spec handler outs (with_parser s1 p') os1 w1 (core_parser _ _ _ C) St)
    as (s3 & w3 & o3 & E3 & _ & _ & _ & _ & _ & _ & Hsrc).
  rewrite E3 in Es. injection Es as -> -> ->. destruct (Hsrc _ _ _ _ Eo) as (m & Hm' & Hr & _). injection Hr as ->.
  destruct (in_forall2 _ _ _ Hm _ Hm') as (it' & _ & Hmatch). apply Hmatch.
Qed.

(** ** What the handlers are told *)
Lemma result_told r y v : typed_request r -> (forall d, y = Value d -> bytes d) -> session_result r y = Ret v -> told r y v.
Proof.
  intros Hr Hb. destruct y as [d|e]; cbn; [|intros E; inversion E; reflexivity].
  specialize (Hb d eq_refl). destruct (response_classification r d Hr Hb) as (A & B & C & D).
  intros E. destruct v as [resp|e]; cbn.
  - apply A. exact E.
  - destruct D as [(x & D)|[(x & D)|D]]; rewrite D in E; inversion E; subst.
    + apply B. exact D.
    + apply C. exact D.
Qed.

Section Props.
Context {W : Type}.
Context (user : source -> W -> answer -> W * list kapi).
Implicit Types (k : stack W) (os : list koutput) (es : list kevent).

Lemma never_stuck pol buf w es : good_buf buf -> Forall typed_kevent es ->
  exists k os, stack_run user pol (stack_init buf w) es = Ret (k, os) /\ ks_bad (st_rest k) = false.
Proof. intros Hb He. destruct (sessions_run user pol buf w es Hb He) as (k & os & E & V). exists k, os. split; [exact E|exact (vw_bad _ _ _ _ _ _ V)]. Qed.

Lemma channel_history pol es k os : stack_history user pol es k os ->
  exists ces script, history scripted pol ces (st_channel k) script (of_channel os) /\ filter not_api ces = channel_only es.
Proof.
  intros H. destruct (sessions_history _ _ _ _ _ H) as (buf & Hb & V). destruct (vw_channel _ _ _ _ _ _ V) as (ces & script & T & Pl & R).
  exists ces, []. split; [exists buf, (script ++ []); split; [exact Hb|]; split; [exact T|apply R]|].
  unfold plain, channel_events in Pl. unfold channel_only, not_api. rewrite Pl. apply flat_map_ext. intros e. destruct e as [| | | |e]; try reflexivity.
  destruct e; reflexivity.
Qed.

(** The sections below work with the invariant. *)
Lemma sessions_inv pol es k os : stack_history user pol es k os ->
  inv (inner os) (st_rest k) (results (of_channel os)) (calls_of (of_channel os)).
Proof. intros H. destruct (sessions_history _ _ _ _ _ H) as (buf & Hb & V). exact (vw_inv _ _ _ _ _ _ V). Qed.

Lemma sessions_calls pol es k os : stack_history user pol es k os -> called_ids (of_channel os) = seq 0 (List.length (called_ids (of_channel os))).
Proof. intros H. destruct (channel_history _ _ _ _ H) as (ces & script & Hh & _). exact (calls_numbered _ _ _ _ _ _ Hh). Qed.

Lemma completions_once pol es k os : stack_history user pol es k os -> NoDup (map fst (results (of_channel os))).
Proof.
  intros H. destruct (channel_history _ _ _ _ H) as (ces & script & Hh & _). apply at_most_once in Hh. rewrite <- completed_of_results. apply Hh.
Qed.

(** ** Unique outputs *)
Lemma opened_unique L z cs x u d u' d' : reg (W := W) L z cs -> In (Opened x u d) L -> In (Opened x u' d') L -> u = u' /\ d = d'.
Proof.
  intros R H1 H2. assert (E : Opened x u d = Opened x u' d').
  { refine (unique_output (fun o => match o with Opened x _ _ => [x] | _ => [] end) L _ _ x _ H1 H2 _ _); try (left; reflexivity).
    fold (opened_ids L). rewrite (rg_open_ids _ _ _ R). apply seq_NoDup. }
  inversion E; auto.
Qed.

Lemma scheduled_unique L z cs j x r t f x' r' t' f' : reg (W := W) L z cs -> In (Scheduled j x r t f) L -> In (Scheduled j x' r' t' f') L ->
  x = x' /\ r = r' /\ t = t' /\ f = f'.
Proof.
  intros R H1 H2. assert (E : Scheduled j x r t f = Scheduled j x' r' t' f').
  { refine (unique_output (fun o => match o with Scheduled j _ _ _ _ => [j] | _ => [] end) L _ _ j _ H1 H2 _ _); try (left; reflexivity).
    fold (scheduled_ids L). rewrite (rg_sched_ids _ _ _ R). apply seq_NoDup. }
  inversion E; auto.
Qed.

Lemma call_unique L z cs i a b : reg (W := W) L z cs -> In a L -> In b L -> call_ids [a] = [i] -> call_ids [b] = [i] -> a = b.
Proof.
  intros R Ha Hb Ea Eb. refine (unique_output (fun o => match o with Issued i _ _ _ => [i] | Repeated i _ _ => [i] | _ => [] end) L a b i _ Ha Hb _ _).
  - fold (call_ids L). rewrite (rg_call_ids _ _ _ R). apply seq_NoDup.
  - unfold call_ids in Ea. cbn in Ea. rewrite app_nil_r in Ea. rewrite Ea. left. reflexivity.
  - unfold call_ids in Eb. cbn in Eb. rewrite app_nil_r in Eb. rewrite Eb. left. reflexivity.
Qed.

Lemma call_below L z cs i o : reg (W := W) L z cs -> In o L -> call_ids [o] = [i] -> exists w, nth_error (ks_owners z) i = Some w.
Proof.
  intros R H E. assert (Hi : In i (call_ids L)).
  { unfold call_ids. apply in_flat_map. exists o. split; [exact H|]. unfold call_ids in E. cbn in E. rewrite app_nil_r in E. rewrite E. left. reflexivity. }
  rewrite (rg_call_ids _ _ _ R) in Hi. apply in_seq in Hi. destruct (nth_error (ks_owners z) i) as [w|] eqn:En; [eauto|].
  apply nth_error_None in En. lia.
Qed.

Lemma issued_owner L z cs i x r t : reg (W := W) L z cs -> In (Issued i x r t) L -> nth_error (ks_owners z) i = Some (ByUser r) /\
  exists s, nth_error (ks_sessions z) x = Some s /\ nth_error cs i = Some (session_call (ss_unit s) r (timeout_or t (ss_timeout s))).
Proof.
  intros R H. destruct (call_below _ _ _ i _ R H eq_refl) as (w & Ew). pose proof (rg_owner _ _ _ R _ _ Ew) as K.
  destruct w as [r'|j n]; cbn [owner_known] in K.
  - destruct K as (x' & t' & s & K1 & K2 & K3). assert (E := call_unique _ _ _ i _ _ R H K1 eq_refl eq_refl). inversion E; subst.
    split; [exact Ew|]. exists s. auto.
  - destruct K as (K1 & _). assert (E := call_unique _ _ _ i _ _ R H K1 eq_refl eq_refl). discriminate.
Qed.

Lemma repeated_owner L z cs i j n : reg (W := W) L z cs -> In (Repeated i j n) L -> nth_error (ks_owners z) i = Some (ByPoll j n) /\
  exists p s, nth_error (ks_polls z) j = Some p /\ nth_error (ks_sessions z) (po_session p) = Some s /\
    nth_error cs i = Some (session_call (ss_unit s) (po_request p) (po_timeout p)).
Proof.
  intros R H. destruct (call_below _ _ _ i _ R H eq_refl) as (w & Ew). pose proof (rg_owner _ _ _ R _ _ Ew) as K.
  destruct w as [r'|j' n']; cbn [owner_known] in K.
  - destruct K as (x' & t' & s & K1 & _). assert (E := call_unique _ _ _ i _ _ R H K1 eq_refl eq_refl). discriminate.
  - destruct K as (K1 & p & s & K2). assert (E := call_unique _ _ _ i _ _ R H K1 eq_refl eq_refl). inversion E; subst.
    split; [exact Ew|]. exists p, s. exact K2.
Qed.

Lemma scheduled_poll L z cs j x r t f : reg (W := W) L z cs -> In (Scheduled j x r t f) L ->
  exists p s, nth_error (ks_polls z) j = Some p /\ po_session p = x /\ po_request p = r /\
    nth_error (ks_sessions z) x = Some s /\ po_timeout p = timeout_or t (ss_timeout s).
Proof.
  intros R H. assert (Hj : In j (scheduled_ids L)).
  { unfold scheduled_ids. apply in_flat_map. eexists. split; [exact H|]. left. reflexivity. }
  rewrite (rg_sched_ids _ _ _ R) in Hj. apply in_seq in Hj. destruct (nth_error (ks_polls z) j) as [p|] eqn:Ep; [|apply nth_error_None in Ep; lia].
  destruct (rg_sched _ _ _ R _ _ Ep) as (t' & f' & s & A & B & C).
  destruct (scheduled_unique _ _ _ _ _ _ _ _ _ _ _ _ R H A) as (-> & -> & -> & ->). exists p, s. auto.
Qed.

Lemma opened_session L z cs x u d s : reg (W := W) L z cs -> In (Opened x u d) L -> nth_error (ks_sessions z) x = Some s -> ss_unit s = u /\ ss_timeout s = d.
Proof. intros R H E. exact (opened_unique _ _ _ _ _ _ _ _ R (rg_open _ _ _ R _ _ E) H). Qed.

(** ** Unit and timeout *)
Ltac into_inner H := apply (proj2 (in_inner _ _)); split; [exact H|discriminate].

Lemma issued_call pol es k os i x r t u d : stack_history user pol es k os ->
  In (Issued i x r t) os -> In (Opened x u d) os -> exists c, In (Channel (Called i c)) os /\ call_for c u d r t.
Proof.
  intros H Hi Ho. destruct (sessions_inv _ _ _ _ H) as [[R _ _] _ _].
  assert (Hi' : In (Issued i x r t) (inner os)) by into_inner Hi. assert (Ho' : In (Opened x u d) (inner os)) by into_inner Ho.
  destruct (issued_owner _ _ _ _ _ _ _ R Hi') as (_ & s & Es & Ec). destruct (opened_session _ _ _ _ _ _ _ R Ho' Es) as [<- <-].
  eexists. split; [apply in_channel; exact (nth_call _ 0 _ _ (sessions_calls _ _ _ _ H) Ec)|]. repeat split.
Qed.

Lemma repeated_call pol es k os i j n x r t f u d : stack_history user pol es k os ->
  In (Repeated i j n) os -> In (Scheduled j x r t f) os -> In (Opened x u d) os -> exists c, In (Channel (Called i c)) os /\ call_for c u d r t.
Proof.
  intros H Hi Hs Ho. destruct (sessions_inv _ _ _ _ H) as [[R _ _] _ _].
  assert (Hi' : In (Repeated i j n) (inner os)) by into_inner Hi. assert (Ho' : In (Opened x u d) (inner os)) by into_inner Ho.
  assert (Hs' : In (Scheduled j x r t f) (inner os)) by into_inner Hs.
  destruct (repeated_owner _ _ _ _ _ _ R Hi') as (_ & p & s & Ep & Es & Ec).
  destruct (scheduled_poll _ _ _ _ _ _ _ _ R Hs') as (p' & s' & Ep' & E1 & E2 & E3 & E4). rewrite Ep in Ep'. inversion Ep'; subst p'.
  rewrite E1 in Es. rewrite E3 in Es. inversion Es; subst s'. destruct (opened_session _ _ _ _ _ _ _ R Ho' E3) as [<- <-].
  eexists. split; [apply in_channel; exact (nth_call _ 0 _ _ (sessions_calls _ _ _ _ H) Ec)|].
  split; [reflexivity|]. split; cbn; [rewrite E2; reflexivity|exact E4].
Qed.

Lemma call_origin pol es k os i c : stack_history user pol es k os -> In (Channel (Called i c)) os ->
  exists x u d r t, In (Opened x u d) os /\ call_for c u d r t /\
    (In (Issued i x r t) os \/ exists j n f, In (Repeated i j n) os /\ In (Scheduled j x r t f) os).
Proof.
  intros H Hc. destruct (sessions_inv _ _ _ _ H) as [[R _ _] _ _]. apply in_channel in Hc.
  destruct (call_nth _ 0 _ _ (sessions_calls _ _ _ _ H) Hc) as (n & -> & En). cbn.
  destruct (nth_error (ks_owners (st_rest k)) n) as [w|] eqn:Ew.
  2:{ apply nth_error_None in Ew. rewrite <- (rg_calls _ _ _ R) in Ew. apply nth_below in En. lia. }
  pose proof (rg_owner _ _ _ R _ _ Ew) as K. destruct w as [r|j m]; cbn [owner_known] in K.
  - destruct K as (x & t & s & K1 & K2 & K3). rewrite En in K3. inversion K3; subst.
    exists x, (ss_unit s), (ss_timeout s), r, t. split; [apply (proj1 (in_inner _ _) (rg_open _ _ _ R _ _ K2))|].
    split; [repeat split|]. left. apply (proj1 (in_inner _ _) K1).
  - destruct K as (K1 & p & s & K2 & K3 & K4). rewrite En in K4. inversion K4; subst.
    destruct (rg_sched _ _ _ R _ _ K2) as (t & f & s' & A & B & C). rewrite K3 in B. inversion B; subst s'.
    exists (po_session p), (ss_unit s), (ss_timeout s), (po_request p), t. split; [apply (proj1 (in_inner _ _) (rg_open _ _ _ R _ _ K3))|].
    split; [split; [reflexivity|]; split; [reflexivity|exact C]|]. right. exists j, m, f.
    split; [apply (proj1 (in_inner _ _) K1)|apply (proj1 (in_inner _ _) A)].
Qed.

(** ** One-time requests *)
Lemma in_answers i v L : In (i, v) (answers L) <-> In (Answered i v) L.
Proof.
  unfold answers. rewrite in_flat_map. split.
  - intros (o & H & Ho). destruct o; cbn in Ho; try contradiction. destruct Ho as [E|[]]. inversion E; subst. exact H.
  - intros H. exists (Answered i v). split; [exact H|left; reflexivity].
Qed.

Lemma answers_inner os : answers (inner os) = answers os.
Proof. apply flat_inner. reflexivity. Qed.

Lemma answered_map os : answered_ids os = map fst (answers os).
Proof.
  unfold answered_ids, answers. induction os as [|o os IH]; [reflexivity|]. cbn. rewrite map_app, IH. destruct o; reflexivity.
Qed.

Lemma in_answered i os : In i (answered_ids os) <-> exists v, In (Answered i v) os.
Proof.
  rewrite answered_map, in_map_iff. split.
  - intros ((i' & v) & <- & H). exists v. apply in_answers. exact H.
  - intros (v & H). exists (i, v). split; [reflexivity|]. apply in_answers. exact H.
Qed.

Lemma answer_source pol es k os i v : stack_history user pol es k os -> In (Answered i v) os ->
  exists x r t y, In (Issued i x r t) os /\ In (Channel (Completed i y)) os /\ (typed_request r -> told r y v).
Proof.
  intros H Hin. destruct (sessions_inv _ _ _ _ H) as [[R Y A] _ _].
  assert (Hin' : In (Answered i v) (inner os)) by into_inner Hin. apply in_answers in Hin'. rewrite (an_user _ _ _ A) in Hin'.
  apply in_flat_map in Hin'. destruct Hin' as ([i' y] & HD & Hv). unfold answer_of in Hv. cbn [fst snd] in Hv.
  destruct (nth_error (ks_owners (st_rest k)) i') as [[r|j n]|] eqn:Eo; try contradiction.
  destruct (session_result r y) as [v'|] eqn:Ev; [|contradiction]. destruct Hv as [E|[]]. inversion E; subst.
  destruct (rg_owner _ _ _ R _ _ Eo) as (x & t & s & K1 & _). exists x, r, t, y. split; [apply (proj1 (in_inner _ _) K1)|].
  destruct (channel_history _ _ _ _ H) as (ces & script & Hh & _).
  apply (in_results scripted) in HD. split; [apply in_channel; exact HD|]. intros Hr.
  apply result_told; [exact Hr| |exact Ev]. intros d ->. exact (result_bytes _ _ _ _ _ _ _ _ Hh HD).
Qed.

Lemma answered_when_completed pol es k os i x r t y : stack_history user pol es k os ->
  In (Issued i x r t) os -> In (Channel (Completed i y)) os -> exists v, In (Answered i v) os /\ (typed_request r -> told r y v).
Proof.
  intros H Hi Hc. destruct (sessions_inv _ _ _ _ H) as [[R Y A] _ _].
  assert (Hi' : In (Issued i x r t) (inner os)) by into_inner Hi. destruct (issued_owner _ _ _ _ _ _ _ R Hi') as (Eo & _).
  destruct (session_result_total r y) as (v & Ev). exists v. apply in_channel in Hc. split.
  - assert (In (i, v) (answers (inner os))); [|rewrite answers_inner in H0; apply in_answers; exact H0].
    rewrite (an_user _ _ _ A). apply in_flat_map. exists (i, y). split; [apply (in_results scripted); exact Hc|].
    unfold answer_of. cbn [fst snd]. rewrite Eo, Ev. left. reflexivity.
  - intros Hr. destruct (channel_history _ _ _ _ H) as (ces & script & Hh & _).
    apply result_told; [exact Hr| |exact Ev]. intros d ->. exact (result_bytes _ _ _ _ _ _ _ _ Hh Hc).
Qed.

Lemma answered_once pol es k os : stack_history user pol es k os -> NoDup (answered_ids os) /\ incl (answered_ids os) (issued_ids os).
Proof.
  intros H. split.
  - assert (Hn := completions_once _ _ _ _ H). destruct (sessions_inv _ _ _ _ H) as [[R Y A] _ _].
    rewrite answered_map, <- answers_inner, (an_user _ _ _ A). revert Hn. generalize (results (of_channel os)). clear.
    induction l as [|[i y] l IH]; intros Hn; [constructor|]. inversion Hn as [|? ? H1 H2]; subst. cbn [flat_map]. rewrite map_app.
    assert (Hin : forall i', In i' (map fst (flat_map (answer_of (st_rest k)) l)) -> In i' (map fst l)).
    { intros i' Hi. apply in_map_iff in Hi. destruct Hi as ([i2 v] & <- & Hi). apply in_flat_map in Hi. destruct Hi as ([i3 y'] & Hi & Hv).
      apply in_map_iff. exists (i3, y'). split; [|exact Hi]. unfold answer_of in Hv. cbn [fst snd] in *.
      destruct (nth_error _ _) as [[]|]; try contradiction. destruct (session_result _ _); [|contradiction]. destruct Hv as [E|[]]. inversion E; subst. reflexivity. }
    unfold answer_of at 1. cbn [fst snd]. destruct (nth_error _ _) as [[r|]|]; try exact (IH H2).
    destruct (session_result r y); [|exact (IH H2)]. cbn. constructor; [|exact (IH H2)]. intros Hi. exact (H1 (Hin _ Hi)).
  - intros i Hi. apply in_answered in Hi. destruct Hi as (v & Hi). destruct (answer_source _ _ _ _ _ _ H Hi) as (x & r & t & y & K & _).
    unfold issued_ids. apply in_flat_map. exists (Issued i x r t). split; [exact K|left; reflexivity].
Qed.

Lemma called_issued pol es k os i : stack_history user pol es k os -> In i (call_ids os) -> In i (called_ids (of_channel os)).
Proof.
  intros H Hi. destruct (sessions_inv _ _ _ _ H) as [[R Y A] _ _].
  assert (E : call_ids os = call_ids (inner os)) by (symmetry; apply flat_inner; reflexivity).
  rewrite E, (rg_call_ids _ _ _ R), <- (rg_calls _ _ _ R), calls_length, <- (sessions_calls _ _ _ _ H) in Hi. exact Hi.
Qed.

Lemma completed_at_rest pol es k os i : stack_history user pol es k os -> quiescent (st_channel k) -> ~ In (Channel TcpShutdown) os ->
  In i (call_ids os) -> exists y, In (Channel (Completed i y)) os.
Proof.
  intros H Hq Hs Hi. destruct (channel_history _ _ _ _ H) as (ces & script & Hh & _).
  apply (called_issued _ _ _ _ _ H) in Hi.
  destruct (in_dec Nat.eq_dec i (completed_ids (of_channel os))) as [Hc|Hc].
  - rewrite completed_of_results in Hc. apply in_map_iff in Hc. destruct Hc as ([i' y] & <- & Hc). exists y. apply in_channel. apply (in_results scripted). exact Hc.
  - exfalso. apply Hs. apply in_channel. exact (lost_only_by_shutdown _ _ _ _ _ _ _ Hh Hq Hi Hc).
Qed.

Lemma answered_at_rest pol es k os i : stack_history user pol es k os -> quiescent (st_channel k) -> ~ In (Channel TcpShutdown) os ->
  In i (issued_ids os) -> count_occ Nat.eq_dec (answered_ids os) i = 1%nat.
Proof.
  intros H Hq Hs Hi. unfold issued_ids in Hi. apply in_flat_map in Hi. destruct Hi as (o & Ho & Hi). destruct o; try contradiction.
  destruct Hi as [->|[]]. assert (Hc : In i (call_ids os)) by (unfold call_ids; apply in_flat_map; eexists; split; [exact Ho|left; reflexivity]).
  destruct (completed_at_rest _ _ _ _ _ H Hq Hs Hc) as (y & Hy). destruct (answered_when_completed _ _ _ _ _ _ _ _ _ H Ho Hy) as (v & Hv & _).
  destruct (answered_once _ _ _ _ H) as [Hn _]. apply NoDup_count_occ'; [exact Hn|]. apply in_answered. eauto.
Qed.

(** ** Scheduled requests *)
Lemma poll_history pol es k os j x r t f : stack_history user pol es k os -> In (Scheduled j x r t f) os ->
  exists ses s, schedule no_calls f ses s tt (of_poll j os) /\ sr_running s = is_running k j.
Proof.
  intros H Hj. destruct (sessions_inv _ _ _ _ H) as [[R Y A] _ _].
  assert (Hj' : In (Scheduled j x r t f) (inner os)) by into_inner Hj. destruct (scheduled_poll _ _ _ _ _ _ _ _ R Hj') as (p & s & Ep & _).
  destruct (dy_sched _ _ _ Y _ _ _ _ _ _ Ep Hj') as (ses & Hs). rewrite of_poll_inner in Hs. exists ses, (po_sched p). split; [exact Hs|].
  unfold is_running. rewrite Ep. reflexivity.
Qed.

Lemma poll_answer pol es k os j x r t f n v : stack_history user pol es k os -> In (Scheduled j x r t f) os ->
  In (Polled j (Response n v)) os ->
  exists i y, In (Repeated i j n) os /\ In (Channel (Completed i y)) os /\ (typed_request r -> told r y v).
Proof.
  intros H Hj Hin. destruct (sessions_inv _ _ _ _ H) as [[R Y A] _ _].
  assert (Hj' : In (Scheduled j x r t f) (inner os)) by into_inner Hj. assert (Hin' : In (Polled j (Response n v)) (inner os)) by into_inner Hin.
  apply (an_poll _ _ _ A) in Hin'. destruct Hin' as (i & y & p & HD & Eo & Ep & Ev).
  destruct (scheduled_poll _ _ _ _ _ _ _ _ R Hj') as (p' & s & Ep' & _ & Er & _). rewrite Ep in Ep'. inversion Ep'; subst p'. subst r.
  destruct (rg_owner _ _ _ R _ _ Eo) as (K1 & _). exists i, y. split; [apply (proj1 (in_inner _ _) K1)|].
  apply (in_results scripted) in HD. split; [apply in_channel; exact HD|]. intros Hr.
  destruct (channel_history _ _ _ _ H) as (ces & script & Hh & _).
  apply result_told; [exact Hr| |exact Ev]. intros d ->. exact (result_bytes _ _ _ _ _ _ _ _ Hh HD).
Qed.

Lemma poll_answered pol es k os i j n y : stack_history user pol es k os -> In (Repeated i j n) os -> In (Channel (Completed i y)) os ->
  exists v, In (Polled j (Response n v)) os.
Proof.
  intros H Hi Hc. destruct (sessions_inv _ _ _ _ H) as [[R Y A] _ _].
  assert (Hi' : In (Repeated i j n) (inner os)) by into_inner Hi. destruct (repeated_owner _ _ _ _ _ _ R Hi') as (Eo & p & s & Ep & _).
  destruct (session_result_total (po_request p) y) as (v & Ev). exists v. apply in_channel in Hc. apply (in_results scripted) in Hc.
  assert (K : In (Polled j (Response n v)) (inner os)) by (apply (an_poll _ _ _ A); exists i, y, p; auto).
  apply (proj1 (in_inner _ _) K).
Qed.

(** Each request of a scheduled request is one call of the channel. *)
Lemma repeated_requests pol es k os j n : stack_history user pol es k os ->
  (In (Polled j (Request n)) os <-> exists i, In (Repeated i j n) os).
Proof.
  intros H. destruct (sessions_inv _ _ _ _ H) as [[R Y A] _ _].
  assert (G : forall p, nth_error (ks_polls (st_rest k)) j = Some p -> exists f ses, schedule no_calls f ses (po_sched p) tt (of_poll j (inner os))).
  { intros p Ep. destruct (rg_sched _ _ _ R _ _ Ep) as (t & f & s & Hs & _). destruct (dy_sched _ _ _ Y _ _ _ _ _ _ Ep Hs) as (ses & K). eauto. }
  split.
  - intros Hin. assert (Hin' : In (Polled j (Request n)) (inner os)) by into_inner Hin.
    assert (Hj := dy_fresh _ _ _ Y _ _ Hin'). destruct (nth_error (ks_polls (st_rest k)) j) as [p|] eqn:Ep; [|apply nth_error_None in Ep; lia].
    destruct (G _ eq_refl) as (f & ses & Hs). apply schedule_inv in Hs. apply in_poll in Hin'.
    assert (K : exists i, nth_error (ks_owners (st_rest k)) i = Some (ByPoll j n)).
    { destruct (answered n (of_poll j (inner os))) eqn:Ea.
      - apply answered_in in Ea. destruct Ea as (v & Ea). apply in_poll in Ea. apply (an_poll _ _ _ A) in Ea. destruct Ea as (i & y & p' & _ & Eo & _). eauto.
      - assert (Hu := request_in_unanswered _ _ Hin' Ea). rewrite (v_open _ _ _ _ Hs) in Hu. apply (dy_out _ _ _ Y _ _ _ Ep) in Hu.
        destruct Hu as (i & Eo & _). eauto. }
    destruct K as (i & Eo). destruct (rg_owner _ _ _ R _ _ Eo) as (K & _). exists i. apply (proj1 (in_inner _ _) K).
  - intros (i & Hi). assert (Hi' : In (Repeated i j n) (inner os)) by into_inner Hi.
    destruct (repeated_owner _ _ _ _ _ _ R Hi') as (Eo & p & s & Ep & _). destruct (G _ Ep) as (f & ses & Hs). apply schedule_inv in Hs.
    assert (Hn := dy_next _ _ _ Y _ _ _ _ Eo Ep). assert (Hr : In n (requested (of_poll j (inner os)))).
    { rewrite (v_requested _ _ _ _ Hs). apply in_seq. lia. }
    apply requested_in in Hr. rewrite of_poll_inner in Hr. apply in_poll. exact Hr.
Qed.

Lemma repeated_once pol es k os i i' j n : stack_history user pol es k os -> In (Repeated i j n) os -> In (Repeated i' j n) os -> i = i'.
Proof.
  intros H Hi Hi2. destruct (sessions_inv _ _ _ _ H) as [[R Y A] _ _].
  assert (K1 : In (Repeated i j n) (inner os)) by into_inner Hi. assert (K2 : In (Repeated i' j n) (inner os)) by into_inner Hi2.
  destruct (repeated_owner _ _ _ _ _ _ R K1) as (E1 & _). destruct (repeated_owner _ _ _ _ _ _ R K2) as (E2 & _).
  exact (dy_once _ _ _ Y _ _ _ _ E1 E2).
Qed.

(** Polling never dies. *)
Lemma polling_lives pol es k os j : stack_history user pol es k os -> resting k -> ~ In (Channel TcpShutdown) os -> is_running k j = false.
Proof.
  intros H (Hq & Hk & Ht) Hs. unfold is_running. destruct (nth_error (ks_polls (st_rest k)) j) as [p|] eqn:Ep; [|reflexivity].
  destruct (sr_running (po_sched p)) eqn:Er; [|reflexivity]. exfalso.
  destruct (sessions_inv _ _ _ _ H) as [[R Y A] _ _].
  destruct (rg_sched _ _ _ R _ _ Ep) as (t & f & s & Hs' & _). destruct (dy_sched _ _ _ Y _ _ _ _ _ _ Ep Hs') as (ses & K).
  apply schedule_inv in K. assert (Hb := v_busy _ _ _ _ K Er). rewrite Forall_forall in Ht. destruct (Ht p (nth_error_In _ _ Ep)) as [E1 E2].
  unfold load in Hb. rewrite E1, E2 in Hb. cbn in Hb. destruct (sr_outstanding (po_sched p)) as [|n l] eqn:Eo; [cbn in Hb; lia|].
  assert (Hn : In n (sr_outstanding (po_sched p))) by (rewrite Eo; left; reflexivity).
  apply (dy_out _ _ _ Y _ _ _ Ep) in Hn. destruct Hn as (i & Ei & Hi). destruct (rg_owner _ _ _ R _ _ Ei) as (Hr & _).
  apply (proj1 (in_inner _ _)) in Hr. destruct Hr as [Hr _].
  assert (Hc : In i (call_ids os)) by (unfold call_ids; apply in_flat_map; eexists; split; [exact Hr|left; reflexivity]).
  destruct (completed_at_rest _ _ _ _ _ H Hq Hs Hc) as (y & Hy). apply Hi. apply in_channel in Hy. apply (in_results scripted) in Hy.
  apply in_map_iff. exists (i, y). split; [reflexivity|exact Hy].
Qed.

(** ** Shutdown of a session *)
Lemma phase_inner j x os : forall h, fold_left (phase_step j x) (inner os) h = fold_left (phase_step j x) os h.
Proof.
  unfold inner. induction os as [|o os IH]; intros h; [reflexivity|]. destruct o; cbn [filter fold_left]; try apply IH.
  rewrite IH. destruct h; reflexivity.
Qed.

Lemma phase_live j x os : (forall a, In (Asked a) os -> a <> CloseSession x) -> fold_left (phase_step j x) os Live = Live.
Proof.
  induction os as [|o os IH]; intros H; [reflexivity|]. cbn [fold_left].
  assert (E : phase_step j x Live o = Live).
  { destruct o; try reflexivity. cbn. destruct a; try reflexivity. destruct (Nat.eqb_spec x0 x) as [->|]; [|reflexivity].
    exfalso. exact (H _ (or_introl eq_refl) eq_refl). }
  rewrite E. apply IH. intros a Ha. apply H. right. exact Ha.
Qed.

Lemma phase_closed j x os : (forall a, In (Asked a) os -> a <> OnSchedule j Start) -> fold_left (phase_step j x) os Closed = Closed.
Proof.
  induction os as [|o os IH]; intros H; [reflexivity|]. cbn [fold_left].
  assert (E : phase_step j x Closed o = Closed).
  { destruct o; try reflexivity. cbn. destruct a as [| | |j' a| |]; try reflexivity. destruct a; try reflexivity.
    destruct (Nat.eqb_spec j' j) as [->|]; [|reflexivity]. exfalso. exact (H _ (or_introl eq_refl) eq_refl). }
  rewrite E. apply IH. intros a Ha. apply H. right. exact Ha.
Qed.

Lemma closed_stops pol es k os j x r t f a m b : stack_history user pol es k os ->
  os = a ++ Scheduled j x r t f :: m ++ Asked (CloseSession x) :: b -> ~ In (Asked (CloseSession x)) m ->
  ~ In (Asked (OnSchedule j Start)) b -> ks_queue (st_rest k) = [] -> is_running k j = false.
Proof.
  intros H Eos Hm Hb Hq. destruct (sessions_inv _ _ _ _ H) as [[R Y A] _ S].
  assert (Hin : In (Scheduled j x r t f) os) by (rewrite Eos; apply in_or_app; right; left; reflexivity).
  assert (Hin' : In (Scheduled j x r t f) (inner os)) by into_inner Hin.
  destruct (scheduled_poll _ _ _ _ _ _ _ _ R Hin') as (p & s & Ep & E1 & E2 & E3 & _).
  unfold is_running. rewrite Ep. subst x.
  assert (Hph : phase_of j (po_session p) (inner os) = Closed).
  { unfold phase_of. rewrite phase_inner, Eos, fold_left_app. cbn [fold_left].
    assert (Hfresh : fold_left (phase_step j (po_session p)) a NotYet = NotYet).
    { apply (phase_fresh j (po_session p) a). intros x' r' t' f' Ha.
      assert (Hn : NoDup (scheduled_ids os)).
      { replace (scheduled_ids os) with (scheduled_ids (inner os)) by (apply flat_inner; reflexivity). rewrite (rg_sched_ids _ _ _ R). apply seq_NoDup. }
      rewrite Eos in Hn. unfold scheduled_ids in Hn. rewrite flat_map_app in Hn. cbn [flat_map app] in Hn. apply NoDup_remove_2 in Hn.
      apply Hn. apply in_or_app. left. apply in_flat_map. eexists. split; [exact Ha|left; reflexivity]. }
    rewrite Hfresh. cbn [phase_step]. rewrite !Nat.eqb_refl. cbn [andb]. rewrite fold_left_app, phase_live.
    2:{ intros a' Ha' ->. exact (Hm Ha'). }
    cbn [fold_left phase_step]. rewrite Nat.eqb_refl. apply phase_closed. intros a' Ha' ->. exact (Hb Ha'). }
  assert (K := sp_safe _ _ S _ _ _ Ep E3). rewrite Hph in K. unfold safe in K. rewrite Hq in K.
  assert (T := sp_turns _ _ S j). rewrite Hq in T. unfold pending_of in T. rewrite Ep in T. cbn in T.
  destruct (sr_queue (po_sched p)) as [|y l]; [|discriminate]. destruct K as [K|K]; [discriminate|exact K].
Qed.

(** ** Shutdown of the channel *)
Lemma shutdown_closes pol es k os x u d : stack_history user pol es k os -> In (Channel TcpShutdown) os -> In (Opened x u d) os ->
  In (Asked (CloseSession x)) os.
Proof.
  intros H Hs Ho. destruct (sessions_history _ _ _ _ _ H) as (buf & Hb & V). destruct (vw_inv _ _ _ _ _ _ V) as [[R Y A] O S].
  assert (Ho' : In (Opened x u d) (inner os)) by into_inner Ho.
  assert (Hx : (x < List.length (ks_sessions (st_rest k)))%nat).
  { assert (Hx : In x (opened_ids (inner os))) by (unfold opened_ids; apply in_flat_map; eexists; split; [exact Ho'|left; reflexivity]).
    rewrite (rg_open_ids _ _ _ R) in Hx. apply in_seq in Hx. lia. }
  assert (Hd : ks_shutdown (st_rest k) = true).
  { rewrite (vw_down _ _ _ _ _ _ V). apply tcp_shutdown_in. apply in_channel. exact Hs. }
  assert (K := op_closed _ _ O Hd x Hx). apply (proj1 (in_inner _ _) K).
Qed.

Lemma history_snoc pol es e k os : stack_history user pol (es ++ [e]) k os ->
  exists k1 os1 o, stack_history user pol es k1 os1 /\ stack_step user pol k1 e = Ret (k, o) /\ os = os1 ++ o /\ typed_kevent e.
Proof.
  intros (buf & w & Hb & He & E). apply Forall_app in He. destruct He as [He1 He2]. rewrite stack_run_snoc in E.
  destruct (stack_run user pol (stack_init buf w) es) as [[k1 os1]|] eqn:E1; cbn [obind] in E; [|discriminate].
  destruct (stack_step user pol k1 e) as [[k2 o]|] eqn:E2; cbn [obind] in E; [|discriminate]. inversion E; subst.
  exists k1, os1, o. split; [exists buf, w; auto|]. split; [exact E2|]. split; [reflexivity|]. inversion He2; assumption.
Qed.

Lemma split_two {A} (x : A) a b : forall l1 l2, a ++ x :: b = l1 ++ l2 -> (exists b1, l1 = a ++ x :: b1 /\ b = b1 ++ l2) \/ (exists a2, a = l1 ++ a2 /\ l2 = a2 ++ x :: b).
Proof.
  induction a as [|y a IH]; intros l1 l2 E.
  - destruct l1 as [|z l1]; cbn in E; [right; exists []; auto|]. inversion E; subst. left. exists l1. auto.
  - destruct l1 as [|z l1]; cbn in E; [right; exists (y :: a); auto|]. inversion E as [[E1 E2]]; subst.
    destruct (IH _ _ E2) as [(b1 & -> & ->)|(a2 & -> & ->)]; [left; exists b1; auto|right; exists a2; auto].
Qed.

Lemma clean_state pol es k os : stack_history user pol es k os -> clean (tcp_shutdown (of_channel os)) (st_rest k).
Proof.
  intros H. destruct (sessions_history _ _ _ _ _ H) as (buf & Hb & V). split; [rewrite (vw_log _ _ _ _ _ _ V); reflexivity|].
  split; [exact (vw_down _ _ _ _ _ _ V)|exact (vw_bad _ _ _ _ _ _ V)].
Qed.

(** The step that shuts the channel down. *)
Lemma shutdown_step_closes pol es k os e k' o : stack_history user pol es k os -> stack_step user pol k e = Ret (k', o) -> 
  ~ In (Channel TcpShutdown) os -> In (Channel TcpShutdown) o ->
  o = Channel TcpShutdown :: map (fun x => Asked (CloseSession x)) (opened_ids os).
Proof.
  intros H Es Hos Ho. destruct (sessions_history _ _ _ _ _ H) as (buf & Hb & V). destruct (vw_inv _ _ _ _ _ _ V) as [[R Y A] O S].
  assert (Hcl := clean_state _ _ _ _ H).
  assert (Hfin : forall z c b, clean b z -> finish (st_channel k) (z, c) = Ret (k', o) -> False).
  { intros z c b (Hz & _ & _) Ef. cbn [finish] in Ef. destruct (capi_calls (st_channel k) c) as [s1 o1] eqn:E1. inversion Ef; subst.
    apply in_app_or in Ho. destruct Ho as [Ho|Ho].
    - apply in_map_iff in Ho. destruct Ho as (y & Ey & Ho). inversion Ey; subst.
      destruct (capi_calls_spec (st_channel k) c) as (q & o' & m & Eq & Ps). rewrite Eq in E1. inversion E1; subst.
      destruct (only_called_in _ _ (ps_only _ _ _ _ _ Ps) Ho) as (i & kk & Hx). discriminate.
    - rewrite <- Hz in Ho. apply in_inner in Ho. destruct Ho as [_ Ho]. exact (Ho _ eq_refl). }
  destruct e as [a| |j t|j t|e]; cbn [stack_step] in Es.
  - exfalso. destruct (kapi_call (st_rest k) a) as [z c] eqn:E. exact (Hfin _ _ _ (api_clean _ _ _ _ _ Hcl E) Es).
  - exfalso. destruct (ks_queue (st_rest k)) as [|q0 q] eqn:Eq; [inversion Es; subst; destruct Ho|].
    destruct (run_kclosure (with_kqueue (st_rest k) q) q0) as [z c] eqn:E. refine (Hfin _ _ _ (closure_clean _ (with_kqueue (st_rest k) q) _ _ _ _ E) Es). exact Hcl.
  - exfalso. destruct (poll_step (st_rest k) j (SExpire t)) as [z c] eqn:E. exact (Hfin _ _ _ (poll_clean _ _ _ _ _ _ Hcl E) Es).
  - exfalso. destruct (poll_step (st_rest k) j (SFire t)) as [z c] eqn:E. exact (Hfin _ _ _ (poll_clean _ _ _ _ _ _ Hcl E) Es).
  - assert (Hd : (exists a, e = CApi a) \/ (forall a, e <> CApi a)) by (destruct e; eauto; right; discriminate).
    destruct Hd as [(a & ->)|Ha]; [inversion Es; subst; destruct Ho|].
    assert (Es' : (let! (s, z, o) := client_step (on_completion user) pol (st_channel k) (st_rest k) e in
      Ret ({| st_channel := s; st_rest := with_log (close_sessions z o) [] |}, map Channel o ++ ks_log (close_sessions z o))) = Ret (k', o)).
    { destruct e; try exact Es. exfalso. exact (Ha _ eq_refl). }
    destruct (client_step (on_completion user) pol (st_channel k) (st_rest k) e) as [[[s' z'] o1]|] eqn:E1; cbn [obind] in Es'; [|discriminate].
    inversion Es'; subst k' o. destruct (step_seen (on_completion user) pol _ _ _ _ _ _ E1 Ha) as (script & Ew & _ & _).
    assert (Hz := walk_clean _ _ _ _ _ _ Hcl Ew). assert (Hcz := close_clean _ _ o1 Hz). destruct Hcz as (Hcz & _).
    assert (Hin : In TcpShutdown o1).
    { apply in_app_or in Ho. destruct Ho as [Ho|Ho].
      - apply in_map_iff in Ho. destruct Ho as (y & Ey & Ho). inversion Ey; subst. exact Ho.
      - rewrite <- Hcz in Ho. apply in_inner in Ho. destruct Ho as [_ Ho]. exfalso. exact (Ho _ eq_refl). }
    assert (Hsd : cc_shutdown (st_channel k) = false).
    { destruct (channel_history _ _ _ _ H) as (ces & sc & Hh & _). apply (not_down _ _ _ _ _ _ Hh). intros Hx. apply Hos. apply in_channel. exact Hx. }
    assert (Eone := shutdown_step _ _ _ _ _ _ _ _ E1 Hsd Hin). subst o1. cbn in Ew. inversion Ew; subst z' script.
    assert (Hdown : ks_shutdown (st_rest k) = false).
    { rewrite (vw_down _ _ _ _ _ _ V). destruct (tcp_shutdown (of_channel os)) eqn:Et; [|reflexivity]. apply tcp_shutdown_in, in_channel in Et. contradiction. }
    cbn [map app]. f_equal. unfold close_sessions. cbn [existsb orb].
    destruct (kapi_calls (with_closed (st_rest k)) (map CloseSession (ks_open (st_rest k)))) as [z1 c1] eqn:Ec. cbn [fst].
    destruct (close_all _ _ _ _ Ec) as (_ & EL & _). rewrite EL. cbn [ks_log with_closed]. rewrite (vw_log _ _ _ _ _ _ V).
    cbn [app]. rewrite (op_open _ _ O Hdown), <- (rg_open_ids _ _ _ R). f_equal. apply flat_inner. reflexivity.
Qed.

Lemma shutdown_closes_all pol es : forall k os a b, stack_history user pol es k os -> os = a ++ Channel TcpShutdown :: b ->
  ~ In (Channel TcpShutdown) a ->
  (exists b', b = map (fun x => Asked (CloseSession x)) (opened_ids a) ++ b') /\ exists es1 k1, stack_history user pol es1 k1 a.
Proof.
  induction es as [|e es IH] using rev_ind; intros k os a b H Eos Ha.
  { destruct H as (buf & w & _ & _ & E). inversion E; subst. destruct a; discriminate. }
  destruct (history_snoc _ _ _ _ _ H) as (k1 & os1 & o & H1 & Es & E & _). rewrite Eos in E.
  destruct (split_two _ _ _ _ _ E) as [(b1 & E1 & ->)|(a2 & -> & E2)].
  - destruct (IH _ _ _ _ H1 E1 Ha) as ((b' & ->) & K). split; [|exact K]. exists (b' ++ o). apply app_assoc_reverse.
  - assert (Ho : In (Channel TcpShutdown) o) by (rewrite E2; apply in_or_app; right; left; reflexivity).
    assert (Hos : ~ In (Channel TcpShutdown) os1) by (intros Hx; apply Ha; apply in_or_app; left; exact Hx).
    rewrite (shutdown_step_closes _ _ _ _ _ _ _ H1 Es Hos Ho) in E2. destruct a2 as [|y a2].
    + inversion E2; subst. rewrite app_nil_r. split; [exists []; rewrite app_nil_r; reflexivity|eauto].
    + exfalso. inversion E2; subst y. apply Ha. apply in_or_app. right. left. reflexivity.
Qed.

Lemma shutdown_stops pol es k os j x r t f a m b : stack_history user pol es k os ->
  os = (a ++ Scheduled j x r t f :: m) ++ Channel TcpShutdown :: b -> ~ In (Channel TcpShutdown) (a ++ Scheduled j x r t f :: m) ->
  ~ In (Asked (CloseSession x)) m -> ~ In (Asked (OnSchedule j Start)) b -> ks_queue (st_rest k) = [] -> is_running k j = false.
Proof.
  intros H Eos Hf Hm Hb Hq. destruct (shutdown_closes_all _ _ _ _ _ _ H Eos Hf) as ((b' & ->) & es1 & k1 & H1).
  destruct (sessions_inv _ _ _ _ H1) as [[R _ _] _ _].
  assert (Eo : opened_ids (a ++ Scheduled j x r t f :: m) = seq 0 (List.length (ks_sessions (st_rest k1)))).
  { rewrite <- (rg_open_ids _ _ _ R). symmetry. apply flat_inner. reflexivity. }
  assert (Hx : In x (opened_ids (a ++ Scheduled j x r t f :: m))).
  { assert (Hin : In (Scheduled j x r t f) (a ++ Scheduled j x r t f :: m)) by (apply in_or_app; right; left; reflexivity).
    assert (Hin' : In (Scheduled j x r t f) (inner (a ++ Scheduled j x r t f :: m))) by into_inner Hin.
    rewrite Eo. destruct (scheduled_poll _ _ _ _ _ _ _ _ R Hin') as (p & s & _ & _ & _ & Es & _). apply nth_below in Es. apply in_seq. lia. }
  apply in_split in Hx. destruct Hx as (l1 & l2 & El). rewrite El in *.
  assert (Hl : ~ In x l1).
  { assert (Hn : NoDup (l1 ++ x :: l2)) by (rewrite Eo; apply seq_NoDup). apply NoDup_remove_2 in Hn. intros Hx. apply Hn. apply in_or_app. left. exact Hx. }
  rewrite map_app, <- app_assoc in *. cbn [map app] in *.
  refine (closed_stops _ _ _ _ j x r t f a (m ++ Channel TcpShutdown :: map (fun x => Asked (CloseSession x)) l1)
    (map (fun x => Asked (CloseSession x)) l2 ++ b') H _ _ _ Hq).
  - rewrite Eos, <- !app_assoc. cbn [app]. rewrite <- ?app_assoc. reflexivity.
  - intros Hin. apply in_app_or in Hin. destruct Hin as [Hin|Hin]; [exact (Hm Hin)|]. destruct Hin as [Hin|Hin]; [discriminate|].
    apply in_map_iff in Hin. destruct Hin as (y & Ey & Hy). inversion Ey; subst. exact (Hl Hy).
  - intros Hin. apply Hb. apply in_or_app. right. right. exact Hin.
Qed.

(** ** The shutdown of a session does nothing to the channel *)
Lemma stop_calls l : forall (z z' : sessions W) c, kapi_calls z (map (fun j => OnSchedule j Stop) l) = (z', c) -> c = [].
Proof.
  induction l as [|j l IH]; intros z z' c; cbn [map kapi_calls]; [intros E; inversion E; reflexivity|].
  cbn [kapi_call]. destruct (kapi_calls _ _) as [z1 c1] eqn:E1. intros E; inversion E; subst. exact (IH _ _ _ E1).
Qed.

Lemma close_leaves_channel pol k x k' o : stack_step user pol k (KApi (CloseSession x)) = Ret (k', o) -> st_channel k' = st_channel k.
Proof.
  cbn [stack_step kapi_call]. destruct (nth_error _ x); cbn [finish capi_calls]; intros E; inversion E; reflexivity.
Qed.

Lemma stop_all_leaves_channel pol k x q k' o : ks_queue (st_rest k) = StopAll x :: q -> stack_step user pol k KRun = Ret (k', o) ->
  st_channel k' = st_channel k.
Proof.
  intros Hq. cbn [stack_step]. rewrite Hq. cbn [run_kclosure]. destruct (nth_error _ x) as [s|]; [|intros E; inversion E; reflexivity].
  destruct (kapi_calls _ _) as [z1 c1] eqn:E1. rewrite (stop_calls _ _ _ _ E1). intros E; inversion E; reflexivity.
Qed.
End Props.
