(** Proofs about connection errors, invalid requests and timeouts of the client channel. *)
From Verif Require Import Prelude Ser4 Messages Mbap SpecPdu SpecMbap Client SpecClient MbapFacts MbapLemmas BitFacts
  ClientFacts ClientLemmas ClientTx ClientShutdown ClientResponses.
From Coq Require Import Lia.

Section Outcomes.
Context {W : Type}.
Context (handler : nat -> W -> expected (list N) -> W * list capi).

Lemma in_results i r o : In (Completed i r) o <-> In (i, r) (results o).
Proof.
  unfold results. rewrite in_flat_map. split.
  - intros H. eexists. split; [exact H|]. cbn; auto.
  - intros (x & Hx & Hi). destruct x; cbn in Hi; try tauto. destruct Hi as [Hi|[]]. injection Hi as <- <-. exact Hx.
Qed.

(** ** Connection errors *)

(** The closure of call [i] was not executed yet. *)
Definition unposted (s : client) (i : nat) : Prop := In i (qids (cc_queue s)).

Lemma error_fails_all pol es s w os msg s' w' o : history handler pol es s w os ->
  client_step handler pol s w (CError msg) = Ret (s', w', o) -> ~ In TcpShutdown os ->
  sent_ids o = [] /\ stream (es ++ [CError msg]) = [] /\
  (exists queued outstanding, 
     results o = map (fun i => (i, Error (EConnection msg))) (queued ++ outstanding) /\
     (forall i u t v, In (Sent i u t v) os -> ~ In i (completed_ids os) -> outstanding = [i]) /\
     incl outstanding (sent_ids os) /\
     StronglySorted lt (outstanding ++ queued)) /\
  (forall i, In i (called_ids os) -> ~ In i (completed_ids os) ->
     In (Completed i (Error (EConnection msg))) o \/ In i (qids (cc_queue s))) /\
  cc_current s' = None /\ cc_pending s' = [] /\ cc_armed s' = [] /\ cc_parser s' = mbap_reset (cc_parser s).
Proof.
  intros H E Hn. assert (Hs := not_down _ _ _ _ _ _ H Hn).
  destruct (history_reached _ _ _ _ _ _ H) as (C & St & Tr).
  cbn [client_step] in E. injection E as E.
  destruct (on_error_spec handler s os w msg C St) as (s3 & w3 & o3 & E3 & _ & _ & _ & _ & _ & _ & He).
  rewrite E3 in E. injection E as <- <- <-. destruct (He Hs) as (B1 & B2 & B3 & B4 & Hres & Hsent).
  split; [exact Hsent|]. split; [rewrite stream_snoc; reflexivity|].
  assert (Hr : results o3 = map (fun i => (i, Error (EConnection msg))) (map pr_id (cc_pending s) ++ curid (cc_current s))).
  { rewrite Hres, !map_app, map_map. f_equal. destruct (cc_current s); reflexivity. }
  split; [exists (map pr_id (cc_pending s)), (curid (cc_current s)); split; [exact Hr|]|].
  - split; [|split].
    + intros i u t v Hi Hc. destruct (sent_outstanding _ _ _ _ _ _ _ _ _ _ H Hn Hi Hc) as (p & -> & <- & _). reflexivity.
    + intros i Hi. destruct (cc_current s) as [p|] eqn:Hp; [|destruct Hi]. destruct Hi as [<-|[]].
      apply in_sent. do 3 eexists. apply (co_current _ _ C _ Hp).
    + assert (Hl := co_live _ _ C). unfold live in Hl. rewrite app_assoc in Hl.
      apply sorted_app in Hl. tauto.
  - split; [|auto]. intros i Hi Hc. rewrite (co_called _ _ C) in Hi. apply in_seq in Hi.
    assert (Hx := co_all _ _ C Hs i ltac:(lia)). apply in_app_or in Hx. destruct Hx as [Hx|Hx]; [tauto|].
    unfold live in Hx. rewrite app_assoc in Hx. apply in_app_or in Hx. destruct Hx as [Hx|Hx]; [left|right; exact Hx].
    apply in_results. rewrite Hr. apply in_map_iff. exists i. split; [reflexivity|].
    rewrite in_app_iff in *. tauto.
Qed.

(** ** Results *)
Lemma invalid_never_sent pol es s w os i k : history handler pol es s w os -> In (Called i k) os -> im_valid (k_msg k) = false ->
  ~ In i (sent_ids os) /\ forall r, In (Completed i r) os -> r = Error EMalformedRequest.
Proof.
  intros H Hk Hv. split.
  - intros Hs. apply in_sent in Hs. destruct Hs as (u & t & v & Hs).
    destruct (frames_sent _ _ _ _ _ _ _ _ _ _ H Hs) as (k' & Hk' & Hv' & _).
    rewrite (call_unique _ _ _ _ _ _ _ _ _ H Hk' Hk) in Hv'. congruence.
  - intros r Hr. destruct (history_reached _ _ _ _ _ _ H) as (C & _).
    destruct (co_results _ _ C _ _ Hr) as (k' & Hk' & Ho).
    rewrite (call_unique _ _ _ _ _ _ _ _ _ H Hk' Hk) in Ho. destruct Ho as [[_ ->]|[Ho _]]; [reflexivity|congruence].
Qed.

Lemma valid_results pol es s w os i k r : history handler pol es s w os -> In (Called i k) os -> im_valid (k_msg k) = true ->
  In (Completed i r) os -> (exists d, r = Value d) \/ r = Error ETimeout \/ exists m, r = Error (EConnection m).
Proof.
  intros H Hk Hv Hr. destruct (history_reached _ _ _ _ _ _ H) as (C & _).
  destruct (co_results _ _ C _ _ Hr) as (k' & Hk' & Ho).
  rewrite (call_unique _ _ _ _ _ _ _ _ _ H Hk' Hk) in Ho. destruct Ho as [[Ho _]|[_ Ho]]; [congruence|exact Ho].
Qed.

(** The rejection of an invalid request touches nothing else. *)
Lemma rejection_isolated pol es s w os e s' w' o i : history handler pol es s w os -> typed_cevent e ->
  client_step handler pol s w e = Ret (s', w', o) -> In (Completed i (Error EMalformedRequest)) o ->
  e = CRun /\ sent_ids o = [] /\ completed_ids o = [i] /\ exists q n, s' = with_queue s q n.
Proof.
  intros H Ht E Hin. destruct (history_reached _ _ _ _ _ _ H) as (C & St & Tr).
  destruct e as [x| |chunk|msg|x|x]; cbn [client_step] in E.
  - exfalso. destruct x; cbn [capi_call] in E; injection E as <- <- <-; cbn in Hin; intuition discriminate.
  - split; [reflexivity|]. destruct (cc_queue s) as [|t q] eqn:Hq; [injection E as <- <- <-; destruct Hin|].
    destruct (run_ctask_spec handler s os w t q C St Hq) as (s3 & w3 & o3 & E3 & _ & _ & _ & _ & _ & _ & Hr & _).
    rewrite E3 in E. injection E as <- <- <-. destruct (Hr _ _ Hin) as [-> _].
    cbn [run_ctask] in E3.
    destruct (call_handler_spec handler (with_queue s q (cc_calls s)) w i (Error EMalformedRequest)) as (w1 & q1 & o1 & m & E1 & P).
    rewrite E1 in E3. injection E3 as <- <- <-.
    assert (Ho := ps_only _ _ _ _ _ P).
    split; [exact (only_called_sent _ Ho)|]. split.
    + cbn [completed_ids flat_map app]. f_equal. exact (only_called_completed _ Ho).
    + do 2 eexists. reflexivity.
  - exfalso. unfold on_receive in E. destruct (cc_shutdown s); [injection E as <- <- <-; destruct Hin|].
    destruct (mbap_parse pol (cc_parser s) chunk) as [[p ms]|]; cbn [obind] in E; [|discriminate]. injection E as E.
    destruct (on_responses_spec handler ms (with_parser s p) os w (core_parser _ _ _ C) St)
      as (s3 & w3 & o3 & E3 & _ & _ & _ & _ & _ & _ & Hsrc).
    rewrite E3 in E. injection E as <- <- <-. apply in_split in Hin. destruct Hin as (a & b & Eo).
    destruct (Hsrc _ _ _ _ Eo) as (m & _ & Hr & _). discriminate.
  - exfalso. injection E as E.
    destruct (on_error_spec handler s os w msg C St) as (s3 & w3 & o3 & E3 & _ & _ & _ & _ & _ & Hd & He).
    rewrite E3 in E. injection E as <- <- <-. destruct (cc_shutdown s) eqn:Hs.
    + destruct (Hd eq_refl) as [_ ->]. destruct Hin.
    + destruct (He eq_refl) as (_ & _ & _ & _ & Hres & _). apply in_results in Hin.
      rewrite Hres in Hin. apply in_map_iff in Hin. destruct Hin as (p & Hp & _). discriminate.
  - exfalso. destruct (existsb (Nat.eqb x) (cc_armed s)); injection E as <- <- <-; destruct Hin.
  - exfalso. destruct (existsb (Nat.eqb x) (cc_expired s)); [|injection E as <- <- <-; destruct Hin]. injection E as E.
    destruct (on_timeout_spec handler s os w x C St) as (s3 & w3 & o3 & E3 & _ & _ & _ & _ & _ & _ & Hr & _).
    rewrite E3 in E. injection E as <- <- <-. destruct (Hr _ _ Hin). discriminate.
Qed.

(** ** Timeouts *)
Lemma timeout_source pol es s w os e s' w' o i : history handler pol es s w os -> typed_cevent e ->
  client_step handler pol s w e = Ret (s', w', o) -> In (Completed i (Error ETimeout)) o ->
  exists t p, e = CFire t /\ In t (cc_expired s) /\ cc_current s = Some p /\ pr_id p = i.
Proof.
  intros H Ht E Hin. destruct (history_reached _ _ _ _ _ _ H) as (C & St & Tr).
  destruct e as [x| |chunk|msg|x|x]; cbn [client_step] in E.
  - exfalso. destruct x; cbn [capi_call] in E; injection E as <- <- <-; cbn in Hin; intuition discriminate.
  - exfalso. destruct (cc_queue s) as [|t q] eqn:Hq; [injection E as <- <- <-; destruct Hin|].
    destruct (run_ctask_spec handler s os w t q C St Hq) as (s3 & w3 & o3 & E3 & _ & _ & _ & _ & _ & _ & Hr & _).
    rewrite E3 in E. injection E as <- <- <-. destruct (Hr _ _ Hin). discriminate.
  - exfalso. unfold on_receive in E. destruct (cc_shutdown s); [injection E as <- <- <-; destruct Hin|].
    destruct (mbap_parse pol (cc_parser s) chunk) as [[p ms]|]; cbn [obind] in E; [|discriminate]. injection E as E.
    destruct (on_responses_spec handler ms (with_parser s p) os w (core_parser _ _ _ C) St)
      as (s3 & w3 & o3 & E3 & _ & _ & _ & _ & _ & _ & Hsrc).
    rewrite E3 in E. injection E as <- <- <-. apply in_split in Hin. destruct Hin as (a & b & Eo).
    destruct (Hsrc _ _ _ _ Eo) as (m & _ & Hr & _). discriminate.
  - exfalso. injection E as E.
    destruct (on_error_spec handler s os w msg C St) as (s3 & w3 & o3 & E3 & _ & _ & _ & _ & _ & Hd & He).
    rewrite E3 in E. injection E as <- <- <-. destruct (cc_shutdown s) eqn:Hs.
    + destruct (Hd eq_refl) as [_ ->]. destruct Hin.
    + destruct (He eq_refl) as (_ & _ & _ & _ & Hres & _). apply in_results in Hin.
      rewrite Hres in Hin. apply in_map_iff in Hin. destruct Hin as (p & Hp & _). discriminate.
  - exfalso. destruct (existsb (Nat.eqb x) (cc_armed s)); injection E as <- <- <-; destruct Hin.
  - destruct (existsb (Nat.eqb x) (cc_expired s)) eqn:Hx; [|injection E as <- <- <-; destruct Hin]. injection E as E.
    destruct (on_timeout_spec handler s os w x C St) as (s3 & w3 & o3 & E3 & _ & _ & _ & _ & _ & _ & Hr & _).
    rewrite E3 in E. injection E as <- <- <-. destruct (Hr _ _ Hin) as (_ & p & Hp & Hid).
    apply existsb_exists in Hx. destruct Hx as (y & Hy & Hxy). apply Nat.eqb_eq in Hxy. subst y.
    exists x, p. auto.
Qed.

Lemma step_expired pol s os w e bs s' w' o : core s os -> stable s -> tracked pol s bs -> typed_cevent e ->
  client_step handler pol s w e = Ret (s', w', o) ->
  cc_expired s' = match e with
    | CExpire t => if existsb (Nat.eqb t) (cc_armed s) then cc_expired s ++ [t] else cc_expired s
    | CFire t => if existsb (Nat.eqb t) (cc_expired s) then filter (fun x => negb (Nat.eqb x t)) (cc_expired s) else cc_expired s
    | _ => cc_expired s
    end.
Proof.
  intros C St Tr Ht E.
  destruct e as [x| |chunk|msg|x|x]; cbn [client_step] in E.
  - destruct x; cbn [capi_call] in E; injection E as <- <- <-; reflexivity.
  - destruct (cc_queue s) as [|t q] eqn:Hq; [injection E as <- <- <-; reflexivity|].
    destruct (run_ctask_spec handler s os w t q C St Hq) as (s3 & w3 & o3 & E3 & _ & _ & _ & Hx & _).
    rewrite E3 in E. injection E as <- <- <-. exact Hx.
  - unfold on_receive in E. destruct (cc_shutdown s); [injection E as <- <- <-; reflexivity|].
    destruct (mbap_parse pol (cc_parser s) chunk) as [[p ms]|]; cbn [obind] in E; [|discriminate]. injection E as E.
    destruct (on_responses_spec handler ms (with_parser s p) os w (core_parser _ _ _ C) St)
      as (s3 & w3 & o3 & E3 & _ & _ & _ & _ & Hx & _).
    rewrite E3 in E. injection E as <- <- <-. exact Hx.
  - injection E as E.
    destruct (on_error_spec handler s os w msg C St) as (s3 & w3 & o3 & E3 & _ & _ & _ & Hx & _).
    rewrite E3 in E. injection E as <- <- <-. exact Hx.
  - destruct (existsb (Nat.eqb x) (cc_armed s)); injection E as <- <- <-; reflexivity.
  - destruct (existsb (Nat.eqb x) (cc_expired s)); [|injection E as <- <- <-; reflexivity]. injection E as E.
    destruct (on_timeout_spec handler s os w x C St) as (s3 & w3 & o3 & E3 & _ & _ & _ & _ & Hx & _).
    rewrite E3 in E. injection E as <- <- <-. exact Hx.
Qed.

(** Prefixes of histories with atomic timers. *)
Inductive halfway : list cevent -> Prop :=
| half_even es : atomic_timers es -> halfway es
| half_odd es t : atomic_timers es -> halfway (es ++ [CExpire t]).

Lemma halfway_prefix es : atomic_timers es -> forall a b, es = a ++ b -> halfway a.
Proof.
  assert (Hcons : forall e a, (forall t, e <> CExpire t) -> (forall t, e <> CFire t) -> halfway a -> halfway (e :: a)).
  { intros e a H1 H2 H. destruct H as [es0 H|es0 t H]; [apply half_even; constructor; auto|].
    apply (half_odd (e :: es0)). constructor; auto. }
  assert (Hpair : forall t a, halfway a -> halfway (CExpire t :: CFire t :: a)).
  { intros t a H. destruct H as [es0 H|es0 t' H]; [apply half_even; apply atomic_expiry; exact H|].
    apply (half_odd (CExpire t :: CFire t :: es0)). apply atomic_expiry; exact H. }
  induction 1 as [|e es H1 H2 H IH|t es H IH]; intros a b E.
  - destruct a; [|discriminate]. apply half_even. constructor.
  - destruct a as [|x a]; [apply half_even; constructor|]. injection E as <- E. apply Hcons; eauto.
  - destruct a as [|x a]; [apply half_even; constructor|]. injection E as <- E.
    destruct a as [|x a]; [apply (half_odd []); constructor|]. injection E as <- E. apply Hpair. eauto.
Qed.

Lemma atomic_app a b : atomic_timers a -> atomic_timers b -> atomic_timers (a ++ b).
Proof. induction 1; intros; cbn [app]; [assumption|apply atomic_other; auto|apply atomic_expiry; auto]. Qed.

Lemma atomic_snoc es : atomic_timers es ->
  es = [] \/ (exists es0 e, es = es0 ++ [e] /\ (forall t, e <> CExpire t) /\ (forall t, e <> CFire t) /\ atomic_timers es0) \/
  (exists es0 t, es = es0 ++ [CExpire t; CFire t] /\ atomic_timers es0).
Proof.
  induction 1 as [|e es H1 H2 H IH|t es H IH]; [auto| |].
  - right. destruct IH as [->|[(es0 & e' & -> & A & B & D)|(es0 & t & -> & D)]].
    + left. exists [], e. split; [reflexivity|]. split; [exact H1|]. split; [exact H2|]. constructor.
    + left. exists (e :: es0), e'. split; [reflexivity|]. split; [exact A|]. split; [exact B|]. constructor; auto.
    + right. exists (e :: es0), t. split; [reflexivity|]. constructor; auto.
  - right. destruct IH as [->|[(es0 & e' & -> & A & B & D)|(es0 & t' & -> & D)]].
    + right. exists [], t. split; [reflexivity|]. constructor.
    + left. exists (CExpire t :: CFire t :: es0), e'. split; [reflexivity|]. split; [exact A|]. split; [exact B|]. apply atomic_expiry; auto.
    + right. exists (CExpire t :: CFire t :: es0), t'. split; [reflexivity|]. apply atomic_expiry; auto.
Qed.

Lemma snoc2 {A} (l : list A) x y : l ++ [x; y] = (l ++ [x]) ++ [y].
Proof. rewrite <- app_assoc. reflexivity. Qed.

Lemma atomic_not_expiry es t : ~ atomic_timers (es ++ [CExpire t]).
Proof.
  intros H. destruct (atomic_snoc _ H) as [E|[(es0 & e & E & A & _)|(es0 & t' & E & _)]].
  - destruct es; discriminate.
  - apply app_inj_tail in E. destruct E as [_ <-]. exact (A t eq_refl).
  - rewrite snoc2 in E. apply app_inj_tail in E. destruct E; discriminate.
Qed.

Lemma atomic_expired pol n : forall es s w os, (List.length es <= n)%nat ->
  atomic_timers es -> history handler pol es s w os -> cc_expired s = [].
Proof.
  induction n as [|n IH]; intros es s w os Hn Ha H.
  - destruct es; [|cbn in Hn; lia]. destruct H as (buf & w0 & _ & _ & E). cbn in E. injection E as <- <- <-. reflexivity.
  - destruct (atomic_snoc _ Ha) as [->|[(es0 & e & -> & A & B & D)|(es0 & t & -> & D)]].
    + destruct H as (buf & w0 & _ & _ & E). cbn in E. injection E as <- <- <-. reflexivity.
    + apply history_split in H. destruct H as (s1 & w1 & os1 & o & H1 & E & -> & Ht).
      destruct (history_reached _ _ _ _ _ _ H1) as (C & St & Tr).
      rewrite (step_expired _ _ _ _ _ _ _ _ _ C St Tr Ht E).
      assert (Hx : cc_expired s1 = []) by (eapply IH; eauto; rewrite app_length in Hn; cbn in Hn; lia).
      destruct e; auto; exfalso; [eapply A|eapply B]; reflexivity.
    + rewrite snoc2 in H.
      apply history_split in H. destruct H as (s1 & w1 & os1 & o & H1 & E & -> & Ht).
      destruct (history_reached _ _ _ _ _ _ H1) as (C & St & Tr).
      rewrite (step_expired _ _ _ _ _ _ _ _ _ C St Tr Ht E).
      apply history_split in H1. destruct H1 as (s2 & w2 & os2 & o2 & H2 & E2 & -> & Ht2).
      destruct (history_reached _ _ _ _ _ _ H2) as (C2 & St2 & Tr2).
      assert (Hx : cc_expired s2 = []) by (eapply IH; eauto; rewrite app_length in Hn; cbn in Hn; lia).
      rewrite (step_expired _ _ _ _ _ _ _ _ _ C2 St2 Tr2 Ht2 E2), Hx.
      destruct (existsb (Nat.eqb t) (cc_armed s2)); [|reflexivity].
      cbn. rewrite Nat.eqb_refl. reflexivity.
Qed.

Lemma own_timeout pol es : forall s w os i, halfway es -> history handler pol es s w os ->
  In (Completed i (Error ETimeout)) os -> exists t d, In (Armed i t d) os /\ In (CExpire t) es.
Proof.
  induction es as [|e es IH] using rev_ind; intros s w os i Ha H Hin.
  { destruct H as (buf & w0 & _ & _ & E). cbn in E. injection E as <- <- <-. destruct Hin. }
  apply history_split in H. destruct H as (s1 & w1 & os1 & o & H1 & E & -> & Ht).
  assert (Hpre : halfway es).
  { inversion Ha as [es0 Ha' E0|es0 t Ha' E0].
    - exact (halfway_prefix _ Ha' es [e] eq_refl).
    - apply app_inj_tail in E0. destruct E0 as [<- _]. exact (half_even _ Ha'). }
  apply in_app_or in Hin. destruct Hin as [Hin|Hin].
  { destruct (IH _ _ _ _ Hpre H1 Hin) as (t & d & HA & HE). exists t, d. rewrite !in_app_iff. auto. }
  destruct (timeout_source _ _ _ _ _ _ _ _ _ _ H1 Ht E Hin) as (t & p & -> & Hexp & Hp & Hid).
  destruct (history_reached _ _ _ _ _ _ H1) as (C & St & Tr).
  inversion Hpre as [es0 Hat E0|es0 t' Hat E0]; subst es0 || subst es.
  - exfalso. rewrite (atomic_expired pol _ _ _ _ _ (le_n _) Hat H1) in Hexp. destruct Hexp.
  - apply history_split in H1. destruct H1 as (s2 & w2 & os2 & o2 & H2 & E2 & -> & Ht2).
    destruct (history_reached _ _ _ _ _ _ H2) as (C2 & St2 & Tr2).
    assert (Hx := atomic_expired pol _ _ _ _ _ (le_n _) Hat H2).
    cbn [client_step] in E2. destruct (existsb (Nat.eqb t') (cc_armed s2)) eqn:Harm.
    + injection E2 as <- <- <-. proj. rewrite Hx in Hexp. destruct Hexp as [<-|[]].
      apply existsb_exists in Harm. destruct Harm as (y & Hy & Hxy). apply Nat.eqb_eq in Hxy. subst y.
      destruct (co_timer _ _ C2 p Hp) as (t2 & Ht2' & _ & HA). destruct (co_armed _ _ C2 _ Hy) as [Hty _].
      rewrite Hty in Ht2'. injection Ht2' as <-. exists t', (pr_timeout p). rewrite Hid in HA.
      rewrite !in_app_iff. cbn. auto.
    + injection E2 as <- <- <-. rewrite Hx in Hexp. destruct Hexp.
Qed.

Lemma own_timeout_atomic pol es s w os i : atomic_timers es -> history handler pol es s w os ->
  In (Completed i (Error ETimeout)) os -> exists t d, In (Armed i t d) os /\ In (CExpire t) es.
Proof. intros Ha. apply own_timeout. apply half_even. exact Ha. Qed.

(** In any history, some timer that this channel armed has expired. *)
Lemma some_timeout pol es : forall s w os i, history handler pol es s w os ->
  In (Completed i (Error ETimeout)) os -> In i (sent_ids os) /\ exists t, In (CExpire t) es /\ In (CFire t) es.
Proof.
  assert (Hexp : forall es s w os t, history handler pol es s w os -> In t (cc_expired s) -> In (CExpire t) es).
  { clear. induction es as [|e es IH] using rev_ind; intros s w os t H Hin.
    { destruct H as (buf & w0 & _ & _ & E). cbn in E. injection E as <- <- <-. destruct Hin. }
    apply history_split in H. destruct H as (s1 & w1 & os1 & o & H1 & E & -> & Ht).
    destruct (history_reached _ _ _ _ _ _ H1) as (C & St & Tr).
    rewrite (step_expired _ _ _ _ _ _ _ _ _ C St Tr Ht E) in Hin. apply in_or_app.
    destruct e as [x| |chunk|msg|x|x]; try (left; eapply IH; eauto; fail).
    - destruct (existsb (Nat.eqb x) (cc_armed s1)); [|left; eapply IH; eauto].
      apply in_app_or in Hin. destruct Hin as [Hin|[->|[]]]; [left; eapply IH; eauto|right; cbn; auto].
    - destruct (existsb (Nat.eqb x) (cc_expired s1)); [|left; eapply IH; eauto].
      apply filter_In in Hin. left; eapply IH; eauto. tauto. }
  induction es as [|e es IH] using rev_ind; intros s w os i H Hin.
  { destruct H as (buf & w0 & _ & _ & E). cbn in E. injection E as <- <- <-. destruct Hin. }
  apply history_split in H. destruct H as (s1 & w1 & os1 & o & H1 & E & -> & Ht).
  apply in_app_or in Hin. rewrite sent_app. destruct Hin as [Hin|Hin].
  { destruct (IH _ _ _ _ H1 Hin) as (Hs & t & HA & HE). split; [apply in_or_app; auto|]. exists t. rewrite !in_app_iff. auto. }
  destruct (timeout_source _ _ _ _ _ _ _ _ _ _ H1 Ht E Hin) as (t & p & -> & Hx & Hp & Hid).
  destruct (history_reached _ _ _ _ _ _ H1) as (C & St & Tr). split.
  - apply in_or_app. left. apply in_sent. rewrite <- Hid. do 3 eexists. apply (co_current _ _ C _ Hp).
  - exists t. rewrite !in_app_iff. split; [left; eapply Hexp; eauto|right; cbn; auto].
Qed.
End Outcomes.
