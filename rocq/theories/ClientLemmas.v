(** Properties of the client channel, from the invariant of ClientFacts.v. *)
From Verif Require Import Prelude Ser4 Messages Mbap SpecPdu SpecMbap Client SpecClient MbapFacts MbapLemmas BitFacts ClientFacts.
From Coq Require Import Lia.

Section Lemmas.
Context {W : Type}.
Context (handler : nat -> W -> expected (list N) -> W * list capi).

(** ** Safety *)
Lemma client_never_stuck pol buf w es : good_buf buf -> Forall typed_cevent es ->
  exists s w' os, client_run handler pol (client_init buf) w es = Ret (s, w', os).
Proof.
  intros Hg Ht. destruct (history_total handler pol buf w es Hg Ht) as (s & w' & os & E & _). eauto.
Qed.

(** ** One request on the wire, in order *)
Lemma one_on_wire pol es s w os a i u t v b j u' t' v' c :
  history handler pol es s w os ->
  os = a ++ Sent i u t v :: b ++ Sent j u' t' v' :: c -> exists r, In (Completed i r) b.
Proof.
  intros H E. destruct (history_reached _ _ _ _ _ _ H) as (C & _).
  apply in_completed. eapply (co_alternate _ _ C). exact E.
Qed.

Lemma calls_numbered pol es s w os : history handler pol es s w os ->
  called_ids os = seq 0 (List.length (called_ids os)).
Proof.
  intros H. destruct (history_reached _ _ _ _ _ _ H) as (C & _).
  rewrite (co_called _ _ C), seq_length. reflexivity.
Qed.

Lemma sent_in_order pol es s w os : history handler pol es s w os -> StronglySorted lt (sent_ids os).
Proof. intros H. destruct (history_reached _ _ _ _ _ _ H) as (C & _). exact (co_sent_sorted _ _ C). Qed.

Lemma no_overtaking pol es s w os a j u t v b i : history handler pol es s w os ->
  os = a ++ Sent j u t v :: b -> (i < j)%nat -> exists r, In (Completed i r) a.
Proof.
  intros H E Hi. destruct (history_reached _ _ _ _ _ _ H) as (C & _).
  apply in_completed. eapply (co_order _ _ C); eauto.
Qed.

Lemma frames_sent pol es s w os i u t v : history handler pol es s w os -> In (Sent i u t v) os ->
  exists k, In (Called i k) os /\ im_valid (k_msg k) = true /\ u = k_unit k /\ v = mbap_build 260 u t (k_msg k).
Proof. intros H Hin. destruct (history_reached _ _ _ _ _ _ H) as (C & _). exact (co_frames _ _ C _ _ _ _ Hin). Qed.

(** ** At most once *)
Lemma at_most_once pol es s w os : history handler pol es s w os ->
  NoDup (completed_ids os) /\ incl (completed_ids os) (called_ids os).
Proof.
  intros H. destruct (history_reached _ _ _ _ _ _ H) as (C & _). split; [exact (co_once _ _ C)|].
  intros i Hi. rewrite (co_called _ _ C). apply in_seq.
  assert ((i < cc_calls s)%nat); [|lia]. apply (co_below _ _ C). apply in_or_app; auto.
Qed.

Lemma call_unique pol es s w os i k k' : history handler pol es s w os ->
  In (Called i k) os -> In (Called i k') os -> k = k'.
Proof.
  intros H. destruct (history_reached _ _ _ _ _ _ H) as (C & _). apply called_fun.
  rewrite (co_called _ _ C). apply seq_NoDup.
Qed.

(** ** Shutdown is not requested *)
Definition clear (s : client) : Prop := cc_shutdown s = false /\ ~ In DoShutdown (cc_queue s).

Lemma posted_clear sh l : ~ In Shutdown l -> forall n q o m, posted sh n l = (q, o, m) -> ~ In DoShutdown q.
Proof.
  induction l as [|[k|] l IH]; intros Hn n q o m E; cbn [posted] in E.
  - injection E as <- <- <-. auto.
  - destruct (posted sh (S n) l) as [[q1 o1] m1] eqn:E1. injection E as <- <- <-.
    assert (H1 : ~ In DoShutdown q1) by (eapply IH; [|exact E1]; cbn in Hn; tauto).
    destruct sh; [exact H1|]. intros [H|H]; [|auto]. destruct (im_valid (k_msg k)); discriminate.
  - cbn in Hn. tauto.
Qed.

Lemma calls_clear s l s' o : ~ In Shutdown l -> clear s -> capi_calls s l = (s', o) -> clear s'.
Proof.
  intros Hn [H1 H2] E. rewrite capi_calls_posted in E.
  destruct (posted (cc_shutdown s) (cc_calls s) l) as [[q o1] m] eqn:E1. injection E as <- <-.
  split; [exact H1|]. proj. intros Hin. apply in_app_or in Hin. destruct Hin as [Hin|Hin]; [auto|].
  exact (posted_clear _ _ Hn _ _ _ _ E1 Hin).
Qed.

Context (Hns : no_shutdown_handler handler).

Lemma handler_clear s w i r s' w' o : clear s -> call_handler handler s w i r = (s', w', o) -> clear s'.
Proof.
  intros Hc E. unfold call_handler in E. destruct (handler i w r) as [w1 calls] eqn:Eh.
  destruct (capi_calls s calls) as [s1 o1] eqn:Ec. injection E as <- <- <-.
  exact (calls_clear _ _ _ _ (Hns _ _ _ _ _ Eh) Hc Ec).
Qed.

Lemma clear_other s s' : cc_shutdown s' = cc_shutdown s -> cc_queue s' = cc_queue s -> clear s -> clear s'.
Proof. unfold clear. intros -> ->. auto. Qed.

Lemma check_clear s s' o : clear s -> check_pending_requests s = (s', o) -> clear s'.
Proof.
  unfold check_pending_requests. intros Hc E. destruct (cc_shutdown s) eqn:Hs; [injection E as <- <-; exact Hc|].
  destruct (cc_current s); [injection E as <- <-; exact Hc|].
  destruct (cc_pending s); injection E as <- <-; exact Hc.
Qed.

Lemma cancel_clear s s' o : clear s -> cancel_current_request s = (s', o) -> clear s'.
Proof.
  unfold cancel_current_request. intros Hc E. destruct (cc_current s); [|injection E as <- <-; exact Hc].
  exact (check_clear _ _ _ (Hc : clear (cancel_timer (with_current s None))) E).
Qed.

Lemma fail_clear msg l : forall s w s' w' o, clear s -> fail_all handler s w l msg = (s', w', o) -> clear s'.
Proof.
  induction l as [|p l IH]; intros s w s' w' o Hc E; cbn [fail_all] in E; [injection E as <- <- <-; exact Hc|].
  destruct (call_handler handler s w (pr_id p) (Error (EConnection msg))) as [[s1 w1] o1] eqn:E1.
  destruct (fail_all handler s1 w1 l msg) as [[s2 w2] o2] eqn:E2. injection E as <- <- <-.
  exact (IH _ _ _ _ _ (handler_clear _ _ _ _ _ _ _ Hc E1) E2).
Qed.

Lemma responses_clear ms : forall s w s' w' o, clear s -> on_responses handler s w ms = (s', w', o) -> clear s'.
Proof.
  induction ms as [|m ms IH]; intros s w s' w' o Hc E; cbn [on_responses] in E; [injection E as <- <- <-; exact Hc|].
  destruct (on_response handler s w m) as [[s1 w1] o1] eqn:E1.
  destruct (on_responses handler s1 w1 ms) as [[s2 w2] o2] eqn:E2. injection E as <- <- <-.
  refine (IH _ _ _ _ _ _ E2). unfold on_response in E1.
  destruct (cc_shutdown s); [injection E1 as <- <- <-; exact Hc|].
  destruct (cc_current s) as [p|]; [|injection E1 as <- <- <-; exact Hc].
  destruct ((mb_tx m =? pr_tx p) && (mb_unit m =? pr_unit p)); [|injection E1 as <- <- <-; exact Hc].
  destruct (call_handler handler (cancel_timer s) w (pr_id p) (Value (mb_data m))) as [[s3 w3] o3] eqn:E3.
  destruct (check_pending_requests (with_current s3 None)) as [s4 o4] eqn:E4. injection E1 as <- <- <-.
  assert (H3 := handler_clear _ _ _ _ _ _ _ (Hc : clear (cancel_timer s)) E3).
  exact (check_clear _ _ _ (H3 : clear (with_current s3 None)) E4).
Qed.

Lemma step_clear pol s w e s' w' o : clear s -> e <> CApi Shutdown ->
  client_step handler pol s w e = Ret (s', w', o) -> clear s'.
Proof.
  intros Hc He E. destruct e as [a| |d|msg|x|x]; cbn [client_step] in E.
  - destruct (capi_call s a) as [s1 o1] eqn:Ea. injection E as <- <- <-.
    assert (Ec : capi_calls s [a] = (s1, o1)) by (cbn [capi_calls]; rewrite Ea, app_nil_r; reflexivity).
    refine (calls_clear _ _ _ _ _ Hc Ec). cbn. intros [->|[]]. congruence.
  - destruct (cc_queue s) as [|t q] eqn:Hq; [injection E as <- <- <-; exact Hc|].
    assert (Hc1 : clear (with_queue s q (cc_calls s))).
    { destruct Hc as [H1 H2]. split; [exact H1|]. proj. rewrite Hq in H2. cbn in H2. tauto. }
    destruct t as [i k|i|]; cbn [run_ctask] in E.
    + proj. destruct (cc_shutdown s) eqn:Hs; [injection E as <- <- <-; exact Hc1|].
      match type of E with context [check_pending_requests ?x] => destruct (check_pending_requests x) as [s1 o1] eqn:Ec end.
      injection E as <- <- <-. refine (check_clear _ _ _ _ Ec). exact Hc1.
    + injection E as E. exact (handler_clear _ _ _ _ _ _ _ Hc1 E).
    + destruct Hc as [_ H]. exfalso. apply H. rewrite Hq. cbn; auto.
  - unfold on_receive in E. destruct (cc_shutdown s); [injection E as <- <- <-; exact Hc|].
    destruct (mbap_parse pol (cc_parser s) d) as [[p ms]|]; cbn [obind] in E; [|discriminate].
    injection E as E. exact (responses_clear _ _ _ _ _ _ (Hc : clear (with_parser s p)) E).
  - unfold on_error in E. destruct (cc_shutdown s); [injection E as <- <- <-; exact Hc|].
    unfold cancel_all_pending_requests in E. proj.
    destruct (fail_all handler (with_parser s (mbap_reset (cc_parser s))) w (cc_pending s) msg) as [[s1 w1] o1] eqn:E1.
    assert (H1 := fail_clear _ _ _ _ _ _ _ (Hc : clear (with_parser s _)) E1). proj.
    destruct (cc_current s1) as [p|]; [|injection E as <- <- <-; exact H1].
    destruct (call_handler handler (with_pending s1 []) w1 (pr_id p) (Error (EConnection msg))) as [[s2 w2] o2] eqn:E2.
    assert (H2 := handler_clear _ _ _ _ _ _ _ (H1 : clear (with_pending s1 [])) E2).
    destruct (cancel_current_request s2) as [s3 o3] eqn:E3. injection E as <- <- <-.
    exact (cancel_clear _ _ _ H2 E3).
  - destruct (existsb (Nat.eqb x) (cc_armed s)); injection E as <- <- <-; exact Hc.
  - destruct (existsb (Nat.eqb x) (cc_expired s)); [|injection E as <- <- <-; exact Hc].
    unfold on_timeout in E. proj. destruct (cc_shutdown s); [injection E as <- <- <-; exact Hc|].
    destruct (cc_current s) as [p|]; [|injection E as <- <- <-; exact Hc].
    match type of E with context [call_handler handler ?x ?y ?z ?r] =>
      destruct (call_handler handler x y z r) as [[s2 w2] o2] eqn:E2 end.
    match type of E2 with call_handler _ ?x _ _ _ = _ => assert (H2 := handler_clear _ _ _ _ _ _ _ (Hc : clear x) E2) end.
    destruct (cancel_current_request s2) as [s3 o3] eqn:E3. injection E as <- <- <-.
    exact (cancel_clear _ _ _ H2 E3).
Qed.

Lemma run_clear pol es : forall s w s' w' o, clear s -> no_shutdown es ->
  client_run handler pol s w es = Ret (s', w', o) -> clear s'.
Proof.
  induction es as [|e es IH]; intros s w s' w' o Hc Hn E; cbn [client_run] in E; [injection E as <- <- <-; exact Hc|].
  destruct (client_step handler pol s w e) as [[[s1 w1] o1]|] eqn:E1; cbn [obind] in E; [|discriminate].
  destruct (client_run handler pol s1 w1 es) as [[[s2 w2] o2]|] eqn:E2; cbn [obind] in E; [|discriminate].
  injection E as <- <- <-. refine (IH _ _ _ _ _ _ _ E2).
  - apply (step_clear _ _ _ _ _ _ _ Hc) in E1; [exact E1|]. intros ->. apply Hn. cbn; auto.
  - intros H. apply Hn. cbn; auto.
Qed.

Lemma history_clear pol es s w os : no_shutdown es -> history handler pol es s w os -> clear s.
Proof.
  intros Hn (buf & w0 & _ & _ & E). refine (run_clear _ _ _ _ _ _ _ _ Hn E). split; [reflexivity|]. auto.
Qed.

(** ** Exactly once *)
Lemma quiescent_live s os : core s os -> stable s -> quiescent s -> live s = [].
Proof.
  intros C St (Q1 & Q2 & Q3). unfold live. rewrite Q1.
  destruct (cc_current s) as [p|] eqn:Hp.
  - destruct (co_timer _ _ C p Hp) as (t & _ & H & _). rewrite Q2, Q3 in H. destruct H.
  - rewrite (St Hp). reflexivity.
Qed.

Lemma exactly_once pol es s w os : no_shutdown es -> history handler pol es s w os -> quiescent s ->
  forall i, In i (called_ids os) -> count_occ Nat.eq_dec (completed_ids os) i = 1%nat.
Proof.
  intros Hn H Q i Hi. destruct (history_reached _ _ _ _ _ _ H) as (C & St & _).
  destruct (history_clear _ _ _ _ _ Hn H) as [Hs _].
  apply (proj1 (NoDup_count_occ' Nat.eq_dec _) (co_once _ _ C)).
  rewrite (co_called _ _ C) in Hi. apply in_seq in Hi.
  assert (Hx := co_all _ _ C Hs i ltac:(lia)). rewrite (quiescent_live _ _ C St Q), app_nil_r in Hx. exact Hx.
Qed.

(** *** Every request can complete by itself *)
Lemma run_app_client pol es1 : forall es2 s w,
  client_run handler pol s w (es1 ++ es2) =
  let! (s1, w1, o1) := client_run handler pol s w es1 in
  let! (s2, w2, o2) := client_run handler pol s1 w1 es2 in Ret (s2, w2, o1 ++ o2).
Proof.
  induction es1 as [|e es1 IH]; intros es2 s w; cbn [app client_run obind].
  - destruct (client_run handler pol s w es2) as [[[s2 w2] o2]|]; reflexivity.
  - destruct (client_step handler pol s w e) as [[[s1 w1] o1]|]; cbn [obind]; [|reflexivity].
    rewrite IH. destruct (client_run handler pol s1 w1 es1) as [[[s2 w2] o2]|]; cbn [obind]; [|reflexivity].
    destruct (client_run handler pol s2 w2 es2) as [[[s3 w3] o3]|]; cbn [obind]; [|reflexivity].
    rewrite app_assoc. reflexivity.
Qed.

Lemma existsb_in x l : In x l -> existsb (Nat.eqb x) l = true.
Proof. intros H. apply existsb_exists. exists x. split; [exact H|apply Nat.eqb_refl]. Qed.

(** The timer of the outstanding request expires (if it did not yet) and its
    action is executed. *)
Lemma drain_current pol s os w p : core s os -> stable s -> clear s -> cc_current s = Some p ->
  exists es s' w' o, forallb spontaneous es = true /\ client_run handler pol s w es = Ret (s', w', o) /\
    core s' (os ++ o) /\ stable s' /\ clear s' /\
    In (Completed (pr_id p) (Error ETimeout)) o /\ waiting s' = map pr_id (cc_pending s).
Proof.
  intros C St Hc Hp. destruct (co_timer _ _ C p Hp) as (t & Ht & Hin & _).
  assert (Hfire : forall s1, core s1 os -> stable s1 -> clear s1 -> cc_current s1 = Some p -> cc_pending s1 = cc_pending s ->
            In t (cc_expired s1) ->
    exists s' w' o, client_run handler pol s1 w [CFire t] = Ret (s', w', o) /\
    core s' (os ++ o) /\ stable s' /\ clear s' /\
    In (Completed (pr_id p) (Error ETimeout)) o /\ waiting s' = map pr_id (cc_pending s)).
  { intros s1 C1 St1 Hc1 Hp1 Hpe Hin1. cbn [client_run].
    destruct (on_timeout_spec handler s1 os w t C1 St1) as (s' & w' & o & E & C' & St' & _ & _ & _ & _ & _ & Hwt).
    assert (Es : client_step handler pol s1 w (CFire t) = Ret (s', w', o)).
    { cbn [client_step]. rewrite (existsb_in _ _ Hin1). rewrite E. reflexivity. }
    rewrite Es. cbn [obind]. exists s', w', o. rewrite app_nil_r. split; [reflexivity|].
    split; [exact C'|]. split; [exact St'|]. split; [refine (step_clear pol s1 w (CFire t) _ _ _ Hc1 _ Es); discriminate|].
    destruct (Hwt p Hp1) as [Hw Hco]. split; [exact Hco|]. rewrite <- Hpe. exact Hw. }
  apply in_app_or in Hin. destruct Hin as [Hin|Hin].
  - exists [CExpire t; CFire t].
    destruct (Hfire _ (core_expire _ _ _ C Hin) St Hc Hp eq_refl) as (s' & w' & o & E & H).
    { proj. rewrite in_app_iff. cbn; auto. }
    exists s', w', o. split; [reflexivity|]. split; [|exact H].
    change [CExpire t; CFire t] with ([CExpire t] ++ [CFire t]). rewrite run_app_client.
    assert (E0 : client_run handler pol s w [CExpire t] =
      Ret (with_timers s (cc_timer s) (filter (fun x => negb (Nat.eqb x t)) (cc_armed s))
             (cc_expired s ++ [t]) (cc_next_timer s), w, [])).
    { cbn [client_run client_step]. rewrite (existsb_in _ _ Hin). reflexivity. }
    rewrite E0. cbn [obind]. rewrite E. reflexivity.
  - exists [CFire t]. destruct (Hfire s C St Hc Hp eq_refl Hin) as (s' & w' & o & E & H).
    exists s', w', o. split; [reflexivity|]. split; [exact E|exact H].
Qed.

Lemma drain_waiting pol n : forall s os w i, (List.length (waiting s) <= n)%nat ->
  core s os -> stable s -> clear s -> In i (waiting s) ->
  exists es s' w' o r, forallb spontaneous es = true /\ client_run handler pol s w es = Ret (s', w', o) /\
    In (Completed i r) o.
Proof.
  induction n as [|n IH]; intros s os w i Hn C St Hc Hi.
  { destruct (waiting s); [destruct Hi|cbn in Hn; lia]. }
  destruct (cc_current s) as [p|] eqn:Hp.
  2:{ exfalso. unfold waiting in Hi. rewrite Hp, (St Hp) in Hi. destruct Hi. }
  destruct (drain_current pol s os w p C St Hc Hp) as (es1 & s1 & w1 & o1 & F1 & E1 & C1 & St1 & Hc1 & Hco & Hw).
  unfold waiting in Hi, Hn. rewrite Hp in Hi, Hn. cbn [curid app List.length] in Hi, Hn.
  destruct Hi as [<-|Hi].
  { exists es1, s1, w1, o1, (Error ETimeout). auto. }
  rewrite <- Hw in Hi. destruct (IH s1 (os ++ o1) w1 i ltac:(rewrite Hw; lia) C1 St1 Hc1 Hi)
    as (es2 & s2 & w2 & o2 & r & F2 & E2 & Hco2).
  exists (es1 ++ es2), s2, w2, (o1 ++ o2), r. split; [rewrite forallb_app, F1, F2; reflexivity|].
  split; [rewrite run_app_client, E1; cbn [obind]; rewrite E2; reflexivity|]. apply in_or_app. auto.
Qed.

Lemma drain_queue pol n : forall s os w q i rest, List.length q = n -> cc_queue s = q ++ rest -> In i (qids q) ->
  core s os -> stable s -> clear s ->
  exists es s' w' o r, forallb spontaneous es = true /\ client_run handler pol s w es = Ret (s', w', o) /\
    In (Completed i r) o.
Proof.
  induction n as [|n IH]; intros s os w q i rest Hlen Hq Hi C St Hc.
  { destruct q; [destruct Hi|discriminate]. }
  destruct q as [|t q]; [discriminate|]. injection Hlen as Hlen. cbn [app] in Hq.
  destruct (run_ctask_spec handler s os w t (q ++ rest) C St Hq) as (s1 & w1 & o1 & E & C1 & St1 & _ & _ & (q' & Hq1) & _ & _ & Hsend & Hrej).
  assert (Es : client_step handler pol s w CRun = Ret (s1, w1, o1)).
  { cbn [client_step]. rewrite Hq, E. reflexivity. }
  assert (Hc1 : clear s1) by (refine (step_clear pol s w CRun _ _ _ Hc _ Es); discriminate).
  assert (Er : client_run handler pol s w [CRun] = Ret (s1, w1, o1)).
  { cbn [client_run]. rewrite Es. cbn [obind]. rewrite app_nil_r. reflexivity. }
  cbn [qids flat_map] in Hi. apply in_app_or in Hi. destruct Hi as [Hi|Hi].
  - destruct t as [j k|j|]; cbn in Hi; try (destruct Hi; fail); destruct Hi as [<-|[]].
    + destruct (drain_waiting pol _ s1 (os ++ o1) w1 j (le_n _) C1 St1 Hc1) as (es2 & s2 & w2 & o2 & r & F2 & E2 & Hco2).
      { rewrite (Hsend j k eq_refl (proj1 Hc)). apply in_or_app. cbn; auto. }
      exists ([CRun] ++ es2), s2, w2, (o1 ++ o2), r. split; [cbn; exact F2|].
      split; [rewrite run_app_client, Er; cbn [obind]; rewrite E2; reflexivity|]. apply in_or_app; auto.
    + destruct (Hrej j eq_refl) as (Hco & _). exists [CRun], s1, w1, o1, (Error EMalformedRequest). auto.
  - rewrite <- app_assoc in Hq1.
    destruct (IH s1 (os ++ o1) w1 q i (rest ++ q') Hlen Hq1 Hi C1 St1 Hc1) as (es2 & s2 & w2 & o2 & r & F2 & E2 & Hco2).
    exists ([CRun] ++ es2), s2, w2, (o1 ++ o2), r. split; [cbn; exact F2|].
    split; [rewrite run_app_client, Er; cbn [obind]; rewrite E2; reflexivity|]. apply in_or_app; auto.
Qed.

Lemma never_stuck pol es s w os i : no_shutdown es -> history handler pol es s w os ->
  In i (called_ids os) -> ~ In i (completed_ids os) ->
  exists es' s' w' o r, forallb spontaneous es' = true /\
    client_run handler pol s w es' = Ret (s', w', o) /\ In (Completed i r) o.
Proof.
  intros Hn H Hi Hni. destruct (history_reached _ _ _ _ _ _ H) as (C & St & _).
  assert (Hc := history_clear _ _ _ _ _ Hn H).
  rewrite (co_called _ _ C) in Hi. apply in_seq in Hi.
  assert (Hx := co_all _ _ C (proj1 Hc) i ltac:(lia)). apply in_app_or in Hx. destruct Hx as [Hx|Hx]; [tauto|].
  unfold live in Hx. rewrite app_assoc in Hx. apply in_app_or in Hx. destruct Hx as [Hx|Hx].
  - exact (drain_waiting pol _ s os w i (le_n _) C St Hc Hx).
  - eapply (drain_queue pol _ s os w (cc_queue s) i []); eauto. rewrite app_nil_r. reflexivity.
Qed.
End Lemmas.
