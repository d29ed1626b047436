(** Facts about the steps of the client that the composition needs. *)
From Verif Require Import Prelude Ser4 Messages Mbap Client Server Database System.
From Verif Require Import SpecPdu SpecMbap SpecClient SpecDb SpecSystem.
From Verif Require Import Tac BuildFacts CodecLemmas MbapFacts MbapLemmas FrameFacts.
From Verif Require Import ClientFacts ClientLemmas ClientTx ClientShutdown ClientResponses ClientOutcomes SystemServe.

Section ClientSteps.
Context {W : Type}.
Context (handler : nat -> W -> expected (list N) -> W * list capi).

(** ** Which request is current after a step *)
Definition frame_of (p : prequest) : coutput :=
  Sent (pr_id p) (pr_unit p) (pr_tx p) (mbap_build 260 (pr_unit p) (pr_tx p) (pr_msg p)).

Lemma check_current s s' o p : check_pending_requests s = (s', o) -> cc_current s' = Some p ->
  (cc_current s = Some p /\ o = []) \/ (cc_current s = None /\ In (frame_of p) o).
Proof.
  unfold check_pending_requests. destruct (cc_shutdown s).
  - intros H Hp. injection H as <- <-. auto.
  - destruct (cc_current s) as [p0|] eqn:E.
    + intros H Hp. injection H as <- <-. left. split; congruence.
    + destruct (cc_pending s) as [|p1 ps].
      * intros H Hp. injection H as <- <-. congruence.
      * intros H Hp. injection H as <- <-. cbn [with_timers with_pending with_current cc_current] in Hp.
        injection Hp as <-. right. split; [reflexivity|]. left. reflexivity.
Qed.

Lemma handler_current s w i r s' w' o : call_handler handler s w i r = (s', w', o) -> cc_current s' = cc_current s.
Proof.
  intros H. destruct (call_handler_spec handler s w i r) as (w1 & q & o1 & m & E & _).
  rewrite E in H. injection H as <- _ _. reflexivity.
Qed.

Lemma response_current s w m s' w' o p : on_response handler s w m = (s', w', o) -> cc_current s' = Some p ->
  (cc_current s = Some p /\ (cc_shutdown s = false -> ~ (mb_tx m = pr_tx p /\ mb_unit m = pr_unit p))) \/
  In (frame_of p) o.
Proof.
  unfold on_response. destruct (cc_shutdown s) eqn:Es.
  - intros H Hp. injection H as <- <- <-. left. split; [exact Hp|discriminate].
  - destruct (cc_current s) as [p0|] eqn:E.
    + destruct ((mb_tx m =? pr_tx p0) && (mb_unit m =? pr_unit p0)) eqn:Em.
      * destruct (call_handler handler (cancel_timer s) w (pr_id p0) (Value (mb_data m))) as [[s1 w1] o1].
        destruct (check_pending_requests (with_current s1 None)) as [s2 o2] eqn:Ec.
        intros H Hp. injection H as <- <- <-. right.
        destruct (check_current _ _ _ _ Ec Hp) as [[Hc _]|[_ Hi]]; [discriminate Hc|].
        apply in_or_app. right. exact Hi.
      * intros H Hp. injection H as <- <- <-. left. split; [congruence|].
        intros _ [E1 E2]. assert (p0 = p) by congruence. subst p0.
        rewrite E1, E2, !N.eqb_refl in Em. discriminate Em.
    + intros H Hp. injection H as <- <- <-. congruence.
Qed.

Lemma response_down s w m s' w' o : on_response handler s w m = (s', w', o) -> cc_shutdown s' = cc_shutdown s.
Proof.
  unfold on_response. destruct (cc_shutdown s) eqn:Es.
  - intros H. injection H as <- <- <-. exact Es.
  - destruct (cc_current s) as [p0|]; [|intros H; injection H as <- <- <-; exact Es].
    destruct ((mb_tx m =? pr_tx p0) && (mb_unit m =? pr_unit p0)); [|intros H; injection H as <- <- <-; exact Es].
    destruct (call_handler_spec handler (cancel_timer s) w (pr_id p0) (Value (mb_data m))) as (w1 & q & o1 & n & -> & _).
    destruct (check_pending_requests _) as [s2 o2] eqn:Ec. intros H. injection H as <- <- <-.
    unfold check_pending_requests in Ec.
    cbn [with_current with_queue cancel_timer with_timers cc_shutdown cc_current cc_pending] in Ec. rewrite Es in Ec.
    destruct (cc_pending s); injection Ec as <- <-; exact Es.
Qed.

Lemma responses_current ms : forall s w s' w' o p, on_responses handler s w ms = (s', w', o) -> cc_current s' = Some p ->
  (cc_current s = Some p /\ (cc_shutdown s = false -> forall m, In m ms -> ~ (mb_tx m = pr_tx p /\ mb_unit m = pr_unit p))) \/
  In (frame_of p) o.
Proof.
  induction ms as [|m ms IH]; cbn [on_responses]; intros s w s' w' o p H Hp.
  - injection H as <- <- <-. left. split; [exact Hp|]. intros _ m [].
  - destruct (on_response handler s w m) as [[s1 w1] o1] eqn:E1.
    destruct (on_responses handler s1 w1 ms) as [[s2 w2] o2] eqn:E2. injection H as <- <- <-.
    destruct (IH _ _ _ _ _ _ E2 Hp) as [[Hc Hm]|Hi]; [|right; apply in_or_app; right; exact Hi].
    destruct (response_current _ _ _ _ _ _ _ E1 Hc) as [[Hc1 Hm1]|Hi]; [|right; apply in_or_app; left; exact Hi].
    left. split; [exact Hc1|]. intros Hs m0 [<-|Hin]; [auto|]. apply Hm; [|exact Hin].
    rewrite (response_down _ _ _ _ _ _ E1). exact Hs.
Qed.

(** Completions by one response. *)
Lemma response_completes s w m s' w' o i r : on_response handler s w m = (s', w', o) -> In (Completed i r) o ->
  exists p, cc_current s = Some p /\ pr_id p = i /\ r = Value (mb_data m).
Proof.
  unfold on_response. destruct (cc_shutdown s); [intros H; injection H as <- <- <-; intros []|].
  destruct (cc_current s) as [p|]; [|intros H; injection H as <- <- <-; intros []].
  destruct ((mb_tx m =? pr_tx p) && (mb_unit m =? pr_unit p)); [|intros H; injection H as <- <- <-; intros []].
  destruct (call_handler_spec handler (cancel_timer s) w (pr_id p) (Value (mb_data m))) as (w1 & q & o1 & n & -> & P).
  destruct (check_pending_requests _) as [s2 o2] eqn:Ec. intros H. injection H as <- <- <-.
  intros Hi. exists p. split; [reflexivity|]. destruct Hi as [Hi|Hi]; [injection Hi as <- <-; auto|]. exfalso.
  apply in_app_or in Hi. destruct Hi as [Hi|Hi].
  - destruct (only_called_in _ _ (ps_only _ _ _ _ _ P) Hi) as (j & k & Ej). discriminate Ej.
  - unfold check_pending_requests in Ec. destruct (cc_shutdown _); [injection Ec as <- <-; destruct Hi|].
    destruct (cc_current _); [injection Ec as <- <-; destruct Hi|].
    destruct (cc_pending _); injection Ec as <- <-; [destruct Hi|].
    destruct Hi as [Hi|[Hi|[]]]; discriminate Hi.
Qed.

Lemma step_current pol s w e s' w' o p : client_step handler pol s w e = Ret (s', w', o) -> cc_current s' = Some p ->
  (forall data, e <> CReceive data) -> cc_current s = Some p \/ In (frame_of p) o.
Proof.
  destruct e as [a| |data|msg|t|t]; cbn [client_step]; intros H Hp Hr.
  - destruct a as [k|]; cbn [capi_call] in H; injection H as <- <- <-; left; exact Hp.
  - destruct (cc_queue s) as [|t q]; [injection H as <- <- <-; left; exact Hp|].
    destruct t as [i k|i|]; cbn [run_ctask] in H.
    + destruct (cc_shutdown (with_queue s q (cc_calls s))); [injection H as <- <- <-; left; exact Hp|].
      destruct (check_pending_requests _) as [s2 o2] eqn:Ec. injection H as <- <- <-.
      destruct (check_current _ _ _ _ Ec Hp) as [[Hc _]|[_ Hi]]; [left; exact Hc|right; exact Hi].
    + destruct (call_handler handler _ w i _) as [[s2 w2] o2] eqn:Ec. injection H as <- <- <-.
      left. rewrite (handler_current _ _ _ _ _ _ _ Ec) in Hp. exact Hp.
    + injection H as <- <- <-. discriminate Hp.
  - destruct (Hr data eq_refl).
  - unfold on_error in H. destruct (cc_shutdown s); [injection H as <- <- <-; left; exact Hp|].
    destruct (cancel_all_pending_requests _ _ _ _) as [[s1 w1] o1].
    destruct (cc_current s1) as [p1|] eqn:E1.
    + destruct (call_handler handler s1 w1 _ _) as [[s2 w2] o2] eqn:E2.
      unfold cancel_current_request in H. rewrite (handler_current _ _ _ _ _ _ _ E2), E1 in H.
      destruct (check_pending_requests _) as [s3 o3] eqn:E3. injection H as <- <- <-.
      destruct (check_current _ _ _ _ E3 Hp) as [[Hc _]|[_ Hi]]; [discriminate Hc|].
      right. apply in_or_app. right. apply in_or_app. right. exact Hi.
    + injection H as <- <- <-. congruence.
  - destruct (existsb _ _); injection H as <- <- <-; left; exact Hp.
  - destruct (existsb _ _); [|injection H as <- <- <-; left; exact Hp].
    unfold on_timeout in H. cbn [with_timers cc_shutdown cc_current] in H.
    destruct (cc_shutdown s); [injection H as <- <- <-; left; exact Hp|].
    destruct (cc_current s) as [p1|] eqn:E1; [|injection H as <- <- <-; left; cbn [cc_current with_timers] in Hp; congruence].
    destruct (call_handler handler _ w _ _) as [[s2 w2] o2] eqn:E2.
    unfold cancel_current_request in H. rewrite (handler_current _ _ _ _ _ _ _ E2) in H.
    cbn [with_timers cc_current] in H. rewrite E1 in H.
    destruct (check_pending_requests _) as [s3 o3] eqn:E3. injection H as <- <- <-.
    destruct (check_current _ _ _ _ E3 Hp) as [[Hc _]|[_ Hi]]; [discriminate Hc|].
    right. apply in_or_app. right. exact Hi.
Qed.

(** ** What a step leaves alone *)
Lemma step_rest pol s os w e s' w' o : core s os -> stable s ->
  client_step handler pol s w e = Ret (s', w', o) ->
  (cc_shutdown s' = false -> cc_shutdown s = false) /\
  ((forall data, e <> CReceive data) -> (forall msg, e <> CError msg) -> cc_parser s' = cc_parser s).
Proof.
  intros C St H. destruct e as [a| |data|msg|t|t]; cbn [client_step] in H.
  - destruct a; cbn [capi_call] in H; injection H as <- <- <-; auto.
  - destruct (cc_queue s) as [|t q] eqn:Eq; [injection H as <- <- <-; auto|].
    destruct (run_ctask_spec handler s os w t q C St Eq) as (s1 & w1 & o1 & E & _ & _ & Hp & _ & _ & Hd & _).
    rewrite E in H. injection H as <- <- <-. split; [|auto].
    destruct t; try (rewrite Hd by discriminate; auto). cbn [run_ctask] in E. injection E as <- _ _. discriminate.
  - split; [|intros Hr; destruct (Hr data eq_refl)]. unfold on_receive in H.
    destruct (cc_shutdown s) eqn:Es; [injection H as <- <- <-; congruence|auto].
  - split; [|intros _ Hr; destruct (Hr msg eq_refl)].
    destruct (on_error_spec handler s os w msg C St) as (s1 & w1 & o1 & E & _ & _ & Hd & _).
    rewrite E in H. injection H as <- <- <-. congruence.
  - destruct (existsb _ _); injection H as <- <- <-; auto.
  - destruct (existsb _ _); [|injection H as <- <- <-; auto].
    destruct (on_timeout_spec handler s os w t C St) as (s1 & w1 & o1 & E & _ & _ & Hd & Hp & _).
    rewrite E in H. injection H as <- <- <-. split; [congruence|auto].
Qed.

(** Without timeouts and errors, what is completed by other steps was rejected. *)
Lemma step_rejects pol es s w os e s' w' o i r : history handler pol es s w os ->
  client_step handler pol s w e = Ret (s', w', o) -> In (Completed i r) o ->
  (forall data, e <> CReceive data) -> (forall msg, e <> CError msg) -> (forall t, e <> CFire t) ->
  r = Error EMalformedRequest.
Proof.
  intros Hh H Hi Hr He Hf. destruct (history_reached _ _ _ _ _ _ Hh) as (C & St & _).
  destruct e as [a| |data|msg|t|t]; cbn [client_step] in H.
  - destruct a; cbn [capi_call] in H; injection H as <- <- <-; [destruct Hi as [Hi|[]]; discriminate Hi|destruct Hi].
  - destruct (cc_queue s) as [|t q] eqn:Eq; [injection H as <- <- <-; destruct Hi|].
    destruct (run_ctask_spec handler s os w t q C St Eq) as (s1 & w1 & o1 & E & _ & _ & _ & _ & _ & _ & Hc & _).
    rewrite E in H. injection H as <- <- <-. apply (Hc _ _ Hi).
  - destruct (Hr data eq_refl).
  - destruct (He msg eq_refl).
  - destruct (existsb _ _); injection H as <- <- <-; destruct Hi.
  - destruct (Hf t eq_refl).
Qed.

(** ** Calls are made through sessions *)
Definition through_session (o : coutput) : Prop :=
  match o with Called _ k => by_session (Submit k) | _ => True end.

Lemma capi_calls_session l : Forall by_session l -> forall s s' o, capi_calls s l = (s', o) -> Forall through_session o.
Proof.
  induction 1 as [|a l Ha _ IH]; intros s s' o H; cbn [capi_calls] in H.
  - injection H as <- <-. constructor.
  - destruct (capi_call s a) as [s1 o1] eqn:E1. destruct (capi_calls s1 l) as [s2 o2] eqn:E2.
    injection H as <- <-. apply Forall_app. split; [|exact (IH _ _ _ E2)].
    destruct a as [k|]; cbn [capi_call] in E1; injection E1 as <- <-; [|constructor].
    constructor; [exact Ha|constructor].
Qed.

Hypothesis sess : session_handler handler.

Lemma handler_session s w i r s' w' o : call_handler handler s w i r = (s', w', o) -> Forall through_session o.
Proof.
  unfold call_handler. destruct (handler i w r) as [w1 calls] eqn:E.
  destruct (capi_calls s calls) as [s1 o1] eqn:E1. intros H. injection H as <- <- <-.
  constructor; [exact I|]. exact (capi_calls_session _ (sess _ _ _ _ _ E) _ _ _ E1).
Qed.

Lemma check_session s s' o : check_pending_requests s = (s', o) -> Forall through_session o.
Proof.
  unfold check_pending_requests. destruct (cc_shutdown s); [intros H; injection H as <- <-; constructor|].
  destruct (cc_current s); [intros H; injection H as <- <-; constructor|].
  destruct (cc_pending s); intros H; injection H as <- <-; repeat constructor.
Qed.

Lemma cancel_session s s' o : cancel_current_request s = (s', o) -> Forall through_session o.
Proof.
  unfold cancel_current_request. destruct (cc_current s); [apply check_session|].
  intros H. injection H as <- <-. constructor.
Qed.

Lemma fail_session msg l : forall s w s' w' o, fail_all handler s w l msg = (s', w', o) -> Forall through_session o.
Proof.
  induction l as [|p l IH]; cbn [fail_all]; intros s w s' w' o H; [injection H as <- <- <-; constructor|].
  destruct (call_handler handler s w _ _) as [[s1 w1] o1] eqn:E1.
  destruct (fail_all handler s1 w1 l msg) as [[s2 w2] o2] eqn:E2. injection H as <- <- <-.
  apply Forall_app. split; [exact (handler_session _ _ _ _ _ _ _ E1)|exact (IH _ _ _ _ _ E2)].
Qed.

Lemma responses_session ms : forall s w s' w' o, on_responses handler s w ms = (s', w', o) -> Forall through_session o.
Proof.
  induction ms as [|m ms IH]; cbn [on_responses]; intros s w s' w' o H; [injection H as <- <- <-; constructor|].
  destruct (on_response handler s w m) as [[s1 w1] o1] eqn:E1.
  destruct (on_responses handler s1 w1 ms) as [[s2 w2] o2] eqn:E2. injection H as <- <- <-.
  apply Forall_app. split; [|exact (IH _ _ _ _ _ E2)].
  unfold on_response in E1. destruct (cc_shutdown s); [injection E1 as <- <- <-; constructor|].
  destruct (cc_current s) as [p|]; [|injection E1 as <- <- <-; constructor].
  destruct (_ && _); [|injection E1 as <- <- <-; constructor].
  destruct (call_handler handler _ w _ _) as [[s3 w3] o3] eqn:E3.
  destruct (check_pending_requests _) as [s4 o4] eqn:E4. injection E1 as <- <- <-.
  apply Forall_app. split; [exact (handler_session _ _ _ _ _ _ _ E3)|exact (check_session _ _ _ E4)].
Qed.

Lemma step_session pol s w e s' w' o : client_step handler pol s w e = Ret (s', w', o) ->
  (forall a, e = CApi a -> by_session a) -> Forall through_session o.
Proof.
  destruct e as [a| |data|msg|t|t]; cbn [client_step]; intros H Ha.
  - destruct a as [k|]; cbn [capi_call] in H; injection H as <- <- <-; [|constructor].
    constructor; [exact (Ha _ eq_refl)|constructor].
  - destruct (cc_queue s) as [|t q]; [injection H as <- <- <-; constructor|].
    destruct t as [i k|i|]; cbn [run_ctask] in H.
    + destruct (cc_shutdown _); [injection H as <- <- <-; constructor|].
      destruct (check_pending_requests _) as [s2 o2] eqn:Ec. injection H as <- <- <-. exact (check_session _ _ _ Ec).
    + injection H as H. exact (handler_session _ _ _ _ _ _ _ H).
    + injection H as <- <- <-. repeat constructor.
  - unfold on_receive in H. destruct (cc_shutdown s); [injection H as <- <- <-; constructor|].
    destruct (mbap_parse pol (cc_parser s) data) as [[p ms]|]; [|discriminate H]. cbn [obind] in H.
    injection H as H. exact (responses_session _ _ _ _ _ _ H).
  - injection H as H. unfold on_error in H. destruct (cc_shutdown s); [injection H as <- <- <-; constructor|].
    unfold cancel_all_pending_requests in H.
    destruct (fail_all handler _ w _ msg) as [[s1 w1] o1] eqn:E1.
    destruct (cc_current (with_pending s1 [])) as [p|]; [|injection H as <- <- <-; exact (fail_session _ _ _ _ _ _ _ E1)].
    destruct (call_handler handler _ w1 _ _) as [[s2 w2] o2] eqn:E2.
    destruct (cancel_current_request s2) as [s3 o3] eqn:E3. injection H as <- <- <-.
    repeat (apply Forall_app; split);
      [exact (fail_session _ _ _ _ _ _ _ E1)|exact (handler_session _ _ _ _ _ _ _ E2)|exact (cancel_session _ _ _ E3)].
  - destruct (existsb _ _); injection H as <- <- <-; constructor.
  - destruct (existsb _ _); [|injection H as <- <- <-; constructor]. injection H as H.
    unfold on_timeout in H. destruct (cc_shutdown _); [injection H as <- <- <-; constructor|].
    destruct (cc_current _) as [p|]; [|injection H as <- <- <-; constructor].
    destruct (call_handler handler _ w _ _) as [[s2 w2] o2] eqn:E2.
    destruct (cancel_current_request s2) as [s3 o3] eqn:E3. injection H as <- <- <-.
    apply Forall_app. split; [exact (handler_session _ _ _ _ _ _ _ E2)|exact (cancel_session _ _ _ E3)].
Qed.
End ClientSteps.
