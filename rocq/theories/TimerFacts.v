(** Proofs about Client.v: the timers that are armed. *)
From Verif Require Import Prelude Ser4 Messages Mbap SpecPdu SpecMbap Client SpecClient ClientFacts ClientLemmas ClientShutdown ClientTx ClientResponses
  AsyncWrite ClientConn SpecConn ClientTcp SpecClientTcp TcpWire TcpLemmas.
From Coq Require Import Lia.

(** ** At most one *)
Definition single (s : client) : Prop :=
  (cc_armed s = [] \/ exists t, cc_timer s = Some t /\ cc_armed s = [t]) /\ (cc_current s = None -> cc_armed s = []).

Definition same_timers (s s' : client) : Prop :=
  cc_armed s' = cc_armed s /\ cc_timer s' = cc_timer s /\ cc_current s' = cc_current s.

Lemma single_same s s' : same_timers s s' -> single s -> single s'.
Proof. intros (A & B & C) H. unfold single. rewrite A, B, C. exact H. Qed.

Lemma cancelled s : (cc_armed s = [] \/ exists t, cc_timer s = Some t /\ cc_armed s = [t]) -> cc_armed (cancel_timer s) = [].
Proof.
  intros H. unfold cancel_timer; cbn [with_timers cc_armed]. destruct H as [H|(t & T & H)].
  - rewrite H. destruct (cc_timer s); reflexivity.
  - rewrite T, H. cbn. rewrite Nat.eqb_refl. reflexivity.
Qed.

Lemma single_check s s' o : (cc_current s = None -> cc_armed s = []) -> single s -> check_pending_requests s = (s', o) -> single s'.
Proof.
  unfold check_pending_requests. intros N H E.
  destruct (cc_shutdown s); [injection E as <- _; exact H|].
  destruct (cc_current s) eqn:C; [injection E as <- _; exact H|].
  destruct (cc_pending s); [injection E as <- _; exact H|].
  injection E as <- _. unfold single.
  cbn [with_timers with_pending with_current cc_armed cc_timer cc_current]. rewrite (N eq_refl). cbn [app].
  split; [right; eauto|discriminate].
Qed.

Lemma none_single s : cc_armed s = [] -> single s.
Proof. intros H. split; auto. Qed.

Lemma single_cancel s s' o : single s -> cancel_current_request s = (s', o) -> single s'.
Proof.
  unfold cancel_current_request. intros H E. destruct (cc_current s); [|injection E as <- _; exact H].
  assert (X : cc_armed (cancel_timer (with_current s None)) = []) by (apply cancelled; exact (proj1 H)).
  apply (single_check _ _ _ (fun _ => X) (none_single _ X) E).
Qed.

Section One.
Context {W : Type}.
Context (handler : nat -> W -> expected (list N) -> W * list capi).

Lemma calls_same l : forall s s' o, capi_calls s l = (s', o) -> same_timers s s'.
Proof.
  induction l as [|a l IH]; intros s s' o E; cbn [capi_calls] in E.
  - injection E as <- _. repeat split.
  - destruct (capi_call s a) as [s1 o1] eqn:A. destruct (capi_calls s1 l) as [s2 o2] eqn:B. injection E as <- _.
    assert (H : same_timers s s1) by (destruct a; injection A as <- _; repeat split).
    destruct (IH _ _ _ B) as (X & Y & Z). destruct H as (P & Q & R). repeat split; congruence.
Qed.

Lemma handler_same s w i r s' w' o : call_handler handler s w i r = (s', w', o) -> same_timers s s'.
Proof.
  unfold call_handler. destruct (handler i w r) as [w1 c]. destruct (capi_calls s c) as [s1 o1] eqn:A.
  intros E. injection E as <- _ _. exact (calls_same _ _ _ _ A).
Qed.

Lemma fail_same msg l : forall s w s' w' o, fail_all handler s w l msg = (s', w', o) -> same_timers s s'.
Proof.
  induction l as [|p l IH]; intros s w s' w' o E; cbn [fail_all] in E.
  - injection E as <- _ _. repeat split.
  - destruct (call_handler handler s w (pr_id p) (Error (EConnection msg))) as [[s1 w1] o1] eqn:A.
    destruct (fail_all handler s1 w1 l msg) as [[s2 w2] o2] eqn:B. injection E as <- _ _.
    destruct (handler_same _ _ _ _ _ _ _ A) as (P & Q & R). destruct (IH _ _ _ _ _ B) as (X & Y & Z). repeat split; congruence.
Qed.

Lemma single_response s w m s' w' o : single s -> on_response handler s w m = (s', w', o) -> single s'.
Proof.
  unfold on_response. intros H E. destruct (cc_shutdown s); [injection E as <- _ _; exact H|].
  destruct (cc_current s) as [p|]; [|injection E as <- _ _; exact H].
  destruct ((mb_tx m =? pr_tx p) && (mb_unit m =? pr_unit p)); [|injection E as <- _ _; exact H].
  destruct (call_handler handler (cancel_timer s) w (pr_id p) (Value (mb_data m))) as [[s1 w1] o1] eqn:A.
  destruct (check_pending_requests (with_current s1 None)) as [s2 o2] eqn:B. injection E as <- _ _.
  assert (X : cc_armed (with_current s1 None) = []).
  { change (cc_armed s1 = []). destruct (handler_same _ _ _ _ _ _ _ A) as (P & _). rewrite P. apply cancelled. exact (proj1 H). }
  exact (single_check _ _ _ (fun _ => X) (none_single _ X) B).
Qed.

Lemma single_responses ms : forall s w s' w' o, single s -> on_responses handler s w ms = (s', w', o) -> single s'.
Proof.
  induction ms as [|m ms IH]; intros s w s' w' o H E; cbn [on_responses] in E.
  - injection E as <- _ _. exact H.
  - destruct (on_response handler s w m) as [[s1 w1] o1] eqn:A.
    destruct (on_responses handler s1 w1 ms) as [[s2 w2] o2] eqn:B. injection E as <- _ _.
    exact (IH _ _ _ _ _ (single_response _ _ _ _ _ _ H A) B).
Qed.

Lemma single_handled s w i r s1 w1 o1 s' o : single s -> call_handler handler s w i r = (s1, w1, o1) ->
  cancel_current_request s1 = (s', o) -> single s'.
Proof. intros H A B. exact (single_cancel _ _ _ (single_same _ _ (handler_same _ _ _ _ _ _ _ A) H) B). Qed.

Lemma single_step pol s w e s' w' o : single s -> client_step handler pol s w e = Ret (s', w', o) -> single s'.
Proof.
  intros H E. destruct e as [a| |d|msg|x|x]; cbn [client_step] in E.
  - destruct (capi_call s a) as [s1 o1] eqn:A. injection E as <- _ _. apply (single_same s); [|exact H].
    destruct a; injection A as <- _; repeat split.
  - destruct (cc_queue s) as [|t q]; [injection E as <- _ _; exact H|].
    assert (H1 : single (with_queue s q (cc_calls s))) by exact H. revert E H1.
    generalize (with_queue s q (cc_calls s)). clear. intros s E H.
    destruct t as [i k|i|]; cbn [run_ctask] in E.
    + destruct (cc_shutdown s); [injection E as <- _ _; exact H|].
      match type of E with context [check_pending_requests ?x] => destruct (check_pending_requests x) as [s1 o1] eqn:A end.
      injection E as <- _ _. refine (single_check _ _ _ _ _ A); [exact (proj2 H)|exact H].
    + injection E as E. exact (single_same _ _ (handler_same _ _ _ _ _ _ _ E) H).
    + injection E as <- _ _. apply none_single. apply cancelled. exact (proj1 H).
  - unfold on_receive in E. destruct (cc_shutdown s); [injection E as <- _ _; exact H|].
    destruct (mbap_parse pol (cc_parser s) d) as [[p ms]|]; cbn [obind] in E; [|discriminate].
    injection E as E. exact (single_responses _ _ _ _ _ _ (H : single (with_parser s p)) E).
  - unfold on_error in E. destruct (cc_shutdown s); [injection E as <- _ _; exact H|].
    unfold cancel_all_pending_requests in E.
    match type of E with context [fail_all handler ?x ?y ?z ?r] => destruct (fail_all handler x y z r) as [[s1 w1] o1] eqn:A end.
    assert (H1 : single (with_pending s1 [])) by exact (single_same _ _ (fail_same _ _ _ _ _ _ _ A) H).
    destruct (cc_current (with_pending s1 [])) as [p|].
    + injection E as E. match type of E with context [call_handler handler ?x ?y ?z ?r] => destruct (call_handler handler x y z r) as [[s2 w2] o2] eqn:B end.
      destruct (cancel_current_request s2) as [s3 o3] eqn:C. injection E as <- _ _.
      exact (single_handled _ _ _ _ _ _ _ _ _ H1 B C).
    + injection E as <- _ _. exact H1.
  - destruct (existsb (Nat.eqb x) (cc_armed s)) eqn:X; injection E as <- _ _; [|exact H].
    apply none_single. cbn [with_timers cc_armed]. destruct (proj1 H) as [A|(t & _ & A)]; rewrite A in *; [reflexivity|].
    cbn in X. rewrite Bool.orb_false_r in X. apply Nat.eqb_eq in X. subst x. cbn. rewrite Nat.eqb_refl. reflexivity.
  - destruct (existsb (Nat.eqb x) (cc_expired s)); [|injection E as <- _ _; exact H].
    injection E as E. unfold on_timeout in E.
    match type of E with context [call_handler handler ?x] => assert (H1 : single x) by exact H; revert E H1; generalize x end.
    clear. intros s E H.
    destruct (cc_shutdown s); [injection E as <- _ _; exact H|].
    destruct (cc_current s) as [p|]; [|injection E as <- _ _; exact H].
    destruct (call_handler handler s w (pr_id p) (Error ETimeout)) as [[s2 w2] o2] eqn:B.
    destruct (cancel_current_request s2) as [s3 o3] eqn:C. injection E as <- _ _.
    exact (single_handled _ _ _ _ _ _ _ _ _ H B C).
Qed.

Lemma single_run pol es : forall s w s' w' o, single s -> client_run handler pol s w es = Ret (s', w', o) -> single s'.
Proof.
  induction es as [|e es IH]; intros s w s' w' o H E; cbn [client_run] in E; [injection E as <- _ _; exact H|].
  destruct (client_step handler pol s w e) as [[[s1 w1] o1]|] eqn:E1; cbn [obind] in E; [|discriminate].
  destruct (client_run handler pol s1 w1 es) as [[[s2 w2] o2]|] eqn:E2; cbn [obind] in E; [|discriminate].
  injection E as <- _ _. exact (IH _ _ _ _ _ (single_step _ _ _ _ _ _ _ H E1) E2).
Qed.

Lemma one_timer pol es s w os : history handler pol es s w os -> (List.length (cc_armed s) <= 1)%nat.
Proof.
  intros (buf & w0 & _ & _ & E).
  destruct (single_run _ _ _ _ _ _ _ (none_single (client_init buf) eq_refl) E) as [[A|(t & _ & A)] _]; rewrite A; cbn; lia.
Qed.

(** ** Whose it is *)
Lemma timer_owner pol es s w os t : history handler pol es s w os -> In t (cc_armed s) ->
  exists a i u x f b d k, os = a ++ Sent i u x f :: b /\ sent_ids b = [] /\ ~ In i (completed_ids os) /\ ~ In TcpShutdown os /\
    In (Armed i t d) os /\ In (Called i k) os /\ d = k_timeout k.
Proof.
  intros H T. assert (D := history_shutdown _ _ _ _ _ _ H). destruct (history_reached _ _ _ _ _ _ H) as (C & _).
  destruct (co_armed _ _ C _ T) as (Ht & Hc). destruct (cc_current s) as [p|] eqn:P; [|congruence].
  destruct (co_timer _ _ C _ P) as (t' & Ht' & _ & A). rewrite Ht in Ht'. injection Ht' as <-.
  assert (S1 := co_current _ _ C _ P). apply in_split in S1. destruct S1 as (a & b & E).
  destruct (co_service _ _ C p (or_introl P)) as (k & K & _ & _ & _ & Kt).
  assert (N : ~ In (pr_id p) (completed_ids os)).
  { intro X. apply (co_gone _ _ C _ X). unfold live. rewrite P. left. reflexivity. }
  assert (Z : cc_shutdown s = false).
  { destruct (cc_shutdown s) eqn:Z; [|reflexivity]. destruct (co_down _ _ C Z). congruence. }
  exists a, (pr_id p). do 3 eexists. exists b, (pr_timeout p), k. split; [exact E|]. split; [|repeat split; auto].
  - destruct (co_wire _ _ C _ _ _ _ _ _ E) as [X|(X & _)]; [|exact X].
    exfalso. apply N. rewrite E, completed_app. apply in_or_app. right. exact X.
  - intro X. apply D in X. congruence.
Qed.

Lemma no_timer_left pol es s w os : history handler pol es s w os ->
  incl (sent_ids os) (completed_ids os) \/ In TcpShutdown os -> cc_armed s = [].
Proof.
  intros H K. destruct (cc_armed s) as [|t l] eqn:A; [reflexivity|exfalso].
  destruct (timer_owner _ _ _ _ _ t H) as (a & i & u & x & f & b & d & k & E & _ & N & D & _); [rewrite A; left; reflexivity|].
  destruct K as [K|K]; [|exact (D K)]. apply N, K. rewrite E, sent_app. apply in_or_app. right. left. reflexivity.
Qed.

(** ** Every request that is waited for has one *)
Lemma timer_kept pol es s w os i u x f : history handler pol es s w os -> ~ In TcpShutdown os ->
  In (Sent i u x f) os -> ~ In i (completed_ids os) ->
  exists t d, In (Armed i t d) os /\ In t (cc_armed s ++ cc_expired s).
Proof.
  intros H N S1 K. destruct (sent_outstanding _ _ _ _ _ _ _ _ _ _ H N S1 K) as (p & P & <- & _).
  destruct (history_reached _ _ _ _ _ _ H) as (C & _). destruct (co_timer _ _ C _ P) as (t & _ & X & A). eauto.
Qed.

(** ** Over TCP *)
Lemma tcp_one_timer pol es s l : tcp_history handler pol es s l -> (List.length (cc_armed (tc_channel s)) <= 1)%nat.
Proof. intros H. exact (one_timer _ _ _ _ _ (channel_view _ _ _ _ _ H)). Qed.
End One.
