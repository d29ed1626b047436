(** Proofs about the shutdown of the client channel. *)
From Verif Require Import Prelude Ser4 Messages Mbap SpecPdu SpecMbap Client SpecClient MbapFacts MbapLemmas BitFacts
  BuildFacts CodecLemmas FrameFacts ClientFacts ClientLemmas ClientTx.
From Coq Require Import Lia.
Section More.
Context {W : Type}.
Context (handler : nat -> W -> expected (list N) -> W * list capi).

(** ** When shutdown takes effect *)
Definition keeps (s s' : client) (o : list coutput) : Prop :=
  cc_shutdown s' = cc_shutdown s /\ ~ In TcpShutdown o.

Lemma keeps_trans s1 s2 s3 o o' : keeps s1 s2 o -> keeps s2 s3 o' -> keeps s1 s3 (o ++ o').
Proof. intros [A B] [A' B']. split; [congruence|]. rewrite in_app_iff. tauto. Qed.

Lemma keeps_nil s s' : cc_shutdown s' = cc_shutdown s -> keeps s s' [].
Proof. intros H. split; [exact H|]. auto. Qed.

Lemma keeps_from s0 s s' o : cc_shutdown s = cc_shutdown s0 -> keeps s s' o -> keeps s0 s' o.
Proof. intros E [A B]. split; congruence. Qed.

Lemma handler_keeps s w i r s' w' o : call_handler handler s w i r = (s', w', o) -> keeps s s' o.
Proof.
  intros E. destruct (call_handler_spec handler s w i r) as (w1 & q & o1 & m & E' & P).
  rewrite E in E'. injection E' as -> -> ->. split; [reflexivity|].
  intros [H|H]; [discriminate|]. destruct (only_called_in _ _ (ps_only _ _ _ _ _ P) H) as (? & ? & ?). discriminate.
Qed.

Lemma check_keeps s s' o : check_pending_requests s = (s', o) -> keeps s s' o.
Proof.
  unfold check_pending_requests. intros E. destruct (cc_shutdown s) eqn:Hs; [injection E as <- <-; apply keeps_nil; reflexivity|].
  destruct (cc_current s); [injection E as <- <-; apply keeps_nil; reflexivity|].
  destruct (cc_pending s); injection E as <- <-; [apply keeps_nil; reflexivity|].
  split; [reflexivity|]. cbn. intuition discriminate.
Qed.

Lemma cancel_keeps s s' o : cancel_current_request s = (s', o) -> keeps s s' o.
Proof.
  unfold cancel_current_request. intros E. destruct (cc_current s); [|injection E as <- <-; apply keeps_nil; reflexivity].
  apply check_keeps in E. exact E.
Qed.

Lemma fail_keeps msg l : forall s w s' w' o, fail_all handler s w l msg = (s', w', o) -> keeps s s' o.
Proof.
  induction l as [|p l IH]; intros s w s' w' o E; cbn [fail_all] in E; [injection E as <- <- <-; apply keeps_nil; reflexivity|].
  destruct (call_handler handler s w (pr_id p) (Error (EConnection msg))) as [[s1 w1] o1] eqn:E1.
  destruct (fail_all handler s1 w1 l msg) as [[s2 w2] o2] eqn:E2. injection E as <- <- <-.
  exact (keeps_trans _ _ _ _ _ (handler_keeps _ _ _ _ _ _ _ E1) (IH _ _ _ _ _ E2)).
Qed.

Lemma responses_keep ms : forall s w s' w' o, on_responses handler s w ms = (s', w', o) -> keeps s s' o.
Proof.
  induction ms as [|m ms IH]; intros s w s' w' o E; cbn [on_responses] in E; [injection E as <- <- <-; apply keeps_nil; reflexivity|].
  destruct (on_response handler s w m) as [[s1 w1] o1] eqn:E1.
  destruct (on_responses handler s1 w1 ms) as [[s2 w2] o2] eqn:E2. injection E as <- <- <-.
  refine (keeps_trans _ _ _ _ _ _ (IH _ _ _ _ _ E2)). clear E2. unfold on_response in E1.
  destruct (cc_shutdown s) eqn:Hs; [injection E1 as <- <- <-; apply keeps_nil; reflexivity|].
  destruct (cc_current s) as [p|]; [|injection E1 as <- <- <-; apply keeps_nil; reflexivity].
  destruct ((mb_tx m =? pr_tx p) && (mb_unit m =? pr_unit p)); [|injection E1 as <- <- <-; apply keeps_nil; reflexivity].
  destruct (call_handler handler (cancel_timer s) w (pr_id p) (Value (mb_data m))) as [[s3 w3] o3] eqn:E3.
  destruct (check_pending_requests (with_current s3 None)) as [s4 o4] eqn:E4. injection E1 as <- <- <-.
  apply handler_keeps in E3. apply check_keeps in E4. exact (keeps_trans s s3 _ _ _ E3 E4).
Qed.

Lemma step_shutdown pol s w e s' w' o : client_step handler pol s w e = Ret (s', w', o) ->
  (cc_shutdown s' = true <-> cc_shutdown s = true \/ In TcpShutdown o).
Proof.
  intros E.
  assert (Hk : keeps s s' o -> (cc_shutdown s' = true <-> cc_shutdown s = true \/ In TcpShutdown o)).
  { intros [-> H]. tauto. }
  destruct e as [a| |d|msg|x|x]; cbn [client_step] in E.
  - apply Hk. destruct (capi_call s a) as [s1 o1] eqn:Ea. injection E as <- <- <-.
    destruct a; cbn [capi_call] in Ea; injection Ea as <- <-; split; try reflexivity; cbn; intuition discriminate.
  - destruct (cc_queue s) as [|t q] eqn:Hq; [injection E as <- <- <-; apply Hk, keeps_nil; reflexivity|].
    destruct t as [i k|i|]; cbn [run_ctask] in E.
    + apply Hk. proj. destruct (cc_shutdown s) eqn:Hs; [injection E as <- <- <-; apply keeps_nil; reflexivity|].
      match type of E with context [check_pending_requests ?x] => destruct (check_pending_requests x) as [s1 o1] eqn:Ec end.
      injection E as <- <- <-. apply check_keeps in Ec. exact Ec.
    + apply Hk. injection E as E. apply handler_keeps in E. exact E.
    + injection E as <- <- <-. cbn. tauto.
  - apply Hk. unfold on_receive in E. destruct (cc_shutdown s) eqn:Hs; [injection E as <- <- <-; apply keeps_nil; reflexivity|].
    destruct (mbap_parse pol (cc_parser s) d) as [[p ms]|]; cbn [obind] in E; [|discriminate].
    injection E as E. apply responses_keep in E. exact E.
  - apply Hk. unfold on_error in E. destruct (cc_shutdown s) eqn:Hs; [injection E as <- <- <-; apply keeps_nil; reflexivity|].
    unfold cancel_all_pending_requests in E. proj.
    destruct (fail_all handler (with_parser s (mbap_reset (cc_parser s))) w (cc_pending s) msg) as [[s1 w1] o1] eqn:E1.
    apply fail_keeps in E1. proj.
    destruct (cc_current s1) as [p|]; [|injection E as <- <- <-; exact E1].
    destruct (call_handler handler (with_pending s1 []) w1 (pr_id p) (Error (EConnection msg))) as [[s2 w2] o2] eqn:E2.
    apply handler_keeps in E2.
    destruct (cancel_current_request s2) as [s3 o3] eqn:E3. injection E as <- <- <-. apply cancel_keeps in E3.
    exact (keeps_trans s s1 _ _ _ E1 (keeps_trans s1 s2 _ _ _ E2 E3)).
  - apply Hk. destruct (existsb (Nat.eqb x) (cc_armed s)); injection E as <- <- <-; apply keeps_nil; reflexivity.
  - apply Hk. destruct (existsb (Nat.eqb x) (cc_expired s)); [|injection E as <- <- <-; apply keeps_nil; reflexivity].
    unfold on_timeout in E. proj. destruct (cc_shutdown s) eqn:Hs; [injection E as <- <- <-; apply keeps_nil; reflexivity|].
    destruct (cc_current s) as [p|]; [|injection E as <- <- <-; apply keeps_nil; reflexivity].
    match type of E with context [call_handler handler ?x ?y ?z ?r] =>
      destruct (call_handler handler x y z r) as [[s2 w2] o2] eqn:E2 end.
    apply handler_keeps in E2.
    destruct (cancel_current_request s2) as [s3 o3] eqn:E3. injection E as <- <- <-. apply cancel_keeps in E3.
    exact (keeps_trans s s2 _ _ _ E2 E3).
Qed.

Lemma run_shutdown pol es : forall s w s' w' o, client_run handler pol s w es = Ret (s', w', o) ->
  (cc_shutdown s' = true <-> cc_shutdown s = true \/ In TcpShutdown o).
Proof.
  induction es as [|e es IH]; intros s w s' w' o E; cbn [client_run] in E; [injection E as <- <- <-; cbn; tauto|].
  destruct (client_step handler pol s w e) as [[[s1 w1] o1]|] eqn:E1; cbn [obind] in E; [|discriminate].
  destruct (client_run handler pol s1 w1 es) as [[[s2 w2] o2]|] eqn:E2; cbn [obind] in E; [|discriminate].
  injection E as <- <- <-. rewrite (IH _ _ _ _ _ E2), (step_shutdown _ _ _ _ _ _ _ E1), in_app_iff. tauto.
Qed.

Lemma history_shutdown pol es s w os : history handler pol es s w os -> (cc_shutdown s = true <-> In TcpShutdown os).
Proof.
  intros (buf & w0 & _ & _ & E). rewrite (run_shutdown _ _ _ _ _ _ _ E). cbn. intuition discriminate.
Qed.

Lemma not_down pol es s w os : history handler pol es s w os -> ~ In TcpShutdown os -> cc_shutdown s = false.
Proof.
  intros H Hn. destruct (cc_shutdown s) eqn:Hs; [|reflexivity]. apply (history_shutdown _ _ _ _ _ H) in Hs. tauto.
Qed.

(** *** Silence *)
Lemma only_called_quiet o : Forall (fun x => exists i k, x = Called i k) o -> Forall quiet o.
Proof. apply Forall_impl. intros x (i & k & ->). exact I. Qed.

Lemma step_quiet pol s w e s' w' o : cc_shutdown s = true ->
  client_step handler pol s w e = Ret (s', w', o) -> Forall quiet o.
Proof.
  intros Hs E. destruct e as [a| |d|msg|x|x]; cbn [client_step] in E.
  - destruct a; cbn [capi_call] in E; injection E as <- <- <-; repeat constructor.
  - destruct (cc_queue s) as [|t q] eqn:Hq; [injection E as <- <- <-; constructor|].
    destruct t as [i k|i|]; cbn [run_ctask] in E.
    + proj. rewrite Hs in E. injection E as <- <- <-. constructor.
    + injection E as E. destruct (call_handler_spec handler (with_queue s q (cc_calls s)) w i (Error EMalformedRequest)) as (w1 & q1 & o1 & m & E' & P).
      rewrite E in E'. injection E' as -> -> ->. constructor; [reflexivity|].
      apply only_called_quiet. exact (ps_only _ _ _ _ _ P).
    + injection E as <- <- <-. repeat constructor.
  - unfold on_receive in E. rewrite Hs in E. injection E as <- <- <-. constructor.
  - unfold on_error in E. rewrite Hs in E. injection E as <- <- <-. constructor.
  - destruct (existsb (Nat.eqb x) (cc_armed s)); injection E as <- <- <-; constructor.
  - destruct (existsb (Nat.eqb x) (cc_expired s)); [|injection E as <- <- <-; constructor].
    unfold on_timeout in E. proj. rewrite Hs in E. injection E as <- <- <-. constructor.
Qed.

Lemma run_quiet pol es : forall s w s' w' o, cc_shutdown s = true ->
  client_run handler pol s w es = Ret (s', w', o) -> Forall quiet o.
Proof.
  induction es as [|e es IH]; intros s w s' w' o Hs E; cbn [client_run] in E; [injection E as <- <- <-; constructor|].
  destruct (client_step handler pol s w e) as [[[s1 w1] o1]|] eqn:E1; cbn [obind] in E; [|discriminate].
  destruct (client_run handler pol s1 w1 es) as [[[s2 w2] o2]|] eqn:E2; cbn [obind] in E; [|discriminate].
  injection E as <- <- <-. apply Forall_app. split; [exact (step_quiet _ _ _ _ _ _ _ Hs E1)|].
  refine (IH _ _ _ _ _ _ E2). apply (step_shutdown _ _ _ _ _ _ _ E1). auto.
Qed.

(** The step that reports the shutdown reports nothing else. *)
Lemma shutdown_step pol s w e s' w' o : client_step handler pol s w e = Ret (s', w', o) ->
  cc_shutdown s = false -> In TcpShutdown o -> o = [TcpShutdown].
Proof.
  intros E Hs Hin. destruct e as [a| |d|msg|x|x].
  2:{ cbn [client_step] in E. destruct (cc_queue s) as [|t q] eqn:Hq; [injection E as <- <- <-; destruct Hin|].
      destruct t as [i k|i|]; cbn [run_ctask] in E.
      - proj. rewrite Hs in E.
        match type of E with context [check_pending_requests ?x] => destruct (check_pending_requests x) as [s1 o1] eqn:Ec end.
        injection E as <- <- <-. apply check_keeps in Ec. destruct (proj2 Ec Hin).
      - injection E as E. apply handler_keeps in E. destruct (proj2 E Hin).
      - injection E as <- <- <-. reflexivity. }
  all: exfalso; cbn [client_step] in E.
  - destruct a; cbn [capi_call] in E; injection E as <- <- <-; cbn in Hin; intuition discriminate.
  - unfold on_receive in E. rewrite Hs in E. 
    destruct (mbap_parse pol (cc_parser s) d) as [[p ms]|]; cbn [obind] in E; [|discriminate].
    injection E as E. apply responses_keep in E. destruct (proj2 E Hin).
  - assert (E' : client_step handler pol s w (CError msg) = Ret (s', w', o)) by exact E.
    apply step_shutdown in E'. destruct E' as [_ E']. assert (Hd := E' (or_intror Hin)).
    injection E as E. unfold on_error in E. rewrite Hs in E. unfold cancel_all_pending_requests in E. proj.
    destruct (fail_all handler (with_parser s (mbap_reset (cc_parser s))) w (cc_pending s) msg) as [[s1 w1] o1] eqn:E1.
    apply fail_keeps in E1. destruct E1 as [E1 E1']. proj.
    destruct (cc_current s1) as [p|]; [|injection E as <- <- <-; tauto].
    destruct (call_handler handler (with_pending s1 []) w1 (pr_id p) (Error (EConnection msg))) as [[s2 w2] o2] eqn:E2.
    apply handler_keeps in E2. destruct E2 as [E2 E2'].
    destruct (cancel_current_request s2) as [s3 o3] eqn:E3. injection E as <- <- <-. apply cancel_keeps in E3.
    destruct E3 as [E3 E3']. proj. congruence.
  - destruct (existsb (Nat.eqb x) (cc_armed s)); injection E as <- <- <-; destruct Hin.
  - destruct (existsb (Nat.eqb x) (cc_expired s)); [|injection E as <- <- <-; destruct Hin].
    unfold on_timeout in E. proj. rewrite Hs in E.
    destruct (cc_current s) as [p|]; [|injection E as <- <- <-; destruct Hin].
    match type of E with context [call_handler handler ?x ?y ?z ?r] =>
      destruct (call_handler handler x y z r) as [[s2 w2] o2] eqn:E2 end.
    apply handler_keeps in E2.
    destruct (cancel_current_request s2) as [s3 o3] eqn:E3. injection E as <- <- <-. apply cancel_keeps in E3.
    apply in_app_or in Hin. destruct E2, E3. tauto.
Qed.

Lemma run_silent pol es : forall s w s' w' o a b, client_run handler pol s w es = Ret (s', w', o) ->
  o = a ++ TcpShutdown :: b -> Forall quiet b.
Proof.
  induction es as [|e es IH]; intros s w s' w' o a b E Eo; cbn [client_run] in E.
  { injection E as <- <- <-. destruct a; discriminate. }
  destruct (client_step handler pol s w e) as [[[s1 w1] o1]|] eqn:E1; cbn [obind] in E; [|discriminate].
  destruct (client_run handler pol s1 w1 es) as [[[s2 w2] o2]|] eqn:E2; cbn [obind] in E; [|discriminate].
  injection E as <- <- <-. apply split_at in Eo. destruct Eo as [(b1 & -> & ->)|(a2 & -> & Eo)].
  - assert (Hin : In TcpShutdown (a ++ TcpShutdown :: b1)) by (apply in_or_app; right; left; reflexivity).
    assert (Hs1 : cc_shutdown s1 = true) by (apply (step_shutdown _ _ _ _ _ _ _ E1); auto).
    apply Forall_app. split; [|exact (run_quiet _ _ _ _ _ _ _ Hs1 E2)].
    destruct (cc_shutdown s) eqn:Hs.
    + assert (Hq := step_quiet _ _ _ _ _ _ _ Hs E1). apply Forall_app in Hq. destruct Hq as [_ Hq].
      apply Forall_cons_iff in Hq. tauto.
    + assert (Hone := shutdown_step _ _ _ _ _ _ _ E1 Hs Hin).
      destruct a as [|? a]; [|destruct a; discriminate]. injection Hone as ->. constructor.
  - eapply IH; eauto.
Qed.

Lemma silent_after_shutdown pol es s w os a b : history handler pol es s w os ->
  os = a ++ TcpShutdown :: b -> Forall quiet b.
Proof. intros (buf & w0 & _ & _ & E). apply (run_silent _ _ _ _ _ _ _ _ _ E). Qed.

(** *** A requested shutdown takes effect *)
Lemma step_queue pol s os w e bs s' w' o : core s os -> stable s -> tracked pol s bs -> typed_cevent e ->
  client_step handler pol s w e = Ret (s', w', o) ->
  In DoShutdown (cc_queue s) \/ e = CApi Shutdown -> In DoShutdown (cc_queue s') \/ In TcpShutdown o.
Proof.
  intros C St (t & HR & Htr) Ht E Hor.
  destruct e as [a| |d|msg|x|x]; cbn [client_step] in E.
  - left. destruct a as [k|]; cbn [capi_call] in E; injection E as <- <- <-; proj.
    + destruct Hor as [H|H]; [|discriminate]. destruct (cc_shutdown s); [exact H|].
      destruct (im_valid (k_msg k)); apply in_or_app; auto.
    + apply in_or_app. right. cbn; auto.
  - destruct Hor as [H|H]; [|discriminate].
    destruct (cc_queue s) as [|t0 q] eqn:Hq; [destruct H|].
    destruct (run_ctask_spec handler s os w t0 q C St Hq) as (s1 & w1 & o1 & E1 & _ & _ & _ & _ & (q' & Hq') & _).
    rewrite E1 in E. injection E as <- <- <-. destruct H as [->|H].
    + right. cbn [run_ctask] in E1. injection E1 as <- <- <-. cbn; auto.
    + left. rewrite Hq'. apply in_or_app; auto.
  - destruct Hor as [H|H]; [|discriminate]. left. unfold on_receive in E.
    destruct (cc_shutdown s); [injection E as <- <- <-; exact H|].
    destruct (mbap_parse pol (cc_parser s) d) as [[p ms]|]; cbn [obind] in E; [|discriminate]. injection E as E.
    destruct (on_responses_spec handler ms (with_parser s p) os w (core_parser _ _ _ C) St) as (s1 & w1 & o1 & E1 & _ & _ & _ & _ & _ & (q & Hq) & _).
    rewrite E1 in E. injection E as <- <- <-. rewrite Hq. apply in_or_app; auto.
  - destruct Hor as [H|H]; [|discriminate]. left. injection E as E.
    destruct (on_error_spec handler s os w msg C St) as (s1 & w1 & o1 & E1 & _ & _ & _ & _ & (q & Hq) & _).
    rewrite E1 in E. injection E as <- <- <-. rewrite Hq. apply in_or_app; auto.
  - destruct Hor as [H|H]; [|discriminate]. left.
    destruct (existsb (Nat.eqb x) (cc_armed s)); injection E as <- <- <-; exact H.
  - destruct Hor as [H|H]; [|discriminate]. left.
    destruct (existsb (Nat.eqb x) (cc_expired s)); [|injection E as <- <- <-; exact H]. injection E as E.
    destruct (on_timeout_spec handler s os w x C St) as (s1 & w1 & o1 & E1 & _ & _ & _ & _ & _ & (q & Hq) & _).
    rewrite E1 in E. injection E as <- <- <-. rewrite Hq. apply in_or_app; auto.
Qed.

Lemma history_split pol es e s w os : history handler pol (es ++ [e]) s w os ->
  exists s1 w1 os1 o, history handler pol es s1 w1 os1 /\ client_step handler pol s1 w1 e = Ret (s, w, o) /\
    os = os1 ++ o /\ typed_cevent e.
Proof.
  intros (buf & w0 & Hg & Ht & E). rewrite run_snoc in E. apply Forall_app in Ht. destruct Ht as [Ht He].
  destruct (client_run handler pol (client_init buf) w0 es) as [[[s1 w1] o1]|] eqn:E1; cbn [obind] in E; [|discriminate].
  destruct (client_step handler pol s1 w1 e) as [[[s2 w2] o2]|] eqn:E2; cbn [obind] in E; [|discriminate].
  injection E as <- <- <-. exists s1, w1, o1, o2. split; [exists buf, w0; auto|]. split; [exact E2|].
  split; [reflexivity|]. apply Forall_cons_iff in He. tauto.
Qed.

Lemma history_extend pol es e s w os : history handler pol es s w os -> typed_cevent e ->
  exists s' w' o, client_step handler pol s w e = Ret (s', w', o) /\ history handler pol (es ++ [e]) s' w' (os ++ o).
Proof.
  intros H Ht. destruct (history_reached _ _ _ _ _ _ H) as (C & St & Tr).
  destruct (step_core handler pol s os w e _ C St Tr Ht) as (s' & w' & o & E & _).
  exists s', w', o. split; [exact E|]. destruct H as (buf & w0 & Hg & Hty & Er).
  exists buf, w0. split; [exact Hg|]. split; [apply Forall_app; split; [exact Hty|constructor; auto]|].
  rewrite run_snoc, Er. cbn [obind]. rewrite E. reflexivity.
Qed.

Lemma shutdown_queued pol es : forall s w os, history handler pol es s w os -> In (CApi Shutdown) es ->
  In DoShutdown (cc_queue s) \/ In TcpShutdown os.
Proof.
  induction es as [|e es IH] using rev_ind; intros s w os H Hin; [destruct Hin|].
  apply history_split in H. destruct H as (s1 & w1 & os1 & o & H1 & E & -> & Ht).
  destruct (history_reached _ _ _ _ _ _ H1) as (C & St & Tr). rewrite in_app_iff.
  apply in_app_or in Hin. destruct Hin as [Hin|[->|[]]].
  - destruct (IH _ _ _ H1 Hin) as [Hq|Hq]; [|auto].
    destruct (step_queue _ _ _ _ _ _ _ _ _ C St Tr Ht E (or_introl Hq)); auto.
  - destruct (step_queue _ _ _ _ _ _ _ _ _ C St Tr Ht E (or_intror eq_refl)); auto.
Qed.

Lemma run_to_shutdown pol n : forall es s w os, history handler pol es s w os -> 
  (exists q rest, cc_queue s = q ++ DoShutdown :: rest /\ (List.length q < n)%nat) ->
  exists s' w' o, client_run handler pol s w (repeat CRun n) = Ret (s', w', o) /\ In TcpShutdown o.
Proof.
  induction n as [|n IH]; intros es s w os H (q & rest & Hq & Hlen); [lia|].
  destruct (history_extend _ _ CRun _ _ _ H I) as (s1 & w1 & o1 & E & H1).
  cbn [repeat client_run]. rewrite E. cbn [obind].
  destruct q as [|t q]; cbn [app] in Hq.
  - assert (Hin : In TcpShutdown o1).
    { cbn [client_step] in E. rewrite Hq in E. cbn [run_ctask] in E. injection E as <- <- <-. cbn; auto. }
    destruct (history_reached _ _ _ _ _ _ H1) as (C & St & Tr).
    assert (Ht : Forall typed_cevent (repeat CRun n)) by (clear; induction n; constructor; auto; exact I).
    destruct (run_reached handler pol (repeat CRun n) s1 (os ++ o1) w1 _ C St Tr Ht) as (s' & w' & o & Er & _).
    rewrite Er. cbn [obind]. do 3 eexists. split; [reflexivity|]. apply in_or_app; auto.
  - destruct (history_reached _ _ _ _ _ _ H) as (C & St & Tr).
    destruct (run_ctask_spec handler s os w t (q ++ DoShutdown :: rest) C St Hq) as (s2 & w2 & o2 & E2 & _ & _ & _ & _ & (q' & Hq') & _).
    cbn [client_step] in E. rewrite Hq in E. rewrite E2 in E. injection E as <- <- <-.
    destruct (IH _ _ _ _ H1) as (s' & w' & o & Er & Hin).
    { exists q, (rest ++ q'). rewrite Hq', <- app_assoc. split; [reflexivity|]. cbn in Hlen. lia. }
    rewrite Er. cbn [obind]. do 3 eexists. split; [reflexivity|]. apply in_or_app; auto.
Qed.

Lemma shutdown_effective pol es s w os : history handler pol es s w os -> In (CApi Shutdown) es ->
  exists s' w' o, client_run handler pol s w (repeat CRun (List.length (cc_queue s))) = Ret (s', w', o) /\
    In TcpShutdown (os ++ o).
Proof.
  intros H Hin. destruct (shutdown_queued _ _ _ _ _ H Hin) as [Hq|Hq].
  - apply in_split in Hq. destruct Hq as (q & rest & Hq).
    destruct (run_to_shutdown pol (List.length (cc_queue s)) _ _ _ _ H) as (s' & w' & o & E & Hs).
    { exists q, rest. split; [exact Hq|]. rewrite Hq, app_length. cbn. lia. }
    exists s', w', o. split; [exact E|]. apply in_or_app; auto.
  - destruct (history_reached _ _ _ _ _ _ H) as (C & St & Tr).
    assert (Ht : Forall typed_cevent (repeat CRun (List.length (cc_queue s)))).
    { generalize (List.length (cc_queue s)). intros n. induction n; constructor; auto; exact I. }
    destruct (run_reached handler pol _ s os w _ C St Tr Ht) as (s' & w' & o & Er & _).
    exists s', w', o. split; [exact Er|]. apply in_or_app; auto.
Qed.

(** *** Who is never told *)
Lemma lost_only_by_shutdown pol es s w os i : history handler pol es s w os -> quiescent s ->
  In i (called_ids os) -> ~ In i (completed_ids os) -> In TcpShutdown os.
Proof.
  intros H Q Hi Hn. apply (history_shutdown _ _ _ _ _ H).
  destruct (history_reached _ _ _ _ _ _ H) as (C & St & _).
  destruct (cc_shutdown s) eqn:Hs; [reflexivity|]. exfalso. apply Hn.
  rewrite (co_called _ _ C) in Hi. apply in_seq in Hi.
  assert (Hx := co_all _ _ C Hs i ltac:(lia)). rewrite (quiescent_live _ _ C St Q), app_nil_r in Hx. exact Hx.
Qed.
End More.
