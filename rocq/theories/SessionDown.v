(** Nothing is shut down unless it was asked for. *)
From Verif Require Import Prelude Ser4 Messages Mbap SpecPdu SpecMbap Client SpecClient ClientFacts ClientView ClientShutdown
  Scheduled SpecScheduled SessionCall Session SpecSession SessionLift SessionFacts SessionInv SessionLemmas SessionCalls.
From Coq Require Import Lia.

(** ** The channel *)
Section Calls.
Context {W : Type}.
Context (handler : nat -> W -> expected (list N) -> W * list capi).
Context (R : W -> W -> list capi -> Prop).
Context (R_refl : forall w, R w w []).
Context (R_trans : forall a b c l m, R a b l -> R b c m -> R a c (l ++ m)).
Context (R_handler : forall i w x w' c, handler i w x = (w', c) -> R w w' c).

(** From [s] to [s'] and from [w] to [w'] the shutdown is posted only if a handler asks for it. *)
Definition only (s s' : client) (w w' : W) : Prop :=
  exists cs, R w w' cs /\ (In DoShutdown (cc_queue s') -> In DoShutdown (cc_queue s) \/ In Client.Shutdown cs).

Lemma only_same s s' w : cc_queue s' = cc_queue s -> only s s' w w.
Proof. intros E. exists []. split; [apply R_refl|]. rewrite E. auto. Qed.

Lemma only_trans s1 s2 s3 w1 w2 w3 : only s1 s2 w1 w2 -> only s2 s3 w2 w3 -> only s1 s3 w1 w3.
Proof.
  intros (c1 & A1 & B1) (c2 & A2 & B2). exists (c1 ++ c2). split; [eapply R_trans; eassumption|].
  intros H. rewrite in_app_iff. destruct (B2 H) as [H1|H1]; [destruct (B1 H1)|]; auto.
Qed.

Lemma only_from s0 s s' w w' : cc_queue s = cc_queue s0 -> only s s' w w' -> only s0 s' w w'.
Proof. intros E (c & A & B). exists c. rewrite <- E. auto. Qed.

Lemma calls_queue l : forall s s' o, capi_calls s l = (s', o) -> In DoShutdown (cc_queue s') -> In DoShutdown (cc_queue s) \/ In Client.Shutdown l.
Proof.
  induction l as [|a l IH]; intros s s' o; cbn [capi_calls]; [intros E; inversion E; subst; auto|].
  destruct (capi_call s a) as [s1 o1] eqn:E1. destruct (capi_calls s1 l) as [s2 o2] eqn:E2. intros E; inversion E; subst. intros H.
  destruct (IH _ _ _ E2 H) as [H1|H1]; [|right; right; exact H1]. destruct a as [k|]; [|right; left; reflexivity].
  cbn [capi_call] in E1. inversion E1; subst. cbn [cc_queue with_queue] in H1. left.
  destruct (cc_shutdown s); [exact H1|]. destruct (im_valid (k_msg k)); apply in_app_or in H1; destruct H1 as [H1|[H1|[]]]; try exact H1; discriminate.
Qed.

Lemma handler_only s w i r s' w' o : call_handler handler s w i r = (s', w', o) -> only s s' w w'.
Proof.
  unfold call_handler. destruct (handler i w r) as [w1 c] eqn:E1. destruct (capi_calls s c) as [s1 o1] eqn:E2.
  intros E; inversion E; subst. exists c. split; [exact (R_handler _ _ _ _ _ E1)|]. exact (calls_queue _ _ _ _ E2).
Qed.

Lemma check_queue s s' o : check_pending_requests s = (s', o) -> cc_queue s' = cc_queue s.
Proof.
  unfold check_pending_requests. destruct (cc_shutdown s); [intros E; inversion E; reflexivity|].
  destruct (cc_current s); [intros E; inversion E; reflexivity|]. destruct (cc_pending s); intros E; inversion E; reflexivity.
Qed.

Lemma cancel_queue s s' o : cancel_current_request s = (s', o) -> cc_queue s' = cc_queue s.
Proof.
  unfold cancel_current_request. destruct (cc_current s); [|intros E; inversion E; reflexivity]. intros E. apply check_queue in E. exact E.
Qed.

Lemma fail_only msg l : forall s w s' w' o, fail_all handler s w l msg = (s', w', o) -> only s s' w w'.
Proof.
  induction l as [|p l IH]; intros s w s' w' o E; cbn [fail_all] in E; [inversion E; subst; apply only_same; reflexivity|].
  destruct (call_handler handler s w (pr_id p) (Error (EConnection msg))) as [[s1 w1] o1] eqn:E1.
  destruct (fail_all handler s1 w1 l msg) as [[s2 w2] o2] eqn:E2. inversion E; subst.
  exact (only_trans _ _ _ _ _ _ (handler_only _ _ _ _ _ _ _ E1) (IH _ _ _ _ _ E2)).
Qed.

Lemma responses_only ms : forall s w s' w' o, on_responses handler s w ms = (s', w', o) -> only s s' w w'.
Proof.
  induction ms as [|m ms IH]; intros s w s' w' o E; cbn [on_responses] in E; [inversion E; subst; apply only_same; reflexivity|].
  destruct (on_response handler s w m) as [[s1 w1] o1] eqn:E1.
  destruct (on_responses handler s1 w1 ms) as [[s2 w2] o2] eqn:E2. inversion E; subst.
  refine (only_trans _ _ _ _ _ _ _ (IH _ _ _ _ _ E2)). clear E E2. unfold on_response in E1.
  destruct (cc_shutdown s); [inversion E1; subst; apply only_same; reflexivity|].
  destruct (cc_current s) as [p|]; [|inversion E1; subst; apply only_same; reflexivity].
  destruct ((mb_tx m =? pr_tx p) && (mb_unit m =? pr_unit p)); [|inversion E1; subst; apply only_same; reflexivity].
  destruct (call_handler handler (cancel_timer s) w (pr_id p) (Value (mb_data m))) as [[s3 w3] o3] eqn:E3.
  destruct (check_pending_requests (with_current s3 None)) as [s4 o4] eqn:E4. inversion E1; subst.
  apply handler_only in E3. apply check_queue in E4. exact (only_trans s s3 s1 _ _ _ E3 (only_same _ _ _ E4)).
Qed.

Lemma step_only pol s w e s' w' o : (forall a, e <> CApi a) -> client_step handler pol s w e = Ret (s', w', o) ->
  exists cs, R w w' cs /\ (In DoShutdown (cc_queue s') \/ In TcpShutdown o -> In DoShutdown (cc_queue s) \/ In Client.Shutdown cs).
Proof.
  intros He E.
  assert (Hk : only s s' w w' -> ~ In TcpShutdown o ->
    exists cs, R w w' cs /\ (In DoShutdown (cc_queue s') \/ In TcpShutdown o -> In DoShutdown (cc_queue s) \/ In Client.Shutdown cs)).
  { intros (cs & A & B) H. exists cs. split; [exact A|]. intros [H1|H1]; [exact (B H1)|contradiction]. }
  assert (Hs := step_shutdown handler pol s w e s' w' o E).
  destruct e as [a| |d|msg|x|x]; cbn [client_step] in E.
  - destruct (He a eq_refl).
  - destruct (cc_queue s) as [|t q] eqn:Hq; [inversion E; subst; apply Hk; [apply only_same; reflexivity|auto]|].
    destruct t as [i k|i|]; [| |exists []; split; [|intros _; left; left; reflexivity]; inversion E; subst; apply R_refl].
    + assert (E' : w' = w /\ (In DoShutdown (cc_queue s') -> In DoShutdown q) /\ ~ In TcpShutdown o).
      { cbn [run_ctask] in E. destruct (cc_shutdown (with_queue s q (cc_calls s))); [inversion E; subst; auto|].
        match type of E with context [check_pending_requests ?x] => destruct (check_pending_requests x) as [s1 o1] eqn:Ec end.
        inversion E; subst. split; [reflexivity|]. split; [rewrite (check_queue _ _ _ Ec); auto|].
        exact (proj2 (check_keeps _ _ _ Ec)). }
      destruct E' as (-> & A & B). exists []. split; [apply R_refl|]. intros [H|H]; [left; right; exact (A H)|contradiction].
    + cbn [run_ctask] in E. inversion E as [E']. destruct (handler_only _ _ _ _ _ _ _ E') as (cs & A & B). exists cs. split; [exact A|].
      intros [H|H]; [|destruct (proj2 (handler_keeps _ _ _ _ _ _ _ _ E') H)]. destruct (B H) as [H1|H1]; [left; right; exact H1|auto].
  - unfold on_receive in E. destruct (cc_shutdown s) eqn:Hd; [inversion E; subst; apply Hk; [apply only_same; reflexivity|auto]|].
    destruct (mbap_parse pol (cc_parser s) d) as [[p ms]|]; cbn [obind] in E; [|discriminate]. inversion E as [E'].
    apply Hk; [exact (only_from s _ _ _ _ eq_refl (responses_only _ _ _ _ _ _ E'))|exact (proj2 (responses_keep _ _ _ _ _ _ _ E'))].
  - unfold on_error in E. destruct (cc_shutdown s) eqn:Hd; [inversion E; subst; apply Hk; [apply only_same; reflexivity|auto]|].
    unfold cancel_all_pending_requests in E. cbn [cc_pending with_parser] in E.
    destruct (fail_all handler (with_parser s (mbap_reset (cc_parser s))) w (cc_pending s) msg) as [[s1 w1] o1] eqn:E1.
    assert (F1 := proj2 (fail_keeps _ _ _ _ _ _ _ _ E1)). apply fail_only in E1. cbn [cc_current with_pending] in E.
    destruct (cc_current s1) as [p|]; [|inversion E; subst; apply Hk; [exact E1|exact F1]].
    destruct (call_handler handler (with_pending s1 []) w1 (pr_id p) (Error (EConnection msg))) as [[s2 w2] o2] eqn:E2.
    assert (F2 := proj2 (handler_keeps _ _ _ _ _ _ _ _ E2)). apply handler_only in E2.
    destruct (cancel_current_request s2) as [s3 o3] eqn:E3. inversion E; subst. assert (F3 := proj2 (cancel_keeps _ _ _ E3)). apply cancel_queue in E3.
    apply Hk; [|rewrite !in_app_iff; tauto].
    exact (only_trans s s1 s' _ _ _ E1 (only_trans s1 s2 s' _ _ _ E2 (only_same _ _ _ E3))).
  - destruct (existsb (Nat.eqb x) (cc_armed s)); inversion E; subst; (apply Hk; [apply only_same; reflexivity|auto]).
  - destruct (existsb (Nat.eqb x) (cc_expired s)); [|inversion E; subst; apply Hk; [apply only_same; reflexivity|auto]].
    unfold on_timeout in E. cbn [cc_shutdown cc_current with_timers] in E. destruct (cc_shutdown s) eqn:Hd; [inversion E; subst; apply Hk; [apply only_same; reflexivity|auto]|].
    destruct (cc_current s) as [p|]; [|inversion E; subst; apply Hk; [apply only_same; reflexivity|auto]].
    match type of E with context [call_handler handler ?x ?y ?z ?r] =>
      destruct (call_handler handler x y z r) as [[s2 w2] o2] eqn:E2 end.
    assert (F2 := proj2 (handler_keeps _ _ _ _ _ _ _ _ E2)). apply handler_only in E2.
    destruct (cancel_current_request s2) as [s3 o3] eqn:E3. inversion E; subst. assert (F3 := proj2 (cancel_keeps _ _ _ E3)). apply cancel_queue in E3.
    apply Hk; [|rewrite !in_app_iff; tauto].
    exact (only_trans s s2 s' _ _ _ E2 (only_same _ _ _ E3)).
Qed.
End Calls.

(** ** The sessions *)
Section Down.
Context {W : Type}.
Context (user : source -> W -> expected response -> W * list kapi).
Implicit Types (z : sessions W) (k : stack W).

(** From [z] to [z'] with the calls [c]: what is posted or called to shut something down was asked for. *)
Definition passes z z' (c : list capi) : Prop :=
  (exists o, ks_log z' = ks_log z ++ o) /\ (In Client.Shutdown c -> In (Asked CloseChannel) (ks_log z')) /\
  forall x, In (StopAll x) (ks_queue z') -> In (StopAll x) (ks_queue z) \/ In (Asked (CloseSession x)) (ks_log z').

Lemma passes_refl z : passes z z [].
Proof. split; [exists []; rewrite app_nil_r; reflexivity|]. split; [intros []|]. auto. Qed.

Lemma passes_trans z1 z2 z3 l m : passes z1 z2 l -> passes z2 z3 m -> passes z1 z3 (l ++ m).
Proof.
  intros ((o1 & A1) & B1 & C1) ((o2 & A2) & B2 & C2). split; [exists (o1 ++ o2); rewrite A2, A1, app_assoc; reflexivity|]. split.
  - intros H. apply in_app_or in H. destruct H as [H|H]; [|exact (B2 H)]. rewrite A2. apply in_or_app. left. exact (B1 H).
  - intros x H. destruct (C2 _ H) as [H1|H1]; [|auto]. destruct (C1 _ H1) as [H2|H2]; [auto|]. right. rewrite A2. apply in_or_app. auto.
Qed.

Ltac last_in := apply in_or_app; right; left; reflexivity.

Lemma api_passes z a z' c : kapi_call z a = (z', c) -> passes z z' c.
Proof.
  intros E. apply kapi_did in E. inversion E; subst;
    (split; [cbn; eexists; reflexivity|]; split; [intros Hs; try (destruct Hs as [Hs|[]]; discriminate); try destruct Hs|]);
    cbn [ks_log ks_queue show with_log with_sessions with_owner kpost with_kqueue with_polls set_sched]; intros; auto.
  all: try (apply in_app_or in H0; destruct H0 as [H0|H0]; [auto|]; cbn in H0).
  all: try (destruct H0 as [H0|[H0|[]]]; discriminate).
  all: try (destruct H0 as [H0|[]]; discriminate).
  - destruct H0 as [H0|[]]. inversion H0; subst. right. last_in.
  - last_in.
  - last_in.
Qed.

Lemma apis_pass l : forall z z' c, kapi_calls z l = (z', c) -> passes z z' c.
Proof.
  induction l as [|a l IH]; intros z z' c; cbn [kapi_calls]; [intros E; inversion E; subst; apply passes_refl|].
  destruct (kapi_call z a) as [z1 c1] eqn:E1. destruct (kapi_calls z1 l) as [z2 c2] eqn:E2. intros E; inversion E; subst.
  exact (passes_trans _ _ _ _ _ (api_passes _ _ _ _ E1) (IH _ _ _ E2)).
Qed.

Lemma poll_passes z j e z' c : poll_step z j e = (z', c) -> passes z z' c.
Proof.
  intros E. destruct (nth_error (ks_polls z) j) as [p|] eqn:Hp; [|rewrite poll_missing in E by exact Hp; inversion E; subst; apply passes_refl].
  apply (poll_polled _ _ _ _ _ _ Hp) in E. inversion E; subst; (split; [cbn; eexists; reflexivity|]); (split; [|auto]).
  - intros [].
  - intros [H2|[]]. discriminate.
Qed.

Lemma completion_passes i z x z' c : on_completion user i z x = (z', c) -> passes z z' c.
Proof.
  unfold on_completion. destruct (nth_error (ks_owners z) i) as [[r|j n]|]; [| |intros E; inversion E; subst; apply passes_refl].
  - destruct (session_result r x) as [v|]; [|intros E; inversion E; subst; destruct (passes_refl z) as (A & B & C); split; [exact A|split; [exact B|exact C]]].
    destruct (user (Once i) (ks_user z) v) as [w calls]. intros E. apply apis_pass in E.
    refine (passes_trans z _ z' [] c _ E). split; [cbn; eexists; reflexivity|]. split; [intros []|auto].
  - destruct (nth_error (ks_polls z) j) as [p|]; [|intros E; inversion E; subst; apply passes_refl].
    destruct (session_result (po_request p) x) as [v|]; [|intros E; inversion E; subst; destruct (passes_refl z) as (A & B & C); split; [exact A|split; [exact B|exact C]]].
    destruct (user (Polling j n) (ks_user z) v) as [w calls].
    destruct (poll_step (with_user z w) j (SAnswer n v)) as [z1 c1] eqn:E1. destruct (kapi_calls z1 calls) as [z2 c2] eqn:E2.
    intros E; inversion E; subst. exact (passes_trans z z1 z' _ _ (poll_passes (with_user z w) _ _ _ _ E1) (apis_pass _ _ _ _ E2)).
Qed.

Lemma closure_passes z q0 z' c : run_kclosure z q0 = (z', c) -> passes z z' c.
Proof.
  destruct q0 as [j|x j|x]; cbn [run_kclosure].
  - apply poll_passes.
  - destruct (nth_error (ks_sessions z) x); intros E; inversion E; subst; match goal with |- passes ?y _ _ => exact (passes_refl y) end.
  - destruct (nth_error (ks_sessions z) x) as [s|]; [|intros E; inversion E; subst; apply passes_refl].
    destruct (kapi_calls z _) as [z1 c1] eqn:E1. intros E; inversion E; subst. exact (apis_pass _ _ _ _ E1).
Qed.

(** What is posted was asked for. *)
Definition asked_for k (os : list koutput) : Prop :=
  (In DoShutdown (cc_queue (st_channel k)) \/ In (Channel TcpShutdown) os -> In (Asked CloseChannel) os) /\
  forall x, In (StopAll x) (ks_queue (st_rest k)) -> In (Asked (CloseSession x)) os.

Lemma asked_finish k os z c k' o : asked_for k os -> ks_log (st_rest k) = [] -> inner (ks_log z) = ks_log z -> passes (st_rest k) z c ->
  finish (st_channel k) (z, c) = Ret (k', o) -> asked_for k' (os ++ o).
Proof.
  intros [A B] Hl Hi ((l & El) & P2 & P3). cbn [finish]. destruct (capi_calls (st_channel k) c) as [s1 o1] eqn:E1. intros E; inversion E; subst.
  rewrite Hl in El. split; cbn [st_channel st_rest ks_queue with_log].
  - rewrite !in_app_iff. intros [H|[H|[H|H]]].
    + destruct (calls_queue _ _ _ _ E1 H) as [H1|H1]; [left; apply A; left; exact H1|]. right. right. exact (P2 H1).
    + left. apply A. right. exact H.
    + exfalso. apply in_channel in H; rewrite of_channel_channel in H.
      destruct (capi_calls_spec (st_channel k) c) as (q & o' & m & Eq & Ps). rewrite Eq in E1. inversion E1; subst.
      destruct (only_called_in _ _ (ps_only _ _ _ _ _ Ps) H) as (i & kk & Hx). discriminate.
    + exfalso. rewrite <- Hi in H. apply in_inner in H. destruct H as [_ H]. exact (H _ eq_refl).
  - intros x H. rewrite !in_app_iff. destruct (P3 _ H) as [H1|H1]; [left; exact (B _ H1)|auto].
Qed.

Lemma asked_step pol es k os e k' o : stack_history user pol es k os -> asked_for k os -> typed_kevent e ->
  stack_step user pol k e = Ret (k', o) -> asked_for k' (os ++ o).
Proof.
  intros H A He Es. assert (Hcl := clean_state _ _ _ _ _ H). destruct (sessions_history _ _ _ _ _ H) as (buf & Hb & V).
  assert (Hlog := vw_log _ _ _ _ _ _ V).
  destruct e as [a| |j t|j t|e]; cbn [stack_step] in Es.
  - destruct (kapi_call (st_rest k) a) as [z c] eqn:E.
    eapply asked_finish; [exact A|exact Hlog|exact (proj1 (api_clean _ _ _ _ _ Hcl E))|exact (api_passes _ _ _ _ E)|exact Es].
  - destruct (ks_queue (st_rest k)) as [|q0 q] eqn:Eq; [inversion Es; subst; rewrite app_nil_r; exact A|].
    destruct (run_kclosure (with_kqueue (st_rest k) q) q0) as [z c] eqn:E.
    eapply asked_finish; [exact A|exact Hlog|refine (proj1 (closure_clean _ _ _ _ _ _ E)); exact Hcl| |exact Es].
    refine (passes_trans _ (with_kqueue (st_rest k) q) _ [] c _ (closure_passes _ _ _ _ E)).
    split; [exists []; rewrite app_nil_r; reflexivity|]. split; [intros []|]. intros x Hx. left. rewrite Eq. right. exact Hx.
  - destruct (poll_step (st_rest k) j (SExpire t)) as [z c] eqn:E.
    eapply asked_finish; [exact A|exact Hlog|exact (proj1 (poll_clean _ _ _ _ _ _ Hcl E))|exact (poll_passes _ _ _ _ _ E)|exact Es].
  - destruct (poll_step (st_rest k) j (SFire t)) as [z c] eqn:E.
    eapply asked_finish; [exact A|exact Hlog|exact (proj1 (poll_clean _ _ _ _ _ _ Hcl E))|exact (poll_passes _ _ _ _ _ E)|exact Es].
  - assert (Hd : (exists a, e = CApi a) \/ (forall a, e <> CApi a)) by (destruct e; eauto; right; discriminate).
    destruct Hd as [(a & ->)|Ha]; [inversion Es; subst; rewrite app_nil_r; exact A|].
    assert (Es' : (let! (s, z, o) := client_step (on_completion user) pol (st_channel k) (st_rest k) e in
      Ret ({| st_channel := s; st_rest := with_log (close_sessions z o) [] |}, map Channel o ++ ks_log (close_sessions z o))) = Ret (k', o)).
    { destruct e; try exact Es. exfalso. exact (Ha _ eq_refl). }
    clear Es. destruct (client_step (on_completion user) pol (st_channel k) (st_rest k) e) as [[[s' z'] o1]|] eqn:E1; cbn [obind] in Es'; [|discriminate].
    inversion Es'; subst k' o. clear Es'.
    destruct (step_only (on_completion user) passes passes_refl passes_trans completion_passes pol _ _ _ _ _ _ Ha E1) as (cs & Hp & Hq).
    destruct (step_seen (on_completion user) pol _ _ _ _ _ _ E1 Ha) as (script & Ew & _ & _).
    assert (Hz := walk_clean _ _ _ _ _ _ Hcl Ew). destruct (close_clean _ _ o1 Hz) as (Hin & _ & _).
    assert (Hc : passes z' (close_sessions z' o1) []).
    { unfold close_sessions. destruct (existsb _ o1); [|apply passes_refl].
      destruct (kapi_calls (with_closed z') (map CloseSession (ks_open z'))) as [z1 c1] eqn:Ec. cbn [fst].
      destruct (apis_pass _ _ _ _ Ec) as (X1 & _ & X3). split; [exact X1|]. split; [intros []|exact X3]. }
    destruct (passes_trans _ _ _ _ _ Hp Hc) as ((l & El) & P2 & P3). rewrite Hlog in El. destruct A as [A B].
    rewrite app_nil_r in P2.
    split; cbn [st_channel st_rest ks_queue with_log].
    + rewrite !in_app_iff. intros Hx. assert (Hx' : In (Channel TcpShutdown) os \/ In DoShutdown (cc_queue s') \/ In TcpShutdown o1).
      { destruct Hx as [Hx|[Hx|[Hx|Hx]]]; [auto|auto| |].
        - apply in_channel in Hx. rewrite of_channel_channel in Hx. auto.
        - exfalso. rewrite <- Hin in Hx. apply in_inner in Hx. destruct Hx as [_ Hx]. exact (Hx _ eq_refl). }
      clear Hx. destruct Hx' as [Hx|Hx]; [left; apply A; right; exact Hx|]. destruct (Hq Hx) as [Hy|Hy]; [left; apply A; left; exact Hy|].
      right. right. exact (P2 Hy).
    + intros x Hx. rewrite !in_app_iff. destruct (P3 _ Hx) as [H1|H1]; [left; exact (B _ H1)|auto].
Qed.

Lemma all_asked pol es : forall k os, stack_history user pol es k os -> asked_for k os.
Proof.
  induction es as [|e es IH] using rev_ind; intros k os H.
  - destruct H as (buf & w & _ & _ & E). inversion E; subst. split; [intros [[]|[]]|intros x []].
  - destruct (history_snoc _ _ _ _ _ _ H) as (k1 & os1 & o & H1 & Es & -> & T).
    exact (asked_step _ _ _ _ _ _ _ H1 (IH _ _ H1) T Es).
Qed.

Lemma shutdown_asked pol es k os : stack_history user pol es k os -> In (Channel TcpShutdown) os -> In (Asked CloseChannel) os.
Proof. intros H Hx. apply (all_asked _ _ _ _ H). right. exact Hx. Qed.

(** Posted closures make no calls unless a session was shut down. *)
Lemma closure_asks pol es k os k' o : stack_history user pol es k os -> stack_step user pol k KRun = Ret (k', o) -> asked o <> [] ->
  exists x, In (Asked (CloseSession x)) os.
Proof.
  intros H Es Hn. destruct (all_asked _ _ _ _ H) as [_ B]. destruct (sessions_history _ _ _ _ _ H) as (buf & Hb & V).
  assert (Hlog := vw_log _ _ _ _ _ _ V). cbn [stack_step] in Es.
  destruct (ks_queue (st_rest k)) as [|q0 q] eqn:Eq; [inversion Es; subst; contradiction|].
  destruct q0 as [j|y j|y]; [| |exists y; apply B; left; reflexivity]; exfalso; apply Hn; cbn [run_kclosure] in Es.
  - destruct (poll_step (with_kqueue (st_rest k) q) j SRun) as [z c] eqn:E. destruct (own_grew _ j SRun _ _ Logic.I E) as [(l & A1 & _ & A3) _].
    cbn [finish] in Es. destruct (capi_calls (st_channel k) c) as [s1 o1]. inversion Es; subst.
    cbn [ks_log with_kqueue] in A1. rewrite A1, Hlog, asked_app, asked_channel. exact A3.
  - cbn [ks_sessions with_kqueue] in Es. destruct (nth_error (ks_sessions (st_rest k)) y) as [s|]; cbn in Es; inversion Es; subst; cbn; rewrite Hlog; reflexivity.
Qed.
End Down.
