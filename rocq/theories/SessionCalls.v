(** What the handlers of users do takes effect. *)
From Verif Require Import Prelude Ser4 Messages Mbap SpecPdu SpecMbap Client SpecClient ClientFacts ClientShutdown ClientView
  Scheduled SpecScheduled ScheduledFacts SessionCall Session SpecSession SessionLift SessionFacts SessionPolls SessionStop SessionInv SessionLemmas.
From Coq Require Import Lia.

Lemma tellings_app a b : tellings (a ++ b) = tellings a ++ tellings b.
Proof. apply flat_map_app. Qed.
Lemma asked_app a b : asked (a ++ b) = asked a ++ asked b.
Proof. apply flat_map_app. Qed.
Lemma tellings_channel o : tellings (map Channel o) = [].
Proof. induction o; [reflexivity|exact IHo]. Qed.
Lemma asked_channel o : asked (map Channel o) = [].
Proof. induction o; [reflexivity|exact IHo]. Qed.
Lemma asked_polled j (o : list (soutput (expected response))) : asked (map (Polled j) o) = [].
Proof. induction o; [reflexivity|exact IHo]. Qed.
Lemma asked_calls l : asked (map Asked l) = l.
Proof. unfold asked. induction l as [|a l IH]; [reflexivity|]. cbn. f_equal. exact IH. Qed.
Lemma tellings_calls l : tellings (map Asked l) = [].
Proof. induction l; [reflexivity|exact IHl]. Qed.

Section Calls.
Context {W : Type}.
Context (user : source -> W -> expected response -> W * list kapi).
Implicit Types (z : sessions W).

Lemma handlers_do_app a b w : handlers_do user w (a ++ b) =
  let '(w1, c1) := handlers_do user w a in let '(w2, c2) := handlers_do user w1 b in (w2, c1 ++ c2).
Proof.
  revert w. induction a as [|[s v] a IH]; intros w; cbn [app handlers_do].
  - destruct (handlers_do user w b). reflexivity.
  - destruct (user s w v) as [w1 c1]. rewrite IH. destruct (handlers_do user w1 a) as [w2 c2].
    destruct (handlers_do user w2 b) as [w3 c3]. rewrite app_assoc. reflexivity.
Qed.

(** From [z] to [z'], the handlers [l] were called, the API calls [c] made. *)
Definition grew z z' (l : list (source * expected response)) (c : list kapi) : Prop :=
  exists o, ks_log z' = ks_log z ++ o /\ tellings o = l /\ asked o = c.

Lemma grew_nothing z : grew z z [] [].
Proof. exists []. rewrite app_nil_r. auto. Qed.

Lemma grew_trans z1 z2 z3 l1 l2 c1 c2 : grew z1 z2 l1 c1 -> grew z2 z3 l2 c2 -> grew z1 z3 (l1 ++ l2) (c1 ++ c2).
Proof.
  intros (o1 & A1 & B1 & C1) (o2 & A2 & B2 & C2). exists (o1 ++ o2). rewrite A2, A1, tellings_app, asked_app, B1, B2, C1, C2.
  rewrite app_assoc. auto.
Qed.

Lemma api_grew z a z' c : kapi_call z a = (z', c) -> grew z z' [] [a] /\ ks_user z' = ks_user z.
Proof.
  intros E. apply kapi_did in E. destruct E; cbn; (split; [|reflexivity]); eexists; (split; [reflexivity|]); split; reflexivity.
Qed.

Lemma apis_grew l : forall z z' c, kapi_calls z l = (z', c) -> grew z z' [] l /\ ks_user z' = ks_user z.
Proof.
  induction l as [|a l IH]; intros z z' c; cbn [kapi_calls].
  - intros E; inversion E; subst. split; [apply grew_nothing|reflexivity].
  - destruct (kapi_call z a) as [z1 c1] eqn:E1. destruct (kapi_calls z1 l) as [z2 c2] eqn:E2. intros E; inversion E; subst.
    destruct (api_grew _ _ _ _ E1) as [G1 U1]. destruct (IH _ _ _ E2) as [G2 U2].
    split; [exact (grew_trans _ _ _ _ _ _ _ G1 G2)|congruence].
Qed.

Lemma polled_grew z j p e z' c s o : nth_error (ks_polls z) j = Some p -> poll_step z j e = (z', c) ->
  sched_step no_calls (po_sched p) tt e = (s, tt, o) -> grew z z' (tellings (map (Polled j) o)) [] /\ ks_user z' = ks_user z.
Proof.
  intros Hp E Es. apply (poll_polled _ _ _ _ _ _ Hp) in E.
  inversion E as [s1 o1 E1 E2|s1 o1 n u E1 E2 E3]; subst; rewrite Es in E1; inversion E1; subst; cbn; (split; [|reflexivity]).
  - eexists. split; [reflexivity|]. split; [reflexivity|apply asked_polled].
  - eexists. split; [reflexivity|]. rewrite tellings_app, asked_app, asked_polled. cbn. rewrite app_nil_r. auto.
Qed.

Lemma tellings_polled j (o : list (soutput (expected response))) : (forall n v, ~ In (Response n v) o) -> tellings (map (Polled j) o) = [].
Proof.
  induction o as [|x o IH]; intros H; [reflexivity|].
  assert (IH' : tellings (map (Polled j) o) = []) by (apply IH; intros n v Hin; exact (H n v (or_intror Hin))).
  destruct x as [m|m r|m f| | |f]; cbn; try exact IH'. exfalso. exact (H m r (or_introl eq_refl)).
Qed.

Lemma own_grew z j e z' c : own_event e -> poll_step z j e = (z', c) -> grew z z' [] [] /\ ks_user z' = ks_user z.
Proof.
  intros He E. destruct (nth_error (ks_polls z) j) as [p|] eqn:Hp.
  - destruct (sched_step no_calls (po_sched p) tt e) as [[s []] o] eqn:Es.
    destruct (polled_grew _ _ _ _ _ _ _ _ Hp E Es) as [G U]. split; [|exact U].
    rewrite tellings_polled in G; [exact G|]. exact (proj1 (step_other _ _ _ _ He Es)).
  - rewrite poll_missing in E by exact Hp. inversion E; subst. split; [apply grew_nothing|reflexivity].
Qed.

Lemma answer_grew z j n v z' c p : nth_error (ks_polls z) j = Some p -> In n (sr_outstanding (po_sched p)) ->
  poll_step z j (SAnswer n v) = (z', c) -> grew z z' [(Polling j n, v)] [] /\ ks_user z' = ks_user z.
Proof.
  intros Hp Hn E. destruct (sched_step no_calls (po_sched p) tt (SAnswer n v)) as [[s []] o] eqn:Es.
  destruct (polled_grew _ _ _ _ _ _ _ _ Hp E Es) as [G U]. split; [|exact U].
  replace [(Polling j n, v)] with (tellings (map (Polled j) o)); [exact G|].
  revert Es. cbn [sched_step]. rewrite (proj2 (existsb_nat n _) Hn). unfold on_answer. cbn [no_calls].
  cbn [sr_running with_posted]. destruct (sr_running (po_sched p)); intros H; inversion H; reflexivity.
Qed.

Lemma closure_grew z q0 z' c : run_kclosure z q0 = (z', c) ->
  ks_user z' = ks_user z /\ exists js, grew z z' [] (map (fun j => OnSchedule j Stop) js).
Proof.
  destruct q0 as [j|x j|x]; cbn [run_kclosure].
  - intros E. destruct (own_grew z j SRun z' c Logic.I E) as [G U]. split; [exact U|]. exists []. exact G.
  - destruct (nth_error (ks_sessions z) x); intros E; inversion E; subst; (split; [reflexivity|]); exists []; first [apply grew_nothing|exact (grew_nothing z)].
  - destruct (nth_error (ks_sessions z) x) as [s|]; [|intros E; inversion E; subst; split; [reflexivity|]; exists []; apply grew_nothing].
    destruct (kapi_calls z _) as [z1 c1] eqn:E1. intros E; inversion E; subst. destruct (apis_grew _ _ _ _ E1) as [G U].
    split; [exact U|]. exists (ss_listed s). exact G.
Qed.

(** The calls of handlers, with the state they start and end with. *)
Definition handled z z' : Prop :=
  exists l c, grew z z' l c /\ handlers_do user (ks_user z) l = (ks_user z', c).

Lemma handled_nothing z : handled z z.
Proof. exists [], []. split; [apply grew_nothing|reflexivity]. Qed.

Lemma handled_trans z1 z2 z3 : handled z1 z2 -> handled z2 z3 -> handled z1 z3.
Proof.
  intros (l1 & c1 & G1 & H1) (l2 & c2 & G2 & H2). exists (l1 ++ l2), (c1 ++ c2). split; [exact (grew_trans _ _ _ _ _ _ _ G1 G2)|].
  rewrite handlers_do_app, H1, H2. reflexivity.
Qed.

Lemma completion_handled L z D cs i x z' c : inv (L ++ ks_log z) z D cs -> (i < List.length cs)%nat -> ~ In i (map fst D) ->
  on_completion user i z x = (z', c) -> handled z z'.
Proof.
  intros HI Hi Hd. unfold on_completion. destruct (inv_owner _ _ _ _ _ HI Hi) as [(r & Eo)|(j & n & p & Eo & Ep)]; rewrite Eo.
  - destruct (session_result_total r x) as [v Ev]. rewrite Ev. destruct (user (Once i) (ks_user z) v) as [w calls] eqn:Eu.
    intros E. destruct (apis_grew _ _ _ _ E) as [G U]. cbn in U.
    exists [(Once i, v)], calls. split.
    + refine (grew_trans z (show (with_user z w) [Answered i v]) z' [_] [] [] calls _ G). exists [Answered i v]. auto.
    + cbn [handlers_do]. rewrite Eu, U, app_nil_r. reflexivity.
  - rewrite Ep. destruct (session_result_total (po_request p) x) as [v Ev]. rewrite Ev.
    destruct (user (Polling j n) (ks_user z) v) as [w calls] eqn:Eu.
    destruct (poll_step (with_user z w) j (SAnswer n v)) as [z1 c1] eqn:E1. destruct (kapi_calls z1 calls) as [z2 c2] eqn:E2.
    intros E; inversion E; subst. destruct (apis_grew _ _ _ _ E2) as [G2 U2].
    assert (Hn : In n (sr_outstanding (po_sched p))).
    { destruct (i_base _ _ _ _ HI) as [_ Y _]. apply (dy_out _ _ _ Y _ _ _ Ep). exists i. split; assumption. }
    assert (Epw : nth_error (ks_polls (with_user z w)) j = Some p) by exact Ep.
    destruct (answer_grew _ _ _ _ _ _ _ Epw Hn E1) as [G1 U1]. cbn in U1.
    exists [(Polling j n, v)], calls. split.
    + exact (grew_trans z z1 z' [_] [] [] calls G1 G2).
    + cbn [handlers_do]. rewrite Eu, U2, U1, app_nil_r. reflexivity.
Qed.

Lemma walk_handled l : forall L z D cs z' script, inv (L ++ ks_log z) z D cs ->
  (forall i, In i (map fst l) -> (i < List.length cs)%nat /\ ~ In i (map fst D)) -> NoDup (map fst l) ->
  walk (on_completion user) z l = (z', script) -> handled z z'.
Proof.
  induction l as [|[i x] l IH]; intros L z D cs z' script HI Hl Hn; cbn [walk].
  - intros E; inversion E; subst. apply handled_nothing.
  - destruct (on_completion user i z x) as [z1 c1] eqn:E1. destruct (walk (on_completion user) z1 l) as [z2 c2] eqn:E2.
    intros E; inversion E; subst. cbn [map fst] in Hl, Hn. inversion Hn as [|? ? Hn1 Hn2]; subst.
    destruct (Hl i (or_introl eq_refl)) as [Hi Hd].
    assert (HI1 : inv (L ++ ks_log z1) z1 (D ++ [(i, x)]) (cs ++ submits c1)).
    { exact (completion_inv user inv inv_api inv_user inv_answer inv_owner _ _ _ _ _ _ _ _ HI Hi Hd E1). }
    refine (handled_trans _ _ _ (completion_handled _ _ _ _ _ _ _ _ HI Hi Hd E1) _).
    refine (IH _ _ _ _ _ _ HI1 _ Hn2 E2).
    intros k Hk. destruct (Hl k (or_intror Hk)) as [A B]. split; [rewrite app_length; lia|].
    rewrite map_app. intros H. apply in_app_or in H. destruct H as [H|[H|[]]]; [exact (B H)|]. cbn in H. subst k. exact (Hn1 Hk).
Qed.

Lemma shuts_down_in os : shuts_down os = true <-> In (Channel TcpShutdown) os.
Proof.
  unfold shuts_down. rewrite existsb_exists. split.
  - intros (x & H & E). destruct x as [[]| | | | | | |]; try discriminate. exact H.
  - intros H. exists (Channel TcpShutdown). split; [exact H|reflexivity].
Qed.

Lemma shuts_down_inner o l : inner l = l -> shuts_down (map Channel o ++ l) = tcp_shutdown o.
Proof.
  intros Hl. unfold shuts_down, tcp_shutdown. rewrite existsb_app.
  replace (existsb _ l) with false; [|symmetry; rewrite <- Hl; clear; induction l as [|x l IH]; [reflexivity|]; destruct x; cbn; exact IH].
  rewrite Bool.orb_false_r. induction o as [|x o IH]; [reflexivity|]. cbn. rewrite IH. reflexivity.
Qed.

Lemma handlers_take_effect pol es k os e k' o : stack_history user pol es k os -> typed_kevent e -> stack_step user pol k e = Ret (k', o) ->
  exists c, handlers_do user (ks_user (st_rest k)) (tellings o) = (ks_user (st_rest k'), c) /\
  match e with
  | KApi a => tellings o = [] /\ asked o = [a]
  | KRun => tellings o = [] /\ exists js, asked o = map (fun j => OnSchedule j Stop) js
  | KExpire _ _ | KFire _ _ => tellings o = [] /\ asked o = []
  | KChannel _ => asked o = c ++ (if shuts_down o && negb (shuts_down os) then map CloseSession (opened_ids os) else [])
  end.
Proof.
  intros H He Es. destruct (sessions_history _ _ _ _ _ H) as (buf & Hb & V). assert (HI := vw_inv _ _ _ _ _ _ V).
  assert (Hlog := vw_log _ _ _ _ _ _ V). assert (Hcl := clean_state _ _ _ _ _ H).
  assert (Hfin : forall z c cs, grew (st_rest k) z [] cs -> ks_user z = ks_user (st_rest k) -> finish (st_channel k) (z, c) = Ret (k', o) ->
    tellings o = [] /\ asked o = cs /\ ks_user (st_rest k') = ks_user (st_rest k)).
  { intros z c cs (l & A & B & C) U E. cbn [finish] in E. destruct (capi_calls (st_channel k) c) as [s1 o1]. inversion E; subst.
    rewrite Hlog in A. cbn in A. rewrite tellings_app, asked_app, tellings_channel, asked_channel, A. auto. }
  destruct e as [a| |j t|j t|e]; cbn [stack_step] in Es.
  - destruct (kapi_call (st_rest k) a) as [z c] eqn:E. destruct (api_grew _ _ _ _ E) as [G U].
    destruct (Hfin _ _ _ G U Es) as (F1 & F2 & F3). exists []. rewrite F1, F3. auto.
  - destruct (ks_queue (st_rest k)) as [|q0 q] eqn:Eq; [inversion Es; subst; exists []; split; [reflexivity|]; split; [reflexivity|]; exists []; reflexivity|].
    destruct (run_kclosure (with_kqueue (st_rest k) q) q0) as [z c] eqn:E. destruct (closure_grew _ _ _ _ E) as (U & js & G).
    destruct (Hfin _ _ _ G U Es) as (F1 & F2 & F3). exists []. rewrite F1, F3. split; [reflexivity|]. split; [reflexivity|]. exists js. exact F2.
  - destruct (poll_step (st_rest k) j (SExpire t)) as [z c] eqn:E. destruct (own_grew _ j (SExpire t) _ _ Logic.I E) as [G U].
    destruct (Hfin _ _ _ G U Es) as (F1 & F2 & F3). exists []. rewrite F1, F3. auto.
  - destruct (poll_step (st_rest k) j (SFire t)) as [z c] eqn:E. destruct (own_grew _ j (SFire t) _ _ Logic.I E) as [G U].
    destruct (Hfin _ _ _ G U Es) as (F1 & F2 & F3). exists []. rewrite F1, F3. auto.
  - assert (Hd : (exists a, e = CApi a) \/ (forall a, e <> CApi a)) by (destruct e; eauto; right; discriminate).
    destruct Hd as [(a & ->)|Ha]; [inversion Es; subst; exists []; auto|].
    assert (Es' : (let! (s, z, o) := client_step (on_completion user) pol (st_channel k) (st_rest k) e in
      Ret ({| st_channel := s; st_rest := with_log (close_sessions z o) [] |}, map Channel o ++ ks_log (close_sessions z o))) = Ret (k', o)).
    { destruct e; try exact Es. exfalso. exact (Ha _ eq_refl). }
    clear Es Hfin. destruct (client_step (on_completion user) pol (st_channel k) (st_rest k) e) as [[[s' z'] o1]|] eqn:E1; cbn [obind] in Es'; [|discriminate].
    inversion Es'; subst k' o. clear Es'. cbn [st_rest]. destruct (step_seen (on_completion user) pol _ _ _ _ _ _ E1 Ha) as (script & Ew & _ & _).
    destruct (view_core _ _ _ _ _ _ Hb V) as (C & S & bs & T).
    destruct (step_core (on_completion user) pol _ _ (st_rest k) e _ C S T He) as (s2 & z2 & o2 & E2 & C' & _ & _).
    assert (Eq : (s2, z2, o2) = (s', z', o1)) by congruence. inversion Eq; subst s2 z2 o2. clear Eq E2.
    assert (Hc' := step_completed (on_completion user) pol _ _ _ _ _ _ _ _ C S T He E1).
    assert (HI' : inv (inner os ++ ks_log (st_rest k)) (st_rest k) (results (of_channel os)) (calls_of (of_channel os))) by (rewrite Hlog, app_nil_r; exact HI).
    assert (Hi : forall i, In i (map fst (results o1)) -> (i < List.length (calls_of (of_channel os)))%nat /\ ~ In i (map fst (results (of_channel os)))).
    { rewrite <- completed_of_results. intros i Hi. assert (Hi' := Hi). apply Hc' in Hi'. split.
      - rewrite calls_length, (co_called _ _ C), seq_length. apply (co_below _ _ C). apply in_or_app. right. exact Hi'.
      - rewrite <- completed_of_results. intros Hin. exact (co_gone _ _ C _ Hin Hi'). }
    assert (Hn : NoDup (map fst (results o1))).
    { rewrite <- completed_of_results. assert (Hn := co_once _ _ C'). rewrite completed_app in Hn.
      clear -Hn. induction (completed_ids (of_channel os)) as [|y l IH]; [exact Hn|]. inversion Hn; subst. auto. }
    assert (Hz := walk_clean _ _ _ _ _ _ Hcl Ew).
    assert (Hw : inv (inner os ++ ks_log z') z' (results (of_channel os) ++ results o1) (calls_of (of_channel os) ++ submits (List.concat script))).
    { eapply (walk_inv user inv); [exact inv_api| | |exact inv_run|exact inv_user|exact inv_answer|exact inv_owner|exact inv_closed|exact inv_log|exact HI'|exact Hi|exact Hn|exact Ew];
        intros L0 z0 D0 cs0 j0 t0 z1 c1; [exact (inv_poll L0 z0 D0 cs0 j0 (SExpire t0) z1 c1 Logic.I)|exact (inv_poll L0 z0 D0 cs0 j0 (SFire t0) z1 c1 Logic.I)]. }
    destruct (walk_handled _ _ _ _ _ _ _ HI' Hi Hn Ew) as (l & c & (ol & A1 & A2 & A3) & Hh). rewrite Hlog in A1. cbn [app] in A1.
    destruct (close_clean _ _ o1 Hz) as (Hin & _ & _). rewrite (shuts_down_inner _ _ Hin).
    rewrite tellings_app, asked_app, tellings_channel, asked_channel. cbn [app ks_user with_log]. exists c.
    unfold close_sessions. fold (tcp_shutdown o1). destruct (tcp_shutdown o1) eqn:Et; [|rewrite A1, A2, A3; cbn [andb]; rewrite app_nil_r; auto].
    destruct (kapi_calls (with_closed z') (map CloseSession (ks_open z'))) as [z1 c1] eqn:Ec. cbn [fst].
    destruct (close_all _ _ _ _ Ec) as (_ & EL & _ & _ & _ & EU). rewrite EL, EU. cbn [ks_log ks_user with_closed andb].
    rewrite <- (map_map CloseSession Asked), A1, tellings_app, asked_app, tellings_calls, asked_calls, app_nil_r, A2, A3.
    split; [exact Hh|]. f_equal. assert (Hsd := proj1 (proj2 Hz)). assert (Hos : shuts_down os = tcp_shutdown (of_channel os)).
    { clear. induction os as [|x os IH]; [reflexivity|]. destruct x; [|exact IH..]. exact (f_equal (orb _) IH). }
    rewrite Hos. destruct (tcp_shutdown (of_channel os)) eqn:Eo; cbn [negb].
    + rewrite (op_none _ _ (i_open _ _ _ _ Hw) Hsd). reflexivity.
    + assert (Hcd : cc_shutdown (st_channel k) = false).
      { destruct (channel_history _ _ _ _ _ H) as (ces & sc & Hhh & _). apply (not_down _ _ _ _ _ _ Hhh). intros Hx.
        apply tcp_shutdown_in in Hx. congruence. }
      apply tcp_shutdown_in in Et. assert (Eone := shutdown_step _ _ _ _ _ _ _ _ E1 Hcd Et). subst o1. cbn in Ew. inversion Ew; subst z' script.
      rewrite (op_open _ _ (i_open _ _ _ _ HI) Hsd), <- (rg_open_ids _ _ _ (b_reg _ _ _ _ (i_base _ _ _ _ HI))).
      f_equal. apply flat_inner. reflexivity.
Qed.
End Calls.
