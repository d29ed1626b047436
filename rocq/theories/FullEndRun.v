(** Proofs about Full.v: from the shutdown of the channel to the end. *)
From Verif Require Import Prelude Ser4 Messages Mbap SpecPdu SpecMbap Client SpecClient ClientFacts ClientShutdown AsyncWrite ClientConn SpecConn ConnFacts
  ClientTcp SpecClientTcp TcpFacts TcpWire TcpOrder TcpShutdown SpecEnd TcpEnd.
From Verif Require Import Server Database System Listener ServerConn ServerTcp World Scheduled SessionCall Session Full.
From Verif Require Import ClientView SpecSystem SpecSession SpecWorld SpecFull SessionLift SessionFacts SessionPolls SessionInv SessionLemmas FullSim FullParts FullLemmas SpecFullEnd FullEnd.
From Coq Require Import Lia.

Section Run.
Context {W : Type}.
Context (user : users W).
Context (pol : copy_policy).
Notation scripts := (list (list scall)).
Notation fworld := (world (sessions W)).

Lemma ret_pair {A B} (a a' : A) (b b' : B) : Ret (a, b) = Ret (a', b') -> a = a' /\ b = b'.
Proof. intros E. injection E as -> ->. auto. Qed.

Lemma typed_w_t e : typed_wevent (WClient e) -> typed_tevent e.
Proof. destruct e; try exact (fun H => H). intros _. exact Logic.I. Qed.

(** What happens at the client in a step. *)
Definition at_client (w : fworld) (e : wevent) : list tevent :=
  match e with
  | WClient (TRead r x msg xs) => if can_read (wd_down w) (reads_from (tc_conn (wd_client w)) r) x then [TRead r x msg xs] else []
  | WClient e => [e]
  | _ => []
  end.

Lemma world_at_client (w : fworld) e (b : scripts) w' l : world_step calls_scripted pol (with_wd_user w b) e = Ret (w', l) ->
  tcp_run calls_scripted pol (with_tc_user (wd_client w) b) (at_client w e) = Ret (wd_client w', client_marks l).
Proof.
  assert (C : forall x, client_turn calls_scripted pol (with_wd_user w b) x = Ret (w', l) ->
            tcp_run calls_scripted pol (with_tc_user (wd_client w) b) [x] = Ret (wd_client w', client_marks l)).
  { intros x. unfold client_turn. cbn [with_wd_user wd_client tcp_run]. destruct (tcp_step _ _ _ x) as [[s k]|]; cbn [obind]; [|discriminate].
    intros E. injection E as <- <-. rewrite client_marks_client, app_nil_r. reflexivity. }
  assert (S : forall (w1 : world scripts) x, wd_client w1 = with_tc_user (wd_client w) b -> server_turn pol w1 x = Ret (w', l) ->
            tcp_run calls_scripted pol (with_tc_user (wd_client w) b) [] = Ret (wd_client w', client_marks l)).
  { intros w1 x <- E. destruct (server_turn_client _ _ _ _ _ E) as (A & _ & ->). rewrite A. reflexivity. }
  assert (N : Ret (with_wd_user w b, []) = Ret (w', l) -> tcp_run calls_scripted pol (with_tc_user (wd_client w) b) [] = Ret (wd_client w', client_marks l)).
  { intros E. injection E as <- <-. reflexivity. }
  destruct e as [e|e|g c buf|c]; cbn [world_step at_client].
  - destruct e as [a|xs|t|t xs|ok msg|g ok msg|r x msg xs|o n|o ok msg]; try apply C.
    cbn [with_wd_user wd_down wd_client with_tc_user tc_conn]. destruct (can_read _ _ _); [apply C|exact N].
  - destruct e as [| | |c r y| |]; try (apply S; reflexivity). destruct (_ || _); [apply S; reflexivity|exact N].
  - destruct (_ && _); [|exact N]. apply S. reflexivity.
  - destruct (run _ _) as [[d r]|]; cbn [obind]; [|discriminate]. intros E. injection E as <- <-. reflexivity.
Qed.

Lemma calls_at_client c : forall (w w' : world scripts) l, world_run calls_scripted pol w (calls c) = Ret (w', l) ->
  tcp_run calls_scripted pol (wd_client w) (map TApi c) = Ret (wd_client w', client_marks l).
Proof.
  induction c as [|a c IH]; intros w w' l; cbn [calls map world_run tcp_run]; [intros E; injection E as <- <-; reflexivity|].
  fold (calls c). cbn [world_step]. unfold client_turn. destruct (tcp_step _ _ _ (TApi a)) as [[s k]|]; cbn [obind]; [|discriminate].
  set (w1 := {| wd_client := s; wd_server := _; wd_links := _; wd_up := _; wd_down := _ |}).
  destruct (world_run _ _ w1 (calls c)) as [[w2 l2]|] eqn:R; cbn [obind]; [|discriminate]. intros E. injection E as <- <-.
  rewrite (IH _ _ _ R : tcp_run calls_scripted pol s (map TApi c) = _). cbn [obind]. rewrite client_marks_app, client_marks_client. reflexivity.
Qed.

Lemma full_tcp_step w e w' l : typed_user user -> typed_sessions (wd_user w) -> ks_log (wd_user w) = [] -> typed_fevent e -> full_step user pol w e = Ret (w', l) ->
  exists ces script, Forall typed_tevent ces /\ fruns [e] = truns ces /\
    forall rest, tcp_run calls_scripted pol (with_tc_user (wd_client w) (script ++ rest)) ces = Ret (with_tc_user (wd_client w') rest, client_marks (world_marks l)).
Proof.
  intros Hu T L Te E. destruct (full_step_parts user pol Hu _ _ _ _ T L Te E) as (_ & _ & (wes & sc & A1 & A2 & A3) & _).
  destruct A2 as [[-> A2]|[(e1 & -> & Na & ->)|(c & -> & Ne)]].
  - exists [], sc. split; [constructor|]. split.
    + destruct e as [| | | |e]; try reflexivity. destruct (A2 _ eq_refl) as (a & ->). reflexivity.
    + intros rest. specialize (A3 rest). cbn [world_run] in A3. apply ret_pair in A3 as [A3 <-]. cbn [tcp_run].
      change (with_tc_user (wd_client w) (sc ++ rest)) with (wd_client (with_wd_user w (sc ++ rest))). rewrite A3. reflexivity.
  - exists (at_client w e1), sc. inversion A1 as [|? ? A1' _]; subst. split; [|split].
    + destruct e1 as [e1| | |]; try constructor. apply typed_w_t in A1'. destruct e1; cbn [at_client]; try (constructor; [exact A1'|constructor]).
      destruct (can_read _ _ _); constructor; [exact A1'|constructor].
    + destruct e1 as [e1| | |]; try reflexivity. destruct e1; try reflexivity. cbn [at_client]. destruct (can_read _ _ _); reflexivity.
    + intros rest. specialize (A3 rest). cbn [world_run] in A3. destruct (world_step _ _ _ e1) as [[w1 l1]|] eqn:S; cbn [obind] in A3; [|discriminate A3].
      apply ret_pair in A3 as [A3 A4]. rewrite app_nil_r in A4. subst l1. apply world_at_client in S. rewrite S, A3. reflexivity.
  - exists (map TApi c), sc. split; [apply Forall_forall; intros y H; apply in_map_iff in H as (a & <- & _); exact Logic.I|]. split.
    + assert (K : truns (map TApi c) = 0%nat) by (clear; induction c; [reflexivity|exact IHc]). rewrite K. destruct e; try reflexivity. destruct (Ne _ eq_refl).
    + intros rest. exact (calls_at_client _ _ _ _ (A3 rest)).
Qed.

Lemma fruns_app a b : fruns (a ++ b) = (fruns a + fruns b)%nat.
Proof. unfold fruns. rewrite filter_app, app_length. reflexivity. Qed.

Lemma full_tcp es : forall w w' l, typed_user user -> typed_sessions (wd_user w) -> ks_log (wd_user w) = [] -> Forall typed_fevent es -> full_run user pol w es = Ret (w', l) ->
  exists ces script, Forall typed_tevent ces /\ fruns es = truns ces /\
    forall rest, tcp_run calls_scripted pol (with_tc_user (wd_client w) (script ++ rest)) ces = Ret (with_tc_user (wd_client w') rest, client_marks (world_marks l)).
Proof.
  induction es as [|e es IH]; intros w w' l Hu T L F; cbn [full_run].
  - intros E. injection E as <- <-. exists [], []. split; [constructor|]. split; reflexivity.
  - destruct (full_step user pol w e) as [[w1 l1]|] eqn:S1; cbn [obind]; [|discriminate].
    destruct (full_run user pol w1 es) as [[w2 l2]|] eqn:R; cbn [obind]; [|discriminate]. intros E. injection E as <- <-.
    inversion F as [|? ? Fe Fs]; subst. destruct (full_step_parts user pol Hu _ _ _ _ T L Fe S1) as (T1 & L1 & _).
    destruct (full_tcp_step _ _ _ _ Hu T L Fe S1) as (c1 & s1 & A1 & A2 & A3). destruct (IH _ _ _ Hu T1 L1 Fs R) as (c2 & s2 & B1 & B2 & B3).
    exists (c1 ++ c2), (s1 ++ s2). split; [apply Forall_app; auto|]. split.
    + change (e :: es) with ([e] ++ es). rewrite fruns_app, truns_app. lia.
    + intros rest. rewrite <- app_assoc, run_app_tcp, A3. cbn [obind]. rewrite B3. cbn [obind]. rewrite world_marks_app, client_marks_app. reflexivity.
Qed.

(** ** The sessions of a channel that was shut down *)
Definition tidy (z : sessions W) : Prop := ks_shutdown z = true -> ks_open z = [].

Definition same_flag (z z' : sessions W) : Prop := ks_shutdown z' = ks_shutdown z.
Lemma tidy_same z z' : tidy z -> same_flag z z' -> (closed z -> closed z') -> tidy z'.
Proof. intros T F C K. apply C. split; [rewrite <- F; exact K|]. apply T. rewrite <- F. exact K. Qed.

Lemma call_flag z a z' c : kapi_call z a = (z', c) -> same_flag z z'.
Proof.
  intros E. destruct a as [u t|x r t|x r t f|j a|x|]; cbn [kapi_call] in E.
  - destruct (ks_shutdown (show z _)); injection E as <- <-; reflexivity.
  - destruct (nth_error _ x); injection E as <- <-; reflexivity.
  - destruct (nth_error _ x); injection E as <- <-; [|reflexivity]. unfold post_poll. destruct (nth_error _ _); reflexivity.
  - injection E as <- <-. unfold post_poll. destruct (nth_error _ _); reflexivity.
  - destruct (nth_error _ x); injection E as <- <-; reflexivity.
  - injection E as <- <-. reflexivity.
Qed.
Lemma calls_flag l : forall z z' c, kapi_calls z l = (z', c) -> same_flag z z'.
Proof.
  induction l as [|a l IH]; intros z z' c E; cbn [kapi_calls] in E; [injection E as <- <-; reflexivity|].
  destruct (kapi_call z a) as [z1 c1] eqn:E1. destruct (kapi_calls z1 l) as [z2 c2] eqn:E2. injection E as <- <-.
  unfold same_flag. rewrite (IH _ _ _ E2). exact (call_flag _ _ _ _ E1).
Qed.
Lemma poll_flag z j e z' c : poll_step z j e = (z', c) -> same_flag z z'.
Proof.
  unfold poll_step. destruct (nth_error (ks_polls z) j) as [p|]; [|intros E; injection E as <- <-; reflexivity].
  destruct (sched_step _ _ _ _) as [[s u] o]. intros E. exact (proj1 (proj2 (poll_requests_facts _ _ _ _ _ _ E))).
Qed.
Lemma completion_flag i z x z' c : on_completion user i z x = (z', c) -> same_flag z z'.
Proof.
  unfold on_completion. intros E. destruct (nth_error (ks_owners z) i) as [[r|j n]|]; [| |injection E as <- <-; reflexivity].
  - destruct (session_result r x) as [v|]; [|injection E as <- <-; reflexivity].
    destruct (user (Once i) (ks_user z) v) as [w calls]. exact (calls_flag _ _ _ _ E).
  - destruct (nth_error (ks_polls z) j) as [p|]; [|injection E as <- <-; reflexivity]. destruct (session_result (po_request p) x) as [v|]; [|injection E as <- <-; reflexivity].
    destruct (user (Polling j n) (ks_user z) v) as [w calls]. destruct (poll_step _ j _) as [z1 c1] eqn:P. destruct (kapi_calls z1 calls) as [z2 c2] eqn:K. injection E as <- <-.
    unfold same_flag. rewrite (calls_flag _ _ _ _ K). exact (poll_flag _ _ _ _ _ P).
Qed.
Lemma closure_flag z c z' cs : run_kclosure z c = (z', cs) -> same_flag z z' /\ (closed z -> closed z').
Proof.
  intros E. destruct c as [j|x j|x]; cbn [run_kclosure] in E.
  - split; [exact (poll_flag _ _ _ _ _ E)|exact (poll_closed _ _ _ _ _ E)].
  - destruct (nth_error _ x); injection E as <- <-; split; auto; reflexivity.
  - destruct (nth_error _ x) as [s|]; [|injection E as <- <-; split; auto; reflexivity].
    destruct (kapi_calls z _) as [z1 c1] eqn:K. injection E as <- <-. split; [exact (calls_flag _ _ _ _ K)|exact (calls_closed _ _ _ _ K)].
Qed.

Lemma walk_tidy l : forall z z' sc, walk (on_completion user) z l = (z', sc) -> same_flag z z' /\ (closed z -> closed z').
Proof.
  induction l as [|[i x] l IH]; intros z z' sc; cbn [walk]; [intros E; injection E as <- <-; split; auto; reflexivity|].
  destruct (on_completion user i z x) as [z1 c1] eqn:E1. destruct (walk (on_completion user) z1 l) as [z2 c2] eqn:E2.
  intros E. injection E as <- <-. destruct (IH _ _ _ E2) as [A B]. split; [unfold same_flag; rewrite A; exact (completion_flag _ _ _ _ _ E1)|].
  intros C. apply B. exact (completion_closed _ _ _ _ _ _ E1 C).
Qed.

Lemma stack_tidy es : forall (k k' : stack W) os, stack_run user pol k es = Ret (k', os) -> tidy (st_rest k) -> tidy (st_rest k').
Proof.
  assert (F : forall s (x : sessions W * list capi) k' o, Session.finish s x = Ret (k', o) -> st_rest k' = with_log (fst x) []).
  { intros s [z c] k' o E. unfold Session.finish in E. destruct (capi_calls s c). injection E as <- _. reflexivity. }
  induction es as [|e es IH]; intros k k' os E T; cbn [stack_run] in E; [injection E as <- _; exact T|].
  destruct (stack_step user pol k e) as [[k1 o1]|] eqn:S1; cbn [obind] in E; [|discriminate].
  destruct (stack_run user pol k1 es) as [[k2 o2]|] eqn:R; cbn [obind] in E; [|discriminate]. injection E as <- _. apply (IH _ _ _ R). clear IH R.
  destruct e as [a| |j t|j t|e]; cbn [stack_step] in S1.
  - destruct (kapi_call (st_rest k) a) as [z c] eqn:K. rewrite (F _ _ _ _ S1). apply (tidy_same _ z T (call_flag _ _ _ _ K)). exact (call_closed _ _ _ _ K).
  - destruct (ks_queue (st_rest k)) as [|c q]; [injection S1 as <- _; exact T|].
    destruct (run_kclosure (with_kqueue (st_rest k) q) c) as [z cs] eqn:K. rewrite (F _ _ _ _ S1). destruct (closure_flag _ _ _ _ K) as [A B].
    exact (tidy_same (with_kqueue (st_rest k) q) z T A B).
  - destruct (poll_step (st_rest k) j _) as [z c] eqn:K. rewrite (F _ _ _ _ S1). apply (tidy_same _ z T (poll_flag _ _ _ _ _ K)). exact (poll_closed _ _ _ _ _ K).
  - destruct (poll_step (st_rest k) j _) as [z c] eqn:K. rewrite (F _ _ _ _ S1). apply (tidy_same _ z T (poll_flag _ _ _ _ _ K)). exact (poll_closed _ _ _ _ _ K).
  - assert (S2 : (forall a, e <> CApi a) -> (let! (s, z, o) := client_step (on_completion user) pol (st_channel k) (st_rest k) e in
              let z := close_sessions z o in Ret ({| st_channel := s; st_rest := with_log z [] |}, map Channel o ++ ks_log z)) = Ret (k1, o1) -> tidy (st_rest k1)).
    { intros Na. destruct (client_step _ _ _ _ e) as [[[s z] o]|] eqn:C; cbn [obind]; [|discriminate]. cbv zeta. intros E. apply ret_pair in E as [<- _]. cbn [st_rest].
      destruct (step_seen (on_completion user) pol _ _ _ _ _ _ C Na) as (sc & Ew & _). destruct (walk_tidy _ _ _ _ Ew) as [A B].
      pose proof (tidy_same _ z T A B) as Tz. unfold close_sessions. destruct (existsb _ o); [|exact Tz].
      destruct (kapi_calls (with_closed z) (map CloseSession (ks_open z))) as [z1 c1] eqn:K. cbn [fst].
      assert (X : closed z1) by (apply (calls_closed _ _ _ _ K); split; reflexivity). intros _. apply X. }
    destruct e; [injection S1 as <- _; exact T|..]; apply S2; try exact S1; discriminate.
Qed.

Lemma down_closed units d w0 es w l : full_history user pol units d w0 es w l -> cc_shutdown (tc_channel (wd_client w)) = true -> closed (wd_user w).
Proof.
  intros H D. destruct (full_sessions user pol _ _ _ _ _ _ H) as (kes & K & _).
  assert (S : ks_shutdown (wd_user w) = true).
  { destruct (sessions_history _ _ _ _ _ K) as (buf & Hb & V). change (wd_user w) with (st_rest (stack_of w)). rewrite (vw_down _ _ _ _ _ _ V).
    apply tcp_shutdown_in. destruct (channel_history _ _ _ _ _ K) as (ces & sc & Hh & _). exact (proj1 (history_shutdown _ _ _ _ _ _ Hh) D). }
  split; [exact S|]. destruct K as (buf & u & _ & _ & R). refine (stack_tidy _ _ _ _ R _ S). intros K. discriminate K.
Qed.

(** ** The calls of [shutdown] *)
Definition asked (z : sessions W) : Prop := In (Asked CloseChannel) (ks_log z).

Lemma poll_requests_log j p o : forall z z' c, poll_requests z j p o = (z', c) -> asked z' -> asked z.
Proof.
  induction o as [|x o IH]; intros z z' c E K; cbn [poll_requests] in E; [injection E as <- <-; exact K|].
  destruct x; try exact (IH _ _ _ E K). destruct (poll_requests _ j p o) as [z1 c1] eqn:R. injection E as <- <-.
  apply (IH _ _ _ R) in K. apply in_app_or in K as [K|[K|[]]]; [exact K|discriminate K].
Qed.

Lemma poll_asked z j e z' c : poll_step z j e = (z', c) -> asked z' -> asked z.
Proof.
  unfold poll_step. destruct (nth_error (ks_polls z) j) as [p|]; [|intros E; injection E as <- <-; auto].
  destruct (sched_step _ _ _ _) as [[s u] o]. intros E K. apply (poll_requests_log _ _ _ _ _ _ E) in K. apply in_app_or in K as [K|K]; [exact K|].
  apply in_map_iff in K as (y & K & _). discriminate K.
Qed.

Lemma call_asked z a z' c : kapi_call z a = (z', c) -> asked z' -> asked z \/ In Client.Shutdown c.
Proof.
  assert (P : forall (z : sessions W) j a, ks_log (post_poll z j a) = ks_log z) by (intros y j x; unfold post_poll; destruct (nth_error _ _); reflexivity).
  intros E K. destruct a as [u t|x r t|x r t f|j a|x|]; cbn [kapi_call] in E.
  - destruct (ks_shutdown (show z _)); injection E as <- <-; left; unfold asked in *; cbn in K; rewrite <- ?app_assoc in K; apply in_app_or in K as [K|K]; try exact K;
      cbn in K; repeat destruct K as [K|K]; try discriminate K; contradiction.
  - destruct (nth_error _ x); injection E as <- <-; left; unfold asked in *; cbn in K; rewrite <- ?app_assoc in K; apply in_app_or in K as [K|K]; try exact K;
      cbn in K; repeat destruct K as [K|K]; try discriminate K; contradiction.
  - destruct (nth_error _ x); injection E as <- <-; left; unfold asked in *; cbn [kpost with_kqueue ks_log] in K; rewrite ?P in K; cbn in K; rewrite <- ?app_assoc in K;
      apply in_app_or in K as [K|K]; try exact K; cbn in K; repeat destruct K as [K|K]; try discriminate K; contradiction.
  - injection E as <- <-. left. unfold asked in *. rewrite P in K. cbn in K. apply in_app_or in K as [K|K]; [exact K|]. destruct K as [K|[]]. discriminate K.
  - destruct (nth_error _ x); injection E as <- <-; left; unfold asked in *; cbn in K; apply in_app_or in K as [K|[K|[]]]; try exact K; discriminate K.
  - injection E as <- <-. right. left. reflexivity.
Qed.

Lemma calls_asked l : forall z z' c, kapi_calls z l = (z', c) -> asked z' -> asked z \/ In Client.Shutdown c.
Proof.
  induction l as [|a l IH]; intros z z' c E K; cbn [kapi_calls] in E; [injection E as <- <-; auto|].
  destruct (kapi_call z a) as [z1 c1] eqn:E1. destruct (kapi_calls z1 l) as [z2 c2] eqn:E2. injection E as <- <-.
  destruct (IH _ _ _ E2 K) as [K1|K1]; [|right; apply in_or_app; auto]. destruct (call_asked _ _ _ _ E1 K1); [auto|right; apply in_or_app; auto].
Qed.

Lemma completion_asked i z x z' c : on_completion user i z x = (z', c) -> asked z' -> asked z \/ In Client.Shutdown c.
Proof.
  unfold on_completion. intros E K. destruct (nth_error (ks_owners z) i) as [[r|j n]|]; [| |injection E as <- <-; auto].
  - destruct (session_result r x) as [v|]; [|injection E as <- <-; auto].
    destruct (user (Once i) (ks_user z) v) as [w calls]. destruct (calls_asked _ _ _ _ E K) as [X|X]; [|auto]. left. apply in_app_or in X as [X|[X|[]]]; [exact X|discriminate X].
  - destruct (nth_error (ks_polls z) j) as [p|]; [|injection E as <- <-; auto]. destruct (session_result (po_request p) x) as [v|]; [|injection E as <- <-; auto].
    destruct (user (Polling j n) (ks_user z) v) as [w calls]. destruct (poll_step _ j _) as [z1 c1] eqn:P. destruct (kapi_calls z1 calls) as [z2 c2] eqn:C. injection E as <- <-.
    destruct (calls_asked _ _ _ _ C K) as [X|X]; [|right; apply in_or_app; auto]. left. exact (poll_asked _ _ _ _ _ P X).
Qed.

Lemma closure_asked z q z' c : run_kclosure z q = (z', c) -> asked z' -> asked z \/ In Client.Shutdown c.
Proof.
  intros E K. destruct q as [j|x j|x]; cbn [run_kclosure] in E.
  - left. exact (poll_asked _ _ _ _ _ E K).
  - destruct (nth_error _ x); injection E as <- <-; auto.
  - destruct (nth_error _ x) as [s|]; [|injection E as <- <-; auto]. destruct (kapi_calls z _) as [z1 c1] eqn:C. injection E as <- <-. exact (calls_asked _ _ _ _ C K).
Qed.

(** A call of [shutdown] posts a closure. *)
Definition posts (s : client) (z : sessions W) (s' : client) (z' : sessions W) : Prop :=
  (exists q, cc_queue s' = cc_queue s ++ q) /\ (asked z' -> asked z \/ In DoShutdown (cc_queue s')).

Lemma posts_none s z s' : cc_queue s' = cc_queue s -> posts s z s' z.
Proof. intros E. split; [exists []; rewrite app_nil_r; exact E|auto]. Qed.
Lemma posts_trans s z s1 z1 s2 z2 : posts s z s1 z1 -> posts s1 z1 s2 z2 -> posts s z s2 z2.
Proof.
  intros [(q1 & Q1) A1] [(q2 & Q2) A2]. split; [exists (q1 ++ q2); rewrite Q2, Q1, app_assoc; reflexivity|].
  intros K. destruct (A2 K) as [X|X]; [|auto]. destruct (A1 X) as [Y|Y]; [auto|]. right. rewrite Q2. apply in_or_app. auto.
Qed.
Lemma posts_then s z s1 z1 s2 : posts s z s1 z1 -> cc_queue s2 = cc_queue s1 -> posts s z s2 z1.
Proof. intros P E. eapply posts_trans; [exact P|apply posts_none; exact E]. Qed.

Lemma shutdown_in_calls c : forall s s' o, capi_calls s c = (s', o) -> In Client.Shutdown c -> In DoShutdown (cc_queue s').
Proof.
  induction c as [|a c IH]; intros s s' o E I; [destruct I|]. cbn [capi_calls] in E.
  destruct (capi_call s a) as [s1 o1] eqn:E1. destruct (capi_calls s1 c) as [s2 o2] eqn:E2. injection E as <- <-. destruct I as [->|I]; [|eapply IH; eauto].
  cbn [capi_call] in E1. injection E1 as <- _. destruct (calls_grow _ _ _ _ E2) as (q & ->). cbn. apply in_or_app. left. apply in_or_app. right. left. reflexivity.
Qed.

Lemma handler_posts s z i x s' z' o : call_handler (on_completion user) s z i x = (s', z', o) -> posts s z s' z'.
Proof.
  unfold call_handler. destruct (on_completion user i z x) as [z1 c] eqn:E. destruct (capi_calls s c) as [s1 o1] eqn:C. intros K. injection K as <- <- _.
  split; [exact (calls_grow _ _ _ _ C)|]. intros K. destruct (completion_asked _ _ _ _ _ E K); [auto|]. right. exact (shutdown_in_calls _ _ _ _ C H).
Qed.

Lemma check_queue s : cc_queue (fst (check_pending_requests s)) = cc_queue s.
Proof. unfold check_pending_requests. destruct (cc_shutdown s); [reflexivity|]. destruct (cc_current s); [reflexivity|]. destruct (cc_pending s); reflexivity. Qed.
Lemma cancel_queue s : cc_queue (fst (cancel_current_request s)) = cc_queue s.
Proof. unfold cancel_current_request. destruct (cc_current s); [|reflexivity]. rewrite check_queue. reflexivity. Qed.

Lemma fail_posts msg l : forall s z s' z' o, fail_all (on_completion user) s z l msg = (s', z', o) -> posts s z s' z'.
Proof.
  induction l as [|p l IH]; intros s z s' z' o; cbn [fail_all]; [intros E; injection E as <- <- _; apply posts_none; reflexivity|].
  destruct (call_handler _ _ _ _ _) as [[s1 z1] o1] eqn:E1. destruct (fail_all _ s1 z1 l msg) as [[s2 z2] o2] eqn:E2. intros E. injection E as <- <- _.
  eapply posts_trans; [exact (handler_posts _ _ _ _ _ _ _ E1)|exact (IH _ _ _ _ _ E2)].
Qed.

Lemma response_posts s z m s' z' o : on_response (on_completion user) s z m = (s', z', o) -> posts s z s' z'.
Proof.
  unfold on_response. destruct (cc_shutdown s); [intros E; injection E as <- <- _; apply posts_none; reflexivity|].
  destruct (cc_current s) as [p|]; [|intros E; injection E as <- <- _; apply posts_none; reflexivity].
  destruct (_ && _); [|intros E; injection E as <- <- _; apply posts_none; reflexivity].
  destruct (call_handler _ _ _ _ _) as [[s1 z1] o1] eqn:E1. destruct (check_pending_requests _) as [s2 o2] eqn:E2. intros E. injection E as <- <- _.
  pose proof (check_queue (with_current s1 None)) as Q. rewrite E2 in Q. eapply posts_then; [|exact Q].
  eapply posts_trans; [|exact (handler_posts _ _ _ _ _ _ _ E1)]. apply posts_none. unfold cancel_timer. destruct (cc_timer s); reflexivity.
Qed.

Lemma responses_posts ms : forall s z s' z' o, on_responses (on_completion user) s z ms = (s', z', o) -> posts s z s' z'.
Proof.
  induction ms as [|m ms IH]; intros s z s' z' o; cbn [on_responses]; [intros E; injection E as <- <- _; apply posts_none; reflexivity|].
  destruct (on_response _ _ _ m) as [[s1 z1] o1] eqn:E1. destruct (on_responses _ s1 z1 ms) as [[s2 z2] o2] eqn:E2. intros E. injection E as <- <- _.
  eapply posts_trans; [exact (response_posts _ _ _ _ _ _ E1)|exact (IH _ _ _ _ _ E2)].
Qed.

Lemma error_posts s z msg s' z' o : Client.on_error (on_completion user) s z msg = (s', z', o) -> posts s z s' z'.
Proof.
  unfold Client.on_error, cancel_all_pending_requests. destruct (cc_shutdown s); [intros E; injection E as <- <- _; apply posts_none; reflexivity|].
  destruct (fail_all _ _ _ _ _) as [[s1 z1] o1] eqn:E1. apply fail_posts in E1. cbn [cc_current with_pending].
  assert (P1 : posts s z (with_pending s1 []) z1) by (eapply posts_then; [eapply posts_trans; [apply posts_none; reflexivity|exact E1]|reflexivity]).
  destruct (cc_current s1) as [p|]; [|intros E; injection E as <- <- _; exact P1].
  destruct (call_handler _ _ _ _ _) as [[s2 z2] o2] eqn:E2. destruct (cancel_current_request s2) as [s3 o3] eqn:E3. intros E. injection E as <- <- _.
  pose proof (cancel_queue s2) as Q. rewrite E3 in Q. eapply posts_then; [|exact Q]. eapply posts_trans; [exact P1|exact (handler_posts _ _ _ _ _ _ _ E2)].
Qed.

Lemma timeout_posts s z s' z' o : on_timeout (on_completion user) s z = (s', z', o) -> posts s z s' z'.
Proof.
  unfold on_timeout. destruct (cc_shutdown s); [intros E; injection E as <- <- _; apply posts_none; reflexivity|].
  destruct (cc_current s) as [p|]; [|intros E; injection E as <- <- _; apply posts_none; reflexivity].
  destruct (call_handler _ _ _ _ _) as [[s2 z2] o2] eqn:E2. destruct (cancel_current_request s2) as [s3 o3] eqn:E3. intros E. injection E as <- <- _.
  pose proof (cancel_queue s2) as Q. rewrite E3 in Q. eapply posts_then; [|exact Q]. exact (handler_posts _ _ _ _ _ _ _ E2).
Qed.

Definition going_down (s : client) : Prop := In DoShutdown (cc_queue s) \/ cc_shutdown s = true.

Lemma posts_going s z s' z' : posts s z s' z' -> cc_shutdown s' = cc_shutdown s -> (going_down s -> going_down s') /\ (asked z' -> asked z \/ going_down s').
Proof.
  intros [(q & Q) A] D. split; [|intros K; destruct (A K); [auto|right; left; assumption]].
  intros [K|K]; [left; rewrite Q; apply in_or_app; auto|right; rewrite D; exact K].
Qed.

Lemma step_going s z e s' z' o : (forall a, e <> CApi a) -> client_step (on_completion user) pol s z e = Ret (s', z', o) ->
  (going_down s -> going_down s') /\ (asked z' -> asked z \/ going_down s').
Proof.
  intros Na E. assert (P : (cc_shutdown s' = true -> cc_shutdown s = true \/ In TcpShutdown o) /\ (cc_shutdown s = true -> cc_shutdown s' = true)).
  { destruct (ClientShutdown.run_shutdown (on_completion user) pol [e] s z s' z' o) as [A B].
    - cbn [client_run]. rewrite E. cbn [obind]. rewrite app_nil_r. reflexivity.
    - split; [exact A|auto]. }
  assert (G : posts s z s' z' -> (going_down s -> going_down s') /\ (asked z' -> asked z \/ going_down s')).
  { intros [(q & Q) A]. split; [|intros K; destruct (A K); [auto|right; left; assumption]].
    intros [K|K]; [left; rewrite Q; apply in_or_app; auto|right; apply P; exact K]. }
  destruct e as [a| |d|msg|t|t]; cbn [client_step] in E; [destruct (Na a eq_refl)|..].
  - destruct (cc_queue s) as [|t q] eqn:Q; [injection E as <- <- _; auto|].
    assert (G2 : forall q', In DoShutdown (t :: q) -> t <> DoShutdown -> In DoShutdown (q ++ q')) by (intros q' [K|K] N; [congruence|apply in_or_app; auto]).
    destruct t as [i k|i|]; cbn [run_ctask] in E.
    + cbn [with_queue cc_shutdown] in E. destruct (cc_shutdown s) eqn:D.
      * injection E as <- <- _. split; [|auto]. intros _. right. exact D.
      * destruct (check_pending_requests _) as [s1 o1] eqn:E1 in E. injection E as <- <- _. split; [|auto]. intros [K|K]; [|congruence]. left.
        match type of E1 with check_pending_requests ?x = _ => pose proof (check_queue x) as Y end. rewrite E1 in Y. cbn in Y. rewrite Y. rewrite Q in K. destruct K as [K|K]; [discriminate K|exact K].
    + assert (E' : call_handler (on_completion user) (with_queue s q (cc_calls s)) z i (Error EMalformedRequest) = (s', z', o)) by congruence.
      destruct (handler_posts _ _ _ _ _ _ _ E') as [(q' & Q') A]. cbn in Q'. split; [|intros K; destruct (A K); [auto|right; left; assumption]].
      intros [K|K]; [|right; apply P; exact K]. left. rewrite Q'. apply G2; [rewrite Q in K; exact K|discriminate].
    + injection E as <- <- _. split; [|auto]. intros _. right. reflexivity.
  - unfold on_receive in E. destruct (cc_shutdown s) eqn:D; [injection E as <- <- _; auto|].
    destruct (mbap_parse _ _ _) as [[p ms]|]; cbn [obind] in E; [|discriminate E].
    assert (E' : on_responses (on_completion user) (with_parser s p) z ms = (s', z', o)) by congruence.
    apply G. eapply posts_trans; [apply (posts_none s z (with_parser s p)); reflexivity|exact (responses_posts _ _ _ _ _ _ E')].
  - assert (E' : Client.on_error (on_completion user) s z msg = (s', z', o)) by congruence. apply G. exact (error_posts _ _ _ _ _ _ E').
  - destruct (existsb _ _); injection E as <- <- _; apply G; apply posts_none; reflexivity.
  - destruct (existsb _ _); [|injection E as <- <- _; auto]. match type of E with Ret ?x = _ => assert (E' : x = (s', z', o)) by congruence end.
    apply G. eapply posts_trans; [|exact (timeout_posts _ _ _ _ _ E')]. apply posts_none. reflexivity.
Qed.

Lemma finish_going s (x : sessions W * list capi) k o : Session.finish s x = Ret (k, o) ->
  (going_down s -> going_down (st_channel k)) /\ (In Client.Shutdown (snd x) -> going_down (st_channel k)) /\ (In (Asked CloseChannel) o -> asked (fst x)).
Proof.
  destruct x as [z c]. unfold Session.finish. destruct (capi_calls s c) as [s1 o1] eqn:C. intros E. injection E as <- <-. cbn [st_channel fst snd].
  destruct (calls_grow _ _ _ _ C) as (q & Q).
  assert (D : cc_shutdown s1 = cc_shutdown s) by (destruct (capi_calls_spec s c) as (q' & o' & n & C' & _); rewrite C' in C; injection C as <- _; reflexivity).
  split; [|split].
  - intros [K|K]; [left; rewrite Q; apply in_or_app; auto|right; rewrite D; exact K].
  - intros K. left. exact (shutdown_in_calls _ _ _ _ C K).
  - intros K. apply in_app_or in K as [K|K]; [|exact K]. apply in_map_iff in K as (y & K & _). discriminate K.
Qed.

Lemma stack_going es : forall (k k' : stack W) os, stack_run user pol k es = Ret (k', os) -> ks_log (st_rest k) = [] ->
  (going_down (st_channel k) -> going_down (st_channel k')) /\ (In (Asked CloseChannel) os -> going_down (st_channel k')).
Proof.
  induction es as [|e es IH]; intros k k' os E L; cbn [stack_run] in E; [injection E as <- <-; split; [auto|intros []]|].
  destruct (stack_step user pol k e) as [[k1 o1]|] eqn:S1; cbn [obind] in E; [|discriminate].
  destruct (stack_run user pol k1 es) as [[k2 o2]|] eqn:R; cbn [obind] in E; [|discriminate]. injection E as <- <-.
  assert (N : ~ asked (st_rest k)) by (unfold asked; rewrite L; intros []).
  enough (X : ks_log (st_rest k1) = [] /\ (going_down (st_channel k) -> going_down (st_channel k1)) /\ (In (Asked CloseChannel) o1 -> going_down (st_channel k1))).
  { destruct X as (X1 & X2 & X3). destruct (IH _ _ _ R X1) as [Y1 Y2]. split; [auto|]. intros K. apply in_app_or in K as [K|K]; auto. }
  assert (F : forall x, Session.finish (st_channel k) x = Ret (k1, o1) -> (asked (fst x) -> asked (st_rest k) \/ In Client.Shutdown (snd x)) ->
            ks_log (st_rest k1) = [] /\ (going_down (st_channel k) -> going_down (st_channel k1)) /\ (In (Asked CloseChannel) o1 -> going_down (st_channel k1))).
  { intros x E A. destruct (finish_going _ _ _ _ E) as (B1 & B2 & B3). split; [|split; [exact B1|]].
    - destruct x as [z c]. unfold Session.finish in E. destruct (capi_calls _ c). injection E as <- _. reflexivity.
    - intros K. destruct (A (B3 K)) as [X|X]; [contradiction|]. exact (B2 X). }
  clear IH R. destruct e as [a| |j t|j t|e]; cbn [stack_step] in S1.
  - destruct (kapi_call (st_rest k) a) as [z c] eqn:K. apply (F _ S1). exact (call_asked _ _ _ _ K).
  - destruct (ks_queue (st_rest k)) as [|c q]; [injection S1 as <- <-; split; [exact L|split; [auto|intros []]]|].
    destruct (run_kclosure (with_kqueue (st_rest k) q) c) as [z cs] eqn:K. apply (F _ S1). exact (closure_asked _ _ _ _ K).
  - destruct (poll_step (st_rest k) j _) as [z c] eqn:K. apply (F _ S1). intros A. left. exact (poll_asked _ _ _ _ _ K A).
  - destruct (poll_step (st_rest k) j _) as [z c] eqn:K. apply (F _ S1). intros A. left. exact (poll_asked _ _ _ _ _ K A).
  - assert (S2 : (forall a, e <> CApi a) -> (let! (s, z, o) := client_step (on_completion user) pol (st_channel k) (st_rest k) e in
              let z := close_sessions z o in Ret ({| st_channel := s; st_rest := with_log z [] |}, map Channel o ++ ks_log z)) = Ret (k1, o1) ->
              ks_log (st_rest k1) = [] /\ (going_down (st_channel k) -> going_down (st_channel k1)) /\ (In (Asked CloseChannel) o1 -> going_down (st_channel k1))).
    { intros Na. destruct (client_step _ _ _ _ e) as [[[s z] o]|] eqn:C; cbn [obind]; [|discriminate]. cbv zeta. intros E. apply ret_pair in E as [<- <-]. cbn [st_rest st_channel].
      destruct (step_going _ _ _ _ _ _ Na C) as [A B]. split; [reflexivity|]. split; [exact A|]. intros K. apply in_app_or in K as [K|K].
      { apply in_map_iff in K as (y & K & _). discriminate K. }
      destruct B as [B|B]; [|contradiction|exact B]. unfold close_sessions in K. destruct (existsb _ o); [|exact K].
      destruct (kapi_calls (with_closed z) (map CloseSession (ks_open z))) as [z1 c1] eqn:X. cbn [fst] in K.
      assert (Y : forall l z z' c, kapi_calls (W := W) z (map CloseSession l) = (z', c) -> asked z' -> asked z).
      { clear. induction l as [|x l IH]; intros z z' c E K; cbn [map kapi_calls] in E; [injection E as <- <-; exact K|].
        destruct (kapi_call z (CloseSession x)) as [z1 c1] eqn:E1. destruct (kapi_calls z1 _) as [z2 c2] eqn:E2. injection E as <- <-. apply (IH _ _ _ E2) in K.
        cbn [kapi_call] in E1. destruct (nth_error _ x); injection E1 as <- <-; apply in_app_or in K as [K|[K|[]]]; try exact K; discriminate K. }
      exact (Y _ _ _ _ X K). }
    destruct e; [injection S1 as <- <-; split; [exact L|split; [auto|intros []]]|..]; apply S2; try exact S1; discriminate.
Qed.

Lemma full_going units d w0 es w l : full_history user pol units d w0 es w l -> In (FK (Asked CloseChannel)) l -> going_down (tc_channel (wd_client w)).
Proof.
  intros H K. destruct (full_sessions user pol _ _ _ _ _ _ H) as (kes & (buf & u & _ & _ & R) & _).
  apply (stack_going _ _ _ _ R eq_refl). apply in_sessions; [discriminate|exact K].
Qed.

(** ** To the end *)
Lemma full_extends units d w0 es w l es' w' l' : full_history user pol units d w0 es w l -> Forall typed_fevent es' -> full_run user pol w es' = Ret (w', l') ->
  full_history user pol units d w0 (es ++ es') w' (l ++ l').
Proof.
  intros (A & B & C & D & E) F R. split; [exact A|]. split; [exact B|]. split; [apply Forall_app; auto|]. split; [exact D|].
  revert E. clear - R. revert w0 l. induction es as [|e es IH]; intros w0 l; cbn [full_run app].
  - intros E. injection E as -> <-. exact R.
  - destruct (full_step user pol w0 e) as [[w1 l1]|]; cbn [obind]; [|discriminate].
    destruct (full_run user pol w1 es) as [[w2 l2]|] eqn:R1; cbn [obind]; [|discriminate]. intros E. apply ret_pair in E as [-> <-].
    rewrite (IH _ _ R1). cbn [obind]. rewrite app_assoc. reflexivity.
Qed.

(** A history and what follows, at the client. *)
Lemma client_goes units d w0 es w l es' w' l' : full_history user pol units d w0 es w l -> Forall typed_fevent es' -> full_run user pol w es' = Ret (w', l') ->
  exists ces (b : scripts) ces' (b' : scripts), tcp_history calls_scripted pol ces (with_tc_user (wd_client w) b) (client_marks (world_marks l)) /\ Forall typed_tevent ces' /\
    tcp_run calls_scripted pol (with_tc_user (wd_client w) b) ces' = Ret (with_tc_user (wd_client w') b', client_marks (world_marks l')) /\ truns ces' = fruns es'.
Proof.
  intros H F R. assert (H0 := H). destruct H as ((max & buf & u & Hb & ->) & Hd & T & Hu & E). destruct (init_good units max d buf u) as (A & B & _).
  destruct (full_run_parts user pol Hu es _ _ _ A B T E) as (A1 & B1 & _).
  destruct (full_tcp es _ _ _ Hu A B T E) as (ces & sc & X1 & X2 & X3). destruct (full_tcp es' _ _ _ Hu A1 B1 F R) as (ces' & sc' & Y1 & Y2 & Y3).
  exists ces, (sc' ++ []), ces', []. split; [exists buf, (sc ++ sc' ++ []); split; [exact Hb|]; split; [exact X1|exact (X3 _)]|].
  split; [exact Y1|]. split; [exact (Y3 [])|auto].
Qed.

Lemma full_channel_down units d w0 es w l es' w' l' : full_history user pol units d w0 es w l -> In (FK (Asked CloseChannel)) l -> Forall typed_fevent es' ->
  full_run user pol w es' = Ret (w', l') -> (List.length (tc_order (wd_client w)) <= fruns es')%nat -> cc_shutdown (tc_channel (wd_client w')) = true.
Proof.
  intros H I F R L. destruct (client_goes _ _ _ _ _ _ _ _ _ H F R) as (ces & b & ces' & b' & A1 & A2 & A3 & A4).
  exact (shutdown_posted _ _ _ (with_tc_user (wd_client w) b) _ _ _ _ A1 (full_going _ _ _ _ _ _ H I) A2 A3 ltac:(rewrite A4; exact L)).
Qed.

Lemma full_conn_down units d w0 es w l es' w' l' : full_history user pol units d w0 es w l -> cc_shutdown (tc_channel (wd_client w)) = true -> Forall typed_fevent es' ->
  full_run user pol w es' = Ret (w', l') -> (List.length (tc_order (wd_client w)) <= fruns es')%nat ->
  cc_shutdown (tc_channel (wd_client w')) = true /\ dead (tc_conn (wd_client w')).
Proof.
  intros H D F R L. destruct (client_goes _ _ _ _ _ _ _ _ _ H F R) as (ces & b & ces' & b' & A1 & A2 & A3 & A4). split.
  - exact (down_stays _ _ (with_tc_user (wd_client w) b) _ _ _ D A3).
  - exact (connection_goes_down _ _ _ (with_tc_user (wd_client w) b) _ _ _ _ A1 D A2 A3 ltac:(rewrite A4; exact L)).
Qed.

Lemma full_over units d w0 es w l : full_history user pol units d w0 es w l -> cc_shutdown (tc_channel (wd_client w)) = true -> dead (tc_conn (wd_client w)) -> over (wd_client w).
Proof.
  intros H D1 D2. constructor; [exact D1|exact D2| |exact (down_closed _ _ _ _ _ _ H D1)].
  destruct (client_goes _ _ _ _ _ _ [] w [] H ltac:(constructor) eq_refl) as (ces & b & _ & _ & A1 & _). exact (history_ordered _ _ _ _ _ A1).
Qed.

Theorem sessions_end : forall units d w0 es w l es1 w1 l1 es2 w2 l2, full_history user pol units d w0 es w l -> In (FK (Asked CloseChannel)) l ->
  Forall typed_fevent (es1 ++ es2) ->
  full_run user pol w es1 = Ret (w1, l1) -> (List.length (tc_order (wd_client w)) <= fruns es1)%nat ->
  full_run user pol w1 es2 = Ret (w2, l2) -> (List.length (tc_order (wd_client w1)) <= fruns es2)%nat ->
  comes_to_end user pol (wd_client w2).
Proof.
  intros units d w0 es w l es1 w1 l1 es2 w2 l2 H I F R1 L1 R2 L2. apply Forall_app in F as [F1 F2].
  pose proof (full_channel_down _ _ _ _ _ _ _ _ _ H I F1 R1 L1) as D1. pose proof (full_extends _ _ _ _ _ _ _ _ _ H F1 R1) as H1.
  destruct (full_conn_down _ _ _ _ _ _ _ _ _ H1 D1 F2 R2 L2) as [D2 D3]. pose proof (full_extends _ _ _ _ _ _ _ _ _ H1 F2 R2) as H2.
  apply over_ends. exact (full_over _ _ _ _ _ _ H2 D2 D3).
Qed.

(** ** In the long run *)
Lemma forever_runs ws es : goes_on_forever user pol ws es -> forall n a, exists l, full_run user pol (ws a) (map es (seq a n)) = Ret (ws (a + n)%nat, l).
Proof.
  intros F. induction n as [|n IH]; intros a; cbn [seq map full_run]; [rewrite Nat.add_0_r; eauto|].
  destruct (F a) as (_ & _ & l & St). rewrite St. cbn [obind]. destruct (IH (S a)) as (l' & R). rewrite R. cbn [obind].
  replace (a + S n)%nat with (S a + n)%nat by lia. eauto.
Qed.

Lemma forever_types ws es : goes_on_forever user pol ws es -> forall l, Forall typed_fevent (map es l).
Proof. intros F l. apply Forall_forall. intros x H. apply in_map_iff in H as (n & <- & _). apply F. Qed.

(** Closures are executed often enough, or none is left. *)
Lemma served (ws : nat -> fworld) es : closures_served ws es -> forall k a, exists n, tc_order (wd_client (ws (a + n)%nat)) = [] \/ (k <= fruns (map es (seq a n)))%nat.
Proof.
  intros C. induction k as [|k IH]; intros a; [exists 0%nat; right; lia|]. destruct (IH a) as (n & [K|K]); [exists n; auto|].
  destruct (tc_order (wd_client (ws (a + n)%nat))) as [|t q] eqn:E; [exists n; auto|]. destruct (C (a + n)%nat) as (m & xs & L & Em); [rewrite E; discriminate|].
  exists (n + (m - (a + n) + 1))%nat. right. rewrite seq_app, map_app, fruns_app. rewrite seq_app, map_app, fruns_app. cbn [seq map].
  replace (a + n + (m - (a + n)))%nat with m by lia. rewrite Em. unfold fruns at 3. cbn [filter List.length]. lia.
Qed.

Lemma elsewhere_same (w : fworld) e w' l : ks_log (wd_user w) = [] -> elsewhere e -> full_step user pol w e = Ret (w', l) -> wd_client w' = wd_client w.
Proof.
  intros L He. destruct e as [| | | |[e|e|g c buf|c]]; try contradiction; cbn [full_step];
    (destruct (world_step _ _ _ _) as [[w1 l1]|] eqn:E; cbn [obind]; [|discriminate]); cbv zeta; intros K; apply ret_pair in K as [<- _]; cbn [world_step] in E;
    assert (X : wd_client w1 = wd_client w /\ channel_shows l1 = []).
  - destruct e as [| | |c r y| |]; try (destruct (server_turn_client _ _ _ _ _ E) as (A & B & _); auto; fail).
    destruct (_ || _); [destruct (server_turn_client _ _ _ _ _ E) as (A & B & _); auto|apply ret_pair in E as [<- <-]; auto].
  - destruct X as [X1 X2]. rewrite X2. unfold close_sessions, wd_user in *. cbn [existsb with_wd_user wd_client]. rewrite X1, (with_log_same _ L). destruct (wd_client w); reflexivity.
  - destruct (_ && _); [|apply ret_pair in E as [<- <-]; auto]. destruct (server_turn_client _ _ _ _ _ E) as (A & B & _). auto.
  - destruct X as [X1 X2]. rewrite X2. unfold close_sessions, wd_user in *. cbn [existsb with_wd_user wd_client]. rewrite X1, (with_log_same _ L). destruct (wd_client w); reflexivity.
  - destruct (run _ _) as [[d r]|]; cbn [obind] in E; [|discriminate]. apply ret_pair in E as [<- <-]. auto.
  - destruct X as [X1 X2]. rewrite X2. unfold close_sessions, wd_user in *. cbn [existsb with_wd_user wd_client]. rewrite X1, (with_log_same _ L). destruct (wd_client w); reflexivity.
Qed.

Lemma ends_finitely : forall s, comes_to_end user pol s -> forall ws es n, wd_client (ws n) = s -> (forall m, ks_log (wd_user (ws m)) = []) -> goes_on_forever user pol ws es ->
  (forall n, exists m, (n <= m)%nat /\ client_enabled (ws m) (es m)) -> False.
Proof.
  fix IH 2. intros s [A _] ws es n E L F I. destruct (I n) as (m & Lm & _). remember (m - n)%nat as k eqn:Ek.
  assert (X : forall k n, wd_client (ws n) = s -> client_enabled (ws (n + k)%nat) (es (n + k)%nat) -> False).
  { clear n E m Lm k Ek. induction k as [|k IHk]; intros n E He.
    - rewrite Nat.add_0_r in He. destruct (F n) as (T & _ & l & S). destruct (A _ _ E T He) as (w' & l' & S' & C). rewrite S in S'. apply ret_pair in S' as [S' _].
      eapply (IH _ C ws es (Datatypes.S n)); [rewrite S'; reflexivity|exact L|exact F|exact I].
    - destruct (F n) as (T & [He'|He'] & l & S).
      + destruct (A _ _ E T He') as (w' & l' & S' & C). rewrite S in S'. apply ret_pair in S' as [S' _].
        eapply (IH _ C ws es (Datatypes.S n)); [rewrite S'; reflexivity|exact L|exact F|exact I].
      + apply (IHk (Datatypes.S n)); [rewrite (elsewhere_same _ _ _ _ (L n) He' S); exact E|]. replace (Datatypes.S n + k)%nat with (n + Datatypes.S k)%nat by lia. exact He. }
  destruct (I n) as (m' & Lm' & He). apply (X (m' - n)%nat n E). replace (n + (m' - n))%nat with m' by lia. exact He.
Qed.

Theorem sessions_end_fairly : forall units d w0 es0 l ws es, full_history user pol units d w0 es0 (ws 0%nat) l -> In (FK (Asked CloseChannel)) l ->
  goes_on_forever user pol ws es -> closures_served ws es -> ~ (forall n, exists m, (n <= m)%nat /\ client_enabled (ws m) (es m)).
Proof.
  intros units d w0 es0 l ws es H I F C K.
  assert (HH : forall n, exists l', full_history user pol units d w0 (es0 ++ map es (seq 0 n)) (ws n) (l ++ l')).
  { intros n. destruct (forever_runs _ _ F n 0%nat) as (l' & R). exists l'. exact (full_extends _ _ _ _ _ _ _ _ _ H (forever_types _ _ F _) R). }
  assert (II : forall l', In (FK (Asked CloseChannel)) (l ++ l')) by (intros l'; apply in_or_app; left; exact I).
  assert (L : forall n, ks_log (wd_user (ws n)) = []).
  { intros n. destruct (HH n) as (l' & (max & buf & u & Hb & ->) & Hd & T & Hu & E). destruct (init_good units max d buf u) as (A & B & _).
    exact (proj1 (proj2 (full_run_parts user pol Hu _ _ _ _ A B T E))). }
  assert (D1 : exists n, cc_shutdown (tc_channel (wd_client (ws n))) = true).
  { destruct (served ws es C (List.length (tc_order (wd_client (ws 0%nat)))) 0%nat) as (n & [X|X]).
    - exists n. destruct (HH n) as (l' & Hn). apply (full_channel_down _ _ _ _ _ _ [] _ [] Hn (II l') ltac:(constructor) eq_refl). cbn in X |- *. rewrite X. cbn. lia.
    - exists n. destruct (forever_runs _ _ F n 0%nat) as (l1 & R). exact (full_channel_down _ _ _ _ _ _ _ _ _ H I (forever_types _ _ F _) R X). }
  destruct D1 as (a & Da). destruct (HH a) as (la & Ha).
  assert (D2 : exists n, cc_shutdown (tc_channel (wd_client (ws n))) = true /\ dead (tc_conn (wd_client (ws n)))).
  { destruct (served ws es C (List.length (tc_order (wd_client (ws a)))) a) as (n & [X|X]); exists (a + n)%nat; destruct (forever_runs _ _ F n a) as (l1 & R).
    - destruct (HH (a + n)%nat) as (l' & Hn). refine (full_conn_down _ _ _ _ _ _ [] _ [] Hn _ ltac:(constructor) eq_refl _); [|rewrite X; cbn; lia].
      destruct (client_goes _ _ _ _ _ _ _ _ _ Ha (forever_types _ _ F _) R) as (ces & b & ces' & b' & A1 & A2 & A3 & A4). exact (down_stays _ _ (with_tc_user (wd_client (ws a)) b) _ _ _ Da A3).
    - exact (full_conn_down _ _ _ _ _ _ _ _ _ Ha Da (forever_types _ _ F _) R X). }
  destruct D2 as (n & Dn1 & Dn2). destruct (HH n) as (ln & Hn).
  exact (ends_finitely _ (over_ends user pol _ (full_over _ _ _ _ _ _ Hn Dn1 Dn2)) ws es n eq_refl L F K).
Qed.
End Run.
