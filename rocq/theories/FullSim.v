(** Handlers that make the same calls cannot be told apart by anything below them; and
    the handlers of sessions make the same calls as some script. *)
From Verif Require Import Prelude Ser4 Messages Mbap Client Server Database System.
From Verif Require Import AsyncWrite ClientConn ClientTcp Listener ServerConn ServerTcp World.
From Verif Require Import SpecClient SpecSystem ClientView Scheduled SessionCall Session Full.
From Coq Require Import Lia.

(** ** Handlers related by a simulation *)
Section Sim.
Context {A B : Type}.
Context (hA : nat -> A -> expected (list N) -> A * list capi) (hB : nat -> B -> expected (list N) -> B * list capi).
Context (R : A -> B -> Prop).
Context (sim : forall i a b x a' c, R a b -> hA i a x = (a', c) -> exists b', hB i b x = (b', c) /\ R a' b').

Definition rel (f : client * A * list coutput) (g : client * B * list coutput) : Prop :=
  fst (fst f) = fst (fst g) /\ R (snd (fst f)) (snd (fst g)) /\ snd f = snd g.

Lemma call_handler_sim s a b i x : R a b -> rel (call_handler hA s a i x) (call_handler hB s b i x).
Proof.
  intros H. unfold call_handler. destruct (hA i a x) as [a' c] eqn:E. destruct (sim _ _ _ _ _ _ H E) as (b' & -> & H').
  destruct (capi_calls s c) as [s1 o1]. repeat split. exact H'.
Qed.

Lemma fail_all_sim msg l : forall s a b, R a b -> rel (fail_all hA s a l msg) (fail_all hB s b l msg).
Proof.
  induction l as [|p l IH]; intros s a b H; cbn [fail_all]; [repeat split; exact H|].
  pose proof (call_handler_sim s a b (pr_id p) (Error (EConnection msg)) H) as K.
  destruct (call_handler hA s a _ _) as [[s1 a1] o1], (call_handler hB s b _ _) as [[s2 b1] o2]. destruct K as (K1 & K2 & K3).
  cbn [fst snd] in K1, K2, K3. subst s2 o2. pose proof (IH s1 a1 b1 K2) as K.
  destruct (fail_all hA s1 a1 l msg) as [[s2 a2] o2], (fail_all hB s1 b1 l msg) as [[s3 b2] o3]. destruct K as (K1 & K3 & K4).
  cbn [fst snd] in K1, K3, K4. subst s3 o3. repeat split. exact K3.
Qed.

Lemma on_error_sim s a b msg : R a b -> rel (Client.on_error hA s a msg) (Client.on_error hB s b msg).
Proof.
  intros H. unfold Client.on_error, cancel_all_pending_requests. destruct (cc_shutdown s); [repeat split; exact H|].
  cbv zeta. set (s0 := with_parser s _). pose proof (fail_all_sim msg (cc_pending s0) s0 a b H) as K.
  destruct (fail_all hA s0 a _ msg) as [[s1 a1] o1], (fail_all hB s0 b _ msg) as [[s2 b1] o2]. destruct K as (K1 & K2 & K3).
  cbn [fst snd] in K1, K2, K3. subst s2 o2. cbn [cc_current with_pending]. destruct (cc_current s1) as [p|]; [|repeat split; exact K2].
  pose proof (call_handler_sim (with_pending s1 []) a1 b1 (pr_id p) (Error (EConnection msg)) K2) as K.
  destruct (call_handler hA _ a1 _ _) as [[s3 a2] o3], (call_handler hB _ b1 _ _) as [[s4 b2] o4]. destruct K as (K1 & K3 & K4).
  cbn [fst snd] in K1, K3, K4. subst s4 o4. destruct (cancel_current_request s3) as [s5 o5]. repeat split. exact K3.
Qed.

Lemma on_response_sim s a b m : R a b -> rel (on_response hA s a m) (on_response hB s b m).
Proof.
  intros H. unfold on_response. destruct (cc_shutdown s); [repeat split; exact H|]. destruct (cc_current s) as [p|]; [|repeat split; exact H].
  destruct (_ && _); [|repeat split; exact H]. cbv zeta.
  pose proof (call_handler_sim (cancel_timer s) a b (pr_id p) (Value (mb_data m)) H) as K.
  destruct (call_handler hA _ a _ _) as [[s1 a1] o1], (call_handler hB _ b _ _) as [[s2 b1] o2]. destruct K as (K1 & K2 & K3).
  cbn [fst snd] in K1, K2, K3. subst s2 o2. destruct (check_pending_requests _) as [s3 o3]. repeat split. exact K2.
Qed.

Lemma on_responses_sim ms : forall s a b, R a b -> rel (on_responses hA s a ms) (on_responses hB s b ms).
Proof.
  induction ms as [|m ms IH]; intros s a b H; cbn [on_responses]; [repeat split; exact H|].
  pose proof (on_response_sim s a b m H) as K.
  destruct (on_response hA s a m) as [[s1 a1] o1], (on_response hB s b m) as [[s2 b1] o2]. destruct K as (K1 & K2 & K3).
  cbn [fst snd] in K1, K2, K3. subst s2 o2. pose proof (IH s1 a1 b1 K2) as K.
  destruct (on_responses hA s1 a1 ms) as [[s2 a2] o2], (on_responses hB s1 b1 ms) as [[s3 b2] o3]. destruct K as (K1 & K3 & K4).
  cbn [fst snd] in K1, K3, K4. subst s3 o3. repeat split. exact K3.
Qed.

Lemma on_timeout_sim s a b : R a b -> rel (on_timeout hA s a) (on_timeout hB s b).
Proof.
  intros H. unfold on_timeout. destruct (cc_shutdown s); [repeat split; exact H|]. destruct (cc_current s) as [p|]; [|repeat split; exact H].
  pose proof (call_handler_sim s a b (pr_id p) (Error ETimeout) H) as K.
  destruct (call_handler hA s a _ _) as [[s1 a1] o1], (call_handler hB s b _ _) as [[s2 b1] o2]. destruct K as (K1 & K2 & K3).
  cbn [fst snd] in K1, K2, K3. subst s2 o2. destruct (cancel_current_request s1) as [s5 o5]. repeat split. exact K2.
Qed.

Lemma run_ctask_sim s a b t : R a b -> rel (run_ctask hA s a t) (run_ctask hB s b t).
Proof.
  intros H. destruct t as [i k|i|]; cbn [run_ctask].
  - destruct (cc_shutdown s); [repeat split; exact H|]. cbv zeta. destruct (check_pending_requests _) as [s1 o1]. repeat split. exact H.
  - apply call_handler_sim. exact H.
  - cbv zeta. repeat split. exact H.
Qed.

Lemma client_step_sim pol s a b e s' a' o : R a b -> client_step hA pol s a e = Ret (s', a', o) ->
  exists b', client_step hB pol s b e = Ret (s', b', o) /\ R a' b'.
Proof.
  assert (Fin : forall f g, rel f g -> Ret f = Ret (s', a', o) -> exists b', Ret g = Ret (s', b', o) /\ R a' b').
  { intros f [[s2 b2] o2] (K1 & K2 & K3) E. injection E as ->. cbn [fst snd] in K1, K2, K3. subst s2 o2. eauto. }
  intros H. destruct e as [x| |d|msg|t|t]; cbn [client_step].
  - destruct (capi_call s x) as [s1 o1]. intros E. injection E as <- <- <-. eauto.
  - destruct (cc_queue s) as [|t q]; [intros E; injection E as <- <- <-; eauto|]. apply Fin, run_ctask_sim, H.
  - unfold on_receive. destruct (cc_shutdown s); [intros E; injection E as <- <- <-; eauto|].
    destruct (mbap_parse pol (cc_parser s) d) as [[p ms]|]; cbn [obind]; [|discriminate]. apply Fin, on_responses_sim, H.
  - apply Fin, on_error_sim, H.
  - destruct (existsb _ _); intros E; injection E as <- <- <-; eauto.
  - destruct (existsb _ _); [|intros E; injection E as <- <- <-; eauto]. apply Fin, on_timeout_sim, H.
Qed.
End Sim.

(** ** A script of session calls *)
Definition scall : Type := {c : capi | by_session c}.
Definition calls_scripted (i : nat) (w : list (list scall)) (x : expected (list N)) : list (list scall) * list capi :=
  (tl w, map (@proj1_sig _ _) (hd [] w)).

Definition plain_script (w : list (list scall)) : list (list capi) := map (map (@proj1_sig _ _)) w.

(** The two scripts, [n] of whose entries were used. *)
Definition used (b0 : list (list scall)) (a : list (list capi)) (b : list (list scall)) : Prop :=
  exists n, a = skipn n (plain_script b0) /\ b = skipn n b0.

Lemma tl_skipn {A} n : forall l : list A, tl (skipn n l) = skipn (S n) l.
Proof. induction n as [|n IH]; intros [|x l]; try reflexivity. exact (IH l). Qed.

Lemma skipn_plain n : forall b, skipn n (plain_script b) = plain_script (skipn n b).
Proof. induction n as [|n IH]; intros [|x l]; try reflexivity. exact (IH l). Qed.

Lemma scripted_sim b0 : forall i a b x a' c, used b0 a b -> scripted i a x = (a', c) ->
  exists b', calls_scripted i b x = (b', c) /\ used b0 a' b'.
Proof.
  intros i a b x a' c (n & -> & ->) E. unfold scripted in E. injection E as <- <-. exists (tl (skipn n b0)). unfold calls_scripted. split.
  - f_equal. rewrite skipn_plain. destruct (skipn n b0); reflexivity.
  - exists (S n). rewrite !tl_skipn. auto.
Qed.

Lemma used_all sc rest b : used (sc ++ rest) (plain_script rest) b -> b = rest.
Proof.
  intros (n & E & ->). apply (f_equal (@List.length _)) in E. unfold plain_script in E. rewrite skipn_length, !map_length, app_length in E. fold scall in E.
  destruct (Nat.leb_spec n (List.length sc)) as [L|L].
  - assert (n = List.length sc \/ rest = []) as [->| ->]; [destruct rest; [auto|cbn [List.length] in E; left; lia]| |].
    + rewrite skipn_app, skipn_all, Nat.sub_diag. reflexivity.
    + rewrite app_nil_r in *. cbn [List.length] in E. rewrite Nat.add_0_r in E. apply skipn_all2. lia.
  - destruct rest; [rewrite app_nil_r; apply skipn_all2; lia|cbn [List.length] in E; lia].
Qed.

Lemma calls_scripted_session : session_handler calls_scripted.
Proof.
  intros i w x w' c E. unfold calls_scripted in E. injection E as <- <-. apply Forall_forall. intros a H. apply in_map_iff in H as (y & <- & _).
  exact (proj2_sig y).
Qed.

Lemma lift_calls (c : list capi) : Forall by_session c -> exists s : list scall, map (@proj1_sig _ _) s = c.
Proof.
  induction 1 as [|a c Ha _ (s & E)]; [exists []; reflexivity|]. exists (exist _ a Ha :: s). cbn. rewrite E. reflexivity.
Qed.
Lemma lift_script (c : list (list capi)) : Forall (Forall by_session) c -> exists s, plain_script s = c.
Proof.
  induction 1 as [|a c Ha _ (s & E)]; [exists []; reflexivity|]. destruct (lift_calls a Ha) as (x & Ex). exists (x :: s).
  cbn. rewrite Ex. fold (plain_script s). rewrite E. reflexivity.
Qed.
Lemma plain_script_app a b : plain_script (a ++ b) = plain_script a ++ plain_script b.
Proof. apply map_app. Qed.

(** ** The handlers of sessions as a script *)
Section Scripts.
Context {W : Type}.
Context (handler : nat -> W -> expected (list N) -> W * list capi).
Context (P : W -> Prop).
Context (HP : forall i w x w' c, P w -> handler i w x = (w', c) -> P w' /\ Forall by_session c).

Lemma walk_typed l : forall w w' script, P w -> walk handler w l = (w', script) -> P w' /\ Forall (Forall by_session) script.
Proof.
  induction l as [|[i x] l IH]; intros w w' script H; cbn [walk]; [intros E; injection E as <- <-; auto|].
  destruct (handler i w x) as [w1 c1] eqn:E1. destruct (walk handler w1 l) as [w2 c2] eqn:E2. intros E. injection E as <- <-.
  destruct (HP _ _ _ _ _ H E1) as [H1 F1]. destruct (IH _ _ _ H1 E2) as [H2 F2]. auto.
Qed.

Lemma client_step_script pol s w e s' w' o : P w -> client_step handler pol s w e = Ret (s', w', o) ->
  P w' /\ exists script, forall rest, client_step calls_scripted pol s (script ++ rest) e = Ret (s', rest, o).
Proof.
  intros H E. destruct e as [a| |d|msg|t|t].
  1: { cbn [client_step] in *. destruct (capi_call s a) as [s1 o1]. injection E as <- <- <-. split; [exact H|]. exists []. reflexivity. }
  all: match type of E with client_step _ _ _ _ ?e = _ =>
    destruct (step_seen handler pol s w e s' w' o E ltac:(intros a; discriminate)) as (script & Ew & _ & F) end;
  destruct (walk_typed _ _ _ _ H Ew) as [H' T]; split; [exact H'|]; destruct (lift_script _ T) as (sc & <-); exists sc; intros rest;
  specialize (F (plain_script rest)); rewrite <- plain_script_app in F;
  destruct (client_step_sim _ _ _ (scripted_sim (sc ++ rest)) _ _ _ _ _ _ _ _ (ex_intro _ 0%nat (conj eq_refl eq_refl)) F) as (b' & Eb & Eq);
  cbn [skipn] in Eb; rewrite Eb; rewrite (used_all _ _ _ Eq); reflexivity.
Qed.

Notation scripts := (list (list scall)).

Lemma channel_turn_script pol s q e xs s' l : P (tc_user s) -> channel_turn handler pol s q e xs = Ret (s', l) ->
  P (tc_user s') /\ exists script, forall rest,
    channel_turn calls_scripted pol (with_tc_user s (script ++ rest)) q e xs = Ret (with_tc_user s' rest, l).
Proof.
  intros H E. unfold channel_turn in E. destruct (client_step handler pol _ _ e) as [[[ch w] os]|] eqn:S1; cbn [obind] in E; [|discriminate E].
  destruct (to_conn _ os xs) as [[c l1]|] eqn:T; cbn [obind] in E; [|discriminate E]. injection E as <- <-.
  destruct (client_step_script _ _ _ _ _ _ _ H S1) as (H' & script & F). split; [exact H'|]. exists script. intros rest.
  unfold channel_turn, with_tc_user. cbn [tc_channel tc_user tc_conn tc_order]. rewrite F. cbn [obind]. rewrite T. reflexivity.
Qed.

Lemma callbacks_script pol msg xs os : forall s s' l, P (tc_user s) -> callbacks handler pol s os msg xs = Ret (s', l) ->
  P (tc_user s') /\ exists script, forall rest,
    callbacks calls_scripted pol (with_tc_user s (script ++ rest)) os msg xs = Ret (with_tc_user s' rest, l).
Proof.
  induction os as [|o os IH]; intros s s' l H; cbn [callbacks].
  - intros E. injection E as <- <-. split; [exact H|]. exists []. reflexivity.
  - intros E.
    assert (K : exists s1 l1 l2, l = ConnOut o :: l1 ++ l2 /\ callbacks handler pol s1 os msg xs = Ret (s', l2) /\ P (tc_user s1) /\
      exists script, forall rest, match o with
                     | Received _ d => channel_turn calls_scripted pol (with_tc_user s (script ++ rest)) (tc_order s) (CReceive d) xs
                     | Failed => channel_turn calls_scripted pol (with_tc_user s (script ++ rest)) (tc_order s) (CError msg) xs
                     | _ => Ret (with_tc_user s (script ++ rest), [])
                     end = Ret (with_tc_user s1 rest, l1)).
    { match type of E with obind ?x _ = _ => destruct x as [[s1 l1]|] eqn:E1; cbn [obind] in E; [|discriminate E] end.
      destruct (callbacks handler pol s1 os msg xs) as [[s2 l2]|] eqn:E2; cbn [obind] in E; [|discriminate E]. injection E as <- <-.
      exists s1, l1, l2. split; [reflexivity|]. split; [exact E2|].
      destruct o; try (injection E1 as <- <-; split; [exact H|]; exists []; reflexivity); exact (channel_turn_script _ _ _ _ _ _ _ H E1). }
    clear E. destruct K as (s1 & l1 & l2 & -> & E2 & H1 & sc1 & F1). destruct (IH _ _ _ H1 E2) as (H2 & sc2 & F2). split; [exact H2|].
    exists (sc1 ++ sc2). intros rest. rewrite <- app_assoc. change (tc_order (with_tc_user s (sc1 ++ sc2 ++ rest))) with (tc_order s).
    rewrite F1. cbn [obind]. rewrite F2. reflexivity.
Qed.

Lemma conn_turn_script pol s q e msg xs s' l : P (tc_user s) -> conn_turn handler pol s q e msg xs = Ret (s', l) ->
  P (tc_user s') /\ exists script, forall rest,
    conn_turn calls_scripted pol (with_tc_user s (script ++ rest)) q e msg xs = Ret (with_tc_user s' rest, l).
Proof.
  intros H E. unfold conn_turn in E. destruct (conn_step (tc_conn s) e) as [[c os]|] eqn:C; cbn [obind] in E; [|discriminate E].
  cbv zeta in E. match type of E with obind (callbacks _ _ ?x1 _ _ _) _ = _ => set (s1 := x1) in *; destruct (callbacks handler pol s1 os msg xs) as [[s2 l2]|] eqn:E2 end;
  cbn [obind] in E; [|discriminate E]. injection E as <- <-. destruct (callbacks_script _ _ _ _ s1 _ _ H E2) as (H2 & sc & F). split; [exact H2|].
  exists sc. intros rest. unfold conn_turn. cbn [tc_conn with_tc_user]. rewrite C. cbn [obind]. cbv zeta. specialize (F rest). unfold s1, with_tc_user in F.
  cbn [tc_channel tc_user tc_conn tc_order with_tc_user] in *. rewrite F. reflexivity.
Qed.

Lemma tcp_step_script pol s e s' l : P (tc_user s) -> tcp_step handler pol s e = Ret (s', l) ->
  P (tc_user s') /\ exists script, forall rest, tcp_step calls_scripted pol (with_tc_user s (script ++ rest)) e = Ret (with_tc_user s' rest, l).
Proof.
  intros H. destruct e as [a|xs|t|t xs|ok msg|g ok msg|r x msg xs|w n|w ok msg]; cbn [tcp_step];
    try exact (channel_turn_script _ _ _ _ _ _ _ H); try exact (conn_turn_script _ _ _ _ _ _ _ _ H).
  change (tc_order (with_tc_user s _)) with (tc_order s). destruct (tc_order s) as [|[|] q].
  - intros E. injection E as <- <-. split; [exact H|]. exists []. reflexivity.
  - exact (channel_turn_script _ _ _ _ _ _ _ H).
  - exact (conn_turn_script _ _ _ _ _ _ _ _ H).
Qed.

Lemma client_turn_script pol w e w' l : P (wd_user w) -> client_turn handler pol w e = Ret (w', l) ->
  P (wd_user w') /\ exists script, forall rest, client_turn calls_scripted pol (with_wd_user w (script ++ rest)) e = Ret (with_wd_user w' rest, l).
Proof.
  intros H E. unfold client_turn in E. cbv zeta in E. destruct (tcp_step handler pol (wd_client w) e) as [[s1 l1]|] eqn:E1; cbn [obind] in E; [|discriminate E].
  injection E as <- <-. destruct (tcp_step_script _ _ _ _ _ H E1) as (H1 & sc & F). split; [exact H1|]. exists sc. intros rest.
  unfold client_turn. cbn [wd_client with_wd_user]. rewrite F. reflexivity.
Qed.

Lemma server_turn_script pol (w : world W) e w' l : server_turn pol w e = Ret (w', l) -> wd_user w' = wd_user w /\
  forall rest : scripts, server_turn pol (with_wd_user w rest) e = Ret (with_wd_user w' rest, l).
Proof.
  intros E. unfold server_turn in *. destruct (userver_step db_session db_shutdown pol (wd_server w) e) as [[s1 l1]|] eqn:E1; cbn [obind] in E; [|discriminate E].
  injection E as <- <-. split; [reflexivity|]. intros rest. cbn [wd_server with_wd_user]. rewrite E1. reflexivity.
Qed.

Lemma world_step_script pol w e w' l : P (wd_user w) -> world_step handler pol w e = Ret (w', l) ->
  P (wd_user w') /\ exists script, forall rest, world_step calls_scripted pol (with_wd_user w (script ++ rest)) e = Ret (with_wd_user w' rest, l).
Proof.
  intros H.
  assert (Same : Ret (w, []) = Ret (w', l) -> P (wd_user w') /\ exists script : scripts, forall rest, Ret (with_wd_user w (script ++ rest), []) = Ret (with_wd_user w' rest, l)).
  { intros E. injection E as <- <-. split; [exact H|]. exists []. reflexivity. }
  assert (Serve : forall e, server_turn pol w e = Ret (w', l) -> P (wd_user w') /\ exists script : scripts, forall rest,
    server_turn pol (with_wd_user w (script ++ rest)) e = Ret (with_wd_user w' rest, l)).
  { intros u E. destruct (server_turn_script _ _ _ _ _ E) as [A F]. rewrite A. split; [exact H|]. exists []. exact F. }
  destruct e as [e|e|g c buf|c].
  - destruct e as [a|xs|t|t xs|ok msg|g ok msg|r x msg xs|v n|v ok msg]; cbn [world_step]; try exact (client_turn_script _ _ _ _ _ H).
    change (can_read (wd_down (with_wd_user w _)) _ _) with (can_read (wd_down w) (reads_from (tc_conn (wd_client w)) r) x).
    destruct (can_read _ _ _); [exact (client_turn_script _ _ _ _ _ H)|exact Same].
  - destruct e; cbn [world_step]; try apply Serve.
    change (by_others (with_wd_user w _) c || _) with (by_others w c || can_read (wd_up w) (gets_from w c r) x).
    destruct (by_others w c || _); [apply Serve|exact Same].
  - cbn [world_step].
    match goal with |- (if ?b then _ else _) = _ -> _ => set (ok := b) end.
    intros E. assert (K : P (wd_user w') /\ exists script : scripts, forall rest,
      (if ok then server_turn pol {| wd_client := with_tc_user (wd_client w) (script ++ rest); wd_server := wd_server w; wd_links := wd_links w ++ [(g, c)];
          wd_up := wd_up w; wd_down := wd_down w |} (UAccept c true buf) else Ret (with_wd_user w (script ++ rest), [])) = Ret (with_wd_user w' rest, l)).
    { destruct ok; [|exact (Same E)]. destruct (server_turn_script _ _ _ _ _ E) as [A F]. rewrite A. split; [exact H|]. exists []. exact F. }
    exact K.
  - cbn [world_step]. cbv zeta. intros E. destruct (run (call_body c) (us_user (wd_server w))) as [[d r]|] eqn:E1; cbn [obind] in E; [|discriminate E].
    injection E as <- <-. split; [exact H|]. exists []. intros rest. cbn [wd_server with_wd_user app]. rewrite E1. reflexivity.
Qed.

Lemma world_run_script pol es : forall w w' l, P (wd_user w) -> world_run handler pol w es = Ret (w', l) ->
  P (wd_user w') /\ exists script, forall rest, world_run calls_scripted pol (with_wd_user w (script ++ rest)) es = Ret (with_wd_user w' rest, l).
Proof.
  induction es as [|e es IH]; intros w w' l H; cbn [world_run].
  - intros E. injection E as <- <-. split; [exact H|]. exists []. reflexivity.
  - intros E. destruct (world_step handler pol w e) as [[w1 l1]|] eqn:E1; cbn [obind] in E; [|discriminate E].
    destruct (world_run handler pol w1 es) as [[w2 l2]|] eqn:E2; cbn [obind] in E; [|discriminate E]. injection E as <- <-.
    destruct (world_step_script _ _ _ _ _ H E1) as (H1 & sc1 & F1). destruct (IH _ _ _ H1 E2) as (H2 & sc2 & F2). split; [exact H2|].
    exists (sc1 ++ sc2). intros rest. rewrite <- app_assoc, F1. cbn [obind]. rewrite F2. reflexivity.
Qed.
End Scripts.
