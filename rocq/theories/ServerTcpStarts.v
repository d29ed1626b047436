(** How often the acceptor is started. *)
From Verif Require Import Prelude Ser4 Messages Mbap SpecPdu SpecMbap Server SpecServer Listener SpecListener AsyncWrite ServerConn SpecConn ServerTcp SpecServerTcp.
From Verif Require Import ServerFacts ServerLemmas ListenerFacts ServerTcpTrack ServerTcpLink ServerTcpTurns ServerTcpSteps ServerTcpFacts ServerTcpLemmas ServerTcpTheorems.
From Coq Require Import Lia.

Definition is_listen (o : output) : bool := match o with OListen => true | _ => false end.
Definition is_task_start (t : task) : bool := match t with TaskStart => true | _ => false end.
Definition is_estart (e : event) : bool := match e with EApi ApiStart => true | _ => false end.

Lemma listen_calls os : starts_of (acceptor_calls os) = times is_listen os.
Proof. unfold starts_of, times. induction os as [|o os IH]; [reflexivity|]. destruct o; cbn; auto. Qed.

Section Starts.
Context {W : Type}.
Context (on_request : N -> W -> request -> W * expected response * list api).
Context (on_shutdown : N -> W -> W * list api).
Context (NS : sessions_do_not_start on_request on_shutdown).
Notation sstep := (server_step on_request on_shutdown).
Notation srun := (server_run on_request on_shutdown).
Notation server_history := (server_history on_request on_shutdown).

Definition pending_starts (s : server) : nat := times is_task_start (sv_queue s).

Lemma calls_start l : forall s, ~ In ApiStart l -> pending_starts (api_calls s l) = pending_starts s.
Proof.
  induction l as [|a l IH]; intros s N; [reflexivity|]. change (api_calls s (a :: l)) with (api_calls (api_call s a) l). rewrite IH by (intro I; apply N; right; exact I).
  destruct a as [| |u x]; cbn [api_call]; [destruct N; left; reflexivity| |destruct (sv_shutdown s); [reflexivity|]];
    unfold pending_starts; cbn [set_queue sv_queue]; rewrite times_app; cbn; lia.
Qed.

Lemma mbap_start s w c m s' w' os : on_mbap on_request s w c m = Ret (s', w', os) -> pending_starts s' = pending_starts s /\ times is_listen os = 0%nat.
Proof.
  unfold on_mbap. destruct (sv_shutdown s); [intro E; injection E as <- <- <-; auto|]. destruct (find_session _ _) as [x|]; [|intro E; injection E as <- <- <-; auto].
  destruct (size (mb_data m) <? 1); [intro E; injection E as <- <- <-; auto|]. destruct (mb_data m) as [|fc rest] eqn:D; [discriminate|]. unfold rd8. cbn [read_u8].
  destruct (request_parser fc) as [parse|]; [|intro E; injection E as <- <- <-; auto]. unfold process_message.
  destruct (parse _) as [pr|]; [|discriminate]. cbn [obind]. destruct pr as [req|er].
  - destruct (on_request x w req) as [[w1 a] calls] eqn:Q. pose proof (calls_start calls s (proj1 NS _ _ _ _ _ _ Q)) as C.
    destruct a as [resp|[]]; intro E; injection E as <- <- <-; auto.
  - destruct er; intro E; injection E as <- <- <-; auto.
Qed.

Lemma messages_start ms : forall s w c s' w' os, on_messages on_request s w c ms = Ret (s', w', os) -> pending_starts s' = pending_starts s /\ times is_listen os = 0%nat.
Proof.
  induction ms as [|m ms IH]; intros s w c s' w' os E; cbn [on_messages] in E; [injection E as <- <- <-; auto|].
  ob E. ob E. injection E as <- <- <-. destruct (mbap_start _ _ _ _ _ _ _ F) as [A1 A2]. destruct (IH _ _ _ _ _ _ F0) as [B1 B2].
  rewrite times_app. lia.
Qed.

Lemma sessions_start l : forall s w s' w' os, shutdown_sessions on_shutdown s w l = (s', w', os) -> pending_starts s' = pending_starts s /\ times is_listen os = 0%nat.
Proof.
  induction l as [|[u x] l IH]; intros s w s' w' os E; cbn [shutdown_sessions] in E; [injection E as <- <- <-; auto|].
  destruct (on_shutdown x w) as [w1 calls] eqn:Q. destruct (shutdown_sessions _ _ _ _) as [[s2 w2] o2] eqn:F. injection E as <- <- <-.
  destruct (IH _ _ _ _ _ F) as [A1 A2]. rewrite (calls_start calls s (proj2 NS _ _ _ _ Q)) in A1. auto.
Qed.

Lemma step_start pol s w e s' w' os : sstep pol s w e = Ret (s', w', os) ->
  (times is_listen os + pending_starts s' <= pending_starts s + times is_estart [e])%nat.
Proof.
  destruct e as [a| |c buf|c d|c]; cbn [server_step]; intros E.
  - injection E as <- <- <-. destruct a; cbn [api_call]; [destruct (sv_shutdown s)| |destruct (sv_shutdown s)]; unfold pending_starts; cbn [set_queue sv_queue];
      rewrite ?times_app; cbn; lia.
  - destruct (sv_queue s) as [|t q] eqn:Q; [injection E as <- <- <-; cbn; lia|].
    assert (R : run_task on_shutdown (set_queue s q) w t = (s', w', os)) by congruence. clear E.
    assert (P : pending_starts s = ((if is_task_start t then 1 else 0) + pending_starts (set_queue s q))%nat).
    { unfold pending_starts. rewrite Q. unfold times. cbn [filter set_queue sv_queue]. destruct (is_task_start t); reflexivity. }
    rewrite P. destruct t; cbn [run_task is_task_start] in *.
    + destruct (sv_shutdown _); injection R as <- <- <-; cbn; unfold pending_starts; cbn; lia.
    + destruct (shutdown_sessions _ _ _ _) as [[s2 w2] o2] eqn:F. injection R as <- <- <-. destruct (sessions_start _ _ _ _ _ _ F) as [A1 A2].
      rewrite times_app, A2. unfold pending_starts in *. cbn [set_queue sv_queue sv_started] in *. rewrite A1. destruct (sv_started s); cbn; lia.
    + destruct (sv_shutdown _); injection R as <- <- <-; unfold pending_starts; cbn; lia.
  - injection E as <- <- <-. apply Nat.le_add_r.
  - destruct (sv_conns s c) as [p|]; [|injection E as <- <- <-; cbn; lia]. ob E. destruct (messages_start _ _ _ _ _ _ _ E) as [A1 A2]. change (pending_starts (set_conn s c (Some p0))) with (pending_starts s) in A1. rewrite A1, A2. apply Nat.le_add_r.
  - destruct (sv_conns s c); injection E as <- <- <-; apply Nat.le_add_r.
Qed.

Lemma run_start pol es : forall s w s' w' os, srun pol s w es = Ret (s', w', os) ->
  (times is_listen os + pending_starts s' <= pending_starts s + times is_estart es)%nat.
Proof.
  induction es as [|e es IH]; intros s w s' w' os E; cbn [server_run] in E; [injection E as <- <- <-; cbn; lia|].
  ob E. ob E. injection E as <- <- <-. pose proof (step_start _ _ _ _ _ _ _ F) as A. pose proof (IH _ _ _ _ _ F0) as B.
  change (e :: es) with ([e] ++ es). rewrite !times_app. lia.
Qed.

Lemma peer_turn_start pol h c e h' m : peer_turn on_request on_shutdown pol h c e = Ret (h', m) -> times is_estart (task_ins m) = 0%nat.
Proof.
  unfold peer_turn. destruct (us_conns h c) as [v|]; intro E; [|injection E as <- <-; reflexivity]. ob E. ob E. injection E as <- <-.
  change (task_ins (PeerIn c e :: ?l)) with (task_ins l). erewrite peer_outputs_ins by eassumption. clear. match goal with |- context[flat_map _ ?l] => induction l as [|o l IH]; [reflexivity|] end.
  cbn [flat_map]. rewrite times_app, IH. destruct o; reflexivity.
Qed.

Lemma quiet_turn_start m : Forall no_event m -> times is_estart (task_ins m) = 0%nat.
Proof. intro Q. rewrite (no_event_ins _ Q). reflexivity. Qed.

Lemma serve_start pol h c buf h' m : serve on_request on_shutdown pol h c buf = Ret (h', m) -> times is_estart (task_ins m) = 0%nat.
Proof.
  unfold serve. intro E. ob E. destruct (v_start _) as [v ov] in E. injection E as <- <-.
  assert (V1 : forall l, task_ins (map TaskOut l) = []) by (intro z; induction z; auto). assert (V2 : forall k, task_ins (repeat (PeerIn c VClose) k) = []) by (intro z; induction z; auto).
  assert (V3 : forall l, task_ins (map (PeerOut c) l) = []) by (intro z; induction z; auto).
  match goal with |- context[task_ins (?a :: ?b ++ ?d ++ ?e :: ?f)] => change (a :: b ++ d ++ e :: f) with ([a] ++ b ++ d ++ [e] ++ f) end.
  rewrite !task_ins_app, V1, V2, V3. reflexivity.
Qed.

Lemma listener_outputs_start pol l buf os : forall h h' m, listener_outputs on_request on_shutdown pol h l buf os = Ret (h', m) -> times is_estart (task_ins m) = 0%nat.
Proof.
  induction os as [|o os IH]; intros h h' m E; cbn [listener_outputs] in E; [injection E as <- <-; reflexivity|].
  ob E. ob E. injection E as <- <-. change (task_ins (ListenOut o :: ?x)) with (task_ins x). rewrite task_ins_app, times_app, (IH _ _ _ F0).
  rewrite Nat.add_0_r. destruct o; try (injection F as <- <-; reflexivity).
  - exact (serve_start _ _ _ _ _ _ F).
  - apply quiet_turn_start. eapply quiet_peer_step. exact F.
  - apply quiet_turn_start. eapply quiet_close_conns. exact F.
Qed.

Lemma listener_turn_start pol h e buf h' m : listener_turn on_request on_shutdown pol h e buf = Ret (h', m) -> times is_estart (task_ins m) = 0%nat.
Proof.
  unfold listener_turn. intro E. ob E. ob E. injection E as <- <-. change (task_ins (ListenIn e :: ?x)) with (task_ins x). eapply listener_outputs_start. eassumption.
Qed.

Lemma ustep_start pol h e h' m : userver_step on_request on_shutdown pol h e = Ret (h', m) -> times is_estart (task_ins m) = times is_start [e].
Proof.
  destruct e as [a| |c ok buf|c r x|c w n|c w ok]; cbn [userver_step]; intro E.
  - rewrite (task_turn_ins _ _ _ _ _ _ _ E). destruct a; reflexivity.
  - destruct (us_order h) as [|[] q]; [injection E as <- <-; reflexivity|rewrite (task_turn_ins _ _ _ _ _ _ _ E); reflexivity|].
    unfold listener_run in E. destruct (as_queue _) as [|[| |c] l]; try exact (listener_turn_start _ _ _ _ _ _ E).
    ob E. ob E. injection E as <- <-. rewrite task_ins_app, times_app, (listener_turn_start _ _ _ _ _ _ F0), (quiet_turn_start _ (quiet_peer_step _ _ _ _ _ F)). reflexivity.
  - exact (listener_turn_start _ _ _ _ _ _ E).
  - exact (peer_turn_start _ _ _ _ _ _ E).
  - exact (peer_turn_start _ _ _ _ _ _ E).
  - exact (peer_turn_start _ _ _ _ _ _ E).
Qed.

Lemma urun_start pol es : forall h h' m, userver_run on_request on_shutdown pol h es = Ret (h', m) -> times is_estart (task_ins m) = times is_start es.
Proof.
  induction es as [|e es IH]; intros h h' m E; cbn [userver_run] in E; [injection E as <- <-; reflexivity|].
  ob E. ob E. injection E as <- <-. rewrite task_ins_app, times_app, (ustep_start _ _ _ _ _ F), (IH _ _ _ F0), <- times_app. reflexivity.
Qed.

Theorem starts_bounded pol max w0 es h m : server_history pol max w0 es h m -> (starts_of (listen_ins m) <= times is_start es)%nat.
Proof.
  intros H. destruct (server_parts _ _ _ _ _ _ _ _ H) as (_ & R & _). rewrite starts_calls, (proj1 (server_wired _ _ _ _ _ _ _ _ H)), listen_calls.
  pose proof (run_start _ _ _ _ _ _ _ R) as A. rewrite (urun_start _ _ _ _ _ (proj2 H)) in A. cbn in A. unfold pending_starts in A. cbn in A. lia.
Qed.
End Starts.
