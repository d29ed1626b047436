(** What holds of every history of the server over its acceptor and its connections. *)
From Verif Require Import Prelude Ser4 Messages Mbap SpecPdu SpecMbap Server SpecServer Listener SpecListener AsyncWrite ServerConn SpecConn ServerTcp SpecServerTcp.
From Verif Require Import ServerFacts ServerLemmas ListenerFacts ListenerLemmas WriteFacts ConnFacts ServerConnFacts ServerConnMore ServerTcpTrack ServerTcpLink ServerTcpTurns ServerTcpSteps.
From Coq Require Import Lia.

(** ** C++ types *)
Definition typed_vevent (e : vevent) : Prop := match e with VRead _ (RData d) => bytes d | _ => True end.
Definition typed_voutput (o : voutput) : Prop := match o with VReceived d => bytes d | _ => True end.
Definition typed_mark (x : smark) : Prop := match x with TaskIn e => typed_event e | _ => True end.

Lemma typed_vstep v e v' o : vconn_step v e = Ret (v', o) -> typed_vevent e -> Forall typed_voutput o.
Proof.
  intros E T. apply vstep_trans in E. inversion E; subst; try (apply Forall_map, Forall_forall; intros; exact Logic.I); repeat constructor; exact T.
Qed.

Section Facts.
Context {W : Type}.
Context (on_request : N -> W -> request -> W * expected response * list api).
Context (on_shutdown : N -> W -> W * list api).
Context (pol : copy_policy).
Implicit Types (h : tserver W) (m : list smark).

Notation peer_step := (@peer_step W).
Notation listener_outputs := (listener_outputs on_request on_shutdown pol).
Notation listener_turn := (listener_turn on_request on_shutdown pol).
Notation channel_outputs := (channel_outputs on_request on_shutdown pol).
Notation task_turn := (task_turn on_request on_shutdown pol).
Notation peer_outputs := (peer_outputs on_request on_shutdown pol).
Notation peer_turn := (peer_turn on_request on_shutdown pol).
Notation listener_run := (listener_run on_request on_shutdown pol).
Notation userver_step := (userver_step on_request on_shutdown pol).
Notation userver_run := (userver_run on_request on_shutdown pol).
Notation sstep := (server_step on_request on_shutdown pol).
Notation srun := (server_run on_request on_shutdown pol).
Notation server_history := (server_history on_request on_shutdown).

Lemma typed_peer c e o : Forall typed_mark (PeerIn c e :: map (PeerOut c) o).
Proof. constructor; [exact Logic.I|]. apply Forall_map, Forall_forall. intros; exact Logic.I. Qed.

Lemma typed_peer_step h c e h' m : peer_step h c e = Ret (h', m) -> Forall typed_mark m.
Proof.
  unfold ServerTcp.peer_step. destruct (us_conns h c); intros E; [|injection E as <- <-; constructor]. ob E. injection E as <- <-. apply typed_peer.
Qed.

Lemma typed_close_conns l : forall h h' m, close_conns h l = Ret (h', m) -> Forall typed_mark m.
Proof.
  induction l as [|c l IH]; intros h h' m E; cbn [close_conns] in E; [injection E as <- <-; constructor|].
  ob E. ob E. injection E as <- <-. apply Forall_app. split; [eapply typed_peer_step; eauto|eapply IH; eauto].
Qed.

Lemma typed_listener_outputs l buf os : forall h h' m, (good_buf buf \/ forall c, serving c os = false) ->
  listener_outputs h l buf os = Ret (h', m) -> Forall typed_mark m.
Proof.
  induction os as [|o os IH]; intros h h' m G E; cbn [ServerTcp.listener_outputs] in E; [injection E as <- <-; constructor|].
  ob E. ob E. injection E as <- <-. constructor; [exact Logic.I|]. apply Forall_app. split.
  - destruct o as [|c|c|c|c|c|c|]; try (injection F as <- <-; constructor; fail).
    + destruct G as [G|G]; [|specialize (G c); cbn in G; rewrite Nat.eqb_refl in G; discriminate].
      unfold serve in F. ob F. destruct (v_start _) as [v ov]. injection F as <- <-.
      constructor; [exact G|]. apply Forall_app. split; [apply Forall_map, Forall_forall; intros; exact Logic.I|]. apply Forall_app.
      split; [apply Forall_forall; intros x I; apply repeat_spec in I as ->; exact Logic.I|]. apply typed_peer.
    + eapply typed_peer_step; eauto.
    + eapply typed_close_conns; eauto.
  - eapply IH; [|exact F0]. destruct G as [G|G]; [left; exact G|right]. intro c. specialize (G c). unfold serving in *. cbn [existsb] in G.
    apply Bool.orb_false_iff in G. exact (proj2 G).
Qed.

Lemma typed_listener_turn h e buf h' m : match e with AAccept _ _ => good_buf buf | _ => True end ->
  listener_turn h e buf = Ret (h', m) -> Forall typed_mark m.
Proof.
  intros G E. unfold ServerTcp.listener_turn in E. ob E. ob E. injection E as <- <-. constructor; [exact Logic.I|].
  eapply typed_listener_outputs; [|exact F0]. destruct (ef_serving _ _ _ _ (step_effect _ _ _ _ F)) as [NS|(c & pre & _ & EQ & _)]; [right; exact NS|left; subst e; exact G].
Qed.

Lemma typed_channel_outputs os : forall h h' m, channel_outputs h os = Ret (h', m) -> Forall typed_mark m.
Proof.
  induction os as [|o os IH]; intros h h' m E; cbn [ServerTcp.channel_outputs] in E; [injection E as <- <-; constructor|].
  ob E. ob E. injection E as <- <-. constructor; [exact Logic.I|]. apply Forall_app. split; [|eapply IH; eauto].
  destruct o; try (injection F as <- <-; constructor; fail); try (eapply typed_listener_turn; [|exact F]; exact Logic.I). eapply typed_peer_step; eauto.
Qed.

Lemma typed_task_turn h e h' m : typed_event e -> task_turn h e = Ret (h', m) -> Forall typed_mark m.
Proof. intros T E. unfold ServerTcp.task_turn in E. ob E. ob E. injection E as <- <-. constructor; [exact T|]. eapply typed_channel_outputs; eauto. Qed.

Lemma typed_peer_outputs c os : forall h h' m, Forall typed_voutput os -> peer_outputs h c os = Ret (h', m) -> Forall typed_mark m.
Proof.
  induction os as [|o os IH]; intros h h' m T E; cbn [ServerTcp.peer_outputs] in E; [injection E as <- <-; constructor|].
  inversion_clear T as [|? ? T1 T2]. ob E. ob E. injection E as <- <-. constructor; [exact Logic.I|]. apply Forall_app. split; [|eapply IH; eauto].
  destruct o; try (injection F as <- <-; constructor; fail).
  - eapply typed_task_turn; [|exact F]. exact T1.
  - eapply typed_task_turn; [|exact F]. exact Logic.I.
  - eapply typed_listener_turn; [|exact F]. exact Logic.I.
Qed.

Lemma typed_peer_turn h c e h' m : typed_vevent e -> peer_turn h c e = Ret (h', m) -> Forall typed_mark m.
Proof.
  intros T E. unfold ServerTcp.peer_turn in E. destruct (us_conns h c); [|injection E as <- <-; constructor]. ob E. ob E. injection E as <- <-.
  constructor; [exact Logic.I|]. eapply typed_peer_outputs; [|exact F0]. eapply typed_vstep; eauto.
Qed.

Lemma typed_ustep h e h' m : typed_uevent e -> userver_step h e = Ret (h', m) -> Forall typed_mark m.
Proof.
  intros T E. destruct e; cbn [ServerTcp.userver_step] in E.
  - eapply typed_task_turn; [|exact E]. exact T.
  - destruct (us_order h) as [|[|] q]; [injection E as <- <-; constructor|eapply typed_task_turn; [|exact E]; exact Logic.I|].
    unfold ServerTcp.listener_run in E. destruct (as_queue _) as [|[| |c] q']; try (eapply typed_listener_turn; [|exact E]; exact Logic.I).
    ob E. ob E. injection E as <- <-. apply Forall_app. split; [eapply typed_peer_step; eauto|]. eapply typed_listener_turn; [|exact F0]. exact Logic.I.
  - eapply typed_listener_turn; [|exact E]. exact T.
  - eapply typed_peer_turn; [|exact E]. exact T.
  - eapply typed_peer_turn; [|exact E]. exact Logic.I.
  - eapply typed_peer_turn; [|exact E]. exact Logic.I.
Qed.

Lemma typed_urun es : forall h h' m, Forall typed_uevent es -> userver_run h es = Ret (h', m) -> Forall typed_mark m.
Proof.
  induction es as [|e es IH]; intros h h' m T E; cbn [ServerTcp.userver_run] in E; [injection E as <- <-; constructor|].
  inversion_clear T. ob E. ob E. injection E as <- <-. apply Forall_app. split; [eapply typed_ustep; eauto|eapply IH; eauto].
Qed.

Lemma typed_tasks m : Forall typed_mark m -> Forall typed_event (task_ins m).
Proof. intros F. apply Forall_forall. intros e I. apply in_flat_map in I as (x & I & K). rewrite Forall_forall in F. specialize (F x I). destruct x; try destruct K as []. subst. exact F. contradiction. Qed.

(** ** Histories *)
Lemma history_done max w0 es h m : server_history pol max w0 es h m -> step_done on_request on_shutdown pol (tserver_init max w0) m h.
Proof. intros [_ E]. exact (userver_run_done on_request on_shutdown pol es _ _ _ (uinv_init on_request on_shutdown max w0) E). Qed.

(** Each part behaves as it does on its own. *)
Theorem server_parts max w0 es h m : server_history pol max w0 es h m ->
  Forall typed_event (task_ins m) /\
  srun server_init w0 (task_ins m) = Ret (us_channel h, us_user h, task_outs m) /\
  serves max (listen_ins m) (us_listener h) (listen_outs m) /\
  forall c, vconn_run sconn_init (peer_ins c m) = Ret (match us_conns h c with Some v => v | None => sconn_init end, peer_outs c m) /\
    match us_conns h c with
    | None => peer_ins c m = []
    | Some _ => exists k rest, peer_ins c m = repeat VClose k ++ VStart :: rest /\ ~ In VStart rest /\ ~ In VShutdown rest
    end.
Proof.
  intros H. pose proof (history_done _ _ _ _ _ H) as [_ [T1 T2 T3 T4] _]. split; [apply typed_tasks; eapply typed_urun; apply H|].
  split; [exact T1|]. split; [exact T2|]. intro c. split; [exact (T3 c)|]. specialize (T4 c). cbn [grows us_conns tserver_init] in T4.
  destruct (us_conns h c); [|exact T4]. destruct T4 as (k & rest & E & F). exists k, rest. split; [exact E|]. rewrite Forall_forall in F.
  split; intro I; apply F in I as [A B]; congruence.
Qed.

Theorem server_wired max w0 es h m : server_history pol max w0 es h m -> wired m.
Proof. intros H. exact (sd_wired _ _ _ _ _ _ (history_done _ _ _ _ _ H)). Qed.

Lemma urun_app a : forall h b, userver_run h (a ++ b) =
  let! (h1, m1) := userver_run h a in let! (h2, m2) := userver_run h1 b in Ret (h2, m1 ++ m2).
Proof.
  induction a as [|e a IH]; intros h b; cbn [app ServerTcp.userver_run obind].
  - destruct (userver_run h b) as [[? ?]|]; reflexivity.
  - destruct (userver_step h e) as [[h1 m1]|]; cbn [obind]; [|reflexivity]. rewrite IH.
    destruct (userver_run h1 a) as [[h2 m2]|]; cbn [obind]; [|reflexivity].
    destruct (userver_run h2 b) as [[h3 m3]|]; cbn [obind]; [|reflexivity]. rewrite app_assoc. reflexivity.
Qed.

Lemma history_app max w0 a b h m : server_history pol max w0 (a ++ b) h m ->
  exists h1 m1 m2, server_history pol max w0 a h1 m1 /\ userver_run h1 b = Ret (h, m2) /\ m = m1 ++ m2 /\ step_done on_request on_shutdown pol h1 m2 h.
Proof.
  intros [T E]. rewrite urun_app in E. apply Forall_app in T as [T1 T2]. ob E. ob E. injection E as <- <-.
  assert (H1 : server_history pol max w0 a t l) by (split; assumption). do 3 eexists. split; [exact H1|]. split; [exact F0|]. split; [reflexivity|].
  eapply userver_run_done; [|exact F0]. exact (sd_inv _ _ _ _ _ _ (history_done _ _ _ _ _ H1)).
Qed.

Lemma history_extend max w0 a b h1 m1 h m2 : server_history pol max w0 a h1 m1 -> Forall typed_uevent b -> userver_run h1 b = Ret (h, m2) ->
  server_history pol max w0 (a ++ b) h (m1 ++ m2).
Proof. intros [T E] T2 E2. split; [apply Forall_app; auto|]. rewrite urun_app, E. cbn [obind]. rewrite E2. reflexivity. Qed.

(** ** At most one event of the channel at a time *)
Definition no_event (x : smark) : Prop := match x with TaskIn _ => False | _ => True end.

Lemma no_event_ins m : Forall no_event m -> task_ins m = [].
Proof. induction 1 as [|x m H _ IH]; [reflexivity|]. destruct x; try destruct H; exact IH. Qed.

Lemma quiet_peer c e o : Forall no_event (PeerIn c e :: map (PeerOut c) o).
Proof. constructor; [exact Logic.I|]. apply Forall_map, Forall_forall. intros; exact Logic.I. Qed.

Lemma quiet_peer_step h c e h' m : peer_step h c e = Ret (h', m) -> Forall no_event m.
Proof.
  unfold ServerTcp.peer_step. destruct (us_conns h c); intros E; [|injection E as <- <-; constructor]. ob E. injection E as <- <-. apply quiet_peer.
Qed.

Lemma quiet_close_conns l : forall h h' m, close_conns h l = Ret (h', m) -> Forall no_event m.
Proof.
  induction l as [|c l IH]; intros h h' m E; cbn [close_conns] in E; [injection E as <- <-; constructor|].
  ob E. ob E. injection E as <- <-. apply Forall_app. split; [eapply quiet_peer_step; eauto|eapply IH; eauto].
Qed.

Lemma quiet_listener_outputs l buf os : forall h h' m, (forall c, serving c os = false) -> listener_outputs h l buf os = Ret (h', m) -> Forall no_event m.
Proof.
  induction os as [|o os IH]; intros h h' m G E; cbn [ServerTcp.listener_outputs] in E; [injection E as <- <-; constructor|].
  ob E. ob E. injection E as <- <-. constructor; [exact Logic.I|]. apply Forall_app. split.
  - destruct o as [|c|c|c|c|c|c|]; try (injection F as <- <-; constructor; fail).
    + specialize (G c). cbn in G. rewrite Nat.eqb_refl in G. discriminate.
    + eapply quiet_peer_step; eauto.
    + eapply quiet_close_conns; eauto.
  - eapply IH; [|exact F0]. intro c. specialize (G c). unfold serving in *. cbn [existsb] in G. apply Bool.orb_false_iff in G. exact (proj2 G).
Qed.

Lemma quiet_listener_turn h e buf h' m : match e with AAccept _ _ => False | _ => True end -> listener_turn h e buf = Ret (h', m) -> Forall no_event m.
Proof.
  intros G E. unfold ServerTcp.listener_turn in E. ob E. ob E. injection E as <- <-. constructor; [exact Logic.I|].
  eapply quiet_listener_outputs; [|exact F0]. destruct (ef_serving _ _ _ _ (step_effect _ _ _ _ F)) as [NS|(c & pre & _ & EQ & _)]; [exact NS|subst e; destruct G].
Qed.

Lemma quiet_channel_outputs os : forall h h' m, channel_outputs h os = Ret (h', m) -> Forall no_event m.
Proof.
  induction os as [|o os IH]; intros h h' m E; cbn [ServerTcp.channel_outputs] in E; [injection E as <- <-; constructor|].
  ob E. ob E. injection E as <- <-. constructor; [exact Logic.I|]. apply Forall_app. split; [|eapply IH; eauto].
  destruct o; try (injection F as <- <-; constructor; fail); try (eapply quiet_listener_turn; [|exact F]; exact Logic.I). eapply quiet_peer_step; eauto.
Qed.

Lemma task_turn_ins h e h' m : task_turn h e = Ret (h', m) -> task_ins m = [e].
Proof.
  intros E. unfold ServerTcp.task_turn in E. ob E. ob E. injection E as <- <-. change (task_ins (TaskIn e :: ?l)) with (e :: task_ins l).
  rewrite (no_event_ins _ (quiet_channel_outputs _ _ _ _ F0)). reflexivity.
Qed.

Lemma peer_outputs_ins c os : forall h h' m, peer_outputs h c os = Ret (h', m) ->
  task_ins m = flat_map (fun o => match o with VReceived d => [EReceive (N.of_nat c) d] | VFailed => [EConnError (N.of_nat c)] | _ => [] end) os.
Proof.
  induction os as [|o os IH]; intros h h' m E; cbn [ServerTcp.peer_outputs] in E; [injection E as <- <-; reflexivity|].
  ob E. ob E. injection E as <- <-. change (task_ins (PeerOut c o :: ?l)) with (task_ins l). rewrite task_ins_app, (IH _ _ _ F0). cbn [flat_map]. f_equal.
  destruct o; try (injection F as <- <-; reflexivity); try (eapply task_turn_ins; eauto; fail).
  apply no_event_ins. eapply quiet_listener_turn; [|exact F]. exact Logic.I.
Qed.

Lemma peer_turn_task_ins h c e h' m : uinv h -> completion e -> peer_turn h c e = Ret (h', m) -> task_ins m = [] \/ exists x, task_ins m = [x].
Proof.
  intros U CE E. unfold ServerTcp.peer_turn in E. destruct (us_conns h c) as [v|] eqn:C; [|injection E as <- <-; left; reflexivity]. ob E. ob E. injection E as <- <-.
  change (task_ins (PeerIn c e :: ?l)) with (task_ins l). rewrite (peer_outputs_ins _ _ _ _ _ F0).
  assert (Q : forall os, Forall quiet_output os ->
    flat_map (fun o => match o with VReceived d => [EReceive (N.of_nat c) d] | VFailed => [EConnError (N.of_nat c)] | _ => [] end) os = []).
  { induction 1 as [|o os H _ IH]; [reflexivity|]. destruct o; try destruct H; exact IH. }
  destruct (completion_shape _ _ _ _ F CE (linked_alive _ (ui_linked _ U) _ _ C)) as (_ & _ & [[_ S]|[(_ & r & d & _ & ->)|(_ & pre & S & ->)]]).
  - left. exact (Q _ S).
  - right. eexists. reflexivity.
  - right. rewrite flat_map_app, (Q _ S). eexists. reflexivity.
Qed.

Lemma step_task_ins h e h' m : uinv h -> userver_step h e = Ret (h', m) -> task_ins m = [] \/ exists x, task_ins m = [x].
Proof.
  intros U E. destruct e; cbn [ServerTcp.userver_step] in E.
  - right. eexists. eapply task_turn_ins; eauto.
  - destruct (us_order h) as [|[|] q]; [injection E as <- <-; left; reflexivity|right; eexists; eapply task_turn_ins; eauto|]. left. apply no_event_ins.
    unfold ServerTcp.listener_run in E. destruct (as_queue _) as [|[| |c] q']; try (eapply quiet_listener_turn; [|exact E]; exact Logic.I).
    ob E. ob E. injection E as <- <-. apply Forall_app. split; [eapply quiet_peer_step; eauto|]. eapply quiet_listener_turn; [|exact F0]. exact Logic.I.
  - destruct (listener_turn_inv on_request on_shutdown pol h (AAccept c ok) buf h' m) as (l' & os & ST & LT); [apply linked_linked_pre; [exact Logic.I|apply U]|apply U|exact E|].
    destruct (lt_kind _ _ _ _ _ _ _ _ _ _ LT) as [(_ & K & _)|(d & pre & _ & _ & _ & _ & K & _)]; eauto.
  - eapply peer_turn_task_ins; eauto. exact Logic.I.
  - eapply peer_turn_task_ins; eauto. exact Logic.I.
  - eapply peer_turn_task_ins; eauto. exact Logic.I.
Qed.
End Facts.
