(** Proofs about ClientTcp.v: the views of a history. *)
From Verif Require Import Prelude Ser4 Messages Mbap SpecPdu SpecMbap Client SpecClient ClientLemmas AsyncWrite ClientConn SpecConn WriteFacts ConnFacts
  ClientTcp SpecClientTcp.
From Coq Require Import Lia.

(** ** Projections *)
Lemma channel_ins_app : forall a b, channel_ins (a ++ b) = channel_ins a ++ channel_ins b.
Proof. intros. apply flat_map_app. Qed.
Lemma channel_outs_app : forall a b, channel_outs (a ++ b) = channel_outs a ++ channel_outs b.
Proof. intros. apply flat_map_app. Qed.
Lemma conn_ins_app : forall a b, conn_ins (a ++ b) = conn_ins a ++ conn_ins b.
Proof. intros. apply flat_map_app. Qed.
Lemma conn_outs_app : forall a b, conn_outs (a ++ b) = conn_outs a ++ conn_outs b.
Proof. intros. apply flat_map_app. Qed.
Ltac proj_app := rewrite ?channel_ins_app, ?channel_outs_app, ?conn_ins_app, ?conn_outs_app.

Lemma map_views : forall o, channel_ins (map ConnOut o) = [] /\ channel_outs (map ConnOut o) = [] /\
  conn_ins (map ConnOut o) = [] /\ conn_outs (map ConnOut o) = o.
Proof.
  induction o as [|x o (A & B & C & D)]; [repeat split|]. cbn [map channel_ins channel_outs conn_ins conn_outs flat_map app].
  fold (channel_ins (map ConnOut o)) (channel_outs (map ConnOut o)) (conn_ins (map ConnOut o)) (conn_outs (map ConnOut o)).
  rewrite A, B, C, D. repeat split.
Qed.
Lemma map_channel_ins o : channel_ins (map ConnOut o) = []. Proof. apply map_views. Qed.
Lemma map_channel_outs o : channel_outs (map ConnOut o) = []. Proof. apply map_views. Qed.
Lemma map_conn_ins o : conn_ins (map ConnOut o) = []. Proof. apply map_views. Qed.
Lemma map_conn_outs o : conn_outs (map ConnOut o) = o. Proof. apply map_views. Qed.
Lemma view_ci e l : channel_ins (ChannelIn e :: l) = e :: channel_ins l /\ channel_outs (ChannelIn e :: l) = channel_outs l /\
  conn_ins (ChannelIn e :: l) = conn_ins l /\ conn_outs (ChannelIn e :: l) = conn_outs l.
Proof. repeat split. Qed.
Lemma view_co o l : channel_ins (ChannelOut o :: l) = channel_ins l /\ channel_outs (ChannelOut o :: l) = o :: channel_outs l /\
  conn_ins (ChannelOut o :: l) = conn_ins l /\ conn_outs (ChannelOut o :: l) = conn_outs l.
Proof. repeat split. Qed.
Lemma view_ni e l : channel_ins (ConnIn e :: l) = channel_ins l /\ channel_outs (ConnIn e :: l) = channel_outs l /\
  conn_ins (ConnIn e :: l) = e :: conn_ins l /\ conn_outs (ConnIn e :: l) = conn_outs l.
Proof. repeat split. Qed.
Lemma view_no o l : channel_ins (ConnOut o :: l) = channel_ins l /\ channel_outs (ConnOut o :: l) = channel_outs l /\
  conn_ins (ConnOut o :: l) = conn_ins l /\ conn_outs (ConnOut o :: l) = o :: conn_outs l.
Proof. repeat split. Qed.
Lemma view_nil : channel_ins [] = [] /\ channel_outs [] = [] /\ conn_ins [] = [] /\ conn_outs [] = [].
Proof. repeat split. Qed.
Ltac views1 := cbn [app]; proj_app;
  rewrite ?(proj1 (view_ci _ _)), ?(proj1 (proj2 (view_ci _ _))), ?(proj1 (proj2 (proj2 (view_ci _ _)))), ?(proj2 (proj2 (proj2 (view_ci _ _)))),
    ?(proj1 (view_co _ _)), ?(proj1 (proj2 (view_co _ _))), ?(proj1 (proj2 (proj2 (view_co _ _)))), ?(proj2 (proj2 (proj2 (view_co _ _)))),
    ?(proj1 (view_ni _ _)), ?(proj1 (proj2 (view_ni _ _))), ?(proj1 (proj2 (proj2 (view_ni _ _)))), ?(proj2 (proj2 (proj2 (view_ni _ _)))),
    ?(proj1 (view_no _ _)), ?(proj1 (proj2 (view_no _ _))), ?(proj1 (proj2 (proj2 (view_no _ _)))), ?(proj2 (proj2 (proj2 (view_no _ _))));
  proj_app; rewrite ?map_channel_ins, ?map_channel_outs, ?map_conn_ins, ?map_conn_outs;
  rewrite ?(proj1 view_nil), ?(proj1 (proj2 view_nil)), ?(proj1 (proj2 (proj2 view_nil))), ?(proj2 (proj2 (proj2 view_nil))); cbn [app].
Ltac views := repeat progress views1.

(** ** A callback is the last thing a step does *)
Definition calm_out (o : noutput) : Prop := match o with Received _ _ | Failed => False | _ => True end.

Lemma calm_writes : forall o, Forall calm_out (map Write o).
Proof. intros o. apply Forall_forall. intros x H. apply in_map_iff in H as (y & <- & _). exact Logic.I. Qed.

Lemma calm_send_buffer_out : forall s s' o, send_buffer s = (s', o) -> Forall calm_out o.
Proof.
  intros s s' o E. unfold send_buffer in E. destruct (cn_shutdown s); [injection E as <- <-; constructor|].
  destruct (w_start _ _) as [c ow]. injection E as <- <-. apply calm_writes.
Qed.

Lemma calm_send : forall s d x s' o, conn_send s d x = (s', o) -> Forall calm_out o.
Proof.
  intros s d x s' o E. unfold conn_send in E. destruct (cn_shutdown s); [injection E as <- <-; constructor|].
  cbn [cn_status with_writer cn_socket] in E. destruct (cn_status s).
  - destruct (negb (su_address x)); [injection E as <- <-; repeat constructor|].
    destruct (negb (su_open x) || _); [injection E as <- <-; repeat constructor|].
    destruct (negb (su_bind x)); injection E as <- <-; repeat constructor.
  - injection E as <- <-. constructor.
  - eapply calm_send_buffer_out; eauto.
Qed.

Lemma ret_inj : forall (A : Type) (x y : A), Ret x = Ret y -> x = y.
Proof. intros A x y E. injection E as E. exact E. Qed.

Lemma callback_last : forall s e s' o, conn_step s e = Ret (s', o) ->
  Forall calm_out o \/ exists o1 cb, o = o1 ++ [cb] /\ Forall calm_out o1 /\ ~ calm_out cb.
Proof.
  intros s e s' o E. destruct e as [d x| | |ok|g ok|r x|w n|w ok]; cbn [conn_step] in E.
  - apply ret_inj in E. left. eapply calm_send; eauto.
  - injection E as <- <-. left. constructor.
  - left. destruct (cn_queue s) as [|[|] q]; [injection E as <- <-; constructor| |]; apply ret_inj in E.
    + unfold do_close in E. destruct (cn_shutdown _); [injection E as <- <-; constructor|].
      cbv zeta in E. destruct (cn_socket _); injection E as <- <-; repeat constructor.
    + injection E as <- <-. constructor.
  - destruct (cn_resolves s); [injection E as <- <-; left; constructor|]. apply ret_inj in E. unfold resolve_handler in E.
    destruct (cn_shutdown _); [injection E as <- <-; left; constructor|].
    destruct ok; cbn [negb] in E; injection E as <- <-; [left; constructor|].
    right. exists [], Failed. split; [reflexivity|]. split; [constructor|]. intros [].
  - destruct (existsb _ _); [|injection E as <- <-; left; constructor]. apply ret_inj in E. unfold connect_handler in E.
    destruct (cn_shutdown _); [injection E as <- <-; left; constructor|].
    destruct ok; cbn [negb] in E.
    + destruct (send_buffer _) as [s1 o1] eqn:B. injection E as <- <-. left. constructor; [exact Logic.I|].
      eapply calm_send_buffer_out; eauto.
    + injection E as <- <-. right. exists [], Failed. split; [reflexivity|]. split; [constructor|]. intros [].
  - destruct (find_read _ _) as [g|]; [|injection E as <- <-; left; constructor].
    destruct (possible g x); [|injection E as <- <-; left; constructor].
    apply ret_inj in E. unfold read_handler in E. destruct (cn_shutdown _); [injection E as <- <-; left; constructor|].
    destruct x, g; injection E as <- <-; try (left; repeat constructor; fail);
      right; eexists [], _; (split; [reflexivity|]); (split; [constructor|]); intros [].
  - destruct (w_transfer _ _ _) as [[c ow]|]; cbn [obind] in E; [|discriminate]. injection E as <- <-. left. apply calm_writes.
  - apply ret_inj in E. unfold write_handler in E. destruct (w_complete _ _ _) as [[c ow]|]; [|injection E as <- <-; left; constructor].
    destruct (cn_shutdown s); [injection E as <- <-; left; constructor|].
    destruct ok; injection E as <- <-.
    + left. apply Forall_app. split; [apply calm_writes|]. repeat constructor.
    + right. exists (map Write ow), Failed. split; [reflexivity|]. split; [apply calm_writes|]. intros [].
Qed.

(** ** The structure of histories *)
Definition plain_in (e : cevent) : Prop := match e with CReceive _ | CError _ => False | _ => True end.
Definition plain_out (o : coutput) : Prop := match o with Sent _ _ _ _ | TcpShutdown => False | _ => True end.
Definition plain_event (e : nevent) : Prop := match e with NSend _ _ | NShutdown => False | _ => True end.
Inductive back : noutput -> cevent -> Prop :=
| back_received g d : back (Received g d) (CReceive d)
| back_failed msg : back Failed (CError msg).

Inductive block : cconn -> list mark -> cconn -> Prop :=
| bl_in c e : plain_in e -> block c [ChannelIn e] c
| bl_out c o : plain_out o -> block c [ChannelOut o] c
| bl_send c i u t f x c' o : conn_step c (NSend (frame_data f) x) = Ret (c', o) -> Forall calm_out o ->
    block c (ChannelOut (Sent i u t f) :: ConnIn (NSend (frame_data f) x) :: map ConnOut o) c'
| bl_shutdown c c' : conn_step c NShutdown = Ret (c', []) -> block c [ChannelOut TcpShutdown; ConnIn NShutdown] c'
| bl_conn c e c' o : plain_event e -> conn_step c e = Ret (c', o) -> Forall calm_out o -> block c (ConnIn e :: map ConnOut o) c'
| bl_back c e c' o cb ce : plain_event e -> conn_step c e = Ret (c', o ++ [cb]) -> Forall calm_out o -> back cb ce ->
    block c (ConnIn e :: map ConnOut o ++ [ConnOut cb; ChannelIn ce]) c'.

Inductive trace : cconn -> list mark -> cconn -> Prop :=
| tr_nil c : trace c [] c
| tr_snoc c l c' m c'' : trace c l c' -> block c' m c'' -> trace c (l ++ m) c''.

Lemma trace_one : forall c m c', block c m c' -> trace c m c'.
Proof. intros c m c' B. change m with ([] ++ m). econstructor; [constructor|exact B]. Qed.
Lemma trace_app : forall c l c' l' c'', trace c l c' -> trace c' l' c'' -> trace c (l ++ l') c''.
Proof.
  intros c l c' l' c'' T T'. revert c l T. induction T' as [c'|c' l' c1 m c2 T' IH B]; intros c l T.
  - rewrite app_nil_r. exact T.
  - rewrite app_assoc. econstructor; [apply IH, T|exact B].
Qed.

Lemma to_conn_trace : forall os xs c c' l, to_conn c os xs = Ret (c', l) ->
  trace c l c' /\ channel_ins l = [] /\ channel_outs l = os.
Proof.
  induction os as [|o os IH]; intros xs c c' l E; cbn [to_conn] in E.
  - injection E as <- <-. repeat split. constructor.
  - destruct o as [i k|i u t f|i t d|i r|].
    + destruct (to_conn c os xs) as [[c1 l1]|] eqn:R; cbn [obind] in E; [|discriminate]. injection E as <- <-.
      destruct (IH _ _ _ _ R) as (T & A & B). split; [|views; rewrite A, B; auto].
      apply (trace_app _ [ChannelOut (Called i k)] c); [apply trace_one; constructor; exact Logic.I|exact T].
    + cbv zeta in E. destruct (conn_step c _) as [[c1 o1]|] eqn:S1; cbn [obind] in E; [|discriminate].
      destruct (to_conn c1 os (tl xs)) as [[c2 l1]|] eqn:R; cbn [obind] in E; [|discriminate]. injection E as <- <-.
      destruct (IH _ _ _ _ R) as (T & A & B). split; [|views; rewrite A, B; auto].
      apply (trace_app _ (ChannelOut (Sent i u t f) :: ConnIn (NSend (frame_data f) (next_setup xs)) :: map ConnOut o1) c1); [|exact T].
      apply trace_one. constructor; [exact S1|]. cbn [conn_step] in S1. apply ret_inj in S1. eapply calm_send; eauto.
    + destruct (to_conn c os xs) as [[c1 l1]|] eqn:R; cbn [obind] in E; [|discriminate]. injection E as <- <-.
      destruct (IH _ _ _ _ R) as (T & A & B). split; [|views; rewrite A, B; auto].
      apply (trace_app _ [ChannelOut (Armed i t d)] c); [apply trace_one; constructor; exact Logic.I|exact T].
    + destruct (to_conn c os xs) as [[c1 l1]|] eqn:R; cbn [obind] in E; [|discriminate]. injection E as <- <-.
      destruct (IH _ _ _ _ R) as (T & A & B). split; [|views; rewrite A, B; auto].
      apply (trace_app _ [ChannelOut (Completed i r)] c); [apply trace_one; constructor; exact Logic.I|exact T].
    + cbn [conn_step obind] in E.
      destruct (to_conn _ os xs) as [[c2 l1]|] eqn:R; cbn [obind] in E; [|discriminate]. injection E as <- <-.
      destruct (IH _ _ _ _ R) as (T & A & B). split; [|views; rewrite A, B; auto].
      eapply (trace_app _ [ChannelOut TcpShutdown; ConnIn NShutdown]); [apply trace_one; constructor; reflexivity|exact T].
Qed.

Lemma to_conn_total : forall os xs c, exists c' l, to_conn c os xs = Ret (c', l).
Proof.
  induction os as [|o os IH]; intros xs c; cbn [to_conn]; [eauto|].
  destruct o as [i k|i u t f|i t d|i r|]; try (destruct (IH xs c) as (c' & l & ->); cbn [obind]; eauto; fail).
  - cbv zeta. cbn [conn_step]. destruct (conn_send _ _ _) as [c1 o1]. cbn [obind]. destruct (IH (tl xs) c1) as (c' & l & ->). cbn [obind]. eauto.
  - cbn [conn_step obind]. edestruct IH as (c' & l & ->). cbn [obind]. eauto.
Qed.

(** What a trace says about the connection alone. *)
Lemma block_conn : forall c m c', block c m c' -> conn_run c (conn_ins m) = Ret (c', conn_outs m).
Proof.
  intros c m c' B. destruct B; views; cbn [conn_run]; try reflexivity; rewrite ?app_nil_r.
  - rewrite H. cbn [obind conn_run]. rewrite ?app_nil_r. reflexivity.
  - rewrite H. reflexivity.
  - rewrite H0. cbn [obind conn_run]. rewrite ?app_nil_r. reflexivity.
  - cbn [conn_run]. rewrite H0. cbn [obind conn_run]. rewrite ?app_nil_r. reflexivity.
Qed.

Lemma trace_conn : forall c l c', trace c l c' -> conn_run c (conn_ins l) = Ret (c', conn_outs l).
Proof.
  intros c l c' T. induction T as [c|c l c' m c'' T IH B]; [reflexivity|]. proj_app.
  eapply run_join; [exact IH|]. apply block_conn. exact B.
Qed.

Section Views.
Context {W : Type}.
Context (handler : nat -> W -> expected (list N) -> W * list capi).
Context (pol : copy_policy).
Notation client_run := (client_run handler pol).
Notation client_step := (client_step handler pol).

Lemma client_run_one : forall ch w e, client_run ch w [e] = client_step ch w e.
Proof.
  intros ch w e. cbn [Client.client_run]. destruct (client_step ch w e) as [[[s1 w1] o1]|]; cbn [obind]; [|reflexivity].
  rewrite app_nil_r. reflexivity.
Qed.

(** A turn of the channel, after the mark of its event. *)
Lemma channel_turn_views : forall s q e xs s' l, channel_turn handler pol s q e xs = Ret (s', l) ->
  exists l', l = ChannelIn e :: l' /\ trace (tc_conn s) l' (tc_conn s') /\ channel_ins l' = [] /\
    client_step (tc_channel s) (tc_user s) e = Ret (tc_channel s', tc_user s', channel_outs l').
Proof.
  intros s q e xs s' l E. unfold channel_turn in E.
  destruct (client_step _ _ e) as [[[ch w] os]|] eqn:S1; cbn [obind] in E; [|discriminate].
  destruct (to_conn _ os xs) as [[c l1]|] eqn:R; cbn [obind] in E; [|discriminate]. injection E as <- <-.
  destruct (to_conn_trace _ _ _ _ _ R) as (T & A & B). exists l1. cbn [tc_conn tc_channel tc_user]. rewrite A, B. auto.
Qed.

Lemma plain_turn_views : forall s q e xs s' l, plain_in e -> channel_turn handler pol s q e xs = Ret (s', l) ->
  trace (tc_conn s) l (tc_conn s') /\
  client_run (tc_channel s) (tc_user s) (channel_ins l) = Ret (tc_channel s', tc_user s', channel_outs l).
Proof.
  intros s q e xs s' l P E. destruct (channel_turn_views _ _ _ _ _ _ E) as (l' & -> & T & A & S1). split.
  - apply (trace_app _ [ChannelIn e] (tc_conn s)); [apply trace_one; constructor; exact P|exact T].
  - views. rewrite A, client_run_one. exact S1.
Qed.

Lemma callbacks_calm : forall os s msg xs, Forall calm_out os -> callbacks handler pol s os msg xs = Ret (s, map ConnOut os).
Proof.
  induction os as [|o os IH]; intros s msg xs H; [reflexivity|]. inversion H as [|? ? H1 H2]; subst.
  cbn [callbacks]. destruct o; try contradiction; cbn [obind]; rewrite (IH _ _ _ H2); reflexivity.
Qed.

Lemma callbacks_app : forall os os' s msg xs, callbacks handler pol s (os ++ os') msg xs =
  let! (s1, l1) := callbacks handler pol s os msg xs in
  let! (s2, l2) := callbacks handler pol s1 os' msg xs in Ret (s2, l1 ++ l2).
Proof.
  induction os as [|o os IH]; intros os' s msg xs.
  - cbn [app callbacks obind]. destruct (callbacks handler pol s os' msg xs) as [[s2 l2]|]; reflexivity.
  - cbn [app callbacks]. destruct (match o with Received _ d => _ | Failed => _ | _ => _ end) as [[s1 l1]|]; cbn [obind]; [|reflexivity].
    rewrite IH. destruct (callbacks handler pol s1 os msg xs) as [[s2 l2]|]; cbn [obind]; [|reflexivity].
    destruct (callbacks handler pol s2 os' msg xs) as [[s3 l3]|]; cbn [obind]; [|reflexivity].
    rewrite ?app_comm_cons, <- ?app_assoc. cbn [app]. rewrite <- ?app_assoc. reflexivity.
Qed.

(** The state before the callbacks of a turn of the connection. *)
Definition before_callbacks (s : tclient W) (q : list turn) (e : nevent) (c : cconn) : tclient W :=
  {| tc_channel := tc_channel s; tc_user := tc_user s; tc_conn := c;
     tc_order := q ++ posted ConnTurn (List.length (cn_queue (tc_conn s)) - match e with NRun => 1%nat | _ => 0%nat end) (List.length (cn_queue c)) |}.

Lemma conn_turn_cases : forall s q e msg xs s' l, conn_turn handler pol s q e msg xs = Ret (s', l) ->
  (exists c os, conn_step (tc_conn s) e = Ret (c, os) /\ Forall calm_out os /\ s' = before_callbacks s q e c /\ l = ConnIn e :: map ConnOut os) \/
  (exists c os cb ce l', conn_step (tc_conn s) e = Ret (c, os ++ [cb]) /\ Forall calm_out os /\ back cb ce /\
     (forall m, ce = CError m -> m = msg) /\
     channel_turn handler pol (before_callbacks s q e c) (tc_order (before_callbacks s q e c)) ce xs = Ret (s', ChannelIn ce :: l') /\
     l = ConnIn e :: map ConnOut os ++ [ConnOut cb; ChannelIn ce] ++ l').
Proof.
  intros s q e msg xs s' l E. unfold conn_turn in E. destruct (conn_step (tc_conn s) e) as [[c os]|] eqn:S1; cbn [obind] in E; [|discriminate].
  cbv zeta in E. fold (before_callbacks s q e c) in E.
  destruct (callback_last _ _ _ _ S1) as [H|(o1 & cb & -> & H & K)].
  - rewrite callbacks_calm in E by exact H. cbn [obind] in E. injection E as <- <-. left. eauto 10.
  - rewrite callbacks_app, (callbacks_calm _ _ _ _ H) in E. cbn [obind] in E.
    right. exists c, o1, cb. cbn [callbacks] in E.
    destruct cb; try (exfalso; apply K; exact Logic.I).
    + destruct (channel_turn _ _ _ _ _ _) as [[s2 l2]|] eqn:T; cbn [obind] in E; [|discriminate]. injection E as <- <-.
      destruct (channel_turn_views _ _ _ _ _ _ T) as (l' & -> & _). exists (CReceive data), l'.
      split; [reflexivity|]. split; [exact H|]. split; [constructor|]. split; [discriminate|]. split; [exact T|]. cbn [app]. rewrite app_nil_r. reflexivity.
    + destruct (channel_turn _ _ _ _ _ _) as [[s2 l2]|] eqn:T; cbn [obind] in E; [|discriminate]. injection E as <- <-.
      destruct (channel_turn_views _ _ _ _ _ _ T) as (l' & -> & _). exists (CError msg), l'.
      split; [reflexivity|]. split; [exact H|]. split; [constructor|]. split; [congruence|]. split; [exact T|]. cbn [app]. rewrite app_nil_r. reflexivity.
Qed.

Lemma conn_turn_views : forall s q e msg xs s' l, plain_event e -> conn_turn handler pol s q e msg xs = Ret (s', l) ->
  trace (tc_conn s) l (tc_conn s') /\
  client_run (tc_channel s) (tc_user s) (channel_ins l) = Ret (tc_channel s', tc_user s', channel_outs l).
Proof.
  intros s q e msg xs s' l P E. destruct (conn_turn_cases _ _ _ _ _ _ _ E) as [(c & os & S1 & H & -> & ->)|(c & os & cb & ce & l' & S1 & H & B & _ & T & ->)].
  - split; [apply trace_one; constructor; assumption|]. views. reflexivity.
  - destruct (channel_turn_views _ _ _ _ _ _ T) as (l2 & E2 & T2 & A & S2). injection E2 as <-. split.
    + rewrite app_assoc, app_comm_cons. eapply trace_app; [|exact T2]. apply trace_one. constructor; assumption.
    + views. rewrite A, client_run_one. exact S2.
Qed.

Lemma step_views : forall s e s' l, tcp_step handler pol s e = Ret (s', l) ->
  trace (tc_conn s) l (tc_conn s') /\
  client_run (tc_channel s) (tc_user s) (channel_ins l) = Ret (tc_channel s', tc_user s', channel_outs l).
Proof.
  intros s e s' l E. destruct e as [a|xs|t|t xs|ok msg|g ok msg|r x msg xs|w n|w ok msg]; cbn [tcp_step] in E.
  - eapply plain_turn_views; [|exact E]; exact Logic.I.
  - destruct (tc_order s) as [|[|] q].
    + injection E as <- <-. split; [constructor|reflexivity].
    + eapply plain_turn_views; [|exact E]; exact Logic.I.
    + eapply conn_turn_views; [|exact E]; exact Logic.I.
  - eapply plain_turn_views; [|exact E]; exact Logic.I.
  - eapply plain_turn_views; [|exact E]; exact Logic.I.
  - eapply conn_turn_views; [|exact E]; exact Logic.I.
  - eapply conn_turn_views; [|exact E]; exact Logic.I.
  - eapply conn_turn_views; [|exact E]; exact Logic.I.
  - eapply conn_turn_views; [|exact E]; exact Logic.I.
  - eapply conn_turn_views; [|exact E]; exact Logic.I.
Qed.

Theorem run_views : forall es s s' l, tcp_run handler pol s es = Ret (s', l) ->
  trace (tc_conn s) l (tc_conn s') /\
  client_run (tc_channel s) (tc_user s) (channel_ins l) = Ret (tc_channel s', tc_user s', channel_outs l).
Proof.
  induction es as [|e es IH]; intros s s' l E; cbn [tcp_run] in E.
  - injection E as <- <-. split; [constructor|reflexivity].
  - destruct (tcp_step handler pol s e) as [[s1 l1]|] eqn:S1; cbn [obind] in E; [|discriminate].
    destruct (tcp_run handler pol s1 es) as [[s2 l2]|] eqn:R; cbn [obind] in E; [|discriminate]. injection E as <- <-.
    destruct (step_views _ _ _ _ S1) as [T1 C1]. destruct (IH _ _ _ R) as [T2 C2].
    split; [eapply trace_app; eauto|]. proj_app. rewrite run_app_client, C1. cbn [obind]. rewrite C2. reflexivity.
Qed.
End Views.
