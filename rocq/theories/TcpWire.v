(** Proofs about ClientTcp.v: how the two parts are connected, and what reaches the wire. *)
From Verif Require Import Prelude Ser4 Messages Mbap SpecPdu SpecMbap Client SpecClient ClientFacts ClientLemmas ClientOutcomes AsyncWrite ClientConn SpecConn WriteFacts
  ConnFacts ClientTcp SpecClientTcp TcpFacts.
From Coq Require Import Lia.

(** ** The parts alone *)
Lemma received_source : forall s e s' o g d, conn_step s e = Ret (s', o) -> In (Received g d) o -> exists r, e = NRead r (RData d).
Proof.
  intros s e s' o g d E H.
  assert (C : ~ Forall calm_out o) by (intro C; exact (proj1 (Forall_forall _ _) C _ H)).
  destruct e as [d' x| | |ok|g' ok|r x|w n|w ok]; cbn [conn_step] in E.
  - exfalso. apply C. apply ret_inj in E. eapply calm_send; eauto.
  - injection E as <- <-. destruct H.
  - exfalso. apply C. destruct (cn_queue s) as [|[|] q]; [injection E as <- <-; constructor| |]; apply ret_inj in E.
    + unfold do_close in E. destruct (cn_shutdown _); [injection E as <- <-; constructor|].
      cbv zeta in E. destruct (cn_socket _); injection E as <- <-; repeat constructor.
    + injection E as <- <-. constructor.
  - destruct (cn_resolves s); [injection E as <- <-; destruct H|]. apply ret_inj in E. unfold resolve_handler in E.
    destruct (cn_shutdown _); [injection E as <- <-; destruct H|].
    destruct ok; cbn [negb] in E; injection E as <- <-; [destruct H|]. destruct H as [H|[]]; discriminate.
  - destruct (existsb _ _); [|injection E as <- <-; destruct H]. apply ret_inj in E. unfold connect_handler in E.
    destruct (cn_shutdown _); [injection E as <- <-; destruct H|].
    destruct ok; cbn [negb] in E.
    + destruct (send_buffer _) as [s1 o1] eqn:B. injection E as <- <-. exfalso. apply C. constructor; [exact Logic.I|].
      eapply calm_send_buffer_out; eauto.
    + injection E as <- <-. destruct H as [H|[]]; discriminate.
  - destruct (find_read _ _) as [h|]; [|injection E as <- <-; destruct H].
    destruct (possible h x); [|injection E as <- <-; destruct H].
    apply ret_inj in E. unfold read_handler in E. destruct (cn_shutdown _); [injection E as <- <-; destruct H|].
    destruct x, h; injection E as <- <-; destruct H as [H|[]] || destruct H; try discriminate. injection H as <- <-. eauto.
  - destruct (w_transfer _ _ _) as [[c ow]|]; cbn [obind] in E; [|discriminate]. injection E as <- <-. exfalso. apply C. apply calm_writes.
  - apply ret_inj in E. unfold write_handler in E. destruct (w_complete _ _ _) as [[c ow]|]; [|injection E as <- <-; destruct H].
    destruct (cn_shutdown s); [injection E as <- <-; destruct H|].
    destruct ok; injection E as <- <-; apply in_app_or in H as [H|[H|[]]]; try discriminate H; apply in_map_iff in H as (y & K & _); discriminate K.
Qed.

Section Parts.
Context {W : Type}.
Context (handler : nat -> W -> expected (list N) -> W * list capi).
Context (pol : copy_policy).
Notation history := (history handler pol).
Notation tcp_history := (tcp_history handler pol).

Definition origin (e : tevent) (x : cevent) : Prop :=
  match x with
  | CApi a => e = TApi a
  | CRun => exists xs, e = TRun xs
  | CReceive d => exists r m xs, e = TRead r (RData d) m xs
  | CError _ => True
  | CExpire t => e = TExpire t
  | CFire t => exists xs, e = TFire t xs
  end.

Lemma step_origin : forall s e s' l, tcp_step handler pol s e = Ret (s', l) -> Forall (origin e) (channel_ins l).
Proof.
  assert (P : forall s q e xs s' l y, channel_turn handler pol s q e xs = Ret (s', l) -> origin y e -> Forall (origin y) (channel_ins l)).
  { intros s q e xs s' l y E O. destruct (channel_turn_views _ _ _ _ _ _ _ _ E) as (l' & -> & _ & A & _). views. rewrite A. repeat constructor. exact O. }
  assert (Q : forall s q e msg xs s' l y, conn_turn handler pol s q e msg xs = Ret (s', l) ->
            (forall r d, e = NRead r (RData d) -> exists m xs, y = TRead r (RData d) m xs) -> Forall (origin y) (channel_ins l)).
  { intros s q e msg xs s' l y E O.
    destruct (conn_turn_cases _ _ _ _ _ _ _ _ _ E) as [(c & os & _ & _ & _ & ->)|(c & os & cb & ce & l' & S1 & _ & B & _ & T & ->)].
    - views. constructor.
    - destruct (channel_turn_views _ _ _ _ _ _ _ _ T) as (l2 & E2 & _ & A & _). injection E2 as <-. views. rewrite A. repeat constructor.
      destruct B; [|exact Logic.I]. destruct (received_source _ _ _ _ g d S1) as (r & ->); [apply in_or_app; right; left; reflexivity|].
      destruct (O r d eq_refl) as (m & ys & ->). cbn. eauto. }
  intros s e s' l E. destruct e as [a|xs|t|t xs|ok msg|g ok msg|r x msg xs|w n|w ok msg]; cbn [tcp_step] in E.
  - eapply P; [exact E|reflexivity].
  - destruct (tc_order s) as [|[|] q]; [injection E as <- <-; constructor| |].
    + eapply P; [exact E|]. cbn. eauto.
    + eapply Q; [exact E|]. discriminate.
  - eapply P; [exact E|reflexivity].
  - eapply P; [exact E|]. cbn. eauto.
  - eapply Q; [exact E|]. discriminate.
  - eapply Q; [exact E|]. discriminate.
  - eapply Q; [exact E|]. intros r' d K. injection K as -> ->. eauto.
  - eapply Q; [exact E|]. discriminate.
  - eapply Q; [exact E|]. discriminate.
Qed.

Lemma run_origin : forall es s s' l, tcp_run handler pol s es = Ret (s', l) ->
  forall x, In x (channel_ins l) -> exists e, In e es /\ origin e x.
Proof.
  induction es as [|e es IH]; intros s s' l E x H; cbn [tcp_run] in E.
  - injection E as <- <-. destruct H.
  - destruct (tcp_step handler pol s e) as [[s1 l1]|] eqn:S1; cbn [obind] in E; [|discriminate].
    destruct (tcp_run handler pol s1 es) as [[s2 l2]|] eqn:R; cbn [obind] in E; [|discriminate]. injection E as <- <-.
    rewrite channel_ins_app in H. apply in_app_or in H as [H|H].
    + exists e. split; [left; reflexivity|]. exact (proj1 (Forall_forall _ _) (step_origin _ _ _ _ S1) _ H).
    + destruct (IH _ _ _ R _ H) as (y & Y & O). exists y. split; [right; exact Y|exact O].
Qed.

Lemma run_typed : forall es s s' l, Forall typed_tevent es -> tcp_run handler pol s es = Ret (s', l) -> Forall typed_cevent (channel_ins l).
Proof.
  intros es s s' l T E. apply Forall_forall. intros x H. destruct (run_origin _ _ _ _ E _ H) as (e & He & O).
  pose proof (proj1 (Forall_forall _ _) T _ He) as K. destruct x; try exact Logic.I. destruct O as (r & m & xs & ->). exact K.
Qed.

(** The channel's part of a history is a history of the channel, and the
    connection's part one of the connection. *)
Theorem channel_view : forall es s l, tcp_history es s l ->
  history (channel_ins l) (tc_channel s) (tc_user s) (channel_outs l).
Proof.
  intros es s l (buf & w0 & G & T & E). exists buf, w0. split; [exact G|]. split; [eapply run_typed; eauto|].
  destruct (run_views _ _ _ _ _ _ E) as [_ C]. exact C.
Qed.

Theorem conn_view : forall es s l, tcp_history es s l -> conn_run cconn_init (conn_ins l) = Ret (tc_conn s, conn_outs l).
Proof. intros es s l (buf & w0 & G & T & E). destruct (run_views _ _ _ _ _ _ E) as [C _]. apply trace_conn in C. exact C. Qed.

Lemma history_trace : forall es s l, tcp_history es s l -> trace cconn_init l (tc_conn s).
Proof. intros es s l (buf & w0 & G & T & E). destruct (run_views _ _ _ _ _ _ E) as [C _]. exact C. Qed.
End Parts.

(** ** Who follows whom *)
Definition wired (l : list mark) : Prop :=
  followed sends_frame is_sent l /\ preceded sends_frame is_nsend l /\
  followed calls_back is_callback l /\ preceded calls_back is_called_back l /\
  followed shuts_down is_tcp_shutdown l /\ preceded shuts_down is_nshutdown l.

Lemma followed_app : forall q p l m, followed q p l -> followed q p m -> followed q p (l ++ m).
Proof.
  intros q p l m A B a x b E P. apply split_app in E as [(b' & E & ->)|(a' & E & ->)].
  - destruct (A _ _ _ E P) as (m' & b2 & -> & K). cbn [app]. eauto.
  - exact (B _ _ _ E P).
Qed.

Lemma preceded_app : forall q p l m, preceded q p l -> preceded q p m -> preceded q p (l ++ m).
Proof.
  intros q p l m A B a x b E P. apply split_app in E as [(b' & E & _)|(a' & E & ->)].
  - exact (A _ _ _ E P).
  - destruct (B _ _ _ E P) as (a2 & m' & -> & K). rewrite app_assoc. eauto.
Qed.

Definition none (p : mark -> Prop) (l : list mark) : Prop := Forall (fun m => ~ p m) l.
Lemma followed_none : forall q p l, none p l -> followed q p l.
Proof. intros q p l H a x b -> P. exfalso. apply Forall_app in H as [_ H]. inversion H; contradiction. Qed.
Lemma preceded_none : forall q p l, none p l -> preceded q p l.
Proof. intros q p l H a x b -> P. exfalso. apply Forall_app in H as [_ H]. inversion H; contradiction. Qed.

Lemma followed_cons : forall (q : mark -> mark -> Prop) (p : mark -> Prop) x l, (p x -> exists y l', l = y :: l' /\ q x y) -> followed q p l -> followed q p (x :: l).
Proof.
  intros q p x l H F [|x' a] y b E P; cbn in E; injection E as -> E.
  - subst. exact (H P).
  - exact (F _ _ _ E P).
Qed.
(** [x] precedes the rest. *)
Definition preceded_by (q : mark -> mark -> Prop) (p : mark -> Prop) (x : mark) (l : list mark) : Prop :=
  forall a y b, l = a ++ y :: b -> p y -> exists a' z, x :: a = a' ++ [z] /\ q z y.
Lemma preceded_cons : forall (q : mark -> mark -> Prop) (p : mark -> Prop) x l, ~ p x -> preceded_by q p x l -> preceded q p (x :: l).
Proof.
  intros q p x l H F [|x' a] y b E P; cbn in E; injection E as -> E; [contradiction|]. exact (F _ _ _ E P).
Qed.
Lemma preceded_by_cons : forall (q : mark -> mark -> Prop) (p : mark -> Prop) x y l, (p y -> q x y) -> preceded_by q p y l -> preceded_by q p x (y :: l).
Proof.
  intros q p x y l H F [|x' a] z b E P; cbn in E; injection E as -> E.
  - exists [], x. split; [reflexivity|]. exact (H P).
  - destruct (F _ _ _ E P) as (a' & z' & E' & K). exists (x :: a'), z'. split; [|exact K]. cbn. rewrite E'. reflexivity.
Qed.
Lemma preceded_by_none : forall q p x l, none p l -> preceded_by q p x l.
Proof. intros q p x l H a y b -> P. exfalso. apply Forall_app in H as [_ H]. inversion H; contradiction. Qed.

Ltac nonep := unfold is_sent, is_nsend, is_callback, is_called_back, is_tcp_shutdown, is_nshutdown; intro;
  repeat match goal with H : ex _ |- _ => destruct H | H : _ \/ _ |- _ => destruct H | H : _ /\ _ |- _ => destruct H end; discriminate.

Lemma none_outs : forall o, none is_sent (map ConnOut o) /\ none is_nsend (map ConnOut o) /\ none is_called_back (map ConnOut o) /\
  none is_tcp_shutdown (map ConnOut o) /\ none is_nshutdown (map ConnOut o).
Proof.
  intro o. repeat split; apply Forall_forall; intros x H; apply in_map_iff in H as (y & <- & _); nonep.
Qed.
Lemma none_calm : forall o, Forall calm_out o -> none is_callback (map ConnOut o).
Proof.
  intros o C. apply Forall_forall. intros x H. apply in_map_iff in H as (y & <- & H). pose proof (proj1 (Forall_forall _ _) C _ H) as K.
  unfold is_callback. intros [E|(g & d & E)]; injection E as ->; exact K.
Qed.

Lemma wired_app : forall l m, wired l -> wired m -> wired (l ++ m).
Proof.
  intros l m (A & B & C & D & E & F) (A' & B' & C' & D' & E' & F').
  unfold wired. auto 10 using followed_app, preceded_app.
Qed.

Lemma none_one : forall p m, ~ p m -> none p [m].
Proof. repeat constructor. assumption. Qed.

Lemma wired_plain : forall m, ~ is_sent m -> ~ is_nsend m -> ~ is_callback m -> ~ is_called_back m -> ~ is_tcp_shutdown m -> ~ is_nshutdown m -> wired [m].
Proof. intros. unfold wired. repeat split; (apply followed_none || apply preceded_none); apply none_one; assumption. Qed.

Lemma wired_outs : forall o, Forall calm_out o -> wired (map ConnOut o).
Proof.
  intros o C. destruct (none_outs o) as (A & B & D & E & F). pose proof (none_calm o C) as G.
  unfold wired. repeat split; (apply followed_none || apply preceded_none); assumption.
Qed.

Lemma block_wired : forall c m c', block c m c' -> wired m.
Proof.
  intros c m c' B. destruct B as [c e P|c o P|c i u t f x c' o S C|c c' S|c e c' o P S C|c e c' o cb ce P S C K].
  - apply wired_plain; try nonep. intros (y & E & H). injection E as <-. destruct e; contradiction.
  - apply wired_plain; try nonep; [intros (? & ? & ? & ? & E)|intro E]; injection E as ->; exact P.
  - destruct (none_outs o) as (A1 & A2 & A3 & A4 & A5). pose proof (none_calm o C) as A6.
    split; [|split; [|split; [|split; [|split]]]].
    + apply followed_cons; [intros _; do 2 eexists; split; [reflexivity|]; exists i, u, t, f, x; auto|].
      apply followed_none. constructor; [nonep|exact A1].
    + apply preceded_cons; [nonep|]. apply preceded_by_cons; [intros _; exists i, u, t, f, x; auto|]. apply preceded_by_none. exact A2.
    + apply followed_none. constructor; [nonep|]. constructor; [nonep|exact A6].
    + apply preceded_none. constructor; [nonep|]. constructor; [nonep|exact A3].
    + apply followed_none. constructor; [nonep|]. constructor; [nonep|exact A4].
    + apply preceded_none. constructor; [nonep|]. constructor; [nonep|exact A5].
  - split; [|split; [|split; [|split; [|split]]]].
    + apply followed_none. constructor; [nonep|]. constructor; [nonep|constructor].
    + apply preceded_none. constructor; [nonep|]. constructor; [nonep|constructor].
    + apply followed_none. constructor; [nonep|]. constructor; [nonep|constructor].
    + apply preceded_none. constructor; [nonep|]. constructor; [nonep|constructor].
    + apply followed_cons; [intros _; do 2 eexists; split; [reflexivity|]; split; reflexivity|]. apply followed_none. constructor; [nonep|constructor].
    + apply preceded_cons; [nonep|]. apply preceded_by_cons; [intros _; split; reflexivity|]. apply preceded_by_none. constructor.
  - change (ConnIn e :: map ConnOut o) with ([ConnIn e] ++ map ConnOut o). apply wired_app; [|apply wired_outs; exact C].
    apply wired_plain; try nonep; [intros (d & x & E)|intro E]; injection E as ->; exact P.
  - change (ConnIn e :: ?x) with ([ConnIn e] ++ x). apply wired_app; [|apply wired_app; [apply wired_outs; exact C|]].
    + apply wired_plain; try nonep; [intros (d & x & E)|intro E]; injection E as ->; exact P.
    + assert (Q : calls_back (ConnOut cb) (ChannelIn ce)) by (destruct K; [left|right]; eauto).
      split; [|split; [|split; [|split; [|split]]]].
      * apply followed_none. constructor; [nonep|]. constructor; [nonep|constructor].
      * apply preceded_none. constructor; [nonep|]. constructor; [nonep|constructor].
      * apply followed_cons; [intros _; eauto|]. apply followed_none. constructor; [nonep|constructor].
      * apply preceded_cons; [nonep|]. apply preceded_by_cons; [intros _; exact Q|]. apply preceded_by_none. constructor.
      * apply followed_none. constructor; [nonep|]. constructor; [nonep|constructor].
      * apply preceded_none. constructor; [nonep|]. constructor; [nonep|constructor].
Qed.

Lemma wired_nil : wired [].
Proof. unfold wired. repeat split; (apply followed_none || apply preceded_none); constructor. Qed.

Theorem trace_wired : forall c l c', trace c l c' -> wired l.
Proof. intros c l c' T. induction T as [|c l c' m c'' T IH B]; [apply wired_nil|]. apply wired_app; [exact IH|]. eapply block_wired; eauto. Qed.

Theorem history_wired : forall {W : Type} (handler : nat -> W -> expected (list N) -> W * list capi) pol es s l, SpecClientTcp.tcp_history handler pol es s l -> wired l.
Proof. intros W handler pol es s l H. eapply trace_wired. eapply history_trace. exact H. Qed.

(** ** What is transmitted *)
Definition latest (l : list mark) (d : list N) : Prop :=
  exists a i u t f b, l = a ++ ChannelOut (Sent i u t f) :: b /\ sent_ids (channel_outs b) = [] /\ d = frame_data f.

Lemma latest_app : forall l m d, sent_ids (channel_outs m) = [] -> latest l d -> latest (l ++ m) d.
Proof.
  intros l m d H (a & i & u & t & f & b & -> & N & ->). exists a, i, u, t, f, (b ++ m). rewrite <- app_assoc. split; [reflexivity|].
  split; [|reflexivity]. proj_app. rewrite sent_app, N, H. reflexivity.
Qed.

Lemma send_buffer_start : forall s s' o, send_buffer s = (s', o) ->
  wr_buffer (cn_writer s') = wr_buffer (cn_writer s) /\
  forall w d, In (Write (WStarted w d)) o -> exists n, wr_buffer (cn_writer s) = Some (n, d).
Proof.
  intros s s' o E. unfold send_buffer in E. destruct (cn_shutdown s); [injection E as <- <-; split; [reflexivity|intros w d []]|].
  destruct (w_start _ _) as [c ow] eqn:S. injection E as <- <-. unfold w_start in S. cbn [cn_writer with_writer].
  destruct (wr_buffer (cn_writer s)) as [[n b]|] eqn:B; injection S as <- <-.
  - split; [reflexivity|]. cbn [map]. intros w d [H|[]]. injection H as _ <-. eauto.
  - split; [exact B|intros w d []].
Qed.

Lemma no_start : forall x w d, x <> Write (WStarted w d) -> ~ In (Write (WStarted w d)) [x].
Proof. intros x w d H [K|[]]. auto. Qed.

Lemma step_start : forall s e s' o, conn_step s e = Ret (s', o) -> plain_event e ->
  (wr_buffer (cn_writer s') = wr_buffer (cn_writer s) \/ wr_buffer (cn_writer s') = None) /\
  forall w d, In (Write (WStarted w d)) o -> exists n, wr_buffer (cn_writer s) = Some (n, d).
Proof.
  assert (K : forall s s' o, wr_buffer (cn_writer s') = wr_buffer (cn_writer s) -> (forall w d, ~ In (Write (WStarted w d)) o) ->
    (wr_buffer (cn_writer s') = wr_buffer (cn_writer s) \/ wr_buffer (cn_writer s') = None) /\
    forall w d, In (Write (WStarted w d)) o -> exists n, wr_buffer (cn_writer s) = Some (n, d)).
  { intros s s' o H N. split; [left; exact H|]. intros w d I. destruct (N _ _ I). }
  intros s e s' o E P. destruct e as [d' x| | |ok|g' ok|r x|w n|w ok]; try contradiction; cbn [conn_step] in E.
  - destruct (cn_queue s) as [|[|] q]; [injection E as <- <-; apply K; cbn; auto| |]; apply ret_inj in E.
    + unfold do_close in E. destruct (cn_shutdown _); [injection E as <- <-; apply K; cbn; auto|].
      cbv zeta in E. cbn [cn_socket with_status with_nqueue] in E. destruct (cn_socket s); injection E as <- <-; (refine (K _ _ _ _ _); [reflexivity|]); intros w d; try (intros []; fail).
      apply no_start. discriminate.
    + injection E as <- <-. apply K; cbn; auto.
  - destruct (cn_resolves s); [injection E as <- <-; apply K; cbn; auto|]. apply ret_inj in E. unfold resolve_handler in E.
    destruct (cn_shutdown _); [injection E as <- <-; apply K; cbn; auto|].
    destruct ok; cbn [negb] in E; injection E as <- <-; apply K; cbn; auto. intros w d [H|[]]. discriminate.
  - destruct (existsb _ _); [|injection E as <- <-; apply K; cbn; auto]. apply ret_inj in E. unfold connect_handler in E.
    destruct (cn_shutdown _); [injection E as <- <-; apply K; cbn; auto|].
    destruct ok; cbn [negb] in E.
    + destruct (send_buffer _) as [s1 o1] eqn:B. injection E as <- <-. apply send_buffer_start in B as [B1 B2]. rewrite begin_read_writer.
      split; [left; exact B1|]. intros w d [H|H]; [discriminate|]. destruct (B2 _ _ H) as (n & N). exists n. exact N.
    + injection E as <- <-. rewrite conn_close_writer. apply K; auto. intros w d [H|[]]. discriminate.
  - destruct (find_read _ _) as [h|]; [|injection E as <- <-; apply K; cbn; auto].
    destruct (possible h x); [|injection E as <- <-; apply K; cbn; auto].
    apply ret_inj in E. unfold read_handler in E. destruct (cn_shutdown _); [injection E as <- <-; apply K; cbn; auto|].
    assert (B : forall r' n', wr_buffer (cn_writer (begin_read (with_reads s r' n'))) = wr_buffer (cn_writer s)) by (intros; rewrite begin_read_writer; reflexivity).
    assert (C : forall r' n', wr_buffer (cn_writer (conn_close (with_reads s r' n'))) = wr_buffer (cn_writer s)) by (intros; rewrite conn_close_writer; reflexivity).
    destruct x, h; injection E as <- <-; (refine (K _ _ _ _ _); [apply B || apply C || reflexivity|]);
      intros w d; try (intros []; fail); apply no_start; discriminate.
  - destruct (w_transfer _ _ _) as [[c ow]|] eqn:T; cbn [obind] in E; [|discriminate]. injection E as <- <-. cbn [cn_writer with_writer].
    unfold w_transfer in T. destruct (find_op _ _) as [op|]; [|injection T as <- <-; apply (K s s); cbn; auto].
    destruct (_ || _); [injection T as <- <-; apply (K s s); cbn; auto|].
    destruct (match wr_buffer _ with Some _ => _ | None => _ end); [|discriminate].
    injection T as <- <-. split; [left; reflexivity|]. intros w1 d [H|[]]. discriminate.
  - apply ret_inj in E. unfold write_handler in E. destruct (w_complete _ _ _) as [[c ow]|] eqn:C; [|injection E as <- <-; apply K; cbn; auto].
    unfold w_complete in C. destruct (find_op _ _) as [op|]; [|discriminate].
    assert (N : forall w d, ~ In (Write (WStarted w d)) (map Write ow)).
    { intros w1 d H. apply in_map_iff in H as (y & Ey & H). injection Ey as ->.
      destruct ok; [destruct (w_taken op); [|discriminate]|]; injection C as <- <-; destruct H as [H|[]]; discriminate. }
    assert (N' : forall w d x, x <> Write (WStarted w d) -> ~ In (Write (WStarted w d)) (map Write ow ++ [x])).
    { intros w1 d x X H. apply in_app_or in H as [H|[H|[]]]; [exact (N _ _ H)|auto]. }
    destruct (cn_shutdown s); [injection E as <- <-; apply K; cbn; auto|].
    destruct ok; injection E as <- <-; rewrite ?conn_close_writer; cbn [cn_writer with_writer].
    + destruct (w_taken op); [|discriminate]. injection C as <- _. split; [right; reflexivity|].
      intros w1 d H. exfalso. eapply N'; [|exact H]. discriminate.
    + injection C as <- _. split; [left; reflexivity|]. intros w1 d H. exfalso. eapply N'; [|exact H]. discriminate.
Qed.

Lemma send_start : forall s data x s' o, conn_step s (NSend data x) = Ret (s', o) ->
  (wr_buffer (cn_writer s') = wr_buffer (cn_writer s) /\ cn_shutdown s = true \/ exists n, wr_buffer (cn_writer s') = Some (n, data)) /\
  forall w d, In (Write (WStarted w d)) o -> d = data.
Proof.
  intros s data x s' o E. cbn [conn_step] in E. apply ret_inj in E. unfold conn_send in E.
  destruct (cn_shutdown s) eqn:SD; [injection E as <- <-; split; [left; auto|intros w d []]|].
  cbn [cn_status with_writer cn_socket] in E.
  assert (N1 : forall w d y, y <> Write (WStarted w d) -> In (Write (WStarted w d)) [y] -> d = data).
  { intros w d y Y [H|[]]. contradiction. }
  destruct (cn_status s).
  - destruct (negb (su_address x)); [injection E as <- <-; split; [right; eexists; reflexivity|intros w d; apply N1; discriminate]|].
    destruct (negb (su_open x) || _); [injection E as <- <-; split; [right; eexists; reflexivity|intros w d; apply N1; discriminate]|].
    destruct (negb (su_bind x)); injection E as <- <-; (split; [right; eexists; reflexivity|intros w d; apply N1; discriminate]).
  - injection E as <- <-. split; [right; eexists; reflexivity|intros w d []].
  - apply send_buffer_start in E as [B1 B2]. cbn [cn_writer with_writer w_replace wr_buffer] in B1, B2. split; [right; eexists; exact B1|].
    intros w d H. destruct (B2 _ _ H) as (n & N). injection N as _ ->. reflexivity.
Qed.

Definition started_latest (l : list mark) : Prop :=
  forall a w d b, l = a ++ ConnOut (Write (WStarted w d)) :: b -> latest a d.
Definition buffer_latest (c : cconn) (l : list mark) : Prop :=
  dead c \/ cn_shutdown c = false /\ forall n d, wr_buffer (cn_writer c) = Some (n, d) -> latest l d.

Lemma step_alive : forall s e s' o, cn_shutdown s = false -> conn_step s e = Ret (s', o) -> cn_shutdown s' = false \/ dead s'.
Proof.
  intros s e s' o SD E. destruct e as [d' x| | |ok|g' ok|r x|w n|w ok]; cbn [conn_step] in E.
  - apply ret_inj in E. unfold conn_send in E. rewrite SD in E. cbn [cn_status with_writer cn_socket] in E. left. destruct (cn_status s).
    + destruct (negb (su_address x)); [injection E as <- <-; exact SD|].
      destruct (negb (su_open x) || _); [injection E as <- <-; exact SD|].
      destruct (negb (su_bind x)); injection E as <- <-; (exact SD || reflexivity).
    + injection E as <- <-. exact SD.
    + apply send_buffer_frame in E as (ow & _ & _ & _ & _ & _ & _ & _ & -> & _). exact SD.
  - injection E as <- <-. left. exact SD.
  - destruct (cn_queue s) as [|[|] q]; [injection E as <- <-; auto| |]; apply ret_inj in E.
    + unfold do_close in E. cbn [cn_shutdown with_nqueue] in E. rewrite SD in E. cbv zeta in E. cbn [cn_socket with_status with_nqueue] in E.
      left. destruct (cn_socket s); injection E as <- <-; (exact SD || reflexivity).
    + injection E as <- <-. right. split; [reflexivity|]. apply aborted_abort.
  - left. destruct (cn_resolves s); [injection E as <- <-; exact SD|]. apply ret_inj in E. unfold resolve_handler in E.
    destruct (cn_shutdown (with_resolves _ _)); [injection E as <- <-; exact SD|]. destruct ok; cbn [negb] in E; injection E as <- <-; (exact SD || reflexivity).
  - left. destruct (existsb _ _); [|injection E as <- <-; exact SD]. apply ret_inj in E. unfold connect_handler in E.
    cbn [cn_shutdown with_connects] in E. rewrite SD in E. destruct ok; cbn [negb] in E.
    + destruct (send_buffer _) as [s1 o1] eqn:B. injection E as <- <-. apply send_buffer_frame in B as (ow & _ & _ & _ & _ & _ & _ & _ & B & _).
      unfold begin_read. rewrite B. cbn [cn_shutdown with_status with_connects]. rewrite SD. cbn. rewrite ?B. (exact SD || reflexivity).
    + injection E as <- <-. unfold conn_close. cbn [cn_shutdown with_connects]. rewrite SD. (exact SD || reflexivity).
  - left. destruct (find_read _ _) as [h|]; [|injection E as <- <-; exact SD].
    destruct (possible h x); [|injection E as <- <-; exact SD].
    apply ret_inj in E. unfold read_handler in E. cbn [cn_shutdown with_reads] in E. rewrite SD in E.
    destruct x, h; injection E as <- <-; unfold begin_read, conn_close; cbn [cn_shutdown with_reads]; rewrite ?SD; (exact SD || reflexivity).
  - left. destruct (w_transfer _ _ _) as [[c ow]|] eqn:T; cbn [obind] in E; [|discriminate]. injection E as <- <-. exact SD.
  - left. apply ret_inj in E. unfold write_handler in E. destruct (w_complete _ _ _) as [[c ow]|] eqn:C; [|injection E as <- <-; exact SD].
    rewrite SD in E. destruct ok; injection E as <- <-; unfold conn_close; cbn [cn_shutdown with_writer]; rewrite ?SD; (exact SD || reflexivity).
Qed.

Lemma started_quiet : forall l m, started_latest l -> (forall w d, ~ In (ConnOut (Write (WStarted w d))) m) -> started_latest (l ++ m).
Proof.
  intros l m L N a w d b E. apply split_app in E as [(b' & E & _)|(a' & E & _)]; [eapply L; eauto|].
  exfalso. apply (N w d). rewrite E. apply in_or_app. right. left. reflexivity.
Qed.

Lemma in_connouts : forall x o, In (ConnOut x) (map ConnOut o) -> In x o.
Proof. intros x o H. apply in_map_iff in H as (y & E & H). injection E as <-. exact H. Qed.

(** A step of the connection whose transmissions are of the latest frame. *)
Lemma started_outs : forall l pre o post, started_latest l -> sent_ids (channel_outs (pre ++ map ConnOut o)) = [] ->
  (forall w d, ~ In (ConnOut (Write (WStarted w d))) pre) -> (forall w d, ~ In (ConnOut (Write (WStarted w d))) post) ->
  (forall w d, In (Write (WStarted w d)) o -> latest l d) -> started_latest (l ++ pre ++ map ConnOut o ++ post).
Proof.
  intros l pre o post L N P Q H a w d b E. apply split_app in E as [(b' & E & _)|(a' & E & Ea)]; [eapply L; eauto|]. subst a.
  rewrite channel_outs_app, map_channel_outs, app_nil_r in N.
  apply split_app in E as [(b' & E & _)|(a2 & E & ->)].
  - exfalso. apply (P w d). rewrite E. apply in_or_app. right. left. reflexivity.
  - apply split_app in E as [(b' & E & _)|(a3 & E & _)].
    + apply latest_app; [|apply (H w), in_connouts; rewrite E; apply in_or_app; right; left; reflexivity].
      proj_app. rewrite sent_app, N. cbn [app].
      assert (A : exists o1, a2 = map ConnOut o1).
      { apply map_eq_app in E as (o1 & o2 & _ & <- & _). eauto. }
      destruct A as (o1 & ->). rewrite map_channel_outs. reflexivity.
    + exfalso. apply (Q w d). rewrite E. apply in_or_app. right. left. reflexivity.
Qed.

Theorem trace_latest : forall c l c', trace c l c' -> cn_writer c = writer_init -> cn_shutdown c = false -> started_latest l /\ buffer_latest c' l.
Proof.
  intros c l c' T. induction T as [c|c l c' m c'' T IH B]; intros C0 C1.
  - split; [intros [|? a] w d b E; discriminate|]. right. split; [exact C1|]. intros n d E. rewrite C0 in E. discriminate.
  - destruct (IH C0 C1) as [L BL]. clear IH T C0 C1.
    destruct BL as [DD|[SD BL]].
    { (* shut down *)
      assert (D2 : dead c'' /\ forall w d, ~ In (ConnOut (Write (WStarted w d))) m).
      { destruct B as [c' e P|c' o P|c' i u t f x c'' o S C|c' c'' S|c' e c'' o P S C|c' e c'' o cb ce P S C K];
          [split; [exact DD|intros w d [H|[]]; discriminate]|split; [exact DD|intros w d [H|[]]; discriminate]| | | |].
        - destruct (dead_step c' (NSend (frame_data f) x) DD) as (c2 & E & D). rewrite E in S. injection S as <- <-.
          split; [exact D|]. intros w d [H|[H|[]]]; discriminate.
        - destruct (dead_step c' NShutdown DD) as (c2 & E & D). rewrite E in S. injection S as <-.
          split; [exact D|]. intros w d [H|[H|[]]]; discriminate.
        - destruct (dead_step c' e DD) as (c2 & E & D). rewrite E in S. injection S as <- <-.
          split; [exact D|]. intros w d [H|[]]; discriminate.
        - destruct (dead_step c' e DD) as (c2 & E & D). rewrite E in S. injection S as _ S. destruct o; discriminate. }
      destruct D2 as [D2 N]. split; [apply started_quiet; assumption|left; exact D2]. }
    destruct B as [c' e P|c' o P|c' i u t f x c'' o S C|c' c'' S|c' e c'' o P S C|c' e c'' o cb ce P S C K].
    + split; [apply started_quiet; [exact L|intros w d [H|[]]; discriminate]|]. right. split; [exact SD|].
      intros n d E. apply latest_app; [reflexivity|eapply BL; eauto].
    + split; [apply started_quiet; [exact L|intros w d [H|[]]; discriminate]|]. right. split; [exact SD|].
      intros n d E. apply latest_app; [|eapply BL; eauto].
      destruct o; try contradiction; reflexivity.
    + destruct (send_start _ _ _ _ _ S) as [S1 S2].
      assert (LT : latest (l ++ [ChannelOut (Sent i u t f)]) (frame_data f)).
      { exists l, i, u, t, f, []. split; [reflexivity|]. split; reflexivity. }
      change (ChannelOut (Sent i u t f) :: ConnIn (NSend (frame_data f) x) :: map ConnOut o) with
        ([ChannelOut (Sent i u t f)] ++ ConnIn (NSend (frame_data f) x) :: map ConnOut o). rewrite app_assoc.
      assert (L1 : started_latest (l ++ [ChannelOut (Sent i u t f)])) by (apply started_quiet; [exact L|intros w d [H|[]]; discriminate]).
      split.
      * change (ConnIn (NSend (frame_data f) x) :: map ConnOut o) with ([ConnIn (NSend (frame_data f) x)] ++ map ConnOut o).
        rewrite <- (app_nil_r (map ConnOut o)). apply started_outs; [exact L1| | | |].
        -- proj_app. rewrite map_channel_outs. reflexivity.
        -- intros w d [H|[]]; discriminate.
        -- intros w d [].
        -- intros w d H. rewrite (S2 _ _ H). exact LT.
      * destruct (step_alive _ _ _ _ SD S) as [SD2|D2]; [right; split; [exact SD2|]|left; exact D2].
        intros n d E. destruct S1 as [[_ S1]|(n' & S1)]; [congruence|].
        rewrite S1 in E. injection E as _ <-. apply latest_app; [|exact LT]. views. reflexivity.
    + split; [apply started_quiet; [exact L|intros w d [H|[H|[]]]; discriminate]|].
      cbn [conn_step] in S. injection S as <-. right. split; [exact SD|]. intros n d E. apply latest_app; [reflexivity|eapply BL; exact E].
    + destruct (step_start _ _ _ _ S P) as [S1 S2]. split.
      * change (ConnIn e :: map ConnOut o) with ([ConnIn e] ++ map ConnOut o). rewrite <- (app_nil_r (map ConnOut o)). apply started_outs; [exact L| | | |].
        -- proj_app. rewrite map_channel_outs. reflexivity.
        -- intros w d [H|[]]; discriminate.
        -- intros w d [].
        -- intros w d H. destruct (S2 _ _ H) as (n & N). eapply BL; eauto.
      * destruct (step_alive _ _ _ _ SD S) as [SD2|D2]; [right; split; [exact SD2|]|left; exact D2].
        intros n d E. apply latest_app; [views; reflexivity|]. destruct S1 as [S1|S1]; rewrite S1 in E; [eapply BL; eauto|discriminate].
    + destruct (step_start _ _ _ _ S P) as [S1 S2]. split.
      * change (started_latest (l ++ [ConnIn e] ++ map ConnOut o ++ [ConnOut cb; ChannelIn ce])). apply started_outs; [exact L| | | |].
        -- proj_app. rewrite map_channel_outs. reflexivity.
        -- intros w d [H|[]]; discriminate.
        -- intros w d [H|[H|[]]]; [|discriminate]. injection H as ->. inversion K.
        -- intros w d H. destruct (S2 w d) as (n & N); [apply in_or_app; auto|]. eapply BL; eauto.
      * destruct (step_alive _ _ _ _ SD S) as [SD2|D2]; [right; split; [exact SD2|]|left; exact D2].
        intros n d E. apply latest_app; [views; destruct K; reflexivity|]. destruct S1 as [S1|S1]; rewrite S1 in E; [eapply BL; eauto|discriminate].
Qed.
