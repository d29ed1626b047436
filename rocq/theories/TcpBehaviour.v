(** Proofs about ClientTcp.v: undefined behaviour, failures, completion, shutdown. *)
From Verif Require Import Prelude Ser4 Messages Mbap SpecPdu SpecMbap Client SpecClient ClientFacts ClientLemmas ClientShutdown ClientResponses ClientOutcomes
  AsyncWrite ClientConn SpecConn WriteFacts ConnFacts ConnRecover ConnStream ClientTcp SpecClientTcp TcpFacts TcpWire TcpOrder TcpLemmas.
From Coq Require Import Lia.

(** ** A connection that is not being shut down *)
Definition nclear (s : cconn) : Prop := cn_shutdown s = false /\ ~ In NDoShutdown (cn_queue s).

Lemma nclear_close : forall s, nclear s -> nclear (conn_close s).
Proof.
  intros s [A B]. unfold conn_close. rewrite A. split; [exact A|]. cbn. intro K. apply in_app_or in K as [K|[K|[]]]; [auto|discriminate].
Qed.
Lemma nclear_read : forall s, nclear s -> nclear (begin_read s).
Proof. intros s [A B]. unfold begin_read. rewrite A. split; [exact A|exact B]. Qed.
Lemma nclear_buffer : forall s s' o, nclear s -> send_buffer s = (s', o) -> nclear s'.
Proof. intros s s' o [A B] E. apply send_buffer_frame in E as (ow & _ & _ & _ & _ & _ & _ & Q & SD & _). split; [rewrite SD; exact A|rewrite Q; exact B]. Qed.

Lemma nclear_step : forall s e s' o, nclear s -> e <> NShutdown -> conn_step s e = Ret (s', o) -> nclear s'.
Proof.
  intros s e s' o C N E. pose proof C as [A B]. destruct e as [d x| | |ok|g ok|r x|w n|w ok]; cbn [conn_step] in E.
  - apply ret_inj in E. unfold conn_send in E. rewrite A in E. cbn [cn_status with_writer cn_socket] in E. destruct (cn_status s).
    + destruct (negb (su_address x)); [injection E as <- <-; exact C|].
      destruct (negb (su_open x) || _); [injection E as <- <-; exact C|].
      destruct (negb (su_bind x)); injection E as <- <-; exact C.
    + injection E as <- <-. exact C.
    + eapply nclear_buffer; [|exact E]. exact C.
  - contradiction.
  - destruct (cn_queue s) as [|[|] q] eqn:Q; [injection E as <- <-; exact C| |destruct B; left; reflexivity].
    apply ret_inj in E. unfold do_close in E. cbn [cn_shutdown with_nqueue] in E. rewrite A in E. cbv zeta in E. cbn [cn_socket with_status with_nqueue] in E.
    assert (K : ~ In NDoShutdown q) by (intro K; apply B; right; exact K).
    destruct (cn_socket s); injection E as <- <-; split; [exact A|exact K|exact A|exact K].
  - destruct (cn_resolves s); [injection E as <- <-; exact C|]. apply ret_inj in E. unfold resolve_handler in E.
    cbn [cn_shutdown with_resolves] in E. rewrite A in E. destruct ok; cbn [negb] in E; injection E as <- <-; exact C.
  - destruct (existsb _ _); [|injection E as <- <-; exact C]. apply ret_inj in E. unfold connect_handler in E.
    cbn [cn_shutdown with_connects] in E. rewrite A in E. destruct ok; cbn [negb] in E.
    + destruct (send_buffer _) as [s1 o1] eqn:Bf. injection E as <- <-. apply nclear_read. eapply nclear_buffer; [|exact Bf]. exact C.
    + injection E as <- <-. apply nclear_close. exact C.
  - destruct (find_read _ _) as [h|]; [|injection E as <- <-; exact C].
    destruct (possible h x); [|injection E as <- <-; exact C].
    apply ret_inj in E. unfold read_handler in E. cbn [cn_shutdown with_reads] in E. rewrite A in E.
    destruct x, h; injection E as <- <-; try apply nclear_read; try apply nclear_close; exact C.
  - destruct (w_transfer _ _ _) as [[c ow]|]; cbn [obind] in E; [|discriminate]. injection E as <- <-. exact C.
  - apply ret_inj in E. unfold write_handler in E. destruct (w_complete _ _ _) as [[c ow]|]; [|injection E as <- <-; exact C].
    rewrite A in E. destruct ok; injection E as <- <-; try apply nclear_close; exact C.
Qed.

Lemma nclear_run : forall es s s' os, conn_run s es = Ret (s', os) -> ~ In NShutdown es -> nclear s -> nclear s'.
Proof.
  induction es as [|e es IH]; intros s s' os E N C; cbn [conn_run] in E; [injection E as <- <-; exact C|].
  destruct (conn_step s e) as [[s1 o1]|] eqn:S1; cbn [obind] in E; [|discriminate].
  destruct (conn_run s1 es) as [[s2 o2]|] eqn:R; cbn [obind] in E; [|discriminate]. injection E as <- <-.
  eapply IH; [exact R|intro K; apply N; right; exact K|]. eapply nclear_step; [exact C| |exact S1]. intros ->. apply N. left. reflexivity.
Qed.

Section Tcp.
Context {W : Type}.
Context (handler : nat -> W -> expected (list N) -> W * list capi).
Context (pol : copy_policy).
Notation history := (history handler pol).
Notation tcp_history := (tcp_history handler pol).
Notation tcp_run := (tcp_run handler pol).
Notation tcp_step := (tcp_step handler pol).

(** ** Undefined behaviour *)
Lemma channel_turn_total : forall es cs s q e xs, history es (tc_channel s) (tc_user s) cs -> typed_cevent e ->
  exists s' l, channel_turn handler pol s q e xs = Ret (s', l).
Proof.
  intros es cs s q e xs H T. destruct (history_extend _ _ _ _ _ _ _ H T) as (ch & w & os & E & _). unfold channel_turn. rewrite E. cbn [obind].
  destruct (to_conn_total os xs (tc_conn s)) as (c & l & ->). cbn [obind]. eauto.
Qed.

Lemma conn_turn_total : forall es cs s q e msg xs, history es (tc_channel s) (tc_user s) cs ->
  (forall r d, e = NRead r (RData d) -> bytes d) -> conn_step (tc_conn s) e <> UB ->
  exists s' l, conn_turn handler pol s q e msg xs = Ret (s', l).
Proof.
  intros es cs s q e msg xs H T N. unfold conn_turn. destruct (conn_step (tc_conn s) e) as [[c os]|] eqn:S1; [|destruct (N eq_refl)].
  cbn [obind]. cbv zeta. fold (before_callbacks s q e c).
  destruct (callback_last _ _ _ _ S1) as [C|(o1 & cb & -> & C & K)].
  - rewrite (callbacks_calm _ _ _ _ _ _ C). cbn [obind]. eauto.
  - rewrite callbacks_app, (callbacks_calm _ _ _ _ _ _ C). cbn [obind callbacks].
    destruct cb; try (exfalso; apply K; exact Logic.I).
    + destruct (channel_turn_total es cs (before_callbacks s q e c) (tc_order (before_callbacks s q e c)) (CReceive data) xs H) as (s' & l & ->).
      * destruct (received_source _ _ _ _ g data S1) as (r & ->); [apply in_or_app; right; left; reflexivity|]. eapply T; eauto.
      * cbn [obind]. eauto.
    + destruct (channel_turn_total es cs (before_callbacks s q e c) (tc_order (before_callbacks s q e c)) (CError msg) xs H Logic.I) as (s' & l & ->). cbn [obind]. eauto.
Qed.

Theorem undefined_source : forall es s l e, tcp_history es s l -> typed_tevent e -> tcp_step s e = UB ->
  exists w n, e = TTransfer w n /\ conn_step (tc_conn s) (NTransfer w n) = UB.
Proof.
  intros es s l e H T E. pose proof (channel_view _ _ _ _ _ H) as HC.
  assert (P : forall q x xs, typed_cevent x -> channel_turn handler pol s q x xs = UB -> False).
  { intros q x xs Tx E'. destruct (channel_turn_total _ _ s q x xs HC Tx) as (s' & l' & K). congruence. }
  assert (Q : forall q x m xs, (forall r d, x = NRead r (RData d) -> bytes d) -> conn_step (tc_conn s) x <> UB -> conn_turn handler pol s q x m xs = UB -> False).
  { intros q x m xs Tx N E'. destruct (conn_turn_total _ _ s q x m xs HC Tx N) as (s' & l' & K). congruence. }
  destruct e as [a|xs|t|t xs|ok msg|g ok msg|r x msg xs|w n|w ok msg]; cbn [ClientTcp.tcp_step] in E.
  - exfalso. eapply P; [|exact E]. exact Logic.I.
  - exfalso. destruct (tc_order s) as [|[|] q]; [discriminate| |].
    + eapply P; [|exact E]. exact Logic.I.
    + eapply Q; [| |exact E]; [discriminate|]. cbn [conn_step]. destruct (cn_queue (tc_conn s)) as [|[|] q0]; discriminate.
  - exfalso. eapply P; [|exact E]. exact Logic.I.
  - exfalso. eapply P; [|exact E]. exact Logic.I.
  - exfalso. eapply Q; [| |exact E]; [discriminate|]. cbn [conn_step]. destruct (cn_resolves (tc_conn s)); discriminate.
  - exfalso. eapply Q; [| |exact E]; [discriminate|]. cbn [conn_step]. destruct (existsb _ _); discriminate.
  - exfalso. eapply Q; [| |exact E]; [intros r0 d K; injection K as -> ->; exact T|]. cbn [conn_step].
    destruct (find_read _ _) as [h|]; [destruct (possible h x)|]; discriminate.
  - exists w, n. split; [reflexivity|]. destruct (conn_step (tc_conn s) (NTransfer w n)) eqn:S1; [|reflexivity]. exfalso.
    eapply Q; [| |exact E]; [discriminate|]. rewrite S1. discriminate.
  - exfalso. eapply Q; [| |exact E]; discriminate.
Qed.

Lemma always_join : forall P es es' s s1 o1, conn_run s es = Ret (s1, o1) -> always P s es -> always P s1 es' -> always P s (es ++ es').
Proof.
  intros P. induction es as [|e es IH]; intros es' s s1 o1 E A B; cbn [conn_run always app] in *.
  - injection E as <- <-. exact B.
  - destruct A as [A A']. split; [exact A|]. intros s2 o2 S2. rewrite S2 in E. cbn [obind] in E.
    destruct (conn_run s2 es) as [[s3 o3]|] eqn:R; cbn [obind] in E; [|discriminate]. injection E as <- <-. eapply IH; eauto.
Qed.

Theorem settled_defined : forall es s l e, tcp_history es s l -> typed_tevent e -> always writes_settled cconn_init (conn_ins l) ->
  exists s' l', tcp_step s e = Ret (s', l').
Proof.
  intros es s l e H T A. destruct (tcp_step s e) as [[s' l']|] eqn:E; [eauto|]. exfalso.
  destruct (undefined_source _ _ _ _ H T E) as (w & n & -> & U). pose proof (conn_view _ _ _ _ _ H) as V.
  destruct (client_buffers_alive (conn_ins l ++ [NTransfer w n])) as (s2 & o2 & R).
  - eapply always_join; [exact V|exact A|]. split; [exact Logic.I|]. intros s' o _. exact Logic.I.
  - apply ConnFacts.run_app in R as (s1 & o1 & o3 & R1 & R2 & _). rewrite V in R1. injection R1 as <- <-. cbn [conn_run] in R2. rewrite U in R2. discriminate.
Qed.

(** ** Failures *)
Lemma shutdown_from_channel : forall es s l, tcp_history es s l -> ~ In (ChannelOut TcpShutdown) l ->
  ~ In NShutdown (conn_ins l) /\ nclear (tc_conn s).
Proof.
  intros es s l H N.
  assert (NS : ~ In NShutdown (conn_ins l)).
  { intro K. apply in_conn_ins in K. apply in_split in K as (a & b & E). pose proof (trace_wired _ _ _ (history_trace _ _ _ _ _ H)) as (_ & _ & _ & _ & _ & P).
    destruct (P _ _ _ E eq_refl) as (a' & m' & -> & -> & _). apply N. rewrite E, <- app_assoc. apply in_or_app. right. left. reflexivity. }
  split; [exact NS|].
  pose proof (conn_view _ _ _ _ _ H) as V. eapply nclear_run; [exact V|exact NS|]. split; [reflexivity|intros []].
Qed.

Lemma failure_step : forall c e msg ne, nclear c -> fails c e msg ->
  match e with
  | TResolved ok _ => ne = NResolved ok
  | TConnected g ok _ => ne = NConnected g ok
  | TRead r x _ _ => ne = NRead r x
  | TWritten w ok _ => ne = NWritten w ok
  | _ => False
  end -> exists c' o, conn_step c ne = Ret (c', o) /\ In Failed o.
Proof.
  intros c e msg ne [A _] F K. destruct e as [a|xs|t|t xs|ok m|g ok m|r x m xs|w n|w ok m]; try contradiction; subst ne; cbn [fails conn_step] in *.
  - destruct ok; [contradiction|]. destruct F as [_ F]. destruct (cn_resolves c) as [|n]; [contradiction|].
    unfold resolve_handler. cbn [cn_shutdown with_resolves]. rewrite A. cbn [negb]. do 2 eexists. split; [reflexivity|left; reflexivity].
  - destruct ok; [contradiction|]. destruct F as [_ F]. rewrite (existsb_in _ _ F). unfold connect_handler. cbn [cn_shutdown with_connects]. rewrite A. cbn [negb].
    do 2 eexists. split; [reflexivity|left; reflexivity].
  - destruct x; try contradiction. destruct F as [_ F]. destruct (find_read (cn_reads c) r) as [h|]; [|contradiction].
    assert (P : possible h RError = true) by (destruct h; reflexivity). rewrite P. unfold read_handler. cbn [cn_shutdown with_reads]. rewrite A.
    destruct h; do 2 eexists; (split; [reflexivity|left; reflexivity]).
  - destruct ok; [contradiction|]. destruct F as [_ F]. unfold write_handler, w_complete. destruct (find_op _ _) as [op|]; [|contradiction].
    rewrite A. do 2 eexists. split; [reflexivity|]. apply in_or_app. right. left. reflexivity.
Qed.

(** The failure is reported to the channel, in the same turn. *)
Theorem failure_reported : forall es s l e msg s' l', tcp_history es s l -> ~ In (ChannelOut TcpShutdown) l -> fails (tc_conn s) e msg ->
  tcp_step s e = Ret (s', l') ->
  exists q xs c o l2, conn_step (tc_conn s) q = Ret (c, o ++ [Failed]) /\
    channel_turn handler pol (before_callbacks s (tc_order s) q c) (tc_order (before_callbacks s (tc_order s) q c)) (CError msg) xs = Ret (s', ChannelIn (CError msg) :: l2) /\
    l' = ConnIn q :: map ConnOut o ++ [ConnOut Failed; ChannelIn (CError msg)] ++ l2 /\
    (forall ok, q = NResolved ok -> exists m, e = TResolved ok m) /\ q <> NRun.
Proof.
  intros es s l e msg s' l' H N F E. destruct (shutdown_from_channel _ _ _ H N) as [_ C].
  assert (P : forall q m xs, m = msg -> q <> NRun -> (forall ok, q = NResolved ok -> exists m, e = TResolved ok m) -> (exists c o, conn_step (tc_conn s) q = Ret (c, o) /\ In Failed o) ->
            conn_turn handler pol s (tc_order s) q m xs = Ret (s', l') ->
    exists q xs c o l2, conn_step (tc_conn s) q = Ret (c, o ++ [Failed]) /\
    channel_turn handler pol (before_callbacks s (tc_order s) q c) (tc_order (before_callbacks s (tc_order s) q c)) (CError msg) xs = Ret (s', ChannelIn (CError msg) :: l2) /\
    l' = ConnIn q :: map ConnOut o ++ [ConnOut Failed; ChannelIn (CError msg)] ++ l2 /\
    (forall ok, q = NResolved ok -> exists m, e = TResolved ok m) /\ q <> NRun).
  { intros q m xs -> NR RS (c & o & S1 & FO) E'.
    destruct (conn_turn_cases _ _ _ _ _ _ _ _ _ E') as [(c' & os & S2 & CO & _)|(c' & os & cb & ce & l2 & S2 & CO & B & M & T & ->)].
    - rewrite S1 in S2. injection S2 as <- <-. exfalso. exact (proj1 (Forall_forall _ _) CO _ FO).
    - rewrite S1 in S2. injection S2 as <- ->. apply in_app_or in FO as [FO|[->|[]]]; [exfalso; exact (proj1 (Forall_forall _ _) CO _ FO)|].
      inversion B; subst. rewrite (M _ eq_refl) in *. exists q, xs, c, os, l2. auto 10. }
  destruct e as [a|xs|t|t xs|ok m|g ok m|r x m xs|w n|w ok m]; try contradiction; cbn [ClientTcp.tcp_step] in E.
  - eapply P; [| | | |exact E]; [destruct ok; [destruct F|apply F]|discriminate|intros k K; injection K as ->; eauto|]. eapply failure_step; [exact C|exact F|reflexivity].
  - eapply P; [| | | |exact E]; [destruct ok; [destruct F|apply F]|discriminate|discriminate|]. eapply failure_step; [exact C|exact F|reflexivity].
  - eapply P; [| | | |exact E]; [destruct x; try destruct F; assumption|discriminate|discriminate|]. eapply failure_step; [exact C|exact F|reflexivity].
  - eapply P; [| | | |exact E]; [destruct ok; [destruct F|apply F]|discriminate|discriminate|]. eapply failure_step; [exact C|exact F|reflexivity].
Qed.

Lemma to_conn_outs : forall os xs c c' l, to_conn c os xs = Ret (c', l) -> channel_outs l = os /\ channel_ins l = [].
Proof.
  induction os as [|o os IH]; intros xs c c' l E; cbn [to_conn] in E.
  - injection E as <- <-. split; reflexivity.
  - destruct o as [i k|i u t f|i t d|i r|];
      try (destruct (to_conn c os xs) as [[c1 l1]|] eqn:R; cbn [obind] in E; [|discriminate]; injection E as <- <-; destruct (IH _ _ _ _ R) as [A B]; views; rewrite A, B; split; reflexivity).
    + cbv zeta in E. destruct (conn_step c _) as [[c1 o1]|] eqn:S1; cbn [obind] in E; [|discriminate].
      destruct (to_conn c1 os (tl xs)) as [[c2 l1]|] eqn:R; cbn [obind] in E; [|discriminate]. injection E as <- <-. destruct (IH _ _ _ _ R) as [A B]. views. rewrite A, B. split; reflexivity.
    + destruct (conn_step c NShutdown) as [[c1 o1]|] eqn:S1; cbn [obind] in E; [|discriminate].
      destruct (to_conn c1 os xs) as [[c2 l1]|] eqn:R; cbn [obind] in E; [|discriminate]. injection E as <- <-. destruct (IH _ _ _ _ R) as [A B]. views. rewrite A, B. split; reflexivity.
Qed.

Lemma channel_turn_outs : forall s q e xs s' l, channel_turn handler pol s q e xs = Ret (s', l) ->
  client_step handler pol (tc_channel s) (tc_user s) e = Ret (tc_channel s', tc_user s', channel_outs l) /\ channel_ins l = [e].
Proof.
  intros s q e xs s' l E. unfold channel_turn in E. destruct (client_step _ _ _ _ e) as [[[ch w] os]|] eqn:S1; cbn [obind] in E; [|discriminate].
  destruct (to_conn _ os xs) as [[c l1]|] eqn:R; cbn [obind] in E; [|discriminate]. injection E as <- <-. cbn [tc_channel tc_user].
  destruct (to_conn_outs _ _ _ _ _ R) as [A B]. views. rewrite A, B. split; reflexivity.
Qed.

Theorem failure_completes : forall es s l e msg s' l' i, tcp_history es s l -> ~ In (ChannelOut TcpShutdown) l -> fails (tc_conn s) e msg ->
  tcp_step s e = Ret (s', l') -> In i (called_ids (channel_outs l)) -> ~ In i (completed_ids (channel_outs l)) ->
  In (ChannelOut (Completed i (Error (EConnection msg)))) l' \/ In i (qids (cc_queue (tc_channel s))).
Proof.
  intros es s l e msg s' l' i H N F E Hc Hn. destruct (failure_reported _ _ _ _ _ _ _ H N F E) as (q & xs & c & o & l2 & _ & T & -> & _).
  apply channel_turn_outs in T as [T _]. pose proof (channel_view _ _ _ _ _ H) as HC.
  assert (NC : ~ In TcpShutdown (channel_outs l)) by (rewrite in_channel_outs; exact N).
  destruct (error_fails_all _ _ _ _ _ _ _ _ _ _ HC T NC) as (_ & _ & _ & A & _).
  destruct (A i Hc Hn) as [K|K]; [left|right; exact K]. revert K. views. intro K. apply in_channel_outs in K.
  right. apply in_or_app. right. right. right. exact K.
Qed.

(** ** Completion *)
Theorem completed_exactly_once : forall es s l i, no_shutdown_handler handler -> ~ In (TApi Shutdown) es -> tcp_history es s l ->
  tc_order s = [] -> cc_armed (tc_channel s) = [] -> cc_expired (tc_channel s) = [] ->
  In i (called_ids (channel_outs l)) -> count_occ Nat.eq_dec (completed_ids (channel_outs l)) i = 1%nat.
Proof.
  intros es s l i NH N H O A X C. pose proof (history_ordered _ _ _ _ _ H) as [O1 _]. rewrite O in O1. unfold turns in O1. cbn in O1.
  assert (Q : quiescent (tc_channel s)) by (split; [destruct (cc_queue (tc_channel s)); [reflexivity|discriminate]|auto]).
  refine (exactly_once _ NH _ _ _ _ _ _ (channel_view _ _ _ _ _ H) Q i C).
  intro K. destruct H as (buf & w0 & _ & _ & R). destruct (run_origin _ _ _ _ _ _ R _ K) as (e & He & Oe). cbn in Oe. subst e. contradiction.
Qed.
End Tcp.
