(** Proofs about ClientTcp.v: responses on a new connection, and reconnecting. *)
From Verif Require Import Prelude Ser4 Messages Mbap SpecPdu SpecMbap Client SpecClient ClientFacts ClientLemmas ClientShutdown ClientResponses ClientOutcomes
  AsyncWrite ClientConn SpecConn WriteFacts ConnFacts ConnRecover ConnStream ClientTcp SpecClientTcp TcpFacts TcpWire TcpOrder TcpLemmas TcpBehaviour TcpShutdown.
From Coq Require Import Lia.

(** ** The bytes of the current connection *)
Lemma stream_app : forall a b, stream (a ++ b) =
  fold_left (fun acc e => match e with CReceive d => acc ++ d | CError _ => [] | _ => acc end) b (stream a).
Proof. intros. unfold stream. apply fold_left_app. Qed.

Lemma stream_plain : forall a e, plain_in e -> stream (a ++ [e]) = stream a.
Proof. intros a e P. rewrite stream_app. destruct e; try reflexivity; destruct P. Qed.

Definition gathered (os : list noutput) : list N := List.concat (map snd (recent os)).

Lemma gathered_calm : forall a o, Forall calm_out o -> gathered (a ++ o) = gathered a.
Proof. intros a o C. unfold gathered. rewrite recent_quiet; [reflexivity|exact C]. Qed.

Lemma trace_stream : forall c l c', trace c l c' -> stream (channel_ins l) = gathered (conn_outs l).
Proof.
  intros c l c' T. induction T as [c|c l c' m c'' T IH B]; [reflexivity|]. rewrite channel_ins_app, conn_outs_app.
  destruct B as [c' e P|c' o P|c' i u t f x c'' o S C|c' c'' S|c' e c'' o P S C|c' e c'' o cb ce P S C K]; views; rewrite ?app_nil_r, ?(gathered_calm _ _ C).
  - rewrite stream_plain by exact P. exact IH.
  - exact IH.
  - exact IH.
  - exact IH.
  - exact IH.
  - rewrite stream_app, IH. rewrite app_assoc. unfold gathered at 2. rewrite recent_app. fold (gathered (conn_outs l)).
    destruct K as [g d|msg]; cbn [fold_left]; [|reflexivity].
    rewrite map_app, List.concat_app. cbn [map List.concat snd]. rewrite app_nil_r. fold (gathered (conn_outs l ++ o)). rewrite (gathered_calm _ _ C). reflexivity.
Qed.

Lemma recent_data : forall b a, ~ In Failed b -> map snd (recent (a ++ b)) = map snd (recent a) ++ received_data b.
Proof.
  induction b as [|x b IH] using rev_ind; intros a N; [rewrite !app_nil_r; reflexivity|].
  rewrite app_assoc, recent_app, received_app.
  assert (NB : ~ In Failed b) by (intro K; apply N, in_or_app; auto).
  assert (NX : x <> Failed) by (intros ->; apply N, in_or_app; right; left; reflexivity).
  destruct x; cbn [fold_left received_data flat_map app]; rewrite ?map_app, ?IH by exact NB; cbn [map snd]; rewrite ?app_nil_r, <- ?app_assoc; try reflexivity.
  contradiction.
Qed.

(** ** Sending on a closed connection *)
Lemma closed_send : forall es s s' os, idle s -> closed s -> Forall good_setup es -> ~ In NShutdown es -> conn_run s es = Ret (s', os) ->
  (exists d x, In (NSend d x) es) -> In Attempt os.
Proof.
  induction es as [|e es IH]; intros s s' os I C G N E (d & x & K); [destruct K|]. cbn [conn_run] in E.
  destruct (conn_step s e) as [[s1 o1]|] eqn:S1; cbn [obind] in E; [|discriminate].
  destruct (conn_run s1 es) as [[s2 o2]|] eqn:R; cbn [obind] in E; [|discriminate]. injection E as <- <-.
  assert (D : In Attempt o1 \/ ~ In Attempt o1).
  { clear. induction o1 as [|y o1 [H|H]]; [right; intros []|left; right; exact H|]. destruct y; try (right; intros [K|K]; [discriminate|contradiction]). left. left. reflexivity. }
  apply in_or_app. destruct D as [D|D]; [left; exact D|]. inversion G as [|e' es' G1 G2]; subst.
  assert (NE : e <> NShutdown) by (intros ->; apply N; left; reflexivity).
  destruct (idle_step _ _ _ _ I G1 NE S1 D) as (I1 & C1 & _).
  destruct K as [->|K].
  - exfalso. apply D. destruct I as (I & _), C as [C2 C3]. cbn in G1. subst x. cbn [conn_step] in S1. unfold conn_send in S1. rewrite I in S1.
    cbn [cn_status with_writer] in S1. rewrite C2 in S1. cbn [setup_ok su_address su_open su_bind negb orb cn_socket with_writer] in S1. rewrite C3 in S1.
    injection S1 as <- <-. left. reflexivity.
  - right. eapply IH; [exact I1|auto|exact G2|intro Z; apply N; right; exact Z|exact R|eauto].
Qed.

Section Tcp.
Context {W : Type}.
Context (handler : nat -> W -> expected (list N) -> W * list capi).
Context (pol : copy_policy).
Notation history := (history handler pol).
Notation tcp_history := (tcp_history handler pol).
Notation tcp_run := (tcp_run handler pol).
Notation tcp_step := (tcp_step handler pol).

Theorem connection_answers : forall es s l a g b r chunk msg xs s' l' i u t v before pdu after,
  tcp_history es s l -> always reads_settled cconn_init (conn_ins l) -> (forall g, ~ In (ConnOut (PeerClosed g)) l) ->
  conn_outs l = a ++ Established g :: b -> ~ In Failed b ->
  ~ In (ChannelOut TcpShutdown) l -> In (ChannelOut (Sent i u t v)) l -> ~ In i (completed_ids (channel_outs l)) ->
  bytes chunk -> Forall typed_item before -> 1 <= size pdu <= 253 ->
  List.concat (received_data b) ++ chunk = flat_map item_bytes before ++ frame_bytes t u pdu ++ after -> size after < size chunk ->
  (forall it, In it before -> i_tx it = t -> i_unit it = u -> deliverable it = false) ->
  tcp_step s (TRead r (RData chunk) msg xs) = Ret (s', l') -> (exists g', In (ConnOut (Received g' chunk)) l') ->
  In (ChannelOut (Completed i (Value pdu))) l'.
Proof.
  intros es s l a g b r chunk msg xs s' l' i u t v before pdu after H RS NP EO NF NS HS NC Hb Tb Sp Eq Sa Hd E (g' & Rc).
  pose proof (channel_view _ _ _ _ _ H) as HC. pose proof (conn_view _ _ _ _ _ H) as HV.
  assert (Fr : recent a = []).
  { eapply established_fresh; [exact HV|exact RS| |exact EO]. intros g0 K. apply in_conn_outs in K. exact (NP _ K). }
  assert (St : stream (channel_ins l) = List.concat (received_data b)).
  { rewrite (trace_stream _ _ _ (history_trace _ _ _ _ _ H)), EO. unfold gathered.
    rewrite recent_data by (intros [K|K]; [discriminate|contradiction]). rewrite Fr. reflexivity. }
  cbn [ClientTcp.tcp_step] in E. destruct (conn_turn_cases _ _ _ _ _ _ _ _ _ E) as [(c & os & _ & CO & _ & ->)|(c & os & cb & ce & l2 & S1 & CO & B & _ & T & ->)].
  - exfalso. destruct Rc as [K|K]; [discriminate|]. apply in_connouts in K. exact (proj1 (Forall_forall _ _) CO _ K).
  - pose proof (channel_turn_outs _ _ _ _ _ _ _ _ T) as [T1 T2].
    assert (CE : ce = CReceive chunk).
    { destruct B as [g0 d|m]; [destruct (received_source _ _ _ _ g0 d S1) as (r' & K); [apply in_or_app; right; left; reflexivity|]; injection K as _ ->; reflexivity|].
      exfalso. revert T2. views. intro T2. destruct (channel_turn_views _ _ _ _ _ _ _ _ T) as (l3 & E3 & T3 & A3 & _). injection E3 as <-.
      destruct Rc as [K|K]; [discriminate|]. apply in_app_or in K as [K|[K|[K|K]]]; [apply in_connouts in K; exact (proj1 (Forall_forall _ _) CO _ K)|discriminate|discriminate|].
      cbn [app] in K. apply in_split in K as (x1 & x2 & K).
      destruct (trace_wired _ _ _ T3) as (_ & _ & F & _). destruct (F _ _ _ K (or_intror (ex_intro _ g' (ex_intro _ chunk eq_refl)))) as (m' & b' & -> & Q).
      destruct Q as [(g1 & d1 & _ & ->)|(m1 & Z & _)]; [|discriminate]. rewrite K in A3. revert A3. views. intro A3. destruct (channel_ins x1); discriminate. }
    subst ce. revert T1. views. intro T1.
    assert (K : exists o', channel_outs l2 = Completed i (Value pdu) :: o').
    { eapply (response_reported handler pol (channel_ins l) (tc_channel s) (tc_user s) (channel_outs l) i u t v chunk before pdu after); try eassumption.
      + rewrite in_channel_outs. exact NS.
      + apply in_channel_outs. exact HS.
      + rewrite St. exact Eq.
      + intros it I1 I2 I3 _. auto. }
    destruct K as (o' & K).
    assert (Z : In (Completed i (Value pdu)) (channel_outs l2)) by (rewrite K; left; reflexivity).
    apply in_channel_outs in Z. right. apply in_or_app. right. right. right. exact Z.
Qed.

(** ** Reconnecting *)
Lemma runs_defined : forall n es s l, tcp_history es s l -> exists s' l', tcp_run s (repeat (TRun []) n) = Ret (s', l').
Proof.
  induction n as [|n IH]; intros es s l H; cbn [repeat ClientTcp.tcp_run]; [eauto|].
  destruct (tcp_step s (TRun [])) as [[s1 l1]|] eqn:S1.
  - cbn [obind]. destruct (IH _ _ _ (tcp_extend _ _ _ _ _ (TRun []) _ _ H Logic.I S1)) as (s2 & l2 & ->). cbn [obind]. eauto.
  - exfalso. destruct (undefined_source _ _ _ _ _ (TRun []) H Logic.I S1) as (w & n' & K & _). discriminate.
Qed.

Lemma to_conn_good : forall os c c' l, to_conn c os [] = Ret (c', l) -> Forall good_setup (conn_ins l).
Proof.
  induction os as [|o os IH]; intros c c' l E; cbn [to_conn] in E.
  - injection E as <- <-. constructor.
  - destruct o as [i k|i u t f|i t d|i r|];
      try (destruct (to_conn c os []) as [[c1 l1]|] eqn:R; cbn [obind] in E; [|discriminate]; injection E as <- <-; views; eapply IH; eauto; fail).
    + cbv zeta in E. destruct (conn_step c _) as [[c1 o1]|] eqn:S1; cbn [obind] in E; [|discriminate]. cbn [tl] in E.
      destruct (to_conn c1 os []) as [[c2 l1]|] eqn:R; cbn [obind] in E; [|discriminate]. injection E as <- <-. views. constructor; [reflexivity|]. eapply IH; eauto.
    + destruct (conn_step c NShutdown) as [[c1 o1]|] eqn:S1; cbn [obind] in E; [|discriminate].
      destruct (to_conn c1 os []) as [[c2 l1]|] eqn:R; cbn [obind] in E; [|discriminate]. injection E as <- <-. views. constructor; [exact Logic.I|]. eapply IH; eauto.
Qed.

Lemma channel_turn_good : forall s q e s' l, channel_turn handler pol s q e [] = Ret (s', l) -> Forall good_setup (conn_ins l).
Proof.
  intros s q e s' l E. unfold channel_turn in E. destruct (client_step _ _ _ _ e) as [[[ch w] os]|] eqn:S1; cbn [obind] in E; [|discriminate].
  destruct (to_conn _ os []) as [[c l1]|] eqn:R; cbn [obind] in E; [|discriminate]. injection E as <- <-. views. eapply to_conn_good; eauto.
Qed.

Lemma run_good : forall n s s' l, tcp_run s (repeat (TRun []) n) = Ret (s', l) -> Forall good_setup (conn_ins l).
Proof.
  induction n as [|n IH]; intros s s' l E; cbn [repeat ClientTcp.tcp_run] in E; [injection E as <- <-; constructor|].
  destruct (tcp_step s (TRun [])) as [[s1 l1]|] eqn:S1; cbn [obind] in E; [|discriminate].
  destruct (tcp_run s1 _) as [[s2 l2]|] eqn:R; cbn [obind] in E; [|discriminate]. injection E as <- <-. views. apply Forall_app. split; [|eapply IH; eauto].
  cbn [ClientTcp.tcp_step] in S1. destruct (tc_order s) as [|[|] q]; [injection S1 as <- <-; constructor|eapply channel_turn_good; eauto|].
  destruct (conn_turn_cases _ _ _ _ _ _ _ _ _ S1) as [(c & os & _ & CO & _ & ->)|(c & os & cb & ce & l3 & S2 & CO & B & _ & T & ->)].
  - views. repeat constructor.
  - apply channel_turn_good in T. revert T. views. intro T. constructor; [exact Logic.I|]. exact T.
Qed.

Lemma calls_queue : forall l s s' o, capi_calls s l = (s', o) -> cc_shutdown s = false ->
  (exists q, cc_queue s' = cc_queue s ++ q) /\ cc_shutdown s' = false /\
  forall i k, In (Called i k) o -> im_valid (k_msg k) = true -> In (DoSend i k) (cc_queue s').
Proof.
  induction l as [|a l IH]; intros s s' o E SD; cbn [capi_calls] in E.
  - injection E as <- <-. split; [exists []; rewrite app_nil_r; reflexivity|]. split; [exact SD|intros i k []].
  - destruct (capi_call s a) as [s1 o1] eqn:C. destruct (capi_calls s1 l) as [s2 o2] eqn:R. injection E as <- <-.
    assert (K : (exists q, cc_queue s1 = cc_queue s ++ q) /\ cc_shutdown s1 = false /\ forall i k, In (Called i k) o1 -> im_valid (k_msg k) = true -> In (DoSend i k) (cc_queue s1)).
    { destruct a as [k0|]; cbn [capi_call] in C; injection C as <- <-; cbn [cc_queue with_queue cc_shutdown].
      - rewrite SD. split; [destruct (im_valid (k_msg k0)); eexists; reflexivity|]. split; [reflexivity|]. intros i k [H|[]] V. injection H as <- <-. rewrite V.
        apply in_or_app. right. left. reflexivity.
      - split; [eexists; reflexivity|]. split; [exact SD|intros i k []]. }
    destruct K as ((q1 & Q1) & SD1 & K1). destruct (IH _ _ _ R SD1) as ((q2 & Q2) & SD2 & K2).
    split; [exists (q1 ++ q2); rewrite Q2, Q1, <- app_assoc; reflexivity|]. split; [exact SD2|].
    intros i k H V. apply in_app_or in H as [H|H]; [rewrite Q2; apply in_or_app; left; auto|auto].
Qed.

Lemma handler_queue : forall s w i r s' w' o, call_handler handler s w i r = (s', w', o) -> cc_shutdown s = false ->
  (exists q, cc_queue s' = cc_queue s ++ q) /\ cc_shutdown s' = false /\
  forall i k, In (Called i k) o -> im_valid (k_msg k) = true -> In (DoSend i k) (cc_queue s').
Proof.
  intros s w i r s' w' o E SD. unfold call_handler in E. destruct (handler i w r) as [w1 calls]. destruct (capi_calls s calls) as [s1 o1] eqn:C.
  injection E as <- <- <-. destruct (calls_queue _ _ _ _ C SD) as (Q & SD1 & K). split; [exact Q|]. split; [exact SD1|].
  intros j k [H|H] V; [discriminate|]. auto.
Qed.

Lemma fail_queue : forall msg l s w s' w' o, fail_all handler s w l msg = (s', w', o) -> cc_shutdown s = false ->
  (exists q, cc_queue s' = cc_queue s ++ q) /\ cc_shutdown s' = false /\
  forall i k, In (Called i k) o -> im_valid (k_msg k) = true -> In (DoSend i k) (cc_queue s').
Proof.
  intros msg. induction l as [|p l IH]; intros s w s' w' o E SD; cbn [fail_all] in E.
  - injection E as <- <- <-. split; [exists []; rewrite app_nil_r; reflexivity|]. split; [exact SD|intros i k []].
  - destruct (call_handler handler s w (pr_id p) _) as [[s1 w1] o1] eqn:C. destruct (fail_all handler s1 w1 l msg) as [[s2 w2] o2] eqn:R. injection E as <- <- <-.
    destruct (handler_queue _ _ _ _ _ _ _ C SD) as ((q1 & Q1) & SD1 & K1). destruct (IH _ _ _ _ _ R SD1) as ((q2 & Q2) & SD2 & K2).
    split; [exists (q1 ++ q2); rewrite Q2, Q1, <- app_assoc; reflexivity|]. split; [exact SD2|].
    intros i k H V. apply in_app_or in H as [H|H]; [rewrite Q2; apply in_or_app; left; auto|auto].
Qed.

Lemma check_queue : forall s s' o, check_pending_requests s = (s', o) -> cc_queue s' = cc_queue s /\ forall i k, ~ In (Called i k) o.
Proof.
  intros s s' o E. unfold check_pending_requests in E. destruct (cc_shutdown s); [injection E as <- <-; split; [reflexivity|intros i k []]|].
  destruct (cc_current s); [injection E as <- <-; split; [reflexivity|intros i k []]|].
  destruct (cc_pending s); injection E as <- <-; (split; [reflexivity|]); [intros i k []|]. intros i k [H|[H|[]]]; discriminate.
Qed.

Lemma error_queue : forall s w msg s' w' o i k, on_error handler s w msg = (s', w', o) -> cc_shutdown s = false ->
  In (Called i k) o -> im_valid (k_msg k) = true -> In (DoSend i k) (cc_queue s').
Proof.
  intros s w msg s' w' o i k E SD H V. unfold on_error in E. rewrite SD in E. unfold cancel_all_pending_requests in E. cbn [cc_pending with_parser] in E.
  destruct (fail_all handler (with_parser s (mbap_reset (cc_parser s))) w (cc_pending s) msg) as [[s1 w1] o1] eqn:F.
  destruct (fail_queue _ _ _ _ _ _ _ F SD) as ((q1 & Q1) & SD1 & K1). cbn [cc_current with_pending] in E.
  destruct (cc_current s1) as [p|].
  - destruct (call_handler handler (with_pending s1 []) w1 (pr_id p) _) as [[s2 w2] o2] eqn:C.
    destruct (cancel_current_request s2) as [s3 o3] eqn:R. injection E as <- <- <-.
    destruct (handler_queue _ _ _ _ _ _ _ C SD1) as ((q2 & Q2) & SD2 & K2). cbn [cc_queue with_pending] in Q2.
    assert (Q3 : cc_queue s3 = cc_queue s2 /\ forall i k, ~ In (Called i k) o3).
    { unfold cancel_current_request in R. destruct (cc_current s2); [|injection R as <- <-; split; [reflexivity|intros ? ? []]].
      apply check_queue in R as [R1 R2]. split; [exact R1|exact R2]. }
    destruct Q3 as [Q3 N3]. rewrite Q3. apply in_app_or in H as [H|H]; [rewrite Q2; apply in_or_app; left; apply K1; assumption|].
    apply in_app_or in H as [H|H]; [apply K2; assumption|]. destruct (N3 _ _ H).
  - injection E as <- <- <-. cbn [cc_queue with_pending]. apply K1; assumption.
Qed.

Lemma to_conn_none : forall os xs c c' l, to_conn c os xs = Ret (c', l) -> sent_ids os = [] -> ~ In TcpShutdown os -> c' = c.
Proof.
  induction os as [|o os IH]; intros xs c c' l E S N; cbn [to_conn] in E.
  - injection E as <- <-. reflexivity.
  - assert (N1 : ~ In TcpShutdown os) by (intro K; apply N; right; exact K).
    destruct o as [i k|i u t f|i t d|i r|]; cbn [sent_ids flat_map app] in S; try discriminate;
      try (destruct (to_conn c os xs) as [[c1 l1]|] eqn:R; cbn [obind] in E; [|discriminate]; injection E as <- <-; eapply IH; eauto; fail).
    exfalso. apply N. left. reflexivity.
Qed.

(** A channel that is not being shut down. *)
Lemma never_down : forall es s l, no_shutdown_handler handler -> ~ In (TApi Shutdown) es -> tcp_history es s l ->
  ~ In (ChannelOut TcpShutdown) l /\ cc_shutdown (tc_channel s) = false.
Proof.
  intros es s l NH N H. pose proof (channel_view _ _ _ _ _ H) as HC.
  assert (NS : no_shutdown (channel_ins l)).
  { intro K. destruct H as (buf & w0 & _ & _ & R). destruct (run_origin _ _ _ _ _ _ R _ K) as (e & He & Oe). cbn in Oe. subst e. contradiction. }
  pose proof (history_clear _ NH _ _ _ _ _ NS HC) as [A _]. split; [|exact A].
  intro K. apply in_channel_outs in K. apply (history_shutdown _ _ _ _ _ _ HC) in K. congruence.
Qed.

Lemma repeat_split : forall (A : Type) (x : A) n a y b, repeat x n = a ++ y :: b -> exists m, a = repeat x m /\ y = x.
Proof.
  induction n as [|n IH]; intros a y b E; [destruct a; discriminate|]. cbn [repeat] in E. destruct a as [|z a]; cbn [app] in E; injection E as <- E.
  - exists 0%nat. auto.
  - destruct (IH _ _ _ E) as (m & -> & ->). exists (S m). auto.
Qed.

Theorem failure_reconnects : forall es s l e msg s1 l1 i k, no_shutdown_handler handler -> ~ In (TApi Shutdown) es -> tcp_history es s l ->
  tc_order s = [] -> fails (tc_conn s) e msg -> (forall ok m, e <> TResolved ok m) -> typed_tevent e -> tcp_step s e = Ret (s1, l1) ->
  cn_resolves (tc_conn s1) = 0%nat -> cn_connects (tc_conn s1) = [] ->
  In (ChannelOut (Called i k)) l1 -> im_valid (k_msg k) = true ->
  exists s2 l2, tcp_run s1 (repeat (TRun []) (List.length (tc_order s1))) = Ret (s2, l2) /\ In (ConnOut Attempt) l2.
Proof.
  intros es s l e msg s1 l1 i k NH NS H O F NR Ty E CR CC HK V.
  destruct (never_down _ _ _ NH NS H) as [ND SD]. destruct (shutdown_from_channel _ _ _ _ _ H ND) as [_ [SC QC]].
  pose proof (history_ordered _ _ _ _ _ H) as [O1 O2]. rewrite O in O1, O2. unfold turns in O1, O2. cbn in O1, O2.
  assert (Q2 : cn_queue (tc_conn s) = []) by (destruct (cn_queue (tc_conn s)); [reflexivity|discriminate]).
  destruct (failure_reported _ _ _ _ _ _ _ _ _ H ND F E) as (q & xs & c & o & l2 & S1 & T & EL & RQ & NRun).
  assert (NRes : forall ok, q <> NResolved ok) by (intros ok K; destruct (RQ _ K) as (m & Z); exact (NR _ _ Z)).
  destruct (failure_posts_close _ _ _ _ SC S1) as [QQ SDc]; [left; split; [apply in_or_app; right; left; reflexivity|exact NRes]|].
  rewrite Q2 in QQ. cbn [app] in QQ.
  pose proof (tcp_extend _ _ _ _ _ _ _ _ H Ty E) as H1.
  assert (NS1 : ~ In (TApi Shutdown) (es ++ [e])).
  { intro K. apply in_app_or in K as [K|[K|[]]]; [auto|]. subst e. destruct F. }
  destruct (never_down _ _ _ NH NS1 H1) as [ND1 SD1].
  pose proof (channel_turn_outs _ _ _ _ _ _ _ _ T) as [T1 _]. revert T1. views. intro T1.
  pose proof (channel_view _ _ _ _ _ H) as HC.
  assert (NC : ~ In TcpShutdown (channel_outs l)) by (rewrite in_channel_outs; exact ND).
  destruct (error_fails_all _ _ _ _ _ _ _ _ _ _ HC T1 NC) as (Z1 & _ & _ & _ & Z2 & Z3 & _).
  (* the connection and the order after the failure *)
  assert (K : tc_conn s1 = c /\ exists rest, tc_order s1 = ConnTurn :: rest).
  { unfold channel_turn in T. destruct (client_step _ _ _ _ (CError msg)) as [[[ch w] os]|] eqn:CS; cbn [obind] in T; [|discriminate].
    destruct (to_conn _ os xs) as [[c1 l3]|] eqn:R; cbn [obind] in T; [|discriminate]. apply ret_inj in T.
    assert (Es1 : tc_conn s1 = c1) by (apply (f_equal fst) in T; cbn [fst] in T; rewrite <- T; reflexivity).
    assert (Eo1 : exists rest, tc_order s1 = tc_order (before_callbacks s (tc_order s) q c) ++ rest) by (apply (f_equal fst) in T; cbn [fst] in T; rewrite <- T; eexists; reflexivity).
    assert (El : l3 = l2) by (apply (f_equal snd) in T; cbn [snd] in T; injection T as ->; reflexivity). subst l3.
    destruct (to_conn_outs _ _ _ _ _ R) as [A _]. split.
    - rewrite Es1. eapply to_conn_none; [exact R|rewrite <- A; exact Z1|]. rewrite <- A. intro K. apply in_channel_outs in K. apply ND1. rewrite EL. apply in_or_app. right.
      right. apply in_or_app. right. right. right. exact K.
    - destruct Eo1 as (rest & ->). cbn [before_callbacks tc_order]. rewrite O, Q2, QQ. cbn [List.length app].
      assert (P : posted ConnTurn (0 - match q with ClientConn.NRun => 1 | _ => 0 end) 1 = [ConnTurn]) by (destruct q; reflexivity).
      rewrite P. eexists. reflexivity. }
  destruct K as [Kc (rest & Ko)]. subst c.
  assert (HQ : In (DoSend i k) (cc_queue (tc_channel s1))).
  { cbn [client_step] in T1. apply ret_inj in T1. eapply error_queue; [exact T1|exact SD| |exact V].
    rewrite EL in HK. destruct HK as [K|K]; [discriminate|]. apply in_app_or in K as [K|[K|[K|K]]]; try discriminate; [apply in_map_iff in K as (y & K & _); discriminate|].
    apply in_channel_outs. exact K. }
  destruct (runs_defined (List.length (tc_order s1)) _ _ _ H1) as (s2 & l3 & R). exists s2, l3. split; [exact R|].
  destruct (channel_wait s1 _ (history_ordered _ _ _ _ _ H1) HQ) as (n & Cw & Ln).
  assert (TR : truns (repeat (TRun []) (List.length (tc_order s1))) = List.length (tc_order s1)).
  { clear. induction (List.length (tc_order s1)) as [|m IH]; [reflexivity|]. cbn [repeat]. rewrite truns_cons, IH. reflexivity. }
  assert (TyR : forall m, Forall typed_tevent (repeat (TRun []) m)) by (clear; induction m; cbn [repeat]; constructor; auto; exact Logic.I).
  destruct (channel_turn_comes _ _ _ _ _ _ _ _ _ _ H1 (TyR _) R Cw ltac:(lia)) as (es1 & xs1 & es2 & s3 & l4 & s4 & l5 & l6 & Er & R1 & (q0 & b0 & Oo & Qo) & S4 & R2 & El).
  destruct (repeat_split _ _ _ _ _ _ Er) as (m & -> & Ex).
  pose proof (tcp_extends _ _ _ _ _ _ _ _ H1 (TyR m) R1) as H3.
  assert (NSm : forall m es0, ~ In (TApi Shutdown) es0 -> ~ In (TApi Shutdown) (es0 ++ repeat (TRun []) m)).
  { clear. intros m es0 N K. apply in_app_or in K as [K|K]; [auto|]. apply repeat_spec in K. discriminate. }
  destruct (never_down _ _ _ NH (NSm m _ NS1) H3) as [ND3 SD3].
  pose proof (channel_view _ _ _ _ _ H3) as HC3. destruct (history_reached _ _ _ _ _ _ HC3) as (C3 & St3 & _).
  assert (Snt : sent_ids (channel_outs (l4 ++ l5)) <> []).
  { cbn [ClientTcp.tcp_step] in S4. rewrite Oo in S4. apply channel_turn_outs in S4 as [S4 _]. cbn [client_step] in S4. rewrite Qo in S4.
    apply ret_inj in S4. destruct (cc_current (tc_channel s3)) as [p|] eqn:Cu.
    - pose proof (co_current _ _ C3 _ Cu) as Sp. rewrite channel_outs_app in Sp. apply in_app_or in Sp as [Sp|Sp].
      + exfalso. pose proof (channel_view _ _ _ _ _ H1) as HC1. destruct (history_reached _ _ _ _ _ _ HC1) as (C1 & _).
        apply in_split in Sp as (x1 & x2 & Sp). destruct (co_wire _ _ C1 _ _ _ _ _ _ Sp) as [B|[_ [B|(p' & B & _)]]]; [|congruence|congruence].
        apply (co_gone _ _ C3 (pr_id p)).
        * rewrite channel_outs_app, completed_app. apply in_or_app. left. rewrite Sp, completed_app. apply in_or_app. right. exact B.
        * unfold live, waiting. rewrite Cu. left. reflexivity.
      + intro Z. rewrite channel_outs_app, sent_app in Z. apply app_eq_nil in Z as [Z _]. apply in_split in Sp as (x1 & x2 & Sp). rewrite Sp, sent_app in Z.
        apply app_eq_nil in Z as [_ Z]. discriminate.
    - intro Z. rewrite channel_outs_app, sent_app in Z. apply app_eq_nil in Z as [_ Z]. cbn [run_ctask] in S4. cbn [cc_shutdown with_queue] in S4. rewrite SD3 in S4.
      cbn [check_pending_requests cc_shutdown cc_current cc_pending with_next_tx with_pending with_queue] in S4. unfold check_pending_requests in S4.
      cbn [cc_shutdown cc_current cc_pending with_next_tx with_pending with_queue] in S4. rewrite SD3, Cu, (St3 Cu) in S4. cbn [app] in S4.
      injection S4 as _ _ S4. rewrite <- S4 in Z. discriminate. }
  (* what the connection sees *)
  pose proof (tcp_conn_run _ _ _ _ _ _ R) as RC.
  pose proof (run_good _ _ _ _ R) as G.
  pose proof (tcp_extends _ _ _ _ _ _ _ _ H1 (TyR _) R) as H2.
  destruct (never_down _ _ _ NH (NSm _ _ NS1) H2) as [ND2 _]. destruct (shutdown_from_channel _ _ _ _ _ H2 ND2) as [NSd _].
  assert (NSd3 : ~ In NShutdown (conn_ins l3)) by (intro K; apply NSd; views; apply in_or_app; auto).
  rewrite Ko in R. cbn [List.length repeat ClientTcp.tcp_run] in R. cbn [ClientTcp.tcp_step] in R. rewrite Ko in R.
  destruct (conn_turn handler pol s1 rest ClientConn.NRun "" []) as [[s5 l7]|] eqn:S5; cbn [obind] in R; [|discriminate].
  destruct (tcp_run s5 _) as [[s6 l8]|] eqn:R6; cbn [obind] in R; [|discriminate]. injection R as <- <-.
  assert (K5 : l7 = ConnIn ClientConn.NRun :: map ConnOut (conn_outs l7) /\ closed (tc_conn s5) /\ idle (tc_conn s5)).
  { assert (NA : forall c os, conn_step (tc_conn s1) ClientConn.NRun = Ret (c, os) -> Forall calm_out os /\ closed c /\ idle c).
    { intros c os S6. cbn [conn_step] in S6. rewrite QQ in S6. apply ret_inj in S6. unfold do_close in S6. cbn [cn_shutdown with_nqueue] in S6. rewrite SDc in S6.
      cbv zeta in S6. cbn [cn_socket with_status with_nqueue] in S6. destruct (cn_socket (tc_conn s1)) eqn:SK; injection S6 as <- <-.
      - split; [repeat constructor|]. split; [split; reflexivity|]. repeat split; cbn; auto.
      - split; [constructor|]. split; [split; [reflexivity|exact SK]|]. repeat split; cbn; auto. }
    destruct (conn_turn_cases _ _ _ _ _ _ _ _ _ S5) as [(c & os & S6 & CO & -> & ->)|(c & os & cb & ce & l9 & S6 & CO & B & _)].
    - destruct (NA _ _ S6) as (_ & A & B). views. split; [reflexivity|]. split; [exact A|exact B].
    - exfalso. destruct (NA _ _ S6) as (A & _). apply Forall_app in A as [_ A]. inversion A as [|? ? A1 _]; subst. destruct B; exact A1. }
  destruct K5 as (E7 & Cl & Il).
  apply in_conn_outs. views. apply in_or_app. right.
  eapply closed_send; [exact Il|exact Cl| | |exact (tcp_conn_run _ _ _ _ _ _ R6)|].
  - rewrite conn_ins_app in G. apply Forall_app in G as [_ G]. exact G.
  - intro K. apply NSd3. views. apply in_or_app. auto.
  - assert (S8 : sent_ids (channel_outs l8) <> []).
    { intro Z. apply Snt. rewrite app_assoc in El. apply (f_equal channel_outs) in El. rewrite !channel_outs_app in El. rewrite E7 in El.
      revert El. views. intro El. rewrite El, !sent_app in Z. rewrite sent_app. apply app_eq_nil in Z as [Z _]. exact Z. }
    destruct (run_views _ _ _ _ _ _ R6) as [TR8 _]. destruct (trace_wired _ _ _ TR8) as (Fw & _).
    assert (X : exists i0 u t f, In (Sent i0 u t f) (channel_outs l8)).
    { clear - S8. induction (channel_outs l8) as [|y os IH]; [contradiction|]. destruct y as [?|i0 u t f|?|?|];
        try (cbn [sent_ids flat_map app] in S8; destruct (IH S8) as (a1 & a2 & a3 & a4 & Z); exists a1, a2, a3, a4; right; exact Z).
      exists i0, u, t, f. left. reflexivity. }
    destruct X as (i0 & u & t & f & X). apply in_channel_outs in X. apply in_split in X as (y1 & y2 & X).
    destruct (Fw _ _ _ X) as (m' & b' & -> & (j & u' & t' & f' & x & _ & ->)); [do 4 eexists; reflexivity|].
    exists (frame_data f'), x. apply in_conn_ins. rewrite X. apply in_or_app. right. right. left. reflexivity.
Qed.
End Tcp.
