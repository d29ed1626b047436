(** Proofs about ClientTcp.v: closures get their turn; shutdown; reconnecting; responses. *)
From Verif Require Import Prelude Ser4 Messages Mbap SpecPdu SpecMbap Client SpecClient ClientFacts ClientLemmas ClientShutdown ClientResponses ClientOutcomes
  AsyncWrite ClientConn SpecConn WriteFacts ConnFacts ConnRecover ConnStream ClientTcp SpecClientTcp TcpFacts TcpWire TcpOrder TcpLemmas TcpBehaviour.
From Coq Require Import Lia.

Lemma turn_at : forall t order k, (k < turns t order)%nat -> exists p r, order = p ++ t :: r /\ turns t p = k.
Proof.
  intros t. induction order as [|u order IH]; intros k L; [unfold turns in L; cbn in L; lia|].
  assert (D : u = t \/ u <> t) by (destruct u, t; auto; right; discriminate).
  destruct D as [->|D].
  - destruct k as [|k]; [exists [], order; split; reflexivity|].
    destruct (IH k) as (p & r & -> & P); [unfold turns in *; destruct t; cbn in L |- *; lia|].
    exists (t :: p), r. split; [reflexivity|]. unfold turns in *. destruct t; cbn in *; lia.
  - destruct (IH k) as (p & r & -> & P); [unfold turns in *; destruct t, u; cbn in L |- *; try lia; congruence|].
    exists (u :: p), r. split; [reflexivity|]. unfold turns in *. destruct t, u; cbn in *; try lia; congruence.
Qed.

Section Tcp.
Context {W : Type}.
Context (handler : nat -> W -> expected (list N) -> W * list capi).
Context (pol : copy_policy).
Notation history := (history handler pol).
Notation tcp_history := (tcp_history handler pol).
Notation tcp_run := (tcp_run handler pol).
Notation tcp_step := (tcp_step handler pol).

(** ** Every closure gets its turn *)
(** Closure [x] of the channel, or the connection, waits for [n] others. *)
Definition channel_waits (s : tclient W) (n : nat) (x : ctask) : Prop :=
  exists p r a b, tc_order s = p ++ ChannelTurn :: r /\ cc_queue (tc_channel s) = a ++ x :: b /\ turns ChannelTurn p = List.length a /\ List.length p = n.
Definition conn_waits (s : tclient W) (n : nat) (x : nclosure) : Prop :=
  exists p r a b, tc_order s = p ++ ConnTurn :: r /\ cn_queue (tc_conn s) = a ++ x :: b /\ turns ConnTurn p = List.length a /\ List.length p = n.

Lemma channel_wait : forall s x, ordered s -> In x (cc_queue (tc_channel s)) -> exists n, channel_waits s n x /\ (n < List.length (tc_order s))%nat.
Proof.
  intros s x [O _] H. apply in_split in H as (a & b & E). destruct (turn_at ChannelTurn (tc_order s) (List.length a)) as (p & r & P & L).
  { rewrite O, E, app_length. cbn. lia. }
  exists (List.length p). split; [exists p, r, a, b; auto|]. rewrite P, app_length. cbn. lia.
Qed.
Lemma conn_wait : forall s x, ordered s -> In x (cn_queue (tc_conn s)) -> exists n, conn_waits s n x /\ (n < List.length (tc_order s))%nat.
Proof.
  intros s x [_ O] H. apply in_split in H as (a & b & E). destruct (turn_at ConnTurn (tc_order s) (List.length a)) as (p & r & P & L).
  { rewrite O, E, app_length. cbn. lia. }
  exists (List.length p). split; [exists p, r, a, b; auto|]. rewrite P, app_length. cbn. lia.
Qed.

Lemma channel_waits_step : forall es s l e s' l' n x, tcp_history es s l -> typed_tevent e -> tcp_step s e = Ret (s', l') -> channel_waits s n x ->
  (is_run e = false /\ channel_waits s' n x) \/
  (is_run e = true /\ exists m, n = S m /\ channel_waits s' m x) \/
  (is_run e = true /\ n = 0%nat /\ exists q b, tc_order s = ChannelTurn :: q /\ cc_queue (tc_channel s) = x :: b).
Proof.
  intros es s l e s' l' n x H T E (p & r & a & b & O & Q & L & Ln).
  destruct (step_appended _ _ _ _ _ _ _ _ H T (history_ordered _ _ _ _ _ H) E) as [(R & (q1 & q2 & q3 & A & B & C))|[(R & OO & _)|[(q & t & tl1 & R & OO & QQ & (q1 & q2 & q3 & A & B & C))|(q & t & tl2 & R & OO & QQ & (q1 & q2 & q3 & A & B & C))]]].
  - left. split; [exact R|]. exists p, (r ++ repeat ConnTurn (List.length q2) ++ repeat ChannelTurn (List.length q1) ++ repeat ConnTurn (List.length q3)), a, (b ++ q1).
    rewrite A, C, O, Q, <- !app_assoc. auto.
  - rewrite O in OO. destruct p; discriminate.
  - rewrite O in OO. rewrite Q in QQ. destruct p as [|u p]; cbn [app] in OO.
    + right. right. split; [exact R|]. cbn in Ln. split; [auto|]. unfold turns in L. cbn in L. destruct a; [|discriminate]. rewrite O, Q. cbn [app]. eauto.
    + right. left. split; [exact R|]. injection OO as -> <-. destruct a as [|y a]; [unfold turns in L; cbn in L; discriminate|]. cbn [app] in QQ. injection QQ as -> <-.
      exists (List.length p). split; [cbn in Ln; lia|].
      exists p, (r ++ repeat ConnTurn (List.length q2) ++ repeat ChannelTurn (List.length q1) ++ repeat ConnTurn (List.length q3)), a, (b ++ q1).
      rewrite A, C, <- !app_assoc. unfold turns in *. cbn in L. auto.
  - rewrite O in OO. destruct p as [|u p]; cbn [app] in OO; [discriminate|].
    right. left. split; [exact R|]. injection OO as -> <-. exists (List.length p). split; [cbn in Ln; lia|].
    exists p, (r ++ repeat ConnTurn (List.length q2) ++ repeat ChannelTurn (List.length q1) ++ repeat ConnTurn (List.length q3)), a, (b ++ q1).
    rewrite A, C, Q, <- !app_assoc. unfold turns in *. cbn in L. auto.
Qed.

Lemma conn_waits_step : forall es s l e s' l' n x, tcp_history es s l -> typed_tevent e -> tcp_step s e = Ret (s', l') -> conn_waits s n x ->
  (is_run e = false /\ conn_waits s' n x) \/
  (is_run e = true /\ exists m, n = S m /\ conn_waits s' m x) \/
  (is_run e = true /\ n = 0%nat /\ exists q b, tc_order s = ConnTurn :: q /\ cn_queue (tc_conn s) = x :: b).
Proof.
  intros es s l e s' l' n x H T E (p & r & a & b & O & Q & L & Ln).
  destruct (step_appended _ _ _ _ _ _ _ _ H T (history_ordered _ _ _ _ _ H) E) as [(R & (q1 & q2 & q3 & A & B & C))|[(R & OO & _)|[(q & t & tl1 & R & OO & QQ & (q1 & q2 & q3 & A & B & C))|(q & t & tl2 & R & OO & QQ & (q1 & q2 & q3 & A & B & C))]]].
  - left. split; [exact R|]. exists p, (r ++ repeat ConnTurn (List.length q2) ++ repeat ChannelTurn (List.length q1) ++ repeat ConnTurn (List.length q3)), a, (b ++ q2 ++ q3).
    rewrite B, C, O, Q, <- !app_assoc. auto.
  - rewrite O in OO. destruct p; discriminate.
  - rewrite O in OO. destruct p as [|u p]; cbn [app] in OO; [discriminate|].
    right. left. split; [exact R|]. injection OO as -> <-. exists (List.length p). split; [cbn in Ln; lia|].
    exists p, (r ++ repeat ConnTurn (List.length q2) ++ repeat ChannelTurn (List.length q1) ++ repeat ConnTurn (List.length q3)), a, (b ++ q2 ++ q3).
    rewrite B, C, Q, <- !app_assoc. unfold turns in *. cbn in L. auto.
  - rewrite O in OO. rewrite Q in QQ. destruct p as [|u p]; cbn [app] in OO.
    + right. right. split; [exact R|]. cbn in Ln. split; [auto|]. unfold turns in L. cbn in L. destruct a; [|discriminate]. rewrite O, Q. cbn [app]. eauto.
    + right. left. split; [exact R|]. injection OO as -> <-. destruct a as [|y a]; [unfold turns in L; cbn in L; discriminate|]. cbn [app] in QQ. injection QQ as -> <-.
      exists (List.length p). split; [cbn in Ln; lia|].
      exists p, (r ++ repeat ConnTurn (List.length q2) ++ repeat ChannelTurn (List.length q1) ++ repeat ConnTurn (List.length q3)), a, (b ++ q2 ++ q3).
      rewrite B, C, <- !app_assoc. unfold turns in *. cbn in L. auto.
Qed.

Lemma truns_cons : forall e es, truns (e :: es) = ((if is_run e then 1 else 0) + truns es)%nat.
Proof. intros e es. unfold truns, is_run. destruct e; reflexivity. Qed.

Definition turn_comes (P : tclient W -> Prop) (s : tclient W) (es : list tevent) (s' : tclient W) (l : list mark) : Prop :=
  exists es1 xs es2 s1 l1 s2 l2 l3, es = es1 ++ TRun xs :: es2 /\ tcp_run s es1 = Ret (s1, l1) /\ P s1 /\
    tcp_step s1 (TRun xs) = Ret (s2, l2) /\ tcp_run s2 es2 = Ret (s', l3) /\ l = l1 ++ l2 ++ l3.

Lemma turn_later : forall P s e s1 l1 es s' l, tcp_step s e = Ret (s1, l1) -> turn_comes P s1 es s' l -> turn_comes P s (e :: es) s' (l1 ++ l).
Proof.
  intros P s e s1 l1 es s' l E (es1 & xs & es2 & s2 & l2 & s3 & l3 & l4 & -> & R & PP & S2 & R2 & ->).
  exists (e :: es1), xs, es2, s2, (l1 ++ l2), s3, l3, l4. split; [reflexivity|]. split; [cbn [ClientTcp.tcp_run]; rewrite E; cbn [obind]; rewrite R; reflexivity|].
  rewrite <- app_assoc. auto 10.
Qed.

Lemma channel_turn_comes : forall es' es s l s' l' n x, tcp_history es s l -> Forall typed_tevent es' -> tcp_run s es' = Ret (s', l') ->
  channel_waits s n x -> (n < truns es')%nat ->
  turn_comes (fun s => exists q b, tc_order s = ChannelTurn :: q /\ cc_queue (tc_channel s) = x :: b) s es' s' l'.
Proof.
  induction es' as [|e es' IH]; intros es s l s' l' n x H T R C L; [unfold truns in L; cbn in L; lia|].
  inversion T as [|e' es2 T1 T2]; subst. cbn [ClientTcp.tcp_run] in R.
  destruct (tcp_step s e) as [[s1 l1]|] eqn:S1; cbn [obind] in R; [|discriminate].
  destruct (tcp_run s1 es') as [[s2 l2]|] eqn:R2; cbn [obind] in R; [|discriminate]. injection R as <- <-.
  pose proof (tcp_extend _ _ _ _ _ _ _ _ H T1 S1) as H1. rewrite truns_cons in L.
  destruct (channel_waits_step _ _ _ _ _ _ _ _ H T1 S1 C) as [(Z & C1)|[(Z & m & -> & C1)|(Z & -> & K)]].
  - eapply turn_later; [exact S1|]. eapply IH; [exact H1|exact T2|exact R2|exact C1|rewrite Z in L; exact L].
  - eapply turn_later; [exact S1|]. eapply IH; [exact H1|exact T2|exact R2|exact C1|rewrite Z in L; lia].
  - destruct e; try discriminate. exists [], xs, es', s, [], s1, l1, l2. cbn [app]. auto 10.
Qed.

Lemma conn_turn_comes : forall es' es s l s' l' n x, tcp_history es s l -> Forall typed_tevent es' -> tcp_run s es' = Ret (s', l') ->
  conn_waits s n x -> (n < truns es')%nat ->
  turn_comes (fun s => exists q b, tc_order s = ConnTurn :: q /\ cn_queue (tc_conn s) = x :: b) s es' s' l'.
Proof.
  induction es' as [|e es' IH]; intros es s l s' l' n x H T R C L; [unfold truns in L; cbn in L; lia|].
  inversion T as [|e' es2 T1 T2]; subst. cbn [ClientTcp.tcp_run] in R.
  destruct (tcp_step s e) as [[s1 l1]|] eqn:S1; cbn [obind] in R; [|discriminate].
  destruct (tcp_run s1 es') as [[s2 l2]|] eqn:R2; cbn [obind] in R; [|discriminate]. injection R as <- <-.
  pose proof (tcp_extend _ _ _ _ _ _ _ _ H T1 S1) as H1. rewrite truns_cons in L.
  destruct (conn_waits_step _ _ _ _ _ _ _ _ H T1 S1 C) as [(Z & C1)|[(Z & m & -> & C1)|(Z & -> & K)]].
  - eapply turn_later; [exact S1|]. eapply IH; [exact H1|exact T2|exact R2|exact C1|rewrite Z in L; exact L].
  - eapply turn_later; [exact S1|]. eapply IH; [exact H1|exact T2|exact R2|exact C1|rewrite Z in L; lia].
  - destruct e; try discriminate. exists [], xs, es', s, [], s1, l1, l2. cbn [app]. auto 10.
Qed.

(** ** Shutdown *)
Lemma tcp_conn_run : forall s es s' l, tcp_run s es = Ret (s', l) -> conn_run (tc_conn s) (conn_ins l) = Ret (tc_conn s', conn_outs l).
Proof. intros s es s' l E. destruct (run_views _ _ _ _ _ _ E) as [C _]. apply trace_conn in C. exact C. Qed.
Lemma tcp_channel_run : forall s es s' l, tcp_run s es = Ret (s', l) ->
  client_run handler pol (tc_channel s) (tc_user s) (channel_ins l) = Ret (tc_channel s', tc_user s', channel_outs l).
Proof. intros s es s' l E. destruct (run_views _ _ _ _ _ _ E) as [_ C]. exact C. Qed.
Lemma tcp_step_run : forall s e s' l, tcp_step s e = Ret (s', l) -> tcp_run s [e] = Ret (s', l).
Proof. intros s e s' l E. cbn [ClientTcp.tcp_run]. rewrite E. cbn [obind]. rewrite app_nil_r. reflexivity. Qed.

Lemma down_stays : forall s es s' l, cc_shutdown (tc_channel s) = true -> tcp_run s es = Ret (s', l) -> cc_shutdown (tc_channel s') = true.
Proof. intros s es s' l SD E. apply (ClientShutdown.run_shutdown _ _ _ _ _ _ _ _ (tcp_channel_run _ _ _ _ E)). auto. Qed.

(** The channel is shut down when the closures posted so far have run. *)
Lemma shutdown_posted : forall es s l es' s' l', tcp_history es s l -> In DoShutdown (cc_queue (tc_channel s)) \/ cc_shutdown (tc_channel s) = true ->
  Forall typed_tevent es' -> tcp_run s es' = Ret (s', l') -> (List.length (tc_order s) <= truns es')%nat -> cc_shutdown (tc_channel s') = true.
Proof.
  intros es s l es' s' l' H [Q|Q] T R L.
  - destruct (channel_wait s DoShutdown (history_ordered _ _ _ _ _ H) Q) as (n & C & Ln).
    destruct (channel_turn_comes _ _ _ _ _ _ _ _ H T R C ltac:(lia)) as (es1 & xs & es2 & s1 & l1 & s2 & l2 & l3 & _ & _ & (q & b & O & QQ) & S2 & R2 & _).
    eapply down_stays; [|exact R2]. cbn [ClientTcp.tcp_step] in S2. rewrite O in S2. apply channel_turn_outs in S2 as [S2 _].
    cbn [client_step] in S2. rewrite QQ in S2. cbn [run_ctask] in S2. injection S2 as S2 _ _. rewrite <- S2. reflexivity.
  - eapply down_stays; [exact Q|exact R].
Qed.

Lemma channel_goes_down : forall es s l es' s' l', tcp_history es s l -> In (TApi Shutdown) es -> Forall typed_tevent es' ->
  tcp_run s es' = Ret (s', l') -> (List.length (tc_order s) <= truns es')%nat -> cc_shutdown (tc_channel s') = true.
Proof.
  intros es s l es' s' l' H I. apply (shutdown_posted es s l); [exact H|]. pose proof (channel_view _ _ _ _ _ H) as HC.
  enough (IC : In (CApi Shutdown) (channel_ins l)).
  { destruct (shutdown_queued _ _ _ _ _ _ HC IC) as [Q|Q]; [left; exact Q|right]. apply (history_shutdown _ _ _ _ _ _ HC). exact Q. }
  clear HC. revert s l H. induction es as [|e es IH] using rev_ind; intros s l H; [destruct I|].
  apply tcp_split in H as (s1 & l1 & l2 & H & _ & S1 & ->). views. apply in_or_app. apply in_app_or in I as [I|[->|[]]]; [left; eapply IH; eauto|right].
  cbn [ClientTcp.tcp_step] in S1. apply channel_turn_outs in S1 as [_ ->]. left. reflexivity.
Qed.

Lemma nshutdown_queued : forall es s s' os, conn_run s es = Ret (s', os) -> In NShutdown es -> In NDoShutdown (cn_queue s') \/ dead s'.
Proof.
  intros es s s' os E I. apply in_split in I as (a & b & ->). apply ConnFacts.run_app in E as (s1 & o1 & o2 & _ & E & _).
  cbn [conn_run conn_step obind] in E. destruct (conn_run (with_nqueue s1 (cn_queue s1 ++ [NDoShutdown])) b) as [[s2 o3]|] eqn:R; cbn [obind] in E; [|discriminate].
  injection E as <- <-.
  assert (G : forall b s0 s2 o3, conn_run s0 b = Ret (s2, o3) -> In NDoShutdown (cn_queue s0) \/ dead s0 -> In NDoShutdown (cn_queue s2) \/ dead s2).
  { clear. induction b as [|e b IH]; intros s0 s2 o3 E K; cbn [conn_run] in E; [injection E as <- <-; exact K|].
    destruct (conn_step s0 e) as [[s1 o1]|] eqn:S1; cbn [obind] in E; [|discriminate].
    destruct (conn_run s1 b) as [[s3 o4]|] eqn:R; cbn [obind] in E; [|discriminate]. injection E as <- <-.
    eapply IH; [exact R|]. destruct K as [K|K]; [|right; destruct (dead_step s0 e K) as (s5 & E5 & D5); rewrite E5 in S1; injection S1 as <- <-; exact D5].
    destruct (ConnFacts.step_queue _ _ _ _ S1) as (q & Q). rewrite Q. destruct e; try (left; apply in_or_app; auto; fail).
    cbn [conn_step] in S1. destruct (cn_queue s0) as [|c q0]; [destruct K|]. destruct K as [->|K]; [|left; apply in_or_app; left; exact K].
    right. injection S1 as <- <-. split; [reflexivity|]. apply aborted_abort. }
  eapply G; [exact R|]. left. cbn. apply in_or_app. right. left. reflexivity.
Qed.

Lemma connection_goes_down : forall es s l es' s' l', tcp_history es s l -> cc_shutdown (tc_channel s) = true -> Forall typed_tevent es' ->
  tcp_run s es' = Ret (s', l') -> (List.length (tc_order s) <= truns es')%nat -> dead (tc_conn s').
Proof.
  intros es s l es' s' l' H SD T R L.
  pose proof (channel_view _ _ _ _ _ H) as HC. apply (history_shutdown _ _ _ _ _ _ HC) in SD. apply in_channel_outs in SD. apply in_split in SD as (a & b & E).
  destruct (trace_wired _ _ _ (history_trace _ _ _ _ _ H)) as (_ & _ & _ & _ & F & _). destruct (F _ _ _ E eq_refl) as (m' & b' & -> & _ & ->).
  assert (I : In NShutdown (conn_ins l)) by (apply in_conn_ins; rewrite E; apply in_or_app; right; right; left; reflexivity).
  destruct (nshutdown_queued _ _ _ _ (conn_view _ _ _ _ _ H) I) as [Q|D].
  - destruct (conn_wait s NDoShutdown (history_ordered _ _ _ _ _ H) Q) as (n & C & Ln).
    destruct (conn_turn_comes _ _ _ _ _ _ _ _ H T R C ltac:(lia)) as (es1 & xs & es2 & s1 & l1 & s2 & l2 & l3 & _ & _ & (q & b0 & O & QQ) & S2 & R2 & _).
    eapply dead_stays; [|exact (tcp_conn_run _ _ _ _ R2)]. cbn [ClientTcp.tcp_step] in S2. rewrite O in S2.
    destruct (conn_turn_cases _ _ _ _ _ _ _ _ _ S2) as [(c & os & S3 & _ & -> & _)|(c & os & cb & ce & l4 & S3 & _)].
    + cbn [conn_step] in S3. rewrite QQ in S3. injection S3 as <- <-. split; [reflexivity|]. apply aborted_abort.
    + exfalso. cbn [conn_step] in S3. rewrite QQ in S3. injection S3 as _ K. destruct os; discriminate.
  - eapply dead_stays; [exact D|exact (tcp_conn_run _ _ _ _ R)].
Qed.

Theorem silent_after : forall es s l es1 s1 l1 es2 s2 l2 es3 s3 l3, tcp_history es s l -> In (TApi Shutdown) es ->
  Forall typed_tevent (es1 ++ es2) ->
  tcp_run s es1 = Ret (s1, l1) -> (List.length (tc_order s) <= truns es1)%nat ->
  tcp_run s1 es2 = Ret (s2, l2) -> (List.length (tc_order s1) <= truns es2)%nat ->
  tcp_run s2 es3 = Ret (s3, l3) ->
  conn_outs l3 = [] /\ Forall SpecClient.quiet (channel_outs (l2 ++ l3)).
Proof.
  intros es s l es1 s1 l1 es2 s2 l2 es3 s3 l3 H I T R1 L1 R2 L2 R3. apply Forall_app in T as [T1 T2].
  pose proof (channel_goes_down _ _ _ _ _ _ H I T1 R1 L1) as D1.
  pose proof (connection_goes_down _ _ _ _ _ _ (tcp_extends _ _ _ _ _ _ _ _ H T1 R1) D1 T2 R2 L2) as D2. split.
  - destruct (dead_run (conn_ins l3) _ D2) as (c & E). rewrite (tcp_conn_run _ _ _ _ R3) in E. injection E as _ E. exact E.
  - assert (R : tcp_run s1 (es2 ++ es3) = Ret (s3, l2 ++ l3)) by (rewrite run_app_tcp, R2; cbn [obind]; rewrite R3; reflexivity).
    eapply run_quiet; [exact D1|]. exact (tcp_channel_run _ _ _ _ R).
Qed.

(** The socket of a connection that was shut down stays as it is. *)
Lemma dead_socket : forall s e s' o, dead s -> conn_step s e = Ret (s', o) -> cn_socket s' = cn_socket s.
Proof.
  intros s e s' o [D A] E. destruct e as [d x| | |ok|g ok|r x|w n|w ok]; cbn [conn_step] in E.
  - apply ret_inj in E. unfold conn_send in E. rewrite D in E. injection E as <- <-. reflexivity.
  - injection E as <- <-. reflexivity.
  - destruct (cn_queue s) as [|[|] q]; [injection E as <- <-; reflexivity| |injection E as <- <-; reflexivity].
    apply ret_inj in E. unfold do_close in E. cbn [cn_shutdown with_nqueue] in E. rewrite D in E. injection E as <- <-. reflexivity.
  - destruct (cn_resolves s); [injection E as <- <-; reflexivity|]. apply ret_inj in E. unfold resolve_handler in E. cbn [cn_shutdown with_resolves] in E.
    rewrite D in E. injection E as <- <-. reflexivity.
  - destruct (existsb _ _); [|injection E as <- <-; reflexivity]. apply ret_inj in E. unfold connect_handler in E. cbn [cn_shutdown with_connects] in E.
    rewrite D in E. injection E as <- <-. reflexivity.
  - destruct (find_read _ _) as [h|]; [|injection E as <- <-; reflexivity]. destruct (possible h x); [|injection E as <- <-; reflexivity].
    apply ret_inj in E. unfold read_handler in E. cbn [cn_shutdown with_reads] in E. rewrite D in E. injection E as <- <-. reflexivity.
  - destruct (w_transfer _ _ _) as [[c ow]|]; cbn [obind] in E; [|discriminate]. injection E as <- <-. reflexivity.
  - apply ret_inj in E. unfold write_handler in E. destruct (w_complete _ _ _) as [[c ow]|]; [|injection E as <- <-; reflexivity].
    rewrite D in E. injection E as <- <-. reflexivity.
Qed.

Lemma dead_socket_run : forall es s s' os, dead s -> conn_run s es = Ret (s', os) -> cn_socket s' = cn_socket s.
Proof.
  induction es as [|e es IH]; intros s s' os D E; cbn [conn_run] in E; [injection E as <- <-; reflexivity|].
  destruct (conn_step s e) as [[s1 o1]|] eqn:S1; cbn [obind] in E; [|discriminate].
  destruct (conn_run s1 es) as [[s2 o2]|] eqn:R; cbn [obind] in E; [|discriminate]. injection E as <- <-.
  rewrite <- (dead_socket _ _ _ _ D S1). eapply IH; [|exact R]. destruct (dead_step s e D) as (s5 & E5 & D5). rewrite E5 in S1. injection S1 as <- <-. exact D5.
Qed.

Lemma down_dead : forall es s os, conn_run cconn_init es = Ret (s, os) -> cn_shutdown s = true -> dead s.
Proof.
  intros es s os E SD.
  assert (G : forall es s0 s os, conn_run s0 es = Ret (s, os) -> cn_shutdown s0 = false \/ dead s0 -> cn_shutdown s = false \/ dead s).
  { clear. induction es as [|e es IH]; intros s0 s os E K; cbn [conn_run] in E; [injection E as <- <-; exact K|].
    destruct (conn_step s0 e) as [[s1 o1]|] eqn:S1; cbn [obind] in E; [|discriminate].
    destruct (conn_run s1 es) as [[s2 o2]|] eqn:R; cbn [obind] in E; [|discriminate]. injection E as <- <-.
    eapply IH; [exact R|]. destruct K as [K|D]; [eapply step_alive; eauto|]. right. destruct (dead_step s0 e D) as (s5 & E5 & D5). rewrite E5 in S1. injection S1 as <- <-. exact D5. }
  destruct (G _ _ _ _ E (or_introl eq_refl)) as [K|K]; [congruence|exact K].
Qed.

Theorem socket_stays : forall es s l es' s' l', tcp_history es s l -> cn_shutdown (tc_conn s) = true -> tcp_run s es' = Ret (s', l') ->
  cn_socket (tc_conn s') = cn_socket (tc_conn s) /\ conn_outs l' = [].
Proof.
  intros es s l es' s' l' H SD R. pose proof (down_dead _ _ _ (conn_view _ _ _ _ _ H) SD) as D. pose proof (tcp_conn_run _ _ _ _ R) as C.
  split; [exact (dead_socket_run _ _ _ _ D C)|]. destruct (dead_run (conn_ins l') _ D) as (c & E). rewrite C in E. injection E as _ E. exact E.
Qed.
End Tcp.
