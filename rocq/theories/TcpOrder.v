(** Proofs about ClientTcp.v: the closures of the two parts, and what they lead to. *)
From Verif Require Import Prelude Ser4 Messages Mbap SpecPdu SpecMbap Client SpecClient ClientFacts ClientLemmas ClientShutdown ClientOutcomes AsyncWrite
  ClientConn SpecConn WriteFacts ConnFacts ClientTcp SpecClientTcp TcpFacts TcpWire.
From Coq Require Import Lia.

Section Order.
Context {W : Type}.
Context (handler : nat -> W -> expected (list N) -> W * list capi).
Context (pol : copy_policy).
Notation history := (history handler pol).
Notation tcp_history := (tcp_history handler pol).
Notation tcp_run := (tcp_run handler pol).
Notation tcp_step := (tcp_step handler pol).

(** ** Histories *)
Lemma run_app_tcp : forall es1 es2 s, tcp_run s (es1 ++ es2) =
  let! (s1, l1) := tcp_run s es1 in let! (s2, l2) := tcp_run s1 es2 in Ret (s2, l1 ++ l2).
Proof.
  induction es1 as [|e es1 IH]; intros es2 s; cbn [app ClientTcp.tcp_run obind].
  - destruct (tcp_run s es2) as [[s2 l2]|]; reflexivity.
  - destruct (tcp_step s e) as [[s1 l1]|]; cbn [obind]; [|reflexivity].
    rewrite IH. destruct (tcp_run s1 es1) as [[s2 l2]|]; cbn [obind]; [|reflexivity].
    destruct (tcp_run s2 es2) as [[s3 l3]|]; cbn [obind]; [|reflexivity]. rewrite app_assoc. reflexivity.
Qed.

Lemma tcp_extend : forall es s l e s' l', tcp_history es s l -> typed_tevent e -> tcp_step s e = Ret (s', l') ->
  tcp_history (es ++ [e]) s' (l ++ l').
Proof.
  intros es s l e s' l' (buf & w0 & G & T & E) Ty S1. exists buf, w0. split; [exact G|]. split; [apply Forall_app; auto|].
  rewrite run_app_tcp, E. cbn [obind ClientTcp.tcp_run]. rewrite S1. cbn [obind]. rewrite app_nil_r. reflexivity.
Qed.

Lemma tcp_extends : forall es s l es' s' l', tcp_history es s l -> Forall typed_tevent es' -> tcp_run s es' = Ret (s', l') ->
  tcp_history (es ++ es') s' (l ++ l').
Proof.
  intros es s l es' s' l' (buf & w0 & G & T & E) Ty S1. exists buf, w0. split; [exact G|]. split; [apply Forall_app; auto|].
  rewrite run_app_tcp, E. cbn [obind]. rewrite S1. reflexivity.
Qed.

Lemma tcp_split : forall es e s l, tcp_history (es ++ [e]) s l ->
  exists s1 l1 l2, tcp_history es s1 l1 /\ typed_tevent e /\ tcp_step s1 e = Ret (s, l2) /\ l = l1 ++ l2.
Proof.
  intros es e s l (buf & w0 & G & T & E). apply Forall_app in T as [T T2]. rewrite run_app_tcp in E.
  destruct (ClientTcp.tcp_run _ _ _ es) as [[s1 l1]|] eqn:R; cbn [obind] in E; [|discriminate]. cbn [ClientTcp.tcp_run] in E.
  destruct (tcp_step s1 e) as [[s2 l2]|] eqn:S1; cbn [obind] in E; [|discriminate]. injection E as <- <-. rewrite app_nil_r.
  exists s1, l1, l2. split; [exists buf, w0; auto|]. inversion T2. auto.
Qed.

(** ** The queue of the channel *)
Lemma queue_grows : forall es s w os e s' w' o, history es s w os -> typed_cevent e -> client_step handler pol s w e = Ret (s', w', o) ->
  exists q, cc_queue s' = (match e with CRun => tl (cc_queue s) | _ => cc_queue s end) ++ q.
Proof.
  intros es s w os e s' w' o H Ht E. destruct (history_reached _ _ _ _ _ _ H) as (C & St & (t & HR & Htr)).
  destruct e as [a| |d|msg|x|x]; cbn [client_step] in E.
  - destruct a as [k|]; cbn [capi_call] in E; injection E as <- <- <-; proj; [|eexists; reflexivity].
    destruct (cc_shutdown s); [exists []; rewrite app_nil_r; reflexivity|].
    destruct (im_valid (k_msg k)); eexists; reflexivity.
  - destruct (cc_queue s) as [|t0 q] eqn:Hq; [injection E as <- <- <-; exists []; exact Hq|].
    destruct (run_ctask_spec handler s os w t0 q C St Hq) as (s1 & w1 & o1 & E1 & _ & _ & _ & _ & (q' & Hq') & _).
    rewrite E1 in E. injection E as <- <- <-. exists q'. exact Hq'.
  - unfold on_receive in E.
    destruct (cc_shutdown s); [injection E as <- <- <-; exists []; rewrite app_nil_r; reflexivity|].
    destruct (mbap_parse pol (cc_parser s) d) as [[p ms]|]; cbn [obind] in E; [|discriminate]. injection E as E.
    destruct (on_responses_spec handler ms (with_parser s p) os w (core_parser _ _ _ C) St) as (s1 & w1 & o1 & E1 & _ & _ & _ & _ & _ & (q & Hq) & _).
    rewrite E1 in E. injection E as <- <- <-. exists q. exact Hq.
  - injection E as E.
    destruct (on_error_spec handler s os w msg C St) as (s1 & w1 & o1 & E1 & _ & _ & _ & _ & (q & Hq) & _).
    rewrite E1 in E. injection E as <- <- <-. exists q. exact Hq.
  - exists []. rewrite app_nil_r. destruct (existsb (Nat.eqb x) (cc_armed s)); injection E as <- <- <-; reflexivity.
  - destruct (existsb (Nat.eqb x) (cc_expired s)); [|injection E as <- <- <-; exists []; rewrite app_nil_r; reflexivity]. injection E as E.
    destruct (on_timeout_spec handler s os w x C St) as (s1 & w1 & o1 & E1 & _ & _ & _ & _ & _ & (q & Hq) & _).
    rewrite E1 in E. injection E as <- <- <-. exists q. exact Hq.
Qed.

(** ** The order of closures *)
Definition turns (t : turn) (l : list turn) : nat :=
  List.length (filter (fun x => match x, t with ChannelTurn, ChannelTurn | ConnTurn, ConnTurn => true | _, _ => false end) l).

Lemma turns_app : forall t a b, turns t (a ++ b) = (turns t a + turns t b)%nat.
Proof. intros. unfold turns. rewrite filter_app, app_length. reflexivity. Qed.
Lemma turns_repeat : forall t u n, turns t (repeat u n) = match u, t with ChannelTurn, ChannelTurn | ConnTurn, ConnTurn => n | _, _ => 0%nat end.
Proof. intros t u n. induction n as [|n IH]; [destruct t, u; reflexivity|]. unfold turns in *. destruct t, u; cbn [repeat filter List.length]; rewrite ?IH; reflexivity. Qed.

(** The [n]-th turn of a part in the order is for the [n]-th closure in its queue. *)
Definition ordered (s : tclient W) : Prop :=
  turns ChannelTurn (tc_order s) = List.length (cc_queue (tc_channel s)) /\
  turns ConnTurn (tc_order s) = List.length (cn_queue (tc_conn s)).

Lemma to_conn_queue : forall os xs c c' l, to_conn c os xs = Ret (c', l) -> exists q, cn_queue c' = cn_queue c ++ q.
Proof.
  induction os as [|o os IH]; intros xs c c' l E; cbn [to_conn] in E.
  - injection E as <- <-. exists []. rewrite app_nil_r. reflexivity.
  - destruct o as [i k|i u t f|i t d|i r|];
      try (destruct (to_conn c os xs) as [[c1 l1]|] eqn:R; cbn [obind] in E; [|discriminate]; injection E as <- <-; eapply IH; eauto; fail).
    + cbv zeta in E. destruct (conn_step c _) as [[c1 o1]|] eqn:S1; cbn [obind] in E; [|discriminate].
      destruct (to_conn c1 os (tl xs)) as [[c2 l1]|] eqn:R; cbn [obind] in E; [|discriminate]. injection E as <- <-.
      apply ConnFacts.step_queue in S1 as (q1 & S1). destruct (IH _ _ _ _ R) as (q2 & Q2). exists (q1 ++ q2). rewrite Q2, S1, <- app_assoc. reflexivity.
    + destruct (conn_step c NShutdown) as [[c1 o1]|] eqn:S1; cbn [obind] in E; [|discriminate].
      destruct (to_conn c1 os xs) as [[c2 l1]|] eqn:R; cbn [obind] in E; [|discriminate]. injection E as <- <-.
      apply ConnFacts.step_queue in S1 as (q1 & S1). destruct (IH _ _ _ _ R) as (q2 & Q2). exists (q1 ++ q2). rewrite Q2, S1, <- app_assoc. reflexivity.
Qed.

(** How a turn changes the queues and the order. *)
Definition appended (s : tclient W) (q : list turn) (tail1 : list ctask) (tail2 : list nclosure) (s' : tclient W) : Prop :=
  exists q1 q2 q3, cc_queue (tc_channel s') = tail1 ++ q1 /\ cn_queue (tc_conn s') = tail2 ++ q2 ++ q3 /\
    tc_order s' = q ++ repeat ConnTurn (List.length q2) ++ repeat ChannelTurn (List.length q1) ++ repeat ConnTurn (List.length q3).

Lemma channel_turn_appended : forall es cs s q e xs s' l, history es (tc_channel s) (tc_user s) cs -> typed_cevent e ->
  (e = CRun -> cc_queue (tc_channel s) <> []) ->
  channel_turn handler pol s q e xs = Ret (s', l) ->
  exists q1 q3, cc_queue (tc_channel s') = (match e with CRun => tl (cc_queue (tc_channel s)) | _ => cc_queue (tc_channel s) end) ++ q1 /\
    cn_queue (tc_conn s') = cn_queue (tc_conn s) ++ q3 /\
    tc_order s' = q ++ repeat ChannelTurn (List.length q1) ++ repeat ConnTurn (List.length q3).
Proof.
  intros es cs s q e xs s' l H T NE E. unfold channel_turn in E.
  destruct (client_step _ _ _ _ e) as [[[ch w] os]|] eqn:S1; cbn [obind] in E; [|discriminate].
  destruct (to_conn _ os xs) as [[c l1]|] eqn:R; cbn [obind] in E; [|discriminate]. injection E as <- <-.
  destruct (queue_grows _ _ _ _ _ _ _ _ H T S1) as (q1 & Q1). destruct (to_conn_queue _ _ _ _ _ R) as (q3 & Q3).
  exists q1, q3. cbn [tc_channel tc_conn tc_order]. split; [exact Q1|]. split; [exact Q3|]. unfold posted. rewrite Q1, Q3, !app_length.
  do 2 f_equal; [|do 2 f_equal; lia]. f_equal.
  destruct e; cbn [Nat.sub]; try lia. destruct (cc_queue (tc_channel s)); [destruct (NE eq_refl eq_refl)|]. cbn [tl List.length]. lia.
Qed.

Lemma conn_turn_appended : forall es cs s q e msg xs s' l, history es (tc_channel s) (tc_user s) cs ->
  (forall r d, e = NRead r (RData d) -> bytes d) ->
  (e = NRun -> cn_queue (tc_conn s) <> []) ->
  conn_turn handler pol s q e msg xs = Ret (s', l) ->
  appended s q (cc_queue (tc_channel s)) (match e with NRun => tl (cn_queue (tc_conn s)) | _ => cn_queue (tc_conn s) end) s'.
Proof.
  intros es cs s q e msg xs s' l H T NE E.
  assert (L : forall c o, conn_step (tc_conn s) e = Ret (c, o) -> exists q2,
            cn_queue c = (match e with NRun => tl (cn_queue (tc_conn s)) | _ => cn_queue (tc_conn s) end) ++ q2 /\
            tc_order (before_callbacks s q e c) = q ++ repeat ConnTurn (List.length q2)).
  { intros c o S1. destruct (ConnFacts.step_queue _ _ _ _ S1) as (q2 & Q2). exists q2. split; [exact Q2|].
    unfold before_callbacks, posted. cbn [tc_order]. rewrite Q2, app_length. do 2 f_equal.
    destruct e; try lia. destruct (cn_queue (tc_conn s)); [destruct (NE eq_refl eq_refl)|]. cbn [tl List.length]. lia. }
  destruct (conn_turn_cases _ _ _ _ _ _ _ _ _ E) as [(c & os & S1 & _ & -> & ->)|(c & os & cb & ce & l' & S1 & _ & B & _ & TT & ->)];
    destruct (L _ _ S1) as (q2 & Q2 & O2); clear L.
  - exists [], q2, []. cbn [before_callbacks tc_channel tc_conn List.length repeat]. rewrite !app_nil_r. rewrite O2. auto.
  - destruct (channel_turn_appended es cs (before_callbacks s q e c) (tc_order (before_callbacks s q e c)) ce xs s' (ChannelIn ce :: l') H) as (q1 & q3 & Q1 & Q3 & O1); [| |exact TT|].
    + destruct B; [|exact Logic.I]. destruct (received_source _ _ _ _ g d S1) as (r & ->); [apply in_or_app; right; left; reflexivity|]. eapply T; eauto.
    + intros ->. inversion B.
    + exists q1, q2, q3. rewrite O1, O2, Q3. cbn [before_callbacks tc_channel tc_conn] in *. rewrite Q2, <- !app_assoc.
      split; [destruct B; exact Q1|]. auto.
Qed.

(** Every step. *)
Definition is_run (e : tevent) : bool := match e with TRun _ => true | _ => false end.

Lemma step_appended : forall es s l e s' l', tcp_history es s l -> typed_tevent e -> ordered s -> tcp_step s e = Ret (s', l') ->
  (is_run e = false /\ appended s (tc_order s) (cc_queue (tc_channel s)) (cn_queue (tc_conn s)) s') \/
  (is_run e = true /\ tc_order s = [] /\ s' = s /\ l' = []) \/
  (exists q t tl1, is_run e = true /\ tc_order s = ChannelTurn :: q /\ cc_queue (tc_channel s) = t :: tl1 /\ appended s q tl1 (cn_queue (tc_conn s)) s') \/
  (exists q t tl2, is_run e = true /\ tc_order s = ConnTurn :: q /\ cn_queue (tc_conn s) = t :: tl2 /\ appended s q (cc_queue (tc_channel s)) tl2 s').
Proof.
  intros es s l e s' l' H T [O1 O2] E. pose proof (channel_view _ _ _ _ _ H) as HC.
  assert (P : forall x xs, typed_cevent x -> x <> CRun -> channel_turn handler pol s (tc_order s) x xs = Ret (s', l') ->
            appended s (tc_order s) (cc_queue (tc_channel s)) (cn_queue (tc_conn s)) s').
  { intros x xs Tx NR E'. destruct (channel_turn_appended _ _ _ _ _ _ _ _ HC Tx (fun K => False_ind _ (NR K)) E') as (q1 & q3 & Q1 & Q3 & O3).
    exists q1, [], q3. cbn [List.length repeat app]. split; [destruct x; try exact Q1; contradiction|auto]. }
  assert (Q : forall x m xs, (forall r d, x = NRead r (RData d) -> bytes d) -> x <> NRun -> conn_turn handler pol s (tc_order s) x m xs = Ret (s', l') ->
            appended s (tc_order s) (cc_queue (tc_channel s)) (cn_queue (tc_conn s)) s').
  { intros x m xs Tx NR E'. pose proof (conn_turn_appended _ _ _ _ _ _ _ _ _ HC Tx (fun K => False_ind _ (NR K)) E') as A.
    destruct x; try exact A; contradiction. }
  destruct e as [a|xs|t|t xs|ok msg|g ok msg|r x msg xs|w n|w ok msg]; cbn [ClientTcp.tcp_step is_run] in *.
  - left. split; [reflexivity|]. eapply P; [| |exact E]; [exact Logic.I|discriminate].
  - right. destruct (tc_order s) as [|[|] q] eqn:OO.
    + left. injection E as <- <-. auto.
    + right. left. unfold turns in O1. cbn in O1. destruct (cc_queue (tc_channel s)) as [|t0 q0] eqn:QQ; [discriminate|].
      exists q, t0, q0. repeat split.
      destruct (channel_turn_appended _ _ s q CRun xs s' l' HC Logic.I (fun _ => ltac:(rewrite QQ; discriminate)) E) as (q1 & q3 & Q1 & Q3 & O3).
      exists q1, [], q3. cbn [List.length repeat app]. rewrite QQ in Q1. cbn [tl] in Q1. auto.
    + right. right. unfold turns in O2. cbn in O2. destruct (cn_queue (tc_conn s)) as [|t0 q0] eqn:QQ; [discriminate|].
      exists q, t0, q0. repeat split.
      pose proof (conn_turn_appended _ _ s q NRun _ _ _ _ HC (fun _ _ K => False_ind _ (eq_ind NRun (fun z => match z with NRun => True | _ => False end) Logic.I _ K)) (fun _ => ltac:(rewrite QQ; discriminate)) E) as A.
      rewrite QQ in A. exact A.
  - left. split; [reflexivity|]. eapply P; [| |exact E]; [exact Logic.I|discriminate].
  - left. split; [reflexivity|]. eapply P; [| |exact E]; [exact Logic.I|discriminate].
  - left. split; [reflexivity|]. eapply Q; [| |exact E]; discriminate.
  - left. split; [reflexivity|]. eapply Q; [| |exact E]; discriminate.
  - left. split; [reflexivity|]. eapply Q; [| |exact E]; [|discriminate]. intros r0 d K. injection K as -> ->. exact T.
  - left. split; [reflexivity|]. eapply Q; [| |exact E]; discriminate.
  - left. split; [reflexivity|]. eapply Q; [| |exact E]; discriminate.
Qed.

Lemma appended_ordered : forall s q t1 t2 s', appended s q t1 t2 s' ->
  turns ChannelTurn q = List.length t1 -> turns ConnTurn q = List.length t2 -> ordered s'.
Proof.
  intros s q t1 t2 s' (q1 & q2 & q3 & A & B & C) E1 E2. unfold ordered. rewrite A, B, C, !turns_app, !turns_repeat, !app_length. lia.
Qed.

Theorem history_ordered : forall es s l, tcp_history es s l -> ordered s.
Proof.
  induction es as [|e es IH] using rev_ind; intros s l H.
  - destruct H as (buf & w0 & _ & _ & E). cbn in E. injection E as <- <-. split; reflexivity.
  - apply tcp_split in H as (s1 & l1 & l2 & H & T & S1 & ->). pose proof (IH _ _ H) as O.
    destruct (step_appended _ _ _ _ _ _ H T O S1) as [(_ & A)|[(_ & _ & -> & _)|[(q & t & tl1 & _ & O1 & Q & A)|(q & t & tl2 & _ & O1 & Q & A)]]].
    + eapply appended_ordered; [exact A| |]; apply O.
    + exact O.
    + destruct O as [E1 E2]. rewrite O1, Q in E1. rewrite O1 in E2. unfold turns in E1, E2. cbn in E1, E2.
      eapply appended_ordered; [exact A| |]; unfold turns; lia.
    + destruct O as [E1 E2]. rewrite O1 in E1. rewrite O1, Q in E2. unfold turns in E1, E2. cbn in E1, E2.
      eapply appended_ordered; [exact A| |]; unfold turns; lia.
Qed.
End Order.
