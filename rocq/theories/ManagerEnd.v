(** The channels of a manager come to an end together. *)
From Verif Require Import Prelude Ser4 Messages Mbap SpecMbap Client SpecClient AsyncWrite ClientConn SpecConn ClientTcp SpecClientTcp TcpEnd SpecEnd
  Server SpecServer Listener SpecListener ServerConn ServerTcp SpecServerTcp ServerTcpTheorems ServerTcpFacts ServerLemmas ServerLifetime SpecServerLifetime SpecServerEnd ServerEnd
  ServerTcpCases ServerEndCases Manager SpecManager ManagerFacts ManagerShutdown ManagerTheorems SpecManagerEnd.
From Coq Require Import Lia.

(** ** One of several makes a step *)
Section Steps.
Context {A : Type}.
Context (R : A -> A -> Prop).

Inductive one_step : list A -> list A -> Prop :=
| Here y x l : R y x -> one_step (y :: l) (x :: l)
| There x l' l : one_step l' l -> one_step (x :: l') (x :: l).

Lemma all_finite l : Forall (Acc R) l -> Acc one_step l.
Proof.
  induction l as [|x l IH]; intros F; [constructor; intros y H; inversion H|].
  inversion F as [|? ? Fx Fl]; subst. specialize (IH Fl). clear F Fl. revert l IH. induction Fx as [x _ IHx]. intros l Hl.
  induction Hl as [l Hl IHl]. constructor. intros y H. inversion H as [y' ? ? Ry|? l' ? Rl]; subst.
  - apply IHx; [exact Ry|]. constructor. exact Hl.
  - apply IHl. exact Rl.
Qed.
End Steps.

Lemma one_step_put {U V : Type} (R : channel U V -> channel U V -> Prop) l : forall i c c', nth_error l i = Some c -> R c' c -> one_step R (put i c' l) l.
Proof.
  induction l as [|x l IH]; intros i c c' E H; [destruct i; discriminate E|]. destruct i as [|i]; cbn [put].
  - injection E as ->. constructor. exact H.
  - constructor. exact (IH _ _ _ E H).
Qed.

Lemma Forall_put {U V : Type} (P : channel U V -> Prop) l : forall i c, Forall P l -> P c -> Forall P (put i c l).
Proof.
  induction l as [|x l IH]; intros i c F H; [destruct i; exact F|]. inversion F; subst. destruct i as [|i]; cbn [put]; constructor; auto.
Qed.

Section End.
Context {U V : Type}.
Context (pol : copy_policy).
Implicit Type s : manager U V.

Definition channel_ends (c : channel U V) : Prop :=
  match c with ClientSide h c => tcp_ends h pol c | ServerSide r d c => server_ends r d pol c end.

(** An event of its own. *)
Definition channel_goes (c' c : channel U V) : Prop :=
  match c with
  | ClientSide h c => exists e x l, typed_tevent e /\ tcp_enabled c e /\ tcp_step h pol c e = Ret (x, l) /\ c' = ClientSide h x
  | ServerSide r d c => exists e x m, typed_uevent e /\ server_enabled c e /\ userver_step r d pol c e = Ret (x, m) /\ c' = ServerSide r d x
  end.

Lemma client_finite h : forall c, tcp_ends h pol c -> Acc channel_goes (ClientSide h c).
Proof.
  fix IH 2. intros c [A _]. constructor. intros y (e & x & l & T & En & E & ->). destruct (A e T En) as (x' & l' & E' & X).
  rewrite E in E'. injection E' as E' _. rewrite E'. exact (IH x' X).
Qed.

Lemma server_finite r d : forall c, server_ends r d pol c -> Acc channel_goes (ServerSide r d c).
Proof.
  fix IH 2. intros c [A _]. constructor. intros y (e & x & m & T & En & E & ->). destruct (A e T En) as (x' & m' & E' & X).
  rewrite E in E'. injection E' as E' _. rewrite E'. exact (IH x' X).
Qed.

Lemma channel_finite c : channel_ends c -> Acc channel_goes c.
Proof. destruct c as [h c|r d c]; [apply client_finite|apply server_finite]. Qed.

Lemma end_together l : Acc (one_step channel_goes) l -> forall s, mg_channels s = l -> Forall channel_ends l -> manager_ends pol s.
Proof.
  intros Ac. induction Ac as [l _ IH]. intros s El F. constructor.
  - intros e T En. destruct e as [| | | | |i e|i e]; try destruct En.
    + destruct H as (c & Ni & En). rename x into h. rewrite El in Ni.
      assert (X : channel_ends (ClientSide h c)) by (rewrite Forall_forall in F; apply F; exact (nth_error_In _ _ Ni)).
      destruct X as [X _]. destruct (X e T En) as (c' & m & E & X'). cbn [manager_step]. unfold client_event. rewrite El, Ni, E. cbn [obind].
      eexists. eexists. split; [reflexivity|]. apply (IH (put i (ClientSide h c') l)); [|reflexivity|].
      * apply (one_step_put _ _ _ _ _ Ni). exists e, c', m. auto.
      * apply Forall_put; [exact F|exact X'].
    + destruct H as (d & c & Ni & En). rename x into r. rewrite El in Ni.
      assert (X : channel_ends (ServerSide r d c)) by (rewrite Forall_forall in F; apply F; exact (nth_error_In _ _ Ni)).
      destruct X as [X _]. destruct (X e T En) as (c' & m & E & X'). cbn [manager_step]. unfold server_event. rewrite El, Ni, E. cbn [obind].
      eexists. eexists. split; [reflexivity|]. apply (IH (put i (ServerSide r d c') l)); [|reflexivity|].
      * apply (one_step_put _ _ _ _ _ Ni). exists e, c', m. auto.
      * apply Forall_put; [exact F|exact X'].
  - intros N. unfold manager_idle. rewrite El. apply Forall_forall. intros c Hc. apply In_nth_error in Hc as (i & Ni).
    assert (X : channel_ends c) by (rewrite Forall_forall in F; apply F; exact (nth_error_In _ _ Ni)).
    destruct c as [h c|r d c]; destruct X as [_ X]; apply X; intros e T En.
    + apply (N (MClient i e) T). exists h, c. rewrite El. auto.
    + apply (N (MServer i e) T). exists r, d, c. rewrite El. auto.
Qed.

Lemma channels_end s : Forall channel_ends (mg_channels s) -> manager_ends pol s.
Proof. intros F. apply (end_together (mg_channels s)); [|reflexivity|exact F]. apply all_finite. eapply Forall_impl; [|exact F]. exact channel_finite. Qed.

Lemma mhistory_extends es s l es' s' l' : manager_history pol es s l -> Forall typed_mevent es' -> manager_run pol s es' = Ret (s', l') -> manager_history pol (es ++ es') s' (l ++ l').
Proof.
  intros (T & R) T' R'. split; [apply Forall_app; auto|]. rewrite mrun_app, R. cbn [obind]. rewrite R'. reflexivity.
Qed.

Theorem manager_comes_to_end es s l es1 s1 l1 es2 s2 l2 : manager_history pol es s l ->
  (forall i, (i < List.length (mg_channels s2))%nat -> In i (told l)) ->
  (forall r d max w, In (MNewServer r d max w) (es ++ es1 ++ es2) -> well_typed r /\ max < 2 ^ 32 - 1) ->
  Forall typed_mevent (es1 ++ es2) -> manager_run pol s es1 = Ret (s1, l1) -> manager_run pol s1 es2 = Ret (s2, l2) ->
  (forall i h c, nth_error (mg_channels s) i = Some (ClientSide h c) -> (List.length (tc_order c) <= truns (client_events i l1))%nat) ->
  (forall i h c, nth_error (mg_channels s1) i = Some (ClientSide h c) -> (List.length (tc_order c) <= truns (client_events i l2))%nat) ->
  (forall i r d c, nth_error (mg_channels s2) i = Some (ServerSide r d c) ->
     us_order c = [] /\ (starts_of (listen_ins (server_marks i (l ++ l1 ++ l2))) <= 1)%nat) ->
  manager_ends pol s2.
Proof.
  intros Hy Tl Wt Ty R1 R2 C1 C2 Sv. apply channels_end. apply Forall_forall. intros c Hc. apply In_nth_error in Hc as (i & Ni).
  assert (Li : (i < List.length (mg_channels s2))%nat) by (apply nth_error_Some; congruence). specialize (Tl i Li).
  assert (Ty' := Ty). apply Forall_app in Ty' as [Ty1 Ty2].
  assert (Hy2 := mhistory_extends _ _ _ _ _ _ (mhistory_extends _ _ _ _ _ _ Hy Ty1 R1) Ty2 R2). rewrite <- !app_assoc in Hy2.
  assert (A := channels_alone pol _ _ _ i Hy). assert (A2 := channels_alone pol _ _ _ i Hy2). rewrite Ni in A2.
  assert (M := told_means pol _ _ _ _ Hy Tl). assert (P1 := run_ran pol _ _ _ _ i R1). assert (P2 := run_ran pol _ _ _ _ i R2).
  destruct (nth_error (mg_channels s) i) as [[h c0|r d c0]|] eqn:N0.
  - destruct A as (buf & w & _ & Gb & Tc & Rc & Z). assert (Sh : In (TApi Client.Shutdown) (client_events i l)) by (destruct M as [M|M]; [exact M|rewrite Z in M; destruct M]).
    cbn [ran] in P1. destruct P1 as (c1 & N1 & Rc1 & _). rewrite N1 in P2. cbn [ran] in P2. destruct P2 as (c2 & N2 & Rc2 & _). rewrite Ni in N2. injection N2 as ->. cbn [channel_ends].
    eapply (client_ends h pol (client_events i l) c0 (client_marks i l)); [exists buf, w; auto|exact Sh| |exact Rc1|exact (C1 _ _ _ N0)|exact Rc2|exact (C2 _ _ _ N1)].
    apply Forall_app. split; [exact (proj1 (run_typed pol _ _ _ _ i Ty1 R1))|exact (proj1 (run_typed pol _ _ _ _ i Ty2 R2))].
  - destruct A as (max & w & _ & _ & Z). assert (Sh : In (UApi ApiShutdown) (server_events i l)) by (destruct M as [M|M]; [rewrite Z in M; destruct M|exact M]).
    cbn [ran] in P1. destruct P1 as (c1 & N1 & _ & _). rewrite N1 in P2. cbn [ran] in P2. destruct P2 as (c2 & N2 & _ & _). rewrite Ni in N2. injection N2 as ->. cbn [channel_ends].
    destruct A2 as (max' & w' & I' & H' & _). destruct (Wt _ _ _ _ I') as (W1 & W2). destruct (Sv _ _ _ _ Ni) as (O & St).
    eapply (shutdown_ends r d W1 pol max' w' _ _ _ H'); [|exact O|exact St|exact W2]. rewrite server_events_app. apply in_or_app. left. exact Sh.
  - exfalso. destruct A as (Z1 & Z2 & _). destruct M as [M|M]; [rewrite Z1 in M|rewrite Z2 in M]; destruct M.
Qed.
End End.
