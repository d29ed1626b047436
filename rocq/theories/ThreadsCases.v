(** Executions with data races, a deadlock, and an orderly one. *)
From Verif Require Import Prelude Threads SpecThreads ThreadsFacts ThreadsRaces.
From Coq Require Import Relations Lia.

(** Neighbouring events are ordered only if one synchronises with the other. *)
Lemma before_lt tr i j : happens_before tr i j -> (i < j)%nat.
Proof. induction 1 as [i j [L _] | i k j _ IH1 _ IH2]; lia. Qed.

Lemma neighbours tr i : happens_before tr i (S i) -> before tr i (S i).
Proof.
  intros H. inversion H as [y B | y z H1 H2]; subst; [exact B | ]. apply before_lt in H1. apply before_lt in H2. lia.
Qed.

Lemma neighbours_race tr i e f : nth_error tr i = Some e -> nth_error tr (S i) = Some f -> conflict e f -> ev_thread e <> ev_thread f ->
  race tr e f.
Proof.
  intros N N' C NT. exists i, (S i). split; [lia | split; [exact N | split; [exact N' | split; [exact C | ]]]].
  intros H%neighbours. destruct H as (_ & e' & f' & NE & NF & K).
  rewrite N in NE. rewrite N' in NF. injection NE as <-. injection NF as <-.
  destruct C as (l & a & b & AE & AF & _).
  destruct K as [K | [(m & K & _) | (n & g & K & _)]]; [contradiction | rewrite K in AE; discriminate | rewrite K in AE; discriminate].
Qed.

Definition values (f : function) : bool := match f with GetValue _ | SetValue _ => true | _ => false end.
Lemma no_values tr : forallb (fun e => negb (values (ev_function e))) tr = true -> in_transactions tr.
Proof.
  intros H i e d N K. rewrite forallb_forall in H. specialize (H e (nth_error_In _ _ N)).
  destruct K as [K | K]; rewrite K in H; discriminate.
Qed.

Lemma tell_apart t c : t <> Strand c -> thread_eqb t (Strand c) = false /\ thread_eqb (Strand c) t = false.
Proof. intros NE. split; [destruct (thread_eqb_spec t (Strand c)) | destruct (thread_eqb_spec (Strand c) t)]; congruence. Qed.

(** The thread is called by the application's code: by a timer on a strand. *)
Definition arrive (t : thread) : list choice := match t with App _ => [] | Strand c => [Enter (Strand c) (OnUserTimer c)] end.
Definition resting_stack (t : thread) : list (function * list action) :=
  match t with App _ => [] | Strand c => [(OnUserTimer c, [CallUser])] end.

Lemma arrive_run t : thread_run threads_init (arrive t) =
  ((match t with App _ => threads_init | Strand _ => set_stack threads_init t (resting_stack t) end), []).
Proof. destruct t as [k | c]; [reflexivity | ]. cbn. rewrite Nat.eqb_refl. reflexivity. Qed.

(** A thread calls, and calls again when the call has returned. *)
Lemma executes_app es es' s tr s' tr' : executes es s tr -> thread_run s es' = (s', tr') -> executes (es ++ es') s' (tr ++ tr').
Proof. unfold executes. intros X Y. rewrite thread_run_app, X. cbn [fst snd]. rewrite Y. reflexivity. Qed.

Record ready (s : threads) (t : thread) : Prop := {
  rd_stack : th_stack s t = [] \/ exists f r l, th_stack s t = (f, CallUser :: r) :: l
}.

Lemma enter_run s t f : ready s t -> callable t f = true -> thread_step s (Enter t f) = (set_stack s t ((f, body f) :: th_stack s t), []).
Proof. intros [[E | (g & r & l & E)]] C; cbn [thread_step]; rewrite E, C; reflexivity. Qed.

Definition started (t : thread) : threads :=
  match t with App _ => threads_init | Strand _ => set_stack threads_init t (resting_stack t) end.
Lemma started_ready t : ready (started t) t.
Proof. constructor. destruct t as [k | c]; [left; reflexivity | right]. cbn. rewrite Nat.eqb_refl. cbn. eauto. Qed.
Lemma started_strand t c : t <> Strand c -> th_stack (started t) (Strand c) = [].
Proof. intros NE. destruct t as [k | c']; [reflexivity | ]. cbn. destruct (Nat.eqb_spec c' c); [subst; contradiction | reflexivity]. Qed.
Lemma started_queue t : th_queue (started t) = [] /\ th_posted (started t) = 0%nat /\ forall m, th_owner (started t) m = None.
Proof. destruct t; repeat split. Qed.
Lemma arrived t : executes (arrive t) (started t) [].
Proof. unfold executes. rewrite arrive_run. reflexivity. Qed.

(** Thread [t] calls [p], which posts [g] to strand [c]; it then calls [f], and strand
    [c] begins with [g]. *)
Lemma posted_run t c p g f : t <> Strand c -> callable t p = true -> body p = [Post c g] -> callable t f = true ->
  exists s, executes (arrive t ++ [Enter t p; Next t; Next t; Enter t f; Dequeue c]) s
              [at_event t p (OPost 0 g); at_event (Strand c) g (OBegin 0)] /\
    (exists l, th_stack s t = (f, body f) :: l) /\ th_stack s (Strand c) = [(g, body g)].
Proof.
  intros NE CP BP CF. destruct (tell_apart t c NE) as [E1 E2].
  pose proof (started_strand t c NE) as SS. destruct (started_queue t) as (SQ & SP & SO).
  pose proof (thread_eqb_refl t) as E3. pose proof (started_ready t) as RD.
  pose proof (arrived t) as X.
  assert (X1 : executes (arrive t ++ [Enter t p]) (set_stack (started t) t ((p, [Post c g]) :: th_stack (started t) t)) ([] ++ [])).
  { eapply executes_app; [exact X | ]. unfold thread_run. rewrite (enter_run _ _ _ RD CP), BP. reflexivity. }
  set (s1 := set_stack (started t) t ((p, [Post c g]) :: th_stack (started t) t)) in *.
  set (s2 := set_queue (set_stack s1 t ((p, []) :: th_stack (started t) t)) [(0%nat, c, g)] 1).
  assert (X2 : executes ((arrive t ++ [Enter t p]) ++ [Next t]) s2 ([] ++ [at_event t p (OPost 0 g)])).
  { eapply executes_app; [exact X1 | ]. cbn [thread_run thread_step]. unfold s1 at 1. rewrite stack_same. unfold s1 at 1 2 3 4 5.
    cbn [set_stack th_queue th_posted]. rewrite SQ, SP. reflexivity. }
  set (s3 := set_stack s2 t (th_stack (started t) t)).
  assert (X3 : executes (((arrive t ++ [Enter t p]) ++ [Next t]) ++ [Next t]) s3 ([at_event t p (OPost 0 g)] ++ [])).
  { eapply executes_app; [exact X2 | ]. cbn [thread_run thread_step]. unfold s2 at 1. cbn [set_queue th_stack]. rewrite stack_same. reflexivity. }
  assert (R3 : ready s3 t) by (constructor; unfold s3; rewrite stack_same; apply (rd_stack _ _ RD)).
  set (s4 := set_stack s3 t ((f, body f) :: th_stack s3 t)).
  assert (X4 : executes ((((arrive t ++ [Enter t p]) ++ [Next t]) ++ [Next t]) ++ [Enter t f]) s4 ([at_event t p (OPost 0 g)] ++ [])).
  { eapply executes_app; [exact X3 | ]. unfold thread_run. rewrite (enter_run _ _ _ R3 CF). reflexivity. }
  assert (E4 : th_stack s4 (Strand c) = []).
  { unfold s4. rewrite other_stack by congruence. unfold s3. rewrite other_stack by congruence. unfold s2. cbn [set_queue th_stack].
    rewrite other_stack by congruence. unfold s1. rewrite other_stack by congruence. exact SS. }
  exists (set_stack (set_queue s4 [] 1) (Strand c) [(g, body g)]). split; [ | split].
  - replace (arrive t ++ [Enter t p; Next t; Next t; Enter t f; Dequeue c]) with
      (((((arrive t ++ [Enter t p]) ++ [Next t]) ++ [Next t]) ++ [Enter t f]) ++ [Dequeue c]) by (rewrite <- !app_assoc; reflexivity).
    change [at_event t p (OPost 0 g); at_event (Strand c) g (OBegin 0)] with (([at_event t p (OPost 0 g)] ++ []) ++ [at_event (Strand c) g (OBegin 0)]).
    eapply executes_app; [exact X4 | ]. cbn [thread_run thread_step]. rewrite E4. cbn [s4 s3 s2 set_stack set_queue th_queue th_posted take_first].
    rewrite Nat.eqb_refl. reflexivity.
  - rewrite other_stack by exact NE. cbn [set_queue th_stack]. unfold s4. rewrite stack_same. eexists. reflexivity.
  - apply stack_same.
Qed.

(** The next access of a thread. *)
Definition accesses (a : action) : option operation := match a with Read l => Some (ORead l) | Write l => Some (OWrite l) | _ => None end.
Lemma next_access s t f a r l o : th_stack s t = (f, a :: r) :: l -> accesses a = Some o ->
  thread_step s (Next t) = (set_stack s t ((f, r) :: l), [at_event t f o]).
Proof. intros E A. cbn [thread_step]. rewrite E. destruct a; try discriminate A; injection A as <-; reflexivity. Qed.

(** Two threads whose next accesses conflict race. *)
Lemma both_next es s tr t u f g a b r r' l l' o o' : executes es s tr -> in_transactions (tr ++ [at_event t f o; at_event u g o']) -> t <> u ->
  th_stack s t = (f, a :: r) :: l -> th_stack s u = (g, b :: r') :: l' -> accesses a = Some o -> accesses b = Some o' ->
  conflict (at_event t f o) (at_event u g o') ->
  exists es' s' tr', executes es' s' tr' /\ in_transactions tr' /\ race tr' (at_event t f o) (at_event u g o').
Proof.
  intros X IT NE E1 E2 A1 A2 C. exists (es ++ [Next t; Next u]). eexists. exists (tr ++ [at_event t f o; at_event u g o']).
  split; [eapply executes_app; [exact X | ] | split; [exact IT | ]].
  - cbn [thread_run]. rewrite (next_access _ _ _ _ _ _ _ E1 A1).
    rewrite (next_access (set_stack s t ((f, r) :: l)) u g b r' l' o'); [reflexivity | | exact A2].
    rewrite other_stack by congruence. exact E2.
  - apply (neighbours_race _ (List.length tr)).
    + rewrite nth_error_app2, Nat.sub_diag by lia. reflexivity.
    + rewrite nth_error_app2 by lia. replace (S (List.length tr) - List.length tr)%nat with 1%nat by lia. reflexivity.
    + exact C.
    + exact NE.
Qed.

(** One more access before. *)
Lemma one_next es s tr t f a r l o : executes es s tr -> th_stack s t = (f, a :: r) :: l -> accesses a = Some o ->
  exists s', executes (es ++ [Next t]) s' (tr ++ [at_event t f o]) /\ th_stack s' t = (f, r) :: l /\ forall u, u <> t -> th_stack s' u = th_stack s u.
Proof.
  intros X E A. eexists. split; [eapply executes_app; [exact X | ]; cbn [thread_run]; rewrite (next_access _ _ _ _ _ _ _ E A); reflexivity | ].
  split; [apply stack_same | intros u NE; apply other_stack; exact NE].
Qed.

Lemma skips es s tr t f c gs r l : executes es s tr -> th_stack s t = (f, map (fun g => Post c g) gs ++ r) :: l ->
  exists es' s', executes es' s' tr /\ th_stack s' t = (f, r) :: l /\ forall u, u <> t -> th_stack s' u = th_stack s u.
Proof.
  revert es s. induction gs as [ | g gs IH]; intros es s X E; cbn [map app] in E.
  - exists es, s. auto.
  - assert (X' : executes (es ++ [Skip t]) (set_stack s t ((f, map (fun g => Post c g) gs ++ r) :: l)) (tr ++ [])).
    { eapply executes_app; [exact X | ]. cbn [thread_run thread_step]. rewrite E. reflexivity. }
    rewrite app_nil_r in X'. destruct (IH _ _ X') as (es' & s' & X2 & E2 & O2); [apply stack_same | ].
    exists es', s'. split; [exact X2 | split; [exact E2 | ]]. intros u NE. rewrite O2 by exact NE. apply other_stack. exact NE.
Qed.

Ltac conflicting := match goal with |- conflict (at_event _ _ ?o) (at_event _ _ ?o') =>
  match o with
  | ORead ?l => match o' with OWrite _ => exists l, false, true end
  | OWrite ?l => match o' with OWrite _ => exists l, true, true | ORead _ => exists l, true, false end
  end; cbn; auto end.

(** Every one of them does race. *)
Lemma racing_races e f : racing e f -> exists es s tr, executes es s tr /\ in_transactions tr /\ race tr e f.
Proof.
  intros R. destruct R as [c xs t NE | c xs t NE | c t u NE | c xs t o NE O | c j t f NE F | c j t NE | c t NE | c t NE].
  - destruct (posted_run t c (ChannelShutdown c xs) (DoChannelShutdown c xs) (CreateSession c) NE eq_refl eq_refl eq_refl) as (s & X & [l E] & E').
    eapply both_next; [exact X | apply no_values; reflexivity | exact NE | exact E | exact E' | reflexivity | reflexivity | conflicting].
  - destruct (posted_run t c (ChannelShutdown c xs) (DoChannelShutdown c xs) (SendRequest c) NE eq_refl eq_refl eq_refl) as (s & X & [l E] & E').
    eapply both_next; [exact X | apply no_values; reflexivity | exact NE | exact E | exact E' | reflexivity | reflexivity | conflicting].
  - (* both create *)
    pose proof (thread_eqb_refl t) as ET. pose proof (thread_eqb_refl u) as EU.
    assert (X : exists s l l', executes [Enter t (CreateSession c); Enter u (CreateSession c)] s [] /\
              th_stack s t = (CreateSession c, body (CreateSession c)) :: l /\ th_stack s u = (CreateSession c, body (CreateSession c)) :: l').
    { assert (N1 : thread_eqb t u = false) by (destruct (thread_eqb_spec t u); congruence).
      assert (N2 : thread_eqb u t = false) by (destruct (thread_eqb_spec u t); congruence).
      eexists. exists [], []. split; [ | split].
      - unfold executes. cbn [thread_run thread_step threads_init th_stack callable andb set_stack]. rewrite N1. cbn [andb]. reflexivity.
      - cbn [set_stack th_stack]. rewrite N2, ET. reflexivity.
      - cbn [set_stack th_stack]. rewrite EU. reflexivity. }
    destruct X as (s & l & l' & X & E & E').
    destruct (one_next _ _ _ _ _ _ _ _ (ORead (ClientIsShutdown c)) X E eq_refl) as (s1 & X1 & E1 & O1).
    destruct (one_next _ _ _ u (CreateSession c) (Read (ClientIsShutdown c)) [Write (ClientSessions c)] l' (ORead (ClientIsShutdown c)) X1) as (s2 & X2 & E2 & O2);
      [rewrite O1 by congruence; exact E' | reflexivity | ].
    assert (E1' : th_stack s2 t = (CreateSession c, [Write (ClientSessions c)]) :: l) by (rewrite O2 by exact NE; exact E1).
    eapply both_next; [exact X2 | apply no_values; reflexivity | exact NE | exact E1' | exact E2 | reflexivity | reflexivity | conflicting].
  - destruct (posted_run t c (ChannelShutdown c xs) (DoChannelShutdown c xs) (CreateSession c) NE eq_refl eq_refl eq_refl) as (s & X & [l E] & E').
    destruct (one_next _ _ _ _ _ _ _ _ (ORead (ClientIsShutdown c)) X E eq_refl) as (s1 & X1 & E1 & O1).
    assert (E1' : th_stack s1 (Strand c) = [(DoChannelShutdown c xs, body (DoChannelShutdown c xs))]) by (rewrite O1 by congruence; exact E').
    destruct (one_next _ _ _ _ _ _ _ _ (OWrite (ClientIsShutdown c)) X1 E1' eq_refl) as (s2 & X2 & E2 & O2).
    assert (E2' : th_stack s2 t = (CreateSession c, [Write (ClientSessions c)]) :: l) by (rewrite O2 by exact NE; exact E1).
    destruct O as [-> | ->].
    + eapply both_next; [exact X2 | apply no_values; reflexivity | exact NE | exact E2' | exact E2 | reflexivity | reflexivity | conflicting].
    + destruct (one_next _ _ _ _ _ _ _ _ (ORead (ClientSessions c)) X2 E2 eq_refl) as (s3 & X3 & E3 & O3).
      rewrite <- (map_map (fun p => DoSessionShutdown c (fst p) (snd p)) (fun g => Post c g)) in E3.
      destruct (skips _ _ _ _ _ _ _ _ _ X3 E3) as (es4 & s4 & X4 & E4 & O4).
      assert (E4' : th_stack s4 t = (CreateSession c, [Write (ClientSessions c)]) :: l)
        by (rewrite O4 by exact NE; rewrite O3 by exact NE; exact E2').
      eapply both_next; [exact X4 | apply no_values; reflexivity | exact NE | exact E4' | exact E4 | reflexivity | reflexivity | conflicting].
  - destruct F as [-> | ->].
    + destruct (posted_run t c (StartRequest c j) (DoStart c j) (IsRunning c j) NE eq_refl eq_refl eq_refl) as (s & X & [l E] & E').
      eapply both_next; [exact X | apply no_values; reflexivity | exact NE | exact E | exact E' | reflexivity | reflexivity | conflicting].
    + destruct (posted_run t c (StopRequest c j) (DoStop c j) (IsRunning c j) NE eq_refl eq_refl eq_refl) as (s & X & [l E] & E').
      eapply both_next; [exact X | apply no_values; reflexivity | exact NE | exact E | exact E' | reflexivity | reflexivity | conflicting].
  - destruct (posted_run t c (SetFrequency c j) (DoSetFrequency c j) (GetFrequency c j) NE eq_refl eq_refl eq_refl) as (s & X & [l E] & E').
    eapply both_next; [exact X | apply no_values; reflexivity | exact NE | exact E | exact E' | reflexivity | reflexivity | conflicting].
  - destruct (posted_run t c (ServerShutdown c) (DoServerShutdown c) (ServerStart c) NE eq_refl eq_refl eq_refl) as (s & X & [l E] & E').
    eapply both_next; [exact X | apply no_values; reflexivity | exact NE | exact E | exact E' | reflexivity | reflexivity | conflicting].
  - destruct (posted_run t c (ServerShutdown c) (DoServerShutdown c) (AddSession c) NE eq_refl eq_refl eq_refl) as (s & X & [l E] & E').
    eapply both_next; [exact X | apply no_values; reflexivity | exact NE | exact E | exact E' | reflexivity | reflexivity | conflicting].
Qed.

(** Values accessed outside a transaction, while a request is answered. *)
Definition outside_events : list choice :=
  [Enter (Strand 0) (OnServerReceive 0); Next (Strand 0); Next (Strand 0); Next (Strand 0); Enter (Strand 0) (Request 0); Next (Strand 0);
   Enter (App 0) (GetValue 0); Next (App 0); Next (Strand 0)].
Lemma outside_races :
  race (snd (thread_run threads_init outside_events))
    (at_event (App 0) (GetValue 0) (ORead (Tables 0))) (at_event (Strand 0) (Request 0) (OWrite (Tables 0))).
Proof.
  apply (neighbours_race _ 4); [reflexivity | reflexivity | conflicting | discriminate].
Qed.

(** ** A transaction that waits for itself *)
Definition deadlock_events : list choice := [Enter (App 0) (Transaction 0); Next (App 0); Enter (App 0) (AddValue 0)].

Lemma stuck_stays es s tr t f m r l : executes es s tr -> th_stack s t = (f, Acquire m :: r) :: l -> th_owner s m = Some t ->
  forall es' s' tr', thread_run s es' = (s', tr') ->
    th_stack s' t = th_stack s t /\ th_owner s' m = Some t /\
    forall e, In e tr' -> ev_thread e <> t /\ ev_op e <> OAcquire m.
Proof.
  intros X E O es'. revert es s tr X E O. induction es' as [ | c es' IH]; intros es s tr X E O s' tr' RN.
  - injection RN as <- <-. split; [reflexivity | split; [exact O | intros e []]].
  - cbn [thread_run] in RN. destruct (thread_step s c) as [s1 o] eqn:ST. destruct (thread_run s1 es') as [s2 o2] eqn:RN'. injection RN as <- <-.
    assert (X1 : executes (es ++ [c]) s1 (tr ++ o)).
    { eapply executes_app; [exact X | ]. cbn [thread_run]. rewrite ST. rewrite app_nil_r. reflexivity. }
    pose proof (executes_exclusive _ _ _ X) as [H _ _].
    assert (K : th_stack s1 t = th_stack s t /\ th_owner s1 m = Some t /\ forall e, In e o -> ev_thread e <> t /\ ev_op e <> OAcquire m).
    { assert (OTHER : forall u l', u <> t -> th_stack (set_stack s u l') t = th_stack s t) by (intros; apply other_stack; congruence).
      apply step_stepped in ST.
      destruct ST as [ | u g K C | u g l' E' | u g a r' l' E' NA | u g x r' l' E' | u g x r' l' E' | u g n r' l' E' O' | u g n r' l' E' | u g d h r' l' E' | d n g q E' TF].
      - split; [reflexivity | split; [exact O | intros e []]].
      - assert (u <> t) by (intros ->; rewrite E in K; destruct K as [K | (? & ? & ? & K)]; discriminate).
        split; [apply OTHER; assumption | split; [exact O | intros e []]].
      - assert (u <> t) by (intros ->; rewrite E in E'; discriminate).
        split; [apply OTHER; assumption | split; [exact O | intros e []]].
      - assert (u <> t) by (intros ->; rewrite E in E'; injection E' as _ <- _ _; destruct (NA m); congruence).
        split; [apply OTHER; assumption | split; [exact O | intros e []]].
      - assert (u <> t) by (intros ->; rewrite E in E'; discriminate).
        split; [apply OTHER; assumption | split; [exact O | intros e [<- | []]; split; [assumption | discriminate]]].
      - assert (u <> t) by (intros ->; rewrite E in E'; discriminate).
        split; [apply OTHER; assumption | split; [exact O | intros e [<- | []]; split; [assumption | discriminate]]].
      - assert (n <> m) by congruence. assert (u <> t) by (intros ->; rewrite E in E'; injection E' as _ E' _ _; congruence).
        split; [cbn [set_owner th_stack]; apply OTHER; assumption | split].
        + cbn [set_owner set_stack th_owner]. destruct (mutex_eqb_spec n m); [contradiction | exact O].
        + intros e [<- | []]. split; [assumption | cbn; congruence].
      - assert (u <> t) by (intros ->; rewrite E in E'; discriminate).
        assert (NM : n <> m).
        { intros ->. destruct (H u) as (os & F & HC). rewrite E' in F. destruct (frames_cons_inv _ _ _ _ F) as (o' & os' & -> & SH & F').
          apply shape_tail in SH as [-> ->]. specialize (HC m). rewrite O in HC. unfold held in HC. cbn [filter holds owns] in HC.
          destruct (mutex_eqb_spec m m) as [_ | NM]; [ | congruence]. destruct (thread_eqb_spec t u); [congruence | discriminate]. }
        split; [cbn [set_owner th_stack]; apply OTHER; assumption | split].
        + cbn [set_owner set_stack th_owner]. destruct (mutex_eqb_spec n m); [contradiction | exact O].
        + intros e [<- | []]. split; [assumption | discriminate].
      - assert (u <> t) by (intros ->; rewrite E in E'; discriminate).
        split; [cbn [set_queue th_stack]; apply OTHER; assumption | split; [exact O | intros e [<- | []]; split; [assumption | discriminate]]].
      - assert (Strand d <> t) by (intros <-; rewrite E in E'; discriminate).
        split; [rewrite other_stack by congruence; reflexivity | split; [exact O | intros e [<- | []]; split; [assumption | discriminate]]]. }
    destruct K as (K1 & K2 & K3).
    destruct (IH _ _ _ X1 (eq_trans K1 E) K2 _ _ RN') as (J1 & J2 & J3).
    split; [congruence | split; [exact J2 | ]]. intros e I. apply in_app_iff in I as [I | I]; auto.
Qed.

Lemma deadlock_stays : exists s tr, executes deadlock_events s tr /\ th_stack s (App 0) <> [] /\ (forall t, ~ can_go_on s t) /\
  forall es' s' tr', thread_run s es' = (s', tr') -> th_stack s' (App 0) = th_stack s (App 0) /\
    forall e, In e tr' -> ev_op e <> OAcquire (DatabaseMutex 0).
Proof.
  destruct (thread_run threads_init deadlock_events) as [s tr] eqn:X. exists s, tr.
  pose proof X as X0. vm_compute in X0. injection X0 as <- <-.
  split; [exact X | split; [discriminate | split]].
  - intros [[ | k] | c]; cbn; [discriminate | exact id | exact id].
  - intros es' s' tr' RN.
    destruct (stuck_stays deadlock_events _ _ (App 0) (AddValue 0) (DatabaseMutex 0) [Write (Tables 0); Release (DatabaseMutex 0)]
                [(Transaction 0, [CallUser; Release (DatabaseMutex 0)])] X eq_refl eq_refl _ _ _ RN) as (J1 & _ & J3).
    split; [exact J1 | intros e I; apply J3; exact I].
Qed.

(** ** An orderly execution: a session is created, a request is sent, transactions are
    made while requests are answered, and the channel is shut down. *)
Definition orderly_events : list choice :=
  [Enter (App 0) (CreateSession 0); Next (App 0); Next (App 0); Next (App 0);
   Enter (App 0) (SendRequest 0); Next (App 0); Next (App 0); Skip (App 0); Next (App 0);
   Dequeue 0; Next (Strand 0); Next (Strand 0);
   Enter (Strand 1) (OnServerReceive 1); Next (Strand 1); Next (Strand 1); Next (Strand 1); Enter (Strand 1) (Request 0); Next (Strand 1); Next (Strand 1);
   Enter (App 1) (Transaction 0); Next (Strand 1); Next (Strand 1); Next (App 1); Enter (App 1) (SetValue 0); Next (App 1); Next (App 1); Next (App 1); Next (App 1);
   Enter (App 0) (ChannelShutdown 0 []); Next (App 0); Next (App 0);
   Next (Strand 0); Next (Strand 0); Next (Strand 0); Next (Strand 0); Next (Strand 0); Next (Strand 0); Next (Strand 0);
   Dequeue 0; Next (Strand 0); Next (Strand 0)].
Definition orderly_trace : list event := Eval vm_compute in snd (thread_run threads_init orderly_events).
Lemma orderly_executes : executes orderly_events (fst (thread_run threads_init orderly_events)) orderly_trace.
Proof. unfold executes. rewrite (surjective_pairing (thread_run threads_init orderly_events)) at 1. f_equal. Qed.

Lemma orderly_in_transactions : in_transactions orderly_trace.
Proof.
  intros i e d N K.
  assert (L : i = 14%nat \/ i <> 14%nat) by lia. destruct L as [-> | L].
  - injection N as <-. destruct K as [K | K]; [discriminate | injection K as <-].
    exists 13%nat, (at_event (App 1) (Transaction 0) (OAcquire (DatabaseMutex 0))).
    split; [lia | split; [reflexivity | split; [reflexivity | split; [reflexivity | ]]]]. intros j e' L _. lia.
  - exfalso. do 26 (destruct i as [ | i]; [first [lia | injection N as <-; destruct K; discriminate] | ]).
    cbn in N. destruct i; discriminate.
Qed.

Lemma orderly_orderly : orderly orderly_trace (fun _ => 0%nat).
Proof.
  constructor.
  - intros e c I U. cbn in I. repeat (destruct I as [<- | I]; [cbn in U; try discriminate; injection U as <-; auto | ]). contradiction.
  - intros e c I U. cbn in I. repeat (destruct I as [<- | I]; [cbn in U; try discriminate; reflexivity | ]). contradiction.
  - intros e c j I U. cbn in I. repeat (destruct I as [<- | I]; [cbn in U; destruct U; discriminate | ]). contradiction.
  - intros e c I U. cbn in I. repeat (destruct I as [<- | I]; [cbn in U; try discriminate; reflexivity | ]). contradiction.
  - intros i j e f c NI NJ SE UF L.
    assert (E : forall k g, nth_error orderly_trace k = Some g -> uses_channel (ev_function g) = Some c -> (k <= 3)%nat).
    { intros k g N U. do 4 (destruct k as [ | k]; [lia | ]). exfalso. cbn [orderly_trace nth_error] in N.
      apply nth_error_In in N. cbn in N. repeat (destruct N as [<- | N]; [discriminate U | ]). contradiction. }
    specialize (E _ _ NJ UF). assert (i <= 2)%nat by lia.
    do 3 (destruct i as [ | i]; [injection NI as <-; discriminate SE | ]). lia.
Qed.

(** The requests and the transaction do conflict. *)
Lemma orderly_conflicts : exists e f, In e orderly_trace /\ In f orderly_trace /\ ev_thread e <> ev_thread f /\ conflict e f.
Proof.
  exists (at_event (App 0) (CreateSession 0) (OWrite (ClientSessions 0))), (at_event (Strand 0) (DoChannelShutdown 0 []) (ORead (ClientSessions 0))).
  split; [cbn; auto 40 | split; [cbn; auto 40 | split; [discriminate | conflicting]]].
Qed.

Lemma not_thread_safe : exists es s tr e f, executes es s tr /\ in_transactions tr /\ race tr e f.
Proof.
  destruct (racing_races _ _ (race_create_shutdown 0 [] (App 0) ltac:(discriminate))) as (es & s & tr & X & IT & R).
  exists es, s, tr. eauto.
Qed.

Lemma not_thread_safe_database : exists s tr, executes outside_events s tr /\
  race tr (at_event (App 0) (GetValue 0) (ORead (Tables 0))) (at_event (Strand 0) (Request 0) (OWrite (Tables 0))).
Proof.
  destruct (thread_run threads_init outside_events) as [s tr] eqn:X. exists s, tr. split; [exact X | ].
  pose proof outside_races as R. rewrite X in R. exact R.
Qed.
