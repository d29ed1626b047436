(** What the sessions of a channel list, and what is left of them. *)
From Verif Require Import Prelude Ser4 Messages Mbap SpecPdu SpecMbap Client SpecClient ClientFacts ClientShutdown ClientView
  Scheduled SpecScheduled ScheduledFacts SessionCall Session SpecSession SessionLift SessionFacts SessionPolls SessionStop SessionInv SessionLemmas
  Lifetime SpecLifetime.
From Coq Require Import Lia Relations.

Local Notation answer := (expected response).

(** Whether [j] is listed in session [x] once all closures have run. *)
Definition own_step (j x : nat) (b : bool) (o : koutput) : bool :=
  match o with
  | Scheduled j' x' _ _ _ => if (Nat.eqb x' x && Nat.eqb j' j)%bool then true else b
  | Asked (CloseSession x') => if Nat.eqb x' x then false else b
  | _ => b
  end.
Definition owns (j x : nat) (L : list koutput) : bool := fold_left (own_step j x) L false.

Definition own_neutral (o : koutput) : bool :=
  match o with Scheduled _ _ _ _ _ | Asked (CloseSession _) => false | _ => true end.

Lemma owns_app j x a b : owns j x (a ++ b) = fold_left (own_step j x) b (owns j x a).
Proof. apply fold_left_app. Qed.
Lemma own_same j x l : forallb own_neutral l = true -> forall b, fold_left (own_step j x) l b = b.
Proof.
  induction l as [|o l IH]; cbn [forallb]; intros H b; [reflexivity|]. apply Bool.andb_true_iff in H. destruct H as [H1 H2]. cbn [fold_left]. rewrite IH by exact H2.
  destruct o as [o|a|y u t|i y r t|i v|j' y r t f|j' o|i j' n]; try reflexivity; [|discriminate]. destruct a; try reflexivity. discriminate.
Qed.
Arguments owns : simpl never.

Lemma scan_mono j x q : forall h, fst (scan j x q (true, h)) = false -> fst (scan j x q (false, h)) = false.
Proof.
  induction q as [|c q IH]; intros h; unfold scan in *; cbn [fold_left]; [discriminate|].
  destruct c as [j'|x' j'|x']; cbn [scan_step]; [apply IH| |].
  - destruct (Nat.eqb x' x && Nat.eqb j' j)%bool; cbn [snd]; [auto|apply IH].
  - destruct (Nat.eqb x' x); cbn [snd fst]; [|apply IH]. intros K. exact (eq_trans (scan_fst j x q false _ _) K).
Qed.

Section Lists.
Context {W : Type}.
Context (user : source -> W -> answer -> W * list kapi).
Implicit Types (z : sessions W) (L : list koutput).

Definition lists z (x j : nat) : bool := match nth_error (ks_sessions z) x with Some s => listed s j | None => false end.

Record lst L z : Prop := {
  ls_eq : forall x j, fst (scan j x (ks_queue z) (lists z x j, false)) = owns j x L;
  ls_new : forall x j, nth_error (ks_sessions z) x = None -> owns j x L = false
}.

Lemma lst_same L l z z' : lst L z -> forallb own_neutral l = true -> ks_queue z' = ks_queue z -> ks_sessions z' = ks_sessions z -> lst (L ++ l) z'.
Proof.
  intros [A B] Hl HQ HS. constructor; intros x j; unfold lists; rewrite ?HQ, ?HS, owns_app, own_same by exact Hl; [apply A|apply B].
Qed.

Lemma lst_did L z a z' c : lst (L ++ ks_log z) z -> did z a z' c -> lst (L ++ ks_log z') z'.
Proof.
  intros I D. destruct I as [A B] eqn:EI. clear EI. inversion D; subst; cbn [ks_log show with_log with_sessions with_owner kpost with_kqueue with_polls set_sched]; rewrite ?app_assoc.
  - destruct a as [u t|x r t|x r t f|j a|x|]; try (eapply (lst_same (L ++ ks_log z)); [exact I|reflexivity|reflexivity|reflexivity]).
    constructor; intros y j; rewrite owns_app; cbn [fold_left own_step]; (destruct (Nat.eqb_spec x y) as [<-|Hx]; [|first [apply A|apply B]]); [|reflexivity].
    cbn [ks_queue show with_log]. unfold lists. cbn [ks_sessions show with_log]. fold (lists z x j). rewrite A. exact (B x j H).
  - constructor; intros x j; rewrite owns_app; cbn [fold_left own_step].
    + rewrite <- A. cbn [ks_queue with_sessions show with_log]. f_equal. f_equal. f_equal. unfold lists. cbn [ks_sessions with_sessions].
      destruct (nth_error (ks_sessions z) x) as [s|] eqn:E; [rewrite (nth_more _ _ _ _ E); reflexivity|].
      destruct (nth_error (ks_sessions z ++ _) x) as [s|] eqn:E'; [|reflexivity]. apply nth_snoc in E'. destruct E' as [E'|[_ ->]]; [congruence|reflexivity].
    + intros E. apply B. cbn [ks_sessions with_sessions] in E. apply nth_error_None in E. apply nth_error_None. rewrite app_length in E. lia.
  - eapply (lst_same (L ++ ks_log z)); [exact I|reflexivity|reflexivity|reflexivity].
  - constructor; intros y j; rewrite owns_app; cbn [fold_left own_step].
    + cbn [ks_queue kpost with_kqueue with_polls show with_log]. unfold lists. cbn [ks_sessions kpost with_kqueue with_polls show with_log]. fold (lists z y j).
      rewrite scan_app. unfold scan at 1. cbn [fold_left scan_step]. destruct (Nat.eqb x y && Nat.eqb _ j)%bool; [reflexivity|apply A].
    + intros E. cbn in E. destruct (Nat.eqb_spec x y) as [<-|Hx]; [congruence|]. exact (B _ _ E).
  - constructor; intros y j'; rewrite owns_app; cbn [fold_left own_step]; [|apply B].
    cbn [ks_queue kpost with_kqueue with_polls set_sched show with_log]. rewrite scan_app. unfold scan at 1. cbn [fold_left scan_step]. apply A.
  - constructor; intros y j; rewrite owns_app; cbn [fold_left own_step].
    + cbn [ks_queue kpost with_kqueue show with_log]. unfold lists. cbn [ks_sessions kpost with_kqueue show with_log]. fold (lists z y j).
      rewrite scan_app. unfold scan at 1. cbn [fold_left scan_step]. destruct (Nat.eqb x y); [reflexivity|apply A].
    + intros E. destruct (Nat.eqb x y); [reflexivity|]. exact (B _ _ E).
  - eapply (lst_same (L ++ ks_log z)); [exact I|reflexivity|reflexivity|reflexivity].
Qed.

Lemma neutral_polls j (o : list (soutput answer)) : forallb own_neutral (map (Polled j) o) = true.
Proof. induction o as [|x o IH]; [reflexivity|exact IH]. Qed.

Lemma lst_poll L z j e z' c : lst (L ++ ks_log z) z -> poll_step z j e = (z', c) -> lst (L ++ ks_log z') z'.
Proof.
  intros I E. destruct (nth_error (ks_polls z) j) as [p|] eqn:Hp; [|rewrite poll_missing in E by exact Hp; inversion E; subst; exact I].
  apply (poll_polled _ _ _ _ _ _ Hp) in E.
  inversion E; subst; cbn [ks_log show with_log with_owner set_sched with_polls]; rewrite ?app_assoc.
  - eapply (lst_same (L ++ ks_log z)); [exact I|apply neutral_polls|reflexivity|reflexivity].
  - rewrite <- (app_assoc (L ++ ks_log z)). eapply (lst_same (L ++ ks_log z)); [exact I| |reflexivity|reflexivity].
    rewrite forallb_app, neutral_polls. reflexivity.
Qed.

Lemma lst_queue L z q : ks_queue z = q -> lst L z -> lst L (with_kqueue z q).
Proof. intros <- I. rewrite <- (app_nil_r L). eapply lst_same; [exact I|reflexivity|reflexivity|reflexivity]. Qed.

Lemma stop_neutral l : forall z z' c, kapi_calls z (map (fun j => OnSchedule j Stop) l) = (z', c) ->
  exists o, ks_log z' = ks_log z ++ o /\ forallb own_neutral o = true.
Proof.
  induction l as [|j l IH]; intros z z' c; cbn [map kapi_calls]; [intros H; inversion H; subst; exists []; rewrite app_nil_r; auto|].
  destruct (kapi_call z (OnSchedule j Stop)) as [z1 c1] eqn:E1. destruct (kapi_calls z1 _) as [z2 c2] eqn:E2. intros H; inversion H; subst.
  destruct (IH _ _ _ E2) as (o & Eo & Ho). apply kapi_did in E1. exists (Asked (OnSchedule j Stop) :: o). split; [|exact Ho].
  rewrite Eo. inversion E1; subst; cbn; rewrite <- app_assoc; reflexivity.
Qed.

Lemma lst_run L z q0 q z' c : lst (L ++ ks_log z) z -> ks_queue z = q0 :: q ->
  run_kclosure (with_kqueue z q) q0 = (z', c) -> lst (L ++ ks_log z') z'.
Proof.
  intros I Hq. destruct I as [A B]. destruct q0 as [j|x j|x]; cbn [run_kclosure].
  - apply lst_poll. constructor; [|exact B]. intros x j'. rewrite <- A, Hq. reflexivity.
  - cbn [ks_sessions with_kqueue]. destruct (nth_error (ks_sessions z) x) as [s|] eqn:Es; intros H; inversion H; subst; cbn [ks_log with_sessions with_kqueue].
    + constructor; cbn [ks_queue ks_sessions with_sessions with_kqueue].
      * intros y j'. rewrite <- A, Hq. unfold scan at 2. cbn [fold_left scan_step]. unfold lists. cbn [ks_sessions with_sessions].
        destruct (Nat.eqb_spec x y) as [<-|Hx].
        -- rewrite (update_this _ _ _ _ Es), Es. unfold listed. cbn [ss_listed]. rewrite existsb_app. cbn [existsb]. rewrite Bool.orb_false_r, (Nat.eqb_sym j').
           destruct (Nat.eqb j j'); cbn [andb snd]; rewrite ?Bool.orb_true_r, ?Bool.orb_false_r; reflexivity.
        -- rewrite update_apart by congruence. reflexivity.
      * intros y j' E. apply B. apply nth_error_None in E. rewrite update_length in E. apply nth_error_None. exact E.
    + constructor; cbn [ks_queue ks_sessions with_kqueue]; [|exact B].
      intros y j'. destruct (Nat.eq_dec x y) as [<-|Hx].
      * assert (K := B x j' Es). rewrite K. specialize (A x j'). rewrite K, Hq in A. unfold lists in *. cbn [ks_sessions with_kqueue] in *. rewrite Es in *.
        unfold scan in A. cbn [fold_left scan_step] in A. rewrite Nat.eqb_refl in A. cbn [andb snd] in A.
        destruct (Nat.eqb j j'); [apply scan_mono; exact A|exact A].
      * rewrite <- A, Hq. unfold scan at 2. cbn [fold_left scan_step]. rewrite (proj2 (Nat.eqb_neq x y) Hx). reflexivity.
  - cbn [ks_sessions with_kqueue]. destruct (nth_error (ks_sessions z) x) as [s|] eqn:Es.
    + destruct (kapi_calls _ _) as [z1 c1] eqn:E1. intros H; inversion H; subst.
      destruct (stop_neutral _ _ _ _ E1) as (o & Eo & Ho). destruct (stopped_all _ _ _ _ E1) as [S1 _ (r & S3 & S4 & _) _].
      cbn [ks_log with_sessions with_kqueue ks_queue ks_sessions] in *. rewrite Eo, app_assoc. constructor; intros y j; rewrite owns_app, own_same by exact Ho.
      * rewrite <- A, Hq. cbn [ks_queue with_sessions]. rewrite S3, scan_app, (scan_same j y r) by apply S4.
        unfold scan at 2. cbn [fold_left scan_step]. unfold lists. cbn [ks_sessions with_sessions]. rewrite S1.
        destruct (Nat.eqb_spec x y) as [<-|Hx].
        -- rewrite (update_this _ _ _ _ Es). unfold listed at 1. cbn [ss_listed existsb snd]. apply scan_fst.
        -- rewrite update_apart by congruence. reflexivity.
      * intros E. cbn [ks_sessions with_sessions] in E. rewrite S1 in E. apply B. apply nth_error_None in E. rewrite update_length in E. apply nth_error_None. exact E.
    + intros H; inversion H; subst. cbn [ks_log with_kqueue]. constructor; cbn [ks_queue ks_sessions with_kqueue]; [|exact B].
      intros y j. rewrite <- A, Hq. unfold scan at 2. cbn [fold_left scan_step]. destruct (Nat.eqb_spec x y) as [<-|Hx]; [|reflexivity].
      unfold lists. cbn [ks_sessions with_kqueue]. rewrite Es. reflexivity.
Qed.

(** With the invariant of the sessions. *)
Definition both L z (D : list (nat * expected (list N))) (cs : list call) : Prop := inv L z D cs /\ lst L z.

Lemma both_history pol es k os : stack_history user pol es k os -> exists buf, good_buf buf /\ view both pol buf es k os.
Proof.
  apply history_view; unfold both.
  - intros L z D cs a z' c [I J] E. split; [eapply inv_api; eassumption|]. eapply lst_did; [exact J|]. apply kapi_did. exact E.
  - intros L z D cs j t z' c [I J] E. split; [exact (inv_poll L z D cs j (SExpire t) z' c Logic.I I E)|exact (lst_poll _ _ _ _ _ _ J E)].
  - intros L z D cs j t z' c [I J] E. split; [exact (inv_poll L z D cs j (SFire t) z' c Logic.I I E)|exact (lst_poll _ _ _ _ _ _ J E)].
  - intros L z D cs q0 q z' c [I J] Hq E. split; [eapply inv_run; eassumption|eapply lst_run; eassumption].
  - intros L z D cs i r x v w [I J] Ho Ev Hi. split; [eapply inv_user; eassumption|].
    cbn [ks_log show with_log with_user]. rewrite app_assoc. eapply (lst_same (L ++ ks_log z)); [exact J|reflexivity|reflexivity|reflexivity].
  - intros L z D cs i j n p x v w z' c [I J] Ho Hp Ev Hi E. split; [eapply inv_answer; eassumption|]. eapply lst_poll; [|exact E].
    cbn [ks_log with_user]. rewrite <- (app_nil_r (L ++ ks_log z)). eapply (lst_same (L ++ ks_log z)); [exact J|reflexivity|reflexivity|reflexivity].
  - intros L z D cs i [I J] Hi. eapply inv_owner; eassumption.
  - intros L z D cs z' c [I J] E. split; [eapply inv_closed; eassumption|].
    assert (G : lst (L ++ ks_log (with_closed z)) (with_closed z)).
    { cbn [ks_log with_closed]. rewrite <- (app_nil_r (L ++ ks_log z)). eapply (lst_same (L ++ ks_log z)); [exact J|reflexivity|reflexivity|reflexivity]. }
    refine (H_apis (fun L z _ _ => lst L z) _ _ _ _ D cs _ _ G E). intros L0 z0 _ _ a z1 c1 J0 E0. eapply lst_did; [exact J0|]. apply kapi_did. exact E0.
  - intros L z D cs [I J]. split; [apply inv_log; exact I|]. rewrite <- (app_nil_r L). eapply lst_same; [exact J|reflexivity|reflexivity|reflexivity].
  - intros w. split; [apply inv_init|]. constructor; [|reflexivity]. intros x j. unfold lists. cbn. destruct x; reflexivity.
Qed.
End Lists.

(** ** Histories *)
Lemma owns_inner j x os : owns j x (inner os) = owns j x os.
Proof.
  unfold owns. generalize false. induction os as [|o os IH]; intros b; [reflexivity|]. unfold inner. cbn [filter].
  destruct o; cbn [fold_left]; apply IH.
Qed.

Lemma owns_split j x os : owns j x os = true <->
  exists a r t f b, os = a ++ Scheduled j x r t f :: b /\ ~ In (Asked (CloseSession x)) b.
Proof.
  induction os as [|o os IH] using rev_ind.
  - split; [discriminate|]. intros (a & r & t & f & b & E & _). destruct a; discriminate.
  - assert (K : (exists r t f, o = Scheduled j x r t f) \/ o = Asked (CloseSession x) \/
      ((forall b, own_step j x b o = b) /\ o <> Asked (CloseSession x) /\ forall r t f, o <> Scheduled j x r t f)).
    { destruct o as [o|a|y u t|i y r t|i v|j' y r t f|j' o|i j' n]; try (right; right; split; [reflexivity|split; discriminate]).
      - destruct a as [u t|y r t|y r t f|j' a|y|]; try (right; right; split; [reflexivity|split; discriminate]).
        destruct (Nat.eq_dec y x) as [->|Hy]; [auto|]. right. right. split; [|split; [congruence|discriminate]].
        intros b. cbn [own_step]. rewrite (proj2 (Nat.eqb_neq y x) Hy). reflexivity.
      - destruct (Nat.eqb y x && Nat.eqb j' j)%bool eqn:E.
        + apply Bool.andb_true_iff in E. destruct E as [E1 E2]. apply Nat.eqb_eq in E1, E2. subst. left. eauto.
        + right. right. split; [intros b; cbn [own_step]; rewrite E; reflexivity|]. split; [discriminate|].
          intros r' t' f' E'. inversion E'; subst. rewrite !Nat.eqb_refl in E. discriminate. }
    rewrite owns_app. cbn [fold_left]. destruct K as [(r & t & f & ->)|[->|(K1 & K2 & K3)]].
    + cbn [own_step]. rewrite !Nat.eqb_refl. cbn [andb]. split; [|reflexivity]. intros _. exists os, r, t, f, []. split; [reflexivity|intros []].
    + cbn [own_step]. rewrite Nat.eqb_refl. split; [discriminate|]. intros (a & r & t & f & b & E & Hb). exfalso.
      destruct b as [|b0 b _] using rev_ind.
      * apply app_inj_tail in E. destruct E as [_ E]. discriminate.
      * rewrite app_comm_cons, app_assoc in E. apply app_inj_tail in E. destruct E as [_ <-]. apply Hb. apply in_or_app. right. left. reflexivity.
    + rewrite K1, IH. split.
      * intros (a & r & t & f & b & -> & Hb). exists a, r, t, f, (b ++ [o]). split; [rewrite <- app_assoc; reflexivity|].
        intros H. apply in_app_or in H. destruct H as [H|[H|[]]]; [exact (Hb H)|exact (K2 H)].
      * intros (a & r & t & f & b & E & Hb). destruct b as [|b0 b _] using rev_ind.
        -- apply app_inj_tail in E. destruct E as [_ E]. exfalso. exact (K3 _ _ _ E).
        -- rewrite app_comm_cons, app_assoc in E. apply app_inj_tail in E. destruct E as [-> _]. exists a, r, t, f, b. split; [reflexivity|].
           intros H. apply Hb. apply in_or_app. left. exact H.
Qed.

Section Histories.
Context {W : Type}.
Context (user : source -> W -> answer -> W * list kapi).
Implicit Types (k : stack W) (os : list koutput) (es : list kevent).

(** What a session lists when no closure is posted. *)
Lemma listed_now pol es k os x j : stack_history user pol es k os -> ks_queue (st_rest k) = [] ->
  (exists s, nth_error (ks_sessions (st_rest k)) x = Some s /\ In j (ss_listed s)) <->
  exists a r t f b, os = a ++ Scheduled j x r t f :: b /\ ~ In (Asked (CloseSession x)) b.
Proof.
  intros H Hq. destruct (both_history _ _ _ _ _ H) as (buf & Hb & V). destruct (vw_inv _ _ _ _ _ _ V) as [_ [A _]].
  rewrite <- owns_split, <- owns_inner, <- A, Hq. unfold scan. cbn [fold_left fst]. unfold lists, listed. split.
  - intros (s & -> & Hj). apply existsb_exists. exists j. split; [exact Hj|apply Nat.eqb_refl].
  - destruct (nth_error (ks_sessions (st_rest k)) x) as [s|]; [|discriminate]. intros E. apply existsb_exists in E. destruct E as (j' & Hj & Ej).
    apply Nat.eqb_eq in Ej. subst. eauto.
Qed.

Lemma scheduled_of pol es k os j x r t f : stack_history user pol es k os -> In (Scheduled j x r t f) os ->
  exists p s, nth_error (ks_polls (st_rest k)) j = Some p /\ po_session p = x /\ nth_error (ks_sessions (st_rest k)) x = Some s.
Proof.
  intros H Hin. destruct (sessions_inv _ _ _ _ _ H) as [[R _ _] _ _].
  destruct (scheduled_poll _ _ _ j x r t f R) as (p & s & A & B & _ & C & _); [apply in_inner; split; [exact Hin|discriminate]|eauto].
Qed.

(** A scheduled request that its session lists, and its session, keep each other. *)
Lemma cycle pol es k os a j x r t f b app : stack_history user pol es k os -> ks_queue (st_rest k) = [] ->
  os = a ++ Scheduled j x r t f :: b -> ~ In (Asked (CloseSession x)) b ->
  not_destroyed k os app (fun o => o = OScheduled j \/ o = OSession x \/ o = OChannel \/ o = OConnection).
Proof.
  intros H Hq E Hb. destruct (scheduled_of _ _ _ _ j x r t f H) as (p & s & Ep & Ex & Es); [rewrite E; apply in_or_app; right; left; reflexivity|].
  intros o [ -> |[ -> |[ -> | -> ]]]; right; right.
  - exists (OSession x). split; [auto|]. cbn [refers]. apply (listed_now _ _ _ _ _ _ H Hq). exists a, r, t, f, b. auto.
  - exists (OScheduled j). split; [auto|]. cbn [refers]. eauto.
  - exists (OSession x). split; [auto|]. cbn [refers]. congruence.
  - exists OChannel. split; [auto|]. exact Logic.I.
Qed.

(** Nothing is held by the executor. *)
Lemma rest_holds k os o : resting k -> ~ executor_holds k os o.
Proof.
  intros ((Q1 & Q2 & Q3) & Q4 & Q5). unfold executor_holds, posted_requests. rewrite Q1, Q2, Q3, Q4. intros [(i & Hi & _)|K]; [destruct Hi|].
  destruct o as [| |x|j].
  - destruct K as [K|[K|K]]; congruence.
  - exact K.
  - destruct K as [K|(j & K)]; destruct K.
  - destruct K as [K|[(x & K)|(p & Ep & K)]]; [destruct K|destruct K|]. rewrite Forall_forall in Q5. destruct (Q5 p (nth_error_In _ _ Ep)) as [P1 P2]. destruct K; congruence.
Qed.

Lemma down_state pol es k os : stack_history user pol es k os -> In (Channel TcpShutdown) os ->
  ks_open (st_rest k) = [] /\ stored_requests (st_channel k) = [].
Proof.
  intros H Hd. destruct (sessions_history _ _ _ _ _ H) as (buf & Hb & V). destruct (vw_inv _ _ _ _ _ _ V) as [_ O _]. split.
  - apply (op_none _ _ O). rewrite (vw_down _ _ _ _ _ _ V). apply tcp_shutdown_in, in_channel. exact Hd.
  - destruct (channel_history _ _ _ _ _ H) as (ces & script & Hh & _). destruct (view_core _ _ _ _ _ _ Hb V) as (C & _).
    assert (Hs : cc_shutdown (st_channel k) = true) by (apply (history_shutdown _ _ _ _ _ _ Hh), in_channel; exact Hd).
    destruct (co_down _ _ C Hs) as [E1 E2]. unfold stored_requests. rewrite E1, E2. reflexivity.
Qed.

Lemma left_reachable pol es k os app : stack_history user pol es k os -> resting k -> In (Channel TcpShutdown) os -> ~ left_scheduled os ->
  only_reachable k os app.
Proof.
  intros H Hr Hd Hl alive Hn. destruct (down_state _ _ _ _ H Hd) as [Eo Es].
  assert (Hself : forall o, app o -> exists h, app h /\ clos_refl_trans object (refers k os) h o) by (intros o Ho; exists o; split; [exact Ho|apply rt_refl]).
  assert (Hstep : forall o o', (exists h, app h /\ clos_refl_trans object (refers k os) h o) -> refers k os o o' ->
    exists h, app h /\ clos_refl_trans object (refers k os) h o').
  { intros o o' (h & A & B) K. exists h. split; [exact A|]. eapply rt_trans; [exact B|apply rt_step; exact K]. }
  assert (Hp : forall j, alive (OScheduled j) -> exists h, app h /\ clos_refl_trans object (refers k os) h (OScheduled j)).
  { intros j Hj. destruct (Hn _ Hj) as [K|[K|(o' & _ & K)]]; [exact (Hself _ K)|exfalso; exact (rest_holds _ _ _ Hr K)|exfalso].
    destruct o' as [| |x|j']; cbn [refers] in K; try contradiction K.
    - destruct K as (i & Hi & _). rewrite Es in Hi. destruct Hi.
    - apply (listed_now _ _ _ _ _ _ H (proj1 (proj2 Hr))) in K. apply Hl. destruct K as (a & r & t & f & b & E & Hb). exists a, j, x, r, t, f, b. auto. }
  assert (Hx : forall x, alive (OSession x) -> exists h, app h /\ clos_refl_trans object (refers k os) h (OSession x)).
  { intros x Hx. destruct (Hn _ Hx) as [K|[K|(o' & Ho & K)]]; [exact (Hself _ K)|exfalso; exact (rest_holds _ _ _ Hr K)|].
    destruct o' as [| |x'|j]; try (exfalso; exact K).
    - exfalso. cbn [refers] in K. rewrite Eo, Es in K. destruct K as [K|(i & K & _)]; destruct K.
    - exact (Hstep _ _ (Hp _ Ho) K). }
  assert (Hc : alive OChannel -> exists h, app h /\ clos_refl_trans object (refers k os) h OChannel).
  { intros Hc. destruct (Hn _ Hc) as [K|[K|(o' & Ho & K)]]; [exact (Hself _ K)|exfalso; exact (rest_holds _ _ _ Hr K)|].
    destruct o' as [| |x|j]; try (exfalso; exact K). exact (Hstep _ _ (Hx _ Ho) K). }
  intros [| |x|j] Ho; [exact (Hc Ho)| |exact (Hx _ Ho)|exact (Hp _ Ho)].
  destruct (Hn _ Ho) as [K|[K|(o' & Ho' & K)]]; [exact (Hself _ K)|exfalso; exact (rest_holds _ _ _ Hr K)|].
  destruct o' as [| |x|j]; try (exfalso; exact K). exact (Hstep _ _ (Hc Ho') K).
Qed.

Lemma freed_iff pol es k os : stack_history user pol es k os -> resting k -> In (Channel TcpShutdown) os ->
  (all_freed k os <-> ~ left_scheduled os).
Proof.
  intros H Hr Hd. split.
  - intros Hf (a & j & x & r & t & f & b & E & Hb). exact (Hf _ (cycle _ _ _ _ _ _ _ _ _ _ _ _ H (proj1 (proj2 Hr)) E Hb) _ (or_introl eq_refl)).
  - intros Hl alive Hn o Ho. destruct (left_reachable _ _ _ _ _ H Hr Hd Hl alive Hn o Ho) as (h & Hh & _). destruct Hh.
Qed.

(** No request is left scheduled if none is scheduled after the shutdown. *)
Lemma none_left pol es k os a b : stack_history user pol es k os -> os = a ++ Channel TcpShutdown :: b -> ~ In (Channel TcpShutdown) a ->
  (forall j x r t f, ~ In (Scheduled j x r t f) b) -> ~ left_scheduled os.
Proof.
  intros H Eos Ha Hb (a1 & j & x & r & t & f & b1 & E & Hc). destruct (shutdown_closes_all _ _ _ _ _ _ _ H Eos Ha) as ((b' & Eb) & es1 & k1 & H1).
  rewrite E in Eos. change (a ++ Channel TcpShutdown :: b) with (a ++ (Channel TcpShutdown :: b)) in Eos.
  destruct (split_two _ _ _ _ _ Eos) as [(m & Em & E1)|(m & -> & E1)].
  - apply Hc. rewrite E1, Eb. apply in_or_app. right. right. apply in_or_app. left. apply in_map_iff. exists x. split; [reflexivity|].
    destruct (sessions_inv _ _ _ _ _ H1) as [[R _ _] _ _].
    destruct (scheduled_of _ _ _ _ j x r t f H1) as (p & s & _ & _ & Es); [rewrite Em; apply in_or_app; right; left; reflexivity|].
    assert (Eo : opened_ids a = seq 0 (List.length (ks_sessions (st_rest k1)))) by (rewrite <- (rg_open_ids _ _ _ R); symmetry; apply flat_inner; reflexivity).
    rewrite Eo. apply nth_below in Es. apply in_seq. lia.
  - destruct m as [|y m]; [discriminate|]. cbn [app] in E1. inversion E1 as [[E2 E3]]. apply (Hb j x r t f). rewrite E3. apply in_or_app. right. left. reflexivity.
Qed.

Lemma freed_after pol es k os a b : stack_history user pol es k os -> resting k -> os = a ++ Channel TcpShutdown :: b -> ~ In (Channel TcpShutdown) a ->
  (forall j x r t f, ~ In (Scheduled j x r t f) b) -> all_freed k os.
Proof.
  intros H Hr Eos Ha Hb. apply (freed_iff _ _ _ _ H Hr); [rewrite Eos; apply in_or_app; right; left; reflexivity|].
  exact (none_left _ _ _ _ _ _ H Eos Ha Hb).
Qed.

(** Before the shutdown, sessions are kept. *)
Lemma kept_open pol es k os x u t app : stack_history user pol es k os -> ~ In (Channel TcpShutdown) os -> In (Opened x u t) os ->
  not_destroyed k os app (fun o => o = OSession x \/ o = OChannel \/ o = OConnection).
Proof.
  intros H Hd Hx. destruct (sessions_history _ _ _ _ _ H) as (buf & Hb & V). destruct (vw_inv _ _ _ _ _ _ V) as [[R _ _] O _].
  assert (Hdown : ks_shutdown (st_rest k) = false).
  { rewrite (vw_down _ _ _ _ _ _ V). destruct (tcp_shutdown (of_channel os)) eqn:Et; [|reflexivity]. apply tcp_shutdown_in, in_channel in Et. contradiction. }
  assert (Hin : In x (seq 0 (List.length (ks_sessions (st_rest k))))).
  { rewrite <- (rg_open_ids _ _ _ R). unfold opened_ids. apply in_flat_map. exists (Opened x u t). split; [|left; reflexivity].
    apply in_inner. split; [exact Hx|discriminate]. }
  intros o [ -> |[ -> | -> ]]; right; right.
  - exists OChannel. split; [auto|]. cbn [refers]. left. rewrite (op_open _ _ O Hdown). exact Hin.
  - exists (OSession x). split; [auto|]. cbn [refers]. apply in_seq in Hin. apply nth_error_Some. lia.
  - exists OChannel. split; [auto|]. exact Logic.I.
Qed.

(** A session in the hands of the application keeps the connection. *)
Lemma kept_held pol es k os x u t : stack_history user pol es k os -> In (Opened x u t) os ->
  not_destroyed k os (eq (OSession x)) (fun o => o = OSession x \/ o = OChannel \/ o = OConnection).
Proof.
  intros H Hx. destruct (sessions_inv _ _ _ _ _ H) as [[R _ _] _ _].
  assert (Hin : In x (seq 0 (List.length (ks_sessions (st_rest k))))).
  { rewrite <- (rg_open_ids _ _ _ R). unfold opened_ids. apply in_flat_map. exists (Opened x u t). split; [|left; reflexivity].
    apply in_inner. split; [exact Hx|discriminate]. }
  intros o [ -> |[ -> | -> ]]; [left; reflexivity|right; right|right; right].
  - exists (OSession x). split; [auto|]. cbn [refers]. apply in_seq in Hin. apply nth_error_Some. lia.
  - exists OChannel. split; [auto|]. exact Logic.I.
Qed.

(** The requests that are kept are those that are not completed. *)
Lemma holding pol es k os i : stack_history user pol es k os ->
  In i (stored_requests (st_channel k) ++ posted_requests (st_channel k)) ->
  (exists c, In (Channel (Called i c)) os) /\ forall v, ~ In (Channel (Completed i v)) os.
Proof.
  intros H Hi. destruct (sessions_history _ _ _ _ _ H) as (buf & Hb & V). destruct (view_core _ _ _ _ _ _ Hb V) as (C & _).
  assert (Hl : In i (live (st_channel k))) by (revert Hi; unfold stored_requests; rewrite <- app_assoc; exact (fun x => x)). split.
  - assert (K := co_below _ _ C i (in_or_app _ _ _ (or_intror Hl))).
    assert (Hc : In i (called_ids (of_channel os))) by (rewrite (co_called _ _ C); apply in_seq; lia).
    unfold called_ids in Hc. apply in_flat_map in Hc. destruct Hc as (o & Ho & Hc). destruct o as [i' c| | | |]; cbn in Hc; try contradiction Hc.
    destruct Hc as [ -> |[]]. exists c. apply in_channel. exact Ho.
  - intros v Hv. apply (co_gone _ _ C i); [|exact Hl]. unfold completed_ids. apply in_flat_map. exists (Completed i v). split; [apply in_channel; exact Hv|left; reflexivity].
Qed.

Lemma holding_back pol es k os i c : stack_history user pol es k os -> ~ In (Channel TcpShutdown) os ->
  In (Channel (Called i c)) os -> (forall v, ~ In (Channel (Completed i v)) os) ->
  In i (stored_requests (st_channel k) ++ posted_requests (st_channel k)).
Proof.
  intros H Hd Hc Hv. destruct (sessions_history _ _ _ _ _ H) as (buf & Hb & V). destruct (view_core _ _ _ _ _ _ Hb V) as (C & _).
  destruct (channel_history _ _ _ _ _ H) as (ces & script & Hh & _).
  assert (Hs : cc_shutdown (st_channel k) = false).
  { destruct (cc_shutdown (st_channel k)) eqn:Es; [|reflexivity]. exfalso. apply Hd, in_channel, (history_shutdown _ _ _ _ _ _ Hh). exact Es. }
  assert (Hi : (i < cc_calls (st_channel k))%nat).
  { assert (K : In i (called_ids (of_channel os))).
    { unfold called_ids. apply in_flat_map. exists (Called i c). split; [apply in_channel; exact Hc|left; reflexivity]. }
    rewrite (co_called _ _ C) in K. apply in_seq in K. lia. }
  destruct (in_app_or _ _ _ (co_all _ _ C Hs i Hi)) as [K|K].
  - exfalso. unfold completed_ids in K. apply in_flat_map in K. destruct K as (o & Ho & K). destruct o as [| | |i' v|]; cbn in K; try contradiction K.
    destruct K as [ -> |[]]. apply (Hv v), in_channel. exact Ho.
  - unfold stored_requests. rewrite <- app_assoc. exact K.
Qed.

Lemma poll_scheduled pol es k os j x : stack_history user pol es k os ->
  ((exists p, nth_error (ks_polls (st_rest k)) j = Some p /\ po_session p = x) <-> exists r t f, In (Scheduled j x r t f) os).
Proof.
  intros H. split.
  - intros (p & Ep & <-). destruct (sessions_inv _ _ _ _ _ H) as [[R _ _] _ _]. destruct (rg_sched _ _ _ R _ _ Ep) as (t & f & s & A & _).
    apply in_inner in A. exists (po_request p), t, f. apply A.
  - intros (r & t & f & Hin). destruct (scheduled_of _ _ _ _ _ _ _ _ _ H Hin) as (p & s & A & B & _). eauto.
Qed.

Lemma handler_session pol es k os i x : stack_history user pol es k os ->
  (handler_holds k os i (OSession x) <->
   (exists r t, In (Issued i x r t) os) \/
   exists j n r t f, In (Repeated i j n) os /\ In (Scheduled j x r t f) os).
Proof.
  intros H. cbn [handler_holds]. split; (intros [K|K]; [left; exact K|right]).
  - destruct K as (j & n & p & A & B & C). destruct (proj1 (poll_scheduled _ _ _ _ j x H)) as (r & t & f & D); [eauto|]. exists j, n, r, t, f. auto.
  - destruct K as (j & n & r & t & f & A & B). destruct (proj2 (poll_scheduled _ _ _ _ j x H)) as (p & C & D); [eauto|]. exists j, n, p. auto.
Qed.

Lemma handler_scheduled k os i j : handler_holds (W := W) k os i (OScheduled j) <-> exists n, In (Repeated i j n) os.
Proof. reflexivity. Qed.

(** A scheduled request that waits for an answer is not destroyed. *)
Lemma in_flight pol es k os i j n c app : stack_history user pol es k os -> ~ In (Channel TcpShutdown) os ->
  In (Repeated i j n) os -> In (Channel (Called i c)) os -> (forall v, ~ In (Channel (Completed i v)) os) ->
  exists x, not_destroyed k os app (fun o => o = OScheduled j \/ o = OSession x \/ o = OChannel \/ o = OConnection).
Proof.
  intros H Hd Hr Hc Hv. assert (Hi := holding_back _ _ _ _ _ _ H Hd Hc Hv).
  destruct (sessions_history _ _ _ _ _ H) as (buf & Hb & V). destruct (vw_inv _ _ _ _ _ _ V) as [[R _ _] O _].
  destruct (repeated_owner _ _ _ i j n R) as (_ & p & s & Ep & Es & _); [apply in_inner; split; [exact Hr|discriminate]|].
  assert (Hdown : ks_shutdown (st_rest k) = false).
  { rewrite (vw_down _ _ _ _ _ _ V). destruct (tcp_shutdown (of_channel os)) eqn:Et; [|reflexivity]. apply tcp_shutdown_in, in_channel in Et. contradiction. }
  exists (po_session p). intros o [ -> |[ -> |[ -> | -> ]]]; right.
  - apply in_app_or in Hi. destruct Hi as [Hi|Hi].
    + right. exists OChannel. split; [auto|]. exists i. split; [exact Hi|]. exists n. exact Hr.
    + left. left. exists i. split; [exact Hi|]. exists n. exact Hr.
  - right. exists (OScheduled j). split; [auto|]. exists p. auto.
  - right. exists (OSession (po_session p)). split; [auto|]. cbn [refers]. congruence.
  - right. exists OChannel. split; [auto|]. exact Logic.I.
Qed.
End Histories.
