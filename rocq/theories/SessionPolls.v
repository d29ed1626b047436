(** The scheduled requests and the handlers of the sessions. *)
From Verif Require Import Prelude Ser4 Messages Mbap SpecPdu SpecMbap Client SpecClient ClientFacts ClientView
  Scheduled SpecScheduled ScheduledFacts SessionCall Session SpecSession SessionLift SessionFacts.
From Coq Require Import Lia.

Local Notation answer := (expected response).

(** ** Steps of one scheduled request *)
Lemma sched_extend f ses s os e s' o :
  schedule no_calls f ses s tt os -> sched_step no_calls s tt e = (s', tt, o) -> schedule no_calls f (ses ++ [e]) s' tt (os ++ o).
Proof.
  intros (w0 & H) E. exists w0. rewrite ScheduledFacts.run_app, H. cbn [sched_run]. rewrite E. cbn. rewrite app_nil_r. reflexivity.
Qed.

Definition own_event (e : sevent answer) : Prop :=
  match e with SRun | SExpire _ | SFire _ => True | SApi _ | SAnswer _ _ => False end.

Lemma step_other s e s' o : own_event e -> sched_step no_calls s tt e = (s', tt, o) ->
  (forall n v, ~ In (Response n v) o) /\
  ((requested o = [] /\ sr_outstanding s' = sr_outstanding s /\ sr_next_request s' = sr_next_request s) \/
   (requested o = [sr_next_request s] /\ sr_outstanding s' = sr_outstanding s ++ [sr_next_request s] /\
    sr_next_request s' = S (sr_next_request s))).
Proof.
  intros He H. pose proof (step_trans no_calls _ _ _ _ _ _ H) as T. 
  inversion T; subst; try (exfalso; exact He); cbn [sr_outstanding sr_next_request mk];
    (split; [cbn; intuition discriminate|]); first [left; split; [reflexivity|split; reflexivity]|right; split; [reflexivity|split; reflexivity]].
Qed.

Lemma step_answer s n v s' o : In n (sr_outstanding s) -> sched_step no_calls s tt (SAnswer n v) = (s', tt, o) ->
  requested o = [] /\ sr_outstanding s' = without n (sr_outstanding s) /\ sr_next_request s' = sr_next_request s /\
  (forall m v', In (Response m v') o <-> m = n /\ v' = v).
Proof.
  intros Hn. cbn [sched_step]. rewrite (proj2 (existsb_nat n _) Hn). unfold on_answer. cbn [no_calls].
  cbn [sr_running with_posted]. destruct (sr_running s); intros H; inversion H; subst; cbn;
    (split; [reflexivity|]; split; [reflexivity|]; split; [reflexivity|]); intros m v'; split;
    try (intros [-> ->]; auto; fail); intros [E|E]; try (inversion E; auto; fail); destruct E as [E|[]]; discriminate.
Qed.

Section Polls.
Context {W : Type}.
Implicit Types (z : sessions W) (L : list koutput).
Notation done := (list (nat * expected (list N))).
Implicit Types (D : done).

Record dyn L z D : Prop := {
  dy_sched : forall j p x r t f, nth_error (ks_polls z) j = Some p -> In (Scheduled j x r t f) L ->
    exists ses, schedule no_calls f ses (po_sched p) tt (of_poll j L);
  dy_fresh : forall j o, In (Polled j o) L -> (j < List.length (ks_polls z))%nat;
  dy_done : forall i, In i (map fst D) -> (i < List.length (ks_owners z))%nat;
  dy_next : forall i j n p, nth_error (ks_owners z) i = Some (ByPoll j n) -> nth_error (ks_polls z) j = Some p ->
    (n < sr_next_request (po_sched p))%nat;
  dy_once : forall i i' j n, nth_error (ks_owners z) i = Some (ByPoll j n) -> nth_error (ks_owners z) i' = Some (ByPoll j n) -> i = i';
  dy_out : forall j p n, nth_error (ks_polls z) j = Some p ->
    (In n (sr_outstanding (po_sched p)) <-> exists i, nth_error (ks_owners z) i = Some (ByPoll j n) /\ ~ In i (map fst D))
}.

Lemma of_poll_app j a b : of_poll j (a ++ b) = of_poll j a ++ of_poll j b.
Proof. apply flat_map_app. Qed.

Lemma of_poll_same j o : of_poll j (map (Polled j) o) = o.
Proof. unfold of_poll. induction o as [|x o IH]; [reflexivity|]. cbn. rewrite Nat.eqb_refl. cbn. f_equal. exact IH. Qed.

Lemma of_poll_other j j' o : j <> j' -> of_poll j (map (Polled j') o) = [].
Proof.
  intros H. unfold of_poll. induction o as [|x o IH]; [reflexivity|]. cbn. rewrite (proj2 (Nat.eqb_neq j' j)) by congruence. exact IH.
Qed.

(** Outputs that do not concern the scheduled requests. *)
Definition unpolled (o : koutput) : bool := match o with Scheduled _ _ _ _ _ | Polled _ _ => false | _ => true end.

Lemma of_poll_unpolled j l : forallb unpolled l = true -> of_poll j l = [].
Proof. unfold of_poll. induction l as [|x l IH]; [reflexivity|]. destruct x; cbn; intros H; try (apply IH; exact H); discriminate. Qed.

Lemma in_unpolled l o : forallb unpolled l = true -> In o l -> unpolled o = true.
Proof. intros H. rewrite forallb_forall in H. apply H. Qed.

(** The owners are the same or a new one is a user's. *)
Lemma dyn_same L l z z' D : dyn L z D -> forallb unpolled l = true -> ks_polls z' = ks_polls z ->
  (ks_owners z' = ks_owners z \/ exists r, ks_owners z' = ks_owners z ++ [ByUser r]) -> dyn (L ++ l) z' D.
Proof.
  intros Y Hl HP HO.
  assert (Ho : forall i j n, nth_error (ks_owners z') i = Some (ByPoll j n) <-> nth_error (ks_owners z) i = Some (ByPoll j n)).
  { intros i j n. destruct HO as [->|(r & ->)]; [reflexivity|]. rewrite nth_snoc. split; [|auto]. intros [E|[_ E]]; [exact E|discriminate]. }
  constructor; rewrite ?HP.
  - intros j p x r t f E Hin. rewrite of_poll_app, (of_poll_unpolled _ _ Hl), app_nil_r.
    apply in_app_or in Hin. destruct Hin as [Hin|Hin]; [exact (dy_sched _ _ _ Y _ _ _ _ _ _ E Hin)|].
    apply (in_unpolled _ _ Hl) in Hin. discriminate.
  - intros j o Hin. apply in_app_or in Hin. destruct Hin as [Hin|Hin]; [exact (dy_fresh _ _ _ Y _ _ Hin)|].
    apply (in_unpolled _ _ Hl) in Hin. discriminate.
  - intros i Hi. apply (dy_done _ _ _ Y) in Hi. destruct HO as [->|(r & ->)]; [exact Hi|]. rewrite app_length. lia.
  - intros i j n p E. apply Ho in E. exact (dy_next _ _ _ Y _ _ _ _ E).
  - intros i i' j n E E'. apply Ho in E, E'. exact (dy_once _ _ _ Y _ _ _ _ E E').
  - intros j p n E. rewrite (dy_out _ _ _ Y _ _ _ E). split; intros (i & A & B); exists i; (split; [apply Ho; exact A|exact B]).
Qed.

(** A step of scheduled request [j] that sends nothing and answers nothing. *)
Lemma dyn_quiet L z D j p e s o z' : dyn L z D -> nth_error (ks_polls z) j = Some p ->
  sched_step no_calls (po_sched p) tt e = (s, tt, o) ->
  sr_outstanding s = sr_outstanding (po_sched p) -> sr_next_request s = sr_next_request (po_sched p) ->
  ks_polls z' = ks_polls (set_sched z j p s) -> ks_owners z' = ks_owners z -> forall l, forallb unpolled l = true ->
  dyn (L ++ map (Polled j) o ++ l) z' D.
Proof.
  intros Y Hp Es E1 E2 HP HO l Hl. cbn [set_sched with_polls ks_polls] in HP. constructor; rewrite ?HP, ?HO.
  - intros j' p' x r t f E Hin. rewrite !of_poll_app, (of_poll_unpolled _ _ Hl), app_nil_r.
    assert (Hin' : In (Scheduled j' x r t f) L).
    { apply in_app_or in Hin. destruct Hin as [Hin|Hin]; [exact Hin|]. apply in_app_or in Hin. destruct Hin as [Hin|Hin].
      - apply in_map_iff in Hin. destruct Hin as (y & Hy & _). discriminate.
      - apply (in_unpolled _ _ Hl) in Hin. discriminate. }
    apply nth_update in E. destruct E as [[Hj E]|(-> & _ & ->)].
    + rewrite (of_poll_other _ _ _ Hj), app_nil_r. exact (dy_sched _ _ _ Y _ _ _ _ _ _ E Hin').
    + rewrite of_poll_same. destruct (dy_sched _ _ _ Y _ _ _ _ _ _ Hp Hin') as (ses & H). exists (ses ++ [e]). cbn.
      eapply sched_extend; eassumption.
  - intros j' o' Hin. rewrite update_length. apply in_app_or in Hin. destruct Hin as [Hin|Hin]; [exact (dy_fresh _ _ _ Y _ _ Hin)|].
    apply in_app_or in Hin. destruct Hin as [Hin|Hin].
    + apply in_map_iff in Hin. destruct Hin as (y & Hy & _). inversion Hy; subst. exact (nth_below _ _ _ Hp).
    + apply (in_unpolled _ _ Hl) in Hin. discriminate.
  - exact (dy_done _ _ _ Y).
  - intros i j' n p' Eo E. apply nth_update in E. destruct E as [[Hj E]|(-> & _ & ->)].
    + exact (dy_next _ _ _ Y _ _ _ _ Eo E).
    + cbn. rewrite E2. exact (dy_next _ _ _ Y _ _ _ _ Eo Hp).
  - exact (dy_once _ _ _ Y).
  - intros j' p' n E. apply nth_update in E. destruct E as [[Hj E]|(-> & _ & ->)].
    + exact (dy_out _ _ _ Y _ _ _ E).
    + cbn. rewrite E1. exact (dy_out _ _ _ Y _ _ _ Hp).
Qed.

(** One that sends a request. *)
Lemma dyn_request L z D j p e s o z' : dyn L z D -> nth_error (ks_polls z) j = Some p ->
  sched_step no_calls (po_sched p) tt e = (s, tt, o) ->
  sr_outstanding s = sr_outstanding (po_sched p) ++ [sr_next_request (po_sched p)] ->
  sr_next_request s = S (sr_next_request (po_sched p)) ->
  ks_polls z' = ks_polls (set_sched z j p s) -> ks_owners z' = ks_owners z ++ [ByPoll j (sr_next_request (po_sched p))] ->
  forall l, forallb unpolled l = true -> dyn (L ++ map (Polled j) o ++ l) z' D.
Proof.
  intros Y Hp Es E1 E2 HP HO l Hl. cbn [set_sched with_polls ks_polls] in HP. set (nr := sr_next_request (po_sched p)) in *.
  constructor; rewrite ?HP, ?HO.
  - intros j' p' x r t f E Hin. rewrite !of_poll_app, (of_poll_unpolled _ _ Hl), app_nil_r.
    assert (Hin' : In (Scheduled j' x r t f) L).
    { apply in_app_or in Hin. destruct Hin as [Hin|Hin]; [exact Hin|]. apply in_app_or in Hin. destruct Hin as [Hin|Hin].
      - apply in_map_iff in Hin. destruct Hin as (y & Hy & _). discriminate.
      - apply (in_unpolled _ _ Hl) in Hin. discriminate. }
    apply nth_update in E. destruct E as [[Hj E]|(-> & _ & ->)].
    + rewrite (of_poll_other _ _ _ Hj), app_nil_r. exact (dy_sched _ _ _ Y _ _ _ _ _ _ E Hin').
    + rewrite of_poll_same. destruct (dy_sched _ _ _ Y _ _ _ _ _ _ Hp Hin') as (ses & H). exists (ses ++ [e]). cbn.
      eapply sched_extend; eassumption.
  - intros j' o' Hin. rewrite update_length. apply in_app_or in Hin. destruct Hin as [Hin|Hin]; [exact (dy_fresh _ _ _ Y _ _ Hin)|].
    apply in_app_or in Hin. destruct Hin as [Hin|Hin].
    + apply in_map_iff in Hin. destruct Hin as (y & Hy & _). inversion Hy; subst. exact (nth_below _ _ _ Hp).
    + apply (in_unpolled _ _ Hl) in Hin. discriminate.
  - intros i Hi. rewrite app_length. apply (dy_done _ _ _ Y) in Hi. lia.
  - intros i j' n p' Eo E. apply nth_update in E. apply nth_snoc in Eo. destruct E as [[Hj E]|(-> & _ & ->)].
    + destruct Eo as [Eo|[_ Eo]]; [exact (dy_next _ _ _ Y _ _ _ _ Eo E)|]. inversion Eo; subst. congruence.
    + cbn. rewrite E2. destruct Eo as [Eo|[_ Eo]]; [|inversion Eo; subst; unfold nr; lia].
      pose proof (dy_next _ _ _ Y _ _ _ _ Eo Hp). fold nr in H. lia.
  - intros i i' j' n E E'. apply nth_snoc in E, E'. destruct E as [E|[-> E]], E' as [E'|[-> E']].
    + exact (dy_once _ _ _ Y _ _ _ _ E E').
    + inversion E'; subst. pose proof (dy_next _ _ _ Y _ _ _ _ E Hp). unfold nr in H. lia.
    + inversion E; subst. pose proof (dy_next _ _ _ Y _ _ _ _ E' Hp). unfold nr in H. lia.
    + reflexivity.
  - intros j' p' n E. apply nth_update in E. destruct E as [[Hj E]|(-> & _ & ->)].
    + rewrite (dy_out _ _ _ Y _ _ _ E). split; intros (i & A & B); exists i; (split; [|exact B]).
      * apply nth_snoc. left. exact A.
      * apply nth_snoc in A. destruct A as [A|[_ A]]; [exact A|]. inversion A; subst. congruence.
    + cbn. rewrite E1. rewrite in_app_iff. rewrite (dy_out _ _ _ Y _ _ _ Hp). split.
      * intros [(i & A & B)|[<-|[]]].
        -- exists i. split; [apply nth_snoc; left; exact A|exact B].
        -- exists (List.length (ks_owners z)). split; [apply nth_snoc; right; split; reflexivity|].
           intros Hi. apply (dy_done _ _ _ Y) in Hi. lia.
      * intros (i & A & B). apply nth_snoc in A. destruct A as [A|[-> A]]; [left; exists i; split; [exact A|exact B]|].
        right. inversion A; subst. left. reflexivity.
Qed.

(** One that answers request [n]. *)
Lemma dyn_answer L z D j p n v s o z' i x : dyn L z D -> nth_error (ks_polls z) j = Some p ->
  nth_error (ks_owners z) i = Some (ByPoll j n) -> ~ In i (map fst D) ->
  sched_step no_calls (po_sched p) tt (SAnswer n v) = (s, tt, o) ->
  ks_polls z' = ks_polls (set_sched z j p s) -> ks_owners z' = ks_owners z -> dyn (L ++ map (Polled j) o) z' (D ++ [(i, x)]).
Proof.
  intros Y Hp Ho Hi Es HP HO. cbn [set_sched with_polls ks_polls] in HP.
  assert (Hn : In n (sr_outstanding (po_sched p))) by (apply (dy_out _ _ _ Y _ _ _ Hp); exists i; split; assumption).
  destruct (step_answer _ _ _ _ _ Hn Es) as (E0 & E1 & E2 & _).
  constructor; rewrite ?HP, ?HO.
  - intros j' p' x' r t f E Hin. rewrite !of_poll_app.
    assert (Hin' : In (Scheduled j' x' r t f) L).
    { apply in_app_or in Hin. destruct Hin as [Hin|Hin]; [exact Hin|]. apply in_map_iff in Hin. destruct Hin as (y & Hy & _). discriminate. }
    apply nth_update in E. destruct E as [[Hj E]|(-> & _ & ->)].
    + rewrite (of_poll_other _ _ _ Hj), app_nil_r. exact (dy_sched _ _ _ Y _ _ _ _ _ _ E Hin').
    + rewrite of_poll_same. destruct (dy_sched _ _ _ Y _ _ _ _ _ _ Hp Hin') as (ses & H). exists (ses ++ [SAnswer n v]). cbn.
      eapply sched_extend; eassumption.
  - intros j' o' Hin. rewrite update_length. apply in_app_or in Hin. destruct Hin as [Hin|Hin]; [exact (dy_fresh _ _ _ Y _ _ Hin)|].
    apply in_map_iff in Hin. destruct Hin as (y & Hy & _). inversion Hy; subst. exact (nth_below _ _ _ Hp).
  - intros i' Hi'. rewrite map_app in Hi'. apply in_app_or in Hi'. destruct Hi' as [Hi'|[<-|[]]]; [exact (dy_done _ _ _ Y _ Hi')|].
    exact (nth_below _ _ _ Ho).
  - intros i' j' n' p' Eo E. apply nth_update in E. destruct E as [[Hj E]|(-> & _ & ->)].
    + exact (dy_next _ _ _ Y _ _ _ _ Eo E).
    + cbn. rewrite E2. exact (dy_next _ _ _ Y _ _ _ _ Eo Hp).
  - exact (dy_once _ _ _ Y).
  - intros j' p' n' E. rewrite map_app. cbn [map fst].
    assert (K : forall i', ~ In i' (map fst D ++ [i]) <-> ~ In i' (map fst D) /\ i' <> i).
    { intros i'. rewrite in_app_iff. cbn. intuition. }
    apply nth_update in E. destruct E as [[Hj E]|(-> & _ & ->)].
    + rewrite (dy_out _ _ _ Y _ _ _ E). split; intros (i' & A & B); exists i'; (split; [exact A|]).
      * apply K. split; [exact B|]. intros ->. rewrite A in Ho. inversion Ho; subst. congruence.
      * apply K in B. apply B.
    + cbn. rewrite E1, in_without, (dy_out _ _ _ Y _ _ _ Hp). split.
      * intros [(i' & A & B) Hne]. exists i'. split; [exact A|]. apply K. split; [exact B|]. intros ->. rewrite A in Ho. inversion Ho; subst. congruence.
      * intros (i' & A & B). apply K in B. destruct B as [B Hne]. split; [exists i'; split; assumption|].
        intros ->. apply Hne. exact (dy_once _ _ _ Y _ _ _ _ A Ho).
Qed.

(** A user's handler is called. *)
Lemma dyn_user L l z z' D i r x : dyn L z D -> nth_error (ks_owners z) i = Some (ByUser r) -> forallb unpolled l = true ->
  ks_polls z' = ks_polls z -> ks_owners z' = ks_owners z -> dyn (L ++ l) z' (D ++ [(i, x)]).
Proof.
  intros Y Ho Hl HP HO. pose proof (dyn_same L l z z' D Y Hl HP (or_introl HO)) as Y'.
  constructor; try apply Y'.
  - intros i' Hi'. rewrite map_app in Hi'. apply in_app_or in Hi'. destruct Hi' as [Hi'|[<-|[]]]; [exact (dy_done _ _ _ Y' _ Hi')|].
    rewrite HO. exact (nth_below _ _ _ Ho).
  - intros j p n E. rewrite (dy_out _ _ _ Y' _ _ _ E). rewrite map_app. cbn [map fst]. split; intros (i' & A & B); exists i'; (split; [exact A|]).
    + rewrite in_app_iff. intros [B'|[->|[]]]; [exact (B B')|]. rewrite HO, Ho in A. discriminate.
    + intros B'. apply B. apply in_or_app. left. exact B'.
Qed.

Lemma dyn_init w : dyn [] (sessions_init w) [].
Proof.
  constructor; cbn; try (intros; destruct j; discriminate); try (intros; contradiction).
  intros i i' j n E. destruct i; discriminate.
Qed.

Lemma dyn_did L z a z' c cs D : reg (L ++ ks_log z) z cs -> dyn (L ++ ks_log z) z D -> did z a z' c -> dyn (L ++ ks_log z') z' D.
Proof.
  intros R Y H. inversion H; subst; cbn [ks_log show with_log with_sessions with_owner kpost with_kqueue with_polls set_sched]; rewrite ?app_assoc.
  - eapply dyn_same; [exact Y|reflexivity|reflexivity|left; reflexivity].
  - eapply dyn_same; [exact Y|reflexivity|reflexivity|left; reflexivity].
  - eapply dyn_same; [exact Y|reflexivity|reflexivity|right; eexists; reflexivity].
  - assert (Hno : forall j x' r' t' f', In (Scheduled j x' r' t' f') (L ++ ks_log z) -> (j < List.length (ks_polls z))%nat).
    { intros j x' r' t' f' Hin. assert (Hj : In j (scheduled_ids (L ++ ks_log z))).
      { unfold scheduled_ids. apply in_flat_map. eexists. split; [exact Hin|]. left. reflexivity. }
      rewrite (rg_sched_ids _ _ _ R) in Hj. apply in_seq in Hj. lia. }
    constructor; cbn.
    + intros j p x' r' t' f' E Hin. rewrite of_poll_app. cbn. rewrite app_nil_r. apply nth_snoc in E.
      apply in_app_or in Hin. destruct Hin as [Hin|Hin].
      * destruct E as [E|[-> ->]]; [exact (dy_sched _ _ _ Y _ _ _ _ _ _ E Hin)|]. apply Hno in Hin. lia.
      * destruct Hin as [Hin|[Hin|[]]]; [discriminate|]. inversion Hin; subst.
        destruct E as [E|[_ ->]]; [apply nth_below in E; lia|]. cbn.
        assert (Hf : of_poll (List.length (ks_polls z)) (L ++ ks_log z) = []).
        { unfold of_poll. destruct (flat_map _ (L ++ ks_log z)) as [|o os] eqn:Ef; [reflexivity|]. exfalso.
          assert (Ho : In o (o :: os)) by (left; reflexivity). rewrite <- Ef in Ho. apply in_flat_map in Ho. destruct Ho as (y & Hy & Ho).
          destruct y; try destruct Ho. destruct (Nat.eqb_spec j (List.length (ks_polls z))) as [->|]; [|destruct Ho].
          apply (dy_fresh _ _ _ Y) in Hy. lia. }
        rewrite Hf. exists [SApi Start]. exists tt. reflexivity.
    + intros j o Hin. rewrite app_length. apply in_app_or in Hin. destruct Hin as [Hin|[Hin|[Hin|[]]]]; try discriminate.
      apply (dy_fresh _ _ _ Y) in Hin. lia.
    + exact (dy_done _ _ _ Y).
    + intros i j n p Eo E. apply nth_snoc in E. destruct E as [E|[-> ->]]; [exact (dy_next _ _ _ Y _ _ _ _ Eo E)|].
      pose proof (rg_owner _ _ _ R _ _ Eo) as K. cbn in K. destruct K as (_ & p & s' & K & _). apply nth_below in K. lia.
    + exact (dy_once _ _ _ Y).
    + intros j p n E. apply nth_snoc in E. destruct E as [E|[-> ->]]; [exact (dy_out _ _ _ Y _ _ _ E)|]. cbn. split; [intros []|].
      intros (i & A & _). pose proof (rg_owner _ _ _ R _ _ A) as K. cbn in K. destruct K as (_ & p & s' & K & _). apply nth_below in K. lia.
  - change [Asked (OnSchedule j a0)] with (map (Polled j) [] ++ [Asked (OnSchedule j a0)]).
    apply (dyn_quiet _ _ _ j p (SApi a0) (with_posted (po_sched p) [a0]) []  _ Y H0); reflexivity.
  - eapply dyn_same; [exact Y|reflexivity|reflexivity|left; reflexivity].
  - eapply dyn_same; [exact Y|reflexivity|reflexivity|left; reflexivity].
Qed.

Lemma dyn_polled L z j p e z' c D : own_event e -> dyn (L ++ ks_log z) z D -> nth_error (ks_polls z) j = Some p -> polled z j p e z' c ->
  dyn (L ++ ks_log z') z' D.
Proof.
  intros He Y Hp H. inversion H as [s o Es Er|s o n u Es Er Hu]; subst; cbn [ks_log show with_log with_owner set_sched with_polls]; rewrite ?app_assoc;
    destruct (step_other _ _ _ _ He Es) as (_ & [(R1 & R2 & R3)|(R1 & R2 & R3)]).
  - rewrite <- (app_nil_r (map (Polled j) o)). eapply dyn_quiet; [exact Y|exact Hp|exact Es|exact R2|exact R3|reflexivity|reflexivity|reflexivity].
  - rewrite Er in R1. discriminate.
  - rewrite Er in R1. discriminate.
  - rewrite Er in R1. inversion R1; subst. rewrite <- (app_assoc (L ++ ks_log z)).
    eapply dyn_request; [exact Y|exact Hp|exact Es|exact R2|exact R3|reflexivity|reflexivity|reflexivity].
Qed.

(** ** Answers *)
Definition answers L : list (nat * answer) :=
  flat_map (fun o => match o with Answered i v => [(i, v)] | _ => [] end) L.

Definition answer_of z (d : nat * expected (list N)) : list (nat * answer) :=
  match nth_error (ks_owners z) (fst d) with
  | Some (ByUser r) => match session_result r (snd d) with Ret v => [(fst d, v)] | UB => [] end
  | _ => []
  end.

Record ans L z D : Prop := {
  an_user : answers L = flat_map (answer_of z) D;
  an_poll : forall j n v, In (Polled j (Response n v)) L <->
    exists i x p, In (i, x) D /\ nth_error (ks_owners z) i = Some (ByPoll j n) /\ nth_error (ks_polls z) j = Some p /\
      session_result (po_request p) x = Ret v
}.

Lemma answers_app a b : answers (a ++ b) = answers a ++ answers b.
Proof. apply flat_map_app. Qed.

Lemma ans_init w : ans [] (sessions_init w) [].
Proof. constructor; [reflexivity|]. cbn. intros j n v. split; [contradiction|]. intros (i & x & p & [] & _). Qed.

(** The owners of completed calls and the requests of the scheduled requests stay the same. *)
Lemma ans_more L l z z' D cs : reg L z cs -> dyn L z D -> ans L z D -> answers l = [] -> (forall j n v, ~ In (Polled j (Response n v)) l) ->
  (forall i, (i < List.length (ks_owners z))%nat -> nth_error (ks_owners z') i = nth_error (ks_owners z) i) ->
  (forall j p, nth_error (ks_polls z) j = Some p -> exists p', nth_error (ks_polls z') j = Some p' /\ po_request p' = po_request p) ->
  ans (L ++ l) z' D.
Proof.
  intros R Y A H1 H2 HO HP. constructor.
  - rewrite answers_app, H1, app_nil_r, (an_user _ _ _ A).
    assert (Hd := dy_done _ _ _ Y). clear -Hd HO. induction D as [|[i x] D IH]; [reflexivity|]. cbn [flat_map].
    rewrite IH by (intros i' Hi'; apply Hd; right; exact Hi'). f_equal. unfold answer_of. cbn [fst]. rewrite HO; [reflexivity|]. apply Hd. left. reflexivity.
  - intros j n v. rewrite in_app_iff, (an_poll _ _ _ A). split.
    + intros [(i & x & p & B1 & B2 & B3 & B4)|H]; [|destruct (H2 _ _ _ H)]. destruct (HP _ _ B3) as (p' & E1 & E2).
      exists i, x, p'. split; [exact B1|]. split; [rewrite HO; [exact B2|exact (nth_below _ _ _ B2)]|]. split; [exact E1|]. rewrite E2. exact B4.
    + intros (i & x & p' & B1 & B2 & B3 & B4). left. assert (Hi : (i < List.length (ks_owners z))%nat).
      { apply (dy_done _ _ _ Y). apply in_map_iff. exists (i, x). split; [reflexivity|exact B1]. }
      rewrite HO in B2 by exact Hi. pose proof (rg_owner _ _ _ R _ _ B2) as K. cbn in K. destruct K as (_ & p & s' & K & _).
      destruct (HP _ _ K) as (p'' & E1 & E2). rewrite E1 in B3. inversion B3; subst. exists i, x, p. rewrite <- E2. auto.
Qed.

Lemma request_update (l : list poll) j p s : nth_error l j = Some p -> forall k q, nth_error l k = Some q ->
  exists q', nth_error (update l j {| po_session := po_session p; po_request := po_request p; po_timeout := po_timeout p; po_sched := s |}) k = Some q' /\
    po_request q' = po_request q.
Proof.
  intros Hp k q Hq. destruct (Nat.eq_dec k j) as [->|Hk].
  - rewrite Hp in Hq. inversion Hq; subst. eexists. split; [eapply update_this; exact Hp|reflexivity].
  - exists q. split; [apply update_other; assumption|reflexivity].
Qed.

Lemma ans_did L z a z' c cs D : reg (L ++ ks_log z) z cs -> dyn (L ++ ks_log z) z D -> ans (L ++ ks_log z) z D -> did z a z' c -> ans (L ++ ks_log z') z' D.
Proof.
  intros R Y A H. inversion H; subst; cbn [ks_log show with_log with_sessions with_owner kpost with_kqueue with_polls set_sched]; rewrite ?app_assoc;
    (eapply ans_more; [exact R|exact Y|exact A|reflexivity|cbn; intuition discriminate| |]); cbn [ks_owners ks_polls show with_log with_sessions with_owner kpost with_kqueue with_polls set_sched];
    try (intros i _; reflexivity); try (intros j' p' E'; exists p'; split; [exact E'|reflexivity]).
  - intros i Hi. apply nth_error_app1. exact Hi.
  - intros j' p' E'. exists p'. split; [apply nth_more; exact E'|reflexivity].
  - apply request_update. exact H0.
Qed.

Lemma answers_polled j (o : list (soutput answer)) : answers (map (Polled j) o) = [].
Proof. unfold answers. induction o; [reflexivity|assumption]. Qed.

Lemma ans_polled L z j p e z' c cs D : own_event e -> reg (L ++ ks_log z) z cs -> dyn (L ++ ks_log z) z D -> ans (L ++ ks_log z) z D ->
  nth_error (ks_polls z) j = Some p -> polled z j p e z' c -> ans (L ++ ks_log z') z' D.
Proof.
  intros He R Y A Hp H. inversion H as [s o Es Er|s o n u Es Er Hu]; subst; cbn [ks_log show with_log with_owner set_sched with_polls]; rewrite ?app_assoc;
    destruct (step_other _ _ _ _ He Es) as (Hr & _).
  - eapply ans_more; [exact R|exact Y|exact A|apply answers_polled| | |].
    + intros j' n v Hin. apply in_map_iff in Hin. destruct Hin as (y & Hy & Hin). inversion Hy; subst. exact (Hr _ _ Hin).
    + intros i _. reflexivity.
    + apply request_update. exact Hp.
  - rewrite <- (app_assoc (L ++ ks_log z)). eapply ans_more; [exact R|exact Y|exact A| | | |].
    + rewrite answers_app, answers_polled. reflexivity.
    + intros j' n' v Hin. apply in_app_or in Hin. destruct Hin as [Hin|[Hin|[]]]; [|discriminate].
      apply in_map_iff in Hin. destruct Hin as (y & Hy & Hin). inversion Hy; subst. exact (Hr _ _ Hin).
    + intros i Hi. apply nth_error_app1. exact Hi.
    + apply request_update. exact Hp.
Qed.

Lemma ans_user L z z' cs D i r x v : reg L z cs -> dyn L z D -> ans L z D -> nth_error (ks_owners z) i = Some (ByUser r) ->
  session_result r x = Ret v -> ks_polls z' = ks_polls z -> ks_owners z' = ks_owners z -> ans (L ++ [Answered i v]) z' (D ++ [(i, x)]).
Proof.
  intros R Y A Ho Ev HP HO. constructor.
  - rewrite answers_app, flat_map_app, (an_user _ _ _ A). f_equal.
    + clear -HO. induction D as [|d D IH]; [reflexivity|]. cbn [flat_map]. rewrite IH. unfold answer_of. rewrite HO. reflexivity.
    + cbn. unfold answer_of. cbn [fst snd]. rewrite HO, Ho, Ev. reflexivity.
  - intros j n v'. rewrite in_app_iff, (an_poll _ _ _ A), HP, HO. split.
    + intros [(i' & x' & p & B)|[H|[]]]; [|discriminate]. exists i', x', p. rewrite in_app_iff. intuition.
    + intros (i' & x' & p & B1 & B2 & B3). left. apply in_app_or in B1. destruct B1 as [B1|[B1|[]]]; [exists i', x', p; auto|].
      inversion B1; subst. rewrite Ho in B2. discriminate.
Qed.

Lemma ans_answer L z z' cs D j p n v s o i x : reg L z cs -> dyn L z D -> ans L z D -> nth_error (ks_polls z) j = Some p ->
  nth_error (ks_owners z) i = Some (ByPoll j n) -> ~ In i (map fst D) -> session_result (po_request p) x = Ret v ->
  sched_step no_calls (po_sched p) tt (SAnswer n v) = (s, tt, o) ->
  ks_polls z' = ks_polls (set_sched z j p s) -> ks_owners z' = ks_owners z -> ans (L ++ map (Polled j) o) z' (D ++ [(i, x)]).
Proof.
  intros R Y A Hp Ho Hi Ev Es HP HO. cbn [set_sched with_polls ks_polls] in HP.
  assert (Hn : In n (sr_outstanding (po_sched p))) by (apply (dy_out _ _ _ Y _ _ _ Hp); exists i; split; assumption).
  destruct (step_answer _ _ _ _ _ Hn Es) as (_ & _ & _ & Hr).
  assert (Hreq : forall k q', nth_error (ks_polls z') k = Some q' -> exists q, nth_error (ks_polls z) k = Some q /\ po_request q' = po_request q).
  { intros k q'. rewrite HP. intros E. apply nth_update in E. destruct E as [[_ E]|(-> & _ & ->)]; [exists q'; auto|exists p; auto]. }
  assert (Hreq' : forall k q, nth_error (ks_polls z) k = Some q -> exists q', nth_error (ks_polls z') k = Some q' /\ po_request q' = po_request q).
  { rewrite HP. apply request_update. exact Hp. }
  constructor.
  - rewrite answers_app, answers_polled, app_nil_r, flat_map_app, (an_user _ _ _ A).
    replace (flat_map (answer_of z') [(i, x)]) with (@nil (nat * answer)).
    + rewrite app_nil_r. clear -HO. induction D as [|d D IH]; [reflexivity|]. cbn [flat_map]. rewrite IH. unfold answer_of. rewrite HO. reflexivity.
    + cbn. unfold answer_of. cbn [fst snd]. rewrite HO, Ho. reflexivity.
  - intros j' n' v'. rewrite in_app_iff, (an_poll _ _ _ A). split.
    + intros [(i' & x' & q & B1 & B2 & B3 & B4)|Hin].
      * destruct (Hreq' _ _ B3) as (q' & C1 & C2). exists i', x', q'. rewrite HO, C2. split; [apply in_or_app; left; exact B1|]. auto.
      * apply in_map_iff in Hin. destruct Hin as (y & Hy & Hin). inversion Hy; subst. apply Hr in Hin. destruct Hin as [-> ->].
        destruct (Hreq' _ _ Hp) as (q' & C1 & C2). exists i, x, q'. rewrite HO, C2. split; [apply in_or_app; right; left; reflexivity|]. auto.
    + intros (i' & x' & q' & B1 & B2 & B3 & B4). rewrite HO in B2. destruct (Hreq _ _ B3) as (q & C1 & C2). rewrite C2 in B4.
      apply in_app_or in B1. destruct B1 as [B1|[B1|[]]]; [left; exists i', x', q; auto|].
      inversion B1; subst. rewrite Ho in B2. inversion B2; subst. right. apply in_map_iff. exists (Response n' v'). split; [reflexivity|].
      apply Hr. rewrite Hp in C1. inversion C1; subst. rewrite Ev in B4. inversion B4; auto.
Qed.
End Polls.
