(** The shutdown of a session, and what is left to execute. *)
From Verif Require Import Prelude Ser4 Messages Mbap SpecPdu SpecMbap Client SpecClient ClientFacts ClientView
  Scheduled SpecScheduled ScheduledFacts SessionCall Session SpecSession SessionLift SessionFacts SessionPolls.
From Coq Require Import Lia.

Local Notation answer := (expected response).

(** ** Where a scheduled request is in its life *)
Inductive phase : Type := NotYet | Live | Closed | Restarted.

Definition phase_step (j x : nat) (h : phase) (o : koutput) : phase :=
  match h, o with
  | NotYet, Scheduled j' x' _ _ _ => if (Nat.eqb j' j && Nat.eqb x' x)%bool then Live else NotYet
  | Live, Asked (CloseSession x') => if Nat.eqb x' x then Closed else Live
  | Closed, Asked (OnSchedule j' Start) => if Nat.eqb j' j then Restarted else Closed
  | _, _ => h
  end.
Definition phase_of (j x : nat) (L : list koutput) : phase := fold_left (phase_step j x) L NotYet.

Lemma phase_app j x a b : phase_of j x (a ++ b) = fold_left (phase_step j x) b (phase_of j x a).
Proof. apply fold_left_app. Qed.

(** Outputs that leave it unchanged. *)
Definition stays (j x : nat) (o : koutput) : Prop :=
  match o with
  | Scheduled j' _ _ _ _ => j' <> j
  | Asked (CloseSession x') => x' <> x
  | Asked (OnSchedule j' Start) => j' <> j
  | _ => True
  end.

Lemma phase_stays j x l : Forall (stays j x) l -> forall h, fold_left (phase_step j x) l h = h.
Proof.
  induction 1 as [|o l Ho _ IH]; intros h; [reflexivity|]. cbn [fold_left]. rewrite IH.
  destruct h, o as [o|a|y u t|i y r t|i v|j' y r t f|j' o|i j' n]; try reflexivity; cbn in Ho |- *.
  - rewrite (proj2 (Nat.eqb_neq _ _) Ho). reflexivity.
  - destruct a as [u t|y r t|y r t f|j' a|y|]; try reflexivity. rewrite (proj2 (Nat.eqb_neq _ _) Ho). reflexivity.
  - destruct a as [u t|y r t|y r t f|j' [| |f']|y|]; try reflexivity. rewrite (proj2 (Nat.eqb_neq _ _) Ho). reflexivity.
Qed.

Lemma phase_fresh j x L : (forall x' r t f, ~ In (Scheduled j x' r t f) L) -> phase_of j x L = NotYet.
Proof.
  intros H. unfold phase_of. induction L as [|o L IH] using rev_ind; [reflexivity|]. rewrite fold_left_app, IH.
  - destruct o; try reflexivity. cbn. destruct (Nat.eqb_spec j0 j) as [->|]; [|reflexivity]. exfalso. eapply H. apply in_or_app. right. left. reflexivity.
  - intros x' r t f Hin. eapply H. apply in_or_app. left. exact Hin.
Qed.

(** ** What the posted closures will do *)

(** Whether [j] is listed in session [x] after the closures, and whether it is stopped by one of them. *)
Definition scan_step (j x : nat) (b : bool * bool) (c : kclosure) : bool * bool :=
  match c with
  | RunPoll _ => b
  | Register x' j' => if (Nat.eqb x' x && Nat.eqb j' j)%bool then (true, snd b) else b
  | StopAll x' => if Nat.eqb x' x then (false, snd b || fst b)%bool else b
  end.
Definition scan (j x : nat) (q : list kclosure) (b : bool * bool) : bool * bool := fold_left (scan_step j x) q b.

Lemma scan_app j x a b l : scan j x (a ++ b) l = scan j x b (scan j x a l).
Proof. apply fold_left_app. Qed.

(** The listing does not depend on the flag, and the flag is only ever raised. *)
Lemma scan_fst j x q : forall l h h', fst (scan j x q (l, h)) = fst (scan j x q (l, h')).
Proof.
  induction q as [|c q IH]; intros l h h'; [reflexivity|]. unfold scan in *. cbn [fold_left].
  destruct c as [j'|x' j'|x']; cbn [scan_step]; [apply IH| |].
  - destruct (Nat.eqb x' x && Nat.eqb j' j)%bool; cbn [snd]; apply IH.
  - destruct (Nat.eqb x' x); cbn [snd fst]; apply IH.
Qed.

Lemma scan_up j x q : forall l h, snd (scan j x q (l, h)) = (h || snd (scan j x q (l, false)))%bool.
Proof.
  induction q as [|c q IH]; intros l h; [cbn; rewrite Bool.orb_false_r; reflexivity|]. unfold scan in *. cbn [fold_left].
  destruct c as [j'|x' j'|x']; cbn [scan_step]; [apply IH| |].
  - destruct (Nat.eqb x' x && Nat.eqb j' j)%bool; cbn [snd]; apply IH.
  - destruct (Nat.eqb x' x); cbn [snd fst]; [|apply IH]. rewrite IH. rewrite (IH false (false || l)%bool).
    destruct h, l; cbn; rewrite ?Bool.orb_true_r; reflexivity.
Qed.

Lemma scan_later j x q b : snd b = true -> snd (scan j x q b) = true.
Proof. destruct b as [l h]. cbn. intros ->. rewrite scan_up. reflexivity. Qed.

(** Closures that do not concern the listing of [j] in [x]. *)
Definition unlisting (j x : nat) (c : kclosure) : Prop :=
  match c with RunPoll _ => True | Register x' j' => x' <> x \/ j' <> j | StopAll x' => x' <> x end.

Lemma scan_same j x q : Forall (unlisting j x) q -> forall b, scan j x q b = b.
Proof.
  induction 1 as [|c q Hc _ IH]; intros b; [reflexivity|]. unfold scan in *. cbn [fold_left]. rewrite IH.
  destruct c as [j'|x' j'|x']; cbn in *; [reflexivity| |].
  - destruct (Nat.eqb_spec x' x), (Nat.eqb_spec j' j); try reflexivity. cbn. intuition.
  - rewrite (proj2 (Nat.eqb_neq _ _) Hc). reflexivity.
Qed.

(** Whether a scheduled request will be running after the closures of its methods. *)
Definition settle_step (b : bool) (a : sapi) : bool := match a with Start => true | Stop => false | SetFrequency _ => b end.
Definition settle (b : bool) (l : list sapi) : bool := fold_left settle_step l b.

Lemma settle_app b l m : settle b (l ++ m) = settle (settle b l) m.
Proof. apply fold_left_app. Qed.

Definition listed (s : session) (j : nat) : bool := existsb (Nat.eqb j) (ss_listed s).

Fixpoint turns (j : nat) (q : list kclosure) : nat :=
  match q with
  | [] => 0
  | RunPoll j' :: q' => if Nat.eqb j' j then S (turns j q') else turns j q'
  | _ :: q' => turns j q'
  end.

Lemma turns_app j a b : turns j (a ++ b) = (turns j a + turns j b)%nat.
Proof.
  induction a as [|c a IH]; [reflexivity|]. cbn [app turns]. destruct c; try exact IH. destruct (Nat.eqb j0 j); rewrite IH; reflexivity.
Qed.

Arguments scan : simpl never.
Arguments settle : simpl never.
Arguments listed : simpl never.
Arguments phase_of : simpl never.

Lemma update_apart {A} (l : list A) : forall n a i, i <> n -> nth_error (update l n a) i = nth_error l i.
Proof. induction l as [|b l IH]; intros [|n] a [|i] H; cbn; try reflexivity; try congruence. apply IH. congruence. Qed.

Section Stop.
Context {W : Type}.
Implicit Types (z : sessions W) (L : list koutput).

Definition pending_of z (j : nat) : nat := match nth_error (ks_polls z) j with Some p => List.length (sr_queue (po_sched p)) | None => 0 end.

Definition safe z (h : phase) (j : nat) (p : poll) (s : session) : Prop :=
  match h with
  | Live => fst (scan j (po_session p) (ks_queue z) (listed s j, false)) = true
  | Closed => snd (scan j (po_session p) (ks_queue z) (listed s j, false)) = true \/
      settle (sr_running (po_sched p)) (sr_queue (po_sched p)) = false
  | _ => True
  end.

Record stp L z : Prop := {
  sp_turns : forall j, turns j (ks_queue z) = pending_of z j;
  sp_safe : forall j p s, nth_error (ks_polls z) j = Some p -> nth_error (ks_sessions z) (po_session p) = Some s ->
    safe z (phase_of j (po_session p) L) j p s
}.

Lemma stp_init w : stp [] (sessions_init w).
Proof. constructor; cbn; [intros j; destruct j; reflexivity|]. intros j p s E. destruct j; discriminate. Qed.

(** The state is the same as far as this is concerned. *)
Lemma stp_same L l z z' : stp L z -> (forall j x, Forall (stays j x) l) -> ks_polls z' = ks_polls z -> ks_queue z' = ks_queue z ->
  ks_sessions z' = ks_sessions z -> stp (L ++ l) z'.
Proof.
  intros [A B] Hl HP HQ HS. constructor; unfold pending_of; rewrite ?HP, ?HQ, ?HS; [exact A|].
  intros j p s E1 E2. rewrite phase_app, phase_stays by apply Hl. specialize (B _ _ _ E1 E2). unfold safe in *. rewrite HQ. exact B.
Qed.

Lemma settle_no_start b a : a <> Start -> b = false -> settle_step b a = false.
Proof. intros H ->. destruct a; [congruence|reflexivity|reflexivity]. Qed.

Lemma stp_did L z a z' c cs : reg (L ++ ks_log z) z cs -> stp (L ++ ks_log z) z -> did z a z' c -> stp (L ++ ks_log z') z'.
Proof.
  intros R S D.
  assert (Hno : forall j x' r' t' f', In (Scheduled j x' r' t' f') (L ++ ks_log z) -> (j < List.length (ks_polls z))%nat).
  { intros j x' r' t' f' Hin. assert (Hj : In j (scheduled_ids (L ++ ks_log z))).
    { unfold scheduled_ids. apply in_flat_map. eexists. split; [exact Hin|]. left. reflexivity. }
    rewrite (rg_sched_ids _ _ _ R) in Hj. apply in_seq in Hj. lia. }
  inversion D; subst; cbn [ks_log show with_log with_sessions with_owner kpost with_kqueue with_polls set_sched]; rewrite ?app_assoc.
  - (* nothing *)
    constructor; cbn; [exact (sp_turns _ _ S)|]. intros j p s E1 E2. rewrite phase_app, phase_stays; [exact (sp_safe _ _ S _ _ _ E1 E2)|].
    repeat constructor. destruct a as [u t|x r t|x r t f|j' [| |f']|x|]; cbn; auto; intros ->; congruence.
  - (* open *)
    constructor; cbn; [exact (sp_turns _ _ S)|]. intros j p s E1 E2. apply nth_snoc in E2. destruct E2 as [E2|[E2 _]].
    + rewrite phase_app, phase_stays by (repeat constructor). exact (sp_safe _ _ S _ _ _ E1 E2).
    + exfalso. destruct (rg_sched _ _ _ R _ _ E1) as (t' & f & s' & _ & B & _). apply nth_below in B. lia.
  - (* send *)
    eapply stp_same; [exact S|intros; repeat constructor|reflexivity|reflexivity|reflexivity].
  - (* schedule *)
    constructor; cbn.
    + intros j. rewrite turns_app, (sp_turns _ _ S). unfold pending_of. cbn.
      destruct (Nat.eqb_spec (List.length (ks_polls z)) j) as [<-|Hj].
      * rewrite (proj2 (nth_snoc _ _ _ _) (or_intror (conj eq_refl eq_refl))).
        rewrite (proj2 (nth_error_None _ _) (le_n _)). reflexivity.
      * destruct (nth_error (ks_polls z) j) as [p|] eqn:E; [rewrite (nth_more _ _ _ _ E); lia|].
        apply nth_error_None in E. rewrite (proj2 (nth_error_None (_ ++ _) j)); [reflexivity|]. rewrite app_length. cbn. lia.
    + intros j p s' E1 E2. apply nth_snoc in E1. destruct E1 as [E1|[-> ->]].
      * assert (Hj := nth_below _ _ _ E1). rewrite phase_app, phase_stays by (repeat constructor; cbn; lia).
        pose proof (sp_safe _ _ S _ _ _ E1 E2) as K. unfold safe in *. cbn. rewrite scan_app.
        rewrite (scan_same j (po_session p) [_; _]) by (apply Forall_cons; [exact Logic.I|]; apply Forall_cons; [cbn; right; lia|apply Forall_nil]). exact K.
      * rewrite phase_app. rewrite phase_fresh by (intros x' r' t' f' Hin; apply Hno in Hin; lia). cbn. rewrite !Nat.eqb_refl. cbn.
        unfold safe. cbn. rewrite scan_app. unfold scan at 1. cbn. rewrite !Nat.eqb_refl. reflexivity.
  - (* a method of a scheduled request *)
    constructor; cbn.
    + intros j'. rewrite turns_app, (sp_turns _ _ S). unfold pending_of. cbn. destruct (Nat.eqb_spec j j') as [->|Hj].
      * rewrite (update_this _ _ _ _ H), H. cbn. rewrite app_length. cbn. lia.
      * rewrite update_apart by congruence. lia.
    + intros j' p' s' E1 E2. apply nth_update in E1. destruct E1 as [[Hj E1]|(-> & _ & ->)].
      * rewrite phase_app, phase_stays. 2:{ repeat constructor. destruct a0; cbn; auto. }
        pose proof (sp_safe _ _ S _ _ _ E1 E2) as K. unfold safe in *. cbn. rewrite scan_app. exact K.
      * cbn in E2 |- *. rewrite phase_app. pose proof (sp_safe _ _ S _ _ _ H E2) as K. unfold safe in K. cbn [fold_left].
        set (h := phase_of j (po_session p) (L ++ ks_log z)) in *. clearbody h. unfold safe. cbn. rewrite scan_app.
        rewrite (scan_same j (po_session p) [RunPoll j]) by (repeat constructor).
        destruct h; cbn; try exact Logic.I; try exact K.
        destruct a0; rewrite ?Nat.eqb_refl; try exact Logic.I; rewrite settle_app; cbn; (destruct K as [K|K]; [left; exact K|right; auto]).
  - (* shutdown of a session *)
    constructor; cbn.
    + intros j. rewrite turns_app, (sp_turns _ _ S). cbn. unfold pending_of. cbn. lia.
    + intros j p s' E1 E2. pose proof (sp_safe _ _ S _ _ _ E1 E2) as K. rewrite phase_app. cbn [fold_left]. unfold safe in *. cbn.
      set (h := phase_of j (po_session p) (L ++ ks_log z)) in *. clearbody h. rewrite scan_app. unfold scan at 1 3. cbn [fold_left scan_step].
      destruct h; cbn; try exact Logic.I.
      * destruct (Nat.eqb x (po_session p)) eqn:E; [|exact K]. left. cbn [snd fst].
        rewrite K. apply Bool.orb_true_r.
      * destruct (Nat.eqb x (po_session p)) eqn:E; [|exact K]. destruct K as [K|K]; [left|right; exact K]. cbn [snd fst]. rewrite K. reflexivity.
  - (* shutdown of the channel *)
    eapply stp_same; [exact S|intros; repeat constructor|reflexivity|reflexivity|reflexivity].
Qed.

(** A step of scheduled request [j], outside its closures. *)
Lemma stp_step L z z' j p s o l : stp L z -> nth_error (ks_polls z) j = Some p ->
  sr_queue s = sr_queue (po_sched p) -> sr_running s = sr_running (po_sched p) ->
  (forall j x, Forall (stays j x) l) -> ks_queue z' = ks_queue z -> ks_sessions z' = ks_sessions z ->
  ks_polls z' = ks_polls (set_sched z j p s) -> stp (L ++ map (Polled j) o ++ l) z'.
Proof.
  intros S Hp E1 E2 Hl HQ HS HP. cbn in HP.
  assert (Hst : forall j' x', Forall (stays j' x') (map (Polled j) o ++ l)).
  { intros j' x'. apply Forall_app. split; [|apply Hl]. apply Forall_forall. intros y Hy. apply in_map_iff in Hy. destruct Hy as (u & <- & _). exact Logic.I. }
  constructor; unfold pending_of; rewrite ?HQ, ?HS, ?HP.
  - intros j'. rewrite (sp_turns _ _ S). unfold pending_of. destruct (Nat.eq_dec j' j) as [->|Hj].
    + rewrite (update_this _ _ _ _ Hp), Hp. cbn. rewrite E1. reflexivity.
    + rewrite update_apart by congruence. reflexivity.
  - intros j' p' s' F1 F2. rewrite phase_app, phase_stays by apply Hst. apply nth_update in F1. destruct F1 as [[Hj F1]|(-> & _ & ->)].
    + pose proof (sp_safe _ _ S _ _ _ F1 F2) as K. unfold safe in *. rewrite HQ. exact K.
    + cbn in F2 |- *. pose proof (sp_safe _ _ S _ _ _ Hp F2) as K. unfold safe in *. cbn. rewrite HQ, E1, E2. exact K.
Qed.

Lemma step_keeps (s s' : sched) e o : match e with SExpire _ | SFire _ | SAnswer _ _ => True | _ => False end ->
  sched_step no_calls s tt e = (s', tt, o) -> sr_queue s' = sr_queue s /\ sr_running s' = sr_running s.
Proof.
  destruct e as [a| |n v|t|t]; cbn [sched_step]; intros []; unfold on_answer; cbn [no_calls].
  - destruct (existsb _ _); [|intros H; inversion H; subst; auto]. cbn [sr_running with_posted].
    destruct (sr_running s) eqn:E; intros H; inversion H; subst; cbn; rewrite ?app_nil_r; auto.
  - destruct (existsb _ _); intros H; inversion H; subst; auto.
  - destruct (existsb _ _); intros H; inversion H; subst; auto.
Qed.

Lemma stp_polled L z j p e z' c : match e with SExpire _ | SFire _ | SAnswer _ _ => True | _ => False end ->
  stp (L ++ ks_log z) z -> nth_error (ks_polls z) j = Some p -> polled z j p e z' c -> stp (L ++ ks_log z') z'.
Proof.
  intros He S Hp H. inversion H as [s o Es Er|s o n u Es Er Hu]; subst; cbn [ks_log show with_log with_owner set_sched with_polls]; rewrite ?app_assoc;
    destruct (step_keeps _ _ _ _ He Es) as [E1 E2].
  - rewrite <- (app_nil_r (map (Polled j) o)). eapply stp_step; [exact S|exact Hp|exact E1|exact E2|intros; constructor|reflexivity|reflexivity|reflexivity].
  - rewrite <- (app_assoc (L ++ ks_log z)). eapply stp_step; [exact S|exact Hp|exact E1|exact E2|intros; repeat constructor|reflexivity|reflexivity|reflexivity].
Qed.

(** A closure of a scheduled request. *)
Lemma step_run (s s' : sched) o a q : sr_queue s = a :: q -> sched_step (R := answer) no_calls s tt SRun = (s', tt, o) ->
  sr_queue s' = q /\ sr_running s' = settle_step (sr_running s) a.
Proof.
  intros Hq. cbn [sched_step]. rewrite Hq. destruct a; cbn [run_sapi]; cbn [sr_running with_squeue]; try destruct (sr_running s) eqn:E; cbn;
    intros H; inversion H; subst; cbn; auto.
Qed.

Lemma stp_run L z q j z' c cs : reg (L ++ ks_log z) z cs -> stp (L ++ ks_log z) z -> ks_queue z = RunPoll j :: q ->
  poll_step (with_kqueue z q) j SRun = (z', c) -> stp (L ++ ks_log z') z'.
Proof.
  intros R S Hq H. assert (Ht := sp_turns _ _ S j). rewrite Hq in Ht. cbn in Ht. rewrite Nat.eqb_refl in Ht. unfold pending_of in Ht.
  destruct (nth_error (ks_polls z) j) as [p|] eqn:Hp; [|discriminate].
  destruct (sr_queue (po_sched p)) as [|a sq] eqn:Esq; [discriminate|]. cbn in Ht. injection Ht as Ht.
  assert (Hpz : nth_error (ks_polls (with_kqueue z q)) j = Some p) by exact Hp.
  assert (G : exists s o l, sched_step no_calls (po_sched p) tt SRun = (s, tt, o) /\ (forall j x, Forall (stays j x) l) /\
    ks_log z' = ks_log z ++ map (Polled j) o ++ l /\ ks_queue z' = q /\ ks_sessions z' = ks_sessions z /\ ks_polls z' = ks_polls (set_sched z j p s)).
  { apply (poll_polled _ _ _ _ _ _ Hpz) in H. inversion H as [s o Es Er|s o n u Es Er Hu]; subst.
    - exists s, o, []. split; [exact Es|]. split; [intros; constructor|]. rewrite app_nil_r. repeat split.
    - exists s, o, [Repeated (List.length (ks_owners (with_kqueue z q))) j n]. split; [exact Es|]. split; [intros; repeat constructor|].
      repeat split. }
  destruct G as (s & o & l & Es & Hl & HL & HQ & HS & HP). destruct (step_run _ _ _ _ _ Esq Es) as [E1 E2].
  assert (Hst : forall j' x', Forall (stays j' x') (map (Polled j) o ++ l)).
  { intros j' x'. apply Forall_app. split; [|apply Hl]. apply Forall_forall. intros y Hy. apply in_map_iff in Hy. destruct Hy as (u & <- & _). exact Logic.I. }
  rewrite HL, app_assoc. constructor; unfold pending_of; rewrite HP, ?HQ, ?HS; cbn [set_sched with_polls ks_polls].
  - intros j'. destruct (Nat.eq_dec j' j) as [->|Hj].
    + rewrite (update_this _ _ _ _ Hp). cbn. rewrite E1. exact Ht.
    + rewrite update_apart by congruence. pose proof (sp_turns _ _ S j') as K. rewrite Hq in K. cbn in K.
      rewrite (proj2 (Nat.eqb_neq j j')) in K by congruence. exact K.
  - intros j' p' s' F1 F2. rewrite phase_app, phase_stays by apply Hst. apply nth_update in F1. destruct F1 as [[Hj F1]|(-> & _ & ->)].
    + pose proof (sp_safe _ _ S _ _ _ F1 F2) as K. unfold safe in *. rewrite Hq in K. rewrite HQ. exact K.
    + cbn in F2 |- *. pose proof (sp_safe _ _ S _ _ _ Hp F2) as K. unfold safe in *. cbn. rewrite Hq, Esq in K. rewrite HQ, E1, E2. exact K.
Qed.

Lemma stp_register L z q x j z' c : stp (L ++ ks_log z) z -> ks_queue z = Register x j :: q ->
  run_kclosure (with_kqueue z q) (Register x j) = (z', c) -> stp (L ++ ks_log z') z'.
Proof.
  intros S Hq. cbn [run_kclosure ks_sessions with_kqueue].
  assert (T : forall j', turns j' q = pending_of z j').
  { intros j'. rewrite <- (sp_turns _ _ S), Hq. reflexivity. }
  destruct (nth_error (ks_sessions z) x) as [s0|] eqn:Hs; intros H; inversion H; subst; constructor; cbn; try exact T.
  - intros j' p s E1 E2. apply nth_update in E2. destruct E2 as [[Hx E2]|(Hx & _ & ->)].
    + pose proof (sp_safe _ _ S _ _ _ E1 E2) as K. unfold safe in *. rewrite Hq in K. cbn.
      unfold scan in K |- *. cbn [fold_left scan_step] in K. rewrite (proj2 (Nat.eqb_neq x (po_session p))) in K by congruence. exact K.
    + rewrite <- Hx in Hs. pose proof (sp_safe _ _ S _ _ _ E1 Hs) as K. unfold safe in *. rewrite Hq in K. cbn.
      unfold scan in K |- *. cbn [fold_left scan_step] in K. rewrite <- Hx, Nat.eqb_refl in K. cbn [andb] in K. rewrite Hx in K |- *. 
      replace (listed {| ss_unit := ss_unit s0; ss_timeout := ss_timeout s0; ss_listed := ss_listed s0 ++ [j] |} j') with
        (listed s0 j' || Nat.eqb j j')%bool.
      2:{ unfold listed. cbn. rewrite existsb_app. cbn. rewrite Bool.orb_false_r, (Nat.eqb_sym j'). reflexivity. }
      destruct (Nat.eqb j j'); cbn [snd] in K; rewrite ?Bool.orb_true_r, ?Bool.orb_false_r; exact K.
  - intros j' p s E1 E2. assert (Hx : x <> po_session p) by congruence.
    pose proof (sp_safe _ _ S _ _ _ E1 E2) as K. unfold safe in *. rewrite Hq in K. cbn.
    unfold scan in K |- *. cbn [fold_left scan_step] in K. rewrite (proj2 (Nat.eqb_neq x (po_session p))) in K by congruence. exact K.
Qed.

(** Stopping a list of scheduled requests. *)
Record stopped (l : list nat) z z' : Prop := {
  sd_sessions : ks_sessions z' = ks_sessions z;
  sd_log : exists o, ks_log z' = ks_log z ++ o /\ forall j x, Forall (stays j x) o;
  sd_queue : exists r, ks_queue z' = ks_queue z ++ r /\ (forall j x, Forall (unlisting j x) r) /\
    forall j, (pending_of z' j = pending_of z j + turns j r)%nat;
  sd_polls : forall j p', nth_error (ks_polls z') j = Some p' -> exists p k, nth_error (ks_polls z) j = Some p /\
    po_session p' = po_session p /\ sr_running (po_sched p') = sr_running (po_sched p) /\
    sr_queue (po_sched p') = sr_queue (po_sched p) ++ repeat Stop k /\ (In j l -> k <> O)
}.

Lemma settle_stops b k : k <> O \/ b = false -> settle b (repeat Stop k) = false.
Proof.
  destruct k as [|k]; [intros [H| ->]; [congruence|reflexivity]|]. intros _. cbn. induction k as [|k IH]; [reflexivity|exact IH].
Qed.

Lemma stopped_all l : forall z z' c, kapi_calls z (map (fun j => OnSchedule j Stop) l) = (z', c) -> stopped l z z'.
Proof.
  induction l as [|j l IH]; intros z z' c; cbn [map kapi_calls].
  - intros H; inversion H; subst. constructor; [reflexivity| | |].
    + exists []. rewrite app_nil_r. split; [reflexivity|intros; constructor].
    + exists []. rewrite app_nil_r. split; [reflexivity|]. split; [intros; constructor|]. intros j. cbn. lia.
    + intros j p' E. exists p', O. cbn. rewrite app_nil_r. auto 6.
  - destruct (kapi_call z (OnSchedule j Stop)) as [z1 c1] eqn:E1. destruct (kapi_calls z1 _) as [z2 c2] eqn:E2.
    intros H; inversion H; subst. apply IH in E2. destruct E2 as [A (o & B1 & B2) (r & C1 & C2 & C3) F].
    apply kapi_did in E1. inversion E1 as [a Hno| | | |j' a p Hp| |]; subst.
    + constructor; [exact A| | |].
      * exists (Asked (OnSchedule j Stop) :: o). rewrite B1. cbn. rewrite <- app_assoc. split; [reflexivity|]. intros; constructor; [exact Logic.I|apply B2].
      * exists r. split; [exact C1|]. split; [exact C2|]. exact C3.
      * intros j' p' E. destruct (F _ _ E) as (p & k & G1 & G2 & G3 & G4 & G5). exists p, k.
        split; [exact G1|]. split; [exact G2|]. split; [exact G3|]. split; [exact G4|].
        intros [->|Hl]; [cbn in G1; congruence|exact (G5 Hl)].
    + constructor; [exact A| | |].
      * exists (Asked (OnSchedule j Stop) :: o). rewrite B1. cbn. rewrite <- app_assoc. split; [reflexivity|]. intros; constructor; [exact Logic.I|apply B2].
      * exists (RunPoll j :: r). rewrite C1. cbn. rewrite <- app_assoc. split; [reflexivity|]. split; [intros; constructor; [exact Logic.I|apply C2]|].
        intros j'. rewrite C3. unfold pending_of. cbn. destruct (Nat.eqb_spec j j') as [->|Hj].
        -- rewrite (update_this _ _ _ _ Hp), Hp. cbn. rewrite app_length. cbn. lia.
        -- rewrite update_apart by congruence. lia.
      * intros j' p' E. destruct (F _ _ E) as (p1 & k & G1 & G2 & G3 & G4 & G5). cbn in G1. apply nth_update in G1. destruct G1 as [[Hj G1]|(-> & _ & ->)].
        -- exists p1, k. split; [exact G1|]. split; [exact G2|]. split; [exact G3|]. split; [exact G4|]. intros [->|Hl]; [congruence|exact (G5 Hl)].
        -- exists p, (S k). split; [exact Hp|]. split; [exact G2|]. split; [exact G3|]. split; [|intros _; discriminate].
           rewrite G4. cbn. rewrite <- app_assoc. reflexivity.
Qed.

Lemma stp_stop_all L z q x z' c : stp (L ++ ks_log z) z -> ks_queue z = StopAll x :: q ->
  run_kclosure (with_kqueue z q) (StopAll x) = (z', c) -> stp (L ++ ks_log z') z'.
Proof.
  intros S Hq. cbn [run_kclosure ks_sessions with_kqueue].
  assert (T : forall j', turns j' q = pending_of z j').
  { intros j'. rewrite <- (sp_turns _ _ S), Hq. reflexivity. }
  destruct (nth_error (ks_sessions z) x) as [s0|] eqn:Hs.
  - destruct (kapi_calls _ _) as [z1 c1] eqn:E1. intros H; inversion H; subst. apply stopped_all in E1.
    destruct E1 as [A (o & B1 & B2) (r & C1 & C2 & C3) F]. cbn [ks_sessions ks_log ks_queue with_kqueue] in A, B1, C1.
    cbn [ks_log with_sessions]. rewrite B1, app_assoc. constructor; cbn; rewrite ?A, ?C1.
    + intros j. rewrite turns_app, T. unfold pending_of at 2. cbn. fold (pending_of z1 j). rewrite C3. reflexivity.
    + intros j p' s E2 E3. destruct (F _ _ E2) as (p & k & G1 & G2 & G3 & G4 & G5). cbn in G1. rewrite G2 in *.
      rewrite phase_app, phase_stays by apply B2. unfold safe. cbn. rewrite C1, scan_app, (scan_same _ _ r) by apply C2. rewrite G2, G3, G4, settle_app.
      apply nth_update in E3. destruct E3 as [[Hx E3]|(Hx & _ & ->)].
      * pose proof (sp_safe _ _ S _ _ _ G1 E3) as K. unfold safe in K. rewrite Hq in K. unfold scan in K |- *. cbn [fold_left scan_step] in K.
        rewrite (proj2 (Nat.eqb_neq x (po_session p))) in K by congruence.
        destruct (phase_of _ _ _); try exact K. destruct K as [K|K]; [left; exact K|right]. apply settle_stops. right. exact K.
      * rewrite <- Hx in Hs. pose proof (sp_safe _ _ S _ _ _ G1 Hs) as K. unfold safe in K. rewrite Hq in K.
        unfold scan in K |- *. cbn [fold_left scan_step] in K. rewrite Hx, Nat.eqb_refl in K. cbn [fst snd] in K. rewrite Hx.
        change (listed {| ss_unit := _; ss_timeout := _; ss_listed := [] |} j) with false.
        fold (scan j x q (false, (false || listed s0 j)%bool)) in K. fold (scan j x q (false, false)).
        destruct (phase_of _ _ _); try exact K.
        -- rewrite (scan_fst _ _ _ _ _ (false || listed s0 j)%bool). exact K.
        -- rewrite scan_up in K. destruct K as [K|K]; [|right; apply settle_stops; right; exact K].
           apply Bool.orb_true_iff in K. destruct K as [K|K]; [|left; exact K]. right. apply settle_stops. left. apply G5.
           cbn in K. apply existsb_nat. exact K.
  - intros H; inversion H; subst; constructor; cbn; try exact T.
    intros j' p s E1 E2. assert (Hx : x <> po_session p) by congruence.
    pose proof (sp_safe _ _ S _ _ _ E1 E2) as K. unfold safe in *. rewrite Hq in K. cbn.
    unfold scan in K |- *. cbn [fold_left scan_step] in K. rewrite (proj2 (Nat.eqb_neq x (po_session p))) in K by congruence. exact K.
Qed.
End Stop.
