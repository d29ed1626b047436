(** What the methods of scheduled requests do. *)
From Verif Require Import Prelude Ser4 Messages Mbap SpecPdu SpecMbap Client SpecClient ClientFacts ClientView
  Scheduled SpecScheduled ScheduledFacts SessionCall Session SpecSession SessionLift SessionFacts SessionPolls SessionStop SessionInv SessionLemmas.
From Coq Require Import Lia.

Local Notation answer := (expected response).

Lemma after_app a b x : after_calls (a ++ b) x = after_calls b (after_calls a x).
Proof. apply fold_left_app. Qed.
Lemma meant_app j a b : meant j (a ++ b) = fold_left (meant_step j) b (meant j a).
Proof. apply fold_left_app. Qed.
Arguments meant : simpl never.
Arguments after_calls : simpl never.

Definition unmeant (j : nat) (o : koutput) : bool :=
  match o with Scheduled j' _ _ _ _ => negb (Nat.eqb j' j) | Asked (OnSchedule j' _) => negb (Nat.eqb j' j) | _ => true end.

Lemma meant_same j l : forallb (unmeant j) l = true -> forall x, fold_left (meant_step j) l x = x.
Proof.
  induction l as [|o l IH]; cbn [forallb]; intros H x; [reflexivity|]. apply Bool.andb_true_iff in H. destruct H as [H1 H2].
  cbn [fold_left]. rewrite IH by exact H2.
  destruct o as [o|a|y u t|i y r t|i v|j' y r t f|j' o|i j' n]; try reflexivity.
  - destruct a; try reflexivity. cbn [unmeant] in H1. cbn [meant_step]. destruct (Nat.eqb j0 j); [discriminate|reflexivity].
  - cbn [unmeant] in H1. cbn [meant_step]. destruct (Nat.eqb j' j); [discriminate|reflexivity].
Qed.

Definition sched_meant (s : sched) : bool * N := after_calls (sr_queue s) (sr_running s, sr_frequency s).

Lemma step_meant s e s' o : match e with SApi _ => False | _ => True end -> sched_step no_calls s tt e = (s', tt, o) -> sched_meant s' = sched_meant s.
Proof.
  intros He. destruct e as [a| |i r|t|t]; [destruct He| | | |]; cbn [sched_step].
  - destruct (sr_queue s) as [|a q] eqn:Eq; [intros H; inversion H; subst; reflexivity|].
    destruct (run_sapi (with_squeue s q) a) as [s1 o1] eqn:E1. intros H; inversion H; subst. unfold sched_meant. rewrite Eq.
    change (a :: q) with ([a] ++ q). rewrite after_app. unfold run_sapi in E1. destruct a as [| |f]; cbn [sr_running with_squeue] in E1.
    + destruct (sr_running s) eqn:Er; cbn in E1; inversion E1; subst; cbn; rewrite ?Er; reflexivity.
    + destruct (sr_running s) eqn:Er; cbn in E1; inversion E1; subst; cbn; rewrite ?Er; reflexivity.
    + inversion E1; subst; reflexivity.
  - destruct (existsb _ _); [|intros H; inversion H; subst; reflexivity]. unfold on_answer. cbn [no_calls sr_running with_posted].
    destruct (sr_running s) eqn:Er; intros H; inversion H; subst; unfold sched_meant; cbn; rewrite ?app_nil_r, ?Er; reflexivity.
  - destruct (existsb _ _); intros H; inversion H; subst; reflexivity.
  - destruct (existsb _ _); intros H; inversion H; subst; reflexivity.
Qed.

Section Meant.
Context {W : Type}.
Context (user : source -> W -> answer -> W * list kapi).
Implicit Types (z : sessions W) (L : list koutput).

Definition mnt L z : Prop := forall j p, nth_error (ks_polls z) j = Some p -> sched_meant (po_sched p) = meant j L.

Lemma mnt_same L l z z' : mnt L z -> (forall j, forallb (unmeant j) l = true) -> ks_polls z' = ks_polls z -> mnt (L ++ l) z'.
Proof. intros A Hl HP j p. rewrite HP, meant_app, meant_same by apply Hl. apply A. Qed.

Lemma mnt_did L z a z' c : mnt (L ++ ks_log z) z -> did z a z' c -> mnt (L ++ ks_log z') z'.
Proof.
  intros A D. inversion D; subst; cbn [ks_log show with_log with_sessions with_owner kpost with_kqueue with_polls set_sched]; rewrite ?app_assoc;
    try (eapply (mnt_same (L ++ ks_log z)); [exact A|reflexivity|reflexivity]).
  - intros j p Hp. cbn [ks_polls show with_log] in Hp. rewrite meant_app. destruct a as [u t|x r t|x r t f|j' a|x|]; try (exact (A j p Hp)).
    cbn [fold_left meant_step]. destruct (Nat.eqb_spec j' j) as [ -> |]; [congruence|exact (A j p Hp)].
  - intros j p Hp. cbn [ks_polls kpost with_kqueue with_polls] in Hp. rewrite meant_app. cbn [fold_left meant_step].
    apply nth_snoc in Hp. destruct Hp as [Hp|[ -> -> ]].
    + destruct (Nat.eqb_spec (List.length (ks_polls z)) j) as [<-|Hj]; [|exact (A j p Hp)].
      exfalso. apply nth_below in Hp. lia.
    + rewrite Nat.eqb_refl. reflexivity.
  - intros j' q Hq. cbn [ks_polls kpost with_kqueue with_polls set_sched show with_log] in Hq. rewrite meant_app. cbn [fold_left meant_step].
    destruct (Nat.eqb_spec j j') as [ <- |Hj].
    + rewrite (update_this _ _ _ _ H) in Hq. inversion Hq; subst. cbn [po_sched]. rewrite <- (A j p H). unfold sched_meant. cbn [sr_queue sr_running sr_frequency with_posted].
      rewrite after_app. destruct (after_calls (sr_queue (po_sched p)) _) as [b f]. match goal with |- context [match ?y with Start => _ | _ => _ end] => destruct y end; reflexivity.
    + rewrite update_apart in Hq by congruence. exact (A j' q Hq).
Qed.

Lemma unmeant_polls j j' (o : list (soutput answer)) : forallb (unmeant j) (map (Polled j') o) = true.
Proof. induction o as [|x o IH]; [reflexivity|exact IH]. Qed.

Lemma mnt_poll L z j e z' c : match e with SApi _ => False | _ => True end -> mnt (L ++ ks_log z) z -> poll_step z j e = (z', c) -> mnt (L ++ ks_log z') z'.
Proof.
  intros He A E. destruct (nth_error (ks_polls z) j) as [p|] eqn:Hp; [|rewrite poll_missing in E by exact Hp; inversion E; subst; exact A].
  apply (poll_polled _ _ _ _ _ _ Hp) in E.
  assert (G : forall s o, sched_step no_calls (po_sched p) tt e = (s, tt, o) -> mnt (L ++ ks_log z) (set_sched z j p s)).
  { intros s o Es j' q Hq. cbn [ks_polls set_sched with_polls] in Hq. destruct (Nat.eq_dec j j') as [ <- |Hj].
    - rewrite (update_this _ _ _ _ Hp) in Hq. inversion Hq; subst. cbn [po_sched]. rewrite (step_meant _ _ _ _ He Es). exact (A j p Hp).
    - rewrite update_apart in Hq by congruence. exact (A j' q Hq). }
  inversion E; subst; cbn [ks_log show with_log with_owner set_sched with_polls]; rewrite ?app_assoc.
  - eapply (mnt_same (L ++ ks_log z)); [exact (G _ _ H)|intros j'; apply unmeant_polls|reflexivity].
  - rewrite <- (app_assoc (L ++ ks_log z)). eapply (mnt_same (L ++ ks_log z)); [exact (G _ _ H)| |reflexivity].
    intros j'. rewrite forallb_app, unmeant_polls. reflexivity.
Qed.

Lemma mnt_apis l : forall L z z' c, mnt (L ++ ks_log z) z -> kapi_calls z l = (z', c) -> mnt (L ++ ks_log z') z'.
Proof.
  intros L z z' c G E. refine (H_apis (fun L z _ _ => mnt L z) _ _ _ _ [] [] _ _ G E).
  intros L0 z0 _ _ a z1 c1 J0 E0. eapply mnt_did; [exact J0|]. apply kapi_did. exact E0.
Qed.

Lemma mnt_run L z q0 q z' c : mnt (L ++ ks_log z) z -> run_kclosure (with_kqueue z q) q0 = (z', c) -> mnt (L ++ ks_log z') z'.
Proof.
  intros A. destruct q0 as [j|x j|x]; cbn [run_kclosure].
  - apply mnt_poll; [exact Logic.I|exact A].
  - cbn [ks_sessions with_kqueue]. destruct (nth_error (ks_sessions z) x) as [s|]; intros H; inversion H; subst; exact A.
  - cbn [ks_sessions with_kqueue]. destruct (nth_error (ks_sessions z) x) as [s|]; [|intros H; inversion H; subst; exact A].
    destruct (kapi_calls _ _) as [z1 c1] eqn:E1. intros H; inversion H; subst. cbn [ks_log with_sessions].
    exact (mnt_apis _ L (with_kqueue z q) _ _ A E1).
Qed.

Definition inv_mnt L z (D : list (nat * expected (list N))) (cs : list call) : Prop := inv L z D cs /\ mnt L z.

Lemma mnt_history pol es k os : stack_history user pol es k os -> exists buf, good_buf buf /\ view inv_mnt pol buf es k os.
Proof.
  apply history_view; unfold inv_mnt.
  - intros L z D cs a z' c [I J] E. split; [eapply inv_api; eassumption|]. eapply mnt_did; [exact J|]. apply kapi_did. exact E.
  - intros L z D cs j t z' c [I J] E. split; [exact (inv_poll L z D cs j (SExpire t) z' c Logic.I I E)|exact (mnt_poll _ _ _ (SExpire t) _ _ Logic.I J E)].
  - intros L z D cs j t z' c [I J] E. split; [exact (inv_poll L z D cs j (SFire t) z' c Logic.I I E)|exact (mnt_poll _ _ _ (SFire t) _ _ Logic.I J E)].
  - intros L z D cs q0 q z' c [I J] Hq E. split; [eapply inv_run; eassumption|eapply mnt_run; eassumption].
  - intros L z D cs i r x v w [I J] Ho Ev Hi. split; [eapply inv_user; eassumption|].
    cbn [ks_log show with_log with_user]. rewrite app_assoc. eapply (mnt_same (L ++ ks_log z)); [exact J|reflexivity|reflexivity].
  - intros L z D cs i j n p x v w z' c [I J] Ho Hp Ev Hi E. split; [eapply inv_answer; eassumption|].
    exact (mnt_poll L (with_user z w) j (SAnswer n v) _ _ Logic.I J E).
  - intros L z D cs i [I J] Hi. eapply inv_owner; eassumption.
  - intros L z D cs z' c [I J] E. split; [eapply inv_closed; eassumption|]. exact (mnt_apis _ L (with_closed z) _ _ J E).
  - intros L z D cs [I J]. split; [apply inv_log; exact I|exact J].
  - intros w. split; [apply inv_init|]. intros j p Hp. destruct j; discriminate.
Qed.

Lemma meant_inner j os : meant j (inner os) = meant j os.
Proof.
  unfold meant. generalize (false, 0). induction os as [|o os IH]; intros b; [reflexivity|]. unfold inner. cbn [filter].
  destruct o; cbn [fold_left]; apply IH.
Qed.

Lemma meant_now pol es k os j x r t f : stack_history user pol es k os -> In (Scheduled j x r t f) os -> ks_queue (st_rest k) = [] ->
  (is_running k j, frequency k j) = meant j os.
Proof.
  intros H Hj Hq. destruct (mnt_history _ _ _ _ H) as (buf & Hb & V). destruct (vw_inv _ _ _ _ _ _ V) as [[[R _ _] _ S] M].
  destruct (scheduled_poll _ _ _ j x r t f R) as (p & s & Ep & _); [apply in_inner; split; [exact Hj|discriminate]|].
  rewrite <- meant_inner, <- (M j p Ep). unfold is_running, frequency. rewrite Ep. unfold sched_meant.
  assert (K := sp_turns _ _ S j). unfold pending_of in K. rewrite Ep, Hq in K. cbn in K.
  destruct (sr_queue (po_sched p)); [reflexivity|discriminate].
Qed.
End Meant.
