(** The properties of a scheduled request. *)
From Verif Require Import Prelude Tac Scheduled SpecScheduled ScheduledFacts.

Section Lemmas.
Context {R W : Type}.
Context (handler : nat -> W -> R -> W * list sapi).
Implicit Types (s : sched) (os o a b c : list (soutput R)) (es : list (sevent R)).

Ltac fields := cbn [mk sr_queue sr_running sr_frequency sr_timer sr_armed sr_expired sr_outstanding sr_next_timer sr_next_request] in *.

(** ** Where outputs come from *)
Ltac no_cut E :=
  repeat match type of E with
  | [] = ?l ++ _ :: _ => destruct l; discriminate E
  | _ :: _ = ?l ++ _ :: _ => destruct l; cbn [app] in E; [try discriminate E|injection E as <- E]
  end.

Lemma request_cut f es s w a j c :
  schedule handler f es s w (a ++ Request j :: c) ->
  exists es1 e es2 s1 w1 os1 s2 w2 o os2,
    es = es1 ++ e :: es2 /\ schedule handler f es1 s1 w1 os1 /\ sched_step handler s1 w1 e = (s2, w2, o ++ [Request j]) /\
    a = os1 ++ o /\ c = os2 /\ j = sr_next_request s1 /\
    (o = [Started] /\ e = SRun /\ sr_running s1 = false \/ o = [] /\ exists t, e = SFire t /\ In t (sr_expired s1)).
Proof.
  intros H. apply output_cut in H.
  destruct H as (es1 & e & es2 & s1 & w1 & os1 & s2 & w2 & o1 & o2 & os2 & -> & H1 & H2 & T & -> & ->).
  remember (o1 ++ Request j :: o2) as o eqn:E. destruct T; try solve [no_cut E].
  - destruct o1 as [|y o1]; cbn [app] in E; [discriminate|]. injection E as <- E.
    destruct o1 as [|y o1]; cbn [app] in E; [|injection E as <- E; destruct o1; discriminate]. injection E as -> <-.
    exists es1, SRun, es2. do 5 eexists. exists [Started]. eexists. split; [reflexivity|]. split; [exact H1|]. split; [exact H2|].
    do 3 (split; [reflexivity|]). left. split; [reflexivity|]. split; reflexivity.
  - destruct o1 as [|y o1]; cbn [app] in E; [|injection E as <- E; destruct o1; discriminate]. injection E as -> <-.
    exists es1, (SFire t), es2. do 5 eexists. exists []. eexists. split; [reflexivity|]. split; [exact H1|]. split; [exact H2|].
    do 3 (split; [reflexivity|]). right. split; [reflexivity|]. exists t. split; [reflexivity|]. exact H.
Qed.

Lemma started_cut f es s w a b :
  schedule handler f es s w (a ++ Started :: b) ->
  exists es1 es2 s1 w1, es = es1 ++ SRun :: es2 /\ schedule handler f es1 s1 w1 a /\ sr_running s1 = false /\
    exists b', b = Request (sr_next_request s1) :: b'.
Proof.
  intros H. apply output_cut in H.
  destruct H as (es1 & e & es2 & s1 & w1 & os1 & s2 & w2 & o1 & o2 & os2 & -> & H1 & H2 & T & -> & ->).
  remember (o1 ++ Started :: o2) as o eqn:E. destruct T; try solve [no_cut E].
  destruct o1 as [|y o1]; cbn [app] in E; [|injection E as <- E; destruct o1 as [|y o1]; [discriminate|injection E as <- E; destruct o1; discriminate]].
  injection E as <-. rewrite app_nil_r. exists es1, es2. do 2 eexists. split; [reflexivity|]. split; [exact H1|].
  split; [reflexivity|]. eexists. reflexivity.
Qed.

Lemma stopped_cut f es s w a b :
  schedule handler f es s w (a ++ Stopped :: b) ->
  exists es1 es2 s1 w1 s2 w2, es = es1 ++ SRun :: es2 /\ schedule handler f es1 s1 w1 a /\
    sched_step handler s1 w1 SRun = (s2, w2, [Stopped]) /\ sr_running s2 = false /\ (load s2 <= load s1)%nat.
Proof.
  intros H. apply output_cut in H.
  destruct H as (es1 & e & es2 & s1 & w1 & os1 & s2 & w2 & o1 & o2 & os2 & -> & H1 & H2 & T & -> & ->).
  remember (o1 ++ Stopped :: o2) as o eqn:E. destruct T; try solve [no_cut E].
  - destruct o1 as [|y o1]; cbn [app] in E; [|injection E as <- E; destruct o1; discriminate].
    injection E as <-. rewrite app_nil_r. exists es1, es2. do 4 eexists. split; [reflexivity|]. split; [exact H1|].
    split; [exact H2|]. split; [reflexivity|]. unfold load. fields. destruct tm; [pose proof (length_without_le n ar)|]; lia.
Qed.

Lemma wait_cut f es s w a t g b :
  schedule handler f es s w (a ++ Wait t g :: b) ->
  exists a' i r, a = a' ++ [Response i r] /\ g = frequency_of f a /\ polling a = true.
Proof.
  intros H. apply output_cut in H.
  destruct H as (es1 & e & es2 & s1 & w1 & os1 & s2 & w2 & o1 & o2 & os2 & -> & H1 & H2 & T & -> & ->).
  remember (o1 ++ Wait t g :: o2) as o eqn:E. destruct T; try solve [no_cut E].
  - destruct o1 as [|y o1]; cbn [app] in E; [discriminate|]. injection E as <- E.
    destruct o1 as [|y o1]; cbn [app] in E; [|injection E as <- E; destruct o1; discriminate]. injection E as <- <- <-.
    exists os1, i, r. split; [reflexivity|]. apply schedule_inv in H1. destruct H1. fields.
    split; [unfold frequency_of in *; rewrite fold_left_app; assumption|unfold polling in *; rewrite fold_left_app; symmetry; assumption].
Qed.

Lemma response_cut f es s w a i r b :
  schedule handler f es s w (a ++ Response i r :: b) -> polling a = true ->
  exists t b', b = Wait t (frequency_of f a) :: b'.
Proof.
  intros H P. apply output_cut in H.
  destruct H as (es1 & e & es2 & s1 & w1 & os1 & s2 & w2 & o1 & o2 & os2 & -> & H1 & H2 & T & -> & ->).
  remember (o1 ++ Response i r :: o2) as o eqn:E. apply schedule_inv in H1. destruct H1 as [V1 V2 _ _ _ _ _ _ _ _ _ _]. destruct T; fields; try solve [no_cut E].
  - destruct o1 as [|y o1]; cbn [app] in E;
      [|exfalso; injection E as <- E; destruct o1 as [|y o1]; [discriminate|injection E as <- E; destruct o1; discriminate]].
    injection E as <- <- <-. rewrite app_nil_r. do 2 eexists. rewrite <- V2. reflexivity.
  - exfalso. destruct o1 as [|y o1]; cbn [app] in E; [|injection E as <- E; destruct o1; discriminate].
    rewrite app_nil_r in P. congruence.
Qed.

(** ** One request at a time *)
Lemma request_in_unanswered i os : In (Request i) os -> answered i os = false -> In i (unanswered os).
Proof. intros I A. unfold unanswered. apply filter_In. rewrite A. split; [apply requested_in; exact I|reflexivity]. Qed.

Lemma not_answered_before f es s w a i b :
  schedule handler f es s w (a ++ Request i :: b) -> answered i a = false.
Proof.
  intros H. apply request_cut in H.
  destruct H as (es1 & e & es2 & s1 & w1 & os1 & s2 & w2 & o & os2 & _ & H1 & _ & -> & _ & -> & D).
  apply schedule_inv in H1. rewrite answered_app.
  replace (answered (sr_next_request s1) o) with false by (destruct D as [(-> & _)|(-> & _)]; reflexivity).
  rewrite orb_false_r. destruct (answered _ os1) eqn:E; [|reflexivity]. apply (v_answers _ _ _ _ H1) in E. lia.
Qed.

Lemma one_at_a_time f es s w os :
  (forall es1 e es2 s1 w1 os1 o2, es = es1 ++ e :: es2 -> os = os1 ++ o2 -> schedule handler f es1 s1 w1 os1 ->
     (e = SRun /\ sr_running s1 = false /\ (exists o3, o2 = Started :: o3) \/ exists t, e = SFire t /\ In t (sr_expired s1)) ->
     sr_outstanding s1 = []) ->
  schedule handler f es s w os ->
  forall a i b j c, os = a ++ Request i :: b ++ Request j :: c -> exists r, In (Response i r) b.
Proof.
  intros P H a i b j c E. pose proof H as H0. rewrite E in H0. pose proof (not_answered_before _ _ _ _ _ _ _ H0) as NA.
  replace (a ++ Request i :: b ++ Request j :: c) with ((a ++ Request i :: b) ++ Request j :: c) in H0 by (rewrite <- app_assoc; reflexivity).
  apply request_cut in H0.
  destruct H0 as (es1 & e & es2 & s1 & w1 & os1 & s2 & w2 & o & os2 & E1 & H1 & _ & E2 & -> & _ & D).
  assert (O : sr_outstanding s1 = []).
  { apply (P es1 e es2 s1 w1 os1 (o ++ Request j :: os2) E1); [|exact H1|].
    - rewrite E. rewrite app_assoc, <- E2, <- app_assoc. reflexivity.
    - destruct D as [(-> & -> & X)|(-> & t & -> & X)]; [left|right; exists t; split; [reflexivity|exact X]].
      split; [reflexivity|]. split; [exact X|]. eexists. reflexivity. }
  pose proof (schedule_inv _ _ _ _ _ _ H1) as V.
  assert (I : In (Request i) os1).
  { assert (I : In (Request i) (os1 ++ o)) by (rewrite <- E2; apply in_or_app; right; left; reflexivity).
    apply in_app_or in I. destruct I as [I|I]; [exact I|]. destruct D as [(-> & _)|(-> & _)]; [|destruct I].
    destruct I as [I|[]]. discriminate. }
  destruct (answered i os1) eqn:A.
  - assert (A2 : answered i (a ++ Request i :: b) = true) by (rewrite E2, answered_app, A; reflexivity).
    rewrite answered_app, NA in A2. cbn [orb] in A2. apply answered_in in A2. destruct A2 as (r & [X|X]); [discriminate|].
    exists r. exact X.
  - exfalso. pose proof (request_in_unanswered _ _ I A) as U. rewrite (v_open _ _ _ _ V), O in U. destruct U.
Qed.

Lemma starts_snoc os o : starts (os ++ Started :: o) = S (starts os + starts o).
Proof. rewrite starts_app. change (Started :: o) with ([Started] ++ o). rewrite starts_app. cbn. lia. Qed.

Lemma expired_nonempty s t : In t (sr_expired s) -> (load s <= 1)%nat -> sr_outstanding s = [].
Proof.
  unfold load. intros I L. destruct (sr_expired s) as [|x l]; [destruct I|]. destruct (sr_outstanding s); [reflexivity|].
  cbn [List.length] in L. lia.
Qed.

Lemma started_once f es s w os :
  schedule handler f es s w os -> (starts os <= 1)%nat ->
  forall a i b j c, os = a ++ Request i :: b ++ Request j :: c -> exists r, In (Response i r) b.
Proof.
  intros H L. apply (one_at_a_time f es s w os); [|exact H].
  intros es1 e es2 s1 w1 os1 o2 E1 E2 H1 D. pose proof (schedule_inv _ _ _ _ _ _ H1) as V.
  pose proof (v_load _ _ _ _ V) as LL. rewrite E2, starts_app in L.
  destruct D as [(_ & _ & o3 & ->)|(t & _ & I)].
  - change (Started :: o3) with ([Started] ++ o3) in L. rewrite starts_app in L. cbn in L.
    unfold load in LL. destruct (sr_outstanding s1); [reflexivity|]. cbn [List.length] in LL. lia.
  - apply (expired_nonempty s1 t I). lia.
Qed.

(** The number of requests waiting for a response. *)
Lemma bounded_by_starts f es s w os : schedule handler f es s w os -> (List.length (unanswered os) <= starts os)%nat.
Proof.
  intros H. apply schedule_inv in H. rewrite (v_open _ _ _ _ H). pose proof (v_load _ _ _ _ H). unfold load in *. lia.
Qed.

(** *** Prompt timers, orderly restarts *)
Definition calm s : Prop :=
  sr_expired s = [] /\
  (sr_armed s = [] /\ (List.length (sr_outstanding s) <= 1)%nat \/
   sr_outstanding s = [] /\ sr_running s = true /\ exists t, sr_armed s = [t] /\ sr_timer s = Some t).

Lemma restarts_app os o : restarts_when_answered (os ++ o) -> restarts_when_answered os.
Proof. intros H a b i E. apply (H a (b ++ o)). rewrite E, <- app_assoc. reflexivity. Qed.

Lemma all_answered os : (forall i, In (Request i) os -> exists r, In (Response i r) os) -> unanswered os = [].
Proof.
  intros H. unfold unanswered. assert (G : forall l, incl l (requested os) -> filter (fun i => negb (answered i os)) l = []).
  { induction l as [|i l IH]; intros I; [reflexivity|]. cbn [filter].
    replace (answered i os) with true; [apply IH; intros x X; apply I; right; exact X|].
    symmetry. apply answered_in, H, requested_in, I. left. reflexivity. }
  apply G, incl_refl.
Qed.

Lemma one_without (l : list nat) i : (List.length l <= 1)%nat -> In i l -> without i l = [].
Proof.
  intros L I. destruct l as [|x [|y l]]; [destruct I| |cbn [List.length] in L; lia].
  destruct I as [<-|[]]. unfold without. cbn [filter]. rewrite Nat.eqb_refl. reflexivity.
Qed.

Lemma calm_step f es s os e s' o :
  sinv f es s os -> calm s -> trans s e s' o -> (forall t, e <> SExpire t) -> (forall t, e <> SFire t) ->
  restarts_when_answered (os ++ o) -> calm s'.
Proof.
  intros V [C1 C2] T NE NF RW. unfold calm in *. destruct T; fields.
  - split; assumption.
  - split; [assumption|]. assert (U : out = []).
    { pose proof (v_open _ _ _ _ V) as U. fields. rewrite <- U. apply all_answered. intros i. apply (RW os [Request nr] i eq_refl). }
    destruct C2 as [(A & _)|(_ & X & _)]; [|discriminate]. left. split; [exact A|]. rewrite U. reflexivity.
  - split; [assumption|]. left. destruct C2 as [(A & L)|(U & _ & t & A & T)].
    + rewrite A. split; [destruct tm; reflexivity|exact L].
    + rewrite A, T, U. split; [apply one_without; [reflexivity|left; reflexivity]|cbn; lia].
  - split; assumption.
  - split; [assumption|]. right. destruct C2 as [(A & L)|(U & _)]; [|rewrite U in H; destruct H].
    split; [apply one_without; assumption|]. split; [reflexivity|]. exists nt. rewrite A. split; reflexivity.
  - split; [assumption|]. left. destruct C2 as [(A & L)|(U & _)]; [|rewrite U in H; destruct H].
    rewrite (one_without _ _ L H). split; [exact A|cbn; lia].
  - destruct (NE t eq_refl).
  - destruct (NF t eq_refl).
Qed.

(** An expired timer's action is always executed. *)
Lemma calm_fire w1 s1 t s2 w2 o1 s3 w3 o2 : calm s1 ->
  sched_step handler s1 w1 (SExpire t) = (s2, w2, o1) -> sched_step handler s2 w2 (SFire t) = (s3, w3, o2) ->
  calm s3 /\ (load s2 <= 1)%nat /\ (sr_expired s2 <> [] -> sr_running s2 = true).
Proof.
  intros [C1 C2]. destruct s1 as [run f tm q ar ex out nt nr]. cbn [sched_step]. fields. subst ex.
  destruct (existsb _ ar) eqn:X.
  - apply existsb_nat in X. destruct C2 as [(A & _)|(U & RN & t' & A & TM)]; [rewrite A in X; destruct X|]. subst.
    destruct X as [<-|[]]. intros E. injection E as <- <- <-. unfold with_stimers. fields. cbn [app existsb]. rewrite Nat.eqb_refl.
    cbn [orb]. unfold execute, without. cbn [filter]. rewrite Nat.eqb_refl. cbn [negb]. intros E. injection E as <- <- <-.
    unfold calm, load. fields. cbn. split; [|split; [lia|reflexivity]]. split; [reflexivity|]. left. split; [reflexivity|lia].
  - intros E. injection E as <- <- <-. fields. cbn [existsb]. intros E. injection E as <- <- <-. unfold calm, load. fields.
    split; [split; [reflexivity|exact C2]|]. split; [|congruence].
    destruct C2 as [(A & L)|(U & RN & t' & A & TM)]; [rewrite A|rewrite A, U]; cbn [List.length]; lia.
Qed.

Lemma prompt_calm f es : prompt_timers es -> forall s w os, schedule handler f es s w os -> restarts_when_answered os -> calm s.
Proof.
  induction 1 as [|es e NE NF P IH|es t P IH]; intros s w os [w0 E] RW.
  - injection E as <- _ _. unfold calm. cbn. split; [reflexivity|]. left. split; [reflexivity|lia].
  - apply run_snoc in E. destruct E as (s1 & w1 & o1 & o2 & E1 & E2 & ->).
    assert (H1 : schedule handler f es s1 w1 o1) by (exists w0; exact E1).
    apply (calm_step f es s1 o1 e s o2); [exact (schedule_inv _ _ _ _ _ _ H1)| |exact (step_trans _ _ _ _ _ _ _ E2)|exact NE|exact NF|exact RW].
    apply (IH s1 w1 o1 H1). exact (restarts_app _ _ RW).
  - change ([SExpire t; SFire t]) with ([@SExpire R t] ++ [SFire t]) in E. rewrite app_assoc in E.
    apply run_snoc in E. destruct E as (s2 & w2 & o2 & o3 & E2 & E3 & ->).
    apply run_snoc in E2. destruct E2 as (s1 & w1 & o1 & o2' & E1 & E2 & ->).
    apply (calm_fire w1 s1 t s2 w2 o2' s w o3); [|exact E2|exact E3].
    apply (IH s1 w1 o1); [exists w0; exact E1|]. apply restarts_app in RW. exact (restarts_app _ _ RW).
Qed.

Lemma prompt_prefix es : prompt_timers es -> forall es1 e es2, es = es1 ++ e :: es2 ->
  prompt_timers es1 \/ exists es0 t, es1 = es0 ++ [SExpire t] /\ e = SFire t /\ prompt_timers es0.
Proof.
  induction 1 as [|es e0 NE NF P IH|es t P IH]; intros es1 e es2 E.
  - destruct es1; discriminate.
  - destruct es2 as [|x es2 _] using rev_ind.
    + apply app_inj_tail in E. destruct E as [-> _]. left. exact P.
    + rewrite app_comm_cons, app_assoc in E. apply app_inj_tail in E. destruct E as [E _]. exact (IH _ _ _ E).
  - change ([SExpire t; SFire t]) with ([@SExpire R t] ++ [SFire t]) in E. rewrite app_assoc in E.
    destruct es2 as [|x es2 _] using rev_ind.
    + apply app_inj_tail in E. destruct E as [<- <-]. right. exists es, t. split; [reflexivity|]. split; [reflexivity|exact P].
    + rewrite app_comm_cons, app_assoc in E. apply app_inj_tail in E. destruct E as [E _].
      destruct es2 as [|y es2 _] using rev_ind.
      * apply app_inj_tail in E. destruct E as [-> _]. left. exact P.
      * rewrite app_comm_cons, app_assoc in E. apply app_inj_tail in E. destruct E as [E _]. exact (IH _ _ _ E).
Qed.

Lemma prompt_fire f es es1 t es2 s1 w1 os1 :
  prompt_timers es -> es = es1 ++ SFire t :: es2 -> schedule handler f es1 s1 w1 os1 -> restarts_when_answered os1 ->
  In t (sr_expired s1) -> sr_outstanding s1 = [] /\ sr_running s1 = true.
Proof.
  intros P E H1 RW I. destruct (prompt_prefix _ P _ _ _ E) as [P1|(es0 & t' & -> & Q & P0)].
  - destruct (prompt_calm _ _ P1 _ _ _ H1 RW) as [X _]. rewrite X in I. destruct I.
  - injection Q as <-. destruct H1 as [w0 H1]. apply run_snoc in H1. destruct H1 as (s0 & w0' & o1 & o2 & E0 & E1 & ->).
    destruct (sched_step handler s1 w1 (SFire t)) as [[s3 w3] o3] eqn:E3.
    destruct (calm_fire w0' s0 t s1 w1 o2 s3 w3 o3) as (_ & L & RN); [|exact E1|exact E3|].
    + apply (prompt_calm f _ P0 s0 w0' o1); [exists w0; exact E0|]. exact (restarts_app _ _ RW).
    + split; [exact (expired_nonempty _ _ I L)|]. apply RN. intros X. rewrite X in I. destruct I.
Qed.

Lemma orderly_one_at_a_time f es s w os :
  prompt_timers es -> schedule handler f es s w os -> restarts_when_answered os ->
  forall a i b j c, os = a ++ Request i :: b ++ Request j :: c -> exists r, In (Response i r) b.
Proof.
  intros P H RW. apply (one_at_a_time f es s w os); [|exact H].
  intros es1 e es2 s1 w1 os1 o2 E1 E2 H1 D. destruct D as [(_ & _ & o3 & ->)|(t & -> & I)].
  - rewrite <- (v_open _ _ _ _ (schedule_inv _ _ _ _ _ _ H1)). apply all_answered. intros i. exact (RW os1 o3 i E2).
  - apply (prompt_fire f es es1 t es2 s1 w1 os1 P E1 H1); [|exact I]. apply (restarts_app os1 o2). rewrite <- E2. exact RW.
Qed.

(** ** Stopping *)
Lemma polling_stopped a b : polling (a ++ Stopped :: b) = true -> In Started b.
Proof.
  unfold polling. rewrite fold_left_app. cbn [fold_left]. generalize (fold_left (fun (b0 : bool) (o : soutput R) => match o with Started => true | Stopped => false | _ => b0 end) a false). intros _.
  induction b as [|x b IH] using rev_ind; [discriminate|]. rewrite fold_left_app. cbn [fold_left]. intros H. apply in_or_app.
  destruct x; try (left; exact (IH H)); [right; left; reflexivity|discriminate].
Qed.

Lemma polling_started a b : polling (a ++ Started :: b) = false -> In Stopped b.
Proof.
  unfold polling. rewrite fold_left_app. cbn [fold_left]. generalize (fold_left (fun (b0 : bool) (o : soutput R) => match o with Started => true | Stopped => false | _ => b0 end) a false). intros _.
  induction b as [|x b IH] using rev_ind; [discriminate|]. rewrite fold_left_app. cbn [fold_left]. intros H. apply in_or_app.
  destruct x; try (left; exact (IH H)); [discriminate|right; left; reflexivity].
Qed.

Lemma last_in_tail (a b l : list (soutput R)) x y : x <> y -> a ++ x :: b = l ++ [y] -> In y b.
Proof.
  intros N E. destruct b as [|z b _] using rev_ind.
  - apply app_inj_tail in E. destruct E as [_ E]. contradiction.
  - rewrite app_comm_cons, app_assoc in E. apply app_inj_tail in E. destruct E as [_ ->]. apply in_or_app. right. left. reflexivity.
Qed.

Lemma stopped_silent f es s w os :
  prompt_timers es -> schedule handler f es s w os -> restarts_when_answered os ->
  forall a b i c, os = a ++ Stopped :: b ++ Request i :: c -> In Started b.
Proof.
  intros P H RW a b i c E. subst os. pose proof H as H0.
  replace (a ++ Stopped :: b ++ Request i :: c) with ((a ++ Stopped :: b) ++ Request i :: c) in H0, RW by (rewrite <- app_assoc; reflexivity).
  apply request_cut in H0. apply restarts_app in RW.
  destruct H0 as (es1 & e & es2 & s1 & w1 & os1 & s2 & w2 & o & os2 & E1 & H1 & _ & E2 & -> & _ & [(-> & _)|(-> & t & -> & I)]).
  - apply last_in_tail in E2; [exact E2|discriminate].
  - rewrite app_nil_r in E2. rewrite E2 in *. destruct (prompt_fire _ _ _ _ _ _ _ _ P E1 H1 RW I) as [_ RN].
    rewrite (v_running _ _ _ _ (schedule_inv _ _ _ _ _ _ H1)), <- E2 in RN. exact (polling_stopped _ _ RN).
Qed.

(** Once stopped, every timer that can still fire sends at most one request. *)
Lemma winding_down es : forall s w s' w' o, sched_run handler s w es = (s', w', o) -> sr_running s = false -> ~ In Started o ->
  NoDup (sr_armed s) -> NoDup (sr_expired s) -> (forall t, In t (sr_armed s) -> ~ In t (sr_expired s)) ->
  (List.length (requested o) <= List.length (sr_armed s) + List.length (sr_expired s))%nat.
Proof.
  induction es as [|e es IH]; intros s w s' w' o E RN NS N1 N2 N3.
  - injection E as <- <- <-. cbn. lia.
  - cbn [sched_run] in E. destruct (sched_step handler s w e) as [[s1 w1] o1] eqn:E1.
    destruct (sched_run handler s1 w1 es) as [[s2 w2] o2] eqn:E2. injection E as <- <- <-.
    apply step_trans in E1. rewrite requested_app, app_length.
    assert (NS2 : ~ In Started o2) by (intros I; apply NS, in_or_app; right; exact I).
    specialize (IH s1 w1 s2 w2 o2 E2). destruct E1; fields; subst.
    + specialize (IH eq_refl NS2 N1 N2 N3). cbn. lia.
    + exfalso. apply NS. left. reflexivity.
    + discriminate.
    + specialize (IH eq_refl NS2 N1 N2 N3). cbn. lia.
    + discriminate.
    + specialize (IH eq_refl NS2 N1 N2 N3). cbn. lia.
    + pose proof (length_without t ar N1 H) as L. cbn [requested flat_map List.length].
      assert (Y : (List.length (requested o2) <= List.length (without t ar) + List.length (ex ++ [t]))%nat).
      { apply IH; [reflexivity|exact NS2|apply without_nodup; exact N1|apply nodup_snoc; [exact N2|exact (N3 _ H)]|].
        intros t' I J. apply in_without in I. destruct I as [I I']. apply in_app_or in J. destruct J as [J|[J|[]]]; [exact (N3 _ I J)|congruence]. }
      rewrite app_length in Y. cbn [List.length] in Y. lia.
    + pose proof (length_without t ex N2 H) as L. cbn [requested flat_map List.length app].
      assert (Y : (List.length (requested o2) <= List.length ar + List.length (without t ex))%nat).
      { apply IH; [reflexivity|exact NS2|exact N1|apply without_nodup; exact N2|].
        intros t' I J. apply in_without in J. destruct J as [J _]. exact (N3 _ I J). }
      lia.
Qed.

Lemma schedule_split f es1 es2 s w os : schedule handler f (es1 ++ es2) s w os ->
  exists s1 w1 o1 o2, schedule handler f es1 s1 w1 o1 /\ sched_run handler s1 w1 es2 = (s, w, o2) /\ os = o1 ++ o2.
Proof.
  intros [w0 E]. rewrite run_app in E. destruct (sched_run handler (sched_init f) w0 es1) as [[s1 w1] o1] eqn:E1.
  destruct (sched_run handler s1 w1 es2) as [[s2 w2] o2] eqn:E2. injection E as <- <- <-.
  exists s1, w1, o1, o2. split; [exists w0; exact E1|]. split; [exact E2|reflexivity].
Qed.

Lemma split_earlier (x : soutput R) o2 : forall a b o1, a ++ x :: b = o1 ++ o2 -> ~ In x o2 ->
  exists b', o1 = a ++ x :: b' /\ b = b' ++ o2.
Proof.
  induction a as [|y a IH]; intros b [|z o1] E N; cbn [app] in E.
  - exfalso. apply N. rewrite <- E. left. reflexivity.
  - injection E as -> ->. exists o1. split; reflexivity.
  - exfalso. apply N. rewrite <- E. right. apply in_or_app. right. left. reflexivity.
  - injection E as -> E. destruct (IH _ _ E N) as (b' & -> & ->). exists b'. split; reflexivity.
Qed.

Lemma stop_cut w0 f es : forall s w os a b, sched_run handler (sched_init f) w0 es = (s, w, os) -> os = a ++ Stopped :: b ->
  exists es1 es2 s1 w1 s2 w2, es = es1 ++ SRun :: es2 /\ sched_run handler (sched_init f) w0 es1 = (s1, w1, a) /\
    sched_step handler s1 w1 SRun = (s2, w2, [Stopped]) /\ sched_run handler s2 w2 es2 = (s, w, b).
Proof.
  induction es as [|e es IH] using rev_ind; intros s w os a b E EO.
  - injection E as _ _ E. subst. destruct a; discriminate.
  - apply run_snoc in E. destruct E as (s1 & w1 & o1 & o2 & E1 & E2 & E3). rewrite EO in E3. clear EO.
    destruct (step_trans _ _ _ _ _ _ _ E2) as [run fr tm q ar ex out nt nr e q'|fr tm q ar ex out nt nr q'|fr tm q ar ex out nt nr q'|run fr tm q ar ex out nt nr q' f'|fr tm q ar ex out nt nr q' i r H|fr tm q ar ex out nt nr q' i r H|run fr tm q ar ex out nt nr t H|run fr tm q ar ex out nt nr t H].
    3: { destruct b as [|x b _] using rev_ind.
         - apply app_inj_tail in E3. destruct E3 as [-> _].
           exists es, []. do 4 eexists. split; [reflexivity|]. split; [exact E1|]. split; [exact E2|reflexivity].
         - rewrite app_comm_cons, app_assoc in E3. apply app_inj_tail in E3. destruct E3 as [E3 ->].
           destruct (IH _ _ _ _ _ E1 (eq_sym E3)) as (es1 & es2 & s1 & w1' & s2 & w2 & -> & H1 & H2 & H3).
           exists es1, (es2 ++ [SRun]), s1, w1', s2, w2. rewrite <- app_assoc. split; [reflexivity|]. split; [exact H1|]. split; [exact H2|].
           rewrite run_app, H3, run_one, E2. reflexivity. }
    all: match type of E2 with sched_step _ _ _ ?e = (_, _, ?o) =>
      assert (K : exists b', o1 = a ++ Stopped :: b' /\ b = b' ++ o) end.
    all: try (apply split_earlier; [exact E3|cbn [In]; intuition discriminate]).
    all: destruct K as (b' & K1 & ->);
      destruct (IH _ _ _ _ _ E1 K1) as (es1 & es2 & s1 & w1' & s2 & w2 & -> & H1 & H2 & H3);
      (match type of E2 with sched_step _ _ _ ?e = _ => exists es1, (es2 ++ [e]), s1, w1', s2, w2 end);
      rewrite <- app_assoc; split; [reflexivity|]; split; [exact H1|]; split; [exact H2|];
      rewrite run_app, H3, run_one, E2; reflexivity.
Qed.

Lemma stopped_stray f es s w a b : schedule handler f es s w (a ++ Stopped :: b) -> ~ In Started b ->
  (List.length (requested b) <= starts a)%nat.
Proof.
  intros [w0 E] NS. destruct (stop_cut _ _ _ _ _ _ _ _ E eq_refl) as (es1 & es2 & s1 & w1 & s2 & w2 & -> & H1 & H2 & H3).
  assert (S1 : schedule handler f es1 s1 w1 a) by (exists w0; exact H1).
  assert (S2 : schedule handler f (es1 ++ [SRun]) s2 w2 (a ++ [Stopped])) by (exists w0; rewrite run_app, H1, run_one, H2; reflexivity).
  pose proof (schedule_inv _ _ _ _ _ _ S2) as V. pose proof (v_load _ _ _ _ V) as L. rewrite starts_app in L. cbn in L.
  assert (RN : sr_running s2 = false) by (rewrite (v_running _ _ _ _ V); unfold polling; rewrite fold_left_app; reflexivity).
  pose proof (winding_down es2 s2 w2 s w b H3 RN NS (v_nodup_armed _ _ _ _ V) (v_nodup_expired _ _ _ _ V) (v_apart _ _ _ _ V)).
  unfold load in L. lia.
Qed.

(** ** Frequency and liveness *)
Lemma reported f es s w os : schedule handler f es s w os -> sr_running s = polling os /\ sr_frequency s = frequency_of f os.
Proof. intros H. apply schedule_inv in H. split; [apply (v_running _ _ _ _ H)|apply (v_frequency _ _ _ _ H)]. Qed.

Lemma start_stop_alternate f es s w a b c : schedule handler f es s w (a ++ Started :: b ++ Started :: c) -> In Stopped b.
Proof.
  intros H. replace (a ++ Started :: b ++ Started :: c) with ((a ++ Started :: b) ++ Started :: c) in H by (rewrite <- app_assoc; reflexivity).
  apply started_cut in H. destruct H as (es1 & es2 & s1 & w1 & -> & H1 & RN & _).
  rewrite (v_running _ _ _ _ (schedule_inv _ _ _ _ _ _ H1)) in RN. exact (polling_started _ _ RN).
Qed.

Lemma request_source f es s w a i b : schedule handler f es s w (a ++ Request i :: b) ->
  i = List.length (requested a) /\
  ((exists a', a = a' ++ [Started]) \/
   exists es1 t es2 g, es = es1 ++ SFire t :: es2 /\ In (SExpire t) es1 /\ In (Wait t g) a).
Proof.
  intros H. apply request_cut in H.
  destruct H as (es1 & e & es2 & s1 & w1 & os1 & s2 & w2 & o & os2 & E1 & H1 & _ & -> & -> & -> & D).
  pose proof (schedule_inv _ _ _ _ _ _ H1) as V. split.
  - rewrite requested_app, (v_requested _ _ _ _ V), app_length, seq_length.
    destruct D as [(-> & _)|(-> & _)]; cbn; lia.
  - destruct D as [(-> & _)|(-> & t & -> & I)]; [left; exists os1; reflexivity|right].
    destruct (v_timers _ _ _ _ V t) as [_ (g & G)]; [apply in_or_app; right; exact I|].
    exists es1, t, es2, g. split; [exact E1|]. split; [exact (v_expired _ _ _ _ V _ I)|rewrite app_nil_r; exact G].
Qed.

(** A timer's action is executed at most once. *)
Lemma fired_once w0 f es1 t s1 w1 o1 es2 s2 w2 o2 s3 w3 o3 :
  sched_run handler (sched_init f) w0 es1 = (s1, w1, o1) ->
  sched_run handler s1 w1 (SFire t :: es2) = (s2, w2, o2) -> In t (sr_expired s1) ->
  sched_step handler s2 w2 (SFire t) = (s3, w3, o3) -> o3 = [].
Proof.
  intros H1 H2 I H3.
  assert (V1 : sinv f es1 s1 o1) by (apply (schedule_inv handler f es1 s1 w1); exists w0; exact H1).
  cbn [sched_run] in H2. destruct (sched_step handler s1 w1 (SFire t)) as [[s1' w1'] o1'] eqn:E1.
  assert (K : ~ In t (sr_armed s1' ++ sr_expired s1') /\ (t < sr_next_timer s1')%nat).
  { destruct s1 as [run fr tm q ar ex out nt nr]. cbn [sched_step] in E1. fields.
    apply existsb_nat in I. rewrite I in E1. unfold execute, with_stimers in E1. fields. injection E1 as <- <- <-. fields.
    apply existsb_nat in I. destruct (v_timers _ _ _ _ V1 t) as [L _]; [fields; apply in_or_app; right; exact I|]. fields.
    split; [|exact L]. intros X. apply in_app_or in X. destruct X as [X|X]; [exact (v_apart _ _ _ _ V1 _ X I)|].
    apply in_without in X. tauto. }
  clear E1 V1 H1 I. destruct (sched_run handler s1' w1' es2) as [[s2' w2'] o2'] eqn:E2. injection H2 as <- <- <-.
  revert s1' w1' s2' w2' o2' E2 K H3. clear - es2. induction es2 as [|e es2 IH]; intros s1' w1' s2' w2' o2' E2 K H3.
  - injection E2 as <- <- <-. cbn [sched_step] in H3. destruct (existsb _ (sr_expired s1')) eqn:X; [|congruence].
    apply existsb_nat in X. exfalso. apply (proj1 K), in_or_app. right. exact X.
  - cbn [sched_run] in E2. destruct (sched_step handler s1' w1' e) as [[s4 w4] o4] eqn:E4.
    destruct (sched_run handler s4 w4 es2) as [[s5 w5] o5] eqn:E5. injection E2 as <- <- <-.
    apply (IH s4 w4 s5 w5 o5 E5); [|exact H3]. clear IH E5 H3. apply step_trans in E4. destruct K as [K1 K2].
    destruct E4; fields; try (split; assumption).
    + split; [|assumption]. intros I. apply K1. apply in_app_or in I. apply in_or_app. destruct I as [I|I]; [left|right; exact I].
      destruct tm; [apply in_without in I; tauto|exact I].
    + split; [|lia]. intros I. apply in_app_or in I. destruct I as [I|I]; [apply in_app_or in I; destruct I as [I|[I|[]]]; [|lia]|];
        apply K1, in_or_app; [left|right]; exact I.
    + split; [|assumption]. intros I. apply in_app_or in I. destruct I as [I|I].
      * apply in_without in I. apply K1, in_or_app. left. tauto.
      * apply in_app_or in I. destruct I as [I|[<-|[]]]; apply K1, in_or_app; [right; exact I|left; assumption].
    + split; [|assumption]. intros I. apply K1. apply in_app_or in I. apply in_or_app. destruct I as [I|I]; [left; exact I|right].
      apply in_without in I. tauto.
Qed.

Lemma always_active f es s w os : schedule handler f es s w os -> polling os = true ->
  unanswered os <> [] \/
  exists t g s' w' o, In (Wait t g) os /\ sched_run handler s w [SExpire t; SFire t] = (s', w', o) /\ o = [Request (List.length (requested os))].
Proof.
  intros H P. pose proof (schedule_inv _ _ _ _ _ _ H) as V. destruct V as [V1 V2 V3 V4 V5 V6 V7 V8 V9 V10 V11 V12].
  rewrite V4, V3, seq_length. rewrite <- V1 in P. specialize (V12 P). clear H. destruct s as [run fr tm q ar ex out nt nr].
  unfold load in *. fields. destruct out as [|i out]; [right|left; discriminate].
  destruct ex as [|t ex].
  - destruct ar as [|t ar]; [cbn in V12; lia|]. destruct (V6 t) as [_ (g & G)]; [left; reflexivity|].
    exists t, g. do 3 eexists. split; [exact G|]. cbn [sched_run sched_step]. fields. cbn [existsb]. rewrite Nat.eqb_refl. cbn [orb].
    unfold with_stimers. fields. cbn [app existsb]. rewrite Nat.eqb_refl. cbn [orb execute app].
    split; reflexivity.
  - assert (NA : existsb (Nat.eqb t) ar = false).
    { destruct (existsb (Nat.eqb t) ar) eqn:X; [|reflexivity]. apply existsb_nat in X. destruct (V10 _ X). left. reflexivity. }
    destruct (V6 t) as [_ (g & G)]; [apply in_or_app; right; left; reflexivity|].
    exists t, g. do 3 eexists. split; [exact G|]. cbn [sched_run sched_step]. fields. rewrite NA. fields.
    cbn [existsb]. rewrite Nat.eqb_refl. cbn [orb execute app]. split; reflexivity.
Qed.

Lemma start_idempotent s w q : sr_running s = true -> sr_queue s = Start :: q ->
  sched_step handler s w SRun = (with_squeue s q, w, []).
Proof. intros RN E. unfold sched_step. rewrite E. unfold run_sapi. cbn [with_squeue sr_running]. rewrite RN. reflexivity. Qed.

Lemma starts_at_once f es s w a b : schedule handler f es s w (a ++ Started :: b) ->
  exists b', b = Request (List.length (requested a)) :: b'.
Proof.
  intros H. apply started_cut in H. destruct H as (es1 & es2 & s1 & w1 & -> & H1 & RN & b' & ->).
  exists b'. rewrite (v_requested _ _ _ _ (schedule_inv _ _ _ _ _ _ H1)), seq_length. reflexivity.
Qed.
End Lemmas.

(** ** Cases *)
Definition passive : nat -> unit -> N -> unit * list sapi := fun _ _ _ => (tt, []).

Lemma make_schedule f es s w os : sched_run passive (sched_init f) tt es = (s, w, os) -> schedule passive f es s w os.
Proof. intros H. exists tt. exact H. Qed.

Definition restarted : list (sevent N) := [SApi Start; SApi Stop; SApi Start; SRun; SRun; SRun].

Lemma overlap_refuted :
  ~ (forall f es s w os a i b j c, schedule passive f es s w os ->
     os = a ++ Request i :: b ++ Request j :: c -> exists r, In (Response i r) b).
Proof.
  intros H. assert (E : exists s, schedule passive 5 restarted s tt ([Started] ++ Request 0 :: [Stopped; Started] ++ Request 1 :: []))
    by (eexists; apply make_schedule; vm_compute; reflexivity).
  destruct E as (s & E). destruct (H _ _ _ _ _ _ _ _ _ _ E eq_refl) as (r & [X|[X|[]]]); discriminate.
Qed.

Definition late_stop : list (sevent N) := [SApi Start; SRun; SAnswer 0 7; SApi Stop; SExpire 0; SRun; SFire 0].

Lemma stopped_refuted :
  ~ (forall f es s w os a b i c, schedule passive f es s w os ->
     os = a ++ Stopped :: b ++ Request i :: c -> In Started b).
Proof.
  intros H.
  assert (E : exists s, schedule passive 5 late_stop s tt ([Started; Request 0; Response 0 7; Wait 0 5] ++ Stopped :: [] ++ Request 1 :: []))
    by (eexists; apply make_schedule; vm_compute; reflexivity).
  destruct E as (s & E). destruct (H _ _ _ _ _ _ _ _ _ E eq_refl).
Qed.

(** Even with prompt timers: after a restart while a request is waiting, there are two
    polling loops, and stop only cancels the timer of one of them. *)
Definition two_loops : list (sevent N) :=
  (restarted ++ [SAnswer 0 7; SAnswer 1 8; SApi Stop; SRun]) ++ [SExpire 0; SFire 0].

Lemma two_loops_prompt : prompt_timers two_loops.
Proof.
  apply prompt_expiry. unfold restarted. cbn [app].
  repeat match goal with |- prompt_timers (?x :: ?l) =>
    let l' := eval cbn [removelast] in (removelast (x :: l)) in let e := eval cbn [last] in (last (x :: l) x) in
    change (x :: l) with (l' ++ [e]); apply prompt_other; [discriminate|discriminate|] end.
  apply prompt_nil.
Qed.

Lemma stopped_prompt_refuted :
  ~ (forall f es s w os a b i c, prompt_timers es -> schedule passive f es s w os ->
     os = a ++ Stopped :: b ++ Request i :: c -> In Started b).
Proof.
  intros H.
  assert (E : exists s, schedule passive 5 two_loops s tt
    ([Started; Request 0; Stopped; Started; Request 1; Response 0 7; Wait 0 5; Response 1 8; Wait 1 5] ++ Stopped :: [] ++ Request 2 :: []))
    by (eexists; apply make_schedule; vm_compute; reflexivity).
  destruct E as (s & E). destruct (H _ _ _ _ _ _ _ _ _ two_loops_prompt E eq_refl).
Qed.

(** ** Calls take effect *)
Section Calls.
Context {R W : Type} (handler : nat -> W -> R -> W * list sapi).

Lemma run_sapi_effect : forall s a s' o, run_sapi (R:=R) s a = (s', o) ->
  sr_queue s' = sr_queue s /\ (sr_running s', sr_frequency s') = after_calls [a] (sr_running s, sr_frequency s).
Proof.
  intros s a s' o E. destruct a; cbn in E; [destruct (sr_running s) eqn:K|destruct (sr_running s) eqn:K|];
    injection E as <- <-; cbn; rewrite ?K; split; reflexivity.
Qed.

Lemma queue_effect : forall q s w s' w' o, sr_queue s = q -> sched_run handler s w (repeat SRun (List.length q)) = (s', w', o) ->
  sr_queue s' = [] /\ (sr_running s', sr_frequency s') = after_calls q (sr_running s, sr_frequency s).
Proof.
  induction q as [|a q IH]; intros s w s' w' o Q E; cbn [List.length repeat sched_run] in E.
  - injection E as <- <- <-. split; [exact Q|reflexivity].
  - cbn [sched_step] in E. rewrite Q in E. destruct (run_sapi _ a) as [s1 o1] eqn:K. apply run_sapi_effect in K as [K1 K2].
    destruct (sched_run handler s1 w _) as [[s2 w2] o2] eqn:K3. injection E as <- <- <-.
    cbn [with_squeue sr_queue] in K1. destruct (IH _ _ _ _ _ K1 K3) as [A B]. split; [exact A|].
    rewrite B, K2. cbn [with_squeue sr_running sr_frequency]. reflexivity.
Qed.

Theorem calls_take_effect : forall f es s w os s' w' o, schedule handler f es s w os ->
  sched_run handler s w (repeat SRun (List.length (sr_queue s))) = (s', w', o) ->
  sr_queue s' = [] /\ (polling (os ++ o), frequency_of f (os ++ o)) = after_calls (sr_queue s) (polling os, frequency_of f os).
Proof.
  intros f es s w os s' w' o H E. destruct (queue_effect _ _ _ _ _ _ eq_refl E) as [A B]. split; [exact A|].
  assert (H' : schedule handler f (es ++ repeat SRun (List.length (sr_queue s))) s' w' (os ++ o)).
  { destruct H as [w0 H]. exists w0. rewrite run_app, H, E. reflexivity. }
  destruct (reported _ _ _ _ _ _ H) as [<- <-]. destruct (reported _ _ _ _ _ _ H') as [<- <-]. exact B.
Qed.

Theorem handler_calls_posted : forall s w e s' w' o i r, sched_step handler s w e = (s', w', o) -> In (Response i r) o ->
  sr_queue s' = sr_queue s ++ snd (handler i w r) /\ w' = fst (handler i w r).
Proof.
  intros s w e s' w' o i r E H. destruct e as [a| |j x|t|t]; cbn [sched_step] in E.
  - injection E as <- <- <-. destruct H.
  - destruct (sr_queue s) as [|a q]; [injection E as <- <- <-; destruct H|]. destruct (run_sapi _ a) as [s1 o1] eqn:K. injection E as <- <- <-.
    exfalso. destruct a; cbn in K; [destruct (sr_running s)|destruct (sr_running s)|]; injection K as <- <-; cbn in H; intuition discriminate.
  - destruct (existsb _ _); [|injection E as <- <- <-; destruct H]. unfold on_answer in E.
    destruct (handler j w x) as [w1 calls] eqn:K. cbv zeta in E. cbn [sr_running with_posted] in E.
    destruct (sr_running s); injection E as <- <- <-; cbn in H.
    + destruct H as [H|[H|[]]]; [|discriminate]. injection H as <- <-. rewrite K. split; reflexivity.
    + destruct H as [H|[]]. injection H as <- <-. rewrite K. split; reflexivity.
  - destruct (existsb _ _); injection E as <- <- <-; destruct H.
  - destruct (existsb _ _); [|injection E as <- <- <-; destruct H]. cbn in E. injection E as <- <- <-. cbn in H. intuition discriminate.
Qed.
End Calls.
