(** Proofs about a scheduled request. *)
From Verif Require Import Prelude Tac Scheduled SpecScheduled.

(** ** Lists without an element *)
Lemma in_without x y l : In y (without x l) <-> In y l /\ y <> x.
Proof.
  unfold without. rewrite filter_In. destruct (Nat.eqb_spec y x); cbn [negb]; intuition congruence.
Qed.

Lemma without_notin x l : ~ In x l -> without x l = l.
Proof.
  induction l as [|y l IH]; intros H; [reflexivity|]. unfold without in *. cbn [filter].
  destruct (Nat.eqb_spec y x) as [->|E]; cbn [negb]; [exfalso; apply H; left; reflexivity|].
  f_equal. apply IH. intros I. apply H. right. exact I.
Qed.

Lemma without_nodup x l : NoDup l -> NoDup (without x l).
Proof. apply NoDup_filter. Qed.

Lemma length_without x l : NoDup l -> In x l -> S (List.length (without x l)) = List.length l.
Proof.
  induction l as [|y l IH]; intros N I; [destruct I|]. destruct I as [I|I]; inversion N; subst.
  - unfold without. cbn [filter]. rewrite Nat.eqb_refl. cbn [negb].
    change (filter _ l) with (without x l). rewrite without_notin by assumption. reflexivity.
  - unfold without. cbn [filter]. destruct (Nat.eqb_spec y x) as [->|E]; [contradiction|].
    cbn [negb List.length]. change (filter _ l) with (without x l). rewrite IH by assumption. reflexivity.
Qed.

Lemma length_without_le x l : (List.length (without x l) <= List.length l)%nat.
Proof.
  induction l as [|y l IH]; [reflexivity|]. unfold without in *. cbn [filter].
  destruct (negb _); cbn [List.length]; lia.
Qed.

Lemma existsb_nat x l : existsb (Nat.eqb x) l = true <-> In x l.
Proof.
  rewrite existsb_exists. split; [intros (y & I & E)|intros I; exists x].
  - apply Nat.eqb_eq in E. subst. exact I.
  - split; [exact I|apply Nat.eqb_refl].
Qed.

Lemma nodup_snoc (l : list nat) x : NoDup l -> ~ In x l -> NoDup (l ++ [x]).
Proof.
  intros N H. rewrite <- (rev_involutive (l ++ [x])). apply NoDup_rev. rewrite rev_app_distr.
  cbn [rev app]. constructor; [rewrite <- in_rev; exact H|apply NoDup_rev; exact N].
Qed.

Section Facts.
Context {R W : Type}.
Context (handler : nat -> W -> R -> W * list sapi).
Implicit Types (s : sched) (os o : list (soutput R)) (es : list (sevent R)).

(** ** Steps *)
Definition mk run f tm q ar ex out nt nr : sched :=
  {| sr_running := run; sr_frequency := f; sr_timer := tm; sr_queue := q; sr_armed := ar; sr_expired := ex;
     sr_outstanding := out; sr_next_timer := nt; sr_next_request := nr |}.

Inductive trans : sched -> sevent R -> sched -> list (soutput R) -> Prop :=
| T_same run f tm q ar ex out nt nr e q' :
    trans (mk run f tm q ar ex out nt nr) e (mk run f tm q' ar ex out nt nr) []
| T_start f tm q ar ex out nt nr q' :
    trans (mk false f tm q ar ex out nt nr) SRun (mk true f tm q' ar ex (out ++ [nr]) nt (S nr)) [Started; Request nr]
| T_stop f tm q ar ex out nt nr q' :
    trans (mk true f tm q ar ex out nt nr) SRun
      (mk false f None q' (match tm with Some t => without t ar | None => ar end) ex out nt nr) [Stopped]
| T_frequency run f tm q ar ex out nt nr q' f' :
    trans (mk run f tm q ar ex out nt nr) SRun (mk run f' tm q' ar ex out nt nr) [Frequency f']
| T_answer f tm q ar ex out nt nr q' i r : In i out ->
    trans (mk true f tm q ar ex out nt nr) (SAnswer i r)
      (mk true f (Some nt) q' (ar ++ [nt]) ex (without i out) (S nt) nr) [Response i r; Wait nt f]
| T_last f tm q ar ex out nt nr q' i r : In i out ->
    trans (mk false f tm q ar ex out nt nr) (SAnswer i r) (mk false f tm q' ar ex (without i out) nt nr) [Response i r]
| T_expire run f tm q ar ex out nt nr t : In t ar ->
    trans (mk run f tm q ar ex out nt nr) (SExpire t) (mk run f tm q (without t ar) (ex ++ [t]) out nt nr) []
| T_fire run f tm q ar ex out nt nr t : In t ex ->
    trans (mk run f tm q ar ex out nt nr) (SFire t) (mk run f tm q ar (without t ex) (out ++ [nr]) nt (S nr)) [Request nr].

Lemma step_trans s w e s' w' o : sched_step handler s w e = (s', w', o) -> trans s e s' o.
Proof.
  destruct s as [run f tm q ar ex out nt nr]. destruct e as [a| |i r|t|t]; unfold sched_step.
  - intros E. injection E as <- <- <-. apply T_same.
  - cbn [sr_queue]. destruct q as [|[| |f'] q]; unfold run_sapi, with_squeue; cbn [sr_queue sr_running sr_frequency sr_timer sr_armed sr_expired sr_outstanding sr_next_timer sr_next_request].
    + intros E. injection E as <- <- <-. apply T_same.
    + destruct run; intros E; injection E as <- <- <-; [apply T_same|apply T_start].
    + destruct run; intros E; injection E as <- <- <-; [apply T_stop|apply T_same].
    + intros E; injection E as <- <- <-. apply T_frequency.
  - cbn [sr_outstanding]. destruct (existsb _ out) eqn:X.
    + apply existsb_nat in X. unfold on_answer. destruct (handler i w r) as [w1 calls].
      unfold with_posted. cbn [sr_queue sr_running sr_frequency sr_timer sr_armed sr_expired sr_outstanding sr_next_timer sr_next_request].
      destruct run; intros E; injection E as <- <- <-; [apply T_answer|apply T_last]; exact X.
    + intros E; injection E as <- <- <-. apply T_same.
  - cbn [sr_armed]. destruct (existsb _ ar) eqn:X; intros E; injection E as <- <- <-.
    + apply existsb_nat in X. apply T_expire. exact X.
    + apply T_same.
  - cbn [sr_expired]. destruct (existsb _ ex) eqn:X; unfold execute, with_stimers; cbn [sr_next_request]; intros E; injection E as <- <- <-.
    + apply existsb_nat in X. apply T_fire. exact X.
    + apply T_same.
Qed.

(** ** Histories *)
Lemma run_app es1 : forall es2 s w,
  sched_run handler s w (es1 ++ es2) =
  let '(s1, w1, o1) := sched_run handler s w es1 in
  let '(s2, w2, o2) := sched_run handler s1 w1 es2 in (s2, w2, o1 ++ o2).
Proof.
  induction es1 as [|e es1 IH]; intros es2 s w; cbn [app sched_run].
  - destruct (sched_run handler s w es2) as [[? ?] ?]. reflexivity.
  - destruct (sched_step handler s w e) as [[s1 w1] o1]. rewrite IH.
    destruct (sched_run handler s1 w1 es1) as [[s2 w2] o2].
    destruct (sched_run handler s2 w2 es2) as [[s3 w3] o3]. rewrite app_assoc. reflexivity.
Qed.

Lemma run_one s w e : sched_run handler s w [e] = sched_step handler s w e.
Proof.
  cbn [sched_run]. destruct (sched_step handler s w e) as [[? ?] ?]. rewrite app_nil_r. reflexivity.
Qed.

Lemma run_snoc s w es e s' w' os :
  sched_run handler s w (es ++ [e]) = (s', w', os) ->
  exists s1 w1 o1 o2, sched_run handler s w es = (s1, w1, o1) /\ sched_step handler s1 w1 e = (s', w', o2) /\ os = o1 ++ o2.
Proof.
  rewrite run_app. destruct (sched_run handler s w es) as [[s1 w1] o1] eqn:E1. rewrite run_one.
  destruct (sched_step handler s1 w1 e) as [[s2 w2] o2] eqn:E2. intros E. injection E as <- <- <-.
  do 4 eexists. split; [reflexivity|]. split; [exact E2|reflexivity].
Qed.

(** Invariants are proved by adding events at the end. *)
Lemma schedule_ind (P : list (sevent R) -> sched -> list (soutput R) -> Prop) f :
  P [] (sched_init f) [] ->
  (forall es s os e s' o w w' w'', schedule handler f es s w os -> P es s os -> sched_step handler s w e = (s', w', o) ->
     w'' = w' -> trans s e s' o -> schedule handler f (es ++ [e]) s' w' (os ++ o) -> P (es ++ [e]) s' (os ++ o)) ->
  forall es s w os, schedule handler f es s w os -> P es s os.
Proof.
  intros H0 HS es. induction es as [|e es IH] using rev_ind; intros s w os [w0 E].
  - injection E as <- <- <-. exact H0.
  - pose proof E as E'. apply run_snoc in E. destruct E as (s1 & w1 & o1 & o2 & E1 & E2 & ->).
    apply (HS es s1 o1 e s o2 w1 w w); [exists w0; exact E1| |exact E2|reflexivity|exact (step_trans _ _ _ _ _ _ E2)|exists w0; exact E'].
    apply (IH s1 w1). exists w0. exact E1.
Qed.

(** Where an output comes from. *)
Lemma output_cut f es s w a x b :
  schedule handler f es s w (a ++ x :: b) ->
  exists es1 e es2 s1 w1 os1 s2 w2 o1 o2 os2,
    es = es1 ++ e :: es2 /\ schedule handler f es1 s1 w1 os1 /\
    sched_step handler s1 w1 e = (s2, w2, o1 ++ x :: o2) /\ trans s1 e s2 (o1 ++ x :: o2) /\
    a = os1 ++ o1 /\ b = o2 ++ os2.
Proof.
  revert s w b. induction es as [|e es IH] using rev_ind; intros s w b [w0 E].
  - injection E as _ _ E. destruct a; discriminate.
  - apply run_snoc in E. destruct E as (s1 & w1 & o1 & o2 & E1 & E2 & E3).
    symmetry in E3. assert (D : (exists l, o1 = a ++ x :: l /\ b = l ++ o2) \/ (exists l, a = o1 ++ l /\ o2 = l ++ x :: b)).
    { clear - E3. revert o1 E3. induction a as [|y a IHa]; intros [|z o1] E3; cbn [app] in E3.
      - right. exists []. split; [reflexivity|exact E3].
      - injection E3 as -> E3. left. exists o1. split; [reflexivity|symmetry; exact E3].
      - right. exists (y :: a). split; [reflexivity|exact E3].
      - injection E3 as -> E3. destruct (IHa _ E3) as [(l & -> & ->)|(l & -> & ->)]; [left|right]; exists l; split; reflexivity. }
    destruct D as [(l & -> & ->)|(l & -> & ->)].
    + destruct (IH s1 w1 l) as (es1 & e' & es2 & s1' & w1' & os1 & s2 & w2 & p1 & p2 & os2 & -> & H1 & H2 & H3 & -> & ->); [exists w0; exact E1|].
      exists es1, e', (es2 ++ [e]), s1', w1', os1, s2, w2, p1, p2, (os2 ++ o2).
      rewrite <- app_assoc. cbn [app]. rewrite app_assoc. intuition.
    + exists es, e, [], s1, w1, o1, s, w, l, b, []. rewrite app_nil_r.
      split; [reflexivity|]. split; [exists w0; exact E1|]. split; [exact E2|].
      split; [exact (step_trans _ _ _ _ _ _ E2)|]. split; reflexivity.
Qed.

(** ** What the state means *)
Lemma answered_app i os o : answered i (os ++ o) = answered i os || answered i o.
Proof. apply existsb_app. Qed.

Lemma answered_in i os : answered i os = true <-> exists r, In (Response i r) os.
Proof.
  unfold answered. rewrite existsb_exists. split.
  - intros (x & I & E). destruct x; try discriminate. apply Nat.eqb_eq in E. subst. eexists. exact I.
  - intros (r & I). eexists. split; [exact I|]. apply Nat.eqb_refl.
Qed.

Lemma requested_in i os : In i (requested os) <-> In (Request i) os.
Proof.
  unfold requested. rewrite in_flat_map. split.
  - intros (x & I & E). destruct x; try contradiction. destruct E as [->|[]]. exact I.
  - intros I. exists (Request i). split; [exact I|left; reflexivity].
Qed.

Lemma starts_app os o : starts (os ++ o) = (starts os + starts o)%nat.
Proof. unfold starts. rewrite filter_app, app_length. reflexivity. Qed.

Lemma requested_app os o : requested (os ++ o) = requested os ++ requested o.
Proof. apply flat_map_app. Qed.

Definition load s : nat := List.length (sr_outstanding s) + List.length (sr_armed s) + List.length (sr_expired s).

Record sinv (f : N) (es : list (sevent R)) (s : sched) (os : list (soutput R)) : Prop := {
  v_running : sr_running s = polling os;
  v_frequency : sr_frequency s = frequency_of f os;
  v_requested : requested os = seq 0 (sr_next_request s);
  v_open : unanswered os = sr_outstanding s;
  v_answers : forall i, answered i os = true -> (i < sr_next_request s)%nat;
  v_timers : forall t, In t (sr_armed s ++ sr_expired s) -> (t < sr_next_timer s)%nat /\ exists g, In (Wait t g) os;
  v_expired : forall t, In t (sr_expired s) -> In (SExpire t) es;
  v_nodup_armed : NoDup (sr_armed s);
  v_nodup_expired : NoDup (sr_expired s);
  v_apart : forall t, In t (sr_armed s) -> ~ In t (sr_expired s);
  v_load : (load s <= starts os)%nat;
  v_busy : sr_running s = true -> (1 <= load s)%nat
}.

Lemma unanswered_request os n : (forall i, answered i os = true -> (i < n)%nat) ->
  forall o, requested o = [n] -> (forall i, answered i o = false) -> unanswered (os ++ o) = unanswered os ++ [n].
Proof.
  intros H o E A. unfold unanswered. rewrite requested_app, E, filter_app. f_equal.
  - apply filter_ext. intros i. rewrite answered_app, A, orb_false_r. reflexivity.
  - cbn [filter]. rewrite answered_app, A. destruct (answered n os) eqn:Q; [apply H in Q; lia|reflexivity].
Qed.

Lemma unanswered_other os o : requested o = [] -> (forall i, answered i o = false) -> unanswered (os ++ o) = unanswered os.
Proof.
  intros E A. unfold unanswered. rewrite requested_app, E, app_nil_r.
  apply filter_ext. intros i. rewrite answered_app, A, orb_false_r. reflexivity.
Qed.

Lemma unanswered_answer os o i : requested o = [] -> (forall j, answered j o = Nat.eqb i j) ->
  unanswered (os ++ o) = without i (unanswered os).
Proof.
  intros E A. unfold unanswered. rewrite requested_app, E, app_nil_r. unfold without.
  induction (requested os) as [|j l IH]; [reflexivity|]. cbn [filter]. rewrite answered_app, A.
  destruct (answered j os) eqn:Q; cbn [negb orb]; [exact IH|]. cbn [filter]. rewrite (Nat.eqb_sym j i).
  destruct (Nat.eqb i j); cbn [negb]; [exact IH|f_equal; exact IH].
Qed.

Lemma nodup_unanswered os n : requested os = seq 0 n -> NoDup (unanswered os).
Proof. intros E. unfold unanswered. rewrite E. apply NoDup_filter, seq_NoDup. Qed.

Ltac fields := cbn [mk sr_queue sr_running sr_frequency sr_timer sr_armed sr_expired sr_outstanding sr_next_timer sr_next_request] in *.

Lemma sinv_step f es s os e s' o : sinv f es s os -> trans s e s' o -> sinv f (es ++ [e]) s' (os ++ o).
Proof.
  intros [V1 V2 V3 V4 V5 V6 V7 V8 V9 V10 V11 V12] T. pose proof (nodup_unanswered _ _ V3) as ND.
  rewrite V4 in ND. destruct T; unfold load in *; fields.
  - rewrite app_nil_r. constructor; unfold load; fields; try assumption.
    intros t I. apply in_or_app. left. auto.
  - constructor; unfold load; fields.
    + unfold polling. rewrite fold_left_app. reflexivity.
    + unfold frequency_of in *. rewrite fold_left_app. exact V2.
    + rewrite requested_app, V3, seq_S. reflexivity.
    + rewrite (unanswered_request os nr V5), V4; reflexivity.
    + intros i. rewrite answered_app. change (answered i [_; _]) with false. rewrite orb_false_r. intros I. apply V5 in I. lia.
    + intros t I. destruct (V6 t I) as [L (g & G)]. split; [exact L|]. exists g. apply in_or_app. left. exact G.
    + intros t I. apply in_or_app. left. auto.
    + assumption. + assumption. + assumption.
    + rewrite starts_app, app_length. cbn. lia.
    + rewrite app_length. cbn. lia.
  - assert (SUB : incl (match tm with Some t => without t ar | None => ar end) ar)
      by (destruct tm; [intros x I; apply in_without in I; tauto|apply incl_refl]).
    assert (LE : (List.length (match tm with Some t => without t ar | None => ar end) <= List.length ar)%nat)
      by (destruct tm; [apply length_without_le|lia]).
    constructor; unfold load; fields.
    + unfold polling. rewrite fold_left_app. reflexivity.
    + unfold frequency_of in *. rewrite fold_left_app. exact V2.
    + rewrite requested_app, V3. apply app_nil_r.
    + rewrite unanswered_other; auto.
    + intros i. rewrite answered_app. change (answered i [_]) with false. rewrite orb_false_r. apply V5.
    + intros t I. destruct (V6 t) as [L (g & G)].
      { apply in_app_or in I. apply in_or_app. destruct I; [left; apply SUB; assumption|right; assumption]. }
      split; [exact L|]. exists g. apply in_or_app. left. exact G.
    + intros t I. apply in_or_app. left. auto.
    + destruct tm; [apply without_nodup|]; assumption.
    + assumption.
    + intros t I. apply V10. apply SUB. exact I.
    + rewrite starts_app. lia.
    + discriminate.
  - constructor; unfold load; fields.
    + unfold polling. rewrite fold_left_app. exact V1.
    + unfold frequency_of in *. rewrite fold_left_app. reflexivity.
    + rewrite requested_app, V3. apply app_nil_r.
    + rewrite unanswered_other; auto.
    + intros i. rewrite answered_app. change (answered i [_]) with false. rewrite orb_false_r. apply V5.
    + intros t I. destruct (V6 t I) as [L (g & G)]. split; [exact L|]. exists g. apply in_or_app. left. exact G.
    + intros t I. apply in_or_app. left. auto.
    + assumption. + assumption. + assumption.
    + rewrite starts_app. lia.
    + assumption.
  - pose proof (length_without i out ND H) as LW.
    assert (A : forall j, answered j [Response i r; Wait nt f0] = Nat.eqb i j) by (intros j; cbn; apply orb_false_r).
    constructor; unfold load; fields.
    + unfold polling. rewrite fold_left_app. exact V1.
    + unfold frequency_of in *. rewrite fold_left_app. exact V2.
    + rewrite requested_app, V3. apply app_nil_r.
    + rewrite (unanswered_answer _ _ i), V4 by auto. reflexivity.
    + intros j. rewrite answered_app, A. intros I. apply orb_true_iff in I. destruct I as [I|I]; [exact (V5 _ I)|].
      apply Nat.eqb_eq in I. subst j. rewrite <- V4 in H. unfold unanswered in H. apply filter_In in H. destruct H as [H _].
      rewrite V3 in H. apply in_seq in H. lia.
    + intros t I. rewrite <- app_assoc in I. apply in_app_or in I. cbn [app In] in I. destruct I as [I|[<-|I]].
      * destruct (V6 t) as [L (g & G)]; [apply in_or_app; left; exact I|]. split; [lia|]. exists g. apply in_or_app. left. exact G.
      * split; [lia|]. exists f0. apply in_or_app. right. right. left. reflexivity.
      * destruct (V6 t) as [L (g & G)]; [apply in_or_app; right; exact I|]. split; [lia|]. exists g. apply in_or_app. left. exact G.
    + intros t I. apply in_or_app. left. auto.
    + apply nodup_snoc; [assumption|]. intros I. destruct (V6 nt) as [L _]; [apply in_or_app; left; exact I|]. lia.
    + assumption.
    + intros t I. apply in_app_or in I. cbn [In] in I. destruct I as [I|[<-|[]]]; [exact (V10 _ I)|].
      intros I. destruct (V6 nt) as [L _]; [apply in_or_app; right; exact I|]. lia.
    + rewrite starts_app, app_length. cbn [List.length]. lia.
    + rewrite app_length. cbn [List.length]. lia.
  - pose proof (length_without i out ND H) as LW.
    assert (A : forall j, answered j [Response i r] = Nat.eqb i j) by (intros j; cbn; apply orb_false_r).
    constructor; unfold load; fields.
    + unfold polling. rewrite fold_left_app. exact V1.
    + unfold frequency_of in *. rewrite fold_left_app. exact V2.
    + rewrite requested_app, V3. apply app_nil_r.
    + rewrite (unanswered_answer _ _ i), V4 by auto. reflexivity.
    + intros j. rewrite answered_app, A. intros I. apply orb_true_iff in I. destruct I as [I|I]; [exact (V5 _ I)|].
      apply Nat.eqb_eq in I. subst j. rewrite <- V4 in H. unfold unanswered in H. apply filter_In in H. destruct H as [H _].
      rewrite V3 in H. apply in_seq in H. lia.
    + intros t I. destruct (V6 t I) as [L (g & G)]. split; [exact L|]. exists g. apply in_or_app. left. exact G.
    + intros t I. apply in_or_app. left. auto.
    + assumption. + assumption. + assumption.
    + rewrite starts_app. lia.
    + discriminate.
  - pose proof (length_without t ar V8 H) as LW. rewrite app_nil_r. constructor; unfold load; fields; try assumption.
    + intros t' I. apply V6. apply in_app_or in I. apply in_or_app. destruct I as [I|I].
      * apply in_without in I. tauto.
      * apply in_app_or in I. cbn [In] in I. destruct I as [I|[<-|[]]]; [right|left]; assumption.
    + intros t' I. apply in_or_app. apply in_app_or in I. cbn [In] in *. destruct I as [I|[<-|[]]]; [left; auto|right; left; reflexivity].
    + apply without_nodup; assumption.
    + apply nodup_snoc; [assumption|]. apply V10. exact H.
    + intros t' I J. apply in_without in I. apply in_app_or in J. cbn [In] in J. destruct J as [J|[J|[]]]; [|destruct I; congruence].
      destruct I as [I _]. exact (V10 _ I J).
    + rewrite app_length. cbn [List.length]. lia.
    + rewrite app_length. cbn [List.length]. lia.
  - pose proof (length_without t ex V9 H) as LW. constructor; unfold load; fields.
    + unfold polling. rewrite fold_left_app. exact V1.
    + unfold frequency_of in *. rewrite fold_left_app. exact V2.
    + rewrite requested_app, V3, seq_S. reflexivity.
    + rewrite (unanswered_request os nr V5), V4; reflexivity.
    + intros i. rewrite answered_app. change (answered i [_]) with false. rewrite orb_false_r. intros I. apply V5 in I. lia.
    + intros t' I. destruct (V6 t') as [L (g & G)].
      { apply in_app_or in I. apply in_or_app. destruct I as [I|I]; [left; assumption|right; apply in_without in I; tauto]. }
      split; [exact L|]. exists g. apply in_or_app. left. exact G.
    + intros t' I. apply in_or_app. left. apply in_without in I. apply V7. tauto.
    + assumption.
    + apply without_nodup; assumption.
    + intros t' I J. apply in_without in J. destruct J as [J _]. exact (V10 _ I J).
    + rewrite starts_app, app_length. cbn [List.length]. lia.
    + rewrite app_length. cbn [List.length]. lia.
Qed.

Lemma schedule_inv f es s w os : schedule handler f es s w os -> sinv f es s os.
Proof.
  apply (schedule_ind (fun es s os => sinv f es s os)).
  - constructor; cbn; try reflexivity; try constructor; try contradiction; try discriminate.
  - intros. eapply sinv_step; eassumption.
Qed.
End Facts.
