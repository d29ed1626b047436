(** Linearizability of the in-memory database. *)
From Verif Require Import Prelude Messages SpecPdu Tac Database SpecDb DatabaseFacts DbLemmas
  Locking SpecLin.

Lemma set_phase_eq f th p : set_phase f th p th = p.
Proof. unfold set_phase. now rewrite Nat.eqb_refl. Qed.

Lemma set_phase_ne f th p x : x <> th -> set_phase f th p x = f x.
Proof. unfold set_phase. intros H. now destruct (Nat.eqb_spec x th). Qed.

Lemma run_calls_snoc cs : forall c d d1 rs d2 r,
  run_calls cs d = Ret (d1, rs) -> run (call_body c) d1 = Ret (d2, r) ->
  run_calls (cs ++ [c]) d = Ret (d2, rs ++ [r]).
Proof.
  induction cs as [|c' cs IH]; intros c d d1 rs d2 r H1 H2; cbn [run_calls app] in *.
  - injection H1 as -> <-. rewrite H2. reflexivity.
  - destruct (run (call_body c') d) as [[d' r']|]; cbn [obind] in *; [|discriminate].
    destruct (run_calls cs d') as [[d'' rs']|] eqn:E; cbn [obind] in H1; [|discriminate].
    injection H1 as -> <-. rewrite (IH _ _ _ _ _ _ E H2). reflexivity.
Qed.

(** What a thread's phase says about the sequential history [l] and the call
    records in [h]. *)
Definition phase_ok (h : list event) (l : list entry) (n th : nat) (p : phase) : Prop :=
  match p with
  | Idle => True
  | Waiting id c | Inside id c _ =>
      (id < n)%nat /\ typed_call c /\ In (Inv id th c) h /\ ~ In id (map e_id l)
  | Leaving id r => exists e, In e l /\ e_id e = id /\ e_result e = r
  end.

Definition pending_id (p : phase) : option nat :=
  match p with
  | Waiting id _ | Inside id _ _ => Some id
  | _ => None
  end.

Record inv (s : cstate) (l : list entry) (d0 : db) : Prop := {
  i_ub : c_ub s = false;
  i_run : run_calls (map e_call l) db_empty = Ret (d0, map e_result l);
  i_typed : Forall typed_call (map e_call l);
  i_wf : wf d0;
  i_phase : forall th, phase_ok (c_hist s) l (c_next s) th (c_phase s th);
  i_ids : forall t1 t2 i, pending_id (c_phase s t1) = Some i ->
            pending_id (c_phase s t2) = Some i -> t1 = t2;
  i_lock : match c_lock s with
           | None => c_db s = d0
           | Some th => exists id c p, c_phase s th = Inside id c p /\
                          run p (c_db s) = run (call_body c) d0
           end;
  i_mutex : forall th id c p, c_phase s th = Inside id c p -> c_lock s = Some th;
  i_once : NoDup (map e_id l);
  i_invoked : forall e, In e l -> exists th, In (Inv (e_id e) th (e_call e)) (c_hist s);
  i_fresh : forall i th c, In (Inv i th c) (c_hist s) -> (i < c_next s)%nat;
  i_complete : forall i r, In (Res i r) (c_hist s) ->
    exists e, In e l /\ e_id e = i /\ e_result e = r;
  i_order : forall i j, precedes (c_hist s) i j -> In j (map e_id l) ->
    before i j (map e_id l)
}.

Lemma before_app {A} (x y : A) l l' : before x y l -> before x y (l ++ l').
Proof.
  intros (l1 & l2 & l3 & ->). exists l1, l2, (l3 ++ l').
  rewrite <- !app_assoc. cbn. now rewrite <- app_assoc.
Qed.

Lemma before_last {A} (x y : A) l : In x l -> before x y (l ++ [y]).
Proof.
  intros H. destruct (in_split _ _ H) as (l1 & l2 & ->).
  exists l1, l2, []. rewrite <- app_assoc. reflexivity.
Qed.

Lemma before_snoc {A} (x y z : A) l :
  before x y (l ++ [z]) -> before x y l \/ (y = z /\ In x l).
Proof.
  intros (l1 & l2 & l3 & E).
  destruct (@exists_last _ (y :: l3)) as (l4 & w & E'); [discriminate|].
  rewrite E' in E.
  assert (E2 : l ++ [z] = (l1 ++ x :: l2 ++ l4) ++ [w]).
  { rewrite E, <- !app_assoc. cbn. now rewrite <- app_assoc. }
  apply app_inj_tail in E2 as [-> <-].
  destruct l4 as [|y' l4].
  - injection E' as -> ->. right. split; [reflexivity|]. apply in_or_app. right. now left.
  - injection E' as <- ->. left. exists l1, l2, l4. reflexivity.
Qed.

Lemma precedes_inv h i j n th c :
  precedes (h ++ [Inv n th c]) i j -> precedes h i j \/ j = n.
Proof.
  intros (r & th' & c' & B). apply before_snoc in B as [B|[E _]].
  - left. now exists r, th', c'.
  - right. congruence.
Qed.

Lemma precedes_res h i j n r : precedes (h ++ [Res n r]) i j -> precedes h i j.
Proof.
  intros (r' & th' & c' & B). apply before_snoc in B as [B|[E _]].
  - now exists r', th', c'.
  - discriminate.
Qed.

Lemma precedes_in h i j : precedes h i j -> exists r, In (Res i r) h.
Proof.
  intros (r & th & c & l1 & l2 & l3 & ->). exists r. apply in_or_app. right. now left.
Qed.

Lemma phase_ok_hist h h' l n n' th p :
  (n <= n')%nat -> (forall x, In x h -> In x h') -> phase_ok h l n th p -> phase_ok h' l n' th p.
Proof.
  intros L S. destruct p; cbn; auto; intros (A & B & C & D); repeat split; auto; lia.
Qed.

Lemma id_in_map l i : In i (map e_id l) <-> exists e, In e l /\ e_id e = i.
Proof. rewrite in_map_iff. firstorder. Qed.

Lemma inv_init : inv cstate_init [] db_empty.
Proof.
  constructor; cbn; try reflexivity; try tauto.
  - constructor.
  - apply wf_empty.
  - discriminate.
  - discriminate.
  - constructor.
Qed.

Lemma inv_step s s' l d0 : inv s l d0 -> cstep s s' -> exists l' d0', inv s' l' d0'.
Proof.
  intros I H. destruct H as [d lk f n h u th c Ph T
                            |d f n h u th id c Ph
                            |d lk f n h u th id c R a k d' r Ph St
                            |d lk f n h u th id c R a k Ph St
                            |d lk f n h u th id c Ph
                            |d lk f n h u th id c r Ph
                            |d lk f n h u th id r Ph];
    destruct I as [Iub Irun Ityp Iwf Iphase Iids Ilock Imutex Ionce Iinv Ifresh Icomp Iord];
    cbn [c_db c_lock c_phase c_next c_hist c_ub] in *.
  - (* invoke *)
    exists l, d0. constructor; cbn [c_db c_lock c_phase c_next c_hist c_ub]; auto.
    + intros x. destruct (Nat.eq_dec x th) as [->|Ne].
      * rewrite set_phase_eq. cbn. split; [lia|]. split; [assumption|].
        split; [apply in_or_app; right; now left|]. intros I.
        apply id_in_map in I as (e & I & <-). destruct (Iinv _ I) as (t & I').
        specialize (Ifresh _ _ _ I'). lia.
      * rewrite set_phase_ne by assumption. eapply phase_ok_hist; [| |apply Iphase]; [lia|].
        intros y Hy. apply in_or_app. now left.
    + intros t1 t2 i. 
      assert (Old : forall t, pending_id (f t) = Some i -> (i < n)%nat).
      { intros t Q. specialize (Iphase t). destruct (f t); cbn in *; try discriminate;
          injection Q as ->; tauto. }
      destruct (Nat.eq_dec t1 th) as [->|Ne1], (Nat.eq_dec t2 th) as [->|Ne2];
        rewrite ?set_phase_eq, ?set_phase_ne by assumption; auto; cbn [pending_id]; intros Q1 Q2.
      * injection Q1 as <-. specialize (Old _ Q2). lia.
      * injection Q2 as <-. specialize (Old _ Q1). lia.
      * eauto.
    + destruct lk as [t|]; [|assumption]. destruct Ilock as (id' & c' & p' & Q & Rn).
      exists id', c', p'. split; [|assumption]. rewrite set_phase_ne; [assumption|].
      intros ->. congruence.
    + intros t id' c' p'. destruct (Nat.eq_dec t th) as [->|Ne].
      * rewrite set_phase_eq. discriminate.
      * rewrite set_phase_ne by assumption. apply Imutex.
    + intros e I. destruct (Iinv e I) as (t & I'). exists t. apply in_or_app. now left.
    + intros i t c' I. apply in_app_or in I as [I|[I|[]]].
      * specialize (Ifresh _ _ _ I). lia.
      * injection I as <- _ _. lia.
    + intros i r I. apply in_app_or in I as [I|[I|[]]]; [eauto|discriminate].
    + intros i j P I. apply precedes_inv in P as [P|E]; [eauto|]. subst j. exfalso.
      apply id_in_map in I as (e & I & Ei). destruct (Iinv _ I) as (t & I').
      specialize (Ifresh _ _ _ I'). lia.
  - (* lock *)
    subst d0. exists l, d. constructor; cbn [c_db c_lock c_phase c_next c_hist c_ub]; auto.
    + intros x. destruct (Nat.eq_dec x th) as [->|Ne].
      * rewrite set_phase_eq. specialize (Iphase th). rewrite Ph in Iphase. exact Iphase.
      * rewrite set_phase_ne by assumption. apply Iphase.
    + intros t1 t2 i.
      assert (Same : forall t, pending_id (set_phase f th (Inside id c (call_body c)) t) = pending_id (f t)).
      { intros t. destruct (Nat.eq_dec t th) as [->|Ne].
        - rewrite set_phase_eq, Ph. reflexivity.
        - now rewrite set_phase_ne. }
      rewrite !Same. apply Iids.
    + exists id, c, (call_body c). split; [apply set_phase_eq|reflexivity].
    + intros t id' c' p' Q. destruct (Nat.eq_dec t th) as [->|Ne]; [reflexivity|].
      rewrite set_phase_ne in Q by assumption. specialize (Imutex _ _ _ _ Q). discriminate.
  - (* one action *)
    specialize (Imutex _ _ _ _ Ph) as Lk. subst lk.
    destruct Ilock as (id' & c' & p' & Q & Rn). rewrite Ph in Q. injection Q as <- <- <-.
    cbn [run] in Rn. rewrite St in Rn. cbn [obind] in Rn.
    exists l, d0. constructor; cbn [c_db c_lock c_phase c_next c_hist c_ub]; auto.
    + intros x. destruct (Nat.eq_dec x th) as [->|Ne].
      * rewrite set_phase_eq. specialize (Iphase th). rewrite Ph in Iphase. exact Iphase.
      * rewrite set_phase_ne by assumption. apply Iphase.
    + intros t1 t2 i.
      assert (Same : forall t, pending_id (set_phase f th (Inside id c (k r)) t) = pending_id (f t)).
      { intros t. destruct (Nat.eq_dec t th) as [->|Ne].
        - rewrite set_phase_eq, Ph. reflexivity.
        - now rewrite set_phase_ne. }
      rewrite !Same. apply Iids.
    + exists id, c, (k r). split; [apply set_phase_eq|exact Rn].
    + intros t id' c' p' Q. destruct (Nat.eq_dec t th) as [->|Ne]; [reflexivity|].
      rewrite set_phase_ne in Q by assumption. exact (Imutex _ _ _ _ Q).
  - (* undefined behaviour in an action *)
    exfalso. specialize (Imutex _ _ _ _ Ph) as Lk. subst lk.
    destruct Ilock as (id' & c' & p' & Q & Rn). rewrite Ph in Q. injection Q as <- <- <-.
    cbn [run] in Rn. rewrite St in Rn. cbn [obind] in Rn.
    specialize (Iphase th). rewrite Ph in Iphase. destruct Iphase as (_ & Tc & _).
    destruct (call_body_spec d0 c Iwf Tc) as (d1 & r & E & _). congruence.
  - exfalso. specialize (Imutex _ _ _ _ Ph) as Lk. subst lk.
    destruct Ilock as (id' & c' & p' & Q & Rn). rewrite Ph in Q. injection Q as <- <- <-.
    cbn [run] in Rn. specialize (Iphase th). rewrite Ph in Iphase. destruct Iphase as (_ & Tc & _).
    destruct (call_body_spec d0 c Iwf Tc) as (d1 & r & E & _). congruence.
  - (* unlock: the call takes its place in the sequential history *)
    specialize (Imutex _ _ _ _ Ph) as Lk. subst lk.
    destruct Ilock as (id' & c' & p' & Q & Rn). rewrite Ph in Q. injection Q as <- <- <-.
    cbn [run] in Rn. pose proof (Iphase th) as Pth. rewrite Ph in Pth.
    destruct Pth as (Lid & Tc & Hin & Nin).
    set (e := {| e_id := id; e_call := c; e_result := r |}).
    exists (l ++ [e]), d. constructor; cbn [c_db c_lock c_phase c_next c_hist c_ub]; auto.
    + rewrite !map_app. cbn [map e_call e_result e]. eapply run_calls_snoc; [exact Irun|now rewrite <- Rn].
    + rewrite map_app. apply Forall_app. split; [assumption|]. cbn. auto.
    + destruct (call_body_spec d0 c Iwf Tc) as (d1 & r1 & E & W1 & _).
      rewrite E in Rn. injection Rn as -> _. exact W1.
    + intros x. destruct (Nat.eq_dec x th) as [->|Ne].
      * rewrite set_phase_eq. exists e. split; [apply in_or_app; right; now left|]. auto.
      * rewrite set_phase_ne by assumption. specialize (Iphase x). pose proof (Iids x th) as Ix.
        destruct (f x) as [|i2 c2|i2 c2 p2|i2 r2] eqn:Ex; cbn [phase_ok pending_id] in *; auto.
        -- destruct Iphase as (A & B & C & D). repeat split; auto. rewrite map_app, in_app_iff.
           cbn. intros [I|[I|[]]]; [tauto|]. subst i2. apply Ne, (Ix id eq_refl). now rewrite Ph.
        -- destruct Iphase as (A & B & C & D). repeat split; auto. rewrite map_app, in_app_iff.
           cbn. intros [I|[I|[]]]; [tauto|]. subst i2. apply Ne, (Ix id eq_refl). now rewrite Ph.
        -- destruct Iphase as (e' & A & B). exists e'. split; [apply in_or_app; now left|assumption].
    + intros t1 t2 i.
      assert (Old : forall t j, pending_id (set_phase f th (Leaving id r) t) = Some j ->
                pending_id (f t) = Some j).
      { intros t j. destruct (Nat.eq_dec t th) as [->|Ne].
        - rewrite set_phase_eq. discriminate.
        - now rewrite set_phase_ne. }
      intros Q1 Q2. apply Old in Q1, Q2. eauto.
    + intros t id' c' p' Q. destruct (Nat.eq_dec t th) as [->|Ne].
      * rewrite set_phase_eq in Q. discriminate.
      * rewrite set_phase_ne in Q by assumption. specialize (Imutex _ _ _ _ Q). congruence.
    + rewrite map_app. cbn. apply NoDup_Add with (a := id) (l := map e_id l).
      * rewrite <- (app_nil_r (map e_id l)) at 1. apply Add_app.
      * auto.
    + intros e' I. apply in_app_or in I as [I|[<-|[]]]; [eauto|]. exists th. exact Hin.
    + intros i r' I. destruct (Icomp i r' I) as (e' & A & B). exists e'.
      split; [apply in_or_app; now left|assumption].
    + intros i j P I. rewrite map_app in *. apply in_app_or in I as [I|[<-|[]]].
      * apply before_app. eauto.
      * cbn. apply before_last. destruct (precedes_in _ _ _ P) as (r' & I').
        destruct (Icomp _ _ I') as (e' & A & <- & _). now apply in_map.
  - (* return *)
    exists l, d0. constructor; cbn [c_db c_lock c_phase c_next c_hist c_ub]; auto.
    + intros x. destruct (Nat.eq_dec x th) as [->|Ne].
      * rewrite set_phase_eq. exact Logic.I.
      * rewrite set_phase_ne by assumption. eapply phase_ok_hist; [| |apply Iphase]; [lia|].
        intros y Hy. apply in_or_app. now left.
    + intros t1 t2 i.
      assert (Old : forall t j, pending_id (set_phase f th Idle t) = Some j ->
                pending_id (f t) = Some j).
      { intros t j. destruct (Nat.eq_dec t th) as [->|Ne].
        - rewrite set_phase_eq. discriminate.
        - now rewrite set_phase_ne. }
      intros Q1 Q2. apply Old in Q1, Q2. eauto.
    + destruct lk as [t|]; [|assumption]. destruct Ilock as (id' & c' & p' & Q & Rn).
      exists id', c', p'. split; [|assumption]. rewrite set_phase_ne; [assumption|].
      intros ->. congruence.
    + intros t id' c' p'. destruct (Nat.eq_dec t th) as [->|Ne].
      * rewrite set_phase_eq. discriminate.
      * rewrite set_phase_ne by assumption. apply Imutex.
    + intros e I. destruct (Iinv e I) as (t & I'). exists t. apply in_or_app. now left.
    + intros i t c' I. apply in_app_or in I as [I|[I|[]]]; [eauto|discriminate].
    + intros i r' I. apply in_app_or in I as [I|[I|[]]]; [eauto|]. injection I as <- <-.
      specialize (Iphase th). rewrite Ph in Iphase. exact Iphase.
    + intros i j P I. apply precedes_res in P. eauto.
Qed.

Lemma inv_reachable s : creachable s -> exists l d0, inv s l d0.
Proof.
  induction 1 as [|s s' R (l & d0 & I) H].
  - eexists _, _. apply inv_init.
  - eapply inv_step; eauto.
Qed.

Lemma linearizable s : creachable s ->
  c_ub s = false /\
  exists l F, linearizes (c_hist s) l F /\ (c_lock s = None -> holds (c_db s) F).
Proof.
  intros R. destruct (inv_reachable s R) as (l & d0 & I). split; [apply I|].
  destruct (calls_refine (map e_call l) (i_typed _ _ _ I)) as (d & rs & Rn & S).
  rewrite (i_run _ _ _ I) in Rn. injection Rn as -> <-.
  exists l, (contents d). split.
  - destruct I. constructor; auto.
  - intros L. destruct I. rewrite L in i_lock0. rewrite i_lock0. apply holds_contents.
Qed.

Lemma mutual_exclusion s t1 t2 i1 c1 p1 i2 c2 p2 : creachable s ->
  c_phase s t1 = Inside i1 c1 p1 -> c_phase s t2 = Inside i2 c2 p2 -> t1 = t2.
Proof.
  intros R A B. destruct (inv_reachable s R) as (l & d0 & I).
  apply (i_mutex _ _ _ I) in A, B. congruence.
Qed.

(** The lock is never lost: whenever a call is in progress some thread can go
    on, and a thread inside can always go on. *)
Lemma no_deadlock s th : creachable s -> c_phase s th <> Idle ->
  exists s', cstep s s' /\ c_next s' = c_next s.
Proof.
  intros R P. destruct (inv_reachable s R) as (l & d0 & I).
  destruct s as [d lk f n h u]. cbn [c_phase c_next] in *.
  assert (In_step : forall t id c p, f t = Inside id c p ->
    exists s', cstep {| c_db := d; c_lock := lk; c_phase := f; c_next := n; c_hist := h; c_ub := u |} s' /\
               c_next s' = n).
  { intros t id c [r| |Rt a k] E.
    - eexists. split; [eapply step_unlock; exact E|reflexivity].
    - eexists. split; [eapply step_pub; exact E|reflexivity].
    - destruct (act_step a d) as [[d' r]|] eqn:St.
      + eexists. split; [eapply step_act; eassumption|reflexivity].
      + eexists. split; [eapply step_ub; eassumption|reflexivity]. }
  destruct (f th) as [|id c|id c p|id r] eqn:E; [congruence| | |].
  - destruct lk as [t|].
    + pose proof (i_lock _ _ _ I) as L. cbn in L. destruct L as (id' & c' & p' & Q & _). eauto.
    + eexists. split; [eapply step_lock; exact E|reflexivity].
  - eauto.
  - eexists. split; [eapply step_return; exact E|reflexivity].
Qed.

(** ** Running a schedule, for examples *)
Inductive move : Type :=
| MInvoke (th : nat) (c : call)
| MGo (th : nat).

Definition exec1 (m : move) (s : cstate) : option cstate :=
  match m with
  | MInvoke th c =>
      match c_phase s th with
      | Idle => Some {| c_db := c_db s; c_lock := c_lock s;
                        c_phase := set_phase (c_phase s) th (Waiting (c_next s) c);
                        c_next := S (c_next s); c_hist := c_hist s ++ [Inv (c_next s) th c];
                        c_ub := c_ub s |}
      | _ => None
      end
  | MGo th =>
      match c_phase s th with
      | Idle => None
      | Waiting id c =>
          match c_lock s with
          | Some _ => None
          | None => Some {| c_db := c_db s; c_lock := Some th;
                            c_phase := set_phase (c_phase s) th (Inside id c (call_body c));
                            c_next := c_next s; c_hist := c_hist s; c_ub := c_ub s |}
          end
      | Inside id c (PRet r) =>
          Some {| c_db := c_db s; c_lock := None; c_phase := set_phase (c_phase s) th (Leaving id r);
                  c_next := c_next s; c_hist := c_hist s; c_ub := c_ub s |}
      | Inside id c PUB => None
      | Inside id c (PAct a k) =>
          match act_step a (c_db s) with
          | Ret (d', r) =>
              Some {| c_db := d'; c_lock := c_lock s;
                      c_phase := set_phase (c_phase s) th (Inside id c (k r));
                      c_next := c_next s; c_hist := c_hist s; c_ub := c_ub s |}
          | UB => None
          end
      | Leaving id r =>
          Some {| c_db := c_db s; c_lock := c_lock s; c_phase := set_phase (c_phase s) th Idle;
                  c_next := c_next s; c_hist := c_hist s ++ [Res id r]; c_ub := c_ub s |}
      end
  end.

Fixpoint exec (ms : list move) (s : cstate) : option cstate :=
  match ms with
  | [] => Some s
  | m :: ms' => match exec1 m s with Some s' => exec ms' s' | None => None end
  end.

Definition typed_move (m : move) : Prop :=
  match m with MInvoke _ c => typed_call c | MGo _ => True end.

Lemma exec1_step m s s' : typed_move m -> exec1 m s = Some s' -> cstep s s'.
Proof.
  destruct s as [d lk f n h u]. destruct m as [th c|th]; cbn; intros T.
  - destruct (f th) eqn:E; try discriminate. intros [= <-]. now apply step_invoke.
  - destruct (f th) as [|id c|id c p|id r] eqn:E; try discriminate.
    + destruct lk; [discriminate|]. intros [= <-]. now apply step_lock.
    + destruct p as [r| |R a k]; [|discriminate|].
      * intros [= <-]. now apply step_unlock with c.
      * destruct (act_step a d) as [[d' r]|] eqn:St; [|discriminate].
        intros [= <-]. eapply step_act; eassumption.
    + intros [= <-]. now apply step_return.
Qed.

Lemma exec_reachable ms : forall s s', Forall typed_move ms -> creachable s ->
  exec ms s = Some s' -> creachable s'.
Proof.
  induction ms as [|m ms IH]; intros s s' T R; cbn.
  - congruence.
  - inversion T; subst. destruct (exec1 m s) as [s1|] eqn:E; [|discriminate].
    apply IH; [assumption|]. eapply creach_step; [exact R|]. now apply exec1_step with m.
Qed.
