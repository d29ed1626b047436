(** Proofs about Database.v. *)
From Verif Require Import Prelude Messages SpecPdu Tac Database SpecDb.
From Coq Require Import Sorting.Sorted.

(** ** Programs *)
Lemma run_bind {A B} (p : prog A) (f : A -> prog B) d :
  run (pbind p f) d = let! (d', a) := run p d in run (f a) d'.
Proof.
  revert d. induction p as [a| |R c k IH]; intros d; cbn [pbind run]; try reflexivity.
  destruct (act_step c d) as [[d' r]|]; cbn [obind]; [apply IH|reflexivity].
Qed.

Lemma run_do {R} (c : act R) d : run (do c) d = act_step c d.
Proof. cbn. destruct (act_step c d) as [[d' r]|]; reflexivity. Qed.

(** ** Sorted association lists *)
Definition lt_key {V} (x y : N * V) : Prop := fst x < fst y.
Definition ordered {V} (m : list (N * V)) : Prop := StronglySorted lt_key m.

Lemma find_in {V} (m : list (N * V)) a v : map_find m a = Some v -> In (a, v) m.
Proof.
  induction m as [|[k w] m IH]; cbn; [discriminate|].
  destruct (N.eqb_spec k a); intros E; [left; congruence|right; auto].
Qed.

Lemma in_find {V} (m : list (N * V)) a v : ordered m -> In (a, v) m -> map_find m a = Some v.
Proof.
  induction m as [|[k w] m IH]; cbn; [tauto|]. intros O [E|I].
  - injection E as -> ->. now rewrite N.eqb_refl.
  - inversion O as [|x y O' F]; subst. rewrite Forall_forall in F.
    specialize (F _ I). unfold lt_key in F; cbn in F.
    destruct (N.eqb_spec k a); [lia|auto].
Qed.

Lemma find_lt {V} (m : list (N * V)) k a :
  Forall (fun x => k < fst x) m -> a <= k -> map_find m a = None.
Proof.
  induction m as [|[j w] m IH]; cbn; [reflexivity|]. intros F L.
  inversion F; subst. cbn in *. destruct (N.eqb_spec j a); [lia|auto].
Qed.

Lemma ordered_tail {V} (m : list (N * V)) k w :
  ordered ((k, w) :: m) -> ordered m /\ Forall (fun x => k < fst x) m.
Proof. intros O. inversion O; subst. auto. Qed.

Lemma next_some {V} (m : list (N * V)) a k :
  ordered m -> map_next m a = Some k ->
  a < k /\ map_find m k <> None /\ forall j, a < j -> j < k -> map_find m j = None.
Proof.
  induction m as [|[j w] m IH]; cbn; [discriminate|]. intros O.
  destruct (ordered_tail _ _ _ O) as [O' F].
  destruct (N.ltb_spec a j); intros E.
  - injection E as ->. rewrite N.eqb_refl. repeat split; [assumption|discriminate|].
    intros i L1 L2. destruct (N.eqb_spec k i); [lia|]. apply find_lt with k; [assumption|lia].
  - destruct (IH O' E) as (L & P & Q). split; [assumption|].
    destruct (N.eqb_spec j k); [lia|]. split; [assumption|].
    intros i L1 L2. destruct (N.eqb_spec j i); [lia|]. auto.
Qed.

Lemma next_none {V} (m : list (N * V)) a :
  ordered m -> map_next m a = None -> forall j, a < j -> map_find m j = None.
Proof.
  induction m as [|[k w] m IH]; cbn; [reflexivity|]. intros O.
  destruct (ordered_tail _ _ _ O) as [O' F].
  destruct (N.ltb_spec a k); intros E; [discriminate|].
  intros j L. destruct (N.eqb_spec k j); [lia|]. auto.
Qed.

Lemma find_assign {V} (m : list (N * V)) a v j :
  map_find (map_assign m a v) j =
  if a =? j then match map_find m a with Some _ => Some v | None => None end
  else map_find m j.
Proof.
  induction m as [|[k w] m IH]; cbn.
  - now destruct (a =? j).
  - destruct (N.eqb_spec k a) as [->|]; cbn.
    + destruct (N.eqb_spec a j); reflexivity.
    + rewrite IH. destruct (N.eqb_spec k j); destruct (N.eqb_spec a j); try reflexivity. lia.
Qed.

Lemma keys_assign {V} (m : list (N * V)) a v : map fst (map_assign m a v) = map fst m.
Proof.
  induction m as [|[k w] m IH]; cbn; [reflexivity|].
  destruct (k =? a); cbn; congruence.
Qed.

Lemma next_keys {V W} (m : list (N * V)) (m' : list (N * W)) a :
  map fst m = map fst m' -> map_next m a = map_next m' a.
Proof.
  revert m'. induction m as [|[k w] m IH]; intros [|[k' w'] m']; cbn; try discriminate; [reflexivity|].
  intros E. injection E as -> E. now rewrite (IH _ E).
Qed.

Lemma ordered_keys {V} (m : list (N * V)) : ordered m <-> StronglySorted N.lt (map fst m).
Proof.
  unfold ordered. induction m as [|[k w] m IH]; cbn.
  - split; constructor.
  - split; intros O; inversion O as [|x y O' F]; subst; constructor; try now apply IH.
    + rewrite Forall_map. exact F.
    + rewrite Forall_map in F. exact F.
Qed.

Lemma ordered_assign {V} (m : list (N * V)) a v : ordered m -> ordered (map_assign m a v).
Proof. rewrite !ordered_keys, keys_assign. auto. Qed.

Lemma insert_spec {V} (m : list (N * V)) a v : ordered m ->
  let '(m', b) := map_insert m a v in
  match map_find m a with
  | Some _ => m' = m /\ b = false
  | None => b = true /\ ordered m' /\
            (forall j, map_find m' j = if a =? j then Some v else map_find m j) /\
            (forall x, In x m' -> x = (a, v) \/ In x m)
  end.
Proof.
  induction m as [|[k w] m IH]; intros O; cbn -[map_find].
  - cbn. split; [reflexivity|]. split; [repeat constructor|]. split; [reflexivity|].
    intros x [<-|[]]. now left.
  - destruct (ordered_tail _ _ _ O) as [O' F].
    destruct (N.ltb_spec a k) as [L|L].
    + assert (E : map_find ((k, w) :: m) a = None).
      { cbn. destruct (N.eqb_spec k a); [lia|]. apply find_lt with k; [assumption|lia]. }
      rewrite E. split; [reflexivity|]. split; [|split; [reflexivity|]].
      * constructor; [assumption|]. constructor; [assumption|].
        eapply Forall_impl; [|exact F]. intros [j u] Lj. unfold lt_key. cbn in *. lia.
      * intros x [<-|I]; [now left|right; exact I].
    + destruct (N.eqb_spec a k) as [->|Ne].
      * cbn [map_find]. rewrite N.eqb_refl. auto.
      * specialize (IH O'). destruct (map_insert m a v) as [m'' b].
        cbn [map_find]. destruct (N.eqb_spec k a); [lia|].
        destruct (map_find m a) eqn:E.
        -- destruct IH as [-> ->]. auto.
        -- destruct IH as (-> & Om & Fd & Inn). split; [reflexivity|]. split; [|split].
           ++ constructor; [assumption|]. rewrite Forall_forall. intros x I.
              destruct (Inn x I) as [->|I']; [unfold lt_key; cbn; lia|].
              rewrite Forall_forall in F. apply (F x I').
           ++ intros j. cbn [map_find]. rewrite Fd.
              destruct (N.eqb_spec k j); destruct (N.eqb_spec a j); try reflexivity. lia.
           ++ intros x [<-|I]; [right; now left|]. destruct (Inn x I); [auto|right; now right].
Qed.

(** ** Databases *)
Lemma table_set_same d t m : table (set_table d t m) t = m.
Proof. now destruct t. Qed.

Lemma table_set_other d t m t' : t' <> t -> table (set_table d t m) t' = table d t'.
Proof. destruct t, t'; intros E; congruence || reflexivity. Qed.

Lemma tid_dec (t t' : tid) : {t = t'} + {t <> t'}.
Proof. decide equality. Qed.

(** Every table is in key order and holds only 16-bit addresses and values. *)
Definition wf_map (t : tid) (m : map_of t) : Prop :=
  ordered m /\ forall a v, In (a, v) m -> u16 a /\ typed_val t v.

Definition wf (d : db) : Prop := forall t, wf_map t (table d t).

Lemma wf_empty : wf db_empty.
Proof. intros t. split; [destruct t; constructor|destruct t; cbn; tauto]. Qed.

(** What the tables hold. *)
Definition contents (d : db) : tables := fun t a => map_find (table d t) a.

Lemma contents_typed d t a v : wf d -> contents d t a = Some v -> u16 a /\ typed_val t v.
Proof. intros W E. apply find_in in E. destruct (W t) as [_ K]. eauto. Qed.

Lemma contents_u16 d t a : wf d -> contents d t a <> None -> a < 65536.
Proof.
  intros W E. destruct (contents d t a) eqn:F; [|congruence].
  now destruct (contents_typed _ _ _ _ W F).
Qed.

Lemma contents_empty : unchanged no_values (contents db_empty).
Proof. intros t a. now destruct t. Qed.

Lemma wf_set_table d t m : wf d -> wf_map t m -> wf (set_table d t m).
Proof.
  intros W M t'. destruct (tid_dec t' t) as [->|Ne].
  - now rewrite table_set_same.
  - rewrite table_set_other by assumption. apply W.
Qed.

Lemma assign_in {V} (m : list (N * V)) a v x :
  In x (map_assign m a v) -> In x m \/ x = (a, v).
Proof.
  induction m as [|[k w] m IH]; cbn; [tauto|].
  destruct (N.eqb_spec k a) as [->|]; cbn; intros [E|I]; auto.
  destruct (IH I); auto.
Qed.

Lemma wf_assign t m a v : wf_map t m -> u16 a -> typed_val t v -> wf_map t (map_assign m a v).
Proof.
  intros [O K] Ha Hv. split; [now apply ordered_assign|].
  intros b w I. destruct (assign_in _ _ _ _ I) as [I'|E]; [eauto|].
  injection E as -> ->. auto.
Qed.

(** Assigning changes one address of one table. *)
Lemma assign_writes d t a v : contents d t a <> None ->
  only_writes (contents d) t a [v] (contents (set_table d t (map_assign (table d t) a v))).
Proof.
  intros P. split.
  - split.
    + intros [|[|i]] w E; cbn in E; try discriminate. injection E as <-.
      unfold contents. rewrite table_set_same, find_assign.
      replace (a + N.of_nat 0) with a by lia. rewrite N.eqb_refl.
      unfold contents in P. destruct (map_find (table d t) a); [reflexivity|congruence].
    + intros b L. unfold contents. rewrite table_set_same, find_assign.
      change (size [v]) with 1 in L. destruct (N.eqb_spec a b); [lia|reflexivity].
  - intros t' Ne b. unfold contents. now rewrite table_set_other.
Qed.

(** ** The operations of a table *)
Section Ops.
  Context (d : db) (W : wf d).

  Lemma find_present t a : contents d t a <> None -> act_step (AFind t a) d = Ret (d, Some a).
  Proof. unfold contents; cbn. destruct (map_find (table d t) a); [reflexivity|congruence]. Qed.

  Lemma find_absent t a : contents d t a = None -> act_step (AFind t a) d = Ret (d, None).
  Proof. unfold contents; cbn. destruct (map_find (table d t) a); [discriminate|reflexivity]. Qed.

  Lemma next_present t a : contents d t a <> None ->
    act_step (ANext t (Some a)) d = Ret (d, map_next (table d t) a).
  Proof. unfold contents; cbn. destruct (map_find (table d t) a); [reflexivity|congruence]. Qed.

  Lemma first_present t a : contents d t a <> None -> act_step (AFirst t (Some a)) d = Ret (d, a).
  Proof. unfold contents; cbn. destruct (map_find (table d t) a); [reflexivity|congruence]. Qed.

  Lemma add_value_spec t a v : u16 a -> typed_val t v ->
    exists d' b, run (add_value t a v) d = Ret (d', b) /\ wf d' /\
      ((contents d t a = None /\ only_writes (contents d) t a [v] (contents d') /\ b = true)
       \/ (contents d t a <> None /\ d' = d /\ b = false)).
  Proof.
    intros Ha Hv. unfold add_value. rewrite run_do. cbn.
    destruct (W t) as [O K]. pose proof (insert_spec (table d t) a v O) as S.
    destruct (map_insert (table d t) a v) as [m b].
    change (map_find (table d t) a) with (contents d t a) in S.
    destruct (contents d t a) eqn:E.
    - destruct S as [-> ->]. eexists _, _. split; [reflexivity|].
      assert (Q : set_table d t (table d t) = d) by (destruct d, t; reflexivity).
      rewrite Q. split; [exact W|right]. repeat split; auto; congruence.
    - destruct S as (-> & Om & F & Inn). eexists _, _. split; [reflexivity|].
      split.
      { apply wf_set_table; [exact W|]. split; [exact Om|]. intros b w I.
        destruct (Inn _ I) as [Eq|I']; [injection Eq as -> ->; auto|eauto]. }
      left. split; [reflexivity|]. split; [|reflexivity]. split.
      + split.
        * intros [|[|i]] w Eq; cbn in Eq; try discriminate. injection Eq as <-.
          unfold contents. rewrite table_set_same, F.
          replace (a + N.of_nat 0) with a by lia. now rewrite N.eqb_refl.
        * intros b L. change (size [v]) with 1 in L. unfold contents.
          rewrite table_set_same, F. destruct (N.eqb_spec a b); [lia|reflexivity].
      + intros t' Ne b. unfold contents. now rewrite table_set_other.
  Qed.

  Lemma set_value_spec t a v : u16 a -> typed_val t v ->
    exists d' b, run (set_value t a v) d = Ret (d', b) /\ wf d' /\
      ((contents d t a <> None /\ only_writes (contents d) t a [v] (contents d') /\ b = true)
       \/ (contents d t a = None /\ d' = d /\ b = false)).
  Proof.
    intros Ha Hv. unfold set_value. rewrite run_bind, run_do.
    destruct (contents d t a) as [w|] eqn:E.
    - assert (P : contents d t a <> None) by congruence.
      rewrite (find_present _ _ P). cbn [obind not_end]. rewrite run_bind, run_do. cbn [act_step].
      unfold contents in E. rewrite E. cbn [obind run].
      eexists _, _. split; [reflexivity|]. split.
      { apply wf_set_table; [exact W|]. apply wf_assign; auto. }
      left. split; [congruence|]. split; [|reflexivity]. now apply assign_writes.
    - rewrite (find_absent _ _ E). cbn. eexists _, _. split; [reflexivity|]. auto.
  Qed.

  Lemma get_value_spec t a out :
    run (get_value t a out) d =
    Ret (d, match contents d t a with Some v => (true, v) | None => (false, out) end).
  Proof.
    unfold get_value. rewrite run_bind, run_do. destruct (contents d t a) as [w|] eqn:E.
    - assert (P : contents d t a <> None) by congruence.
      rewrite (find_present _ _ P). cbn [obind not_end]. rewrite run_bind, run_do.
      unfold contents in E. cbn [act_step]. rewrite E. reflexivity.
    - rewrite (find_absent _ _ E). reflexivity.
  Qed.

  Lemma is_valid_spec t a :
    exists b, run (is_valid t a) d = Ret (d, b) /\ (b = true <-> contents d t a <> None).
  Proof.
    unfold is_valid. rewrite run_bind, run_do. destruct (contents d t a) as [w|] eqn:E.
    - assert (P : contents d t a <> None) by congruence.
      rewrite (find_present _ _ P). exists true. split; [reflexivity|]. split; congruence.
    - rewrite (find_absent _ _ E). exists false. split; [reflexivity|]. split; congruence.
  Qed.

  Lemma length_so_far_eq s c : s <= c -> c < 65536 -> length_so_far s c = c - s + 1.
  Proof.
    intros L H. unfold length_so_far. rewrite Z.mod_small.
    - lia.
    - split; [lia|]. apply Z.lt_trans with 70000%Z; [lia|reflexivity].
  Qed.

  Lemma range_loop_spec t s n : forall fuel c,
    contents d t c <> None -> s <= c -> (forall j, s <= j -> j <= c -> contents d t j <> None) ->
    c - s + 1 <= N.max 1 n ->
    (N.to_nat (n - (c - s + 1)) < fuel)%nat ->
    exists r, run (range_loop fuel t s n c (map_next (table d t) c)) d = Ret (d, r) /\
      match r with
      | None => exists j, s <= j < s + n /\ contents d t j = None
      | Some c' => s <= c' /\ c' < 65536 /\ c' - s + 1 <= N.max 1 n /\
          (forall j, s <= j -> j <= c' -> contents d t j <> None) /\
          (n <= c' - s + 1 \/ contents d t (c' + 1) = None)
      end.
  Proof.
    induction fuel as [|fuel IH]; intros c P L A M F; [lia|].
    pose proof (contents_u16 _ _ _ W P) as U.
    destruct (W t) as [O K].
    cbn [range_loop]. rewrite (length_so_far_eq _ _ L U).
    destruct (N.ltb_spec (c - s + 1) n) as [Lt|Ge]; cbn [andb].
    2:{ exists (Some c). split; [reflexivity|]. repeat split; auto. }
    destruct (map_next (table d t) c) as [k|] eqn:E; cbn [not_end].
    2:{ exists (Some c). split; [reflexivity|]. repeat split; auto. right.
        apply (next_none _ _ O E). lia. }
    destruct (next_some _ _ _ O E) as (Lk & Pk & Gap).
    rewrite run_bind, run_do, (first_present _ _ Pk). cbn [obind].
    destruct (N.eqb_spec k (c + 1)) as [->|Ne]; cbn [negb].
    - rewrite run_bind, run_do, (next_present _ _ Pk). cbn [obind].
      apply IH; auto; try lia.
      intros j L1 L2. destruct (N.eq_dec j (c + 1)) as [->|]; [exact Pk|]. apply A; lia.
    - exists None. split; [reflexivity|]. exists (c + 1). split; [lia|]. apply Gap; lia.
  Qed.

  Lemma is_valid_range_spec t s n :
    exists b, run (is_valid_range t s n) d = Ret (d, b) /\ (b = true <-> covered (contents d t) s n).
  Proof.
    unfold is_valid_range. rewrite run_bind, run_do. destruct (contents d t s) as [w|] eqn:E.
    2:{ rewrite (find_absent _ _ E). exists false. split; [reflexivity|]. split; [discriminate|].
        intros (L & _ & A). specialize (A 0 ltac:(lia)). now rewrite N.add_0_r in A. }
    assert (P : contents d t s <> None) by congruence.
    rewrite (find_present _ _ P). cbn [obind not_end].
    rewrite run_bind, run_do, (next_present _ _ P). cbn [obind].
    rewrite run_bind.
    destruct (range_loop_spec t s n (S (N.to_nat n)) s P (N.le_refl _)) as (r & R & Q); try lia.
    { intros j L1 L2. now replace j with s by lia. }
    rewrite R. cbn [obind]. destruct r as [c|]; cbn [run].
    - destruct Q as (L & U & M & A & Z). eexists. split; [reflexivity|].
      rewrite (length_so_far_eq _ _ L U), N.eqb_eq. split.
      + intros <-. split; [lia|]. split; [lia|]. intros i Li. apply A; lia.
      + intros (L1 & L2 & C). destruct Z as [Z|Z]; [lia|].
        destruct (N.lt_ge_cases (c - s + 1) n) as [Lt|]; [|lia].
        exfalso. apply (C (c - s + 1) Lt). now replace (s + (c - s + 1)) with (c + 1) by lia.
    - exists false. split; [reflexivity|]. split; [discriminate|].
      intros (L1 & L2 & C). destruct Q as (j & Lj & Nj). exfalso. apply (C (j - s)); [lia|].
      now replace (s + (j - s)) with j by lia.
  Qed.

  Lemma get_loop_spec t : forall out s,
    (forall i, i < size out -> contents d t (s + i) <> None) ->
    exists vs, run (get_loop t (match out with [] => None | _ => Some s end) out) d = Ret (d, vs) /\
      size vs = size out /\ values_at (contents d t) s vs.
  Proof.
    induction out as [|o out IH]; intros s C; cbn [get_loop].
    - exists []. split; [reflexivity|]. split; [reflexivity|]. intros [|i] v; discriminate.
    - assert (Sz : size (o :: out) = size out + 1) by (unfold size; cbn [List.length]; lia).
      assert (P : contents d t s <> None) by (rewrite <- (N.add_0_r s); apply C; lia).
      destruct (contents d t s) as [w|] eqn:E; [|congruence].
      rewrite run_bind, run_do. cbn [act_step]. unfold contents in E. rewrite E. cbn [obind].
      rewrite run_bind, run_do. cbn [act_step]. rewrite E. cbn [obind]. rewrite run_bind.
      destruct (IH (s + 1)) as (vs & R & Z & V).
      { intros i Li. replace (s + 1 + i) with (s + (i + 1)) by lia. apply C. lia. }
      assert (Nx : run (get_loop t (map_next (table d t) s) out) d =
                   run (get_loop t (match out with [] => None | _ => Some (s + 1) end) out) d).
      { destruct out as [|o' out']; [reflexivity|]. f_equal. f_equal.
        assert (P1 : contents d t (s + 1) <> None).
        { apply C. rewrite Sz. unfold size. cbn [List.length]. lia. }
        destruct (W t) as [O K].
        destruct (map_next (table d t) s) as [k|] eqn:Ek.
        - destruct (next_some _ _ _ O Ek) as (Lk & Pk & Gap).
          destruct (N.eq_dec k (s + 1)) as [->|Ne]; [reflexivity|].
          exfalso. apply P1. apply Gap; lia.
        - exfalso. apply P1. apply (next_none _ _ O Ek). lia. }
      rewrite Nx, R. cbn [obind run]. exists (w :: vs). split; [reflexivity|].
      split; [unfold size in *; cbn [List.length]; lia|].
      intros [|i] v Ei; cbn in Ei.
      + injection Ei as <-. unfold contents. replace (s + N.of_nat 0) with s by lia. exact E.
      + specialize (V i v Ei). now replace (s + N.of_nat (S i)) with (s + 1 + N.of_nat i) by lia.
  Qed.

  Lemma get_values_spec t s out :
    exists b vs, run (get_values t s out) d = Ret (d, (b, vs)) /\
      ((covered (contents d t) s (size out) /\ b = true /\
        size vs = size out /\ values_at (contents d t) s vs)
       \/ (~ covered (contents d t) s (size out) /\ b = false /\ vs = out)).
  Proof.
    unfold get_values. rewrite run_bind.
    destruct (is_valid_range_spec t s (size out)) as (b & R & B). rewrite R. cbn [obind].
    destruct b; cbn [negb].
    - assert (C : covered (contents d t) s (size out)) by now apply B.
      destruct C as (L1 & L2 & A).
      rewrite run_bind, run_do, (find_present t s).
      2:{ rewrite <- (N.add_0_r s). apply A. lia. }
      cbn [obind]. rewrite run_bind.
      destruct (get_loop_spec t out s A) as (vs & R' & Z & V).
      destruct out as [|o out]; [unfold size in L1; cbn [List.length] in L1; lia|].
      rewrite R'. cbn [obind run]. exists true, vs. split; [reflexivity|]. left.
      repeat split; auto.
    - exists false, out. split; [reflexivity|]. right.
      split; [|auto]. intros C. apply B in C. discriminate.
  Qed.
End Ops.

(** Writing a run of existing addresses. *)
Lemma set_loop_spec t : forall vs d s,
  wf d -> Forall (typed_val t) vs ->
  (forall i, i < size vs -> contents d t (s + i) <> None) ->
  exists d', run (set_loop t (match vs with [] => None | _ => Some s end) vs) d = Ret (d', tt) /\
    wf d' /\ only_writes (contents d) t s vs (contents d').
Proof.
  induction vs as [|v vs IH]; intros d s W T C; cbn [set_loop].
  - exists d. split; [reflexivity|]. split; [exact W|]. split; [split|].
    + intros [|i] w; discriminate.
    + reflexivity.
    + intros t' _ a. reflexivity.
  - assert (Sz : size (v :: vs) = size vs + 1) by (unfold size; cbn [List.length]; lia).
    inversion T as [|x y Tv Tvs]; subst.
    assert (P : contents d t s <> None) by (rewrite <- (N.add_0_r s); apply C; lia).
    pose proof (contents_u16 _ _ _ W P) as U.
    set (d1 := set_table d t (map_assign (table d t) s v)).
    assert (W1 : wf d1).
    { apply wf_set_table; [exact W|]. apply wf_assign; auto. }
    destruct (assign_writes d t s v P) as [[U1 U2] U3]. fold d1 in U1, U2, U3.
    assert (C1 : forall a, contents d1 t a <> None <-> contents d t a <> None).
    { intros a. destruct (N.eq_dec a s) as [->|Ne].
      - specialize (U1 O v eq_refl). replace (s + N.of_nat 0) with s in U1 by lia.
        rewrite U1. split; congruence.
      - rewrite U2; [tauto|]. change (size [v]) with 1. lia. }
    rewrite run_bind, run_do. cbn [act_step].
    destruct (map_find (table d t) s) eqn:E; [|unfold contents in P; congruence]. cbn [obind].
    fold d1. rewrite run_bind, run_do, (next_present d1) by now apply C1. cbn [obind].
    destruct (IH d1 (s + 1) W1 Tvs) as (d' & R & W' & [[V1 V2] V3]).
    { intros i Li. apply C1. replace (s + 1 + i) with (s + (i + 1)) by lia. apply C. lia. }
    assert (Nx : run (set_loop t (map_next (table d1 t) s) vs) d1 =
                 run (set_loop t (match vs with [] => None | _ => Some (s + 1) end) vs) d1).
    { destruct vs as [|v' vs']; [reflexivity|]. f_equal. f_equal.
      assert (P1 : contents d1 t (s + 1) <> None).
      { apply C1. apply C. rewrite Sz. unfold size. cbn [List.length]. lia. }
      destruct (W1 t) as [O K].
      destruct (map_next (table d1 t) s) as [k|] eqn:Ek.
      - destruct (next_some _ _ _ O Ek) as (Lk & Pk & Gap).
        destruct (N.eq_dec k (s + 1)) as [->|Ne]; [reflexivity|].
        exfalso. apply P1. apply Gap; lia.
      - exfalso. apply P1. apply (next_none _ _ O Ek). lia. }
    rewrite Nx, R. exists d'. split; [reflexivity|]. split; [exact W'|]. split; [split|].
    + intros [|i] w Ei; cbn in Ei.
      * injection Ei as <-. replace (s + N.of_nat 0) with s by lia.
        rewrite V2 by lia. specialize (U1 O v eq_refl).
        now replace (s + N.of_nat 0) with s in U1 by lia.
      * replace (s + N.of_nat (S i)) with (s + 1 + N.of_nat i) by lia. now apply V1.
    + intros a L. rewrite Sz in L. rewrite V2 by lia. apply U2. change (size [v]) with 1. lia.
    + intros t' Ne a. rewrite V3 by assumption. now apply U3.
Qed.

Lemma set_values_spec d t s vs : wf d -> Forall (typed_val t) vs ->
  exists d' b, run (set_values t s vs) d = Ret (d', b) /\ wf d' /\
    ((covered (contents d t) s (size vs) /\ only_writes (contents d) t s vs (contents d') /\ b = true)
     \/ (~ covered (contents d t) s (size vs) /\ d' = d /\ b = false)).
Proof.
  intros W T. unfold set_values. rewrite run_bind.
  destruct (is_valid_range_spec d W t s (size vs)) as (b & R & B). rewrite R. cbn [obind].
  destruct b; cbn [negb].
  - assert (C : covered (contents d t) s (size vs)) by now apply B.
    destruct C as (L1 & L2 & A).
    rewrite run_bind, run_do, (find_present d t s).
    2:{ rewrite <- (N.add_0_r s). apply A. lia. }
    cbn [obind]. rewrite run_bind.
    destruct (set_loop_spec t vs d s W T A) as (d' & R' & W' & O).
    destruct vs as [|v vs]; [unfold size in L1; cbn [List.length] in L1; lia|].
    rewrite R'. cbn [obind run]. exists d', true. split; [reflexivity|]. split; [exact W'|].
    left. repeat split; auto; apply O.
  - exists d, false. split; [reflexivity|]. split; [exact W|]. right.
    split; [|auto]. intros C. apply B in C. discriminate.
Qed.
