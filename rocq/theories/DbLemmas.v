(** The database against its specification. *)
From Verif Require Import Prelude Messages SpecPdu Tac Database SpecDb DatabaseFacts.

Lemma same_refl {V} (f : vmap V) : same f f.
Proof. intros a. reflexivity. Qed.

Lemma unchanged_refl F : unchanged F F.
Proof. intros t a. reflexivity. Qed.

Lemma size1 {V} (v : V) : size [v] = 1.
Proof. reflexivity. Qed.

Lemma covered_one {V} (f : vmap V) a : covered f a 1 <-> a < 65536 /\ f a <> None.
Proof.
  split.
  - intros (_ & L & C). split; [lia|]. specialize (C 0 ltac:(lia)). now rewrite N.add_0_r in C.
  - intros [L P]. split; [lia|]. split; [lia|]. intros i Li. now replace (a + i) with a by lia.
Qed.

(** ** One table *)
Lemma table_body_spec d t o : wf d -> typed_op t o ->
  exists d' r, run (table_body t o) d = Ret (d', r) /\ wf d' /\
    table_spec (contents d t) o (contents d' t) r /\
    forall t', t' <> t -> same (contents d t') (contents d' t').
Proof.
  intros W T. unfold table_result. destruct o as [a v|a v|s vs|a out|s out|a|s n]; cbn [table_body table_spec typed_op] in *.
  - destruct T as [Ha Hv]. rewrite run_bind.
    destruct (add_value_spec d W t a v Ha Hv) as (d' & b & R & W' & [(E & O & ->)|(E & -> & ->)]);
      rewrite R; cbn [obind run]; eexists _, _; (split; [reflexivity|]); (split; [assumption|]).
    + destruct O as [O1 O2]. split; [left; auto|exact O2].
    + split; [right; auto using same_refl|intros; apply same_refl].
  - destruct T as [Ha Hv]. rewrite run_bind.
    destruct (set_value_spec d W t a v Ha Hv) as (d' & b & R & W' & [(E & O & ->)|(E & -> & ->)]);
      rewrite R; cbn [obind run]; eexists _, _; (split; [reflexivity|]); (split; [assumption|]).
    + destruct O as [O1 O2]. split; [left; auto|exact O2].
    + split; [right; auto using same_refl|intros; apply same_refl].
  - destruct T as [Hs Hv]. rewrite run_bind.
    destruct (set_values_spec d t s vs W Hv) as (d' & b & R & W' & [(E & O & ->)|(E & -> & ->)]);
      rewrite R; cbn [obind run]; eexists _, _; (split; [reflexivity|]); (split; [assumption|]).
    + destruct O as [O1 O2]. split; [left; auto|exact O2].
    + split; [right; auto using same_refl|intros; apply same_refl].
  - rewrite run_bind, get_value_spec. cbn [obind].
    destruct (contents d t a) eqn:E; cbn [run]; eexists _, _; (split; [reflexivity|]);
      (split; [assumption|]); (split; [|intros; apply same_refl]);
      (split; [apply same_refl|reflexivity]).
  - destruct (get_values_spec d W t s out) as (b & vs & R & [(C & -> & Z & V)|(C & -> & ->)]);
      rewrite R; eexists _, _; (split; [reflexivity|]); (split; [assumption|]);
      (split; [|intros; apply same_refl]); (split; [apply same_refl|]).
    + left. split; [assumption|]. now exists vs.
    + right. auto.
  - rewrite run_bind. destruct (is_valid_spec d t a) as (b & R & B). rewrite R. cbn [obind run].
    eexists _, _; (split; [reflexivity|]); (split; [assumption|]);
      (split; [|intros; apply same_refl]); (split; [apply same_refl|]). now exists b.
  - rewrite run_bind. destruct (is_valid_range_spec d W t s n) as (b & R & B). rewrite R. cbn [obind run].
    eexists _, _; (split; [reflexivity|]); (split; [assumption|]);
      (split; [|intros; apply same_refl]); (split; [apply same_refl|]). now exists b.
Qed.

Lemma table_spec_ext {V} (f g : vmap V) o f' r :
  same f g -> table_spec f o f' r -> table_spec g o f' r.
Proof.
  intros S.
  assert (Cv : forall s n, covered f s n <-> covered g s n).
  { intros s n. unfold covered. split; intros (A & B & C); (split; [|split]); auto; intros i Li.
    - rewrite S; auto. - rewrite <- S; auto. }
  assert (Up : forall s vs, updated f s vs f' -> updated g s vs f').
  { intros s vs [A B]. split; [exact A|]. intros a L. rewrite S. auto. }
  assert (Sm : same f f' -> same g f') by (intros A a; rewrite S; apply A).
  assert (Va : forall s vs, values_at f s vs -> values_at g s vs).
  { intros s vs A i v E. rewrite S. auto. }
  destruct o as [a v|a v|s vs|a out|s out|a|s n]; cbn [table_spec].
  - rewrite S. intros [(A & B & C)|(A & B & C)]; [left|right]; auto.
  - rewrite S. intros [(A & B & C)|(A & B & C)]; [left|right]; auto.
  - rewrite <- !Cv. intros [(A & B & C)|(A & B & C)]; [left|right]; auto.
  - rewrite S. intros [A B]. auto.
  - rewrite <- !Cv. intros [Q [(A & vs & B & C & D)|(A & B)]]; (split; [auto|]); [left|right]; auto.
    split; [exact A|]. exists vs. auto.
  - rewrite S. intros [A B]. auto.
  - intros [A (b & B & D)]. split; [auto|]. exists b. now rewrite <- Cv.
Qed.

Lemma table_history_ext {V} (f g : vmap V) os rs f' :
  same f g -> table_history f os rs f' -> table_history g os rs f'.
Proof.
  intros S H. destruct H as [f f' E|f o r f1 os rs f2 Hs Hh].
  - constructor. intros a. rewrite S. apply E.
  - econstructor; [|exact Hh]. now apply table_spec_ext with f.
Qed.

Lemma run_table_spec t os : forall d, wf d -> Forall (typed_op t) os ->
  exists d' rs, run_table t os d = Ret (d', rs) /\ wf d' /\
    table_history (contents d t) os rs (contents d' t) /\
    forall t', t' <> t -> same (contents d t') (contents d' t').
Proof.
  induction os as [|o os IH]; intros d W T; cbn [run_table].
  - exists d, []. split; [reflexivity|]. split; [exact W|]. split; [|intros; apply same_refl].
    constructor. apply same_refl.
  - inversion T as [|x y To Tos]; subst.
    destruct (table_body_spec d t o W To) as (d1 & r & R & W1 & S & Fr). rewrite R. cbn [obind].
    destruct (IH d1 W1 Tos) as (d2 & rs & R2 & W2 & H & Fr2). rewrite R2. cbn [obind].
    eexists _, _. split; [reflexivity|]. split; [exact W2|]. split.
    + econstructor; eauto.
    + intros t' Ne a. rewrite Fr2 by assumption. now apply Fr.
Qed.

Lemma table_refines t os : Forall (typed_op t) os ->
  exists d rs f, run_table t os db_empty = Ret (d, rs) /\
    table_history empty_map os rs f /\ same f (contents d t) /\
    forall t', t' <> t -> same empty_map (contents d t').
Proof.
  intros T. destruct (run_table_spec t os db_empty wf_empty T) as (d & rs & R & W & H & Fr).
  exists d, rs, (contents d t). split; [exact R|]. split; [|split; [apply same_refl|]].
  - eapply table_history_ext; [|exact H]. intros a. now destruct t.
  - intros t' Ne a. rewrite Fr by assumption. now destruct t'.
Qed.

(** ** The four tables *)
Lemma on_read_spec d t zero s q mk : wf d ->
  exists x, run (on_read t zero s q mk) d = Ret (d, x) /\
    read_spec (contents d) t s q mk (contents d) x.
Proof.
  intros W. unfold on_read. rewrite run_bind.
  assert (Sz : size (repeat zero (N.to_nat q)) = q) by (unfold size; rewrite repeat_length; lia).
  destruct (get_values_spec d W t s (repeat zero (N.to_nat q)))
    as (b & vs & R & [(C & -> & Z & V)|(C & -> & _)]); rewrite R; cbn [obind negb run];
    eexists; (split; [reflexivity|]); (split; [apply unchanged_refl|]); rewrite Sz in *.
  - left. split; [exact C|].
    assert (Nb : forall (vs : list (val t)) j, size (number_from s j vs) = size vs /\
      forall i, nth_error (number_from s j vs) i =
        match nth_error vs i with Some v => Some (to_u16 (s + (j + N.of_nat i)), v) | None => None end).
    { clear. induction vs as [|v vs IH]; intros j; cbn [number_from].
      - split; [reflexivity|]. now intros [|i].
      - destruct (IH (j + 1)) as [A B]. split; [unfold size in *; cbn [List.length]; lia|].
        intros [|i]; cbn [nth_error].
        + now replace (j + N.of_nat 0) with j by lia.
        + rewrite B. destruct (nth_error vs i); [|reflexivity].
          now replace (j + 1 + N.of_nat i) with (j + N.of_nat (S i)) by lia. }
    destruct (Nb vs 0) as [A B].
    exists (number_from s 0 vs). split; [congruence|]. split; [|reflexivity].
    intros i a v Ei. rewrite B in Ei. destruct (nth_error vs i) as [w|] eqn:Ew; [|discriminate].
    injection Ei as <- <-. rewrite N.add_0_l.
    specialize (V i w Ew).
    assert (U : s + N.of_nat i < 65536) by (apply (contents_u16 d t); [assumption|congruence]).
    unfold to_u16. rewrite N.mod_small by assumption. auto.
  - right. auto.
Qed.

Lemma on_write_spec d t a v ok : wf d -> u16 a -> typed_val t v ->
  exists d' x, run (on_write t a v ok) d = Ret (d', x) /\ wf d' /\
    write_spec (contents d) t a [v] ok (contents d') x.
Proof.
  intros W Ha Hv. unfold on_write, write_spec. rewrite run_bind.
  destruct (set_value_spec d W t a v Ha Hv) as (d' & b & R & W' & [(E & O & ->)|(E & -> & ->)]);
    rewrite R; cbn [obind negb run]; eexists _, _; (split; [reflexivity|]); (split; [assumption|]);
    rewrite size1, covered_one.
  - left. auto.
  - right. split; [tauto|]. split; [apply unchanged_refl|reflexivity].
Qed.

Lemma on_write_many_spec d t s vs mk : wf d -> Forall (typed_val t) vs -> size vs < 65536 ->
  exists d' x, run (on_write_many t s vs mk) d = Ret (d', x) /\ wf d' /\
    write_spec (contents d) t s vs (mk s (size vs)) (contents d') x.
Proof.
  intros W Hv L. unfold on_write_many, write_spec. rewrite run_bind.
  destruct (set_values_spec d t s vs W Hv) as (d' & b & R & W' & [(E & O & ->)|(E & -> & ->)]);
    rewrite R; cbn [obind negb run]; eexists _, _; (split; [reflexivity|]); (split; [assumption|]).
  - left. unfold to_u16. rewrite N.mod_small by assumption. auto.
  - right. split; [assumption|]. split; [apply unchanged_refl|reflexivity].
Qed.

Lemma all_bools vs : Forall (typed_val Coils) vs.
Proof. apply Forall_forall. intros; exact I. Qed.

Lemma on_request_spec d r : wf d -> typed_call (CRequest r) ->
  exists d' x, run (on_request r) d = Ret (d', x) /\ wf d' /\
    request_spec (contents d) r (contents d') x.
Proof.
  intros W [T L]. destruct r as [s q|s q|s q|s q|a v|a v|s vs|s vs];
    cbn [on_request request_spec typed_request] in *.
  - destruct (on_read_spec d Coils false s q CoilsRead W) as (x & R & S). exists d, x. auto.
  - destruct (on_read_spec d Discretes false s q DiscreteInputsRead W) as (x & R & S). exists d, x. auto.
  - destruct (on_read_spec d Holdings 0 s q HoldingRegistersRead W) as (x & R & S). exists d, x. auto.
  - destruct (on_read_spec d Inputs 0 s q InputRegistersRead W) as (x & R & S). exists d, x. auto.
  - now apply on_write_spec.
  - destruct T. now apply on_write_spec.
  - apply on_write_many_spec; auto using all_bools.
  - destruct T. now apply on_write_many_spec.
Qed.

Lemma transaction_spec_ext x : forall F G F' l,
  unchanged F G -> transaction_spec F x F' l -> transaction_spec G x F' l.
Proof.
  intros F G F' l U H. revert G U. induction H; intros G U.
  - constructor. intros t a. rewrite U. apply H.
  - eapply TS_get; [rewrite U; eassumption|]. now apply IHtransaction_spec.
  - eapply TS_get_none; [rewrite U; eassumption|]. now apply IHtransaction_spec.
  - eapply TS_set; [rewrite U; eassumption| |exact H1].
    destruct H0 as [[A B] C]. split; [split; [exact A|]|].
    + intros b L. rewrite U. now apply B.
    + intros t' Ne b. rewrite U. now apply C.
  - eapply TS_set_none; [rewrite U; eassumption|]. now apply IHtransaction_spec.
Qed.

Lemma transaction_body_spec x : forall d, wf d -> typed_transaction x ->
  exists d' l, run (transaction_body x) d = Ret (d', l) /\ wf d' /\
    transaction_spec (contents d) x (contents d') l.
Proof.
  induction x as [l|t a out k IH|t a v k IH]; intros d W T; cbn [transaction_body typed_transaction] in *.
  - exists d, l. split; [reflexivity|]. split; [exact W|]. constructor. apply unchanged_refl.
  - destruct T as (Ha & Ho & Hk). rewrite run_bind, get_value_spec. cbn [obind].
    destruct (contents d t a) as [v|] eqn:E.
    + destruct (contents_typed _ _ _ _ W E) as [_ Hv].
      destruct (IH true v d W (Hk _ _ Hv)) as (d' & l & R & W' & S). rewrite R.
      exists d', l. split; [reflexivity|]. split; [exact W'|]. now apply TS_get with v.
    + destruct (IH false out d W (Hk _ _ Ho)) as (d' & l & R & W' & S). rewrite R.
      exists d', l. split; [reflexivity|]. split; [exact W'|]. now apply TS_get_none.
  - destruct T as (Ha & Hv & Hk). rewrite run_bind.
    destruct (set_value_spec d W t a v Ha Hv) as (d1 & b & R & W1 & [(E & O & ->)|(E & -> & ->)]);
      rewrite R; cbn [obind].
    + destruct (IH true d1 W1 (Hk _)) as (d' & l & R' & W' & S). rewrite R'.
      exists d', l. split; [reflexivity|]. split; [exact W'|]. now apply TS_set with (contents d1).
    + destruct (IH false d W (Hk _)) as (d' & l & R' & W' & S). rewrite R'.
      exists d', l. split; [reflexivity|]. split; [exact W'|]. now apply TS_set_none.
Qed.

Lemma call_body_spec d c : wf d -> typed_call c ->
  exists d' r, run (call_body c) d = Ret (d', r) /\ wf d' /\
    call_spec (contents d) c (contents d') r.
Proof.
  intros W T. destruct c as [t a v|r|x]; cbn [call_body call_spec]; rewrite run_bind.
  - destruct T as [Ha Hv].
    destruct (add_value_spec d W t a v Ha Hv) as (d' & b & R & W' & [(E & O & ->)|(E & -> & ->)]);
      rewrite R; cbn [obind run]; eexists _, _; (split; [reflexivity|]); (split; [assumption|]).
    + left. auto.
    + right. auto using unchanged_refl.
  - destruct (on_request_spec d r W T) as (d' & x & R & W' & S). rewrite R. cbn [obind run].
    eexists _, _. split; [reflexivity|]. split; [exact W'|]. eauto.
  - destruct (transaction_body_spec x d W T) as (d' & l & R & W' & S). rewrite R. cbn [obind run].
    eexists _, _. split; [reflexivity|]. split; [exact W'|]. eauto.
Qed.

Lemma covered_ext {V} (f g : vmap V) s n : same f g -> covered f s n <-> covered g s n.
Proof.
  intros S. unfold covered. split; intros (A & B & C); (split; [|split]); auto; intros i Li.
  - rewrite S; auto. - rewrite <- S; auto.
Qed.

Lemma only_writes_ext F G t s vs F' :
  unchanged F G -> only_writes F t s vs F' -> only_writes G t s vs F'.
Proof.
  intros U [[A B] C]. split; [split; [exact A|]|].
  - intros b L. rewrite U. now apply B.
  - intros t' Ne b. rewrite U. now apply C.
Qed.

Lemma unchanged_sym F G : unchanged F G -> unchanged G F.
Proof. intros U t a. now rewrite U. Qed.

Lemma unchanged_trans F G H : unchanged F G -> unchanged G H -> unchanged F H.
Proof. intros U V t a. now rewrite V, U. Qed.

Lemma request_spec_ext F G r F' x :
  unchanged F G -> request_spec F r F' x -> request_spec G r F' x.
Proof.
  intros U.
  assert (Rd : forall t s q mk, read_spec F t s q mk F' x -> read_spec G t s q mk F' x).
  { intros t s q mk [A B]. split; [eapply unchanged_trans; [apply unchanged_sym, U|exact A]|].
    destruct B as [(C & vs & S & V & ->)|(C & ->)].
    - left. split; [now apply (covered_ext _ _ _ _ (U t))|]. exists vs.
      split; [exact S|]. split; [|reflexivity]. intros i a v E. rewrite U. eauto.
    - right. split; [|reflexivity]. now rewrite <- (covered_ext _ _ _ _ (U t)). }
  assert (Wr : forall t s vs ok, write_spec F t s vs ok F' x -> write_spec G t s vs ok F' x).
  { intros t s vs ok [(C & O & ->)|(C & A & ->)].
    - left. split; [now apply (covered_ext _ _ _ _ (U t))|]. split; [|reflexivity].
      now apply only_writes_ext with F.
    - right. split; [now rewrite <- (covered_ext _ _ _ _ (U t))|]. split; [|reflexivity].
      eapply unchanged_trans; [apply unchanged_sym, U|exact A]. }
  destruct r; cbn [request_spec]; auto.
Qed.

Lemma call_spec_ext F G c F' r : unchanged F G -> call_spec F c F' r -> call_spec G c F' r.
Proof.
  intros U. destruct c as [t a v|q|x]; cbn [call_spec].
  - rewrite U. intros [(A & B & C)|(A & B & C)].
    + left. split; [exact A|]. split; [|exact C]. now apply only_writes_ext with F.
    + right. split; [exact A|]. split; [|exact C].
      eapply unchanged_trans; [apply unchanged_sym, U|exact B].
  - intros (x & S & E). exists x. split; [|exact E]. now apply request_spec_ext with F.
  - intros (l & S & E). exists l. split; [|exact E]. now apply transaction_spec_ext with F.
Qed.

Lemma calls_spec_ext F G cs rs F' :
  unchanged F G -> calls_spec F cs rs F' -> calls_spec G cs rs F'.
Proof.
  intros U H. destruct H as [F F' A|F c r F1 cs rs F2 S H].
  - constructor. eapply unchanged_trans; [apply unchanged_sym, U|exact A].
  - econstructor; [|exact H]. now apply call_spec_ext with F.
Qed.

Lemma run_calls_spec cs : forall d, wf d -> Forall typed_call cs ->
  exists d' rs, run_calls cs d = Ret (d', rs) /\ wf d' /\
    calls_spec (contents d) cs rs (contents d').
Proof.
  induction cs as [|c cs IH]; intros d W T; cbn [run_calls].
  - exists d, []. split; [reflexivity|]. split; [exact W|]. constructor. apply unchanged_refl.
  - inversion T as [|x y Tc Tcs]; subst.
    destruct (call_body_spec d c W Tc) as (d1 & r & R & W1 & S). rewrite R. cbn [obind].
    destruct (IH d1 W1 Tcs) as (d2 & rs & R2 & W2 & H). rewrite R2. cbn [obind].
    eexists _, _. split; [reflexivity|]. split; [exact W2|]. econstructor; eauto.
Qed.

Lemma calls_refine cs : Forall typed_call cs ->
  exists d rs, run_calls cs db_empty = Ret (d, rs) /\ calls_spec no_values cs rs (contents d).
Proof.
  intros T. destruct (run_calls_spec cs db_empty wf_empty T) as (d & rs & R & W & H).
  exists d, rs. split; [exact R|]. eapply calls_spec_ext; [|exact H].
  apply unchanged_sym, contents_empty.
Qed.

(** ** The specification leaves no choice *)
Lemma updated_fun {V} (f g : vmap V) s vs f' g' :
  same f g -> updated f s vs f' -> updated g s vs g' -> same f' g'.
Proof.
  intros S [A B] [A' B'] a.
  destruct (N.lt_ge_cases a s); [rewrite B, B', S; auto|].
  destruct (N.lt_ge_cases a (s + size vs)); [|rewrite B, B', S; auto].
  destruct (nth_error vs (N.to_nat (a - s))) as [v|] eqn:E.
  - specialize (A _ _ E). specialize (A' _ _ E).
    replace (s + N.of_nat (N.to_nat (a - s))) with a in A, A' by lia. congruence.
  - apply nth_error_None in E. unfold size in *. lia.
Qed.

Lemma only_writes_fun F G t s vs F' G' :
  unchanged F G -> only_writes F t s vs F' -> only_writes G t s vs G' -> unchanged F' G'.
Proof.
  intros U [A B] [A' B'] t'. destruct (tid_dec t' t) as [->|Ne].
  - eapply updated_fun; eauto.
  - intros a. rewrite B, B', U; auto.
Qed.

Lemma nth_error_ext {V} : forall l l' : list V,
  (forall i, nth_error l i = nth_error l' i) -> l = l'.
Proof.
  induction l as [|x l IH]; intros [|y l'] H; try reflexivity.
  - specialize (H O). discriminate.
  - specialize (H O). discriminate.
  - f_equal; [specialize (H O); cbn in H; congruence|]. apply IH. intros i. apply (H (S i)).
Qed.

Lemma values_fun {V} (f : vmap V) (vs ws : list V) s :
  size vs = size ws -> values_at f s vs -> values_at f s ws -> vs = ws.
Proof.
  intros L A B. apply nth_error_ext. intros i.
  destruct (nth_error vs i) as [v|] eqn:E; destruct (nth_error ws i) as [w|] eqn:E'.
  - specialize (A _ _ E). specialize (B _ _ E'). congruence.
  - apply nth_error_None in E'. assert (nth_error vs i <> None) by congruence.
    apply nth_error_Some in H. unfold size in L. lia.
  - apply nth_error_None in E. assert (nth_error ws i <> None) by congruence.
    apply nth_error_Some in H. unfold size in L. lia.
  - reflexivity.
Qed.

Lemma request_spec_fun F r F' x G' y :
  request_spec F r F' x -> request_spec F r G' y -> unchanged F' G' /\ x = y.
Proof.
  assert (Rd : forall t s q mk, read_spec F t s q mk F' x -> read_spec F t s q mk G' y ->
                 unchanged F' G' /\ x = y).
  { intros t s q mk [A B] [A' B']. split.
    { eapply unchanged_trans; [apply unchanged_sym, A|exact A']. }
    destruct B as [(C & vs & S & V & ->)|(C & ->)], B' as [(C' & ws & S' & V' & ->)|(C' & ->)];
      try tauto.
    f_equal. f_equal. apply nth_error_ext. intros i.
    destruct (nth_error vs i) as [[a v]|] eqn:E; destruct (nth_error ws i) as [[b w]|] eqn:E'.
    - destruct (V _ _ _ E) as [-> Q]. destruct (V' _ _ _ E') as [-> Q']. congruence.
    - apply nth_error_None in E'. assert (H : nth_error vs i <> None) by congruence.
      apply nth_error_Some in H. unfold size in *. lia.
    - apply nth_error_None in E. assert (H : nth_error ws i <> None) by congruence.
      apply nth_error_Some in H. unfold size in *. lia.
    - reflexivity. }
  assert (Wr : forall t s vs ok, write_spec F t s vs ok F' x -> write_spec F t s vs ok G' y ->
                 unchanged F' G' /\ x = y).
  { intros t s vs ok [(C & O & ->)|(C & A & ->)] [(C' & O' & ->)|(C' & A' & ->)]; try tauto.
    - split; [|reflexivity]. eapply only_writes_fun; eauto using unchanged_refl.
    - split; [|reflexivity]. eapply unchanged_trans; [apply unchanged_sym, A|exact A']. }
  destruct r; cbn [request_spec]; eauto.
Qed.

Lemma transaction_spec_fun x : forall F F' l G' m,
  transaction_spec F x F' l -> transaction_spec F x G' m -> unchanged F' G' /\ l = m.
Proof.
  induction x as [r|t a out k IH|t a v k IH]; intros F F' l G' m H1 H2.
  - inversion H1; inversion H2; subst. split; [|congruence].
    eapply unchanged_trans; [apply unchanged_sym; eassumption|assumption].
  - inversion H1; inversion H2; subst;
      repeat match goal with H : existT _ _ _ = existT _ _ _ |- _ =>
        apply Eqdep_dec.inj_pair2_eq_dec in H; [|exact tid_dec] end; subst; try congruence.
    + assert (v = v0) by congruence. subst. eapply IH; eauto.
    + eapply IH; eauto.
  - inversion H1; inversion H2; subst;
      repeat match goal with H : existT _ _ _ = existT _ _ _ |- _ =>
        apply Eqdep_dec.inj_pair2_eq_dec in H; [|exact tid_dec] end; subst; try congruence.
    + eapply IH; [eassumption|]. eapply transaction_spec_ext; [|eassumption].
      eapply only_writes_fun; eauto using unchanged_refl.
    + eapply IH; eauto.
Qed.

Lemma call_spec_fun F c F' r G' r' :
  call_spec F c F' r -> call_spec F c G' r' -> unchanged F' G' /\ r = r'.
Proof.
  destruct c as [t a v|q|x]; cbn [call_spec].
  - intros [(A & B & ->)|(A & B & ->)] [(A' & B' & ->)|(A' & B' & ->)]; try tauto.
    + split; [|reflexivity]. eapply only_writes_fun; eauto using unchanged_refl.
    + split; [|reflexivity]. eapply unchanged_trans; [apply unchanged_sym, B|exact B'].
  - intros (x & S & ->) (y & S' & ->). destruct (request_spec_fun _ _ _ _ _ _ S S') as [A ->]. auto.
  - intros (x' & S & ->) (y & S' & ->). destruct (transaction_spec_fun _ _ _ _ _ _ S S') as [A ->]. auto.
Qed.

Lemma calls_spec_fun cs : forall F rs F' rs' G',
  calls_spec F cs rs F' -> calls_spec F cs rs' G' -> rs = rs' /\ unchanged F' G'.
Proof.
  induction cs as [|c cs IH]; intros F rs F' rs' G' H1 H2.
  - inversion H1; inversion H2; subst.
    split; [reflexivity|]. eapply unchanged_trans; [apply unchanged_sym; eassumption|assumption].
  - inversion H1 as [|? ? r F1 ? rs1 ? S1 R1]; inversion H2 as [|? ? r' G1 ? rs2 ? S2 R2]; subst.
    destruct (call_spec_fun _ _ _ _ _ _ S1 S2) as [U ->].
    eapply calls_spec_ext in R1; [|exact U].
    destruct (IH _ _ _ _ _ R1 R2) as [-> U']. auto.
Qed.

(** ** Reachable databases *)
Lemma reachable_wf d : reachable_db d -> wf d.
Proof.
  induction 1 as [|d c d' r _ W T R|d t o d' r _ W T R].
  - apply wf_empty.
  - destruct (call_body_spec d c W T) as (d1 & r1 & E & W1 & _).
    rewrite E in R. injection R as -> _. exact W1.
  - destruct (table_body_spec d t o W T) as (d1 & r1 & E & W1 & _).
    rewrite E in R. injection R as -> _. exact W1.
Qed.

Lemma holds_contents d : holds d (contents d).
Proof. intros t a out. apply get_value_spec. Qed.

Lemma holds_unchanged d F : holds d F -> unchanged F (contents d).
Proof.
  intros H t a.
  assert (Z : exists z : val t, True) by (destruct t; [exists false|exists false|exists 0|exists 0]; trivial).
  destruct Z as [z _]. specialize (H t a z). rewrite get_value_spec in H.
  destruct (contents d t a) as [v|], (F t a) as [w|]; congruence.
Qed.

Lemma table_refines_holds t os : Forall (typed_op t) os ->
  exists d rs f, run_table t os db_empty = Ret (d, rs) /\
    table_history empty_map os rs f /\
    forall F, holds d F -> same f (F t) /\ forall t', t' <> t -> same empty_map (F t').
Proof.
  intros T. destruct (table_refines t os T) as (d & rs & f & R & H & S & Fr).
  exists d, rs, f. split; [exact R|]. split; [exact H|]. intros F HF.
  pose proof (holds_unchanged _ _ HF) as U. split.
  - intros a. rewrite <- U. apply S.
  - intros t' Ne a. rewrite <- U. now apply Fr.
Qed.

Lemma range_iff d t s n F : reachable_db d -> holds d F ->
  exists b, run (is_valid_range t s n) d = Ret (d, b) /\ (b = true <-> covered (F t) s n).
Proof.
  intros R H. destruct (is_valid_range_spec d (reachable_wf d R) t s n) as (b & E & B).
  exists b. split; [exact E|]. rewrite B. apply covered_ext.
  intros a. symmetry. apply (holds_unchanged _ _ H).
Qed.

Lemma get_values_iff d t s out F : reachable_db d -> holds d F ->
  exists b vs, run (get_values t s out) d = Ret (d, (b, vs)) /\
    ((covered (F t) s (size out) /\ b = true /\ size vs = size out /\ values_at (F t) s vs)
     \/ (~ covered (F t) s (size out) /\ b = false /\ vs = out)).
Proof.
  intros R H. pose proof (holds_unchanged _ _ H t) as U.
  assert (U' : same (F t) (contents d t)) by exact U.
  destruct (get_values_spec d (reachable_wf d R) t s out) as (b & vs & E & C).
  exists b, vs. split; [exact E|]. rewrite <- (covered_ext _ _ s (size out) U') in C.
  destruct C as [(A & B & Z & V)|C]; [left|right; exact C].
  repeat split; auto. apply A. apply A. apply A.
  intros i v Ei. rewrite <- U. auto.
Qed.

Lemma set_values_iff d t s vs F : reachable_db d -> holds d F -> Forall (typed_val t) vs ->
  exists d' b F', run (set_values t s vs) d = Ret (d', b) /\ holds d' F' /\
    ((covered (F t) s (size vs) /\ b = true /\ only_writes F t s vs F')
     \/ (~ covered (F t) s (size vs) /\ b = false /\ unchanged F F')).
Proof.
  intros R H T. pose proof (holds_unchanged _ _ H) as U.
  destruct (set_values_spec d t s vs (reachable_wf d R) T) as (d' & b & E & W & C).
  exists d', b, (contents d'). split; [exact E|]. split; [apply holds_contents|].
  rewrite <- (covered_ext _ _ s (size vs) (U t)) in C.
  destruct C as [(A & B & ->)|(A & -> & ->)].
  - left. split; [exact A|]. split; [reflexivity|]. eapply only_writes_ext; [|exact B].
    apply unchanged_sym, U.
  - right. auto.
Qed.

Lemma db_no_ub d : reachable_db d ->
  (forall c, typed_call c -> run (call_body c) d <> UB) /\
  (forall t o, typed_op t o -> run (table_body t o) d <> UB).
Proof.
  intros R. apply reachable_wf in R. split.
  - intros c T. destruct (call_body_spec d c R T) as (d' & r & E & _). congruence.
  - intros t o T. destruct (table_body_spec d t o R T) as (d' & r & E & _). congruence.
Qed.

Lemma calls_refine_holds cs : Forall typed_call cs ->
  exists d rs F, run_calls cs db_empty = Ret (d, rs) /\ holds d F /\ calls_spec no_values cs rs F /\
    forall rs' F', calls_spec no_values cs rs' F' -> rs' = rs /\ unchanged F F'.
Proof.
  intros T. destruct (calls_refine cs T) as (d & rs & R & S).
  exists d, rs, (contents d). split; [exact R|]. split; [apply holds_contents|]. split; [exact S|].
  intros rs' F' S'. destruct (calls_spec_fun _ _ _ _ _ _ S S') as [-> U]. auto.
Qed.
