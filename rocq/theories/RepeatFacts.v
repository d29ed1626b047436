(** Proofs about repeated requests and other orders. *)
From Verif Require Import Prelude Messages SpecPdu Database SpecDb DatabaseFacts DbLemmas SpecAlone SpecRepeat.
Require Import Permutation.

(** ** Contents determine the database *)
Lemma ordered_find_fun {V} : forall m m' : list (N * V), ordered m -> ordered m' -> (forall a, map_find m' a = map_find m a) -> m' = m.
Proof.
  induction m as [|[k v] m IH]; intros [|[k' v'] m'] O O' E; [reflexivity| | |].
  - specialize (E k'). cbn in E. rewrite N.eqb_refl in E. discriminate.
  - specialize (E k). cbn in E. rewrite N.eqb_refl in E. discriminate.
  - inversion O as [|x y Om F]; subst. inversion O' as [|x y Om' F']; subst.
    assert (G : forall j, map_find m j <> None -> k < j).
    { intros j H. destruct (map_find m j) as [w|] eqn:Ew; [|congruence]. apply find_in in Ew. rewrite Forall_forall in F. exact (F _ Ew). }
    assert (G' : forall j, map_find m' j <> None -> k' < j).
    { intros j H. destruct (map_find m' j) as [w|] eqn:Ew; [|congruence]. apply find_in in Ew. rewrite Forall_forall in F'. exact (F' _ Ew). }
    assert (Ek : k' = k).
    { assert (A := E k). assert (B := E k'). cbn in A, B. rewrite N.eqb_refl in A, B.
      destruct (N.eqb_spec k' k) as [e|n]; [exact e|]. destruct (N.eqb_spec k k') as [e|n']; [congruence|].
      assert (k' < k) by (apply G'; congruence). assert (k < k') by (apply G; congruence). lia. }
    subst k'. assert (Ev := E k). cbn in Ev. rewrite N.eqb_refl in Ev. injection Ev as ->. f_equal.
    apply IH; [exact Om|exact Om'|]. intros a. specialize (E a). cbn in E. destruct (N.eqb_spec k a) as [e|n]; [|exact E]. subst a.
    destruct (map_find m k) eqn:M; [assert (k < k) by (apply G; congruence); lia|].
    destruct (map_find m' k) eqn:M'; [assert (k < k) by (apply G'; congruence); lia|reflexivity].
Qed.

Lemma contents_fun d d' : wf d -> wf d' -> unchanged (contents d) (contents d') -> d' = d.
Proof.
  intros W W' U. assert (T : forall t, table d' t = table d t).
  { intros t. apply ordered_find_fun; [apply W|apply W'|]. intros a. apply U. }
  destruct d, d'. generalize (T Coils) (T Discretes) (T Holdings) (T Inputs). cbn. intros -> -> -> ->. reflexivity.
Qed.

(** ** What a request does *)
Lemma about_dec r t a : about r t a \/ ~ about r t a.
Proof.
  unfold about. destruct (place r) as [t' [s n]]. destruct (tid_dec t t') as [->|]; [|right; tauto].
  destruct (N.leb_spec s a), (N.ltb_spec a (s + n)); (left; split; [reflexivity|lia]) || (right; intros [_ H']; lia).
Qed.

Lemma size_nth {V} (vs : list V) i v : nth_error vs i = Some v -> N.of_nat i < size vs.
Proof. intros H. unfold size. assert (i < List.length vs)%nat by (apply nth_error_Some; congruence). lia. Qed.

Lemma updated_at {V} (f : vmap V) s vs f' a : updated f s vs f' -> s <= a < s + size vs -> exists v, nth_error vs (N.to_nat (a - s)) = Some v /\ f' a = Some v.
Proof.
  intros [A _] L. destruct (nth_error vs (N.to_nat (a - s))) as [v|] eqn:E.
  - exists v. split; [reflexivity|]. rewrite <- (A _ _ E). f_equal. lia.
  - apply nth_error_None in E. unfold size in L. lia.
Qed.

(** The three things that matter, in one statement. *)
Record shape (F : tables) (r : request) (F' : tables) : Prop := {
  sh_frame : forall t a, reading r = true \/ ~ about r t a -> F' t a = F t a;
  sh_dom : forall t a, F' t a = None <-> F t a = None
}.

Lemma read_shape F t s q mk F' x : read_spec F t s q mk F' x -> forall t' a, F' t' a = F t' a.
Proof. intros [U _]. exact U. Qed.

Lemma write_frame F t s vs ok F' x : write_spec F t s vs ok F' x -> forall t' a, ~ (t' = t /\ s <= a < s + size vs) -> F' t' a = F t' a.
Proof.
  intros [(C & [[A B] O] & _)|(C & U & _)] t' a H; [|apply U].
  destruct (tid_dec t' t) as [e|n]; [subst t'|now apply O].
  apply B. destruct (N.lt_ge_cases a s); [now left|right]. destruct (N.lt_ge_cases a (s + size vs)); [destruct H; auto|assumption].
Qed.

Lemma write_dom F t s vs ok F' x : write_spec F t s vs ok F' x -> forall t' a, F' t' a = None <-> F t' a = None.
Proof.
  intros H t' a. assert (Fr := write_frame _ _ _ _ _ _ _ H t' a).
  destruct H as [(C & [Up O] & _)|(C & U & _)]; [|now rewrite U].
  destruct (tid_dec t' t) as [e|n]; [subst t'|now rewrite O].
  destruct (N.leb_spec s a); [|rewrite Fr by (intros [_ K]; lia); reflexivity].
  destruct (N.ltb_spec a (s + size vs)); [|rewrite Fr by (intros [_ K]; lia); reflexivity].
  destruct (updated_at _ _ _ _ a Up) as (v & _ & ->); [lia|]. destruct C as (_ & _ & C).
  assert (F t (s + (a - s)) <> None) by (apply C; lia). replace (s + (a - s)) with a in * by lia. split; congruence.
Qed.

Lemma request_shape F r F' x : request_spec F r F' x -> shape F r F'.
Proof.
  destruct r; cbn [request_spec]; intros H; split; intros t a; unfold about; cbn [place reading];
    try (intros [D|D]; [discriminate|]);
    try (intros _; eapply read_shape, H); try (rewrite (read_shape _ _ _ _ _ _ _ H); reflexivity);
    try exact (write_dom _ _ _ _ _ _ _ H t a); eapply write_frame; try exact H; rewrite ?size1; exact D.
Qed.

(** The same request in two states. *)
Definition agree_dom (r : request) (F G : tables) : Prop := forall t a, about r t a -> (F t a = None <-> G t a = None).

Definition paired (F : tables) (r : request) (F' : tables) (x : expected response) (G G' : tables) (y : expected response) : Prop :=
  (forall t a, about r t a -> (reading r = false /\ F' t a = G' t a) \/ (F' t a = F t a /\ G' t a = G t a)) /\
  (reading r = false \/ (forall t a, about r t a -> F t a = G t a) -> x = y).

Lemma covered_dom {V} (f g : vmap V) s n : (forall a, s <= a < s + n -> (f a = None <-> g a = None)) -> covered f s n -> covered g s n.
Proof. intros D (A & B & C). split; [exact A|]. split; [exact B|]. intros i L. rewrite <- D by lia. auto. Qed.

Lemma read_paired F G t s q mk F' x G' y : read_spec F t s q mk F' x -> read_spec G t s q mk G' y ->
  (forall a, s <= a < s + q -> F t a = G t a) -> x = y.
Proof.
  intros [_ A] [_ B] E.
  assert (D : forall a, s <= a < s + q -> (F t a = None <-> G t a = None)) by (intros a L; now rewrite E).
  assert (D' : forall a, s <= a < s + q -> (G t a = None <-> F t a = None)) by (intros a L; now rewrite E).
  destruct A as [(C & vs & S & V & ->)|(C & ->)], B as [(C' & ws & S' & V' & ->)|(C' & ->)]; try reflexivity;
    [|destruct C'; now apply (covered_dom (F t))|destruct C; now apply (covered_dom (G t))].
  do 2 f_equal. apply nth_error_ext. intros i.
  destruct (nth_error vs i) as [[a v]|] eqn:H1, (nth_error ws i) as [[b w]|] eqn:H2; [| | |reflexivity].
  - destruct (V _ _ _ H1) as [-> E1]. destruct (V' _ _ _ H2) as [-> E2]. apply size_nth in H1. rewrite E in E1 by lia. congruence.
  - apply nth_error_None in H2. apply size_nth in H1. unfold size in *. lia.
  - apply nth_error_None in H1. apply size_nth in H2. unfold size in *. lia.
Qed.

Lemma write_paired F G t s vs ok F' x G' y : write_spec F t s vs ok F' x -> write_spec G t s vs ok G' y ->
  (forall a, s <= a < s + size vs -> (F t a = None <-> G t a = None)) ->
  x = y /\ forall a, s <= a < s + size vs -> F' t a = G' t a \/ (F' t a = F t a /\ G' t a = G t a).
Proof.
  intros A B D.
  assert (D' : forall a, s <= a < s + size vs -> (G t a = None <-> F t a = None)) by (intros a L; now rewrite (D a L)).
  destruct A as [(C & [U _] & ->)|(C & U & ->)], B as [(C' & [U' _] & ->)|(C' & U' & ->)].
  - split; [reflexivity|]. intros a L. left. destruct (updated_at _ _ _ _ a U L) as (v & N1 & ->). destruct (updated_at _ _ _ _ a U' L) as (w & N2 & ->). congruence.
  - destruct C'. now apply (covered_dom (F t)).
  - destruct C. now apply (covered_dom (G t)).
  - split; [reflexivity|]. intros a L. right. split; [apply U|apply U'].
Qed.

Lemma request_paired F G r F' x G' y : request_spec F r F' x -> request_spec G r G' y -> agree_dom r F G -> paired F r F' x G G' y.
Proof.
  intros A B D. unfold paired, agree_dom, about in *.
  destruct r as [s q|s q|s q|s q|a0 v|a0 v|s vs|s vs]; cbn [request_spec place reading] in *.
  1-4: split; [intros t a _; right; split; [apply (read_shape _ _ _ _ _ _ _ A)|apply (read_shape _ _ _ _ _ _ _ B)]|
    intros [K|K]; [discriminate|]; eapply read_paired; [exact A|exact B|]; intros a L; apply K; auto].
  all: destruct (write_paired _ _ _ _ _ _ _ _ _ _ A B) as [-> K]; [rewrite ?size1; intros a L; apply D; auto|];
    rewrite ?size1 in K; (split; [|reflexivity]); intros t a [-> L]; destruct (K a L) as [E|[E1 E2]]; auto.
Qed.

(** ** Runs *)
Lemma run_cons c cs d d2 rs : run_calls (c :: cs) d = Ret (d2, rs) ->
  exists d1 x xs, run (call_body c) d = Ret (d1, x) /\ run_calls cs d1 = Ret (d2, xs) /\ rs = x :: xs.
Proof.
  cbn [run_calls]. destruct (run (call_body c) d) as [[d1 x]|] eqn:E; cbn [obind]; [|discriminate].
  destruct (run_calls cs d1) as [[d3 xs]|] eqn:E'; cbn [obind]; [|discriminate]. intros [= -> <-]. exists d1, x, xs. auto.
Qed.

Lemma run_cons_intro c cs d d1 x d2 xs : run (call_body c) d = Ret (d1, x) -> run_calls cs d1 = Ret (d2, xs) -> run_calls (c :: cs) d = Ret (d2, x :: xs).
Proof. intros A B. cbn [run_calls]. rewrite A. cbn [obind]. now rewrite B. Qed.

Lemma run_calls_app cs cs' d d1 rs d2 rs' : run_calls cs d = Ret (d1, rs) -> run_calls cs' d1 = Ret (d2, rs') -> run_calls (cs ++ cs') d = Ret (d2, rs ++ rs').
Proof.
  revert d rs. induction cs as [|c cs IH]; intros d rs A B.
  - cbn in A. injection A as <- <-. exact B.
  - apply run_cons in A as (e & x & xs & A & A' & ->). cbn [app]. eapply run_cons_intro; [exact A|]. exact (IH _ _ A' B).
Qed.

Lemma run_request d r : wf d -> typed_call (CRequest r) ->
  exists d' x, run (call_body (CRequest r)) d = Ret (d', RResponse x) /\ wf d' /\ request_spec (contents d) r (contents d') x.
Proof. intros W T. destruct (call_body_spec d (CRequest r) W T) as (d' & y & E & W' & (x & S & ->)). eauto. Qed.

(** Another execution of a request after calls that do not change what it wrote. *)
Lemma calls_keep r cs : forall d, wf d -> Forall typed_call cs -> (forall c t a, In c cs -> about r t a -> ~ changes c t a) ->
  forall d' rs, run_calls cs d = Ret (d', rs) -> wf d' /\ forall t a, about r t a -> contents d' t a = contents d t a.
Proof.
  induction cs as [|c cs IH]; intros d W T K d' rs E; [injection E as <- <-; auto|].
  inversion T as [|? ? Tc Tcs]; subst. apply run_cons in E as (d1 & x & xs & E & E' & ->).
  destruct (call_body_spec d c W Tc) as (d1' & x' & R & W1 & S). rewrite E in R. injection R as <- <-.
  destruct (IH d1 W1 Tcs) with (d' := d') (rs := xs) as [W' H]; [intros; apply K; [now right|assumption]|exact E'|].
  split; [exact W'|]. intros t a A. rewrite H by assumption.
  assert (Kc := K c t a (or_introl eq_refl) A). destruct c as [t' b v|q|tx]; cbn [changes call_spec] in *.
  - destruct S as [(_ & [[_ B] O] & _)|(_ & U & _)]; [|apply U]. destruct (tid_dec t t') as [e|n]; [subst t'|now apply O].
    apply B. rewrite size1. assert (a <> b) by tauto. lia.
  - destruct S as (y & S & ->). apply (sh_frame _ _ _ (request_shape _ _ _ _ S)). destruct (reading q); tauto.
  - tauto.
Qed.

Theorem again_later : forall d r cs d1 x rs, reachable_db d -> typed_call (CRequest r) -> Forall typed_call cs ->
  run_calls (CRequest r :: cs) d = Ret (d1, x :: rs) ->
  reading r = true \/ (forall c t a, In c cs -> about r t a -> ~ changes c t a) ->
  exists y, run_calls (CRequest r :: cs ++ [CRequest r]) d = Ret (d1, x :: rs ++ [y]) /\ (reading r = false \/ cs = [] -> y = x).
Proof.
  intros d r cs d1 x rs Rd T Tcs E K. apply reachable_wf in Rd.
  apply run_cons in E as (e & x' & xs & E & E' & [= <- <-]).
  destruct (run_request d r Rd T) as (e' & v & R & We & S). rewrite E in R. injection R as <- ->.
  destruct (run_calls_spec cs e We Tcs) as (d1' & rs' & R & W1 & _). rewrite E' in R. injection R as <- <-.
  destruct (run_request d1 r W1 T) as (d2 & v' & R & W2 & S2).
  assert (Eq : d2 = d1 /\ (reading r = false \/ cs = [] -> v' = v)).
  { destruct (reading r) eqn:Er.
    - split.
      + apply contents_fun; [exact W1|exact W2|]. intros t a. apply (sh_frame _ _ _ (request_shape _ _ _ _ S2)). now left.
      + intros [D|D]; [discriminate|]. subst cs. injection E' as <- <-.
        symmetry. apply (request_paired _ _ _ _ _ _ _ S S2).
        * intros t a _. rewrite (sh_frame _ _ _ (request_shape _ _ _ _ S)) by now left. reflexivity.
        * right. intros t a _. symmetry. apply (sh_frame _ _ _ (request_shape _ _ _ _ S)). now left.
    - destruct K as [D|K]; [discriminate|]. destruct (calls_keep r cs e We Tcs K d1 rs E') as [_ Kp].
      destruct (request_paired _ _ _ _ _ _ _ S S2) as [P Q].
      { intros t a A. rewrite Kp by assumption. symmetry. apply (sh_dom _ _ _ (request_shape _ _ _ _ S)). }
      split; [|intros _; symmetry; apply Q; now left].
      apply contents_fun; [exact W1|exact W2|]. intros t a. destruct (about_dec r t a) as [A|A].
      + destruct (P t a A) as [[_ H]|[_ H]]; [|exact H]. rewrite <- H. symmetry. now apply Kp.
      + apply (sh_frame _ _ _ (request_shape _ _ _ _ S2)). now right. }
  destruct Eq as [-> Eq]. exists (RResponse v'). split.
  - eapply run_cons_intro; [exact E|]. eapply run_calls_app; [exact E'|]. eapply run_cons_intro; [exact R|reflexivity].
  - intros H. now rewrite (Eq H).
Qed.

Theorem again_at_once : forall d r d1 x, reachable_db d -> typed_call (CRequest r) ->
  run_calls [CRequest r] d = Ret (d1, [x]) -> run_calls [CRequest r; CRequest r] d = Ret (d1, [x; x]).
Proof.
  intros d r d1 x R T E. destruct (again_later d r [] d1 x [] R T (Forall_nil _) E) as (y & E' & H).
  - right. intros c t a [].
  - rewrite (H (or_intror eq_refl)) in E'. exact E'.
Qed.

(** ** Other orders *)
Lemma commute d r q d2 x y : wf d -> typed_call (CRequest r) -> typed_call (CRequest q) -> independent r q ->
  run_calls [CRequest r; CRequest q] d = Ret (d2, [x; y]) -> run_calls [CRequest q; CRequest r] d = Ret (d2, [y; x]).
Proof.
  intros W Tr Tq I E. destruct (run_request d r W Tr) as (dr & vr & Er & Wr & Sr).
  destruct (run_request dr q Wr Tq) as (drq & vq & Erq & Wrq & Srq).
  destruct (run_request d q W Tq) as (dq & vq' & Eq & Wq & Sq).
  destruct (run_request dq r Wq Tr) as (dqr & vr' & Eqr & Wqr & Sqr).
  assert (G : run_calls [CRequest r; CRequest q] d = Ret (drq, [RResponse vr; RResponse vq])).
  { eapply run_cons_intro; [exact Er|]. eapply run_cons_intro; [exact Erq|reflexivity]. }
  rewrite E in G. injection G as -> -> ->.
  destruct (request_paired _ _ _ _ _ _ _ Sr Sqr) as [P Q].
  { intros t a A. symmetry. apply (sh_dom _ _ _ (request_shape _ _ _ _ Sq)). }
  destruct (request_paired _ _ _ _ _ _ _ Sq Srq) as [P' Q'].
  { intros t a A. symmetry. apply (sh_dom _ _ _ (request_shape _ _ _ _ Sr)). }
  assert (Fr := sh_frame _ _ _ (request_shape _ _ _ _ Sr)). assert (Fq := sh_frame _ _ _ (request_shape _ _ _ _ Sq)).
  assert (Frq := sh_frame _ _ _ (request_shape _ _ _ _ Srq)). assert (Fqr := sh_frame _ _ _ (request_shape _ _ _ _ Sqr)).
  assert (dqr = drq /\ vr' = vr /\ vq' = vq) as (-> & -> & ->).
  { split; [|split].
    - apply contents_fun; [exact Wrq|exact Wqr|]. intros t a.
      destruct (about_dec r t a) as [A|A], (about_dec q t a) as [B|B].
      + destruct (I t a A B) as [R1 R2]. rewrite Fqr, Fq, Frq, Fr by auto. reflexivity.
      + rewrite (Frq t a) by auto. destruct (P t a A) as [[_ H]|[H1 H2]]; [now rewrite H|]. rewrite H1, H2. apply Fq. auto.
      + rewrite (Fqr t a) by auto. destruct (P' t a B) as [[_ H]|[H1 H2]]; [exact H|]. rewrite H1, H2. symmetry. apply Fr. auto.
      + rewrite Fqr, Fq, Frq, Fr by auto. reflexivity.
    - symmetry. apply Q. destruct (reading r) eqn:Rr; [|now left]. right. intros t a A. symmetry. apply Fq.
      destruct (about_dec q t a) as [B|B]; [|now right]. left. now apply (I t a).
    - apply Q'. destruct (reading q) eqn:Rq; [|now left]. right. intros t a B. symmetry. apply Fr.
      destruct (about_dec r t a) as [A|A]; [|now right]. left. now apply (I t a). }
  eapply run_cons_intro; [exact Eq|]. eapply run_cons_intro; [exact Eqr|reflexivity].
Qed.

Lemma independent_sym r q : independent r q -> independent q r.
Proof. intros H t a A B. destruct (H t a B A). auto. Qed.

Lemma pairs_permuted {A} (P : A -> A -> Prop) : (forall x y, P x y -> P y x) -> forall l l', Permutation l l' -> ForallOrdPairs P l -> ForallOrdPairs P l'.
Proof.
  intros Sy l l' H. induction H as [|x l l' H IH|x y l|l l' l'' H IH H' IH']; intros F; auto.
  - inversion F; subst. constructor; [|now apply IH]. now apply (Permutation_Forall H).
  - inversion F as [|? ? A1 F1]; subst. inversion F1 as [|? ? A2 F2]; subst. inversion A1; subst.
    constructor; [constructor; auto|]. constructor; auto.
Qed.

Lemma any_order_wf : forall rs rs', Permutation rs rs' -> ForallOrdPairs independent rs -> Forall (fun r => typed_call (CRequest r)) rs ->
  forall d d' xs, wf d -> run_calls (map CRequest rs) d = Ret (d', xs) ->
  exists xs', run_calls (map CRequest rs') d = Ret (d', xs') /\ Permutation (combine rs xs) (combine rs' xs').
Proof.
  intros rs rs' H. induction H as [|r l l' H IH|q r l|l l' l'' H IH H' IH']; intros F T d d' xs W E.
  - exists xs. split; [exact E|reflexivity].
  - inversion F; subst. inversion T as [|? ? Tr Tl]; subst. cbn [map] in *. apply run_cons in E as (e & x & ys & E & E' & ->).
    destruct (run_request d r W Tr) as (e' & v & R & We & _). rewrite E in R. injection R as <- ->.
    destruct (IH H3 Tl e d' ys We E') as (ys' & E2 & P). exists (RResponse v :: ys').
    split; [eapply run_cons_intro; [exact E|exact E2]|]. cbn. now constructor.
  - inversion F as [|? ? A1 F1]; subst. inversion A1 as [|? ? I _]; subst.
    inversion T as [|? ? Tq T']; subst. inversion T' as [|? ? Tr Tl]; subst. cbn [map] in *.
    apply run_cons in E as (e & x & ys & E & E' & ->). apply run_cons in E' as (e2 & y & zs & E' & E2 & ->).
    assert (C : run_calls [CRequest q; CRequest r] d = Ret (e2, [y; x])).
    { apply commute; [exact W|exact Tq|exact Tr|exact I|]. eapply run_cons_intro; [exact E|]. eapply run_cons_intro; [exact E'|reflexivity]. }
    exists (y :: x :: zs). split; [|cbn; constructor].
    exact (run_calls_app [CRequest q; CRequest r] _ _ _ _ _ _ C E2).
  - destruct (IH F T d d' xs W E) as (ys & E1 & P1).
    destruct (IH' (pairs_permuted _ independent_sym _ _ H F) (Permutation_Forall H T) d d' ys W E1) as (zs & E2 & P2).
    exists zs. split; [exact E2|]. now transitivity (combine l' ys).
Qed.

Theorem any_order : forall rs rs' d d' xs, reachable_db d -> Forall (fun r => typed_call (CRequest r)) rs ->
  Permutation rs rs' -> ForallOrdPairs independent rs -> run_calls (map CRequest rs) d = Ret (d', xs) ->
  exists xs', run_calls (map CRequest rs') d = Ret (d', xs') /\ Permutation (combine rs xs) (combine rs' xs').
Proof. intros rs rs' d d' xs R T P I E. apply (any_order_wf rs rs' P I T d d' xs); [now apply reachable_wf|exact E]. Qed.
