(** Proofs about the origin of values. *)
From Verif Require Import Prelude Messages SpecPdu Database SpecDb SpecOrder DatabaseFacts DbLemmas SpecRepeat RepeatFacts SpecOrigin.

Definition kept_by (F : tables) (c : call) (r : result) (t : tid) (a : N) (v : val t) : Prop := F t a = Some v /\ ~ replaced c r t a.

Lemma puts_about q t a v : puts q t a v -> about q t a.
Proof.
  destruct q, t; cbn [puts]; try contradiction; unfold about; cbn [place].
  - intros [-> ->]. split; [reflexivity|lia].
  - intros [-> ->]. split; [reflexivity|lia].
  - intros (i & H & ->). apply size_nth in H. split; [reflexivity|lia].
  - intros (i & H & ->). apply size_nth in H. split; [reflexivity|lia].
Qed.

Lemma tid_dec (t t' : tid) : t = t' \/ t <> t'.
Proof. destruct t, t'; (left; reflexivity) || (right; discriminate). Qed.

Lemma write_origin F t s vs ok F' x t' a v : write_spec F t s vs ok F' x -> F' t' a = Some v ->
  (exists (E : t = t') i, x = Value ok /\ nth_error vs i = Some (eq_rect_r val v E) /\ a = s + N.of_nat i) \/
  (F t' a = Some v /\ (x = unknown_address \/ ~ (t' = t /\ s <= a < s + size vs))).
Proof.
  intros [(C & [U S] & ->)|(C & U & ->)] H.
  - destruct (tid_dec t t') as [<-|n].
    + assert (D : s <= a < s + size vs \/ ~ s <= a < s + size vs) by lia. destruct D as [D|D].
      * left. exists eq_refl, (N.to_nat (a - s)). destruct (updated_at _ _ _ _ _ U D) as (w & E1 & E2). cbn. split; [reflexivity|]. split; [congruence|lia].
      * right. destruct U as [_ U]. rewrite U in H by lia. split; [exact H|]. right. tauto.
    + right. rewrite (S t') in H by congruence. split; [exact H|]. right. intros [-> _]. contradiction.
  - right. rewrite (U t') in H. auto.
Qed.

Lemma read_origin F t s q mk F' x t' a v : read_spec F t s q mk F' x -> F' t' a = Some v -> F t' a = Some v.
Proof. intros R H. rewrite <- (read_shape _ _ _ _ _ _ _ R). exact H. Qed.

Lemma request_origin F q F' x t a v : request_spec F q F' x -> F' t a = Some v ->
  (exists y, x = Value y /\ puts q t a v) \/ (F t a = Some v /\ ~ exists y w, x = Value y /\ puts q t a w).
Proof.
  intros R H.
  assert (K : forall t1 s n mk, read_spec F t1 s n mk F' x -> (forall w, ~ puts q t a w) -> F t a = Some v /\ ~ exists y w, x = Value y /\ puts q t a w).
  { intros t1 s n mk Rs N. split; [exact (read_origin _ _ _ _ _ _ _ _ _ _ Rs H)|]. intros (y & w & _ & P). exact (N w P). }
  assert (L : forall t1 s vs ok, write_spec F t1 s vs ok F' x -> (forall w, puts q t a w -> t = t1 /\ s <= a < s + size vs) ->
     (forall (E : t1 = t) i, nth_error vs i = Some (eq_rect_r val v E) -> a = s + N.of_nat i -> puts q t a v) ->
     (exists y, x = Value y /\ puts q t a v) \/ (F t a = Some v /\ ~ exists y w, x = Value y /\ puts q t a w)).
  { intros t1 s vs ok Ws N P. destruct (write_origin _ _ _ _ _ _ _ _ _ _ Ws H) as [(E & i & -> & E1 & E2)|[E1 E2]]; [left; eauto|right]. split; [exact E1|].
    intros (y & w & -> & Pw). destruct E2 as [E2|E2]; [discriminate|]. apply E2. apply (N w Pw). }
  destruct q; cbn [request_spec] in R; try (right; refine (K _ _ _ _ R _); intros w; destruct t; cbn [puts]; tauto).
  all: refine (L _ _ _ _ R _ _); [intros w P; exact (puts_about _ _ _ _ P)|].
  - intros E [|i]; [|destruct i; discriminate]. subst t. cbn. intros [= ->] ->. split; [lia|reflexivity].
  - intros E [|i]; [|destruct i; discriminate]. subst t. cbn. intros [= ->] ->. split; [lia|reflexivity].
  - intros E i. subst t. cbn. intros E1 E2. eauto.
  - intros E i. subst t. cbn. intros E1 E2. eauto.
Qed.

Lemma transaction_origin F x F' l : transaction_spec F x F' l -> forall t a v, F' t a = Some v -> sets_in x t a v \/ F t a = Some v.
Proof.
  induction 1 as [F F' l U|F t a v out k F' l E T IH|F t a out k F' l E T IH|F t a v k F1 F' l E W T IH|F t a v k F' l E T IH]; intros t' a' v' H.
  - right. rewrite <- (U t'). exact H.
  - destruct (IH _ _ _ H) as [K|K]; [left; eapply SI_get; exact K|right; exact K].
  - destruct (IH _ _ _ H) as [K|K]; [left; eapply SI_get; exact K|right; exact K].
  - destruct (IH _ _ _ H) as [K|K]; [left; eapply SI_set; exact K|]. destruct W as [U S]. destruct (tid_dec t t') as [<-|n]; [|right; rewrite <- (S t') by congruence; exact K].
    destruct (N.eq_dec a' a) as [->|n].
    + left. destruct U as [U _]. specialize (U 0%nat v eq_refl). rewrite N.add_0_r in U. assert (v' = v) by congruence. subst v'. apply SI_here.
    + right. destruct U as [_ U]. rewrite U in K; [exact K|]. unfold size. cbn [List.length]. lia.
  - destruct (IH _ _ _ H) as [K|K]; [left; eapply SI_set; exact K|right; exact K].
Qed.

Lemma call_origin F c F' r t a v : call_spec F c F' r -> F' t a = Some v -> gave c r t a v \/ kept_by F c r t a v.
Proof.
  intros S H. destruct c as [t1 b w|q|x]; cbn [call_spec] in S.
  - destruct S as [(N & [U S] & ->)|(N & U & ->)].
    + destruct (tid_dec t1 t) as [<-|n].
      * destruct (N.eq_dec a b) as [->|n].
        -- left. left. destruct U as [U _]. specialize (U 0%nat w eq_refl). rewrite N.add_0_r in U. assert (v = w) by congruence. subst. auto.
        -- right. destruct U as [_ U]. rewrite U in H by (unfold size; cbn [List.length]; lia). split; [exact H|]. intros [(z & [[E _]|[(q & y & E & _)|(y & E & _)]]) _]; try discriminate E. injection E as E _. congruence.
      * right. rewrite (S t) in H by congruence. split; [exact H|]. intros [(z & [[E _]|[(q & y & E & _)|(y & E & _)]]) _]; try discriminate E. injection E as E _. congruence.
    + right. rewrite (U t) in H. split; [exact H|]. intros [(z & [[_ E]|[(q & y & E & _)|(y & E & _)]]) _]; discriminate E.
  - destruct S as (x & S & ->). destruct (request_origin _ _ _ _ _ _ _ S H) as [(y & -> & P)|[E N]].
    + left. right. left. eauto.
    + right. split; [exact E|]. intros [(z & [[K _]|[(q' & y & [= <-] & [= K] & P)|(y & K & _)]]) _]; try discriminate K. apply N. eauto.
  - destruct S as (l & S & ->). destruct (transaction_origin _ _ _ _ S _ _ _ H) as [K|K]; [left; right; right; eauto|right]. split; [exact K|].
    intros [_ N]. exact (N x eq_refl).
Qed.

Lemma origin_end F0 cs rs F : calls_spec F0 cs rs F -> forall t a v, F t a = Some v -> given_last F0 cs rs (List.length cs) t a v.
Proof.
  induction 1 as [F F' U|F c r F1 cs rs F2 Sp T IH]; intros t a v H.
  - right. rewrite <- (U t). split; [exact H|]. intros k c r L. cbn in L. lia.
  - destruct (IH t a v H) as [(m & c' & r' & L & E1 & E2 & G & K)|[E K]].
    + left. exists (S m), c', r'. cbn [List.length nth_error]. split; [lia|]. split; [exact E1|]. split; [exact E2|]. split; [exact G|].
      intros [|k] c2 r2 Lk; [lia|]. cbn [nth_error]. apply K. lia.
    + assert (K' : kept_from (c :: cs) (r :: rs) 1 (List.length (c :: cs)) t a).
      { intros [|k] c2 r2 Lk; [lia|]. cbn [nth_error]. cbn [List.length] in Lk. apply K. lia. }
      destruct (call_origin _ _ _ _ _ _ _ Sp E) as [G|[E' N]].
      * left. exists 0%nat, c, r. cbn [List.length nth_error]. repeat split; auto. lia.
      * right. split; [exact E'|]. intros [|k] c2 r2 Lk; [cbn [nth_error]; intros [= <-] [= <-]; exact N|]. apply K'. lia.
Qed.

Lemma calls_split F0 cs rs F : calls_spec F0 cs rs F -> forall n c r, nth_error cs n = Some c -> nth_error rs n = Some r ->
  exists F1 F2, calls_spec F0 (firstn n cs) (firstn n rs) F1 /\ call_spec F1 c F2 r.
Proof.
  induction 1 as [F F' U|F c r F1 cs rs F2 S T IH]; intros n c' r' E1 E2; [destruct n; discriminate|]. destruct n as [|n].
  - injection E1 as <-. injection E2 as <-. exists F, F1. split; [constructor; intros t a; reflexivity|exact S].
  - destruct (IH n c' r' E1 E2) as (G1 & G2 & A & B). exists G1, G2. split; [|exact B]. cbn [firstn]. econstructor; eassumption.
Qed.

Lemma says_held F q F' x t a v : request_spec F q F' (Value x) -> says x t a v -> F t a = Some v.
Proof.
  assert (K : forall t1 s n mk, read_spec F t1 s n mk F' (Value x) -> exists vs, x = mk vs /\ forall b w, In (b, w) vs -> F t1 b = Some w).
  { intros t1 s n mk [_ [(_ & vs & _ & H & [= ->])|[_ H]]]; [|discriminate H]. exists vs. split; [reflexivity|]. intros b w Hin.
    apply In_nth_error in Hin. destruct Hin as [i Hin]. exact (proj2 (H _ _ _ Hin)). }
  assert (L : forall t1 s vs ok, write_spec F t1 s vs ok F' (Value x) -> x = ok).
  { intros t1 s vs ok [(_ & _ & [= ->])|(_ & _ & H)]; [reflexivity|discriminate H]. }
  intros R. destruct q; cbn [request_spec] in R; try (destruct (K _ _ _ _ R) as (vs & -> & H); destruct t; cbn [says]; try contradiction; intros Hin; exact (H _ _ Hin)).
  all: rewrite (L _ _ _ _ R); destruct t; cbn [says]; contradiction.
Qed.

Theorem read_was_given : forall F0 cs rs F n q x t a v, calls_spec F0 cs rs F ->
  nth_error cs n = Some (CRequest q) -> nth_error rs n = Some (RResponse (Value x)) -> says x t a v -> given_last F0 cs rs n t a v.
Proof.
  intros F0 cs rs F n q x t a v S E1 E2 Hs. destruct (calls_split _ _ _ _ S _ _ _ E1 E2) as (F1 & F2 & A & B). cbn [call_spec] in B. destruct B as (y & R & [= <-]).
  assert (H := says_held _ _ _ _ _ _ _ R Hs). assert (G := origin_end _ _ _ _ A _ _ _ H).
  assert (Ln : (n < List.length cs)%nat) by (apply nth_error_Some; congruence).
  assert (Lr : (n < List.length rs)%nat) by (apply nth_error_Some; congruence).
  rewrite firstn_length_le in G by lia.
  assert (Cut : forall {A} (l : list A) k, (k < n)%nat -> nth_error (firstn n l) k = nth_error l k).
  { intros A0 l. clear. revert n. induction l as [|y l IH]; intros [|n] [|k] L; cbn; try reflexivity; try lia. apply IH. lia. }
  assert (Kp : forall m, kept_from (firstn n cs) (firstn n rs) m n t a -> kept_from cs rs m n t a).
  { intros m K k c r L H1 H2. apply (K k c r L); rewrite Cut by lia; assumption. }
  destruct G as [(m & c & r & L & H1 & H2 & G & K)|[G K]]; [left|right; auto].
  exists m, c, r. rewrite Cut in H1, H2 by lia. auto 10.
Qed.

(** On a database. *)
Theorem database_was_given : forall cs d rs n q x t a v, Forall typed_call cs -> run_calls cs db_empty = Ret (d, rs) ->
  nth_error cs n = Some (CRequest q) -> nth_error rs n = Some (RResponse (Value x)) -> says x t a v -> given_last no_values cs rs n t a v.
Proof.
  intros cs d rs n q x t a v T E E1 E2 Hs. destruct (calls_refine cs T) as (d' & rs' & E' & S). rewrite E in E'. injection E' as <- <-.
  exact (read_was_given _ _ _ _ _ _ _ _ _ _ S E1 E2 Hs).
Qed.

(** ** There is only one such value *)
Lemma puts_fun q t a v v' : puts q t a v -> puts q t a v' -> v = v'.
Proof.
  destruct q, t; cbn [puts]; try contradiction.
  - intros [_ ->] [_ ->]. reflexivity.
  - intros [_ ->] [_ ->]. reflexivity.
  - intros (i & H & E) (j & H' & E'). assert (i = j) by lia. subst j. congruence.
  - intros (i & H & E) (j & H' & E'). assert (i = j) by lia. subst j. congruence.
Qed.

Definition added (c : call) (t : tid) : option (val t) :=
  match c with
  | CAdd t0 _ v =>
      match t0, t return val t0 -> option (val t) with
      | Coils, Coils | Discretes, Discretes | Holdings, Holdings | Inputs, Inputs => fun v => Some v
      | _, _ => fun _ => None
      end v
  | _ => None
  end.

Lemma add_fun t a (v v' : val t) : CAdd t a v = CAdd t a v' -> v = v'.
Proof. intros E. apply (f_equal (fun c => added c t)) in E. destruct t; cbn [added] in E; congruence. Qed.

Lemma gave_fun c r t a v v' : (forall x, c <> CTransaction x) -> gave c r t a v -> gave c r t a v' -> v = v'.
Proof.
  intros N [[-> _]|[(q & x & -> & _ & P)|(x & -> & _)]]; [| |destruct (N x eq_refl)].
  - intros [[E _]|[(q & x & E & _)|(x & E & _)]]; [exact (add_fun _ _ _ _ E)|discriminate E|discriminate E].
  - intros [[E _]|[(q' & y & [= <-] & _ & P')|(y & E & _)]]; [discriminate E|exact (puts_fun _ _ _ _ _ P P')|discriminate E].
Qed.

Theorem given_once : forall F0 cs rs n t a v v', (forall x, ~ In (CTransaction x) cs) ->
  given_last F0 cs rs n t a v -> given_last F0 cs rs n t a v' -> v = v'.
Proof.
  intros F0 cs rs n t a v v' N.
  assert (R : forall m c r w, nth_error cs m = Some c -> gave c r t a w -> replaced c r t a).
  { intros m c r w E G. split; [eauto|]. intros x ->. apply nth_error_In in E. exact (N x E). }
  intros [(m & c & r & L & E1 & E2 & G & K)|[E K]] [(m' & c' & r' & L' & E1' & E2' & G' & K')|[E' K']].
  - destruct (Nat.lt_trichotomy m m') as [H|[H|H]].
    + destruct (K m' c' r'); [lia|assumption|assumption|]. exact (R _ _ _ _ E1' G').
    + subst m'. rewrite E1 in E1'. injection E1' as <-. rewrite E2 in E2'. injection E2' as <-. apply (gave_fun c r t a); try assumption.
      intros x ->. apply nth_error_In in E1. exact (N x E1).
    + destruct (K' m c r); [lia|assumption|assumption|]. exact (R _ _ _ _ E1 G).
  - destruct (K' m c r); [lia|assumption|assumption|]. exact (R _ _ _ _ E1 G).
  - destruct (K m' c' r'); [lia|assumption|assumption|]. exact (R _ _ _ _ E1' G').
  - congruence.
Qed.
