(** Proofs about the timers of users. *)
From Verif Require Import Prelude UserTimers SpecUserTimers.
From Coq Require Import Lia.

Lemma acted_app a b : acted (a ++ b) = acted a ++ acted b.
Proof. apply flat_map_app. Qed.

Lemma lookup_in i l t : lookup i l = Some t -> In (i, t) l.
Proof.
  induction l as [|[j u] l IH]; cbn [lookup]; [discriminate|]. destruct (Nat.eqb_spec j i) as [->|]; [|right; auto].
  intros E. injection E as ->. left. reflexivity.
Qed.

Lemma lookup_some i t l : In (i, t) l -> exists u, lookup i l = Some u.
Proof.
  induction l as [|[j u] l IH]; cbn [lookup]; intros []; [injection H as -> ->; rewrite Nat.eqb_refl; eauto|].
  destruct (Nat.eqb j i); eauto.
Qed.

Lemma in_without i l x : In x (without i l) <-> In x l /\ fst x <> i.
Proof.
  unfold without. rewrite filter_In. split; intros [A B]; split; auto.
  - intros C. rewrite C, Nat.eqb_refl in B. discriminate.
  - apply Nat.eqb_neq in B. rewrite B. reflexivity.
Qed.

Lemma in_filter_not i l (x : nat) : In x (filter (fun y => negb (Nat.eqb y i)) l) <-> In x l /\ x <> i.
Proof.
  rewrite filter_In. split; intros [A B]; split; auto.
  - intros ->. rewrite Nat.eqb_refl in B. discriminate.
  - apply Nat.eqb_neq in B. rewrite B. reflexivity.
Qed.

Lemma existsb_nat i l : existsb (Nat.eqb i) l = true <-> In i l.
Proof.
  rewrite existsb_exists. split; [intros (x & X & E); apply Nat.eqb_eq in E as ->; exact X|]. intros I. exists i. split; [exact I|apply Nat.eqb_refl].
Qed.

(** What is known of the state after outputs [os]. *)
Record known (s : itimers) (os : list ioutput) : Prop := {
  kn_armed : forall i t, In (i, t) (it_armed s) -> In (Begun i t) os /\ ~ In i (it_queued s) /\ ~ In i (acted os);
  kn_queued : forall i, In i (it_queued s) -> (exists t, In (Begun i t) os /\ t <= it_now s) /\ ~ In i (acted os);
  kn_handles : forall i t, In (i, t) (it_handles s) -> In (Begun i t) os;
  kn_acted : forall i n, In (Acted i n) os -> exists t, In (Begun i t) os /\ t <= n;
  kn_once : NoDup (acted os);
  kn_begun : forall i t, In (Begun i t) os -> (i < it_next s)%nat;
  kn_same : forall i t u, In (Begun i t) os -> In (Begun i u) os -> t = u;
  kn_kept : forall i t, In (Begun i t) os -> In (i, t) (it_armed s) \/ In i (it_queued s) \/ In i (acted os) \/ In (Cancelled i) os
}.

Lemma in_acted i os : In i (acted os) <-> exists n, In (Acted i n) os.
Proof.
  unfold acted. rewrite in_flat_map. split.
  - intros (o & O & X). destruct o; try contradiction. destruct X as [->|[]]. eauto.
  - intros (n & O). eexists. split; [exact O|]. left. reflexivity.
Qed.

Lemma known_init now : known (itimers_init now) [].
Proof. constructor; cbn; try contradiction; constructor. Qed.

Lemma known_acted_begun s os i : known s os -> In i (acted os) -> (i < it_next s)%nat.
Proof. intros K X. apply in_acted in X as (n & X). destruct (kn_acted _ _ K _ _ X) as (t & B & _). exact (kn_begun _ _ K _ _ B). Qed.

Lemma known_queued_begun s os i : known s os -> In i (it_queued s) -> (i < it_next s)%nat.
Proof. intros K X. destruct (kn_queued _ _ K _ X) as ((t & B & _) & _). exact (kn_begun _ _ K _ _ B). Qed.

Lemma known_start s os t s' o : known s os -> start_timer s t = (s', o) -> known s' (os ++ o).
Proof.
  intros K E. injection E as <- <-. constructor; cbn [it_now it_armed it_queued it_handles it_next]; rewrite ?acted_app; cbn [acted flat_map app]; rewrite ?app_nil_r.
  - intros i u X. apply in_app_or in X as [X|[X|[]]].
    + destruct (kn_armed _ _ K _ _ X) as (A & B & C). split; [apply in_or_app; left; exact A|]. auto.
    + injection X as <- <-. split; [apply in_or_app; right; left; reflexivity|]. split; intro Y.
      * apply (known_queued_begun _ _ _ K) in Y. lia.
      * apply (known_acted_begun _ _ _ K) in Y. lia.
  - intros i X. destruct (kn_queued _ _ K _ X) as ((u & A & B) & C). split; [|exact C]. exists u. split; [apply in_or_app; left; exact A|exact B].
  - intros i u X. apply in_or_app. apply in_app_or in X as [X|[X|[]]]; [left; exact (kn_handles _ _ K _ _ X)|]. injection X as <- <-. right. left. reflexivity.
  - intros i n X. apply in_app_or in X as [X|[X|[]]]; [|discriminate]. destruct (kn_acted _ _ K _ _ X) as (u & A & B). exists u. split; [apply in_or_app; left; exact A|exact B].
  - exact (kn_once _ _ K).
  - intros i u X. apply in_app_or in X as [X|[X|[]]]; [apply (kn_begun _ _ K) in X; lia|]. injection X as <- <-. lia.
  - intros i u v X Y. apply in_app_or in X as [X|[X|[]]]; apply in_app_or in Y as [Y|[Y|[]]].
    + exact (kn_same _ _ K _ _ _ X Y).
    + injection Y as <- <-. apply (kn_begun _ _ K) in X. lia.
    + injection X as <- <-. apply (kn_begun _ _ K) in Y. lia.
    + congruence.
  - intros i u X. apply in_app_or in X as [X|[X|[]]].
    + destruct (kn_kept _ _ K _ _ X) as [Y|[Y|[Y|Y]]]; [left; apply in_or_app; auto|auto|auto|]. do 3 right. apply in_or_app. auto.
    + injection X as <- <-. left. apply in_or_app. right. left. reflexivity.
Qed.

Lemma known_call s os a s' o : known s os -> do_call s a = Ret (s', o) -> known s' (os ++ o).
Proof.
  intros K E. destruct a as [d|t|i|i|]; cbn [do_call] in E.
  - injection E as <- <-. eapply known_start; [exact K|reflexivity].
  - injection E as <- <-. eapply known_start; [exact K|reflexivity].
  - destruct (lookup i (it_handles s)) as [v|]; [|discriminate]. injection E as <- <-.
    assert (IN : forall x, In x (os ++ [Cancelled i]) <-> In x os \/ x = Cancelled i).
    { intros x. rewrite in_app_iff. cbn. intuition. }
    constructor; cbn [it_now it_armed it_queued it_handles it_next]; rewrite ?acted_app; cbn [acted flat_map app]; rewrite ?app_nil_r.
    + intros j t X. apply in_without in X as [X _]. destruct (kn_armed _ _ K _ _ X) as (A & B). split; [apply IN; auto|exact B].
    + intros j X. destruct (kn_queued _ _ K _ X) as ((t & A & B) & C). split; [|exact C]. exists t. split; [apply IN; auto|exact B].
    + intros j t X. apply IN. left. exact (kn_handles _ _ K _ _ X).
    + intros j n X. apply IN in X as [X|X]; [|discriminate]. destruct (kn_acted _ _ K _ _ X) as (t & A & B). exists t. split; [apply IN; auto|exact B].
    + exact (kn_once _ _ K).
    + intros j t X. apply IN in X as [X|X]; [|discriminate]. exact (kn_begun _ _ K _ _ X).
    + intros j t u X Y. apply IN in X as [X|X]; [|discriminate]. apply IN in Y as [Y|Y]; [|discriminate]. exact (kn_same _ _ K _ _ _ X Y).
    + intros j t X. apply IN in X as [X|X]; [|discriminate]. destruct (Nat.eq_dec j i) as [->|N1]; [do 3 right; apply IN; auto|].
      destruct (kn_kept _ _ K _ _ X) as [Y|[Y|[Y|Y]]]; [left; apply in_without; auto|auto|auto|]. do 3 right. apply IN. auto.
  - destruct (lookup i (it_handles s)) as [v|]; [|discriminate]. injection E as <- <-. rewrite app_nil_r.
    destruct K. constructor; cbn; auto. intros j t X. apply in_without in X as [X _]. auto.
  - injection E as <- <-. assert (IN : forall x, x <> Ended -> (In x (os ++ [Ended]) <-> In x os)).
    { intros x X. rewrite in_app_iff. cbn. intuition congruence. }
    constructor; rewrite ?acted_app; cbn [acted flat_map app]; rewrite ?app_nil_r.
    + intros j t X. rewrite IN by discriminate. exact (kn_armed _ _ K _ _ X).
    + intros j X. destruct (kn_queued _ _ K _ X) as ((t & A & B) & C). split; [|exact C]. exists t. rewrite IN by discriminate. auto.
    + intros j t X. rewrite IN by discriminate. exact (kn_handles _ _ K _ _ X).
    + intros j n X. rewrite IN in X by discriminate. destruct (kn_acted _ _ K _ _ X) as (t & A & B). exists t. rewrite IN by discriminate. auto.
    + exact (kn_once _ _ K).
    + intros j t X. rewrite IN in X by discriminate. exact (kn_begun _ _ K _ _ X).
    + intros j t u X Y. rewrite IN in X, Y by discriminate. exact (kn_same _ _ K _ _ _ X Y).
    + intros j t X. rewrite IN in X by discriminate. rewrite (IN (Cancelled j)) by discriminate. exact (kn_kept _ _ K _ _ X).
Qed.

Lemma known_calls l : forall s os s' o, known s os -> do_calls s l = Ret (s', o) -> known s' (os ++ o).
Proof.
  induction l as [|a l IH]; intros s os s' o K E; cbn [do_calls] in E; [injection E as <- <-; rewrite app_nil_r; exact K|].
  destruct (do_call s a) as [[s1 o1]|] eqn:E1; cbn [obind] in E; [|discriminate].
  destruct (do_calls s1 l) as [[s2 o2]|] eqn:E2; cbn [obind] in E; [|discriminate]. injection E as <- <-. rewrite app_assoc.
  eapply IH; [|exact E2]. eapply known_call; eauto.
Qed.

Section Facts.
Context {W : Type}.
Context (action : nat -> W -> W * list icall).

Lemma known_step s os w e s' w' o : known s os -> itimers_step action s w e = Ret (s', w', o) -> known s' (os ++ o).
Proof.
  intros K E. destruct e as [a|d|i|i]; cbn [itimers_step] in E.
  - destruct (do_call s a) as [[s1 o1]|] eqn:E1; cbn [obind] in E; [|discriminate]. injection E as <- _ <-. eapply known_call; eauto.
  - injection E as <- _ <-. rewrite app_nil_r. destruct K. constructor; cbn; auto.
    intros i X. destruct (kn_queued0 _ X) as ((t & A & B) & C). split; [|exact C]. exists t. split; [exact A|lia].
  - destruct (lookup i (it_armed s)) as [t|] eqn:L; [|injection E as <- _ <-; rewrite app_nil_r; exact K].
    destruct (N.leb_spec t (it_now s)); [|injection E as <- _ <-; rewrite app_nil_r; exact K]. injection E as <- _ <-. rewrite app_nil_r.
    apply lookup_in in L. destruct (kn_armed _ _ K _ _ L) as (A & B & C).
    constructor; cbn [it_now it_armed it_queued it_handles it_next].
    + intros j u X. apply in_without in X as [X Y]. destruct (kn_armed _ _ K _ _ X) as (A1 & B1 & C1). split; [exact A1|]. split; [|exact C1].
      intro Z. apply in_app_or in Z as [Z|[Z|[]]]; [auto|]. apply Y. symmetry. exact Z.
    + intros j X. apply in_app_or in X as [X|[<-|[]]]; [exact (kn_queued _ _ K _ X)|]. split; [exists t; auto|exact C].
    + exact (kn_handles _ _ K).
    + exact (kn_acted _ _ K).
    + exact (kn_once _ _ K).
    + exact (kn_begun _ _ K).
    + exact (kn_same _ _ K).
    + intros j u X. destruct (Nat.eq_dec j i) as [->|N1]; [right; left; apply in_or_app; right; left; reflexivity|].
      destruct (kn_kept _ _ K _ _ X) as [Y|[Y|[Y|Y]]]; [left; apply in_without; auto|right; left; apply in_or_app; auto|auto|auto].
  - destruct (existsb (Nat.eqb i) (it_queued s)) eqn:Q; [|injection E as <- _ <-; rewrite app_nil_r; exact K].
    apply existsb_nat in Q. destruct (action i w) as [w1 l].
    match type of E with context [do_calls ?z l] => destruct (do_calls z l) as [[s2 o2]|] eqn:E2; cbn [obind] in E; [|discriminate] end.
    injection E as <- _ <-. change (Acted i (it_now s) :: o2) with ([Acted i (it_now s)] ++ o2). rewrite app_assoc. eapply known_calls; [|exact E2].
    destruct (kn_queued _ _ K _ Q) as ((t & A & B) & C).
    assert (IN : forall x, In x (os ++ [Acted i (it_now s)]) <-> In x os \/ x = Acted i (it_now s)).
    { intros x. rewrite in_app_iff. cbn. intuition. }
    assert (AC : forall j, In j (acted (os ++ [Acted i (it_now s)])) <-> In j (acted os) \/ j = i).
    { intros j. rewrite acted_app, in_app_iff. cbn. intuition. }
    constructor; cbn [it_now it_armed it_queued it_handles it_next].
    + intros j u X. destruct (kn_armed _ _ K _ _ X) as (A1 & B1 & C1). split; [apply IN; auto|]. split.
      * intro Y. apply in_filter_not in Y as [Y _]. auto.
      * intro Y. apply AC in Y as [Y| ->]; auto.
    + intros j X. apply in_filter_not in X as [X Y]. destruct (kn_queued _ _ K _ X) as ((u & A1 & B1) & C1). split; [exists u; split; [apply IN; auto|exact B1]|].
      intro Z. apply AC in Z as [Z|Z]; auto.
    + intros j u X. apply IN. left. exact (kn_handles _ _ K _ _ X).
    + intros j n X. apply IN in X as [X|X].
      * destruct (kn_acted _ _ K _ _ X) as (u & A1 & B1). exists u. split; [apply IN; auto|exact B1].
      * injection X as -> ->. exists t. split; [apply IN; auto|exact B].
    + rewrite acted_app. cbn. pose proof (kn_once _ _ K) as N1. revert C N1. generalize (acted os). clear.
      induction l as [|x l IH]; intros C N1; cbn; [constructor; [tauto|constructor]|]. inversion_clear N1 as [|? ? N2 N3]. constructor.
      * intro X. apply in_app_or in X as [X|[->|[]]]; [auto|]. apply C. left. reflexivity.
      * apply IH; [|exact N3]. intro X. apply C. right. exact X.
    + intros j u X. apply IN in X as [X|X]; [|discriminate]. exact (kn_begun _ _ K _ _ X).
    + intros j u v X Y. apply IN in X as [X|X]; [|discriminate]. apply IN in Y as [Y|Y]; [|discriminate]. exact (kn_same _ _ K _ _ _ X Y).
    + intros j u X. apply IN in X as [X|X]; [|discriminate]. rewrite AC, IN, in_filter_not.
      destruct (Nat.eq_dec j i) as [->|N1]; [auto|]. destruct (kn_kept _ _ K _ _ X) as [Y|[Y|[Y|Y]]]; auto.
Qed.

Lemma known_run es : forall s os w s' w' o, known s os -> itimers_run action s w es = Ret (s', w', o) -> known s' (os ++ o).
Proof.
  induction es as [|e es IH]; intros s os w s' w' o K E; cbn [itimers_run] in E; [injection E as <- _ <-; rewrite app_nil_r; exact K|].
  destruct (itimers_step action s w e) as [[[s1 w1] o1]|] eqn:E1; cbn [obind] in E; [|discriminate].
  destruct (itimers_run action s1 w1 es) as [[[s2 w2] o2]|] eqn:E2; cbn [obind] in E; [|discriminate]. injection E as <- _ <-. rewrite app_assoc.
  eapply IH; [|exact E2]. eapply known_step; eauto.
Qed.

Lemma known_history now w es s w' os : itimers_run action (itimers_init now) w es = Ret (s, w', os) -> known s os.
Proof. intros E. exact (known_run _ _ _ _ _ _ _ (known_init now) E). Qed.

(** ** The properties *)
Lemma acted_once now w es s w' os : itimers_run action (itimers_init now) w es = Ret (s, w', os) -> NoDup (acted os).
Proof. intros E. exact (kn_once _ _ (known_history _ _ _ _ _ _ E)). Qed.

Lemma acted_late now w es s w' os i n : itimers_run action (itimers_init now) w es = Ret (s, w', os) -> In (Acted i n) os ->
  exists t, In (Begun i t) os /\ t <= n.
Proof. intros E. exact (kn_acted _ _ (known_history _ _ _ _ _ _ E) i n). Qed.

Lemma told_expiry now w es s w' os i : itimers_run action (itimers_init now) w es = Ret (s, w', os) ->
  match expires_at s i with Ret t => In (Begun i t) os | UB => ~ In i (map fst (it_handles s)) end.
Proof.
  intros E. pose proof (known_history _ _ _ _ _ _ E) as K. unfold expires_at. destruct (lookup i (it_handles s)) as [t|] eqn:L.
  - exact (kn_handles _ _ K _ _ (lookup_in _ _ _ L)).
  - intro X. apply in_map_iff in X as ((j & t) & F & X). cbn in F. subst j. destruct (lookup_some _ _ _ X). congruence.
Qed.

(** A timer that is neither armed nor queued stays so. *)
Definition gone (i : nat) (s : itimers) : Prop := (i < it_next s)%nat /\ ~ In i (map fst (it_armed s)) /\ ~ In i (it_queued s).

Lemma gone_call i s a s' o : gone i s -> do_call s a = Ret (s', o) -> gone i s' /\ ~ In i (acted o).
Proof.
  intros (G1 & G2 & G3) E. destruct a as [d|t|j|j|]; cbn [do_call] in E.
  1,2: injection E as <- <-; split; [|intros []]; split; [cbn; lia|]; split; [|exact G3]; cbn [it_armed]; rewrite map_app; intro X;
    apply in_app_or in X as [X|[X|[]]]; [auto|cbn in X; lia].
  - destruct (lookup j (it_handles s)); [|discriminate]. injection E as <- <-. split; [|intros []]. split; [exact G1|]. split; [|exact G3].
    cbn [it_armed]. intro X. apply G2. apply in_map_iff in X as (x & F & X). apply in_without in X as [X _]. apply in_map_iff. eauto.
  - destruct (lookup j (it_handles s)); [|discriminate]. injection E as <- <-. split; [|intros []]. split; [exact G1|]. split; [exact G2|exact G3].
  - injection E as <- <-. split; [|intros []]. split; [exact G1|]. split; [exact G2|exact G3].
Qed.

Lemma gone_calls i l : forall s s' o, gone i s -> do_calls s l = Ret (s', o) -> gone i s' /\ ~ In i (acted o).
Proof.
  induction l as [|a l IH]; intros s s' o G E; cbn [do_calls] in E; [injection E as <- <-; split; [exact G|intros []]|].
  destruct (do_call s a) as [[s1 o1]|] eqn:E1; cbn [obind] in E; [|discriminate].
  destruct (do_calls s1 l) as [[s2 o2]|] eqn:E2; cbn [obind] in E; [|discriminate]. injection E as <- <-.
  destruct (gone_call _ _ _ _ _ G E1) as [G1 N1]. destruct (IH _ _ _ G1 E2) as [G2 N2]. split; [exact G2|].
  rewrite acted_app. intro X. apply in_app_or in X as [X|X]; auto.
Qed.

Lemma gone_step i s w e s' w' o : gone i s -> itimers_step action s w e = Ret (s', w', o) -> gone i s' /\ ~ In i (acted o).
Proof.
  intros G E. destruct e as [a|d|j|j]; cbn [itimers_step] in E.
  - destruct (do_call s a) as [[s1 o1]|] eqn:E1; cbn [obind] in E; [|discriminate]. injection E as <- _ <-. eapply gone_call; eauto.
  - injection E as <- _ <-. split; [exact G|intros []].
  - destruct (lookup j (it_armed s)) as [t|] eqn:L; [|injection E as <- _ <-; split; [exact G|intros []]].
    destruct (t <=? it_now s); injection E as <- _ <-; (split; [|intros []]); [|exact G]. destruct G as (G1 & G2 & G3). split; [exact G1|].
    apply lookup_in in L. split; cbn [it_armed it_queued].
    + intro X. apply G2. apply in_map_iff in X as (x & F & X). apply in_without in X as [X _]. apply in_map_iff. eauto.
    + intro X. apply in_app_or in X as [X|[->|[]]]; [auto|]. apply G2. apply in_map_iff. exists (i, t). auto.
  - destruct (existsb (Nat.eqb j) (it_queued s)) eqn:Q; [|injection E as <- _ <-; split; [exact G|intros []]].
    apply existsb_nat in Q. destruct (action j w) as [w1 l].
    match type of E with context [do_calls ?z l] => destruct (do_calls z l) as [[s2 o2]|] eqn:E2; cbn [obind] in E; [|discriminate] end.
    injection E as <- _ <-. destruct G as (G1 & G2 & G3). apply (gone_calls i) in E2 as [G N1].
    + split; [exact G|]. cbn. intros [->|X]; auto.
    + split; [exact G1|]. split; [exact G2|]. cbn [it_queued]. intro X. apply in_filter_not in X as [X _]. auto.
Qed.

Lemma gone_run i es : forall s w s' w' o, gone i s -> itimers_run action s w es = Ret (s', w', o) -> ~ In i (acted o).
Proof.
  induction es as [|e es IH]; intros s w s' w' o G E; cbn [itimers_run] in E; [injection E as <- _ <-; intros []|].
  destruct (itimers_step action s w e) as [[[s1 w1] o1]|] eqn:E1; cbn [obind] in E; [|discriminate].
  destruct (itimers_run action s1 w1 es) as [[[s2 w2] o2]|] eqn:E2; cbn [obind] in E; [|discriminate]. injection E as <- _ <-.
  destruct (gone_step _ _ _ _ _ _ _ G E1) as [G1 N1]. rewrite acted_app. intro X. apply in_app_or in X as [X|X]; [auto|]. exact (IH _ _ _ _ _ G1 E2 X).
Qed.

Lemma cancelled_in_time now w es1 s1 w1 o1 i es2 s2 w2 o2 : itimers_run action (itimers_init now) w es1 = Ret (s1, w1, o1) ->
  ~ In i (it_queued s1) -> itimers_run action s1 w1 (ICall (CancelTimer i) :: es2) = Ret (s2, w2, o2) -> ~ In i (acted o2).
Proof.
  intros E N1 R. pose proof (known_history _ _ _ _ _ _ E) as K. cbn [itimers_run itimers_step do_call] in R.
  destruct (lookup i (it_handles s1)) as [t|] eqn:L; cbn [obind] in R; [|discriminate].
  match type of R with context [itimers_run action ?z w1 es2] => destruct (itimers_run action z w1 es2) as [[[s3 w3] o3]|] eqn:E3; cbn [obind] in R; [|discriminate] end.
  injection R as _ _ <-. cbn. change (~ In i (acted o3)). refine (gone_run _ _ _ _ _ _ _ _ E3).
  split; [exact (kn_begun _ _ K _ _ (kn_handles _ _ K _ _ (lookup_in _ _ _ L)))|]. split; [|exact N1].
  cbn [it_armed]. intro X. apply in_map_iff in X as (x & F & X). apply in_without in X as [_ X]. auto.
Qed.

Lemma not_forgotten now w es s w' os i t : itimers_run action (itimers_init now) w es = Ret (s, w', os) ->
  In (Begun i t) os -> ~ In (Cancelled i) os -> ~ In i (acted os) ->
  exists s1, itimers_run action s w' [IPass (t - it_now s); IExpire i] = Ret (s1, w', []) /\ In i (it_queued s1).
Proof.
  intros E B C D. pose proof (known_history _ _ _ _ _ _ E) as K. cbn [itimers_run itimers_step obind it_armed it_now it_queued it_handles it_next].
  destruct (kn_kept _ _ K _ _ B) as [X|[X|[X|X]]]; [| |contradiction|contradiction].
  - destruct (lookup_some _ _ _ X) as (u & L). rewrite L. assert (u = t) as ->.
    { apply lookup_in in L. exact (kn_same _ _ K _ _ _ (proj1 (kn_armed _ _ K _ _ L)) B). }
    destruct (N.leb_spec t (it_now s + (t - it_now s))); [|lia]. cbn [obind]. eexists. split; [reflexivity|]. apply in_or_app. right. left. reflexivity.
  - destruct (lookup i (it_armed s)) as [u|] eqn:L.
    + apply lookup_in in L. destruct (kn_armed _ _ K _ _ L) as (_ & Z & _). contradiction.
    + cbn [obind]. eexists. split; [reflexivity|exact X].
Qed.
End Facts.

(** ** Cases *)
Definition passive_action (i : nat) (w : unit) : unit * list icall := (w, []).

Lemma cancelled_too_late : exists es1 es2 s w os, itimers_run passive_action (itimers_init 0) tt (es1 ++ ICall (CancelTimer 0) :: es2) = Ret (s, w, os) /\
  os = [Begun 0 5; Cancelled 0; Acted 0 5].
Proof. exists [ICall (StartIn 5); IPass 5; IExpire 0], [IRun 0]. do 3 eexists. split; vm_compute; reflexivity. Qed.

Lemma acts_after_shutdown : exists es s w os, itimers_run passive_action (itimers_init 0) tt es = Ret (s, w, os) /\
  os = [Begun 0 5; Ended; Acted 0 6].
Proof. exists [ICall (StartIn 5); ICall EndSession; IPass 6; IExpire 0; IRun 0]. do 3 eexists. split; vm_compute; reflexivity. Qed.

(** Starting a timer tells the time at which it expires. *)
Lemma start_tells {W : Type} now (w : W) es s w' os (action : nat -> W -> W * list icall) :
  itimers_run action (itimers_init now) w es = Ret (s, w', os) -> forall a s1 o, do_call s a = Ret (s1, o) ->
  match a with
  | StartIn d => o = [Begun (it_next s) (it_now s + d)] /\ expires_at s1 (it_next s) = Ret (it_now s + d)
  | StartAt t => o = [Begun (it_next s) t] /\ expires_at s1 (it_next s) = Ret t
  | _ => True
  end.
Proof.
  intros E a s1 o C. pose proof (known_history action _ _ _ _ _ _ E) as K.
  assert (L : forall t, lookup (it_next s) (it_handles s ++ [(it_next s, t)]) = Some t).
  { intros t. assert (F : forall i u, In (i, u) (it_handles s) -> i <> it_next s).
    { intros i u X. apply (kn_handles _ _ K), (kn_begun _ _ K) in X. lia. }
    revert F. generalize (it_handles s). induction l as [|[i u] l IH]; intros F; cbn; [rewrite Nat.eqb_refl; reflexivity|].
    destruct (Nat.eqb_spec i (it_next s)) as [X|X]; [exfalso; apply (F i u); [left; reflexivity|exact X]|]. apply IH. intros j v Y. apply (F j v). right. exact Y. }
  destruct a as [d|t| | |]; try exact I; cbn [do_call start_timer] in C; injection C as <- <-; (split; [reflexivity|]); unfold expires_at; cbn [it_handles]; rewrite L; reflexivity.
Qed.

(** An action that starts its timer again. *)
Definition polling_action (i : nat) (w : unit) : unit * list icall := (w, [StartIn 10]).

Lemma polling_goes_on n : forall s k t, it_armed s = [(k, t)] -> it_queued s = [] ->
  exists es s' os k' t', itimers_run polling_action s tt es = Ret (s', tt, os) /\ List.length (acted os) = n /\
    it_armed s' = [(k', t')] /\ it_queued s' = [] /\ (forall a, ~ In (ICall a) es).
Proof.
  induction n as [|n IH]; intros s k t A Q.
  - exists [], s, [], k, t. cbn. repeat split; auto.
  - set (s1 := {| it_now := it_now s + t; it_armed := [(it_next s, it_now s + t + 10)]; it_queued := [];
                  it_handles := it_handles s ++ [(it_next s, it_now s + t + 10)]; it_next := S (it_next s) |}).
    destruct (IH s1 _ _ eq_refl eq_refl) as (es & s' & os & k' & t' & R & L & A' & Q' & NC).
    exists (IPass t :: IExpire k :: IRun k :: es), s', (Acted k (it_now s + t) :: Begun (it_next s) (it_now s + t + 10) :: os), k', t'.
    split; [|split; [cbn; f_equal; exact L|split; [exact A'|split; [exact Q'|]]]].
    + cbn [itimers_run itimers_step obind it_now it_armed it_queued it_handles it_next]. rewrite A, Q. cbn [lookup]. rewrite ?Nat.eqb_refl.
      destruct (N.leb_spec t (it_now s + t)); [|lia]. cbn [obind app it_queued existsb without filter fst]. rewrite ?Nat.eqb_refl. cbn [negb orb].
      cbn [polling_action do_calls do_call start_timer obind it_now it_armed it_queued it_handles it_next app filter]. rewrite ?Nat.eqb_refl. cbn [negb app].
      fold s1. rewrite R. reflexivity.
    + intros a [X|[X|[X|X]]]; try discriminate. exact (NC a X).
Qed.

Lemma polls_forever n : exists es s os, (forall a, ~ In (ICall a) es) /\
  itimers_run polling_action (itimers_init 0) tt ([ICall (StartIn 10); ICall EndSession] ++ es) = Ret (s, tt, [Begun 0 10; Ended] ++ os) /\
  List.length (acted os) = n /\ it_armed s <> [].
Proof.
  destruct (polling_goes_on n {| it_now := 0; it_armed := [(0%nat, 10)]; it_queued := []; it_handles := [(0%nat, 10)]; it_next := 1 |} _ _ eq_refl eq_refl)
    as (es & s & os & k & t & R & L & A & _ & NC).
  exists es, s, os. split; [exact NC|]. split; [|split; [exact L|rewrite A; discriminate]].
  cbn [app itimers_run itimers_step do_call start_timer obind itimers_init it_now it_armed it_queued it_handles it_next]. 
  change (0 + 10) with 10. rewrite R. reflexivity.
Qed.
