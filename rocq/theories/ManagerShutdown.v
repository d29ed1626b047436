(** Every channel of a manager is shut down once by its [shutdown]. *)
From Verif Require Import Prelude Ser4 Messages Mbap SpecMbap Client AsyncWrite ClientConn ClientTcp SpecClientTcp Server Listener ServerConn ServerTcp SpecServerTcp
  Manager SpecManager ManagerFacts.
From Coq Require Import Permutation Lia.

Lemma split_snoc {A : Type} (l x a b : list A) m : l ++ x = a ++ m :: b ->
  (exists b', b = b' ++ x /\ l = a ++ m :: b') \/ (exists a', a = l ++ a' /\ x = a' ++ m :: b).
Proof.
  revert a. induction l as [|y l IH]; intros a E.
  - right. exists a. split; [reflexivity|exact E].
  - destruct a as [|z a]; cbn [app] in E; injection E as <- E.
    + left. exists l. subst b. split; reflexivity.
    + destruct (IH _ E) as [(b' & -> & ->)|(a' & -> & ->)]; [left; exists b'|right; exists a']; split; reflexivity.
Qed.

Lemma remaining_in l done i : In i (remaining l done) <-> In i l /\ ~ In i done.
Proof.
  unfold remaining. rewrite filter_In. split; intros (A & B); split; try exact A.
  - intros X. apply negb_true_iff in B. rewrite <- not_true_iff_false in B. apply B. apply existsb_exists. exists i. split; [exact X|apply Nat.eqb_refl].
  - apply negb_true_iff, not_true_iff_false. intros X. apply existsb_exists in X. destruct X as (j & X & Q). apply Nat.eqb_eq in Q. subst j. contradiction.
Qed.
Lemma remaining_none l done : (forall i, In i l -> In i done) -> remaining l done = [].
Proof.
  intros Q. destruct (remaining l done) as [|i r] eqn:E; [reflexivity|]. assert (X : In i (remaining l done)) by (rewrite E; left; reflexivity).
  apply remaining_in in X. destruct X as (X & Y). contradiction (Y (Q _ X)).
Qed.
Lemma remaining_nodup l done : NoDup l -> NoDup (remaining l done).
Proof. apply NoDup_filter. Qed.

Lemma nodup_tail {A} (a b : list A) : NoDup (a ++ b) -> NoDup b.
Proof. induction a as [|x a IH]; intros N0; [exact N0|]. inversion N0; subst. apply IH. assumption. Qed.

Section Shutdown.
Context {U V : Type}.
Context (pol : copy_policy).
Implicit Type s : manager U V.

Lemma clients_first_perm s l : Permutation (clients_first s l) l.
Proof.
  unfold clients_first. induction l as [|i l IH]; [constructor|]. cbn [filter]. destruct (is_client s i); cbn [negb app].
  - constructor. exact IH.
  - rewrite <- Permutation_middle. constructor. exact IH.
Qed.
Lemma clients_first_ext s s' l : (forall i, In i l -> is_client s' i = is_client s i) -> clients_first s' l = clients_first s l.
Proof.
  intros E. unfold clients_first. f_equal; apply filter_ext_in; intros i I0; rewrite (E _ I0); reflexivity.
Qed.

Definition todo_of s : list nat := match mg_shutting s with Some l => l | None => [] end.

Record minv s (l : list mmark) : Prop := {
  mi_bound : forall i, In i (mg_made s ++ registered l) -> (i < List.length (mg_channels s))%nat;
  mi_regs : NoDup (mg_made s ++ registered l);
  mi_once : NoDup (told l ++ todo_of s);
  mi_incl : incl (told l ++ todo_of s) (registered l);
  mi_free : mg_shutting s = None ->
    mg_clients s ++ mg_servers s = clients_first s (remaining (registered l) (told l)) /\
    (forall i, In i (mg_clients s) -> is_client s i = true) /\ (forall i, In i (mg_servers s) -> is_client s i = false);
  mi_held : forall todo, mg_shutting s = Some todo ->
    exists a b, l = a ++ Locked :: b /\ ~ In Locked b /\ ~ In Returned b /\ registered b = [] /\
      clients_first s (remaining (registered a) (told a)) = told b ++ todo
}.

Lemma filter_all {A} (p : A -> bool) l : (forall x, In x l -> p x = true) -> filter p l = l.
Proof.
  induction l as [|x l IH]; intros Q; [reflexivity|]. cbn [filter]. rewrite (Q x) by (left; reflexivity). rewrite IH; [reflexivity|]. intros y Y. apply Q. right. exact Y.
Qed.
Lemma filter_none {A} (p : A -> bool) l : (forall x, In x l -> p x = false) -> filter p l = [].
Proof.
  induction l as [|x l IH]; intros Q; [reflexivity|]. cbn [filter]. rewrite (Q x) by (left; reflexivity). apply IH. intros y Y. apply Q. right. exact Y.
Qed.

(** The two lists of the manager, given that together they are in order. *)
Lemma lists s l : mg_clients s ++ mg_servers s = clients_first s l -> (forall i, In i (mg_clients s) -> is_client s i = true) ->
  (forall i, In i (mg_servers s) -> is_client s i = false) ->
  mg_clients s = filter (is_client s) l /\ mg_servers s = filter (fun i => negb (is_client s i)) l.
Proof.
  intros E C S0. unfold clients_first in E. split.
  - assert (Q : filter (is_client s) (mg_clients s ++ mg_servers s) = filter (is_client s) (filter (is_client s) l ++ filter (fun i => negb (is_client s i)) l)) by (rewrite E; reflexivity).
    rewrite !filter_app in Q. rewrite (filter_all _ (mg_clients s)), (filter_none _ (mg_servers s)) in Q; try assumption.
    rewrite (filter_all _ (filter _ l)), (filter_none _ (filter (fun i => negb _) l)) in Q; [rewrite !app_nil_r in Q; exact Q| |].
    + intros x X. apply filter_In in X. apply negb_true_iff. exact (proj2 X).
    + intros x X. apply filter_In in X. exact (proj2 X).
  - assert (Q : filter (fun i => negb (is_client s i)) (mg_clients s ++ mg_servers s) = filter (fun i => negb (is_client s i)) (filter (is_client s) l ++ filter (fun i => negb (is_client s i)) l)) by (rewrite E; reflexivity).
    rewrite !filter_app in Q. rewrite (filter_none _ (mg_clients s)), (filter_all _ (mg_servers s)) in Q; try (intros x X; rewrite ?(C _ X), ?(S0 _ X); reflexivity).
    rewrite (filter_none _ (filter _ l)), (filter_all _ (filter (fun i => negb _) l)) in Q; [exact Q| |].
    + intros x X. apply filter_In in X. exact (proj2 X).
    + intros x X. apply filter_In in X. rewrite (proj2 X). reflexivity.
Qed.

Lemma minv_step s l s' x : minv s l -> did s s' x -> minv s' (l ++ x).
Proof.
  intros I0 D. destruct I0 as [Bd Rg On Ic Fr Hd]. destruct D as
    [|c|i s' Im Sh Sh' Ec Em K|s' Sh Sh' Ec Em E1 E2|s' Sh Sh' Ec Em E1 E2|s' m i Em E1 E2 Sh Ln Cl K|s' todo i m Sh Sh' Em E1 E2 Ln Cl K].
  - rewrite app_nil_r. constructor; assumption.
  - set (s' := fst (make s c)).
    assert (Cs : forall i, (i < List.length (mg_channels s))%nat -> is_client s' i = is_client s i).
    { intros i L. unfold is_client, s'. cbn [fst make mg_channels]. rewrite nth_error_app1 by exact L. reflexivity. }
    assert (Br : forall i, In i (registered l) -> (i < List.length (mg_channels s))%nat) by (intros i X; apply Bd, in_or_app; right; exact X).
    constructor; rewrite ?registered_app, ?told_app; cbn [registered told flat_map]; rewrite ?app_nil_r; unfold s'; cbn [fst make mg_channels mg_made mg_shutting mg_clients mg_servers];
      unfold todo_of in *; cbn [fst make mg_shutting].
    + intros i X. rewrite app_length. cbn [List.length]. rewrite <- app_assoc in X. apply in_app_or in X.
      destruct X as [X|[<-|X]]; [|lia|]; (apply Nat.lt_le_trans with (List.length (mg_channels s)); [apply Bd, in_or_app; tauto|lia]).
    + rewrite <- app_assoc. cbn [app]. apply (Permutation_NoDup (Permutation_middle _ _ _)). constructor; [|exact Rg]. intros X. apply Bd in X. lia.
    + exact On.
    + exact Ic.
    + intros F. destruct (Fr F) as (A & B & C). split; [|split].
      * rewrite A. symmetry. apply clients_first_ext. intros i X. apply remaining_in in X. apply (Cs i), Br. exact (proj1 X).
      * intros i X. rewrite <- (B _ X). apply (Cs i), Br. assert (Y : In i (clients_first s (remaining (registered l) (told l)))) by (rewrite <- A; apply in_or_app; left; exact X).
        apply (Permutation_in _ (clients_first_perm _ _)) in Y. apply remaining_in in Y. exact (proj1 Y).
      * intros i X. rewrite <- (C _ X). apply (Cs i), Br. assert (Y : In i (clients_first s (remaining (registered l) (told l)))) by (rewrite <- A; apply in_or_app; right; exact X).
        apply (Permutation_in _ (clients_first_perm _ _)) in Y. apply remaining_in in Y. exact (proj1 Y).
    + intros todo F. destruct (Hd _ F) as (a & b & -> & N1 & N2 & Rb & Q). exists a, (b ++ [Made (List.length (mg_channels s))]).
      split; [rewrite <- app_assoc; reflexivity|]. split; [intros X; apply in_app_or in X; destruct X as [X|[X|[]]]; [exact (N1 X)|discriminate X]|].
      split; [intros X; apply in_app_or in X; destruct X as [X|[X|[]]]; [exact (N2 X)|discriminate X]|]. rewrite registered_app, told_app, Rb. cbn [registered told flat_map app]. rewrite app_nil_r.
      split; [reflexivity|]. rewrite <- Q. apply clients_first_ext. intros i X. apply remaining_in in X. apply (Cs i), Br. rewrite registered_app. apply in_or_app. left. exact (proj1 X).
  - assert (Cs : forall j, is_client s' j = is_client s j) by (intros j; unfold is_client; rewrite Ec; reflexivity).
    assert (Ni : ~ In i (registered l)).
    { intros X. apply in_split in Im. destruct Im as (p & q & E). rewrite E in Rg. rewrite <- app_assoc in Rg. cbn [app] in Rg.
      apply NoDup_remove_2 in Rg. apply Rg. apply in_or_app. right. apply in_or_app. right. exact X. }
    assert (Nt : ~ In i (told l)) by (intros X; apply Ni, Ic, in_or_app; left; exact X).
    destruct (Fr Sh) as (A & B & C).
    assert (Rm : remaining (registered l ++ [i]) (told l) = remaining (registered l) (told l) ++ [i]).
    { unfold remaining. rewrite filter_app. f_equal. cbn [filter]. assert (Z : existsb (Nat.eqb i) (told l) = false); [|rewrite Z; reflexivity].
      apply not_true_iff_false. intros X. apply existsb_exists in X. destruct X as (j & X & Q). apply Nat.eqb_eq in Q. subst j. exact (Nt X). }
    constructor; rewrite ?registered_app, ?told_app; cbn [registered told flat_map app]; rewrite ?app_nil_r; unfold todo_of in *; rewrite ?Sh' in *; rewrite ?Sh in *.
    + intros j X. rewrite Ec. apply Bd. rewrite Em in X. apply in_app_or in X. destruct X as [X|X]; [apply filter_In in X; apply in_or_app; left; exact (proj1 X)|].
      apply in_app_or in X. destruct X as [X|[<-|[]]]; [apply in_or_app; right; exact X|apply in_or_app; left; exact Im].
    + rewrite Em. rewrite app_assoc. apply (Permutation_NoDup (Permutation_cons_append _ _)). constructor.
      * intros X. apply in_app_or in X. destruct X as [X|X]; [|exact (Ni X)]. apply filter_In in X. destruct X as (_ & X). rewrite Nat.eqb_refl in X. discriminate X.
      * clear - Rg. induction (mg_made s) as [|j m IH]; [exact Rg|]. cbn [app filter] in *. inversion Rg as [|? ? X Y]; subst. destruct (Nat.eqb i j); cbn [negb]; [exact (IH Y)|].
        cbn [app]. constructor; [|exact (IH Y)]. intros Z. apply X. apply in_app_or in Z. apply in_or_app. destruct Z as [Z|Z]; [left; apply filter_In in Z; exact (proj1 Z)|right; exact Z].
    + exact On.
    + intros j X. apply in_or_app. left. exact (Ic _ X).
    + intros _. rewrite Rm. destruct (lists _ _ A B C) as (L1 & L2). split; [|split].
      * rewrite (clients_first_ext s s') by (intros; apply Cs). unfold clients_first. rewrite !filter_app. cbn [filter].
        destruct K as [(K & -> & ->)|(K & -> & ->)]; rewrite K; cbn [negb]; rewrite ?app_nil_r, L1, L2; rewrite <- ?app_assoc; reflexivity.
      * intros j X. rewrite Cs. destruct K as [(K & E1 & E2)|(K & E1 & E2)]; rewrite E1 in X; [|exact (B _ X)]. apply in_app_or in X. destruct X as [X|[<-|[]]]; [exact (B _ X)|exact K].
      * intros j X. rewrite Cs. destruct K as [(K & E1 & E2)|(K & E1 & E2)]; rewrite E2 in X; [exact (C _ X)|]. apply in_app_or in X. destruct X as [X|[<-|[]]]; [exact (C _ X)|exact K].
    + intros todo F. discriminate F.
  - assert (Cs : forall j, is_client s' j = is_client s j) by (intros j; unfold is_client; rewrite Ec; reflexivity).
    destruct (Fr Sh) as (A & B & C).
    constructor; rewrite ?registered_app, ?told_app; cbn [registered told flat_map app]; rewrite ?app_nil_r; unfold todo_of in *; rewrite ?Sh' in *; rewrite ?Sh in *.
    + rewrite Em, Ec. exact Bd.
    + rewrite Em. exact Rg.
    + rewrite A. rewrite app_nil_r in On. rewrite (Permutation_app_head _ (clients_first_perm _ _)).
      assert (Q : NoDup (remaining (registered l) (told l))) by (apply remaining_nodup; exact (nodup_tail _ _ Rg)).
      revert On Q. generalize (registered l). generalize (told l). clear. intros t r Nt Q.
      assert (Dj : forall i, In i t -> ~ In i (remaining r t)) by (intros i X Y; apply remaining_in in Y; tauto).
      revert Dj Q. generalize (remaining r t). clear r. induction t as [|i t IH]; intros r Dj Q; [exact Q|]. inversion Nt as [|? ? X Y]; subst. cbn [app]. constructor.
      * intros Z. apply in_app_or in Z. destruct Z as [Z|Z]; [exact (X Z)|]. exact (Dj i (or_introl eq_refl) Z).
      * apply (IH Y); [intros j J; apply Dj; right; exact J|exact Q].
    + rewrite A. intros i X. apply in_app_or in X. destruct X as [X|X]; [apply Ic, in_or_app; left; exact X|].
      apply (Permutation_in _ (clients_first_perm _ _)) in X. apply remaining_in in X. exact (proj1 X).
    + intros F. discriminate F.
    + intros todo F. injection F as <-. exists l, []. split; [reflexivity|]. split; [intros []|]. split; [intros []|]. split; [reflexivity|]. cbn [told flat_map app].
      rewrite A. apply clients_first_ext. intros; apply Cs.
  - assert (Cs : forall j, is_client s' j = is_client s j) by (intros j; unfold is_client; rewrite Ec; reflexivity).
    destruct (Hd _ Sh) as (a & b & -> & N1 & N2 & Rb & Q). rewrite app_nil_r in Q.
    constructor; rewrite ?registered_app, ?told_app in *; cbn [registered told flat_map app] in *; fold (registered b) (told b) in *; rewrite ?app_nil_r in *; unfold todo_of in *; rewrite ?Sh' in *; rewrite ?Sh in *.
    + rewrite Em, Ec. exact Bd.
    + rewrite Em. exact Rg.
    + exact On.
    + exact Ic.
    + intros _. rewrite E1, E2, Rb, app_nil_r, remaining_none; [split; [reflexivity|]; split; intros i []|].
      intros i X. rewrite app_nil_r in X. apply in_or_app. destruct (in_dec Nat.eq_dec i (told a)) as [Y|Y]; [left; exact Y|right]. rewrite <- Q.
      apply (Permutation_in _ (Permutation_sym (clients_first_perm _ _))). apply remaining_in. split; assumption.
    + intros todo F. discriminate F.
  - assert (Z : registered [m] = [] /\ told [m] = [] /\ m <> Locked /\ m <> Returned) by (destruct K as [(? & ? & ->)|(? & ? & ->)]; repeat split; discriminate).
    destruct Z as (Z1 & Z2 & Z3 & Z4).
    constructor; rewrite ?registered_app, ?told_app, ?Z1, ?Z2, ?app_nil_r; unfold todo_of in *; rewrite ?Sh, ?Em, ?E1, ?E2, ?Ln; try assumption.
    + intros F. destruct (Fr F) as (A & B & C). split; [rewrite A; symmetry; apply clients_first_ext; intros; apply Cl|]. split; intros j X; rewrite Cl; [exact (B _ X)|exact (C _ X)].
    + intros todo F. destruct (Hd _ F) as (a & b & -> & N1 & N2 & Rb & Q). exists a, (b ++ [m]). split; [rewrite <- app_assoc; reflexivity|].
      split; [intros X; apply in_app_or in X; destruct X as [X|[X|[]]]; [exact (N1 X)|congruence]|].
      split; [intros X; apply in_app_or in X; destruct X as [X|[X|[]]]; [exact (N2 X)|congruence]|]. rewrite registered_app, told_app, Z1, Z2, !app_nil_r.
      split; [exact Rb|]. rewrite <- Q. apply clients_first_ext. intros; apply Cl.
  - assert (Z : registered (Told i :: m) = [] /\ told (Told i :: m) = [i] /\ ~ In Locked (Told i :: m) /\ ~ In Returned (Told i :: m)).
    { destruct K as [(-> & _)|(x & -> & [(? & ->)|(? & ->)])]; (split; [reflexivity|]; split; [reflexivity|]; split; intros X; cbn [In] in X; intuition discriminate). }
    destruct Z as (Z1 & Z2 & Z3 & Z4).
    constructor; rewrite ?registered_app, ?told_app, ?Z1, ?Z2, ?app_nil_r; unfold todo_of in *; rewrite ?Sh', ?Em, ?E1, ?E2, ?Ln; rewrite ?Sh in *; try assumption.
    + rewrite <- app_assoc. exact On.
    + rewrite <- app_assoc. exact Ic.
    + intros F. discriminate F.
    + intros todo' F. injection F as <-. destruct (Hd _ eq_refl) as (a & b & -> & N1 & N2 & Rb & Q). exists a, (b ++ Told i :: m). split; [rewrite <- app_assoc; reflexivity|].
      split; [intros X; apply in_app_or in X; tauto|]. split; [intros X; apply in_app_or in X; tauto|]. rewrite registered_app, told_app, Z1, Z2, app_nil_r, <- app_assoc.
      split; [exact Rb|]. cbn [app]. rewrite <- Q. apply clients_first_ext. intros; apply Cl.
Qed.

Lemma minv_history es s l : manager_history pol es s l -> minv s l.
Proof.
  intros Hy. revert es s l Hy. apply (history_ind pol (fun es s l => minv s l)).
  - constructor; cbn; try (intros; contradiction); try constructor; try (intros; discriminate); try (intros i []); try reflexivity. split; intros i [].
  - intros es s l e s' l' _ I0 _ E. exact (minv_step _ _ _ _ I0 (step_did _ _ _ _ _ E)).
Qed.

(** ** Theorems *)

Theorem told_once es s l : manager_history pol es s l -> NoDup (told l) /\ (forall a i b, l = a ++ Told i :: b -> In i (registered a)).
Proof.
  intros Hy. split.
  - pose proof (mi_once _ _ (minv_history _ _ _ Hy)) as On. clear Hy. induction (told l) as [|x t IH]; [constructor|].
    cbn [app] in On. inversion On as [|? ? A B]; subst. constructor; [intros X; apply A, in_or_app; left; exact X|exact (IH B)].
  - revert es s l Hy. apply (history_ind pol (fun es s l => forall a i b, l = a ++ Told i :: b -> In i (registered a))).
    + intros a i b E. destruct a; discriminate E.
    + intros es s l e s' x Hy P _ E a i b Q. destruct (split_snoc _ _ _ _ _ Q) as [(b' & -> & ->)|(a' & -> & ->)]; [exact (P _ _ _ eq_refl)|].
      pose proof (minv_history _ _ _ Hy) as I0. pose proof (step_did _ _ _ _ _ E) as D. rewrite registered_app. apply in_or_app. left. clear Q P.
      remember (a' ++ Told i :: b) as x eqn:Ex. destruct D as [|c|? ? ?| | |? m ? ? ? ? ? ? ? K|s' todo j m Sh].
      * destruct a'; discriminate Ex.
      * destruct a' as [|? [|? ?]]; discriminate Ex.
      * destruct a' as [|? [|? ?]]; discriminate Ex.
      * destruct a' as [|? [|? ?]]; discriminate Ex.
      * destruct a' as [|? [|? ?]]; discriminate Ex.
      * destruct a' as [|? [|? ?]]; try discriminate Ex. destruct K as [(? & ? & ->)|(? & ? & ->)]; discriminate Ex.
      * assert (i = j) as ->.
        { destruct a' as [|? a']; cbn [app] in Ex; injection Ex as Ex1 Ex; [symmetry; exact Ex1|]. exfalso.
          match goal with K : _ = [] /\ _ \/ _ |- _ => destruct K as [(-> & _)|(z & -> & [(? & ->)|(? & ->)])] end; destruct a' as [|? [|? ?]]; discriminate Ex. }
        apply (mi_incl _ _ I0). apply in_or_app. right. unfold todo_of. rewrite Sh. left. reflexivity.
Qed.

(** What a step adds when it ends, or begins, a shutdown. *)
Lemma returned_step s s' x a b : did s s' x -> x = a ++ Returned :: b -> a = [] /\ b = [] /\ mg_shutting s = Some [].
Proof.
  intros D E. destruct D as [|c|? ? ?| |? Sh|? m ? ? ? ? ? ? ? K|s' todo j m Sh].
  - destruct a; discriminate E.
  - destruct a as [|? [|? ?]]; discriminate E.
  - destruct a as [|? [|? ?]]; discriminate E.
  - destruct a as [|? [|? ?]]; discriminate E.
  - destruct a as [|? [|? ?]]; try discriminate E. injection E as <-. repeat split. exact Sh.
  - destruct a as [|? [|? ?]]; try discriminate E. destruct K as [(? & ? & ->)|(? & ? & ->)]; discriminate E.
  - exfalso. destruct a as [|? a]; [discriminate E|]. cbn [app] in E. injection E as _ E.
    match goal with K : _ = [] /\ _ \/ _ |- _ => destruct K as [(-> & _)|(z & -> & [(? & ->)|(? & ->)])] end; destruct a as [|? [|? ?]]; discriminate E.
Qed.
Lemma locked_step s s' x a b : did s s' x -> x = a ++ Locked :: b -> a = [] /\ b = [] /\ mg_shutting s = None.
Proof.
  intros D E. destruct D as [|c|? ? ?|? Sh| |? m ? ? ? ? ? ? ? K|s' todo j m Sh].
  - destruct a; discriminate E.
  - destruct a as [|? [|? ?]]; discriminate E.
  - destruct a as [|? [|? ?]]; discriminate E.
  - destruct a as [|? [|? ?]]; try discriminate E. injection E as <-. repeat split. exact Sh.
  - destruct a as [|? [|? ?]]; discriminate E.
  - destruct a as [|? [|? ?]]; try discriminate E. destruct K as [(? & ? & ->)|(? & ? & ->)]; discriminate E.
  - exfalso. destruct a as [|? a]; [discriminate E|]. cbn [app] in E. injection E as _ E.
    match goal with K : _ = [] /\ _ \/ _ |- _ => destruct K as [(-> & _)|(z & -> & [(? & ->)|(? & ->)])] end; destruct a as [|? [|? ?]]; discriminate E.
Qed.

Theorem all_told es s l a b : manager_history pol es s l -> l = a ++ Returned :: b -> Permutation (registered a) (told a).
Proof.
  intros Hy. revert a b. revert es s l Hy. apply (history_ind pol (fun es s l => forall a b, l = a ++ Returned :: b -> Permutation (registered a) (told a))).
  - intros a b E. destruct a; discriminate E.
  - intros es s l e s' x Hy P _ E a b Q. destruct (split_snoc _ _ _ _ _ Q) as [(b' & -> & ->)|(a' & -> & Ex)]; [exact (P _ _ eq_refl)|].
    destruct (returned_step _ _ _ _ _ (step_did _ _ _ _ _ E) Ex) as (-> & _ & Sh). rewrite app_nil_r.
    pose proof (minv_history _ _ _ Hy) as [_ Rg On Ic _ Hd]. destruct (Hd _ Sh) as (p & q & -> & _ & _ & Rb & R). unfold todo_of in *. rewrite Sh in *. rewrite app_nil_r in *.
    rewrite registered_app, told_app in *. cbn [registered told flat_map app] in *. fold (registered q) (told q) in *. rewrite Rb, app_nil_r in *.
    apply NoDup_Permutation; [exact (nodup_tail _ _ Rg)|exact On|]. intros i. split; [|apply Ic].
    intros X. apply in_or_app. destruct (in_dec Nat.eq_dec i (told p)) as [Y|Y]; [left; exact Y|right]. rewrite <- R.
    apply (Permutation_in _ (Permutation_sym (clients_first_perm _ _))). apply remaining_in. split; assumption.
Qed.

(** The history of the mutex. *)
Lemma mutex es s l : manager_history pol es s l ->
  (mg_shutting s = None -> forall a b, l = a ++ Locked :: b -> In Returned b) /\ (forall a b c, l = a ++ Locked :: b ++ Locked :: c -> In Returned b).
Proof.
  intros Hy. revert es s l Hy. apply (history_ind pol (fun es s l => (mg_shutting s = None -> forall a b, l = a ++ Locked :: b -> In Returned b) /\
    (forall a b c, l = a ++ Locked :: b ++ Locked :: c -> In Returned b))).
  - split; [intros _|]; intros a b; [intros E|intros c E]; destruct a; discriminate E.
  - intros es s l e s' x Hy (P1 & P2) _ E. pose proof (step_did _ _ _ _ _ E) as D. split.
    + intros Sh a b Q. destruct (split_snoc _ _ _ _ _ Q) as [(b' & -> & Ql)|(a' & -> & Ex)].
      * destruct (mg_shutting s) as [todo|] eqn:Ss.
        { apply in_or_app. right. destruct D as [|c|? ? ? ? ?| | |? m ? ? ? ? S1| ]; try congruence; [cbn [fst make mg_shutting] in Sh; congruence|left; reflexivity]. }
        apply in_or_app. left. exact (P1 eq_refl _ _ Ql).
      * exfalso. subst x. pose proof (locked_step _ _ _ _ _ D eq_refl) as (-> & -> & Ss). cbn [app] in D.
        inversion D; subst; try congruence; match goal with K : (exists e x, Locked = _) \/ _ |- _ => destruct K as [(? & ? & X)|(? & ? & X)]; discriminate X end.
    + intros a b c Q. rewrite app_comm_cons, app_assoc in Q. destruct (split_snoc _ _ _ _ _ Q) as [(c' & -> & Ql)|(a' & Ea & Ex)].
      * rewrite <- app_assoc in Ql. exact (P2 _ _ _ Ql).
      * destruct (locked_step _ _ _ _ _ D Ex) as (-> & _ & Ss). rewrite app_nil_r in Ea. exact (P1 Ss _ _ (eq_sym Ea)).
Qed.

Theorem tell_order es s l a b c : manager_history pol es s l -> l = a ++ Locked :: b ++ Returned :: c -> ~ In Returned b ->
  told b = clients_first s (remaining (registered a) (told a)) /\ registered b = [].
Proof.
  intros Hy. revert a b c. revert es s l Hy. apply (history_ind pol (fun es s l => forall a b c, l = a ++ Locked :: b ++ Returned :: c -> ~ In Returned b ->
    told b = clients_first s (remaining (registered a) (told a)) /\ registered b = [])).
  - intros a b c E. destruct a; discriminate E.
  - intros es s l e s' x Hy P _ E a b c Q Nb. pose proof (step_did _ _ _ _ _ E) as D. pose proof (minv_history _ _ _ Hy) as I0.
    assert (Cs : forall i, In i (registered l) -> is_client s' i = is_client s i).
    { intros i X. destruct D as [|c0|? ? ? ? ? Ec|? ? ? Ec|? ? ? Ec|? ? ? ? ? ? ? ? Cl|? ? ? ? ? ? ? ? ? ? Cl]; try reflexivity; try (unfold is_client; rewrite Ec; reflexivity); [|apply Cl|apply Cl].
      unfold is_client. cbn [fst make mg_channels]. rewrite nth_error_app1; [reflexivity|]. apply (mi_bound _ _ I0), in_or_app. right. exact X. }
    assert (Ext : forall p q, l = p ++ q -> clients_first s' (remaining (registered p) (told p)) = clients_first s (remaining (registered p) (told p))).
    { intros p q ->. apply clients_first_ext. intros i X. apply remaining_in in X. apply Cs. rewrite registered_app. apply in_or_app. left. exact (proj1 X). }
    assert (Q' := Q). rewrite app_comm_cons, app_assoc in Q. destruct (split_snoc _ _ _ _ _ Q) as [(c' & -> & Ql)|(a' & Ea & Ex)].
    + rewrite <- app_assoc in Ql. rewrite (Ext a _ Ql). cbn [app] in Ql. exact (P _ _ _ Ql Nb).
    + destruct (returned_step _ _ _ _ _ D Ex) as (-> & _ & Sh). rewrite app_nil_r in Ea. symmetry in Ea. rewrite (Ext a _ Ea).
      destruct (mi_held _ _ I0 _ Sh) as (p & q & El & N1 & N2 & Rq & R). rewrite app_nil_r in R.
      assert (a = p /\ b = q) as (-> & ->); [|split; [symmetry; exact R|exact Rq]].
      rewrite El in Ea. destruct (split_snoc _ _ _ _ _ Ea) as [(b' & Eb & Ep)|(a1 & Ep & Eq)].
      * exfalso. subst p b. apply Nb, in_or_app. left. apply (proj2 (mutex _ _ _ Hy) a b' q). rewrite El. rewrite <- app_assoc. reflexivity.
      * destruct a1 as [|y a1]; cbn [app] in Eq.
        { injection Eq as <-. rewrite app_nil_r in Ep. split; [exact Ep|reflexivity]. }
        injection Eq as <- ->. exfalso. apply N1. apply in_or_app. right. left. reflexivity.
Qed.

Theorem told_within es s l a i b : manager_history pol es s l -> l = a ++ Told i :: b ->
  (exists p q, a = p ++ Locked :: q /\ ~ In Returned q) /\ (exists m b', b = m :: b' /\ shut_down_by i m).
Proof.
  intros Hy. revert a i b. revert es s l Hy. apply (history_ind pol (fun es s l => forall a i b, l = a ++ Told i :: b ->
    (exists p q, a = p ++ Locked :: q /\ ~ In Returned q) /\ (exists m b', b = m :: b' /\ shut_down_by i m))).
  - intros a i b E. destruct a; discriminate E.
  - intros es s l e s' x Hy P _ E a i b Q. pose proof (step_did _ _ _ _ _ E) as D. pose proof (minv_history _ _ _ Hy) as I0.
    destruct (split_snoc _ _ _ _ _ Q) as [(b' & -> & Ql)|(a' & Ea & Ex)].
    + destruct (P _ _ _ Ql) as (A & m & b2 & -> & B). split; [exact A|]. exists m, (b2 ++ x). split; [reflexivity|exact B].
    + clear P Q. destruct D as [|c|? ? ?| | |? m ? ? ? ? ? ? ? K|s' todo j m Sh Sh' Em E1 E2 Ln Cl K].
      * destruct a'; discriminate Ex.
      * destruct a' as [|? [|? ?]]; discriminate Ex.
      * destruct a' as [|? [|? ?]]; discriminate Ex.
      * destruct a' as [|? [|? ?]]; discriminate Ex.
      * destruct a' as [|? [|? ?]]; discriminate Ex.
      * destruct a' as [|? [|? ?]]; try discriminate Ex. destruct K as [(? & ? & ->)|(? & ? & ->)]; discriminate Ex.
      * assert (Z : a' = [] /\ i = j /\ b = m).
        { destruct a' as [|? a']; cbn [app] in Ex; injection Ex as Ex1 Ex; [repeat split; congruence|]. exfalso.
          destruct K as [(-> & _)|(z & -> & [(? & ->)|(? & ->)])]; destruct a' as [|? [|? ?]]; discriminate Ex. }
        destruct Z as (-> & -> & ->). rewrite app_nil_r in Ea. subst a. split.
        { destruct (mi_held _ _ I0 _ Sh) as (p & q & -> & N1 & N2 & _). exists p, q. split; [reflexivity|exact N2]. }
        destruct K as [(-> & K)|(z & -> & K)]; [|exists z, []; split; [reflexivity|exact K]]. exfalso. apply nth_error_None in K.
        assert (X : In j (registered l)) by (apply (mi_incl _ _ I0), in_or_app; right; unfold todo_of; rewrite Sh; left; reflexivity).
        pose proof (mi_bound _ _ I0 j (in_or_app _ _ _ (or_intror X))). lia.
Qed.
End Shutdown.
