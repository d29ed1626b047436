(** Proofs about [Expected]. *)
From Verif Require Import Prelude Expected SpecExpected.

Lemma derives_is_a c b : derives c b = true <-> is_a c b.
Proof.
  split.
  - unfold derives. destruct (eclass_eq_dec c b) as [->|N]; [intros _; constructor|].
    destruct (base c) as [c'|] eqn:E; [|discriminate]. destruct (eclass_eq_dec c' b) as [->|N']; [|discriminate].
    intros _. apply (is_a_base _ b); [exact E|constructor].
  - intros H. induction H as [c|c d b E H IH].
    + unfold derives. destruct (eclass_eq_dec c c); [reflexivity|contradiction].
    + destruct c; try discriminate E; injection E as <-; inversion H; subst; try discriminate; reflexivity.
Qed.

Section Facts.
Context {T : Type}.
Implicit Types (x : exp T) (o : eobject).

Lemma either_or x :
  (exists v, x = EValue v /\ is_valid x = true /\ get x = Returns v /\ get_exception_ptr x = Throws (invalid_argument 1) /\
     forall E, has_exception E x = false) \/
  (exists o, x = EException o /\ is_valid x = false /\ get x = Throws o /\ get_exception_ptr x = Returns o /\
     has_exception (eo_class o) x = true).
Proof.
  destruct x as [v|o]; [left; exists v|right; exists o]; repeat (split; [reflexivity|]); [reflexivity|].
  cbn. apply derives_is_a. constructor.
Qed.

Lemma has_exception_is_a o E : has_exception (T:=T) E (EException o) = true <-> is_a (eo_class o) E.
Proof. apply derives_is_a. Qed.

Lemma get_exception_iff E x : has_exception E x = true <-> exists o, get_exception E x = Returns o.
Proof.
  destruct x as [v|o]; cbn; [split; [discriminate|intros (o & H); discriminate]|].
  destruct (derives (eo_class o) E); split; try discriminate; [intros _; eexists; reflexivity|reflexivity|].
  intros (o' & H). discriminate.
Qed.

Lemma copy_as_self o : well_formed o -> copy_as (eo_class o) o = o.
Proof.
  destruct o as [c m t]. unfold well_formed, copy_as. cbn [eo_class eo_message eo_type]. intros H.
  destruct c; try reflexivity; f_equal; destruct t; try reflexivity; exfalso;
    (assert (X : Some e <> None) by discriminate; apply H in X; discriminate).
Qed.

Lemma exact_class o : well_formed o ->
  from_exception (T:=T) (eo_class o) o = Returns (EException o) /\
  get_exception (T:=T) (eo_class o) (EException o) = Returns o.
Proof.
  intros H. split.
  - unfold from_exception. rewrite copy_as_self by exact H. destruct (polymorphic (eo_class o));
      (destruct (eclass_eq_dec (eo_class o) (eo_class o)); [reflexivity|contradiction]).
  - cbn. rewrite copy_as_self by exact H. assert (D : derives (eo_class o) (eo_class o) = true) by (apply derives_is_a; constructor).
    rewrite D. reflexivity.
Qed.

Lemma virtual_classes_checked E o (x : exp T) : polymorphic E = true -> from_exception E o = Returns x -> eo_class o = E.
Proof.
  intros P. unfold from_exception. rewrite P. destruct (eclass_eq_dec (eo_class o) E); [trivial|discriminate].
Qed.
End Facts.

Lemma slicing_refuted :
  ~ (forall E o (x : exp N), well_formed o -> is_a (eo_class o) E -> from_exception E o = Returns x -> x = EException o).
Proof.
  intros H. set (o := {| eo_class := CModbusException; eo_message := 2; eo_type := Some IllegalDataAddress |}).
  assert (X : EException (copy_as CIException o) = @EException N o).
  { apply (H CIException o); [split; [reflexivity|discriminate]|apply (is_a_base _ CIException); [reflexivity|constructor]|reflexivity]. }
  discriminate X.
Qed.

Lemma library_errors e c : class_of e = Some c -> is_a c CIException.
Proof.
  destruct e; intros H; injection H as <- || discriminate H; apply (is_a_base _ CIException); try reflexivity; constructor.
Qed.

Lemma copies_equal : forall {T : Type} (x : exp T), copy x = x.
Proof. intros T []; reflexivity. Qed.

Lemma pointer_kept : forall {T : Type} (o : eobject),
  is_valid (T:=T) (from_exception_ptr o) = false /\ get (T:=T) (from_exception_ptr o) = Throws o /\
  get_exception_ptr (T:=T) (from_exception_ptr o) = Returns o.
Proof. intros T o. repeat split. Qed.
