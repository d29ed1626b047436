(** Where the values that are read come from. *)
From Verif Require Import Prelude Messages Client Server Database System SpecDb SpecSystem SpecOrder.

(** Transaction [x] may write [v] at address [a] of table [t]. *)
Inductive sets_in : transaction -> forall t : tid, N -> val t -> Prop :=
| SI_here t a v k : sets_in (TxSet t a v k) t a v
| SI_set t a v k b t' a' v' : sets_in (k b) t' a' v' -> sets_in (TxSet t a v k) t' a' v'
| SI_get t a out k b w t' a' v' : sets_in (k b w) t' a' v' -> sets_in (TxGet t a out k) t' a' v'.

(** Call [c], which had the result [r], gave address [a] of table [t] the value [v]; in the case of
    a transaction it may have. *)
Definition gave (c : call) (r : result) (t : tid) (a : N) (v : val t) : Prop :=
  (c = CAdd t a v /\ r = RBool true) \/
  (exists q x, c = CRequest q /\ r = RResponse (Value x) /\ puts q t a v) \/
  (exists x, c = CTransaction x /\ sets_in x t a v).

(** It certainly gave it a value. *)
Definition replaced (c : call) (r : result) (t : tid) (a : N) : Prop :=
  (exists v, gave c r t a v) /\ forall x, c <> CTransaction x.

(** Of the calls before the [n]-th, none from the [m]-th on replaced the value. *)
Definition kept_from (cs : list call) (rs : list result) (m n : nat) (t : tid) (a : N) : Prop :=
  forall k c r, (m <= k < n)%nat -> nth_error cs k = Some c -> nth_error rs k = Some r -> ~ replaced c r t a.

(** At the time of the [n]-th call, [v] is what address [a] of table [t] was given last. *)
Definition given_last (F0 : tables) (cs : list call) (rs : list result) (n : nat) (t : tid) (a : N) (v : val t) : Prop :=
  (exists m c r, (m < n)%nat /\ nth_error cs m = Some c /\ nth_error rs m = Some r /\ gave c r t a v /\ kept_from cs rs (S m) n t a) \/
  (F0 t a = Some v /\ kept_from cs rs 0 n t a).

(** The [n]-th access to the database is not before call [i] of the channel was made. *)
Definition since_call (os : list youtput) (i n : nat) : Prop :=
  forall p q k, os = p ++ YC (Called i k) :: q -> (forall k', ~ In (YC (Called i k')) p) -> (List.length (db_calls p) <= n)%nat.
