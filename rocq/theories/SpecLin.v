(** Linearizability of a history of calls (Herlihy and Wing). *)
From Verif Require Import Prelude Messages Database SpecDb Locking.

(** One entry of a sequential history. *)
Record entry : Type := { e_id : nat; e_call : call; e_result : result }.

(** [x] occurs before [y] in [l]. *)
Definition before {A} (x y : A) (l : list A) : Prop :=
  exists l1 l2 l3, l = l1 ++ x :: l2 ++ y :: l3.

(** Call [i] returned before call [j] was invoked. *)
Definition precedes (h : list event) (i j : nat) : Prop :=
  exists r th c, before (Res i r) (Inv j th c) h.

(** The sequential history [l] explains the concurrent history [h], ending in
    the tables [F]. *)
Record linearizes (h : list event) (l : list entry) (F : tables) : Prop := {
  (* executed one at a time, the calls of [l] give the recorded results *)
  lin_legal : calls_spec no_values (map e_call l) (map e_result l) F;
  (* no call occurs twice, and only invoked calls occur *)
  lin_once : NoDup (map e_id l);
  lin_invoked : forall e, In e l -> exists th, In (Inv (e_id e) th (e_call e)) h;
  (* every completed call occurs with the result it returned *)
  lin_complete : forall i r, In (Res i r) h ->
    exists e, In e l /\ e_id e = i /\ e_result e = r;
  (* the order respects real time *)
  lin_order : forall i j, precedes h i j -> In j (map e_id l) ->
    before i j (map e_id l)
}.
