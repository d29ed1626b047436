(** Specification of what is left of a server channel. *)
From Verif Require Import Prelude Ser4 Messages Mbap Server Listener AsyncWrite ServerConn ServerTcp ServerLifetime.
From Coq Require Import Relations.

Inductive operation : Type := OpAccept (c : nat) | OpRead (c r : nat) | OpWrite (c w : nat).
Definition of_connection (x : operation) : nat := match x with OpAccept c | OpRead c _ | OpWrite c _ => c end.

Section Spec.
Context {W : Type}.
Implicit Type h : tserver W.

(** [o] exists when the application holds [app]. *)
Definition remains h (app : sobject -> Prop) (o : sobject) : Prop := exists alive, snot_destroyed h app alive /\ alive o.

(** Members of [a], of what these hold, and so on, hold [o]. *)
Definition leads_to h : sobject -> sobject -> Prop := clos_refl_trans sobject (srefers h).

(** Connections and their listeners are not given to the application. *)
Definition outside (app : sobject -> Prop) : Prop := forall c, ~ app (SConnection c) /\ ~ app (SListener c).

Definition nothing (o : sobject) : Prop := False.

(** The accept of connection [c], or a read or a write of it, is in progress. *)
Definition in_progress h (x : operation) : Prop :=
  match x with
  | OpAccept c => In c (as_pending (us_listener h))
  | OpRead c r => exists v, us_conns h c = Some v /\ In r (map fst (vn_reads v))
  | OpWrite c w => exists v, us_conns h c = Some v /\ In w (map w_id (wr_ops (vn_writer v)))
  end.

(** Connection [c] has an operation in progress, is about to be closed, or its socket is
    open. *)
Definition in_use h (c : nat) : Prop :=
  (exists x, of_connection x = c /\ in_progress h x) \/ In (Close c) (as_queue (us_listener h)) \/
  exists v, us_conns h c = Some v /\ vn_open v = true.

(** Nothing is left to run, and no operation is in progress. *)
Definition at_end h : Prop := us_order h = [] /\ forall x, ~ in_progress h x.
End Spec.

(** [x] ends with an error. *)
Definition fails (x : operation) (e : uevent) : Prop :=
  match x, e with
  | OpAccept c, UAccept d ok _ => d = c /\ ok = false
  | OpRead c r, URead d r' y => d = c /\ r' = r /\ y = RError
  | OpWrite c w, UWritten d w' ok => d = c /\ w' = w /\ ok = false
  | _, _ => False
  end.
