(** In which order requests take effect, and what is read after a write. *)
From Verif Require Import Prelude Ser4 Messages Mbap Client Server Database System.
From Verif Require Import AsyncWrite ClientConn ClientTcp Listener ServerConn ServerTcp World.
From Verif Require Import Scheduled SessionCall Session Full.
From Verif Require Import SpecPdu SpecClient SpecDb SpecSystem SpecSession SpecWorld SpecFull.

(** Call [i] of the channel takes effect as access [n] of the database. *)
Definition effect (log : list access) (i n : nat) : Prop := exists e, nth_error log n = Some e /\ x_by e = Some i.

(** The requests that the server executes are those of calls in the order in which
    these were made. *)
Definition in_call_order (os : list youtput) : Prop :=
  exists ids, StronglySorted lt ids /\ Forall2 (fun r i => exists u t, In (YC (Called i (session_call u r t))) os) (consults os) ids.

(** A call takes effect before all that were made after it. *)
Definition before_later (log : list access) (i : nat) : Prop :=
  forall m j n, effect log i m -> effect log j n -> (i < j)%nat -> (m < n)%nat.

(** What a user is told comes from the server. *)
Definition from_server (v : expected response) : Prop :=
  match v with Value _ | Error (EModbus _) => True | _ => False end.

(** The requests of sessions, scheduled or not, in the order in which they are made. *)
Definition made (l : list fmark) : list nat :=
  flat_map (fun m => match m with FK (Issued i _ _ _) | FK (Repeated i _ _) => [i] | _ => [] end) l.

(** Request [r] writes a value at address [a] of table [t]. *)
Definition puts (r : request) (t : tid) (a : N) : val t -> Prop :=
  match r, t return val t -> Prop with
  | WriteSingleCoil b v, Coils => fun x => a = b /\ x = v
  | WriteMultipleCoils s vs, Coils => fun x => exists i, nth_error vs i = Some x /\ a = s + N.of_nat i
  | WriteSingleRegister b v, Holdings => fun x => a = b /\ x = v
  | WriteMultipleRegisters s vs, Holdings => fun x => exists i, nth_error vs i = Some x /\ a = s + N.of_nat i
  | _, _ => fun _ => False
  end.

(** Response [x] says what the value at address [a] of table [t] is. *)
Definition says (x : response) (t : tid) (a : N) : val t -> Prop :=
  match x, t return val t -> Prop with
  | CoilsRead l, Coils => fun v => In (a, v) l
  | DiscreteInputsRead l, Discretes => fun v => In (a, v) l
  | HoldingRegistersRead l, Holdings => fun v => In (a, v) l
  | InputRegistersRead l, Inputs => fun v => In (a, v) l
  | _, _ => fun _ => False
  end.

(** This access may change the value at address [a] of table [t]. *)
Definition touches (c : Database.call) (t : tid) (a : N) : Prop :=
  match c with
  | CAdd t' b _ => t' = t /\ b = a
  | CRequest r => exists v, puts r t a v
  | CTransaction _ => True
  end.

(** Between accesses [m] and [n] there is another that may change it. *)
Definition touched_between (log : list access) (m n : nat) (t : tid) (a : N) : Prop :=
  exists k e, (m < k < n)%nat /\ nth_error log k = Some e /\ touches (x_call e) t a.
