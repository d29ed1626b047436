(** Requests to a database that are repeated or executed in another order. *)
From Verif Require Import Prelude Messages Database SpecDb Server SpecAlone.

(** The table, the first address and the number of values of a request. *)
Definition place (r : request) : tid * (N * N) :=
  match r with
  | ReadCoils s q => (Coils, (s, q))
  | ReadDiscreteInputs s q => (Discretes, (s, q))
  | ReadHoldingRegisters s q => (Holdings, (s, q))
  | ReadInputRegisters s q => (Inputs, (s, q))
  | WriteSingleCoil a _ => (Coils, (a, 1))
  | WriteSingleRegister a _ => (Holdings, (a, 1))
  | WriteMultipleCoils s vs => (Coils, (s, size vs))
  | WriteMultipleRegisters s vs => (Holdings, (s, size vs))
  end.

Definition about (r : request) (t : tid) (a : N) : Prop :=
  let '(t', (s, n)) := place r in t = t' /\ s <= a < s + n.

(** Call [c] may change what is at address [a] of table [t]. *)
Definition changes (c : call) (t : tid) (a : N) : Prop :=
  match c with
  | CAdd t' b _ => t = t' /\ a = b
  | CRequest r => reading r = false /\ about r t a
  | CTransaction _ => True
  end.

(** Nothing that one of them writes is read or written by the other. *)
Definition independent (r q : request) : Prop :=
  forall t a, about r t a -> about q t a -> reading r = true /\ reading q = true.

(** Sessions that do not call the channel and, as long as their state is as [P] says, answer a
    request that is repeated as before and do nothing more. *)
Definition repeatable {W : Type} (P : W -> Prop) (on_request : N -> W -> request -> W * expected response * list api)
    (on_shutdown : N -> W -> W * list api) : Prop :=
  (forall x w r w' v l, P w -> typed_call (CRequest r) -> on_request x w r = (w', v, l) -> P w' /\ l = [] /\ on_request x w' r = (w', v, [])) /\
  (forall x w w' l, P w -> on_shutdown x w = (w', l) -> P w').
