(** Independent specification of the data model: partial maps from addresses to
    values.  Uses only the types of the model (requests, responses, tables). *)
From Verif Require Import Prelude Messages SpecPdu Database.

(** ** One table *)
Definition vmap (V : Type) : Type := N -> option V.

Definition empty_map {V} : vmap V := fun _ => None.

Definition same {V} (f f' : vmap V) : Prop := forall a, f' a = f a.

(** Addresses [s], ..., [s + n - 1] all exist, there is at least one of them and
    none is beyond 65535. *)
Definition covered {V} (f : vmap V) (s n : N) : Prop :=
  1 <= n /\ s + n <= 65536 /\ forall i, i < n -> f (s + i) <> None.

(** [f'] is [f] with [vs] written at [s], [s + 1], ... *)
Definition updated {V} (f : vmap V) (s : N) (vs : list V) (f' : vmap V) : Prop :=
  (forall i v, nth_error vs i = Some v -> f' (s + N.of_nat i) = Some v) /\
  (forall a, a < s \/ s + size vs <= a -> f' a = f a).

(** The values of [f] at [s], [s + 1], ... are [vs]. *)
Definition values_at {V} (f : vmap V) (s : N) (vs : list V) : Prop :=
  forall i v, nth_error vs i = Some v -> f (s + N.of_nat i) = Some v.

(** The effect and result of each operation of a table. *)
Definition table_spec {V} (f : vmap V) (o : table_op V) (f' : vmap V) (r : table_result V) : Prop :=
  match o with
  | OAdd a v =>
      (f a = None /\ updated f a [v] f' /\ r = (true, []))
      \/ (f a <> None /\ same f f' /\ r = (false, []))
  | OSet a v =>
      (f a <> None /\ updated f a [v] f' /\ r = (true, []))
      \/ (f a = None /\ same f f' /\ r = (false, []))
  | OSetMany s vs =>
      (covered f s (size vs) /\ updated f s vs f' /\ r = (true, []))
      \/ (~ covered f s (size vs) /\ same f f' /\ r = (false, []))
  | OGet a out =>
      same f f' /\
      match f a with
      | Some v => r = (true, [v])
      | None => r = (false, [out])
      end
  | OGetMany s out =>
      same f f' /\
      ((covered f s (size out) /\
        exists vs, size vs = size out /\ values_at f s vs /\ r = (true, vs))
       \/ (~ covered f s (size out) /\ r = (false, out)))
  | OValid a => same f f' /\ exists b, r = (b, []) /\ (b = true <-> f a <> None)
  | OValidRange s n => same f f' /\ exists b, r = (b, []) /\ (b = true <-> covered f s n)
  end.

(** A history of operations on one table and their results. *)
Inductive table_history {V} : vmap V -> list (table_op V) -> list (table_result V) -> vmap V -> Prop :=
| TH_nil f f' : same f f' -> table_history f [] [] f'
| TH_cons f o r f1 os rs f2 :
    table_spec f o f1 r -> table_history f1 os rs f2 ->
    table_history f (o :: os) (r :: rs) f2.

(** Addresses are 16-bit, as are register values. *)
Definition typed_val (t : tid) : val t -> Prop :=
  match t with
  | Coils | Discretes => fun _ => True
  | Holdings | Inputs => fun v => u16 v
  end.

Definition typed_op (t : tid) (o : table_op (val t)) : Prop :=
  match o with
  | OAdd a v | OSet a v => u16 a /\ typed_val t v
  | OSetMany s vs => u16 s /\ Forall (typed_val t) vs
  | OGet a _ | OValid a => u16 a
  | OGetMany s _ | OValidRange s _ => u16 s
  end.

(** ** The four address spaces *)
Definition tables : Type := forall t : tid, vmap (val t).

Definition no_values : tables := fun _ => empty_map.

Definition unchanged (F F' : tables) : Prop := forall t, same (F t) (F' t).

(** Only table [t] changes, and there only [vs] at [s], [s + 1], ... *)
Definition only_writes (F : tables) (t : tid) (s : N) (vs : list (val t)) (F' : tables) : Prop :=
  updated (F t) s vs (F' t) /\ forall t', t' <> t -> same (F t') (F' t').

Definition unknown_address : expected response := Error (EModbus IllegalDataAddress).

(** A read of [q] values at [s]. *)
Definition read_spec (F : tables) (t : tid) (s q : N) (mk : list (N * val t) -> response)
    (F' : tables) (x : expected response) : Prop :=
  unchanged F F' /\
  ((covered (F t) s q /\
    exists vs, size vs = q /\
      (forall i a v, nth_error vs i = Some (a, v) -> a = s + N.of_nat i /\ F t a = Some v) /\
      x = Value (mk vs))
   \/ (~ covered (F t) s q /\ x = unknown_address)).

(** A write of [vs] at [s], answered by [ok]. *)
Definition write_spec (F : tables) (t : tid) (s : N) (vs : list (val t)) (ok : response)
    (F' : tables) (x : expected response) : Prop :=
  (covered (F t) s (size vs) /\ only_writes F t s vs F' /\ x = Value ok)
  \/ (~ covered (F t) s (size vs) /\ unchanged F F' /\ x = unknown_address).

Definition request_spec (F : tables) (r : request) (F' : tables) (x : expected response) : Prop :=
  match r with
  | ReadCoils s q => read_spec F Coils s q CoilsRead F' x
  | ReadDiscreteInputs s q => read_spec F Discretes s q DiscreteInputsRead F' x
  | ReadHoldingRegisters s q => read_spec F Holdings s q HoldingRegistersRead F' x
  | ReadInputRegisters s q => read_spec F Inputs s q InputRegistersRead F' x
  | WriteSingleCoil a v => write_spec F Coils a [v] (SingleCoilWritten a v) F' x
  | WriteSingleRegister a v => write_spec F Holdings a [v] (SingleRegisterWritten a v) F' x
  | WriteMultipleCoils s vs => write_spec F Coils s vs (MultipleCoilsWritten s (size vs)) F' x
  | WriteMultipleRegisters s vs =>
      write_spec F Holdings s vs (MultipleRegistersWritten s (size vs)) F' x
  end.

(** User transactions over the four tables. *)
Inductive transaction_spec : tables -> transaction -> tables -> list N -> Prop :=
| TS_done F F' l : unchanged F F' -> transaction_spec F (TxDone l) F' l
| TS_get F t a v out k F' l :
    F t a = Some v -> transaction_spec F (k true v) F' l ->
    transaction_spec F (TxGet t a out k) F' l
| TS_get_none F t a out k F' l :
    F t a = None -> transaction_spec F (k false out) F' l ->
    transaction_spec F (TxGet t a out k) F' l
| TS_set F t a v k F1 F' l :
    F t a <> None -> only_writes F t a [v] F1 -> transaction_spec F1 (k true) F' l ->
    transaction_spec F (TxSet t a v k) F' l
| TS_set_none F t a v k F' l :
    F t a = None -> transaction_spec F (k false) F' l ->
    transaction_spec F (TxSet t a v k) F' l.

(** The effect and result of each entry point. *)
Definition call_spec (F : tables) (c : call) (F' : tables) (r : result) : Prop :=
  match c with
  | CAdd t a v =>
      (F t a = None /\ only_writes F t a [v] F' /\ r = RBool true)
      \/ (F t a <> None /\ unchanged F F' /\ r = RBool false)
  | CRequest q => exists x, request_spec F q F' x /\ r = RResponse x
  | CTransaction x => exists l, transaction_spec F x F' l /\ r = RTransaction l
  end.

Inductive calls_spec : tables -> list call -> list result -> tables -> Prop :=
| CS_nil F F' : unchanged F F' -> calls_spec F [] [] F'
| CS_cons F c r F1 cs rs F2 :
    call_spec F c F1 r -> calls_spec F1 cs rs F2 -> calls_spec F (c :: cs) (r :: rs) F2.

(** Arguments have their C++ types. *)
Fixpoint typed_transaction (x : transaction) : Prop :=
  match x with
  | TxDone _ => True
  | TxGet t a out k =>
      u16 a /\ typed_val t out /\ forall b v, typed_val t v -> typed_transaction (k b v)
  | TxSet t a v k => u16 a /\ typed_val t v /\ forall b, typed_transaction (k b)
  end.

Definition typed_call (c : call) : Prop :=
  match c with
  | CAdd t a v => u16 a /\ typed_val t v
  | CRequest r =>
      typed_request r /\
      match r with
      | WriteMultipleCoils _ vs => size vs < 65536
      | WriteMultipleRegisters _ vs => size vs < 65536
      | _ => True
      end
  | CTransaction x => typed_transaction x
  end.

(** The databases that can arise. *)
Inductive reachable_db : db -> Prop :=
| RD_empty : reachable_db db_empty
| RD_call d c d' r : reachable_db d -> typed_call c -> run (call_body c) d = Ret (d', r) ->
    reachable_db d'
| RD_op d t o d' r : reachable_db d -> typed_op t o -> run (table_body t o) d = Ret (d', r) ->
    reachable_db d'.

(** What [get_value] reports for every address. *)
Definition holds (d : db) (F : tables) : Prop :=
  forall t a out, run (get_value t a out) d =
    Ret (d, match F t a with Some v => (true, v) | None => (false, out) end).
