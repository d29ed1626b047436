(** Model of lib/src/server/db: the value tables and the in-memory database.

    The code is written as programs over the primitive operations on the
    [std::map] members, so that the same text has a sequential meaning ([run])
    and an interleaved one (Locking.v). *)
From Verif Require Import Prelude Messages.

(** The four members of lib/include/modbus/server/db/InMemoryDatabase.h:127-130.
    [BitDatabase] is [SingleTypeDatabase<bool>] and [RegisterDatabase] is
    [SingleTypeDatabase<uint16_t>]. *)
Inductive tid : Type := Coils | Discretes | Holdings | Inputs.

Definition val (t : tid) : Type :=
  match t with
  | Coils | Discretes => bool
  | Holdings | Inputs => N
  end.

(** ** std::map<Address, T>

    The in-order contents.  std::map is part of the C++ library; the behaviour of
    [insert], [find], [end], [operator->] and [operator++] below is an
    assumption of the model. *)
Definition map_of (t : tid) : Type := list (N * val t).

Record db : Type := {
  d_coils : map_of Coils;
  d_discretes : map_of Discretes;
  d_holdings : map_of Holdings;
  d_inputs : map_of Inputs
}.

Definition db_empty : db :=
  {| d_coils := []; d_discretes := []; d_holdings := []; d_inputs := [] |}.

Definition table (d : db) (t : tid) : map_of t :=
  match t with
  | Coils => d_coils d
  | Discretes => d_discretes d
  | Holdings => d_holdings d
  | Inputs => d_inputs d
  end.

Definition set_table (d : db) (t : tid) : map_of t -> db :=
  match t with
  | Coils => fun m => {| d_coils := m; d_discretes := d_discretes d;
                         d_holdings := d_holdings d; d_inputs := d_inputs d |}
  | Discretes => fun m => {| d_coils := d_coils d; d_discretes := m;
                             d_holdings := d_holdings d; d_inputs := d_inputs d |}
  | Holdings => fun m => {| d_coils := d_coils d; d_discretes := d_discretes d;
                            d_holdings := m; d_inputs := d_inputs d |}
  | Inputs => fun m => {| d_coils := d_coils d; d_discretes := d_discretes d;
                          d_holdings := d_holdings d; d_inputs := m |}
  end.

(** An iterator designates an element by its key; [None] is [end()]. *)
Definition iter := option N.

Fixpoint map_find {V} (m : list (N * V)) (a : N) : option V :=
  match m with
  | [] => None
  | (k, v) :: m' => if k =? a then Some v else map_find m' a
  end.

(** The element after [a] in key order. *)
Fixpoint map_next {V} (m : list (N * V)) (a : N) : iter :=
  match m with
  | [] => None
  | (k, _) :: m' => if a <? k then Some k else map_next m' a
  end.

Fixpoint map_assign {V} (m : list (N * V)) (a : N) (v : V) : list (N * V) :=
  match m with
  | [] => []
  | (k, w) :: m' => if k =? a then (k, v) :: m' else (k, w) :: map_assign m' a v
  end.

(** Insertion keeps the key order and does not replace. *)
Fixpoint map_insert {V} (m : list (N * V)) (a : N) (v : V) : list (N * V) * bool :=
  match m with
  | [] => ([(a, v)], true)
  | (k, w) :: m' =>
      if a <? k then ((a, v) :: m, true)
      else if a =? k then (m, false)
      else let '(m'', b) := map_insert m' a v in ((k, w) :: m'', b)
  end.

(** The primitive operations, indexed by the type of their result. *)
Inductive act : Type -> Type :=
| AInsert (t : tid) (a : N) (v : val t) : act bool   (* m_values.insert({a, v}).second *)
| AFind (t : tid) (a : N) : act iter                 (* m_values.find(a) *)
| ANext (t : tid) (it : iter) : act iter             (* ++it *)
| AFirst (t : tid) (it : iter) : act N               (* it->first *)
| ASecond (t : tid) (it : iter) : act (val t)        (* it->second *)
| AAssign (t : tid) (it : iter) (v : val t) : act unit. (* it->second = v *)

(** Dereferencing or advancing an iterator that designates no element is
    undefined. *)
Definition act_step {R} (c : act R) (d : db) : outcome (db * R) :=
  match c in act R return outcome (db * R) with
  | AInsert t a v =>
      let '(m, b) := map_insert (table d t) a v in Ret (set_table d t m, b)
  | AFind t a =>
      match map_find (table d t) a with
      | Some _ => Ret (d, Some a)
      | None => Ret (d, None)
      end
  | ANext t it =>
      match it with
      | None => UB
      | Some a =>
          match map_find (table d t) a with
          | None => UB
          | Some _ => Ret (d, map_next (table d t) a)
          end
      end
  | AFirst t it =>
      match it with
      | None => UB
      | Some a =>
          match map_find (table d t) a with
          | None => UB
          | Some _ => Ret (d, a)
          end
      end
  | ASecond t it =>
      match it with
      | None => UB
      | Some a =>
          match map_find (table d t) a with
          | None => UB
          | Some v => Ret (d, v)
          end
      end
  | AAssign t it v =>
      match it with
      | None => UB
      | Some a =>
          match map_find (table d t) a with
          | None => UB
          | Some _ => Ret (set_table d t (map_assign (table d t) a v), tt)
          end
      end
  end.

(** ** Programs *)
Inductive prog (A : Type) : Type :=
| PRet (a : A)
| PUB
| PAct (R : Type) (c : act R) (k : R -> prog A).
Arguments PRet {A} a.
Arguments PUB {A}.
Arguments PAct {A R} c k.

Fixpoint pbind {A B} (p : prog A) (f : A -> prog B) : prog B :=
  match p with
  | PRet a => f a
  | PUB => PUB
  | PAct c k => PAct c (fun r => pbind (k r) f)
  end.

Definition do {R} (c : act R) : prog R := PAct c PRet.

Notation "'do!' x := p 'in' k" := (pbind p (fun x => k))
  (at level 200, x pattern, p at level 100, k at level 200, right associativity).

(** Sequential execution. *)
Fixpoint run {A} (p : prog A) (d : db) : outcome (db * A) :=
  match p with
  | PRet a => Ret (d, a)
  | PUB => UB
  | PAct c k => let! (d', r) := act_step c d in run (k r) d'
  end.

(** ** SingleTypeDatabase (lib/src/server/db/SingleTypeDatabase.cpp) *)

(** [it != m_values.end()] *)
Definition not_end (it : iter) : bool :=
  match it with Some _ => true | None => false end.

(** SingleTypeDatabase.cpp:21-25 *)
Definition add_value (t : tid) (address : N) (value : val t) : prog bool :=
  do (AInsert t address value).

(** SingleTypeDatabase.cpp:27-38 *)
Definition set_value (t : tid) (address : N) (value : val t) : prog bool :=
  do! it := do (AFind t address) in
  if not_end it then
    do! _ := do (AAssign t it value) in PRet true
  else PRet false.

(** SingleTypeDatabase.cpp:60-71; [output] is the referenced variable. *)
Definition get_value (t : tid) (address : N) (output : val t) : prog (bool * val t) :=
  do! it := do (AFind t address) in
  if not_end it then
    do! v := do (ASecond t it) in PRet (true, v)
  else PRet (false, output).

(** SingleTypeDatabase.cpp:93-103 *)
Definition is_valid (t : tid) (address : N) : prog bool :=
  do! it := do (AFind t address) in
  if not_end it then PRet true else PRet false.

(** [static_cast<size_t>(current - start + 1)]: the operands are promoted to
    [int], a negative result wraps. *)
Definition length_so_far (start current : N) : N :=
  Z.to_N ((Z.of_N current - Z.of_N start + 1) mod 2 ^ 64)%Z.

(** SingleTypeDatabase.cpp:117-127, the while loop.  [fuel] bounds the number
    of iterations; running out of it counts as undefined behaviour. *)
Fixpoint range_loop (fuel : nat) (t : tid) (start count current : N) (it : iter)
    : prog (option N) :=
  match fuel with
  | O => PUB
  | S fuel' =>
      if (length_so_far start current <? count) && not_end it then
        do! k := do (AFirst t it) in
        if negb (k =? current + 1) then PRet None
        else
          do! it' := do (ANext t it) in
          range_loop fuel' t start count k it'
      else PRet (Some current)
  end.

(** SingleTypeDatabase.cpp:105-131 *)
Definition is_valid_range (t : tid) (start count : N) : prog bool :=
  do! it := do (AFind t start) in
  if not_end it then
    do! it := do (ANext t it) in
    do! r := range_loop (S (N.to_nat count)) t start count start it in
    match r with
    | None => PRet false
    | Some current => PRet (length_so_far start current =? count)
    end
  else PRet false.

(** SingleTypeDatabase.cpp:51-55 *)
Fixpoint set_loop (t : tid) (it : iter) (values : list (val t)) : prog unit :=
  match values with
  | [] => PRet tt
  | v :: values' =>
      do! _ := do (AAssign t it v) in
      do! it' := do (ANext t it) in
      set_loop t it' values'
  end.

(** SingleTypeDatabase.cpp:40-58 *)
Definition set_values (t : tid) (start : N) (values : list (val t)) : prog bool :=
  do! ok := is_valid_range t start (size values) in
  if negb ok then PRet false
  else
    do! it := do (AFind t start) in
    do! _ := set_loop t it values in
    PRet true.

(** SingleTypeDatabase.cpp:84-88 *)
Fixpoint get_loop (t : tid) (it : iter) (output : list (val t)) : prog (list (val t)) :=
  match output with
  | [] => PRet []
  | _ :: output' =>
      do! v := do (ASecond t it) in
      do! it' := do (ANext t it) in
      do! vs := get_loop t it' output' in
      PRet (v :: vs)
  end.

(** SingleTypeDatabase.cpp:73-91 *)
Definition get_values (t : tid) (start : N) (output : list (val t))
    : prog (bool * list (val t)) :=
  do! ok := is_valid_range t start (size output) in
  if negb ok then PRet (false, output)
  else
    do! it := do (AFind t start) in
    do! vs := get_loop t it output in
    PRet (true, vs).

(** ** InMemoryDatabase (lib/src/server/db/InMemoryDatabase.cpp), without the
    locking *)

(** InMemoryDatabase.cpp:69-73: pairing with [static_cast<Address>(start + i)]. *)
Fixpoint number_from {V} (start i : N) (values : list V) : list (N * V) :=
  match values with
  | [] => []
  | v :: values' => (to_u16 (start + i), v) :: number_from start (i + 1) values'
  end.

Definition illegal_address {A} : expected A := Error (EModbus IllegalDataAddress).

(** InMemoryDatabase.cpp:58-128: the four read functions. [zero] is the value
    the vector is filled with. *)
Definition on_read (t : tid) (zero : val t) (start qty : N)
    (mk : list (N * val t) -> response) : prog (expected response) :=
  do! (result, values) := get_values t start (repeat zero (N.to_nat qty)) in
  if negb result then PRet illegal_address
  else PRet (Value (mk (number_from start 0 values))).

(** InMemoryDatabase.cpp:130-156 *)
Definition on_write (t : tid) (address : N) (value : val t) (resp : response)
    : prog (expected response) :=
  do! result := set_value t address value in
  if negb result then PRet illegal_address else PRet (Value resp).

(** InMemoryDatabase.cpp:158-188 *)
Definition on_write_many (t : tid) (start : N) (values : list (val t))
    (mk : N -> N -> response) : prog (expected response) :=
  do! result := set_values t start values in
  if negb result then PRet illegal_address
  else PRet (Value (mk start (to_u16 (size values)))).

Definition on_request (r : request) : prog (expected response) :=
  match r with
  | ReadCoils s q => on_read Coils false s q CoilsRead
  | ReadDiscreteInputs s q => on_read Discretes false s q DiscreteInputsRead
  | ReadHoldingRegisters s q => on_read Holdings 0 s q HoldingRegistersRead
  | ReadInputRegisters s q => on_read Inputs 0 s q InputRegistersRead
  | WriteSingleCoil a v => on_write Coils a v (SingleCoilWritten a v)
  | WriteSingleRegister a v => on_write Holdings a v (SingleRegisterWritten a v)
  | WriteMultipleCoils s vs => on_write_many Coils s vs MultipleCoilsWritten
  | WriteMultipleRegisters s vs => on_write_many Holdings s vs MultipleRegistersWritten
  end.

(** User code run by [execute_transaction]: a terminating program over the
    [IDatabase] calls (lib/include/modbus/server/db/IDatabase.h:33-98).  Its result
    stands for whatever it stores in captured variables. *)
Inductive transaction : Type :=
| TxDone (result : list N)
| TxGet (t : tid) (a : N) (output : val t) (k : bool -> val t -> transaction)
| TxSet (t : tid) (a : N) (v : val t) (k : bool -> transaction).

(** InMemoryDatabase.cpp:190-228: each call goes straight to the table. *)
Fixpoint transaction_body (x : transaction) : prog (list N) :=
  match x with
  | TxDone l => PRet l
  | TxGet t a output k =>
      do! (b, v) := get_value t a output in transaction_body (k b v)
  | TxSet t a v k =>
      do! b := set_value t a v in transaction_body (k b)
  end.

(** The public, locking entry points: [add_*] (InMemoryDatabase.cpp:23-49),
    [on_request] (:58-188) and [execute_transaction] (:51-56). *)
Inductive call : Type :=
| CAdd (t : tid) (a : N) (v : val t)
| CRequest (r : request)
| CTransaction (x : transaction).

Inductive result : Type :=
| RBool (b : bool)
| RResponse (r : expected response)
| RTransaction (l : list N).

(** The body of an entry point, executed between lock and unlock. *)
Definition call_body (c : call) : prog result :=
  match c with
  | CAdd t a v => do! b := add_value t a v in PRet (RBool b)
  | CRequest r => do! x := on_request r in PRet (RResponse x)
  | CTransaction x => do! l := transaction_body x in PRet (RTransaction l)
  end.

(** Calls made one after the other. *)
Fixpoint run_calls (cs : list call) (d : db) : outcome (db * list result) :=
  match cs with
  | [] => Ret (d, [])
  | c :: cs' =>
      let! (d1, r) := run (call_body c) d in
      let! (d2, rs) := run_calls cs' d1 in
      Ret (d2, r :: rs)
  end.

(** The operations of a single table, made one after the other. *)
Inductive table_op (V : Type) : Type :=
| OAdd (a : N) (v : V)
| OSet (a : N) (v : V)
| OSetMany (s : N) (vs : list V)
| OGet (a : N) (output : V)
| OGetMany (s : N) (output : list V)
| OValid (a : N)
| OValidRange (s n : N).
Arguments OAdd {V}. Arguments OSet {V}. Arguments OSetMany {V}. Arguments OGet {V}.
Arguments OGetMany {V}. Arguments OValid {V}. Arguments OValidRange {V}.

(** What the caller sees: the returned [bool] and the vector written to. *)
Definition table_result (V : Type) : Type := (bool * list V)%type.

Definition table_body (t : tid) (o : table_op (val t)) : prog (table_result (val t)) :=
  match o with
  | OAdd a v => do! b := add_value t a v in PRet (b, [])
  | OSet a v => do! b := set_value t a v in PRet (b, [])
  | OSetMany s vs => do! b := set_values t s vs in PRet (b, [])
  | OGet a out => do! (b, v) := get_value t a out in PRet (b, [v])
  | OGetMany s out => get_values t s out
  | OValid a => do! b := is_valid t a in PRet (b, [])
  | OValidRange s n => do! b := is_valid_range t s n in PRet (b, [])
  end.

Fixpoint run_table (t : tid) (os : list (table_op (val t))) (d : db)
    : outcome (db * list (table_result (val t))) :=
  match os with
  | [] => Ret (d, [])
  | o :: os' =>
      let! (d1, r) := run (table_body t o) d in
      let! (d2, rs) := run_table t os' d1 in
      Ret (d2, r :: rs)
  end.
