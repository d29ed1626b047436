(** Model of lib/include/modbus/Expected.h and of the exception classes in
    lib/include/modbus/exceptions.

    An exception object is its class together with what it carries; converting it to
    a base class (by value) keeps only what the base class has. *)
From Verif Require Import Prelude.

(** The classes that occur: those of the library, and two classes of the standard
    library, with virtual functions, for the exceptions users may put into one. *)
Inductive eclass : Type :=
| CIException                                    (* IException.h:38 *)
| CConnectionException                           (* ConnectionException.h:37 *)
| CMalformedRequest                              (* MalformedModbusRequestException.h:34 *)
| CMalformedResponse                             (* MalformedModbusResponseException.h:35 *)
| CModbusException                               (* ModbusException.h:39 *)
| CTimeoutException                              (* TimeoutException.h:33 *)
| CStdException                                  (* std::exception *)
| CStdLogicError.                                (* std::logic_error *)

(** Public base classes. *)
Definition base (c : eclass) : option eclass :=
  match c with
  | CConnectionException | CMalformedRequest | CMalformedResponse | CModbusException | CTimeoutException => Some CIException
  | CStdLogicError => Some CStdException
  | CIException | CStdException => None
  end.

Definition eclass_eq_dec (a b : eclass) : {a = b} + {a <> b}.
Proof. decide equality. Defined.

(** [c] is [b] or derives from it. *)
Definition derives (c b : eclass) : bool :=
  if eclass_eq_dec c b then true
  else match base c with Some c' => if eclass_eq_dec c' b then true else false | None => false end.

(** Classes with virtual functions; IException has none (IException.h:38-60). *)
Definition polymorphic (c : eclass) : bool :=
  match c with CStdException | CStdLogicError => true | _ => false end.

(** What an object carries: the message, and the type in a ModbusException
    (ModbusException.h:76). *)
Record eobject : Type := { eo_class : eclass; eo_message : N; eo_type : option exception_type }.

(** Copying as class [c]. *)
Definition copy_as (c : eclass) (o : eobject) : eobject :=
  {| eo_class := c; eo_message := eo_message o;
     eo_type := match c with CModbusException => eo_type o | _ => None end |}.

(** Expected.h:272-281: a union and the flag. *)
Inductive exp (T : Type) : Type :=
| EValue (v : T)
| EException (o : eobject).
Arguments EValue {T} v.
Arguments EException {T} o.

(** What a call does: return, or throw an exception. *)
Inductive call (A : Type) : Type :=
| Returns (a : A)
| Throws (o : eobject).
Arguments Returns {A} a.
Arguments Throws {A} o.

Definition invalid_argument (message : N) : eobject := {| eo_class := CStdLogicError; eo_message := message; eo_type := None |}.

Section Expected.
Context {T : Type}.

(** Expected.h:142-150: [E] is the template argument and [o] the object the reference
    refers to.  [typeid] of a reference looks at the object only for classes with
    virtual functions. *)
Definition from_exception (E : eclass) (o : eobject) : call (exp T) :=
  let dynamic := if polymorphic E then eo_class o else E in
  if eclass_eq_dec dynamic E then Returns (EException (copy_as E o)) else Throws (invalid_argument 0).

(** Expected.h:157-163 *)
Definition from_exception_ptr (o : eobject) : exp T := EException o.

(** Expected.h:173-176 *)
Definition is_valid (x : exp T) : bool := match x with EValue _ => true | EException _ => false end.

(** Expected.h:187-212 *)
Definition get (x : exp T) : call T := match x with EValue v => Returns v | EException o => Throws o end.

(** Expected.h:221-233 *)
Definition has_exception (E : eclass) (x : exp T) : bool :=
  match x with EValue _ => false | EException o => derives (eo_class o) E end.

(** Expected.h:243-247 *)
Definition get_exception_ptr (x : exp T) : call eobject :=
  match x with EValue _ => Throws (invalid_argument 1) | EException o => Returns o end.

(** Expected.h:257-270 *)
Definition get_exception (E : eclass) (x : exp T) : call eobject :=
  match x with
  | EValue _ => Throws (invalid_argument 2)
  | EException o => if derives (eo_class o) E then Returns (copy_as E o) else Throws (invalid_argument 2)
  end.

(** Expected.h:82-113: the copy and move constructors. *)
Definition copy (x : exp T) : exp T :=
  match x with EValue v => EValue v | EException o => EException o end.
End Expected.
