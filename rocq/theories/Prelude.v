(** Common vocabulary of the model: machine integers, the outcome of code that
    may have undefined behaviour, [Expected<T>] and the exception classes. *)
From Coq Require Export List NArith ZArith Lia Bool String.
Export ListNotations.
Open Scope N_scope.
Open Scope list_scope.

(** ** Machine integers

    [uint8_t], [uint16_t] and [size_t] values are [N]; the wrap of each type is
    explicit.  [u8 v] / [u16 v] say that [v] is a value of the type. *)
Definition u8 (v : N) : Prop := v < 256.
Definition u16 (v : N) : Prop := v < 65536.

Definition to_u8 (v : N) : N := v mod 256.
Definition to_u16 (v : N) : N := v mod 65536.

(** A byte string: every element is a [uint8_t]. *)
Definition bytes (l : list N) : Prop := Forall u8 l.

(** [size_t] subtraction (64 bits, wraps when negative). *)
Definition size_sub (a b : N) : N :=
  if b <=? a then a - b else a + 2 ^ 64 - b.

(** Size of a container as a [size_t]. *)
Definition size {A} (l : list A) : N := N.of_nat (List.length l).

(** ** Undefined behaviour

    [UB] is the outcome of using a variable that a failed read left
    uninitialised, of dereferencing or advancing an end iterator, or of calling
    [front] on an empty container. *)
Inductive outcome (A : Type) : Type :=
| Ret (a : A)
| UB.
Arguments Ret {A} a.
Arguments UB {A}.

Definition obind {A B} (x : outcome A) (k : A -> outcome B) : outcome B :=
  match x with
  | Ret a => k a
  | UB => UB
  end.

Notation "'let!' x := e 'in' k" := (obind e (fun x => k))
  (at level 200, x pattern, e at level 100, k at level 200, right associativity).

(** ** Exception types

    Models lib/include/modbus/messages/ExceptionType.h:34-113. *)
Inductive exception_type : Type :=
| IllegalFunction
| IllegalDataAddress
| IllegalDataValue
| ServerDeviceFailure
| Acknowledge
| ServerDeviceBusy
| MemoryParityError
| GatewayPathUnavailable
| GatewayTargetDeviceFailedToRespond
| Unknown.

(** The underlying integer of the enumerator
    (lib/include/modbus/messages/ExceptionType.h:42-112). [Unknown] has no explicit
    value and is therefore 0x0B + 1. *)
Definition exception_value (e : exception_type) : N :=
  match e with
  | IllegalFunction => 1
  | IllegalDataAddress => 2
  | IllegalDataValue => 3
  | ServerDeviceFailure => 4
  | Acknowledge => 5
  | ServerDeviceBusy => 6
  | MemoryParityError => 7
  | GatewayPathUnavailable => 10
  | GatewayTargetDeviceFailedToRespond => 11
  | Unknown => 12
  end.

(** ** Exceptions carried by [Expected]

    Models lib/include/modbus/exceptions/*.h.  The explanatory text of the two
    "malformed" exceptions is not kept here (see Texts.v), nor that of the time-out; the text of a
    connection exception is, because it is chosen by the transport.
    [EOther n] stands for any other exception class a user session may return. *)
Inductive exn : Type :=
| EMalformedRequest                (* MalformedModbusRequestException.h *)
| EMalformedResponse               (* MalformedModbusResponseException.h *)
| EModbus (t : exception_type)     (* ModbusException.h *)
| ETimeout                         (* TimeoutException.h *)
| EConnection (msg : string)       (* ConnectionException.h *)
| EOther (n : N).

(** Models lib/include/modbus/Expected.h:48-281: a value or an exception. *)
Inductive expected (T : Type) : Type :=
| Value (v : T)
| Error (e : exn).
Arguments Value {T} v.
Arguments Error {T} e.

(** Changing the value type of an [Expected]; used to collect the eight
    request (response) structs into one type. *)
Definition emap {A B} (f : A -> B) (x : expected A) : expected B :=
  match x with
  | Value v => Value (f v)
  | Error e => Error e
  end.

Definition omap {A B} (f : A -> B) (x : outcome A) : outcome B :=
  match x with
  | Ret v => Ret (f v)
  | UB => UB
  end.
