(** Model of lib/src/TransactionIdentifier.cpp, lib/src/UnitIdentifier.cpp and of the
    printing of exception types (lib/src/messages/ExceptionType.cpp:48-73).

    [ostream] is std::ostream as far as these functions use it: the text written so
    far and the formatting state.  [put_text] and [put_unsigned] are the formatted
    output functions of the C++ standard ([ostream.inserters], [facet.num.put]). *)
From Verif Require Import Prelude.
From Coq Require Import Ascii String.

Inductive basefield := Dec | Oct | Hex.
Inductive adjustfield := Left | Right | Internal.

Record ostream : Type := {
  os_text : list ascii;
  os_base : basefield;
  os_upper : bool;                               (* std::uppercase *)
  os_showbase : bool;                            (* std::showbase *)
  os_adjust : adjustfield;
  os_fill : ascii;
  os_width : nat
}.

(** A stream as it is constructed: [basic_ios::init]. *)
Definition new_stream : ostream :=
  {| os_text := []; os_base := Dec; os_upper := false; os_showbase := false; os_adjust := Right;
     os_fill := " "%char; os_width := 0 |}.

(** ** The standard library *)
Definition emit (st : ostream) (l : list ascii) : ostream :=
  {| os_text := os_text st ++ l; os_base := os_base st; os_upper := os_upper st; os_showbase := os_showbase st;
     os_adjust := os_adjust st; os_fill := os_fill st; os_width := 0 |}.

(** Padding to the width; [prefix] is the part before which internal padding does not go. *)
Definition pad (st : ostream) (prefix l : list ascii) : list ascii :=
  let fill := List.repeat (os_fill st) (os_width st - (List.length prefix + List.length l)) in
  match os_adjust st with
  | Left => prefix ++ l ++ fill
  | Right => fill ++ prefix ++ l
  | Internal => prefix ++ fill ++ l
  end.

Definition put_text (st : ostream) (l : list ascii) : ostream := emit st (pad st [] l).

Definition digit (upper : bool) (d : N) : ascii :=
  if d <? 10 then ascii_of_N (48 + d) else ascii_of_N ((if upper then 55 else 87) + d).

(** The digits of [n], most significant first; a number below 2^32 has at most 32. *)
Fixpoint digits_aux (fuel : nat) (radix : N) (upper : bool) (n : N) (acc : list ascii) : list ascii :=
  match fuel with
  | O => acc
  | S fuel' =>
      let acc := digit upper (n mod radix) :: acc in
      if n / radix =? 0 then acc else digits_aux fuel' radix upper (n / radix) acc
  end.

Definition radix (b : basefield) : N := match b with Dec => 10 | Oct => 8 | Hex => 16 end.

Definition digits (b : basefield) (upper : bool) (n : N) : list ascii := digits_aux 32 (radix b) upper n [].

(** The prefix that std::showbase adds to a number other than zero. *)
Definition base_prefix (st : ostream) (n : N) : list ascii :=
  if os_showbase st && negb (n =? 0) then
    match os_base st with
    | Dec => []
    | Oct => ["0"%char]
    | Hex => if os_upper st then ["0"%char; "X"%char] else ["0"%char; "x"%char]
    end
  else [].

Definition put_unsigned (st : ostream) (n : N) : ostream :=
  emit st (pad st (base_prefix st n) (digits (os_base st) (os_upper st) n)).

(** Manipulators. *)
Definition uppercase (st : ostream) : ostream :=
  {| os_text := os_text st; os_base := os_base st; os_upper := true; os_showbase := os_showbase st;
     os_adjust := os_adjust st; os_fill := os_fill st; os_width := os_width st |}.
Definition hex (st : ostream) : ostream :=
  {| os_text := os_text st; os_base := Hex; os_upper := os_upper st; os_showbase := os_showbase st;
     os_adjust := os_adjust st; os_fill := os_fill st; os_width := os_width st |}.
Definition setw (n : nat) (st : ostream) : ostream :=
  {| os_text := os_text st; os_base := os_base st; os_upper := os_upper st; os_showbase := os_showbase st;
     os_adjust := os_adjust st; os_fill := os_fill st; os_width := n |}.
Definition setfill (c : ascii) (st : ostream) : ostream :=
  {| os_text := os_text st; os_base := os_base st; os_upper := os_upper st; os_showbase := os_showbase st;
     os_adjust := os_adjust st; os_fill := c; os_width := os_width st |}.

(** ** Identifiers *)
Definition chars (s : string) : list ascii := list_ascii_of_string s.

(** TransactionIdentifier.cpp:57-63 *)
Definition print_transaction (st : ostream) (value : N) : ostream :=
  let st := put_text st (chars "0x") in
  let st := uppercase st in
  let st := setfill "0"%char (setw 4 st) in
  put_unsigned (hex st) value.

(** UnitIdentifier.cpp:24-30 *)
Definition print_unit (st : ostream) (value : N) : ostream :=
  let st := put_text st (chars "0x") in
  let st := uppercase st in
  let st := setfill "0"%char (setw 2 st) in
  put_unsigned (hex st) value.

(** TransactionIdentifier.cpp:44-48: the new value, which is also the result. *)
Definition pre_increment (value : N) : N * N := (to_u16 (value + 1), to_u16 (value + 1)).

(** TransactionIdentifier.cpp:50-55: the new value and the result. *)
Definition post_increment (value : N) : N * N := (to_u16 (value + 1), value).

(** TransactionIdentifier.cpp:34-42, UnitIdentifier.h:72-85 *)
Definition id_eq (a b : N) : bool := a =? b.
Definition id_ne (a b : N) : bool := negb (a =? b).

(** UnitIdentifier.h:47 *)
Definition default_unit : N := 0xFF.

(** UnitIdentifier.cpp:36-39: [h] is std::hash<unsigned int>. *)
Definition unit_hash (h : N -> N) (value : N) : N := h value.

(** ** Exception types *)

(** ExceptionType.cpp:48-73 *)
Definition exception_text (e : exception_type) : list ascii :=
  chars match e with
        | IllegalFunction => "Illegal function"
        | IllegalDataAddress => "Illegal data address"
        | IllegalDataValue => "Illegal data value"
        | ServerDeviceFailure => "Server device failure"
        | Acknowledge => "Acknowledge"
        | ServerDeviceBusy => "Server device busy"
        | MemoryParityError => "Memory parity error"
        | GatewayPathUnavailable => "Gateway path unavailable"
        | GatewayTargetDeviceFailedToRespond => "Gateway target device failed to respond"
        | Unknown => "Unknown"
        end.
Definition print_exception (st : ostream) (e : exception_type) : ostream := put_text st (exception_text e).

(** ModbusException.h:47-52 *)
Definition exception_message (e : exception_type) : list ascii := os_text (print_exception new_stream e).
