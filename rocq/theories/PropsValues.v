(** Properties C52 to C54: identifiers, exception messages and [Expected]. *)
From Coq Require Import Ascii String.
From Verif Require Import Prelude Ids SpecIds IdsFacts Expected SpecExpected ExpectedFacts.

(** ** C52: identifiers *)

(** On a stream whose alignment, base prefix and width were not changed, the text is
    0x and exactly four (two) hexadecimal digits. *)
Theorem C52_transaction_text :
  forall st v, plain st -> u16 v -> os_text (print_transaction st v) = os_text st ++ chars "0x" ++ hex_text 4 v.
Proof. exact transaction_text. Qed.
Print Assumptions C52_transaction_text.

Theorem C52_unit_text :
  forall st v, plain st -> u8 v -> os_text (print_unit st v) = os_text st ++ chars "0x" ++ hex_text 2 v.
Proof. exact unit_text. Qed.
Print Assumptions C52_unit_text.

Theorem C52_digits :
  forall k v, List.length (hex_text k v) = k /\ forall c, In c (hex_text k v) -> In c (chars "0123456789ABCDEF").
Proof. exact (fun k v => conj (hex_text_length k v) (hex_text_digits k v)). Qed.
Print Assumptions C52_digits.

Theorem C52_transaction_injective :
  forall st v w, plain st -> u16 v -> u16 w ->
  (os_text (print_transaction st v) = os_text (print_transaction st w) <-> v = w).
Proof. exact transaction_injective. Qed.
Print Assumptions C52_transaction_injective.

Theorem C52_unit_injective :
  forall st v w, plain st -> u8 v -> u8 w ->
  (os_text (print_unit st v) = os_text (print_unit st w) <-> v = w).
Proof. exact unit_injective. Qed.
Print Assumptions C52_unit_injective.

(** On a stream set to left alignment different identifiers have the same text
    (0x1000 for 1 and 4096). *)
Theorem C52_any_stream_refuted :
  ~ (forall st v w, u16 v -> u16 w -> os_text (print_transaction st v) = os_text (print_transaction st w) -> v = w).
Proof. exact any_stream_refuted. Qed.
Print Assumptions C52_any_stream_refuted.

(** Printing an identifier leaves the stream in hexadecimal: numbers printed later
    are affected. *)
Theorem C52_later_output_unaffected_refuted :
  ~ (forall st v n, plain st -> u8 v ->
     os_text (put_unsigned (print_unit st v) n) = os_text (print_unit st v) ++ digits (os_base st) (os_upper st) n).
Proof. exact sticky_refuted. Qed.
Print Assumptions C52_later_output_unaffected_refuted.

(** They are decimal before. *)
Theorem C52_decimal_before : forall n, os_text (put_unsigned new_stream n) = digits Dec false n.
Proof. exact decimal_first. Qed.
Print Assumptions C52_decimal_before.

(** On a stream that shows bases a unit identifier other than zero has two prefixes. *)
Theorem C52_showbase : forall st v, os_showbase st = true -> os_adjust st = Right -> (os_width st <= 2)%nat ->
  os_text (print_unit st v) = os_text st ++ chars "0x" ++ (if v =? 0 then chars "00" else chars "0X" ++ digits Hex true v).
Proof. exact showbase_unit. Qed.
Print Assumptions C52_showbase.

(** Both increments add one modulo 65536; the postfix one returns the old value. *)
Theorem C52_increments :
  forall v, u16 v ->
  fst (pre_increment v) = (v + 1) mod 65536 /\ snd (pre_increment v) = (v + 1) mod 65536 /\
  fst (post_increment v) = (v + 1) mod 65536 /\ snd (post_increment v) = v.
Proof. exact increments. Qed.
Print Assumptions C52_increments.

Theorem C52_increment_many :
  forall n v, u16 v -> increment_times n v = (v + N.of_nat n) mod 65536.
Proof. exact increment_many. Qed.
Print Assumptions C52_increment_many.

(** Identifiers are equal exactly if their values, and hence their texts, are. *)
Theorem C52_comparison : forall a b, (id_eq a b = true <-> a = b) /\ (id_ne a b = true <-> a <> b).
Proof. exact identifiers_compare. Qed.
Print Assumptions C52_comparison.

(** The hash of a unit identifier is that of its value: it has no collisions if the
    hash of numbers has none. *)
Theorem C52_hash : forall h, (forall x y, u8 x -> u8 y -> h x = h y -> x = y) ->
  forall a b, u8 a -> u8 b -> (unit_hash h a = unit_hash h b <-> id_eq a b = true).
Proof. exact hash_separates. Qed.
Print Assumptions C52_hash.

Example C52_case :
  plain new_stream /\
  os_text (print_transaction new_stream 0x4C) = chars "0x004C" /\ os_text (print_unit new_stream 0) = chars "0x00" /\
  os_text (print_unit (print_transaction new_stream 65535) 0x4C) = chars "0xFFFF0x4C" /\
  post_increment 65535 = (0, 65535) /\ os_text (print_transaction left_stream 1) = chars "0x1000" /\
  os_text (print_unit new_stream default_unit) = chars "0xFF" /\ id_eq 1 257 = false /\ id_ne 1 257 = true.
Proof.
  split; [unfold plain; cbn; split; [discriminate|]; split; [reflexivity|]; apply le_S, le_S, le_n|].
  split; [reflexivity|]. split; [reflexivity|]. split; [reflexivity|]. split; [reflexivity|].
  split; [reflexivity|]. split; [reflexivity|]. split; reflexivity.
Qed.

(** ** C53: exception messages identify the type *)
Theorem C53_messages_injective : forall a b, exception_message a = exception_message b -> a = b.
Proof. exact messages_injective. Qed.
Print Assumptions C53_messages_injective.

Example C53_case : exception_message ServerDeviceBusy = chars "Server device busy" /\
  exception_message Unknown = chars "Unknown".
Proof. split; reflexivity. Qed.

(** ** C54: [Expected] *)

(** It holds either a value or an exception, and all accessors agree on which. *)
Theorem C54_either_value_or_exception :
  forall {T : Type} (x : exp T),
  (exists v, x = EValue v /\ is_valid x = true /\ get x = Returns v /\ get_exception_ptr x = Throws (invalid_argument 1) /\
     forall E, has_exception E x = false) \/
  (exists o, x = EException o /\ is_valid x = false /\ get x = Throws o /\ get_exception_ptr x = Returns o /\
     has_exception (eo_class o) x = true).
Proof. exact @either_or. Qed.
Print Assumptions C54_either_value_or_exception.

(** [has_exception<E>] answers whether the class of the exception is [E] or derives
    from it; [get_exception<E>] returns exactly then. *)
Theorem C54_has_exception :
  forall {T : Type} (o : eobject) (E : eclass), has_exception (T:=T) E (EException o) = true <-> is_a (eo_class o) E.
Proof. exact @has_exception_is_a. Qed.
Print Assumptions C54_has_exception.

Theorem C54_get_exception :
  forall {T : Type} (E : eclass) (x : exp T), has_exception E x = true <-> exists o, get_exception E x = Returns o.
Proof. exact @get_exception_iff. Qed.
Print Assumptions C54_get_exception.

(** With its own class an exception goes in and comes out unchanged. *)
Theorem C54_exact_class :
  forall {T : Type} (o : eobject), well_formed o ->
  from_exception (T:=T) (eo_class o) o = Returns (EException o) /\
  get_exception (T:=T) (eo_class o) (EException o) = Returns o.
Proof. exact @exact_class. Qed.
Print Assumptions C54_exact_class.

(** An exception given by pointer is kept as it is, whatever its class. *)
Theorem C54_pointer :
  forall {T : Type} (o : eobject),
  is_valid (T:=T) (from_exception_ptr o) = false /\ get (T:=T) (from_exception_ptr o) = Throws o /\
  get_exception_ptr (T:=T) (from_exception_ptr o) = Returns o.
Proof. exact @pointer_kept. Qed.
Print Assumptions C54_pointer.

(** Copies hold the same. *)
Theorem C54_copies : forall {T : Type} (x : exp T), copy x = x.
Proof. exact @copies_equal. Qed.
Print Assumptions C54_copies.

(** Every error of the library is an IException. *)
Theorem C54_library_errors : forall e c, class_of e = Some c -> is_a c CIException.
Proof. exact library_errors. Qed.
Print Assumptions C54_library_errors.

(** The check against slicing (Expected.h:145-148) does not work for the exceptions
    of the library: they have no virtual functions. *)
Theorem C54_slicing_detected_refuted :
  ~ (forall E o (x : exp N), well_formed o -> is_a (eo_class o) E -> from_exception E o = Returns x -> x = EException o).
Proof. exact slicing_refuted. Qed.
Print Assumptions C54_slicing_detected_refuted.

(** It works for classes with virtual functions. *)
Theorem C54_slicing_detected_partial :
  forall {T : Type} (E : eclass) (o : eobject) (x : exp T),
  polymorphic E = true -> from_exception E o = Returns x -> eo_class o = E.
Proof. exact @virtual_classes_checked. Qed.
Print Assumptions C54_slicing_detected_partial.

Example C54_case :
  let o := {| eo_class := CModbusException; eo_message := 2; eo_type := Some IllegalDataAddress |} in
  well_formed o /\ has_exception (T:=N) CIException (EException o) = true /\
  has_exception (T:=N) CTimeoutException (EException o) = false /\
  from_exception (T:=N) CStdException (invalid_argument 0) = Throws (invalid_argument 0).
Proof.
  cbv zeta. split; [split; [reflexivity|discriminate]|]. split; [reflexivity|]. split; reflexivity.
Qed.
