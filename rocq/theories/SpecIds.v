(** Independent specification of the text of identifiers. *)
From Verif Require Import Prelude Ids.
From Coq Require Import Ascii String.

(** The hexadecimal digit of a number below 16. *)
Definition hex_char (d : N) : ascii := nth (N.to_nat d) (chars "0123456789ABCDEF") "?"%char.

(** Exactly [k] hexadecimal digits, most significant first. *)
Fixpoint hex_text (k : nat) (v : N) : list ascii :=
  match k with
  | O => []
  | S k' => hex_text k' (v / 16) ++ [hex_char (v mod 16)]
  end.

(** Streams that do not ask for left alignment, base prefixes or more room than "0x"
    takes: any stream on which these settings were not changed. *)
Definition plain (st : ostream) : Prop :=
  os_adjust st <> Left /\ os_showbase st = false /\ (os_width st <= 2)%nat.
