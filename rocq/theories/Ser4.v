(** The part of the ser4cpp library that modbus-cpp relies on.

    ser4cpp is not part of the repository; the behaviour below is an assumption
    of the model (listed in DESIGN.md):
    - a read view ([rseq_t]) is a list of bytes; [take] and [skip] clamp;
    - [UIntN::read_from] fails without consuming anything when the view is too
      short, otherwise it reads big-endian and advances the view;
    - [UIntN::write_to] does nothing when the destination is too short,
      otherwise it writes big-endian and advances the destination. *)
From Verif Require Import Prelude.

(** ** Read views *)
Definition rseq := list N.

(** [UInt8::read_from]: [None] when it returns [false]. *)
Definition read_u8 (s : rseq) : option (N * rseq) :=
  match s with
  | b :: s' => Some (b, s')
  | [] => None
  end.

(** [UInt16::read_from] (BigEndian.h). *)
Definition read_u16 (s : rseq) : option (N * rseq) :=
  match s with
  | hi :: lo :: s' => Some (hi * 256 + lo, s')
  | _ => None
  end.

(** A read whose result is not checked by the caller: when it fails the
    variable stays uninitialised and using it is undefined behaviour.  (The
    model reports [UB] at the read itself, which is at least as strict.) *)
Definition rd8 {A} (s : rseq) (k : N -> rseq -> outcome A) : outcome A :=
  match read_u8 s with
  | Some (v, s') => k v s'
  | None => UB
  end.

Definition rd16 {A} (s : rseq) (k : N -> rseq -> outcome A) : outcome A :=
  match read_u16 s with
  | Some (v, s') => k v s'
  | None => UB
  end.

(** ** Write views

    A [wseq_t] over a fixed piece of storage.  Writes are sequential from the
    start of the storage, so the state is its capacity and what has been
    written so far. *)
Record wseq : Type := { w_cap : nat; w_out : list N }.

Definition wseq_new (cap : nat) : wseq := {| w_cap := cap; w_out := [] |}.

(** Bytes of the storage that can still be written. *)
Definition w_room (w : wseq) : nat := w_cap w - List.length (w_out w).

Definition wput (w : wseq) (l : list N) : wseq :=
  if Nat.leb (List.length l) (w_room w)
  then {| w_cap := w_cap w; w_out := w_out w ++ l |}
  else w.

Definition write_u8 (w : wseq) (v : N) : wseq := wput w [to_u8 v].

Definition write_u16 (w : wseq) (v : N) : wseq :=
  wput w [to_u8 (v / 256); to_u8 v].

(** The storage seen as a read-only view: cells that were never written have
    no defined content ([None]). *)
Definition w_storage (w : wseq) : list (option N) :=
  map Some (w_out w) ++ repeat None (w_room w).
