(** Independent specification of MBAP framing (MODBUS Messaging on TCP/IP
    Implementation Guide, section 3.1.3), written without the parser: of the model
    it uses only the message record and the type of receiver operations. *)
From Verif Require Import Prelude Ser4 Mbap SpecPdu.

(** One unit of the byte stream: a header and what it announces.  The length
    field counts the unit identifier and the body; a length field of zero
    ([i_body = None]) announces nothing, not even the unit identifier that
    is nevertheless part of the 7-byte header. *)
Record item : Type := {
  i_tx : N;
  i_proto : N;
  i_unit : N;
  i_body : option (list N)
}.

Definition body_of (i : item) : list N :=
  match i_body i with Some b => b | None => [] end.

Definition announced (i : item) : N :=
  match i_body i with Some b => 1 + size b | None => 0 end.

Definition item_bytes (i : item) : list N :=
  be16 (i_tx i) ++ be16 (i_proto i) ++ be16 (announced i) ++ [i_unit i] ++ body_of i.

Definition typed_item (i : item) : Prop :=
  u16 (i_tx i) /\ u16 (i_proto i) /\ u8 (i_unit i) /\ bytes (body_of i) /\ size (body_of i) <= 65534.

(** A frame a Modbus peer sends. *)
Definition frame (tx unit : N) (pdu : list N) : item :=
  {| i_tx := tx; i_proto := 0; i_unit := unit; i_body := Some pdu |}.

Definition frame_bytes (tx unit : N) (pdu : list N) : list N := item_bytes (frame tx unit pdu).

(** The length announced by a stream that starts with a full length field. *)
Definition announces (bs : list N) (L : N) : Prop :=
  exists a b c d e f r, bs = a :: b :: c :: d :: e :: f :: r /\ L = e * 256 + f.

(** A stream that ends inside an item. *)
Definition incomplete (bs : list N) : Prop :=
  size bs < 7 \/ exists L, announces bs L /\ size bs < 6 + L.

(** [framed bs items tail]: the stream is these items, then an unfinished one
    (or nothing).  Every stream of bytes is framed in exactly one way
    ([framed_total], [framed_unique] in MbapFacts.v). *)
Definition framed (bs : list N) (items : list item) (tail : list N) : Prop :=
  Forall typed_item items /\ bs = flat_map item_bytes items ++ tail /\ incomplete tail.

(** Over-long: more than 254 announced bytes (a PDU has at most 253). *)
Definition long (i : item) : Prop := 253 < size (body_of i).

Definition no_long (items : list item) : Prop := Forall (fun i => ~ long i) items.

(** Items that are to be handed to the application: Modbus protocol and at least
    a unit identifier. *)
Definition deliverable (i : item) : bool :=
  match i_body i with Some _ => i_proto i =? 0 | None => false end.

(** The stream ends exactly after a frame with an empty PDU. *)
Definition ends_with_empty (items : list item) (tail : list N) : Prop :=
  tail = [] /\ exists is i, items = is ++ [i] /\ i_body i = Some [].

(** The items complete at this point of the stream for which nothing more needs
    to arrive; a frame with an empty PDU at the very end is set apart. *)
Definition settled (items : list item) (tail : list N) : list item :=
  match tail, rev items with
  | [], i :: is => match i_body i with Some [] => rev is | _ => items end
  | _, _ => items
  end.

(** What may be handed to the application for item [i]: its identifiers and its
    body; for an over-long item the data is only known to be 253 bytes. *)
Definition received (i : item) (tx unit : N) (data : list N) : Prop :=
  tx = i_tx i /\ unit = i_unit i /\
  (~ long i -> data = body_of i) /\
  (long i -> List.length data = 253%nat).

(** ** In terms of the messages handed to the application *)
Definition got (i : item) (m : mbap_message) : Prop := received i (mb_tx m) (mb_unit m) (mb_data m).

Definition item_message (i : item) : mbap_message :=
  {| mb_unit := i_unit i; mb_tx := i_tx i; mb_data := body_of i |}.

(** Frames as a sender sees them. *)
Definition frame_ok (f : N * N * list N) : Prop :=
  let '(tx, unit, pdu) := f in u16 tx /\ u8 unit /\ bytes pdu /\ 1 <= size pdu <= 253.

Definition frame_item (f : N * N * list N) : item := let '(tx, unit, pdu) := f in frame tx unit pdu.

Definition frame_message (f : N * N * list N) : mbap_message :=
  let '(tx, unit, pdu) := f in {| mb_unit := unit; mb_tx := tx; mb_data := pdu |}.

Definition truncated_message (i : item) : mbap_message :=
  {| mb_unit := i_unit i; mb_tx := i_tx i; mb_data := firstn 253 (body_of i) |}.

Definition op_bytes (o : mbap_op) : Prop := match o with Chunk d => bytes d | Reset => True end.

(** The 260-byte buffer. *)
Definition good_buf (buf : list N) : Prop := List.length buf = 260%nat /\ bytes buf.


(** The bytes received between resets. *)
Fixpoint segments (cur : list N) (ops : list mbap_op) : list (list N) :=
  match ops with
  | [] => [cur]
  | Chunk data :: ops => segments (cur ++ data) ops
  | Reset :: ops => cur :: segments [] ops
  end.
