(** Independent specification of frames that are for nobody. *)
From Verif Require Import Prelude Ser4 Messages Mbap SpecMbap Server SpecServer Client SpecClient.

(** Bytes that are whole frames. *)
Definition whole (bs : list N) (items : list item) : Prop := Forall typed_item items /\ bs = flat_map item_bytes items.

(** Whole frames, the last of which has been dealt with: one with an empty PDU is not until
    something follows. *)
Definition dealt_with (bs : list N) : Prop := exists items, whole bs items /\ ~ ends_with_empty items [].

(** None of the frames has the identifiers of a request that was sent and is not completed. *)
Definition answers_nothing (os : list coutput) (items : list item) : Prop :=
  forall x i u t v, In x items -> In (Sent i u t v) os -> ~ In i (completed_ids os) -> (i_unit x, i_tx x) <> (u, t).

(** None of the frames is to be answered: they are for units without a session, have an empty
    or malformed PDU, or are not of the Modbus protocol.  Of longer PDUs the first 253 bytes
    count. *)
Definition for_nobody (registry : N -> option N) (items : list item) : Prop :=
  forall x, In x items -> deliverable x = true -> decision registry (i_unit x) (firstn 253 (body_of x)) Silent.
