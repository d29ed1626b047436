(** Proofs about the size of the buffer of the MBAP parser. *)
From Verif Require Import Prelude Ser4 Messages Mbap SpecPdu SpecMbap.
From Coq Require Import Lia.

Lemma buffer_size :
  (forall buf, bytes buf -> (List.length buf = MaxMbapSize <-> good_buf buf)) /\
  (forall tx unit pdu, (List.length (frame_bytes tx unit pdu) <= MaxMbapSize)%nat <-> (List.length pdu <= 253)%nat).
Proof.
  split.
  - intros buf B. unfold good_buf, MaxMbapSize. tauto.
  - intros tx unit pdu. unfold frame_bytes, item_bytes, frame, be16, MaxMbapSize. cbn [i_tx i_proto i_unit i_body body_of app List.length]. lia.
Qed.
