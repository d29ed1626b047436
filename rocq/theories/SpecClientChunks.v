(** Independent specification of histories of a client in which the same arrives, in other
    pieces. *)
From Verif Require Import Prelude Ser4 Messages Mbap SpecMbap Client SpecClient SpecServer SpecChunks.

(** The same history, but what arrives without anything else happening in between may be cut
    into other pieces. *)
Inductive crechunked : list cevent -> list cevent -> Prop :=
| cc_nil : crechunked [] []
| cc_receive ds ds' es es' : List.concat ds = List.concat ds' -> crechunked es es' ->
    crechunked (map CReceive ds ++ es) (map CReceive ds' ++ es')
| cc_same e es es' : crechunked es es' -> crechunked (e :: es) (e :: es').

(** What has arrived since the last error of the connection; [g]: what had arrived before. *)
Fixpoint carrived (g : list N) (es : list cevent) : list N :=
  match es with
  | [] => g
  | CReceive d :: es => carrived (g ++ d) es
  | CError _ :: es => carrived [] es
  | _ :: es => carrived g es
  end.

Definition call_short (es : list cevent) : Prop := forall es1 es2, es = es1 ++ es2 -> short_so_far (carrived [] es1).

(** Bytes with which no frame ends, and which do not follow a frame with an empty PDU. *)
Definition changes_nothing (bs d : list N) : Prop :=
  completes_nothing bs d /\ forall items tail, framed bs items tail -> ~ ends_with_empty items tail.
