(** Independent specification of histories of a server in which the same arrives, in other
    pieces. *)
From Verif Require Import Prelude Ser4 Messages Mbap SpecMbap Server SpecServer.

(** The same history, but what a connection receives without anything else happening in
    between may be cut into other pieces, and the memory of new connections may have held
    something else. *)
Inductive rechunked : list event -> list event -> Prop :=
| rc_nil : rechunked [] []
| rc_receive c ds ds' es es' : List.concat ds = List.concat ds' -> rechunked es es' ->
    rechunked (map (EReceive c) ds ++ es) (map (EReceive c) ds' ++ es')
| rc_accept c buf buf' es es' : rechunked es es' -> rechunked (EAccept c buf :: es) (EAccept c buf' :: es')
| rc_same e es es' : rechunked es es' -> rechunked (e :: es) (e :: es').

(** No frame of these bytes is over-long. *)
Definition short_so_far (bs : list N) : Prop := forall items tail, framed bs items tail -> no_long items.

(** What has arrived on connection [c] since it was accepted, or since its last error; [g]:
    what had arrived before. *)
Fixpoint arrived (c : N) (g : list N) (es : list event) : list N :=
  match es with
  | [] => g
  | EAccept c' _ :: es | EConnError c' :: es => arrived c (if c =? c' then [] else g) es
  | EReceive c' d :: es => arrived c (if c =? c' then g ++ d else g) es
  | (EApi _ | ERun) :: es => arrived c g es
  end.

Definition all_short (es : list event) : Prop :=
  forall c es1 es2, es = es1 ++ es2 -> short_so_far (arrived c [] es1).

(** Bytes with which no frame ends. *)
Definition completes_nothing (bs d : list N) : Prop :=
  forall items tail, framed bs items tail -> exists tail', framed (bs ++ d) items tail'.

(** What does not happen on connection [c]. *)
Definition elsewhere (c : N) (e : event) : Prop :=
  match e with EAccept c' _ | EReceive c' _ | EConnError c' => c' <> c | EApi _ | ERun => True end.

(** Servers that differ in their parsers at most. *)
Definition but_parsers (s t : server) : Prop :=
  sv_shutdown s = sv_shutdown t /\ sv_started s = sv_started t /\ sv_sessions s = sv_sessions t /\ sv_queue s = sv_queue t /\
  forall c, sv_conns s c = None <-> sv_conns t c = None.
