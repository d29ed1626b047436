(** Coming to an end: what can still happen by itself in a server channel, its acceptor
    and its connections. *)
From Verif Require Import Prelude Ser4 Messages Mbap Server Listener AsyncWrite ServerConn ServerTcp SpecServerTcp ServerLifetime SpecServerLifetime.

(** Something of the channel is there for the event to happen to. *)
Definition server_enabled {W : Type} (h : tserver W) (e : uevent) : Prop :=
  match e with
  | UApi _ => False
  | URun => us_order h <> []
  | UAccept c _ _ => In c (as_pending (us_listener h))
  | URead c r x => exists v g, us_conns h c = Some v /\ find_vread (vn_reads v) r = Some g /\ (g = true \/ x = RError)
  | UTransfer c w n => exists v o, us_conns h c = Some v /\ find_op (wr_ops (vn_writer v)) w = Some o /\ w_taken o = None /\ w_aborted o = false /\
      (0 < n <= List.length (snd (w_buf o)))%nat
  | UWritten c w ok => exists v, us_conns h c = Some v /\ w_complete (vn_writer v) w ok <> None
  end.

(** Whatever happens by itself is well defined, and it comes to an end, with nothing left. *)
Inductive server_ends {W : Type} (on_request : N -> W -> request -> W * expected response * list api) (on_shutdown : N -> W -> W * list api)
    (pol : copy_policy) (h : tserver W) : Prop :=
| ServerEnds :
    (forall e, typed_uevent e -> server_enabled h e ->
       exists h' m, userver_step on_request on_shutdown pol h e = Ret (h', m) /\ server_ends on_request on_shutdown pol h') ->
    ((forall e, typed_uevent e -> ~ server_enabled h e) -> at_end h /\ forall o, ~ remains h nothing o) ->
    server_ends on_request on_shutdown pol h.
