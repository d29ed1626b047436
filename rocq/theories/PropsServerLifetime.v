(** What is left of server channels. *)
From Verif Require Import Prelude Ser4 Messages Mbap SpecPdu SpecMbap Server SpecServer ServerLemmas Listener SpecListener AsyncWrite ServerConn SpecConn ServerTcp SpecServerTcp.
From Verif Require Import ServerTcpCases ServerLifetime SpecServerLifetime ServerLifetimeFacts ServerLifetimeEnd ServerLifetimeCases.

(** ** C106: no object of a server channel outlives its use

    Shared pointers form no cycle: what exists is held by the application or by the
    executor, or can be reached from there. *)
Theorem C106_held :
  forall {W : Type} (h : tserver W) app o, remains h app o <-> exists a, (app a \/ sexecutor_holds h a) /\ leads_to h a o.
Proof. exact @remains_iff. Qed.
Print Assumptions C106_held.

(** A connection exists as long as it has an operation in progress, is about to be
    closed, or has an open socket; and with it its listener, once it was accepted. *)
Theorem C106_connection :
  forall {W : Type} on_request on_shutdown pol max (w0 : W) es h m app c, server_history on_request on_shutdown pol max w0 es h m -> outside app ->
  (remains h app (SConnection c) <-> in_use h c).
Proof. exact @connection_remains. Qed.
Print Assumptions C106_connection.

Theorem C106_listener :
  forall {W : Type} on_request on_shutdown pol max (w0 : W) es h m app c, server_history on_request on_shutdown pol max w0 es h m -> outside app ->
  (remains h app (SListener c) <-> in_use h c /\ us_conns h c <> None).
Proof. exact @listener_remains. Qed.
Print Assumptions C106_listener.

Example C106_connected : exists h m, server_history (demo 1) demo_shutdown AllOrNothing 4 0%nat connected h m /\
  remains h nothing (SConnection 0) /\ remains h nothing (SListener 0) /\ remains h nothing (SConnection 1) /\ ~ remains h nothing (SListener 1) /\ ~ remains h nothing (SConnection 2).
Proof. exact connected_remain. Qed.

(** When nothing is left to run and no operation is in progress, everything that exists
    can be reached from what the application holds. *)
Theorem C106_end :
  forall {W : Type} on_request on_shutdown pol max (w0 : W) es h m app o, server_history on_request on_shutdown pol max w0 es h m -> at_end h ->
  remains h app o -> exists a, app a /\ leads_to h a o.
Proof. exact @end_reached. Qed.
Print Assumptions C106_end.

Example C106_ended : exists h m, server_history (demo 1) demo_shutdown AllOrNothing 4 0%nat ended h m /\ at_end h.
Proof. exact ended_ends. Qed.

(** Once the channel was shut down and nothing is left to run, it keeps no session. *)
Theorem C106_sessions :
  forall {W : Type} on_request on_shutdown pol max (w0 : W) es h m app x, server_history on_request on_shutdown pol max w0 es h m ->
  In (UApi ApiShutdown) es -> us_order h = [] -> ~ app (SSession x) -> ~ remains h app (SSession x).
Proof. exact @sessions_released. Qed.
Print Assumptions C106_sessions.

(** If it was started at most once, then what is left of it waits for operations on
    sockets that are closed; none begins any more, each is over when it fails, and so an
    end comes, at which nothing is left. *)
Theorem C106_left_partial :
  forall {W : Type} on_request on_shutdown pol max (w0 : W) es h m app o, server_history on_request on_shutdown pol max w0 es h m ->
  In (UApi ApiShutdown) es -> us_order h = [] -> (starts_of (listen_ins m) <= 1)%nat -> max < 2 ^ 32 - 1 -> (forall x, ~ app x) -> remains h app o ->
  match o with
  | SChannel | SSession _ => False
  | SAcceptor => exists c, in_progress h (OpAccept c)
  | SConnection c | SListener c => exists x, of_connection x = c /\ in_progress h x
  end.
Proof. exact @left_after. Qed.
Print Assumptions C106_left_partial.

Theorem C106_begins_partial :
  forall {W : Type} on_request on_shutdown pol max (w0 : W) es h m es2 h2 m2 x, server_history on_request on_shutdown pol max w0 es h m ->
  In (UApi ApiShutdown) es -> us_order h = [] -> (starts_of (listen_ins m) <= 1)%nat -> max < 2 ^ 32 - 1 ->
  Forall typed_uevent es2 -> userver_run on_request on_shutdown pol h es2 = Ret (h2, m2) -> in_progress h2 x -> in_progress h x.
Proof. exact @begins_nothing. Qed.
Print Assumptions C106_begins_partial.

Theorem C106_fails_partial :
  forall {W : Type} on_request on_shutdown pol max (w0 : W) es h m x e, server_history on_request on_shutdown pol max w0 es h m ->
  In (UApi ApiShutdown) es -> us_order h = [] -> (starts_of (listen_ins m) <= 1)%nat -> max < 2 ^ 32 - 1 ->
  in_progress h x -> fails x e -> typed_uevent e ->
  exists h' m', userver_step on_request on_shutdown pol h e = Ret (h', m') /\ ~ in_progress h' x.
Proof. exact @failure_ends. Qed.
Print Assumptions C106_fails_partial.

Theorem C106_ends_partial :
  forall {W : Type} on_request on_shutdown pol max (w0 : W) es h m, server_history on_request on_shutdown pol max w0 es h m ->
  In (UApi ApiShutdown) es -> us_order h = [] -> (starts_of (listen_ins m) <= 1)%nat -> max < 2 ^ 32 - 1 ->
  exists es2 h2 m2, Forall (fun e => e = URun \/ exists x, fails x e) es2 /\ userver_run on_request on_shutdown pol h es2 = Ret (h2, m2) /\
    at_end h2 /\ forall o, ~ remains h2 nothing o.
Proof. exact @end_comes. Qed.
Print Assumptions C106_ends_partial.

Example C106_stopped : exists h m, server_history (demo 1) demo_shutdown AllOrNothing 4 0%nat stopped h m /\ In (UApi ApiShutdown) stopped /\ us_order h = [] /\
  starts_of (listen_ins m) = 1%nat /\ in_progress h (OpAccept 1) /\ in_progress h (OpRead 0 0).
Proof. exact stopped_operations. Qed.

(** A connection of a channel that was started twice can remain with an open socket. *)
Theorem C106_closed_refuted :
  ~ (forall (W : Type) on_request on_shutdown pol max (w0 : W) es h m c v, server_history on_request on_shutdown pol max w0 es h m -> max < 2 ^ 32 - 1 ->
     In (UApi ApiShutdown) es -> us_order h = [] -> remains h nothing (SConnection c) -> us_conns h c = Some v -> vn_open v = false).
Proof. exact closed_refuted. Qed.
Print Assumptions C106_closed_refuted.

(** ** C107: the weak pointers to the channel and to the acceptor make no difference

    The manager keeps the channel until it has called its [shutdown]
    (ModbusManagerImpl.cpp:82, :98-102).  If the channel is
    destroyed, requests that are received would not have been answered by it either; if
    the acceptor is, it would not have had a connection to remove. *)
Theorem C107_channel :
  forall {W : Type} on_request on_shutdown pol max (w0 : W) es h m (app : sobject -> Prop), server_history on_request on_shutdown pol max w0 es h m ->
  (~ In (UApi ApiShutdown) es -> app SChannel) -> ~ remains h app SChannel ->
  forall c ms, on_messages on_request (us_channel h) (us_user h) c ms = Ret (us_channel h, us_user h, []).
Proof. exact @channel_there. Qed.
Print Assumptions C107_channel.

Theorem C107_acceptor :
  forall {W : Type} on_request on_shutdown pol max (w0 : W) es h m (app : sobject -> Prop), server_history on_request on_shutdown pol max w0 es h m ->
  (~ In (UApi ApiShutdown) es -> app SChannel) -> ~ remains h app SAcceptor ->
  forall c, remove_connection (us_listener h) c = (us_listener h, []).
Proof. exact @acceptor_there. Qed.
Print Assumptions C107_acceptor.

Example C107_example : exists h m, server_history (demo 1) demo_shutdown AllOrNothing 4 0%nat ended h m /\ In (UApi ApiShutdown) ended /\
  ~ remains h nothing SChannel /\ ~ remains h nothing SAcceptor.
Proof. exact ended_destroyed. Qed.
