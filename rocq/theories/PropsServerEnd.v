(** After [shutdown] everything comes to an end, for servers (C109). *)
From Verif Require Import Prelude Ser4 Messages Mbap Server SpecServer ServerLemmas Listener SpecListener AsyncWrite ServerConn ServerTcp SpecServerTcp
  ServerTcpCases ServerLifetime SpecServerLifetime SpecServerEnd ServerEnd ServerEndCases.

(** ** C109, for server channels

    Once the closures that [shutdown] leads to have been executed, what can still happen to
    a server channel that was started at most once is well defined and ends, and then no
    object of the channel exists any more. *)
Theorem C109_server_ends_partial :
  forall {W : Type} on_request on_shutdown, well_typed on_request -> forall pol max (w0 : W) es h m, server_history on_request on_shutdown pol max w0 es h m ->
  In (UApi ApiShutdown) es -> us_order h = [] -> (starts_of (listen_ins m) <= 1)%nat -> max < 2 ^ 32 - 1 -> server_ends on_request on_shutdown pol h.
Proof. exact @shutdown_ends. Qed.
Print Assumptions C109_server_ends_partial.

Example C109_server_example : exists es h m, server_history (demo 1) demo_shutdown AllOrNothing 4 0%nat es h m /\ In (UApi ApiShutdown) es /\ us_order h = [] /\
  starts_of (listen_ins m) = 1%nat /\ server_enabled h (UAccept 1 false fresh) /\ server_ends (demo 1) demo_shutdown AllOrNothing h.
Proof. exact stopped_ends. Qed.

(** A server channel that was started twice may go on reading a connection after its
    [shutdown], for as long as the peer sends: the destructor of the manager does not
    return. *)
Theorem C109_server_ends_refuted :
  ~ (forall (W : Type) on_request on_shutdown pol max (w0 : W) es h m, well_typed on_request -> server_history on_request on_shutdown pol max w0 es h m -> max < 2 ^ 32 - 1 ->
     In (UApi ApiShutdown) es -> us_order h = [] -> server_ends on_request on_shutdown pol h).
Proof. exact ends_refuted. Qed.
Print Assumptions C109_server_ends_refuted.
