(** The shared pointers among the objects of a server channel (ServerTcp.v): its
    acceptor, the connections with their listeners, and the sessions.

    As in Lifetime.v, an object is destroyed when no shared pointer to it is left.  The
    pointers of connections to the acceptor (AsioServerTcpConnection.h:59), and of
    listeners to their connection and to the channel (ServerConnectionListener.h:45-46,
    ServerConnectionListenerBuilder.h:33) are weak. *)
From Verif Require Import Prelude Ser4 Messages Mbap Server Listener AsyncWrite ServerConn ServerTcp.

Inductive sobject : Type := SChannel | SAcceptor | SConnection (c : nat) | SListener (c : nat) | SSession (x : N).

Section ServerLifetime.
Context {W : Type}.
Implicit Type h : tserver W.

(** Members of [a] hold [b]. *)
Definition srefers h (a b : sobject) : Prop :=
  match a, b with
  | SChannel, SAcceptor => True                                                (* ServerChannelTcp.h:56 *)
  | SChannel, SSession x => exists u, In (u, x) (sv_sessions (us_channel h))   (* :60 *)
  | SAcceptor, SConnection c => In c (as_list (us_listener h))                 (* AsioServer.h:58 *)
  | SConnection c, SListener d => c = d /\ us_conns h c <> None                (* AsioServerTcpConnection.h:67 *)
  | _, _ => False
  end.

(** The executor holds [o]: closures of the channel (ServerChannelTcp.cpp:60, :70, :92),
    of the acceptor (AsioServer.cpp:32, :67) and of connections
    (AsioServerTcpConnection.cpp:57), and the handlers of accepts (AsioServer.cpp:74-76),
    reads and writes (AsioServerTcpConnection.cpp:153-155, :166-168). *)
Definition sexecutor_holds h (o : sobject) : Prop :=
  match o with
  | SChannel => sv_queue (us_channel h) <> []
  | SAcceptor =>
      In StartAccept (as_queue (us_listener h)) \/ In Shutdown (as_queue (us_listener h)) \/ as_pending (us_listener h) <> []
  | SConnection c =>
      In (Close c) (as_queue (us_listener h)) \/ In c (as_pending (us_listener h)) \/
      exists v, us_conns h c = Some v /\ (vn_reads v <> [] \/ wr_ops (vn_writer v) <> [])
  | SListener _ => False
  | SSession x => exists u, In (TaskAdd u x) (sv_queue (us_channel h))
  end.

(** The objects [alive] that are not destroyed when the application holds [app]. *)
Definition snot_destroyed h (app alive : sobject -> Prop) : Prop :=
  forall o, alive o -> app o \/ sexecutor_holds h o \/ exists o', alive o' /\ srefers h o' o.
End ServerLifetime.
