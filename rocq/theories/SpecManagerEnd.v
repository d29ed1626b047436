(** Coming to an end: what can still happen by itself to the channels of a manager, i.e.
    what its destructor, which joins the threads of the pool, waits for. *)
From Verif Require Import Prelude Ser4 Messages Mbap Client AsyncWrite ClientConn ClientTcp Server Listener ServerConn ServerTcp ServerLifetime SpecServerLifetime
  Manager SpecManager SpecEnd SpecServerEnd.

Section End.
Context {U V : Type}.
Context (pol : copy_policy).
Implicit Type s : manager U V.

(** Something of the channel is there for the event to happen to. *)
Definition manager_enabled s (e : mevent U V) : Prop :=
  match e with
  | MClient i e => exists h c, nth_error (mg_channels s) i = Some (ClientSide h c) /\ tcp_enabled c e
  | MServer i e => exists r d c, nth_error (mg_channels s) i = Some (ServerSide r d c) /\ server_enabled c e
  | _ => False
  end.

(** Nothing is left: no posted closure, no operation, no timer. *)
Definition manager_idle s : Prop :=
  Forall (fun c => match c with ClientSide _ c => tcp_idle c | ServerSide _ _ c => at_end c /\ forall o, ~ remains c nothing o end) (mg_channels s).

(** Whatever happens by itself is well defined, and it comes to an end, with nothing left. *)
Inductive manager_ends s : Prop :=
| ManagerEnds :
    (forall e, typed_mevent e -> manager_enabled s e -> exists s' l, manager_step pol s e = Ret (s', l) /\ manager_ends s') ->
    ((forall e, typed_mevent e -> ~ manager_enabled s e) -> manager_idle s) ->
    manager_ends s.
End End.
