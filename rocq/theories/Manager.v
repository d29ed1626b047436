(** Models lib/src/ModbusManagerImpl.cpp:29-104 with the channels it creates, each on
    its own strand (:47, :70).  The strands run on a pool of threads, so the events of
    different channels interleave in any way; the members of the manager are guarded
    by its mutex.

    Each channel has the handlers, or sessions, of its user, with a state of their own;
    what they do to other channels is among the events of those. *)
From Verif Require Import Prelude Ser4 Messages Mbap Client AsyncWrite ClientConn ClientTcp Server Listener ServerConn ServerTcp.

(** lib/src/IModbusManager.cpp:27-36: the number of threads, given
    [std::thread::hardware_concurrency()], which may be 0. *)
Definition threads (asked : option N) (hardware : N) : N :=
  N.max 1 (match asked with Some n => n | None => hardware end).

Section Manager.
Context {U V : Type}.
Context (pol : copy_policy).

Inductive channel : Type :=
| ClientSide (handler : nat -> U -> expected (list N) -> U * list capi) (s : tclient U)
| ServerSide (on_request : N -> V -> request -> V * expected response * list api) (on_shutdown : N -> V -> V * list api) (s : tserver V).

(** [mg_made]: constructed, but not in the manager's lists yet.  [mg_shutting]: the
    channels that the running [shutdown], which holds the mutex, has yet to shut down. *)
Record manager : Type := {
  mg_channels : list channel;
  mg_made : list nat;
  mg_clients : list nat;
  mg_servers : list nat;
  mg_shutting : option (list nat)
}.

Definition manager_init : manager :=
  {| mg_channels := []; mg_made := []; mg_clients := []; mg_servers := []; mg_shutting := None |}.

Inductive mevent : Type :=
| MNewClient (handler : nat -> U -> expected (list N) -> U * list capi) (buf : list N) (w : U)             (* :47-55 *)
| MNewServer (on_request : N -> V -> request -> V * expected response * list api) (on_shutdown : N -> V -> V * list api)
             (max : N) (w : V)                                                                             (* :70-78 *)
| MRegister (i : nat)                            (* a creating thread takes the mutex (:57-60, :80-83) *)
| MShutdown                                      (* [shutdown] takes the mutex (:90) *)
| MNext                                          (* its next iteration, or its end (:92-102) *)
| MClient (i : nat) (e : tevent)                 (* an event of a client channel *)
| MServer (i : nat) (e : uevent).                (* an event of a server channel *)

Inductive mmark : Type :=
| Made (i : nat)
| Registered (i : nat)
| Locked
| Told (i : nat)                                 (* [shutdown] is called on channel [i] *)
| Returned
| ClientDid (i : nat) (e : tevent) (l : list mark)
| ServerDid (i : nat) (e : uevent) (m : list smark).

Fixpoint put (i : nat) (c : channel) (l : list channel) : list channel :=
  match l, i with
  | [], _ => []
  | _ :: l', O => c :: l'
  | x :: l', S j => x :: put j c l'
  end.

Definition with_channels (s : manager) (l : list channel) : manager :=
  {| mg_channels := l; mg_made := mg_made s; mg_clients := mg_clients s; mg_servers := mg_servers s; mg_shutting := mg_shutting s |}.

Definition client_event (s : manager) (i : nat) (e : tevent) : outcome (manager * list mmark) :=
  match nth_error (mg_channels s) i with
  | Some (ClientSide h c) =>
      let! (c, l) := tcp_step h pol c e in
      Ret (with_channels s (put i (ClientSide h c) (mg_channels s)), [ClientDid i e l])
  | _ => Ret (s, [])
  end.
Definition server_event (s : manager) (i : nat) (e : uevent) : outcome (manager * list mmark) :=
  match nth_error (mg_channels s) i with
  | Some (ServerSide r d c) =>
      let! (c, m) := userver_step r d pol c e in
      Ret (with_channels s (put i (ServerSide r d c) (mg_channels s)), [ServerDid i e m])
  | _ => Ret (s, [])
  end.

(** [channel->shutdown()]. *)
Definition tell (s : manager) (i : nat) : outcome (manager * list mmark) :=
  match nth_error (mg_channels s) i with
  | Some (ClientSide _ _) => client_event s i (TApi Client.Shutdown)
  | Some (ServerSide _ _ _) => server_event s i (UApi ApiShutdown)
  | None => Ret (s, [])
  end.

Definition make (s : manager) (c : channel) : manager * list mmark :=
  ({| mg_channels := mg_channels s ++ [c]; mg_made := mg_made s ++ [List.length (mg_channels s)];
      mg_clients := mg_clients s; mg_servers := mg_servers s; mg_shutting := mg_shutting s |},
   [Made (List.length (mg_channels s))]).

Definition register (s : manager) (i : nat) : manager * list mmark :=
  match mg_shutting s with
  | Some _ => (s, [])
  | None =>
      if existsb (Nat.eqb i) (mg_made s) then
        let made := filter (fun j => negb (Nat.eqb i j)) (mg_made s) in
        match nth_error (mg_channels s) i with
        | Some (ClientSide _ _) =>
            ({| mg_channels := mg_channels s; mg_made := made; mg_clients := mg_clients s ++ [i];
                mg_servers := mg_servers s; mg_shutting := None |}, [Registered i])
        | Some (ServerSide _ _ _) =>
            ({| mg_channels := mg_channels s; mg_made := made; mg_clients := mg_clients s;
                mg_servers := mg_servers s ++ [i]; mg_shutting := None |}, [Registered i])
        | None => (s, [])
        end
      else (s, [])
  end.

(** The two lists are cleared after their loops (:96, :102); as the mutex is held, nobody
    sees the difference to clearing both at the end. *)
Definition next (s : manager) : outcome (manager * list mmark) :=
  match mg_shutting s with
  | None => Ret (s, [])
  | Some [] =>
      Ret ({| mg_channels := mg_channels s; mg_made := mg_made s; mg_clients := []; mg_servers := []; mg_shutting := None |}, [Returned])
  | Some (i :: todo) =>
      let s := {| mg_channels := mg_channels s; mg_made := mg_made s; mg_clients := mg_clients s; mg_servers := mg_servers s;
                  mg_shutting := Some todo |} in
      let! (s, l) := tell s i in
      Ret (s, Told i :: l)
  end.

Definition manager_step (s : manager) (e : mevent) : outcome (manager * list mmark) :=
  match e with
  | MNewClient h buf w => Ret (make s (ClientSide h (tclient_init buf w)))
  | MNewServer r d max w => Ret (make s (ServerSide r d (tserver_init max w)))
  | MRegister i => Ret (register s i)
  | MShutdown =>
      match mg_shutting s with
      | Some _ => Ret (s, [])
      | None =>
          Ret ({| mg_channels := mg_channels s; mg_made := mg_made s; mg_clients := mg_clients s; mg_servers := mg_servers s;
                  mg_shutting := Some (mg_clients s ++ mg_servers s) |}, [Locked])
      end
  | MNext => next s
  | MClient i e => client_event s i e
  | MServer i e => server_event s i e
  end.

Fixpoint manager_run (s : manager) (es : list mevent) : outcome (manager * list mmark) :=
  match es with
  | [] => Ret (s, [])
  | e :: es' =>
      let! (s, l) := manager_step s e in
      let! (s, l') := manager_run s es' in
      Ret (s, l ++ l')
  end.
End Manager.
Arguments channel : clear implicits.
Arguments manager : clear implicits.
Arguments mevent : clear implicits.
