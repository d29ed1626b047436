(** A server channel together with its acceptor and its connections, as they are put
    together by lib/src/ModbusManagerImpl.cpp:65-87.

    The channel (Server.v), the acceptor (Listener.v) and the connections
    (ServerConn.v) share one strand: the closures they post run in the order in which
    they were posted, and neither at the same time as a completion handler.  They call
    each other directly, in the middle of a turn.

    The closing of a connection is in the model of the acceptor, which keeps track of
    the sockets, and in that of the connection: both are told of every call of
    [AsioServerTcpConnection::close] and of the run of the closure it posts.

    [begin_read] is called after [on_receive] (AsioServerTcpConnection.cpp:116-121),
    here before; [on_receive] only sends and posts, so this makes no difference. *)
From Verif Require Import Prelude Ser4 Messages Mbap Server Listener AsyncWrite ServerConn.

(** Whose closure comes next; those of the connections count as the acceptor's. *)
Inductive sturn := TaskTurn | ListenTurn.

Inductive uevent : Type :=
| UApi (a : api)                                 (* a call from any thread *)
| URun                                           (* the next posted closure *)
| UAccept (c : nat) (ok : bool) (buf : list N)   (* an accept completes; the listener's new buffer *)
| URead (c r : nat) (x : read_result)            (* a read of connection [c] completes *)
| UTransfer (c w n : nat)                        (* the transport takes bytes of a write *)
| UWritten (c w : nat) (ok : bool).              (* a write completes *)

(** What happens at the parts, in order. *)
Inductive smark : Type :=
| TaskIn (e : event)
| TaskOut (o : output)
| ListenIn (e : aevent)
| ListenOut (o : aoutput)
| PeerIn (c : nat) (e : vevent)
| PeerOut (c : nat) (o : voutput).

Record tserver (W : Type) : Type := {
  us_channel : server;
  us_user : W;
  us_listener : aserver;
  us_conns : nat -> option sconn;
  us_order : list sturn
}.
Arguments us_channel {W}.
Arguments us_user {W}.
Arguments us_listener {W}.
Arguments us_conns {W}.
Arguments us_order {W}.

Definition tserver_init {W : Type} (max : N) (w : W) : tserver W :=
  {| us_channel := server_init; us_user := w; us_listener := aserver_init max; us_conns := fun _ => None; us_order := [] |}.

(** The bytes given to [send].  A byte of the buffer that was not written holds an
    arbitrary value (C30). *)
Definition response_data (f : list (option N)) : list N := map (fun b => match b with Some x => x | None => 0 end) f.

(** The calls of [close] on [c] whose closures have not run. *)
Definition closes (c : nat) (q : list aclosure) : nat :=
  List.length (filter (fun a => match a with Close d => Nat.eqb d c | _ => false end) q).

Section ServerTcp.
Context {W : Type}.
Context (on_request : N -> W -> request -> W * expected response * list api).
Context (on_shutdown : N -> W -> W * list api).
Context (pol : copy_policy).
Implicit Type s : tserver W.

Definition with_channel s ch w : tserver W :=
  {| us_channel := ch; us_user := w; us_listener := us_listener s; us_conns := us_conns s; us_order := us_order s |}.
Definition with_listener s l : tserver W :=
  {| us_channel := us_channel s; us_user := us_user s; us_listener := l; us_conns := us_conns s; us_order := us_order s |}.
Definition with_conn s c v : tserver W :=
  {| us_channel := us_channel s; us_user := us_user s; us_listener := us_listener s;
     us_conns := fun d => if Nat.eqb d c then Some v else us_conns s d; us_order := us_order s |}.
Definition with_order s q : tserver W :=
  {| us_channel := us_channel s; us_user := us_user s; us_listener := us_listener s; us_conns := us_conns s; us_order := q |}.

(** An event of connection [c], without its consequences. *)
Definition peer_step s (c : nat) (e : vevent) : outcome (tserver W * list smark) :=
  match us_conns s c with
  | None => Ret (s, [])
  | Some v =>
      let! (v, o) := vconn_step v e in
      Ret (with_conn s c v, PeerIn c e :: map (PeerOut c) o)
  end.

Fixpoint close_conns s (l : list nat) : outcome (tserver W * list smark) :=
  match l with
  | [] => Ret (s, [])
  | c :: l' =>
      let! (s, m) := peer_step s c VClose in
      let! (s, m') := close_conns s l' in
      Ret (s, m ++ m')
  end.

(** The connection is constructed before its socket is accepted (AsioServer.cpp:70);
    until then only calls of [close] concern it.  AsioServer.cpp:98-99. *)
Definition serve s (c : nat) (buf : list N) : outcome (tserver W * list smark) :=
  let k := closes c (as_queue (us_listener s)) in
  let! (ch, w, o) := server_step on_request on_shutdown pol (us_channel s) (us_user s) (EAccept (N.of_nat c) buf) in
  let '(v, ov) := v_start (with_vqueue sconn_init (repeat VDoClose k)) in
  Ret (with_conn (with_channel s ch w) c v,
       TaskIn (EAccept (N.of_nat c) buf) :: map TaskOut o ++ repeat (PeerIn c VClose) k ++ PeerIn c VStart :: map (PeerOut c) ov).

(** What the acceptor does to the connections: AsioServer.cpp:37-42, :52, :98-99.
    [l] is its list of connections before the turn. *)
Fixpoint listener_outputs s (l : list nat) (buf : list N) (os : list aoutput) : outcome (tserver W * list smark) :=
  match os with
  | [] => Ret (s, [])
  | o :: os' =>
      let! (s, m) := match o with
                     | Removed c => peer_step s c VClose
                     | ShutDown => close_conns s l
                     | Serving c => serve s c buf
                     | _ => Ret (s, [])
                     end in
      let! (s, m') := listener_outputs s l buf os' in
      Ret (s, ListenOut o :: m ++ m')
  end.

(** New closures go to the end of the strand's queue. *)
Definition more (who : sturn) (before after : nat) : list sturn := repeat who (after - before).

(** A step of the acceptor. *)
Definition listener_turn s (e : aevent) (buf : list N) : outcome (tserver W * list smark) :=
  let! (l, os) := aserver_step (us_listener s) e in
  let removed := match e with ARun => 1%nat | _ => 0%nat end in
  let q := us_order s ++ more ListenTurn (List.length (as_queue (us_listener s)) - removed) (List.length (as_queue l)) in
  let! (s, m) := listener_outputs (with_order (with_listener s l) q) (as_list (us_listener s)) buf os in
  Ret (s, ListenIn e :: m).

(** What the channel does to the acceptor and the connections: ServerChannelTcp.cpp:63,
    :76 and :212. *)
Fixpoint channel_outputs s (os : list output) : outcome (tserver W * list smark) :=
  match os with
  | [] => Ret (s, [])
  | o :: os' =>
      let! (s, m) := match o with
                     | OListen => listener_turn s AStart []
                     | OStopListening => listener_turn s AShutdown []
                     | OSend c f => peer_step s (N.to_nat c) (VSend (response_data f))
                     | _ => Ret (s, [])
                     end in
      let! (s, m') := channel_outputs s os' in
      Ret (s, TaskOut o :: m ++ m')
  end.

(** A step of the channel.  The acceptor posts before the sessions do
    (ServerChannelTcp.cpp:76, :82). *)
Definition task_turn s (e : event) : outcome (tserver W * list smark) :=
  let! (ch, w, os) := server_step on_request on_shutdown pol (us_channel s) (us_user s) e in
  let removed := match e with ERun => 1%nat | _ => 0%nat end in
  let new := more TaskTurn (List.length (sv_queue (us_channel s)) - removed) (List.length (sv_queue ch)) in
  let! (s, m) := channel_outputs (with_channel s ch w) os in
  Ret (with_order s (us_order s ++ new), TaskIn e :: m).

(** The callbacks of connection [c]: AsioServerTcpConnection.cpp:118, :178, :189. *)
Fixpoint peer_outputs s (c : nat) (os : list voutput) : outcome (tserver W * list smark) :=
  match os with
  | [] => Ret (s, [])
  | o :: os' =>
      let! (s, m) := match o with
                     | VReceived d => task_turn s (EReceive (N.of_nat c) d)
                     | VFailed => task_turn s (EConnError (N.of_nat c))
                     | VRemoved => listener_turn s (AFail c) []
                     | _ => Ret (s, [])
                     end in
      let! (s, m') := peer_outputs s c os' in
      Ret (s, PeerOut c o :: m ++ m')
  end.

(** A completion handler of connection [c]. *)
Definition peer_turn s (c : nat) (e : vevent) : outcome (tserver W * list smark) :=
  match us_conns s c with
  | None => Ret (s, [])
  | Some v =>
      let! (v, os) := vconn_step v e in
      let! (s, m) := peer_outputs (with_conn s c v) c os in
      Ret (s, PeerIn c e :: m)
  end.

(** The next closure of the acceptor or of a connection; the closing of a connection
    deregisters it (AsioServerTcpConnection.cpp:69), which [ARun] includes. *)
Definition listener_run s : outcome (tserver W * list smark) :=
  match as_queue (us_listener s) with
  | Close c :: _ =>
      let! (s, m) := peer_step s c VRun in
      let! (s, m') := listener_turn s ARun [] in
      Ret (s, m ++ m')
  | _ => listener_turn s ARun []
  end.

Definition userver_step s (e : uevent) : outcome (tserver W * list smark) :=
  match e with
  | UApi a => task_turn s (EApi a)
  | URun =>
      match us_order s with
      | [] => Ret (s, [])
      | TaskTurn :: q => task_turn (with_order s q) ERun
      | ListenTurn :: q => listener_run (with_order s q)
      end
  | UAccept c ok buf => listener_turn s (AAccept c ok) buf
  | URead c r x => peer_turn s c (VRead r x)
  | UTransfer c w n => peer_turn s c (VTransfer w n)
  | UWritten c w ok => peer_turn s c (VWritten w ok)
  end.

Fixpoint userver_run s (es : list uevent) : outcome (tserver W * list smark) :=
  match es with
  | [] => Ret (s, [])
  | e :: es' =>
      let! (s, m) := userver_step s e in
      let! (s, m') := userver_run s es' in
      Ret (s, m ++ m')
  end.
End ServerTcp.
