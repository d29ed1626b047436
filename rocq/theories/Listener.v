(** Model of lib/src/server/channel/AsioServer.cpp and of the life of its connections
    (lib/src/server/channel/AsioServerTcpConnection.cpp).

    Everything runs on one strand: posted closures in FIFO order, completion handlers
    of the sockets one at a time.  Connections are named by the order in which they
    are constructed.  Data sent and received is not modelled here (Server.v).
    AsioServerTcpConnection::shutdown is not called by the library, so that the flag
    [m_is_shutdown] of a connection stays false. *)
From Verif Require Import Prelude.

Inductive aclosure : Type :=
| StartAccept                                    (* AsioServer.cpp:67-78 *)
| Shutdown                                       (* AsioServer.cpp:32-44 *)
| Close (c : nat).                               (* AsioServerTcpConnection.cpp:57-71 *)

Inductive aoutput : Type :=
| Listening                                      (* start begins an accept loop *)
| Accepting (c : nat)                            (* async_accept on the socket of [c] *)
| AcceptFailed (c : nat)                         (* the accept of [c] ended with an error *)
| Accepted (c : nat)                             (* the accept of [c] succeeded *)
| Serving (c : nat)                              (* [c] has a listener and is started *)
| Removed (c : nat)                              (* [c] leaves the list of connections *)
| Closed (c : nat)                               (* the socket of [c] is closed *)
| ShutDown.                                      (* the acceptor is closed *)

Inductive aevent : Type :=
| AStart                                         (* IServer::start, on the strand *)
| AShutdown                                      (* IServer::shutdown *)
| ARun                                           (* the next posted closure *)
| AAccept (c : nat) (ok : bool)                  (* completion of an accept *)
| AFail (c : nat).                               (* a read or write of [c] ends with an error *)

(** AsioServer.h:47-58; [as_num] is an unsigned int.  Then the sockets and the strand:
    accepts in progress, open sockets, connections whose read and write handlers may
    run, posted closures. *)
Record aserver : Type := {
  as_shutdown : bool;
  as_num : N;
  as_max : N;
  as_list : list nat;
  as_pending : list nat;
  as_open : list nat;
  as_active : list nat;
  as_next : nat;
  as_queue : list aclosure
}.

(** AsioServer.cpp:10-22 *)
Definition aserver_init (max : N) : aserver :=
  {| as_shutdown := false; as_num := 0; as_max := max; as_list := []; as_pending := []; as_open := [];
     as_active := []; as_next := 0; as_queue := [] |}.

Definition uint32 (n : N) : N := n mod 2 ^ 32.
Definition delete (c : nat) (l : list nat) : list nat := filter (fun d => negb (Nat.eqb d c)) l.
Definition member (c : nat) (l : list nat) : bool := existsb (Nat.eqb c) l.

Definition apost (s : aserver) (q : list aclosure) : aserver :=
  {| as_shutdown := as_shutdown s; as_num := as_num s; as_max := as_max s; as_list := as_list s;
     as_pending := as_pending s; as_open := as_open s; as_active := as_active s; as_next := as_next s;
     as_queue := as_queue s ++ q |}.

(** AsioServer.cpp:47-56; the list never contains a connection twice. *)
Definition remove_connection (s : aserver) (c : nat) : aserver * list aoutput :=
  if member c (as_list s) then
    (apost {| as_shutdown := as_shutdown s; as_num := uint32 (as_num s + 2 ^ 32 - 1); as_max := as_max s;
              as_list := delete c (as_list s); as_pending := as_pending s; as_open := as_open s;
              as_active := as_active s; as_next := as_next s; as_queue := as_queue s |} [Close c],
     [Removed c])
  else (s, []).

(** AsioServer.cpp:63-66 *)
Definition start_accept (s : aserver) : aserver := if as_shutdown s then s else apost s [StartAccept].

(** AsioServer.cpp:68-77 *)
Definition do_accept (s : aserver) : aserver * list aoutput :=
  if as_shutdown s then (s, [])
  else
    ({| as_shutdown := as_shutdown s; as_num := as_num s; as_max := as_max s; as_list := as_list s ++ [as_next s];
        as_pending := as_pending s ++ [as_next s]; as_open := as_open s; as_active := as_active s;
        as_next := S (as_next s); as_queue := as_queue s |}, [Accepting (as_next s)]).

(** AsioServer.cpp:33-43 *)
Definition do_shutdown (s : aserver) : aserver * list aoutput :=
  (apost {| as_shutdown := true; as_num := as_num s; as_max := as_max s; as_list := [];
            as_pending := as_pending s; as_open := as_open s; as_active := as_active s; as_next := as_next s;
            as_queue := as_queue s |} (map Close (as_list s)), [ShutDown]).

(** AsioServerTcpConnection.cpp:58-70, :184-191 *)
Definition do_close (s : aserver) (c : nat) : aserver * list aoutput :=
  if member c (as_open s) then
    let '(s, o) := remove_connection
      {| as_shutdown := as_shutdown s; as_num := as_num s; as_max := as_max s; as_list := as_list s;
         as_pending := as_pending s; as_open := delete c (as_open s); as_active := as_active s;
         as_next := as_next s; as_queue := as_queue s |} c in
    (s, Closed c :: o)
  else (s, []).

(** AsioServer.cpp:81-103.  A connection accepted after the shutdown is destroyed
    together with its socket when the handler returns.  [front] of an empty list is
    undefined. *)
Definition handle_accept (s : aserver) (c : nat) (ok : bool) : outcome (aserver * list aoutput) :=
  if as_shutdown s then Ret (s, [])
  else if negb ok then
    let '(s, o) := remove_connection s c in Ret (s, AcceptFailed c :: o)
  else
    let s := {| as_shutdown := as_shutdown s; as_num := uint32 (as_num s + 1); as_max := as_max s; as_list := as_list s;
                as_pending := as_pending s; as_open := as_open s ++ [c]; as_active := as_active s;
                as_next := as_next s; as_queue := as_queue s |} in
    let! (s, o) :=
      (if as_max s <? as_num s then
         match as_list s with
         | oldest :: _ => Ret (remove_connection s oldest)
         | [] => UB
         end
       else Ret (s, [])) in
    let s := {| as_shutdown := as_shutdown s; as_num := as_num s; as_max := as_max s; as_list := as_list s;
                as_pending := as_pending s; as_open := as_open s; as_active := as_active s ++ [c];
                as_next := as_next s; as_queue := as_queue s |} in
    Ret (start_accept s, Accepted c :: o ++ [Serving c]).

(** AsioServerTcpConnection.cpp:106-112, :128-134, :172-182 *)
Definition connection_error (s : aserver) (c : nat) : aserver * list aoutput :=
  remove_connection (apost s [Close c]) c.

Definition aserver_step (s : aserver) (e : aevent) : outcome (aserver * list aoutput) :=
  match e with
  | AStart => Ret (start_accept s, if as_shutdown s then [] else [Listening])
  | AShutdown => Ret (apost s [Shutdown], [])
  | ARun =>
      match as_queue s with
      | [] => Ret (s, [])
      | a :: q =>
          let s := {| as_shutdown := as_shutdown s; as_num := as_num s; as_max := as_max s; as_list := as_list s;
                      as_pending := as_pending s; as_open := as_open s; as_active := as_active s;
                      as_next := as_next s; as_queue := q |} in
          Ret match a with
              | StartAccept => do_accept s
              | Shutdown => do_shutdown s
              | Close c => do_close s c
              end
      end
  | AAccept c ok =>
      if member c (as_pending s) then
        handle_accept
          {| as_shutdown := as_shutdown s; as_num := as_num s; as_max := as_max s; as_list := as_list s;
             as_pending := delete c (as_pending s); as_open := as_open s; as_active := as_active s;
             as_next := as_next s; as_queue := as_queue s |} c ok
      else Ret (s, [])
  | AFail c => Ret (if member c (as_active s) then connection_error s c else (s, []))
  end.

Fixpoint aserver_run (s : aserver) (es : list aevent) : outcome (aserver * list aoutput) :=
  match es with
  | [] => Ret (s, [])
  | e :: es' =>
      let! (s, o) := aserver_step s e in
      let! (s, o') := aserver_run s es' in
      Ret (s, o ++ o')
  end.
