(** Model of lib/src/client/channel/AsioClientTcpConnection.cpp.

    Posted closures run in FIFO order on the strand, completion handlers one at a
    time and in any order.  Sockets, reads and writes are numbered in the order of
    their creation.  The text of error messages is not modelled.  [close] is called
    by the handlers only. *)
From Verif Require Import Prelude AsyncWrite.

Inductive cstatus := NotConnected | Connecting | Connected.   (* AsioClientTcpConnection.h:45-50 *)

Inductive nclosure := NDoClose | NDoShutdown.    (* AsioClientTcpConnection.cpp:90-103, :108-113 *)

(** Results of the system calls made by [send] when it opens a connection. *)
Record setup : Type := { su_address : bool; su_open : bool; su_bind : bool }.

Inductive nevent : Type :=
| NSend (data : list N) (e : setup)              (* send *)
| NShutdown                                      (* shutdown *)
| NRun                                           (* the next posted closure *)
| NResolved (ok : bool)                          (* an async_resolve completes *)
| NConnected (g : nat) (ok : bool)               (* the async_connect of socket [g] completes *)
| NRead (r : nat) (x : read_result)              (* a read completes *)
| NTransfer (w n : nat)                          (* the transport takes bytes of a write *)
| NWritten (w : nat) (ok : bool).                (* a write completes *)

Inductive noutput : Type :=
| Attempt                                        (* async_resolve is started *)
| SetupFailed                                    (* send gives up, which is only logged *)
| Established (g : nat)                          (* socket [g] is connected *)
| Write (o : woutput)
| Received (g : nat) (data : list N)             (* on_receive *)
| PeerClosed (g : nat)                           (* end of file; nothing is called *)
| Failed                                         (* on_error *)
| WriteDone                                      (* on_write_done *)
| SocketClosed (g : nat).

(** AsioClientTcpConnection.h:68-71 and the socket; then outstanding resolves,
    connects and reads (with the socket they read from, if it was open), and the
    closures. *)
Record cconn : Type := {
  cn_shutdown : bool;
  cn_status : cstatus;
  cn_socket : option nat;
  cn_writer : writer;
  cn_resolves : nat;
  cn_connects : list nat;
  cn_reads : list (nat * option nat);
  cn_queue : list nclosure;
  cn_next_socket : nat;
  cn_next_read : nat
}.

(** AsioClientTcpConnection.cpp:26-40 *)
Definition cconn_init : cconn :=
  {| cn_shutdown := false; cn_status := NotConnected; cn_socket := None; cn_writer := writer_init; cn_resolves := 0;
     cn_connects := []; cn_reads := []; cn_queue := []; cn_next_socket := 0; cn_next_read := 0 |}.

Definition with_status (s : cconn) (x : cstatus) : cconn :=
  {| cn_shutdown := cn_shutdown s; cn_status := x; cn_socket := cn_socket s; cn_writer := cn_writer s; cn_resolves := cn_resolves s;
     cn_connects := cn_connects s; cn_reads := cn_reads s; cn_queue := cn_queue s; cn_next_socket := cn_next_socket s; cn_next_read := cn_next_read s |}.
Definition with_writer (s : cconn) (x : writer) : cconn :=
  {| cn_shutdown := cn_shutdown s; cn_status := cn_status s; cn_socket := cn_socket s; cn_writer := x; cn_resolves := cn_resolves s;
     cn_connects := cn_connects s; cn_reads := cn_reads s; cn_queue := cn_queue s; cn_next_socket := cn_next_socket s; cn_next_read := cn_next_read s |}.
Definition with_resolves (s : cconn) (x : nat) : cconn :=
  {| cn_shutdown := cn_shutdown s; cn_status := cn_status s; cn_socket := cn_socket s; cn_writer := cn_writer s; cn_resolves := x;
     cn_connects := cn_connects s; cn_reads := cn_reads s; cn_queue := cn_queue s; cn_next_socket := cn_next_socket s; cn_next_read := cn_next_read s |}.
Definition with_connects (s : cconn) (x : list nat) : cconn :=
  {| cn_shutdown := cn_shutdown s; cn_status := cn_status s; cn_socket := cn_socket s; cn_writer := cn_writer s; cn_resolves := cn_resolves s;
     cn_connects := x; cn_reads := cn_reads s; cn_queue := cn_queue s; cn_next_socket := cn_next_socket s; cn_next_read := cn_next_read s |}.
Definition with_reads (s : cconn) (x : list (nat * option nat)) (n : nat) : cconn :=
  {| cn_shutdown := cn_shutdown s; cn_status := cn_status s; cn_socket := cn_socket s; cn_writer := cn_writer s; cn_resolves := cn_resolves s;
     cn_connects := cn_connects s; cn_reads := x; cn_queue := cn_queue s; cn_next_socket := cn_next_socket s; cn_next_read := n |}.
Definition with_nqueue (s : cconn) (x : list nclosure) : cconn :=
  {| cn_shutdown := cn_shutdown s; cn_status := cn_status s; cn_socket := cn_socket s; cn_writer := cn_writer s; cn_resolves := cn_resolves s;
     cn_connects := cn_connects s; cn_reads := cn_reads s; cn_queue := x; cn_next_socket := cn_next_socket s; cn_next_read := cn_next_read s |}.

(** The socket is opened, or closed. *)
Definition open_socket (s : cconn) : cconn :=
  {| cn_shutdown := cn_shutdown s; cn_status := cn_status s; cn_socket := Some (cn_next_socket s); cn_writer := cn_writer s;
     cn_resolves := cn_resolves s; cn_connects := cn_connects s; cn_reads := cn_reads s; cn_queue := cn_queue s;
     cn_next_socket := S (cn_next_socket s); cn_next_read := cn_next_read s |}.
Definition close_socket (s : cconn) : cconn :=
  {| cn_shutdown := cn_shutdown s; cn_status := cn_status s; cn_socket := None; cn_writer := w_abort (cn_writer s);
     cn_resolves := cn_resolves s; cn_connects := cn_connects s; cn_reads := cn_reads s; cn_queue := cn_queue s;
     cn_next_socket := cn_next_socket s; cn_next_read := cn_next_read s |}.

(** AsioClientTcpConnection.cpp:218-229 *)
Definition send_buffer (s : cconn) : cconn * list noutput :=
  if cn_shutdown s then (s, [])
  else let '(c, o) := w_start (cn_writer s) (match cn_socket s with Some _ => true | None => false end) in (with_writer s c, map Write o).

(** AsioClientTcpConnection.cpp:208-216; on a closed socket the read fails later. *)
Definition begin_read (s : cconn) : cconn :=
  if cn_shutdown s then s
  else with_reads s (cn_reads s ++ [(cn_next_read s, cn_socket s)]) (S (cn_next_read s)).

(** AsioClientTcpConnection.cpp:47-84.  Opening a socket that is open fails. *)
Definition conn_send (s : cconn) (data : list N) (e : setup) : cconn * list noutput :=
  if cn_shutdown s then (s, [])
  else
    let s := with_writer s (w_replace (cn_writer s) data) in
    match cn_status s with
    | NotConnected =>
        if negb (su_address e) then (s, [SetupFailed])
        else if negb (su_open e) || match cn_socket s with Some _ => true | None => false end then (s, [SetupFailed])
        else
          let s := open_socket s in
          if negb (su_bind e) then (s, [SetupFailed])
          else (with_resolves (with_status s Connecting) (S (cn_resolves s)), [Attempt])
    | Connected => send_buffer s
    | Connecting => (s, [])
    end.

(** AsioClientTcpConnection.cpp:86-91 *)
Definition conn_close (s : cconn) : cconn :=
  if cn_shutdown s then s else with_nqueue s (cn_queue s ++ [NDoClose]).

(** AsioClientTcpConnection.cpp:91-102 *)
Definition do_close (s : cconn) : cconn * list noutput :=
  if cn_shutdown s then (s, [])
  else
    let s := with_status s NotConnected in
    match cn_socket s with
    | Some g => (close_socket s, [SocketClosed g])
    | None => (s, [])
    end.

(** AsioClientTcpConnection.cpp:109-112; [cancel] aborts the outstanding operations. *)
Definition do_shutdown (s : cconn) : cconn * list noutput :=
  ({| cn_shutdown := true; cn_status := cn_status s; cn_socket := cn_socket s; cn_writer := w_abort (cn_writer s);
      cn_resolves := cn_resolves s; cn_connects := cn_connects s; cn_reads := cn_reads s; cn_queue := cn_queue s;
      cn_next_socket := cn_next_socket s; cn_next_read := cn_next_read s |}, []).

(** AsioClientTcpConnection.cpp:116-133.  [asio::async_connect] on a range of endpoints
    closes the socket and opens it anew. *)
Definition resolve_handler (s : cconn) (ok : bool) : cconn * list noutput :=
  if cn_shutdown s then (s, [])
  else if negb ok then (with_status s NotConnected, [Failed])
  else
    let s := open_socket (close_socket s) in
    (with_connects s (cn_connects s ++ match cn_socket s with Some g => [g] | None => [] end), []).

(** AsioClientTcpConnection.cpp:135-152 *)
Definition connect_handler (s : cconn) (g : nat) (ok : bool) : cconn * list noutput :=
  if cn_shutdown s then (s, [])
  else if negb ok then (conn_close s, [Failed])
  else
    let '(s, o) := send_buffer (with_status s Connected) in
    (begin_read s, Established g :: o).

(** AsioClientTcpConnection.cpp:154-183; [g] is the socket the read was started on. *)
Definition read_handler (s : cconn) (g : option nat) (x : read_result) : cconn * list noutput :=
  if cn_shutdown s then (s, [])
  else
    match x, g with
    | RData data, Some g => (begin_read s, [Received g data])
    | REof, Some g => (conn_close s, [PeerClosed g])
    | RError, _ => (conn_close s, [Failed])
    | _, None => (s, [])
    end.

(** AsioClientTcpConnection.cpp:185-206 *)
Definition write_handler (s : cconn) (w : nat) (ok : bool) : cconn * list noutput :=
  match w_complete (cn_writer s) w ok with
  | None => (s, [])
  | Some (c, o) =>
      if cn_shutdown s then (with_writer s (set_op (cn_writer s) (delete_op (wr_ops (cn_writer s)) w)), [])
      else if ok then (with_writer s c, map Write o ++ [WriteDone])
      else (conn_close (with_writer s c), map Write o ++ [Failed])
  end.

Fixpoint find_read (l : list (nat * option nat)) (r : nat) : option (option nat) :=
  match l with
  | [] => None
  | (r', g) :: l' => if Nat.eqb r' r then Some g else find_read l' r
  end.

(** A read of a socket that was not open can only fail. *)
Definition possible (g : option nat) (x : read_result) : bool :=
  match g, x with None, RError => true | None, _ => false | Some _, _ => true end.

Definition conn_step (s : cconn) (e : nevent) : outcome (cconn * list noutput) :=
  match e with
  | NSend data e => Ret (conn_send s data e)
  | NShutdown => Ret (with_nqueue s (cn_queue s ++ [NDoShutdown]), [])
  | NRun =>
      match cn_queue s with
      | [] => Ret (s, [])
      | NDoClose :: q => Ret (do_close (with_nqueue s q))
      | NDoShutdown :: q => Ret (do_shutdown (with_nqueue s q))
      end
  | NResolved ok =>
      match cn_resolves s with
      | O => Ret (s, [])
      | S n => Ret (resolve_handler (with_resolves s n) ok)
      end
  | NConnected g ok =>
      if existsb (Nat.eqb g) (cn_connects s)
      then Ret (connect_handler (with_connects s (filter (fun x => negb (Nat.eqb x g)) (cn_connects s))) g ok)
      else Ret (s, [])
  | NRead r x =>
      match find_read (cn_reads s) r with
      | Some g =>
          if possible g x
          then Ret (read_handler (with_reads s (filter (fun x => negb (Nat.eqb (fst x) r)) (cn_reads s)) (cn_next_read s)) g x)
          else Ret (s, [])
      | None => Ret (s, [])
      end
  | NTransfer w n =>
      let! (c, o) := w_transfer (cn_writer s) w n in
      Ret (with_writer s c, map Write o)
  | NWritten w ok => Ret (write_handler s w ok)
  end.

Fixpoint conn_run (s : cconn) (es : list nevent) : outcome (cconn * list noutput) :=
  match es with
  | [] => Ret (s, [])
  | e :: es' =>
      let! (s, o) := conn_step s e in
      let! (s, o') := conn_run s es' in
      Ret (s, o ++ o')
  end.
