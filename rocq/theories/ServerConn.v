(** Model of lib/src/server/channel/AsioServerTcpConnection.cpp.

    The connection exists from the moment its socket was accepted.  The conventions
    are those of ClientConn.v.  [m_connection_listener] is set before [start]
    (AsioServer.cpp, ServerChannel.cpp), so it is never null here. *)
From Verif Require Import Prelude AsyncWrite.

Inductive vclosure := VDoClose | VDoShutdown.    (* AsioServerTcpConnection.cpp:57-71, :76-83 *)

Inductive vevent : Type :=
| VStart                                         (* start *)
| VSend (data : list N)                          (* send *)
| VClose                                         (* close *)
| VShutdown                                      (* shutdown *)
| VRun                                           (* the next posted closure *)
| VRead (r : nat) (x : read_result)              (* a read completes *)
| VTransfer (w n : nat)                          (* the transport takes bytes of a write *)
| VWritten (w : nat) (ok : bool).                (* a write completes *)

Inductive voutput : Type :=
| VWrite (o : woutput)
| VReceived (data : list N)                      (* on_receive *)
| VFailed                                        (* on_error *)
| VWriteDone                                     (* on_write_done *)
| VSocketClosed
| VRemoved.                                      (* AsioServer::remove_connection *)

(** AsioServerTcpConnection.h:62-65, whether the socket is open, outstanding reads
    (true: started on an open socket) and the closures. *)
Record sconn : Type := {
  vn_shutdown : bool;
  vn_connected : bool;
  vn_open : bool;
  vn_writer : writer;
  vn_reads : list (nat * bool);
  vn_queue : list vclosure;
  vn_next_read : nat
}.

(** AsioServerTcpConnection.cpp:27-38 *)
Definition sconn_init : sconn :=
  {| vn_shutdown := false; vn_connected := false; vn_open := true; vn_writer := writer_init; vn_reads := []; vn_queue := [];
     vn_next_read := 0 |}.

Definition with_vwriter (s : sconn) (x : writer) : sconn :=
  {| vn_shutdown := vn_shutdown s; vn_connected := vn_connected s; vn_open := vn_open s; vn_writer := x; vn_reads := vn_reads s;
     vn_queue := vn_queue s; vn_next_read := vn_next_read s |}.
Definition with_vconnected (s : sconn) (x : bool) : sconn :=
  {| vn_shutdown := vn_shutdown s; vn_connected := x; vn_open := vn_open s; vn_writer := vn_writer s; vn_reads := vn_reads s;
     vn_queue := vn_queue s; vn_next_read := vn_next_read s |}.
Definition with_vreads (s : sconn) (x : list (nat * bool)) (n : nat) : sconn :=
  {| vn_shutdown := vn_shutdown s; vn_connected := vn_connected s; vn_open := vn_open s; vn_writer := vn_writer s; vn_reads := x;
     vn_queue := vn_queue s; vn_next_read := n |}.
Definition with_vqueue (s : sconn) (x : list vclosure) : sconn :=
  {| vn_shutdown := vn_shutdown s; vn_connected := vn_connected s; vn_open := vn_open s; vn_writer := vn_writer s; vn_reads := vn_reads s;
     vn_queue := x; vn_next_read := vn_next_read s |}.

(** AsioServerTcpConnection.cpp:159-170 *)
Definition v_send_buffer (s : sconn) : sconn * list voutput :=
  if vn_shutdown s then (s, [])
  else if vn_connected s
  then let '(c, o) := w_start (vn_writer s) (vn_open s) in (with_vwriter s c, map VWrite o)
  else (s, []).

(** AsioServerTcpConnection.cpp:146-157 *)
Definition v_begin_read (s : sconn) : sconn :=
  if vn_shutdown s then s
  else if vn_connected s then with_vreads s (vn_reads s ++ [(vn_next_read s, vn_open s)]) (S (vn_next_read s))
  else s.

(** AsioServerTcpConnection.cpp:86-95 *)
Definition v_start (s : sconn) : sconn * list voutput :=
  if vn_shutdown s then (s, [])
  else let '(s, o) := v_send_buffer (with_vconnected s true) in (v_begin_read s, o).

(** AsioServerTcpConnection.cpp:45-51 *)
Definition v_send (s : sconn) (data : list N) : sconn * list voutput :=
  if vn_shutdown s then (s, []) else v_send_buffer (with_vwriter s (w_replace (vn_writer s) data)).

(** AsioServerTcpConnection.cpp:53-57 *)
Definition v_close (s : sconn) : sconn :=
  if vn_shutdown s then s else with_vqueue s (vn_queue s ++ [VDoClose]).

(** AsioServerTcpConnection.cpp:58-70 *)
Definition v_do_close (s : sconn) : sconn * list voutput :=
  if vn_shutdown s then (s, [])
  else
    let s := with_vconnected s false in
    if vn_open s
    then ({| vn_shutdown := vn_shutdown s; vn_connected := vn_connected s; vn_open := false; vn_writer := w_abort (vn_writer s);
             vn_reads := vn_reads s; vn_queue := vn_queue s; vn_next_read := vn_next_read s |}, [VSocketClosed; VRemoved])
    else (s, []).

(** AsioServerTcpConnection.cpp:77-82 *)
Definition v_do_shutdown (s : sconn) : sconn * list voutput :=
  ({| vn_shutdown := true; vn_connected := vn_connected s; vn_open := vn_open s; vn_writer := w_abort (vn_writer s);
      vn_reads := vn_reads s; vn_queue := vn_queue s; vn_next_read := vn_next_read s |}, [VRemoved]).

(** AsioServerTcpConnection.cpp:102-122, :172-191 *)
Definition v_read_handler (s : sconn) (x : read_result) : sconn * list voutput :=
  if vn_shutdown s then (s, [])
  else
    match x with
    | RData data => (v_begin_read s, [VReceived data])
    | REof | RError => (v_close s, [VFailed; VRemoved])
    end.

(** AsioServerTcpConnection.cpp:124-144, :172-191 *)
Definition v_write_handler (s : sconn) (w : nat) (ok : bool) : sconn * list voutput :=
  match w_complete (vn_writer s) w ok with
  | None => (s, [])
  | Some (c, o) =>
      if vn_shutdown s then (with_vwriter s (set_op (vn_writer s) (delete_op (wr_ops (vn_writer s)) w)), [])
      else if ok then (with_vwriter s c, map VWrite o ++ [VWriteDone])
      else (v_close (with_vwriter s c), map VWrite o ++ [VFailed; VRemoved])
  end.

Fixpoint find_vread (l : list (nat * bool)) (r : nat) : option bool :=
  match l with
  | [] => None
  | (r', g) :: l' => if Nat.eqb r' r then Some g else find_vread l' r
  end.

Definition vconn_step (s : sconn) (e : vevent) : outcome (sconn * list voutput) :=
  match e with
  | VStart => Ret (v_start s)
  | VSend data => Ret (v_send s data)
  | VClose => Ret (v_close s, [])
  | VShutdown => Ret (with_vqueue s (vn_queue s ++ [VDoShutdown]), [])
  | VRun =>
      match vn_queue s with
      | [] => Ret (s, [])
      | VDoClose :: q => Ret (v_do_close (with_vqueue s q))
      | VDoShutdown :: q => Ret (v_do_shutdown (with_vqueue s q))
      end
  | VRead r x =>
      match find_vread (vn_reads s) r with
      | Some g =>
          if g || match x with RError => true | _ => false end
          then Ret (v_read_handler (with_vreads s (filter (fun x => negb (Nat.eqb (fst x) r)) (vn_reads s)) (vn_next_read s)) x)
          else Ret (s, [])
      | None => Ret (s, [])
      end
  | VTransfer w n =>
      let! (c, o) := w_transfer (vn_writer s) w n in
      Ret (with_vwriter s c, map VWrite o)
  | VWritten w ok => Ret (v_write_handler s w ok)
  end.

Fixpoint vconn_run (s : sconn) (es : list vevent) : outcome (sconn * list voutput) :=
  match es with
  | [] => Ret (s, [])
  | e :: es' =>
      let! (s, o) := vconn_step s e in
      let! (s, o') := vconn_run s es' in
      Ret (s, o ++ o')
  end.
