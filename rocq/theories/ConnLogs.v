(** What the TCP connections log: lib/src/client/channel/AsioClientTcpConnection.cpp and
    lib/src/server/channel/AsioServerTcpConnection.cpp with the calls of [m_logger], which
    ClientConn.v and ServerConn.v leave out.  Each function is the one of the same name
    there, and says where among its outputs the lines are.  AsioServer.cpp logs nothing. *)
From Verif Require Import Prelude AsyncWrite ClientConn ServerConn.

(** The lines, with their severities as in Config.v: debug, info, error are 1, 2, 4. *)
Inductive tline : Type :=
| Establishing                             (* info, AsioClientTcpConnection.cpp:55 *)
| AddressError                             (* error, AsioClientTcpConnection.cpp:60 *)
| OpenError                                (* error, AsioClientTcpConnection.cpp:66 *)
| BindError                                (* error, AsioClientTcpConnection.cpp:69 *)
| ResolverError                            (* error, AsioClientTcpConnection.cpp:122 *)
| ConnectionError                          (* error, AsioClientTcpConnection.cpp:141 *)
| EstablishedLine                          (* info, AsioClientTcpConnection.cpp:147, AsioServerTcpConnection.cpp:90 *)
| ClosedByPeer                             (* info, AsioClientTcpConnection.cpp:162 *)
| ReadError                                (* error, AsioClientTcpConnection.cpp:167, AsioServerTcpConnection.cpp:108 *)
| ReceivedBytes (n : nat)                  (* debug, AsioClientTcpConnection.cpp:174, AsioServerTcpConnection.cpp:114 *)
| WriteError                               (* error, AsioClientTcpConnection.cpp:191, AsioServerTcpConnection.cpp:130 *)
| SentBytes (n : nat)                      (* debug, AsioClientTcpConnection.cpp:197, AsioServerTcpConnection.cpp:136 *)
| ClosingLine.                             (* info, AsioClientTcpConnection.cpp:97, AsioServerTcpConnection.cpp:64 *)

Definition tline_severity (x : tline) : N :=
  match x with
  | ReceivedBytes _ | SentBytes _ => 1
  | Establishing | EstablishedLine | ClosedByPeer | ClosingLine => 2
  | _ => 4
  end.

(** What happens, in order. *)
Inductive tentry (O : Type) : Type :=
| Did (o : O)
| Said (x : tline).
Arguments Did {O} o.
Arguments Said {O} x.

(** [bytes_transferred] of a write that completes *)
Definition transferred (c : writer) (w : nat) : nat :=
  match find_op (wr_ops c) w with
  | Some o => match w_taken o with Some n => n | None => 0 end
  | None => 0
  end.

(** ** The connection of a client *)

(** AsioClientTcpConnection.cpp:55-69 *)
Definition send_lines (s : cconn) (e : setup) : list tline :=
  if cn_shutdown s then []
  else
    match cn_status s with
    | NotConnected =>
        Establishing ::
        if negb (su_address e) then [AddressError]
        else if negb (su_open e) || match cn_socket s with Some _ => true | None => false end then [OpenError]
        else if negb (su_bind e) then [BindError]
        else []
    | _ => []
    end.

(** AsioClientTcpConnection.cpp:47-84 *)
Definition log_conn_send (s : cconn) (data : list N) (e : setup) : cconn * list (tentry noutput) :=
  let '(s', o) := conn_send s data e in (s', map Said (send_lines s e) ++ map Did o).

(** AsioClientTcpConnection.cpp:91-102 *)
Definition log_do_close (s : cconn) : cconn * list (tentry noutput) :=
  let line :=
    if cn_shutdown s then []
    else match cn_socket s with Some _ => [Said ClosingLine] | None => [] end in
  let '(s, o) := do_close s in
  (s, line ++ map Did o).

(** AsioClientTcpConnection.cpp:116-133 *)
Definition log_resolve_handler (s : cconn) (ok : bool) : cconn * list (tentry noutput) :=
  let line := if cn_shutdown s then [] else if negb ok then [Said ResolverError] else [] in
  let '(s, o) := resolve_handler s ok in
  (s, line ++ map Did o).

(** AsioClientTcpConnection.cpp:135-152 *)
Definition log_connect_handler (s : cconn) (g : nat) (ok : bool) : cconn * list (tentry noutput) :=
  let line := if cn_shutdown s then [] else if negb ok then [Said ConnectionError] else [Said EstablishedLine] in
  let '(s, o) := connect_handler s g ok in
  (s, line ++ map Did o).

(** AsioClientTcpConnection.cpp:154-183 *)
Definition log_read_handler (s : cconn) (g : option nat) (x : read_result) : cconn * list (tentry noutput) :=
  let line :=
    if cn_shutdown s then []
    else
      match x with
      | REof => [Said ClosedByPeer]
      | RError => [Said ReadError]
      | RData data => [Said (ReceivedBytes (List.length data))]
      end in
  let '(s, o) := read_handler s g x in
  (s, line ++ map Did o).

(** AsioClientTcpConnection.cpp:185-206.  The completion itself comes before the line. *)
Definition log_write_handler (s : cconn) (w : nat) (ok : bool) : cconn * list (tentry noutput) :=
  match w_complete (cn_writer s) w ok with
  | None => (s, [])
  | Some (c, o) =>
      if cn_shutdown s then (with_writer s (set_op (cn_writer s) (delete_op (wr_ops (cn_writer s)) w)), [])
      else if negb ok then (conn_close (with_writer s c), map (fun x => Did (Write x)) o ++ [Said WriteError; Did Failed])
      else (with_writer s c, map (fun x => Did (Write x)) o ++ [Said (SentBytes (transferred (cn_writer s) w)); Did WriteDone])
  end.

Definition log_conn_step (s : cconn) (e : nevent) : outcome (cconn * list (tentry noutput)) :=
  match e with
  | NSend data e => Ret (log_conn_send s data e)
  | NShutdown => Ret (with_nqueue s (cn_queue s ++ [NDoShutdown]), [])
  | NRun =>
      match cn_queue s with
      | [] => Ret (s, [])
      | NDoClose :: q => Ret (log_do_close (with_nqueue s q))
      | NDoShutdown :: q => let '(s, o) := do_shutdown (with_nqueue s q) in Ret (s, map Did o)
      end
  | NResolved ok =>
      match cn_resolves s with
      | O => Ret (s, [])
      | S n => Ret (log_resolve_handler (with_resolves s n) ok)
      end
  | NConnected g ok =>
      if existsb (Nat.eqb g) (cn_connects s)
      then Ret (log_connect_handler (with_connects s (filter (fun x => negb (Nat.eqb x g)) (cn_connects s))) g ok)
      else Ret (s, [])
  | NRead r x =>
      match find_read (cn_reads s) r with
      | Some g =>
          if possible g x
          then Ret (log_read_handler (with_reads s (filter (fun x => negb (Nat.eqb (fst x) r)) (cn_reads s)) (cn_next_read s)) g x)
          else Ret (s, [])
      | None => Ret (s, [])
      end
  | NTransfer w n =>
      let! (c, o) := w_transfer (cn_writer s) w n in
      Ret (with_writer s c, map (fun x => Did (Write x)) o)
  | NWritten w ok => Ret (log_write_handler s w ok)
  end.

Fixpoint log_conn_run (s : cconn) (es : list nevent) : outcome (cconn * list (tentry noutput)) :=
  match es with
  | [] => Ret (s, [])
  | e :: es' =>
      let! (s, l) := log_conn_step s e in
      let! (s, l') := log_conn_run s es' in
      Ret (s, l ++ l')
  end.

(** ** The connection of a server *)

(** AsioServerTcpConnection.cpp:86-95 *)
Definition log_v_start (s : sconn) : sconn * list (tentry voutput) :=
  let line := if vn_shutdown s then [] else [Said EstablishedLine] in
  let '(s, o) := v_start s in
  (s, line ++ map Did o).

(** AsioServerTcpConnection.cpp:58-70 *)
Definition log_v_do_close (s : sconn) : sconn * list (tentry voutput) :=
  let line := if vn_shutdown s then [] else if vn_open s then [Said ClosingLine] else [] in
  let '(s, o) := v_do_close s in
  (s, line ++ map Did o).

(** AsioServerTcpConnection.cpp:102-122 *)
Definition log_v_read_handler (s : sconn) (x : read_result) : sconn * list (tentry voutput) :=
  let line :=
    if vn_shutdown s then []
    else
      match x with
      | REof | RError => [Said ReadError]
      | RData data => [Said (ReceivedBytes (List.length data))]
      end in
  let '(s, o) := v_read_handler s x in
  (s, line ++ map Did o).

(** AsioServerTcpConnection.cpp:124-144 *)
Definition log_v_write_handler (s : sconn) (w : nat) (ok : bool) : sconn * list (tentry voutput) :=
  match w_complete (vn_writer s) w ok with
  | None => (s, [])
  | Some (c, o) =>
      if vn_shutdown s then (with_vwriter s (set_op (vn_writer s) (delete_op (wr_ops (vn_writer s)) w)), [])
      else if negb ok then (v_close (with_vwriter s c), map (fun x => Did (VWrite x)) o ++ [Said WriteError; Did VFailed; Did VRemoved])
      else (with_vwriter s c, map (fun x => Did (VWrite x)) o ++ [Said (SentBytes (transferred (vn_writer s) w)); Did VWriteDone])
  end.

Definition log_vconn_step (s : sconn) (e : vevent) : outcome (sconn * list (tentry voutput)) :=
  match e with
  | VStart => Ret (log_v_start s)
  | VSend data => let '(s, o) := v_send s data in Ret (s, map Did o)
  | VClose => Ret (v_close s, [])
  | VShutdown => Ret (with_vqueue s (vn_queue s ++ [VDoShutdown]), [])
  | VRun =>
      match vn_queue s with
      | [] => Ret (s, [])
      | VDoClose :: q => Ret (log_v_do_close (with_vqueue s q))
      | VDoShutdown :: q => let '(s, o) := v_do_shutdown (with_vqueue s q) in Ret (s, map Did o)
      end
  | VRead r x =>
      match find_vread (vn_reads s) r with
      | Some g =>
          if g || match x with RError => true | _ => false end
          then Ret (log_v_read_handler (with_vreads s (filter (fun x => negb (Nat.eqb (fst x) r)) (vn_reads s)) (vn_next_read s)) x)
          else Ret (s, [])
      | None => Ret (s, [])
      end
  | VTransfer w n =>
      let! (c, o) := w_transfer (vn_writer s) w n in
      Ret (with_vwriter s c, map (fun x => Did (VWrite x)) o)
  | VWritten w ok => Ret (log_v_write_handler s w ok)
  end.

Fixpoint log_vconn_run (s : sconn) (es : list vevent) : outcome (sconn * list (tentry voutput)) :=
  match es with
  | [] => Ret (s, [])
  | e :: es' =>
      let! (s, l) := log_vconn_step s e in
      let! (s, l') := log_vconn_run s es' in
      Ret (s, l ++ l')
  end.
