(** A client channel together with its TCP connection, as they are put together by
    lib/src/ModbusManagerImpl.cpp:42-63.

    The channel (Client.v) and the connection (ClientConn.v) share one strand: the
    closures posted by the two run in the order in which they were posted, and
    neither at the same time as a timer action or a completion handler.  The channel
    calls [send] and [shutdown] of the connection directly, in the middle of a turn;
    the connection calls [on_receive] and [on_error] of the channel directly, too.

    A failing handler of the connection posts the closing before it calls [on_error]
    (AsioClientTcpConnection.cpp:142-143, :168-169, :192-193).  [begin_read] is called
    after [on_receive] (:178-182), here before; this makes a difference only if
    [on_receive] opens a socket, and the read of a socket that was never connected
    fails like the read of a closed one. *)
From Verif Require Import Prelude Ser4 Messages Mbap Client AsyncWrite ClientConn.

(** Whose closure comes next. *)
Inductive turn := ChannelTurn | ConnTurn.

(** The results of system calls are for the first [send]s made in the turn; further
    ones succeed.  [msg] is the text of the error. *)
Inductive tevent : Type :=
| TApi (a : capi)                                (* a call from any thread *)
| TRun (xs : list setup)                         (* the next posted closure *)
| TExpire (t : nat)                              (* timer [t] expires *)
| TFire (t : nat) (xs : list setup)              (* the action of timer [t] *)
| TResolved (ok : bool) (msg : string)
| TConnected (g : nat) (ok : bool) (msg : string)
| TRead (r : nat) (x : read_result) (msg : string) (xs : list setup)
| TTransfer (w n : nat)
| TWritten (w : nat) (ok : bool) (msg : string).

(** What happens at the two parts, in order. *)
Inductive mark : Type :=
| ChannelIn (e : cevent)
| ChannelOut (o : coutput)
| ConnIn (e : nevent)
| ConnOut (o : noutput).

Record tclient (W : Type) : Type := {
  tc_channel : client;
  tc_user : W;
  tc_conn : cconn;
  tc_order : list turn
}.
Arguments tc_channel {W}.
Arguments tc_user {W}.
Arguments tc_conn {W}.
Arguments tc_order {W}.

Definition tclient_init {W : Type} (buf : list N) (w : W) : tclient W :=
  {| tc_channel := client_init buf; tc_user := w; tc_conn := cconn_init; tc_order := [] |}.

(** The bytes given to [send].  A byte of the buffer that was not written holds an
    arbitrary value; requests have none (C33). *)
Definition frame_data (f : list (option N)) : list N := map (fun b => match b with Some x => x | None => 0 end) f.

Definition next_setup (xs : list setup) : setup :=
  match xs with x :: _ => x | [] => {| su_address := true; su_open := true; su_bind := true |} end.

(** What the channel does to the connection: ClientChannelTcp.cpp:110 and :192. *)
Fixpoint to_conn (c : cconn) (os : list coutput) (xs : list setup) : outcome (cconn * list mark) :=
  match os with
  | [] => Ret (c, [])
  | Sent i u t f :: os' =>
      let e := NSend (frame_data f) (next_setup xs) in
      let! (c, o) := conn_step c e in
      let! (c, l) := to_conn c os' (tl xs) in
      Ret (c, ChannelOut (Sent i u t f) :: ConnIn e :: map ConnOut o ++ l)
  | TcpShutdown :: os' =>
      let! (c, o) := conn_step c NShutdown in
      let! (c, l) := to_conn c os' xs in
      Ret (c, ChannelOut TcpShutdown :: ConnIn NShutdown :: map ConnOut o ++ l)
  | o :: os' =>
      let! (c, l) := to_conn c os' xs in
      Ret (c, ChannelOut o :: l)
  end.

(** New closures go to the end of the strand's queue. *)
Definition posted (who : turn) (before after : nat) : list turn := repeat who (after - before).

Section ClientTcp.
Context {W : Type}.
Context (handler : nat -> W -> expected (list N) -> W * list capi).
Context (pol : copy_policy).

(** A turn of the channel.  [order] is the queue without the closure being run. *)
Definition channel_turn (s : tclient W) (order : list turn) (e : cevent) (xs : list setup) : outcome (tclient W * list mark) :=
  let! (ch, w, os) := client_step handler pol (tc_channel s) (tc_user s) e in
  let! (c, l) := to_conn (tc_conn s) os xs in
  let removed := match e with CRun => 1%nat | _ => 0%nat end in
  Ret ({| tc_channel := ch; tc_user := w; tc_conn := c;
          tc_order := order ++ posted ChannelTurn (List.length (cc_queue (tc_channel s)) - removed) (List.length (cc_queue ch))
                            ++ posted ConnTurn (List.length (cn_queue (tc_conn s))) (List.length (cn_queue c)) |},
       ChannelIn e :: l).

(** The callbacks of the connection (AsioClientTcpConnection.cpp:176-180, :231-238). *)
Fixpoint callbacks (s : tclient W) (os : list noutput) (msg : string) (xs : list setup) : outcome (tclient W * list mark) :=
  match os with
  | [] => Ret (s, [])
  | o :: os' =>
      let! (s, l) := match o with
                     | Received _ d => channel_turn s (tc_order s) (CReceive d) xs
                     | Failed => channel_turn s (tc_order s) (CError msg) xs
                     | _ => Ret (s, [])
                     end in
      let! (s, l') := callbacks s os' msg xs in
      Ret (s, ConnOut o :: l ++ l')
  end.

(** A turn of the connection. *)
Definition conn_turn (s : tclient W) (order : list turn) (e : nevent) (msg : string) (xs : list setup) : outcome (tclient W * list mark) :=
  let! (c, os) := conn_step (tc_conn s) e in
  let removed := match e with NRun => 1%nat | _ => 0%nat end in
  let s := {| tc_channel := tc_channel s; tc_user := tc_user s; tc_conn := c;
              tc_order := order ++ posted ConnTurn (List.length (cn_queue (tc_conn s)) - removed) (List.length (cn_queue c)) |} in
  let! (s, l) := callbacks s os msg xs in
  Ret (s, ConnIn e :: l).

Definition tcp_step (s : tclient W) (e : tevent) : outcome (tclient W * list mark) :=
  match e with
  | TApi a => channel_turn s (tc_order s) (CApi a) []
  | TRun xs =>
      match tc_order s with
      | [] => Ret (s, [])
      | ChannelTurn :: q => channel_turn s q CRun xs
      | ConnTurn :: q => conn_turn s q NRun "" []
      end
  | TExpire t => channel_turn s (tc_order s) (CExpire t) []
  | TFire t xs => channel_turn s (tc_order s) (CFire t) xs
  | TResolved ok msg => conn_turn s (tc_order s) (NResolved ok) msg []
  | TConnected g ok msg => conn_turn s (tc_order s) (NConnected g ok) msg []
  | TRead r x msg xs => conn_turn s (tc_order s) (NRead r x) msg xs
  | TTransfer w n => conn_turn s (tc_order s) (NTransfer w n) "" []
  | TWritten w ok msg => conn_turn s (tc_order s) (NWritten w ok) msg []
  end.

Fixpoint tcp_run (s : tclient W) (es : list tevent) : outcome (tclient W * list mark) :=
  match es with
  | [] => Ret (s, [])
  | e :: es' =>
      let! (s, l) := tcp_step s e in
      let! (s, l') := tcp_run s es' in
      Ret (s, l ++ l')
  end.
End ClientTcp.
