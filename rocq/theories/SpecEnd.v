(** Coming to an end: what can still happen by itself in a client channel and its
    connection, i.e. what keeps the threads of the pool from returning. *)
From Verif Require Import Prelude Ser4 Messages Mbap SpecMbap Client SpecClient AsyncWrite ClientConn ClientTcp SpecClientTcp.

(** Something of the connection is there for the event to happen to. *)
Definition conn_enabled (c : cconn) (e : nevent) : Prop :=
  match e with
  | NSend _ _ | NShutdown => False
  | NRun => cn_queue c <> []
  | NResolved _ => cn_resolves c <> 0%nat
  | NConnected g _ => In g (cn_connects c)
  | NRead r x => exists g, find_read (cn_reads c) r = Some g /\ possible g x = true
  | NTransfer w n => exists o, find_op (wr_ops (cn_writer c)) w = Some o /\ w_taken o = None /\ w_aborted o = false /\
      (0 < n <= List.length (snd (w_buf o)))%nat
  | NWritten w ok => w_complete (cn_writer c) w ok <> None
  end.

Definition tcp_enabled {W : Type} (s : tclient W) (e : tevent) : Prop :=
  match e with
  | TApi _ => False
  | TRun _ => tc_order s <> []
  | TExpire t => In t (cc_armed (tc_channel s))
  | TFire t _ => In t (cc_expired (tc_channel s))
  | TResolved ok _ => conn_enabled (tc_conn s) (NResolved ok)
  | TConnected g ok _ => conn_enabled (tc_conn s) (NConnected g ok)
  | TRead r x _ _ => conn_enabled (tc_conn s) (NRead r x)
  | TTransfer w n => conn_enabled (tc_conn s) (NTransfer w n)
  | TWritten w ok _ => conn_enabled (tc_conn s) (NWritten w ok)
  end.

(** [s'] is reached from [s] by one such event. *)
Definition tcp_goes_on {W : Type} (handler : nat -> W -> expected (list N) -> W * list capi) (pol : copy_policy) (s' s : tclient W) : Prop :=
  exists e l, tcp_enabled s e /\ tcp_step handler pol s e = Ret (s', l).

(** Nothing is left that could happen: no posted closure, no timer, no operation. *)
Definition tcp_idle {W : Type} (s : tclient W) : Prop :=
  tc_order s = [] /\ cc_queue (tc_channel s) = [] /\ cc_armed (tc_channel s) = [] /\ cc_expired (tc_channel s) = [] /\
  cn_queue (tc_conn s) = [] /\ cn_resolves (tc_conn s) = 0%nat /\ cn_connects (tc_conn s) = [] /\ cn_reads (tc_conn s) = [] /\
  wr_ops (cn_writer (tc_conn s)) = [].

(** Whatever happens by itself is well defined, and it comes to an end, with nothing left. *)
Inductive tcp_ends {W : Type} (handler : nat -> W -> expected (list N) -> W * list capi) (pol : copy_policy) (s : tclient W) : Prop :=
| TcpEnds :
    (forall e, typed_tevent e -> tcp_enabled s e -> exists s' l, tcp_step handler pol s e = Ret (s', l) /\ tcp_ends handler pol s') ->
    ((forall e, typed_tevent e -> ~ tcp_enabled s e) -> tcp_idle s) ->
    tcp_ends handler pol s.

(** An infinite sequence of such events, through the states [ss]. *)
Definition tcp_goes_on_forever {W : Type} (handler : nat -> W -> expected (list N) -> W * list capi) (pol : copy_policy)
    (ss : nat -> tclient W) (es : nat -> tevent) : Prop :=
  forall n, typed_tevent (es n) /\ tcp_enabled (ss n) (es n) /\ exists l, tcp_step handler pol (ss n) (es n) = Ret (ss (S n), l).

(** Posted closures are executed again and again. *)
Definition closures_run (es : nat -> tevent) : Prop := forall n, exists m xs, (n <= m)%nat /\ es m = TRun xs.
