(** Specification of the whole, over the network, in terms of what is observed. *)
From Verif Require Import Prelude Ser4 Messages Mbap Client Server Database System.
From Verif Require Import AsyncWrite ClientConn ClientTcp Listener ServerConn ServerTcp World.
From Verif Require Import SpecPdu SpecMbap SpecClient SpecServer SpecDb SpecConn SpecClientTcp SpecServerTcp SpecSystem.

(** ** Views of a history *)
Definition client_marks (l : list wmark) : list mark := flat_map (fun m => match m with WC m => [m] | _ => [] end) l.
Definition server_marks (l : list wmark) : list smark := flat_map (fun m => match m with WS m | WO m => [m] | _ => [] end) l.

(** What is observed at the client channel, the server channel and the database, except
    for what others cause. *)
Definition observed (l : list wmark) : list youtput :=
  flat_map (fun m => match m with
                     | WC (ChannelOut o) => [YC o]
                     | WS (TaskOut o) => [YS o]
                     | WD c r => [YD c r]
                     | _ => []
                     end) l.

(** The requests of others are accesses to the database; what they are answered is not
    part of the history. *)
Definition shows (m : wmark) (os : list youtput) : Prop :=
  match m with
  | WO (TaskOut (OConsult _ r)) => exists v, os = [YD (CRequest r) (RResponse v)]
  | _ => os = observed [m]
  end.
Definition observed_with_others (l : list wmark) (os : list youtput) : Prop :=
  exists parts, Forall2 shows l parts /\ os = List.concat parts.

(** ** What the environment provides *)
Definition typed_wevent (e : wevent) : Prop :=
  match e with
  | WClient (TApi a) => by_session a
  | WClient e => typed_tevent e
  | WServer e => typed_uevent e
  | WAccept _ _ buf => good_buf buf
  | WLocal c => typed_call c
  end.

(** [P] holds at every event of the history. *)
Fixpoint walways {W} (handler : nat -> W -> expected (list N) -> W * list capi) (pol : copy_policy)
    (P : world W -> wevent -> Prop) (w : world W) (es : list wevent) : Prop :=
  match es with
  | [] => True
  | e :: es' => P w e /\ forall w' l, world_step handler pol w e = Ret (w', l) -> walways handler pol P w' es'
  end.

(** The transport takes whole frames between the client and the server. *)
Definition whole_frames {W} (w : world W) (e : wevent) : Prop :=
  match e with
  | WClient (TTransfer o n) => takes_all (cn_writer (tc_conn (wd_client w))) o n
  | WServer (UTransfer c o n) => by_others w c = false -> forall v, us_conns (wd_server w) c = Some v -> takes_all (vn_writer v) o n
  | _ => True
  end.

(** A connection of the client succeeds only while there is no other attempt and its
    socket has not been closed. *)
Definition one_attempt {W} (w : world W) (e : wevent) : Prop :=
  match e with
  | WClient (TConnected g true _) =>
      let c := tc_conn (wd_client w) in
      In g (cn_connects c) -> cn_socket c = Some g /\ cn_resolves c = 0%nat /\ cn_connects c = [g]
  | _ => True
  end.

(** The completion of a write of the client is not later than the end of its
    connection. *)
Definition timely_writes {W} (w : world W) (e : wevent) : Prop :=
  match e with
  | WClient (TWritten o true _) =>
      forall x, find_op (wr_ops (cn_writer (tc_conn (wd_client w)))) o = Some x -> w_aborted x = false
  | _ => True
  end.

(** The client's connections follow each other: nothing is received on one before it
    is established, or after its end was reported, and the end is reported before the
    next one is established. *)
Fixpoint in_turn (cur : option nat) (os : list noutput) : Prop :=
  match os with
  | [] => True
  | Established g :: os' => cur = None /\ in_turn (Some g) os'
  | Received g _ :: os' => cur = Some g /\ in_turn cur os'
  | PeerClosed g :: os' => cur = Some g /\ in_turn None os'
  | Failed :: os' => in_turn None os'
  | _ :: os' => in_turn cur os'
  end.

(** Nothing is received on a connection of the server after its failure was reported. *)
Definition ends_at_failure (os : list voutput) : Prop :=
  forall a m d b, os <> a ++ VFailed :: m ++ VReceived d :: b.

Definition orderly {W} (handler : nat -> W -> expected (list N) -> W * list capi) (pol : copy_policy)
    (w : world W) (es : list wevent) (l : list wmark) : Prop :=
  walways handler pol whole_frames w es /\ walways handler pol one_attempt w es /\
  in_turn None (conn_outs (client_marks l)) /\
  forall g c buf, In (WAccept g c buf) es -> ends_at_failure (peer_outs c (server_marks l)).

(** From the beginning, with a database that is registered for [units]. *)
Definition world_history {W} (handler : nat -> W -> expected (list N) -> W * list capi) (pol : copy_policy)
    (units : list N) (d : db) (w0 : world W) (es : list wevent) (w : world W) (l : list wmark) : Prop :=
  (exists max buf u, good_buf buf /\ w0 = world_init units max d buf u) /\
  reachable_db d /\ Forall typed_wevent es /\ session_handler handler /\ world_run handler pol w0 es = Ret (w, l).

(** No answer can be so late that its transaction identifier is in use again. *)
Definition few_calls (l : list wmark) : Prop :=
  N.of_nat (List.length (called_ids (client_outputs (observed l)))) <= 65536.

(** ** What can be expected *)
Definition consults (os : list youtput) : list request :=
  flat_map (fun o => match o with YS (OConsult _ r) => [r] | _ => [] end) os.

(** The database executes, for the client, only requests that were made before. *)
Definition only_requested (os : list youtput) : Prop :=
  forall a x r b, os = a ++ YS (OConsult x r) :: b -> exists i u t, In (YC (Called i (session_call u r t))) a.

(** Each execution is that of another call. *)
Definition at_most_once (os : list youtput) : Prop :=
  exists ids, NoDup ids /\ Forall2 (fun r i => exists u t, In (YC (Called i (session_call u r t))) os) (consults os) ids.

(** A session reports a response only to a request that was executed. *)
Definition only_answered (os : list youtput) : Prop :=
  forall a i x b, os = a ++ YC (Completed i (Value x)) :: b ->
  exists u r t, In (YC (Called i (session_call u r t))) a /\ In r (consults a).

(** ** The two sides *)
(** What adding the database for [units] does at the server channel. *)
Definition adding (units : list N) : list smark := flat_map (fun u => [TaskIn (EApi (ApiAdd u 0)); TaskIn ERun]) units.

(** All but the sessions. *)
Definition same_server {A B} (s : tserver A) (s' : tserver B) : Prop :=
  us_channel s = us_channel s' /\ us_listener s = us_listener s' /\ us_conns s = us_conns s' /\ us_order s = us_order s'.

(** What happens at the client is what can happen at a client. *)
Definition client_side {W} (handler : nat -> W -> expected (list N) -> W * list capi) (pol : copy_policy)
    (es : list wevent) (w : world W) (l : list wmark) : Prop :=
  exists ces, tcp_history handler pol ces (wd_client w) (client_marks l) /\ forall e, In e ces -> In (WClient e) es.

(** What happens at the server is what can happen at a server, whose sessions give the
    answers of the database. *)
Definition server_side {W} (pol : copy_policy) (units : list N) (max : N) (es : list wevent) (w : world W) (l : list wmark) : Prop :=
  exists (T : Type) (on_request : N -> T -> request -> T * expected response * list api) (on_shutdown : N -> T -> T * list api) t ses s,
    well_typed on_request /\ sessions_do_not_start on_request on_shutdown /\
    server_history on_request on_shutdown pol max t ses s (adding units ++ server_marks l) /\ same_server (wd_server w) s /\
    forall e, In e ses -> e = URun \/ (exists u, In u units /\ e = UApi (ApiAdd u 0)) \/ In (WServer e) es \/
                          (exists g c buf, In (WAccept g c buf) es /\ e = UAccept c true buf).

(** The buffer of a write is read after it was freed; the acceptor drops the oldest of
    no connections. *)
Definition buffer_freed {W} (w : world W) (e : wevent) : Prop :=
  match e with
  | WClient (TTransfer o n) => conn_step (tc_conn (wd_client w)) (NTransfer o n) = UB
  | WServer (UTransfer c o n) => exists v, us_conns (wd_server w) c = Some v /\ vconn_step v (VTransfer o n) = UB
  | _ => False
  end.
Definition accept_undefined {W} (w : world W) (e : wevent) : Prop :=
  match e with
  | WServer (UAccept c ok _) => aserver_step (us_listener (wd_server w)) (AAccept c ok) = UB
  | WAccept _ c _ => aserver_step (us_listener (wd_server w)) (AAccept c true) = UB
  | _ => False
  end.

(** ** At rest *)
(** No operation is left whose bytes the transport could take. *)
Definition all_taken (c : writer) : Prop := forall o, In o (wr_ops c) -> w_aborted o = true \/ w_taken o <> None.

(** Nothing is posted at the client, and it is connected to an open connection of the
    server; between the two, nothing waits for the transport or is under way. *)
Definition at_rest {W} (w : world W) (l : list wmark) : Prop :=
  let t := wd_client w in
  exists g c v,
    tc_order t = [] /\ cn_status (tc_conn t) = Connected /\ cn_socket (tc_conn t) = Some g /\ all_taken (cn_writer (tc_conn t)) /\
    socket_of (wd_links w) c = Some g /\ wd_up w g = [] /\ wd_down w g = [] /\
    us_conns (wd_server w) c = Some v /\ vn_open v = true /\ ~ In VDoClose (vn_queue v) /\ all_taken (vn_writer v) /\
    ~ In VFailed (peer_outs c (server_marks l)).

Definition not_shut_down {W} (w : world W) : Prop :=
  cc_shutdown (tc_channel (wd_client w)) = false /\ sv_shutdown (us_channel (wd_server w)) = false.

(** Every call is for one of [units]; every call is completed. *)
Definition calls_only (units : list N) (os : list youtput) : Prop := forall i k, In (YC (Called i k)) os -> In (k_unit k) units.
Definition each_completed (os : list youtput) : Prop := forall i k, In (YC (Called i k)) os -> exists x, In (YC (Completed i x)) os.

(** No request times out, and no failure of a connection is reported to the client. *)
Definition peaceful (es : list wevent) (l : list wmark) : Prop :=
  (forall t xs, ~ In (WClient (TFire t xs)) es) /\ ~ In Failed (conn_outs (client_marks l)).
