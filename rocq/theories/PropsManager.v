(** The properties of the manager and of what channels are configured with. *)
From Verif Require Import Prelude Ser4 Messages Mbap SpecMbap Client SpecClient AsyncWrite ClientConn SpecConn ClientTcp SpecClientTcp
  Server SpecServer Listener SpecListener ServerConn ServerTcp SpecServerTcp TcpCases Manager SpecManager ManagerFacts ManagerShutdown ManagerTheorems Config ConfigFacts.
From Coq Require Import Permutation DecimalString.

(** ** C91: the manager shuts every channel down exactly once

    No channel is told to shut down twice, or before it was registered; and when [shutdown]
    returns, every channel registered until then has been told. *)
Theorem C91_told : forall {U V : Type} pol es (s : manager U V) l, manager_history pol es s l ->
  NoDup (told l) /\ (forall a i b, l = a ++ Told i :: b -> In i (registered a)) /\
  (forall a b, l = a ++ Returned :: b -> Permutation (registered a) (told a)).
Proof. exact @told_exactly_once. Qed.
Print Assumptions C91_told.

(** Each [shutdown] tells the channels not told before, the clients first, each in the order
    of creation; meanwhile no channel is registered. *)
Theorem C91_order : forall {U V : Type} pol es (s : manager U V) l a b c, manager_history pol es s l ->
  l = a ++ Locked :: b ++ Returned :: c -> ~ In Returned b ->
  told b = clients_first s (remaining (registered a) (told a)) /\ registered b = [].
Proof. exact @tell_order. Qed.
Print Assumptions C91_order.

(** Channels are told by a running [shutdown] only, of which there is one at a time, by
    calling their own [shutdown]. *)
Theorem C91_within : forall {U V : Type} pol es (s : manager U V) l, manager_history pol es s l ->
  (forall a i b, l = a ++ Told i :: b -> (exists p q, a = p ++ Locked :: q /\ ~ In Returned q) /\ (exists m b', b = m :: b' /\ shut_down_by i m)) /\
  (forall a b c, l = a ++ Locked :: b ++ Locked :: c -> In Returned b).
Proof. exact @told_by_shutdown. Qed.
Print Assumptions C91_within.

(** There is at least one thread to run them. *)
Theorem C91_threads : forall asked hardware, 1 <= threads asked hardware /\
  (forall n, asked = Some n -> 1 <= n -> threads asked hardware = n) /\ (asked = None -> 1 <= hardware -> threads asked hardware = hardware).
Proof. exact enough_threads. Qed.
Print Assumptions C91_threads.

Example C91_case : mdefined several = true /\ registered (mmarks several) = [1; 0; 2; 3]%nat /\ told (mmarks several) = [0; 2; 1; 3]%nat.
Proof. vm_compute. repeat split; reflexivity. Qed.

(** ** C92: the channels of a manager do not influence each other

    Each has a history of its own, so that C68-C90 hold for it. *)
Theorem C92_alone : forall {U V : Type} pol es (s : manager U V) l i, manager_history pol es s l ->
  match nth_error (mg_channels s) i with
  | Some (ClientSide h c) => exists buf w, In (MNewClient h buf w) es /\ good_buf buf /\ Forall typed_tevent (client_events i l) /\
      tcp_run h pol (tclient_init buf w) (client_events i l) = Ret (c, client_marks i l) /\ server_events i l = []
  | Some (ServerSide r d c) => exists max w, In (MNewServer r d max w) es /\
      server_history r d pol max w (server_events i l) c (server_marks i l) /\ client_events i l = []
  | None => client_events i l = [] /\ server_events i l = [] /\ client_marks i l = [] /\ server_marks i l = []
  end.
Proof. exact @channels_alone. Qed.
Print Assumptions C92_alone.

(** An event of another channel leaves it as it is. *)
Theorem C92_isolated : forall {U V : Type} pol es (s : manager U V) l e s' l' i, manager_history pol es s l -> manager_step pol s e = Ret (s', l') ->
  ~ concerns e i -> ~ In (Told i) l' -> (i < List.length (mg_channels s))%nat ->
  nth_error (mg_channels s') i = nth_error (mg_channels s) i /\ client_events i l' = [] /\ server_events i l' = [].
Proof. exact @channels_isolated. Qed.
Print Assumptions C92_isolated.

Example C92_case : mdefined several = true /\ client_events 0 (mmarks several) = connecting ++ [TApi Client.Shutdown] /\
  client_events 2 (mmarks several) = [TApi Client.Shutdown] /\ List.length (server_events 1 (mmarks several)) = 6%nat.
Proof. vm_compute. repeat split; reflexivity. Qed.

(** ** C93: when [shutdown] of the manager has returned, everything has ended

    Refuted: unlike documented it does not wait, and a handler is called afterwards. *)
Theorem C93_ended_refuted : exists es s l a b i, @manager_history bool nat AllOrNothing es s l /\ l = a ++ Returned :: b /\
  In (ChannelOut (Completed i (Value [3; 2; 0; 7]))) (client_marks 0 b).
Proof. exact handler_after_shutdown. Qed.
Print Assumptions C93_ended_refuted.

(** And a channel whose creation had begun before is not shut down at all. *)
Theorem C93_created_refuted : exists es s l a b, @manager_history bool nat AllOrNothing es s l /\ l = a ++ Returned :: b /\ In (Made 0) a /\ told l = [] /\
  took (writes (conn_outs (client_marks 0 b))) <> [].
Proof. exact channel_overlooked. Qed.
Print Assumptions C93_created_refuted.

(** What is left of it: when the closures that were posted, and then those that these
    posted, have run, nothing is sent or received on a client channel that was told. *)
Theorem C93_clients_partial : forall {U V : Type} pol es (s : manager U V) l i h c es1 s1 l1 c1 es2 s2 l2 es3 s3 l3, manager_history pol es s l -> In i (told l) ->
  Forall typed_mevent (es1 ++ es2) -> nth_error (mg_channels s) i = Some (ClientSide h c) ->
  manager_run pol s es1 = Ret (s1, l1) -> (List.length (tc_order c) <= truns (client_events i l1))%nat -> nth_error (mg_channels s1) i = Some (ClientSide h c1) ->
  manager_run pol s1 es2 = Ret (s2, l2) -> (List.length (tc_order c1) <= truns (client_events i l2))%nat -> manager_run pol s2 es3 = Ret (s3, l3) ->
  conn_outs (client_marks i l3) = [] /\ Forall SpecClient.quiet (channel_outs (client_marks i (l2 ++ l3))).
Proof. exact @clients_silent. Qed.
Print Assumptions C93_clients_partial.

(** And when the closures of a server channel that was told have run, its connections are
    closed, no session is consulted, nothing is accepted or sent. *)
Theorem C93_servers_partial : forall {U V : Type} pol es (s : manager U V) l i r d c, manager_history pol es s l -> In i (told l) ->
  nth_error (mg_channels s) i = Some (ServerSide r d c) -> us_order c = [] ->
  (starts_of (listen_ins (server_marks i l)) <= 1)%nat -> (forall r' d' max w, In (MNewServer r' d' max w) es -> max < 2 ^ 32 - 1) ->
  (forall k v, us_conns c k = Some v -> vn_open v = false) /\
  forall es2 s2 l2, Forall typed_mevent es2 -> manager_run pol s es2 = Ret (s2, l2) ->
    task_outs (server_marks i l2) = [] /\
    (forall k, ~ In (Accepting k) (listen_outs (server_marks i l2)) /\ ~ In (Accepted k) (listen_outs (server_marks i l2)) /\ ~ In (Serving k) (listen_outs (server_marks i l2))) /\
    forall k, Forall no_traffic (peer_outs k (server_marks i l2)).
Proof. exact @servers_silent. Qed.
Print Assumptions C93_servers_partial.

Example C93_case : let more := map (MServer 1) [URun; URun; URun; URun; UAccept 0 true (repeat 0 260)] in
  mdefined (several ++ more) = true /\
  listen_outs (server_marks 1 (mmarks (several ++ more))) = [Listening; Accepting 0; ShutDown] /\
  let rest := map (MClient 0) [TRun []; TRun []; TResolved true ""; TConnected 1 true ""] in
  conn_outs (client_marks 0 (mmarks (several ++ rest))) = [Attempt].
Proof. vm_compute. repeat split; reflexivity. Qed.

(** ** C94: endpoints

    They are equal exactly if host and port are. *)
Theorem C94_equality : forall a b, (ep_eq a b = true <-> a = b) /\ (ep_ne a b = true <-> a <> b).
Proof. exact endpoints_compare. Qed.
Print Assumptions C94_equality.

(** A client asks for the host and for the port in decimal notation. *)
Theorem C94_query : forall e, fst (query e) = ep_host e /\ option_map N.of_uint (NilEmpty.uint_of_string (snd (query e))) = Some (ep_port e).
Proof. exact query_reads_back. Qed.
Print Assumptions C94_query.

(** A server listens at the port given: refuted, there are two for each. *)
Theorem C94_port_refuted : exists a b, ep_port a < 2 ^ 32 /\ ep_port b < 2 ^ 32 /\ ep_eq a b = false /\ ep_host a = ep_host b /\
  listen_port a = listen_port b /\ listen_port a <> ep_port a.
Proof. exact port_truncated. Qed.
Print Assumptions C94_port_refuted.

Theorem C94_port_partial : forall e, ep_port e < 65536 -> listen_port e = ep_port e.
Proof. exact listens_at. Qed.
Print Assumptions C94_port_partial.

Example C94_case : query {| ep_host := "localhost"; ep_port := 20502 |} = ("localhost", "20502")%string /\ listen_port {| ep_host := "0.0.0.0"; ep_port := 20502 |} = 20502 /\
  bind_address "" = "0.0.0.0"%string /\ bind_address "10.0.0.1" = "10.0.0.1"%string.
Proof. vm_compute. repeat split; reflexivity. Qed.

(** ** C95: log messages of a channel are written according to its own level

    That of the manager's logger does not matter; its sinks are used. *)
Theorem C95_levels : forall {S : Type} (base : logger S) name level severity, level < 6 ->
  let l := if level <=? severity then lg_sinks base else [] in
  emits (connection_logger base name level) severity = l /\ emits (channel_logger base name level) severity = l /\ emits (server_logger base name level) severity = l.
Proof. exact @channel_logs. Qed.
Print Assumptions C95_levels.

(** A null logger and those made of it write nothing. *)
Theorem C95_null : forall {S : Type} name k level (severity : N), @emits S (null_logger name) severity = [] /\ emits (clone_at (@null_logger S name) k level) severity = [].
Proof. exact @null_logs. Qed.
Print Assumptions C95_null.

(** Refuted for sessions, whose logger does not take over the level. *)
Theorem C95_session_refuted : exists (base : logger nat) level severity, level < 6 /\ level <= severity /\
  emits (channel_logger base "c" level) severity = lg_sinks base /\ lg_sinks base <> [] /\ emits (session_logger (channel_logger base "c" level)) severity = [].
Proof. exact session_logs_nothing. Qed.
Print Assumptions C95_session_refuted.

Theorem C95_session_partial : forall {S : Type} (base : logger S) name level severity,
  level = 2 \/ 2 <= severity /\ level <= severity \/ severity < 2 /\ severity < level -> level < 6 ->
  emits (session_logger (channel_logger base name level)) severity = emits (channel_logger base name level) severity.
Proof. exact @session_logs. Qed.
Print Assumptions C95_session_partial.

(** A logger of the user gets the level asked for; what is no level counts as debug. *)
Theorem C95_custom : forall {S : Type} (l : logger S) level severity, level < 6 ->
  emits (custom_logger l level) severity = (if level <=? severity then lg_sinks l else []) /\ lg_name (custom_logger l level) = lg_name l.
Proof. exact @custom_logs. Qed.
Print Assumptions C95_custom.

Theorem C95_other_levels : forall {S : Type} (l : logger S) level severity, 6 <= level ->
  emits (custom_logger l level) severity = emits (custom_logger l 1) severity.
Proof. exact @other_levels. Qed.
Print Assumptions C95_other_levels.

(** The name of a logger tells the channel and the part. *)
Theorem C95_names : forall {S : Type} (base : logger S) name level,
  lg_name (channel_logger base name level) = name /\
  String.prefix name (lg_name (connection_logger base name level)) = true /\
  String.prefix name (lg_name (server_logger base name level)) = true /\
  lg_name (connection_logger base name level) <> name /\ lg_name (server_logger base name level) <> name /\
  lg_name (connection_logger base name level) <> lg_name (server_logger base name level).
Proof. exact @names_tell. Qed.
Print Assumptions C95_names.

Example C95_case : let base := {| lg_name := "m"; lg_level := 5; lg_sinks := [0%nat; 1%nat] |} in
  emits (channel_logger base "c" 1) 1 = [0; 1]%nat /\ emits (channel_logger base "c" 1) 0 = [] /\ emits base 1 = [].
Proof. vm_compute. repeat split; reflexivity. Qed.
