(** The properties of a server channel over its acceptor and its connections. *)
From Verif Require Import Prelude Ser4 Messages Mbap SpecPdu SpecMbap Server SpecServer ServerLemmas Listener SpecListener AsyncWrite ServerConn SpecConn ConnCases
  ServerTcp SpecServerTcp ServerTcpFacts ServerTcpLemmas ServerTcpTheorems ServerTcpStarts ServerTcpTotal ServerTcpTalk ServerTcpCases.
From Coq Require Import Sorted.

(** ** C80: the parts of a server work together as they do alone

    Whatever happens to the whole is, for the channel, the acceptor and each connection,
    one of its own histories; so their properties (C25-C30, C45, C46, C50, C51, C55, C57-C59, C79) hold. *)
Theorem C80_parts : forall {W : Type} (on_request : N -> W -> request -> W * expected response * list api) (on_shutdown : N -> W -> W * list api)
  pol max w0 es h m, server_history on_request on_shutdown pol max w0 es h m ->
  Forall typed_event (task_ins m) /\
  server_run on_request on_shutdown pol server_init w0 (task_ins m) = Ret (us_channel h, us_user h, task_outs m) /\
  SpecListener.serves max (listen_ins m) (us_listener h) (listen_outs m) /\
  forall c, vconn_run sconn_init (peer_ins c m) = Ret (match us_conns h c with Some v => v | None => sconn_init end, peer_outs c m) /\
    match us_conns h c with
    | None => peer_ins c m = []
    | Some _ => exists k rest, peer_ins c m = repeat VClose k ++ VStart :: rest /\ ~ In VStart rest /\ ~ In VShutdown rest
    end.
Proof. exact @server_parts. Qed.
Print Assumptions C80_parts.

(** Data, failures, accepted connections and closings are passed on unchanged, and there
    are no others. *)
Theorem C80_wiring : forall {W : Type} (on_request : N -> W -> request -> W * expected response * list api) (on_shutdown : N -> W -> W * list api)
  pol max w0 es h m, server_history on_request on_shutdown pol max w0 es h m -> wired m.
Proof. exact @server_wired. Qed.
Print Assumptions C80_wiring.

Example C80_case : runs 4 two_clients = true /\
  listen_outs (marks 4 two_clients) =
    [Listening; Accepting 0; Accepted 0; Serving 0; Accepting 1; Accepted 1; Serving 1; Accepting 2; Removed 1; Closed 1] /\
  peer_outs 1 (marks 4 two_clients) =
    [VReceived (read_frame 9 5); VWrite (WStarted 0 (frame_bytes 9 5 [3; 2; 0; 7])); VWrite (WTook 0 (frame_bytes 9 5 [3; 2; 0; 7]));
     VWrite (WFailed 0); VFailed; VRemoved; VSocketClosed; VRemoved] /\
  ops_on 1 (task_ins (marks 4 two_clients)) = [Chunk (read_frame 9 5); Reset].
Proof. vm_compute. repeat split; reflexivity. Qed.

(** ** C81: every response is transmitted, on the connection of its request

    Refuted by a transport that takes a part of it: the rest is not sent, and nobody is told. *)
Theorem C81_truncated_refuted : exists es h m w x v, server_history (demo 1) demo_shutdown AllOrNothing 4 0%nat es h m /\ us_order h = [] /\
  sends_on 0 (task_outs m) = [v] /\ took (vwrites (peer_outs 0 m)) = [(w, x)] /\ In VWriteDone (peer_outs 0 m) /\ x <> response_data v.
Proof. exact response_truncated. Qed.
Print Assumptions C81_truncated_refuted.

(** The writes that are begun on a connection are the responses to what arrived on it, in
    their order, and as long as its socket is open all of them. *)
Theorem C81_responses_partial : forall {W : Type} (on_request : N -> W -> request -> W * expected response * list api) (on_shutdown : N -> W -> W * list api)
  pol max w0 es h m c, server_history on_request on_shutdown pol max w0 es h m ->
  match us_conns h c with
  | Some v => kept v /\ exists late, map response_data (sends_on (N.of_nat c) (task_outs m)) = map snd (started (vwrites (peer_outs c m))) ++ late /\
      (vn_open v = true /\ late = [] \/ vn_open v = false /\ In VSocketClosed (peer_outs c m))
  | None => sends_on (N.of_nat c) (task_outs m) = [] /\ peer_outs c m = []
  end.
Proof. exact @responses_sent. Qed.
Print Assumptions C81_responses_partial.

(** Whatever the transport takes is the beginning of the answer to a request that arrived
    on the same connection. *)
Theorem C81_wire_partial : forall {W : Type} (on_request : N -> W -> request -> W * expected response * list api) (on_shutdown : N -> W -> W * list api),
  well_typed on_request -> forall pol max w0 es h m c w x, server_history on_request on_shutdown pol max w0 es h m ->
  In (w, x) (took (vwrites (peer_outs c m))) ->
  exists v view rest, in_history on_request on_shutdown pol server_init w0 (task_ins m) v /\ answered_once v /\
    at_conn v = N.of_nat c /\ In (OSend (N.of_nat c) view) (caused v) /\ response_data view = x ++ rest.
Proof. exact @wire_is_answers. Qed.
Print Assumptions C81_wire_partial.

Example C81_case : took (vwrites (peer_outs 0 (marks 4 two_clients))) = [(0%nat, frame_bytes 1 5 [3; 2; 0; 7])] /\
  took (vwrites (peer_outs 1 (marks 4 two_clients))) = [(0%nat, frame_bytes 9 5 [3; 2; 0; 7])].
Proof. vm_compute. split; reflexivity. Qed.

(** ** C82: every request that arrives on a connection is served, in order

    If the data received on a connection consists of frames, the channel serves those with
    valid headers, one after the other. *)
Theorem C82_stream : forall {W : Type} (on_request : N -> W -> request -> W * expected response * list api) (on_shutdown : N -> W -> W * list api),
  well_typed on_request -> forall pol max w0 es h m c chunks items tail, server_history on_request on_shutdown pol max w0 es h m -> us_conns h c <> None ->
  heard (peer_outs c m) = map Chunk chunks -> framed (List.concat chunks) items tail ->
  exists vs, filter by_frame (task_outs m) = List.concat (map caused vs) /\ StronglySorted le (map at_event vs) /\
    Forall (fun v => in_history on_request on_shutdown pol server_init w0 (task_ins m) v /\ answered_once v) vs /\
    Forall2 got (filter deliverable (settled items tail)) (map frame_in (filter (on_conn (N.of_nat c)) vs)).
Proof. exact @stream_served. Qed.
Print Assumptions C82_stream.

Example C82_case : heard (peer_outs 0 (marks 4 two_clients)) = [Chunk (firstn 5 (read_frame 1 5)); Chunk (skipn 5 (read_frame 1 5))] /\
  sends_on 0 (task_outs (marks 4 two_clients)) = [map Some (frame_bytes 1 5 [3; 2; 0; 7])].
Proof. vm_compute. split; reflexivity. Qed.

(** ** C83: what happens on one connection does not touch the others

    Data, failures and completed writes of a connection change no other one, nor is
    anything sent there. *)
Theorem C83_isolated : forall {W : Type} (on_request : N -> W -> request -> W * expected response * list api) (on_shutdown : N -> W -> W * list api)
  pol max w0 es h m e h' m' c d, server_history on_request on_shutdown pol max w0 es h m -> of_peer c e ->
  userver_step on_request on_shutdown pol h e = Ret (h', m') -> d <> c ->
  us_conns h' d = us_conns h d /\ peer_ins d m' = [] /\ peer_outs d m' = [].
Proof. exact @isolated. Qed.
Print Assumptions C83_isolated.

Example C83_case : final (fun h => option_map vn_open (us_conns h 0%nat)) 4 two_clients = Some (Some true) /\
  final (fun h => option_map vn_open (us_conns h 1%nat)) 4 two_clients = Some (Some false).
Proof. vm_compute. split; reflexivity. Qed.

(** ** C84: shutting the channel down closes everything

    Refuted by a channel that was never started: its acceptor stays open. *)
Theorem C84_acceptor_refuted : exists es h m, server_history (demo 1) demo_shutdown AllOrNothing 4 0%nat es h m /\ In (UApi ApiShutdown) es /\
  us_order h = [] /\ ~ In ShutDown (listen_outs m).
Proof. exact acceptor_left_open. Qed.
Print Assumptions C84_acceptor_refuted.

(** And by one that was started twice: a connection stays open. *)
Theorem C84_connection_refuted : exists es h m v, server_history (demo 1) demo_shutdown AllOrNothing 1 0%nat es h m /\ In (UApi ApiShutdown) es /\
  times is_start es = 2%nat /\ us_order h = [] /\ us_conns h 0 = Some v /\ vn_open v = true.
Proof. exact connection_survives. Qed.
Print Assumptions C84_connection_refuted.

(** Otherwise, when the posted closures have run, all connections are closed, no other is
    accepted, and no session is consulted nor anything sent. *)
Theorem C84_shutdown_partial : forall {W : Type} (on_request : N -> W -> request -> W * expected response * list api) (on_shutdown : N -> W -> W * list api)
  pol max w0 es h m, server_history on_request on_shutdown pol max w0 es h m -> In (UApi ApiShutdown) es -> us_order h = [] ->
  (starts_of (listen_ins m) <= 1)%nat -> max < 2 ^ 32 - 1 ->
  (forall c v, us_conns h c = Some v -> vn_open v = false) /\
  forall es2 h2 m2, Forall typed_uevent es2 -> userver_run on_request on_shutdown pol h es2 = Ret (h2, m2) ->
    task_outs m2 = [] /\
    (forall c, ~ In (Accepting c) (listen_outs m2) /\ ~ In (Accepted c) (listen_outs m2) /\ ~ In (Serving c) (listen_outs m2)) /\
    forall c, Forall no_traffic (peer_outs c m2) /\ (us_conns h c = None -> us_conns h2 c = None).
Proof. exact @shutdown_done. Qed.
Print Assumptions C84_shutdown_partial.

(** If it was started, also the acceptor is closed. *)
Theorem C84_acceptor_partial : forall {W : Type} (on_request : N -> W -> request -> W * expected response * list api) (on_shutdown : N -> W -> W * list api)
  pol max w0 es h m, server_history on_request on_shutdown pol max w0 es h m -> In (UApi ApiShutdown) es -> us_order h = [] ->
  starts_of (listen_ins m) <> 0%nat -> In ShutDown (listen_outs m).
Proof. exact @acceptor_closes. Qed.
Print Assumptions C84_acceptor_partial.

Example C84_case : final us_order 4 stopped = Some [] /\ starts_of (listen_ins (marks 4 stopped)) = 1%nat /\
  final (fun h => option_map vn_open (us_conns h 0%nat)) 4 stopped = Some (Some false) /\ In ShutDown (listen_outs (marks 4 stopped)).
Proof. vm_compute. repeat split; tauto. Qed.

(** ** C85: no undefined behaviour

    Refuted by two requests that arrive together: the second response replaces the buffer
    from which the first is being transmitted. *)
Theorem C85_undefined_refuted : exists es h m e, server_history (demo 1) demo_shutdown AllOrNothing 4 0%nat es h m /\ typed_uevent e /\
  userver_step (demo 1) demo_shutdown AllOrNothing h e = UB.
Proof. exact pipelining_undefined. Qed.
Print Assumptions C85_undefined_refuted.

(** There are two causes: reading a buffer that was replaced, and dropping the oldest
    connection of an empty list. *)
Theorem C85_causes_partial : forall {W : Type} (on_request : N -> W -> request -> W * expected response * list api) (on_shutdown : N -> W -> W * list api)
  pol, well_typed on_request -> forall max w0 es h m e, server_history on_request on_shutdown pol max w0 es h m -> typed_uevent e ->
  userver_step on_request on_shutdown pol h e = UB ->
  (exists c ok buf, e = UAccept c ok buf /\ aserver_step (us_listener h) (AAccept c ok) = UB) \/
  (exists c w n v, e = UTransfer c w n /\ us_conns h c = Some v /\ vconn_step v (VTransfer w n) = UB).
Proof. exact @undefined_causes. Qed.
Print Assumptions C85_causes_partial.

(** Neither occurs if the channel is started once and every response is written before the
    next one of its connection is sent. *)
Theorem C85_defined_partial : forall {W : Type} (on_request : N -> W -> request -> W * expected response * list api) (on_shutdown : N -> W -> W * list api)
  pol, well_typed on_request -> forall max w0 es h m e, server_history on_request on_shutdown pol max w0 es h m -> typed_uevent e ->
  (starts_of (listen_ins m) <= 1)%nat -> max < 2 ^ 32 - 1 -> (forall c, valways vwrites_settled sconn_init (peer_ins c m)) ->
  exists h' m', userver_step on_request on_shutdown pol h e = Ret (h', m').
Proof. exact @server_defined. Qed.
Print Assumptions C85_defined_partial.

Example C85_case : runs 4 two_clients = true /\ starts_of (listen_ins (marks 4 two_clients)) = 1%nat /\
  peer_ins 0 (marks 4 two_clients) = [VStart; VRead 0 (RData (firstn 5 (read_frame 1 5))); VRead 1 (RData (skipn 5 (read_frame 1 5)));
    VSend (frame_bytes 1 5 [3; 2; 0; 7]); VTransfer 0 11; VWritten 0 true] /\
  valways vwrites_settled sconn_init [VStart; VRead 0 (RData (firstn 5 (read_frame 1 5))); VRead 1 (RData (skipn 5 (read_frame 1 5)));
    VSend (frame_bytes 1 5 [3; 2; 0; 7]); VTransfer 0 11; VWritten 0 true].
Proof. split; [vm_compute; reflexivity|]. split; [vm_compute; reflexivity|]. split; [vm_compute; reflexivity|]. settle. Qed.

(** ** C86: a connection that fails is closed

    When the posted closures have run, the socket of a connection whose failure was
    reported is closed. *)
Theorem C86_failed : forall {W : Type} (on_request : N -> W -> request -> W * expected response * list api) (on_shutdown : N -> W -> W * list api)
  pol max w0 es h m c, server_history on_request on_shutdown pol max w0 es h m -> us_order h = [] -> In VFailed (peer_outs c m) ->
  exists v, us_conns h c = Some v /\ vn_open v = false /\ In VSocketClosed (peer_outs c m).
Proof. exact @failed_closes. Qed.
Print Assumptions C86_failed.

Example C86_case : final us_order 4 two_clients = Some [] /\ In VFailed (peer_outs 1 (marks 4 two_clients)) /\
  final (fun h => option_map vn_open (us_conns h 1%nat)) 4 two_clients = Some (Some false).
Proof. vm_compute. repeat split; tauto. Qed.

(** ** C87: there are never more open connections than allowed

    Refuted if the channel is started twice: with a maximum of one, two stay open. *)
Theorem C87_limit_refuted : exists es h m v1 v2, server_history (demo 1) demo_shutdown AllOrNothing 1 0%nat es h m /\
  times is_start es = 2%nat /\ us_order h = [] /\ us_conns h 1 = Some v1 /\ vn_open v1 = true /\ us_conns h 2 = Some v2 /\ vn_open v2 = true.
Proof. exact more_than_max. Qed.
Print Assumptions C87_limit_refuted.

(** When the posted closures of a server that was started once have run, there are at most [max]. *)
Theorem C87_limit_partial : forall {W : Type} (on_request : N -> W -> request -> W * expected response * list api) (on_shutdown : N -> W -> W * list api)
  pol max w0 es h m l, server_history on_request on_shutdown pol max w0 es h m -> us_order h = [] -> (starts_of (listen_ins m) <= 1)%nat -> max < 2 ^ 32 - 1 ->
  NoDup l -> (forall c, In c l -> exists v, us_conns h c = Some v /\ vn_open v = true) -> N.of_nat (List.length l) <= max.
Proof. exact @few_open. Qed.
Print Assumptions C87_limit_partial.

(** The server is started no more often than the application asks. *)
Theorem C87_starts_partial : forall {W : Type} (on_request : N -> W -> request -> W * expected response * list api) (on_shutdown : N -> W -> W * list api),
  sessions_do_not_start on_request on_shutdown -> forall pol max w0 es h m, server_history on_request on_shutdown pol max w0 es h m ->
  (starts_of (listen_ins m) <= times is_start es)%nat.
Proof. exact @starts_bounded. Qed.
Print Assumptions C87_starts_partial.

Example C87_case : sessions_do_not_start (demo 1) demo_shutdown /\
  final us_order 1 (connected ++ [UAccept 1 true fresh; URun; URun]) = Some [] /\
  final (fun h => map (fun c => option_map vn_open (us_conns h c)) [0; 1]%nat) 1 (connected ++ [UAccept 1 true fresh; URun; URun]) = Some [Some false; Some true].
Proof.
  split; [split; [intros x w r w' a calls E; injection E as <- <- <-|intros x w w' calls E; injection E as <- <-]; intros []|].
  vm_compute. split; reflexivity.
Qed.

(** ** C88: a client that waits for each answer is served completely

    From a connection that was just accepted, and whatever else happened before: every
    request, in whatever chunks it arrives, is answered as C25 says, and the bytes on the
    wire are exactly the answers. *)
Theorem C88_conversation : forall {W : Type} (on_request : N -> W -> request -> W * expected response * list api) (on_shutdown : N -> W -> W * list api)
  pol, well_typed on_request -> forall max w0 es h m c frames css, server_history on_request on_shutdown pol max w0 es h m ->
  peer_ins c m = [VStart] -> sv_shutdown (us_channel h) = false -> Forall frame_ok frames ->
  Forall2 (fun f cs => Forall bytes cs /\ List.concat cs = let '(tx, unit, pdu) := f in frame_bytes tx unit pdu) frames css ->
  exists ls h' m' w' os, List.length ls = List.length css /\
    userver_run on_request on_shutdown pol h (conversation c 0 0 (combine css ls)) = Ret (h', m') /\
    serves_all on_request (registry (us_channel h)) (N.of_nat c) (map frame_message frames) (us_user h) w' os /\
    us_user h' = w' /\ task_outs m' = os /\ map snd (took (vwrites (peer_outs c m'))) = map response_data (sends_on (N.of_nat c) os) /\
    times is_vfailed (peer_outs c m') = 0%nat /\ ~ In VSocketClosed (peer_outs c m').
Proof. exact @conversation_served. Qed.
Print Assumptions C88_conversation.

Example C88_case : peer_ins 0 (marks 4 connected) = [VStart] /\ final (fun h => sv_shutdown (us_channel h)) 4 connected = Some false /\
  let talk := conversation 0 0 0 [([firstn 5 (read_frame 1 5); skipn 5 (read_frame 1 5)], Some 11%nat); ([read_frame 2 6], None); ([frame_bytes 3 5 [99]], Some 9%nat)] in
  took (vwrites (peer_outs 0 (marks 4 (connected ++ talk)))) = [(0%nat, frame_bytes 1 5 [3; 2; 0; 7]); (1%nat, frame_bytes 3 5 [227; 1])].
Proof. vm_compute. repeat split; reflexivity. Qed.

(** ** C89: the strand always becomes idle

    Whatever happened, when the closures that were posted, and those that they post, have
    run, there are no more. *)
Theorem C89_drains : forall {W : Type} (on_request : N -> W -> request -> W * expected response * list api) (on_shutdown : N -> W -> W * list api)
  pol max w0 es h m, server_history on_request on_shutdown pol max w0 es h m ->
  exists n h' m', server_history on_request on_shutdown pol max w0 (es ++ repeat URun n) h' (m ++ m') /\ us_order h' = [].
Proof. exact @strand_drains. Qed.
Print Assumptions C89_drains.

Example C89_case : final us_order 4 (connected ++ [UApi ApiShutdown]) = Some [TaskTurn] /\
  final us_order 4 (connected ++ [UApi ApiShutdown; URun]) = Some [ListenTurn] /\ final us_order 4 stopped = Some [].
Proof. vm_compute. repeat split; reflexivity. Qed.
