(** The properties of a client channel over its TCP connection. *)
From Verif Require Import Prelude Ser4 Messages Mbap SpecPdu SpecMbap Client SpecClient SystemCases SessionCases
  AsyncWrite ClientConn SpecConn ConnCases ClientTcp SpecClientTcp TcpWire TcpLemmas TcpBehaviour TcpShutdown TcpAnswer TcpNetwork TcpResults TcpCases.

(** ** C68: the two parts work together as they do alone

    Whatever happens to both is, for each of them, one of its own histories; so all
    properties of the channel (C32-C42) and of the connection (C43-C46, C56-C58) hold. *)
Theorem C68_channel : forall {W : Type} (handler : nat -> W -> expected (list N) -> W * list capi) pol es s l, tcp_history handler pol es s l ->
  history handler pol (channel_ins l) (tc_channel s) (tc_user s) (channel_outs l).
Proof. exact @channel_view. Qed.
Print Assumptions C68_channel.

Theorem C68_connection : forall {W : Type} (handler : nat -> W -> expected (list N) -> W * list capi) pol es s l, tcp_history handler pol es s l ->
  conn_run cconn_init (conn_ins l) = Ret (tc_conn s, conn_outs l).
Proof. exact @conn_view. Qed.
Print Assumptions C68_connection.

(** Frames, callbacks and the shutdown are passed on at once, unchanged, and there are no others. *)
Theorem C68_wiring : forall {W : Type} (handler : nat -> W -> expected (list N) -> W * list capi) pol es s l, tcp_history handler pol es s l ->
  followed sends_frame is_sent l /\ preceded sends_frame is_nsend l /\
  followed calls_back is_callback l /\ preceded calls_back is_called_back l /\
  followed shuts_down is_tcp_shutdown l /\ preceded shuts_down is_nshutdown l.
Proof. exact @history_wired. Qed.
Print Assumptions C68_wiring.

(** What the environment provides reaches the part it is for: the event itself, the
    results of system calls in the order of the calls, and the text of an error. *)
Theorem C68_events : forall {W : Type} (handler : nat -> W -> expected (list N) -> W * list capi) pol s e s' l,
  tcp_step handler pol s e = Ret (s', l) ->
  used_setups l = firstn (List.length (used_setups l)) (given_setups e ++ repeat all_succeed (List.length (used_setups l))) /\
  incl (error_texts l) [given_text e] /\
  (l = [] /\ (exists xs, e = TRun xs) /\ tc_order s = [] \/ exists m l', l = m :: l' /\ happens e m).
Proof. exact @step_given. Qed.
Print Assumptions C68_events.

Example C68_case : defined passive shut_down = true /\
  conn_ins (snd (played_tcp passive shut_down)) =
    [NSend (frame_bytes 0 1 [3; 0; 0; 0; 1]) setup_ok; NResolved true; NConnected 1 true; NTransfer 0 12; NWritten 0 true;
     NRead 0 (RData (reply 0)); NShutdown; NRun] /\
  results (channel_outs (snd (played_tcp passive shut_down))) = [(0%nat, Value [3; 2; 0; 7])].
Proof. vm_compute. repeat split; reflexivity. Qed.

Example C68_events_case :
  used_setups (snd (played_tcp passive (broken ++ [TRead 0 (RData (reply 0)) "" [{| su_address := true; su_open := false; su_bind := true |}]]))) =
    [setup_ok; {| su_address := true; su_open := false; su_bind := true |}] /\
  error_texts (snd (played_tcp passive unresolved)) = ["host not found"%string].
Proof. vm_compute. repeat split; reflexivity. Qed.

(** ** C69: only the latest request is ever transmitted *)
Theorem C69_latest : forall {W : Type} (handler : nat -> W -> expected (list N) -> W * list capi) pol es s l a w d b, tcp_history handler pol es s l ->
  l = a ++ ConnOut (Write (WStarted w d)) :: b ->
  exists a1 i u t f a2, a = a1 ++ ChannelOut (Sent i u t f) :: a2 /\ sent_ids (channel_outs a2) = [] /\ d = frame_data f.
Proof. exact @transmitted_latest. Qed.
Print Assumptions C69_latest.

Theorem C69_order : forall {W : Type} (handler : nat -> W -> expected (list N) -> W * list capi) pol es s l a w d b w' d' c, tcp_history handler pol es s l ->
  l = a ++ ConnOut (Write (WStarted w d)) :: b ++ ConnOut (Write (WStarted w' d')) :: c ->
  exists i u t f j u' t' f', In (ChannelOut (Sent i u t f)) a /\ d = frame_data f /\
    In (ChannelOut (Sent j u' t' f')) (a ++ b) /\ d' = frame_data f' /\ (i <= j)%nat.
Proof. exact @transmitted_in_order. Qed.
Print Assumptions C69_order.

(** If the requests are made as the sessions make them, what is transmitted is a
    well-formed frame of one of them. *)
Theorem C69_frames : forall {W : Type} (handler : nat -> W -> expected (list N) -> W * list capi) pol es s l w d, tcp_history handler pol es s l ->
  (forall i k, In (ChannelOut (Called i k)) l -> exists r, k_msg k = request_message r /\ typed_request r /\ u8 (k_unit k)) ->
  In (ConnOut (Write (WStarted w d))) l ->
  exists i k r t pdu, In (ChannelOut (Called i k)) l /\ k_msg k = request_message r /\ request_pdu r pdu /\ d = frame_bytes t (k_unit k) pdu.
Proof. exact @transmitted_frame. Qed.
Print Assumptions C69_frames.

Example C69_case : defined passive cut_off = true /\
  started (writes (conn_outs (snd (played_tcp passive cut_off)))) =
    [(0%nat, frame_bytes 0 1 [3; 0; 0; 0; 1]); (1%nat, frame_bytes 1 1 [3; 0; 0; 0; 1])] /\
  sent_ids (channel_outs (snd (played_tcp passive cut_off))) = [0%nat; 1%nat].
Proof. vm_compute. repeat split; reflexivity. Qed.

(** ** C70: a request that was completed is not transmitted any more

    Refuted by a time-out before the connection is made: the frame is transmitted when it is. *)
Theorem C70_completed_transmitted_refuted : exists es s l a w i u t f b, tcp_history passive AllOrNothing es s l /\
  l = a ++ ConnOut (Write (WStarted w (frame_data f))) :: b /\ sent_ids (channel_outs l) = [i] /\
  In (ChannelOut (Sent i u t f)) a /\ In (ChannelOut (Completed i (Error ETimeout))) a.
Proof. exact completed_transmitted. Qed.
Print Assumptions C70_completed_transmitted_refuted.

(** This is the only way: a transmission begins when a request that was not completed is
    sent, or when a connection has just been made. *)
Theorem C70_transmission_begins_partial : forall {W : Type} (handler : nat -> W -> expected (list N) -> W * list capi) pol es s l a w d b,
  tcp_history handler pol es s l -> l = a ++ ConnOut (Write (WStarted w d)) :: b ->
  (exists a' i u t f x, a = a' ++ [ChannelOut (Sent i u t f); ConnIn (NSend (frame_data f) x)] /\ d = frame_data f /\
     ~ In i (completed_ids (channel_outs a))) \/
  (exists a' g, a = a' ++ [ConnIn (NConnected g true); ConnOut (Established g)]).
Proof. exact @transmission_begins. Qed.
Print Assumptions C70_transmission_begins_partial.

Example C70_case : let es := served ++ [TRead 1 (RData (skipn 9 (reply 0))) "" []] ++ connecting in defined passive es = true /\
  results (channel_outs (snd (played_tcp passive es))) = [(0%nat, Value [3; 2; 0; 7])] /\
  map fst (started (writes (conn_outs (snd (played_tcp passive es))))) = [0%nat; 1%nat].
Proof. vm_compute. repeat split; reflexivity. Qed.

(** ** C71: no undefined behaviour

    Refuted by a time-out while a frame is being written: the next request replaces the
    buffer that the transport reads. *)
Theorem C71_undefined_refuted : Forall typed_tevent overtaken /\ tcp_run passive AllOrNothing (tclient_init zeros false) overtaken = UB.
Proof. exact time_out_while_writing. Qed.
Print Assumptions C71_undefined_refuted.

(** Nothing else is undefined; and nothing is if frames are sent only when earlier ones
    have been written. *)
Theorem C71_source_partial : forall {W : Type} (handler : nat -> W -> expected (list N) -> W * list capi) pol es s l e,
  tcp_history handler pol es s l -> typed_tevent e -> tcp_step handler pol s e = UB ->
  exists w n, e = TTransfer w n /\ conn_step (tc_conn s) (NTransfer w n) = UB.
Proof. exact @undefined_source. Qed.
Print Assumptions C71_source_partial.

Theorem C71_settled_partial : forall {W : Type} (handler : nat -> W -> expected (list N) -> W * list capi) pol es s l e,
  tcp_history handler pol es s l -> typed_tevent e -> always writes_settled cconn_init (conn_ins l) ->
  exists s' l', tcp_step handler pol s e = Ret (s', l').
Proof. exact @settled_defined. Qed.
Print Assumptions C71_settled_partial.

Example C71_case : conn_ins (snd (played_tcp passive served)) =
    [NSend (frame_bytes 0 1 [3; 0; 0; 0; 1]) setup_ok; NResolved true; NConnected 1 true; NTransfer 0 12; NWritten 0 true;
     NRead 0 (RData (firstn 9 (reply 0)))] /\
  always writes_settled cconn_init
    [NSend (frame_bytes 0 1 [3; 0; 0; 0; 1]) setup_ok; NResolved true; NConnected 1 true; NTransfer 0 12; NWritten 0 true;
     NRead 0 (RData (firstn 9 (reply 0)))].
Proof. split; [vm_compute; reflexivity|settle]. Qed.

(** ** C72: losing the connection fails the outstanding requests at once

    Refuted by a peer that closes the connection: nobody is told. *)
Theorem C72_closed_by_peer_refuted : exists es s l, tcp_history passive AllOrNothing es s l /\
  In (ConnOut (PeerClosed 1)) l /\ In (ConnOut (SocketClosed 1)) l /\ tc_order s = [] /\
  called_ids (channel_outs l) = [0%nat] /\ completed_ids (channel_outs l) = [].
Proof. exact close_not_reported. Qed.
Print Assumptions C72_closed_by_peer_refuted.

(** If resolving, connecting, reading or writing fails, every request that was made and
    whose closure has run is completed with the error in the same turn. *)
Theorem C72_failure_partial : forall {W : Type} (handler : nat -> W -> expected (list N) -> W * list capi) pol es s l e msg s' l' i,
  tcp_history handler pol es s l -> ~ In (ChannelOut TcpShutdown) l -> fails (tc_conn s) e msg ->
  tcp_step handler pol s e = Ret (s', l') -> In i (called_ids (channel_outs l)) -> ~ In i (completed_ids (channel_outs l)) ->
  In (ChannelOut (Completed i (Error (EConnection msg)))) l' \/ In i (qids (cc_queue (tc_channel s))).
Proof. exact @failure_completes. Qed.
Print Assumptions C72_failure_partial.

Example C72_case : let es := broken ++ [TRead 0 RError "reset" []] in defined passive es = true /\
  fails (tc_conn (fst (played_tcp passive broken))) (TRead 0 RError "reset" []) "reset" /\
  cc_queue (tc_channel (fst (played_tcp passive broken))) = [] /\
  results (channel_outs (snd (played_tcp passive broken))) = [] /\
  results (channel_outs (snd (played_tcp passive es))) = [(1%nat, Error (EConnection "reset")); (0%nat, Error (EConnection "reset"))].
Proof. split; [vm_compute; reflexivity|]. split; [split; [reflexivity|vm_compute; discriminate]|]. vm_compute. repeat split; reflexivity. Qed.

(** ** C73: every request is completed exactly once, whatever the connection does *)
Theorem C73_exactly_once : forall {W : Type} (handler : nat -> W -> expected (list N) -> W * list capi) pol es s l i,
  no_shutdown_handler handler -> ~ In (TApi Shutdown) es -> tcp_history handler pol es s l ->
  tc_order s = [] -> cc_armed (tc_channel s) = [] -> cc_expired (tc_channel s) = [] ->
  In i (called_ids (channel_outs l)) -> count_occ Nat.eq_dec (completed_ids (channel_outs l)) i = 1%nat.
Proof. exact @completed_exactly_once. Qed.
Print Assumptions C73_exactly_once.

Example C73_case : let es := broken ++ [TRead 0 RError "reset" []; TRun []] in defined passive es = true /\
  tc_order (fst (played_tcp passive es)) = [] /\ cc_armed (tc_channel (fst (played_tcp passive es))) = [] /\
  cc_expired (tc_channel (fst (played_tcp passive es))) = [] /\ called_ids (channel_outs (snd (played_tcp passive es))) = [0%nat; 1%nat] /\
  completed_ids (channel_outs (snd (played_tcp passive es))) = [1%nat; 0%nat].
Proof. vm_compute. repeat split; reflexivity. Qed.

(** ** C74: silence after the shutdown

    When the closures that were posted up to the shutdown ([es1]), and those that these
    posted ([es2]), have run. *)
Theorem C74_silent : forall {W : Type} (handler : nat -> W -> expected (list N) -> W * list capi) pol es s l es1 s1 l1 es2 s2 l2 es3 s3 l3,
  tcp_history handler pol es s l -> In (TApi Shutdown) es -> Forall typed_tevent (es1 ++ es2) ->
  tcp_run handler pol s es1 = Ret (s1, l1) -> (List.length (tc_order s) <= truns es1)%nat ->
  tcp_run handler pol s1 es2 = Ret (s2, l2) -> (List.length (tc_order s1) <= truns es2)%nat ->
  tcp_run handler pol s2 es3 = Ret (s3, l3) ->
  conn_outs l3 = [] /\ Forall SpecClient.quiet (channel_outs (l2 ++ l3)).
Proof. exact @silent_after. Qed.
Print Assumptions C74_silent.

Example C74_case : let es := served ++ [TApi Shutdown] in
  tc_order (fst (played_tcp passive es)) = [ChannelTurn] /\ tc_order (fst (played_tcp passive (es ++ [TRun []]))) = [ConnTurn] /\
  let es' := es ++ [TRun []; TRun []; TRead 1 (RData (skipn 9 (reply 0))) "" []; TExpire 0; TFire 0 []] ++ connecting in defined passive es' = true /\
  results (channel_outs (snd (played_tcp passive es'))) = [] /\
  conn_outs (snd (played_tcp passive es')) = conn_outs (snd (played_tcp passive es)).
Proof. vm_compute. repeat split; reflexivity. Qed.

(** ** C75: shutdown closes the TCP connection

    Refuted: after a request was answered and the channel shut down, the socket is open,
    and no event closes it (the destructor does). *)
Theorem C75_socket_refuted : exists es s l, tcp_history passive AllOrNothing es s l /\ In (TApi Shutdown) es /\ tc_order s = [] /\
  results (channel_outs l) = [(0%nat, Value [3; 2; 0; 7])] /\ cn_shutdown (tc_conn s) = true /\
  forall es' s' l', tcp_run passive AllOrNothing s es' = Ret (s', l') -> cn_socket (tc_conn s') = Some 1%nat /\ conn_outs l' = [].
Proof. exact socket_not_closed. Qed.
Print Assumptions C75_socket_refuted.

(** What is left of it: the socket is never used again, and keeps the state it had. *)
Theorem C75_socket_partial : forall {W : Type} (handler : nat -> W -> expected (list N) -> W * list capi) pol es s l es' s' l',
  tcp_history handler pol es s l -> cn_shutdown (tc_conn s) = true -> tcp_run handler pol s es' = Ret (s', l') ->
  cn_socket (tc_conn s') = cn_socket (tc_conn s) /\ conn_outs l' = [].
Proof. exact @socket_stays. Qed.
Print Assumptions C75_socket_partial.

Example C75_case : cn_shutdown (tc_conn (fst (played_tcp passive shut_down))) = true /\ cn_socket (tc_conn (fst (played_tcp passive shut_down))) = Some 1%nat.
Proof. vm_compute. split; reflexivity. Qed.

(** ** C76: a response received completely on its connection is reported

    Refuted by a connection that the peer closed within a response: the complete response
    on the next connection is lost. *)
Theorem C76_response_refuted : exists es s l a b f, tcp_history passive AllOrNothing es s l /\ always reads_settled cconn_init (conn_ins l) /\
  conn_outs l = a ++ Established 3 :: b /\ ~ In Failed (conn_outs l) /\ received_data b = [frame_bytes 1 1 [3; 2; 0; 7]] /\
  In (ChannelOut (Sent 1 1 1 f)) l /\ results (channel_outs l) = [(0%nat, Error ETimeout)].
Proof. exact whole_response_lost. Qed.
Print Assumptions C76_response_refuted.

(** If no peer closes its connection gracefully and new connections are set up only when
    the reads of the old one have ended: a read that completes the response to the
    outstanding request completes the request, whatever earlier connections delivered. *)
Theorem C76_response_partial : forall {W : Type} (handler : nat -> W -> expected (list N) -> W * list capi) pol es s l a g b r chunk msg xs s' l' i u t v before pdu after,
  tcp_history handler pol es s l -> always reads_settled cconn_init (conn_ins l) -> (forall g, ~ In (ConnOut (PeerClosed g)) l) ->
  conn_outs l = a ++ Established g :: b -> ~ In Failed b ->
  ~ In (ChannelOut TcpShutdown) l -> In (ChannelOut (Sent i u t v)) l -> ~ In i (completed_ids (channel_outs l)) ->
  bytes chunk -> Forall typed_item before -> 1 <= size pdu <= 253 ->
  List.concat (received_data b) ++ chunk = flat_map item_bytes before ++ frame_bytes t u pdu ++ after -> size after < size chunk ->
  (forall it, In it before -> i_tx it = t -> i_unit it = u -> deliverable it = false) ->
  tcp_step handler pol s (TRead r (RData chunk) msg xs) = Ret (s', l') -> (exists g', In (ConnOut (Received g' chunk)) l') ->
  In (ChannelOut (Completed i (Value pdu))) l'.
Proof. exact @connection_answers. Qed.
Print Assumptions C76_response_partial.

Example C76_case : let es := served ++ [TRead 1 RError "reset" []; TRun []] ++ connecting ++ [TResolved true ""; TConnected 3 true ""] ++ written 1 ++
                             [TRead 2 (RData (firstn 4 (reply 1))) "" []] in
  let es' := es ++ [TRead 3 (RData (skipn 4 (reply 1))) "" []] in defined passive es' = true /\
  received_data (conn_outs (snd (played_tcp passive es'))) = [firstn 9 (reply 0); firstn 4 (reply 1); skipn 4 (reply 1)] /\
  results (channel_outs (snd (played_tcp passive es))) = [(0%nat, Error (EConnection "reset"))] /\
  results (channel_outs (snd (played_tcp passive es'))) = [(0%nat, Error (EConnection "reset")); (1%nat, Value [3; 2; 0; 7])].
Proof. vm_compute. repeat split; reflexivity. Qed.

(** ** C77: a request made in reaction to a failure reconnects

    Refuted by a name that cannot be resolved once: nothing ever connects again. *)
Theorem C77_retry_refuted : exists es s l e msg s1 l1, no_shutdown_handler repeats /\ ~ In (TApi Shutdown) es /\
  tcp_history repeats AllOrNothing es s l /\ tc_order s = [] /\ fails (tc_conn s) e msg /\ tcp_step repeats AllOrNothing s e = Ret (s1, l1) /\
  cn_resolves (tc_conn s1) = 0%nat /\ cn_connects (tc_conn s1) = [] /\ In (ChannelOut (Called 1 read_call)) l1 /\ im_valid (k_msg read_call) = true /\
  forall es' s2 l2, tcp_run repeats AllOrNothing s1 es' = Ret (s2, l2) -> Forall (fun o => o = SetupFailed) (conn_outs l2).
Proof. exact retry_after_resolve_failure. Qed.
Print Assumptions C77_retry_refuted.

(** After any other failure, if nothing else was going on, a request made by a handler in
    reaction to it leads to a new attempt when the posted closures run, because the
    connection posts its closing before it calls the channel. *)
Theorem C77_retry_partial : forall {W : Type} (handler : nat -> W -> expected (list N) -> W * list capi) pol es s l e msg s1 l1 i k,
  no_shutdown_handler handler -> ~ In (TApi Shutdown) es -> tcp_history handler pol es s l ->
  tc_order s = [] -> fails (tc_conn s) e msg -> (forall ok m, e <> TResolved ok m) -> typed_tevent e -> tcp_step handler pol s e = Ret (s1, l1) ->
  cn_resolves (tc_conn s1) = 0%nat -> cn_connects (tc_conn s1) = [] ->
  In (ChannelOut (Called i k)) l1 -> im_valid (k_msg k) = true ->
  exists s2 l2, tcp_run handler pol s1 (repeat (TRun []) (List.length (tc_order s1))) = Ret (s2, l2) /\ In (ConnOut Attempt) l2.
Proof. exact @failure_reconnects. Qed.
Print Assumptions C77_retry_partial.

Example C77_case : let es := connecting ++ connected ++ written 0 in
  tc_order (fst (played_tcp repeats es)) = [] /\
  fails (tc_conn (fst (played_tcp repeats es))) (TRead 0 RError "reset" []) "reset" /\
  let es1 := es ++ [TRead 0 RError "reset" []] in defined repeats es1 = true /\
  tc_order (fst (played_tcp repeats es1)) = [ConnTurn; ChannelTurn] /\ called_ids (channel_outs (snd (played_tcp repeats es1))) = [0%nat; 1%nat] /\
  count is_attempt (conn_outs (snd (played_tcp repeats es1))) = 1%nat /\
  count is_attempt (conn_outs (snd (played_tcp repeats (es1 ++ [TRun []; TRun []])))) = 2%nat.
Proof. split; [vm_compute; reflexivity|]. split; [split; [reflexivity|vm_compute; discriminate]|]. vm_compute. repeat split; reflexivity. Qed.

(** ** C78: on a working network every request gets its response *)
Theorem C78_working_network : forall {W : Type} (handler : nat -> W -> expected (list N) -> W * list capi) pol, (forall i w r, snd (handler i w r) = []) ->
  forall buf (w0 : W) xs, good_buf buf -> all_answered 0 xs ->
  exists s l, tcp_run handler pol (tclient_init buf w0) (rounds 0 0 xs) = Ret (s, l) /\ Forall typed_tevent (rounds 0 0 xs) /\
    results (channel_outs l) = replies 0 xs /\ took (writes (conn_outs l)) = request_frames_of 0 xs /\
    (count is_attempt (conn_outs l) <= 1)%nat /\ Forall harmless (conn_outs l).
Proof. exact @working_network. Qed.
Print Assumptions C78_working_network.

Example C78_case : all_answered 0 exchanges /\ List.length (rounds 0 0 exchanges) = 13%nat /\
  results (channel_outs (snd (played_tcp passive (rounds 0 0 exchanges)))) = [(0%nat, Value [3; 2; 0; 7]); (1%nat, Value [3; 2; 0; 7])].
Proof. split; [exact exchanges_answered|]. vm_compute. split; reflexivity. Qed.
