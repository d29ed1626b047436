(** The properties of the TCP connections, client and server side. *)
From Verif Require Import Prelude Ser4 Messages Mbap SpecPdu SpecMbap Server SpecServer ServerLemmas AsyncWrite ClientConn ServerConn SpecConn.
From Verif Require Import WriteFacts ConnFacts ConnRecover ConnStream ServerConnFacts ServerConnMore ConnCases.

(** ** C43: a lost connection cannot corrupt later responses

    Refuted by a peer that closes the connection inside a response, even if
    everything else goes well: the parser keeps the piece, and the complete response
    received on the next connection is not delivered. *)
Theorem C43_lost_connection_refuted : exists es s os a g b,
  conn_run cconn_init es = Ret (s, os) /\ always reads_settled cconn_init es /\
  always writes_settled cconn_init es /\ always whole_transfers cconn_init es /\
  os = a ++ Established g :: b /\ received_data b = [frame_bytes 1 1 [3; 2; 0; 9]] /\
  forall pol, exists st outs, mbap_run pol (mbap_new (repeat 0 260)) (parser_ops os) = Ret (st, outs) /\
    outs = [{| mb_unit := 1; mb_tx := 0; mb_data := [3; 2; 0; 1] |}] /\
    ~ In {| mb_unit := 1; mb_tx := 1; mb_data := [3; 2; 0; 9] |} outs.
Proof. exact (ex_intro _ _ interrupted_corrupts). Qed.
Print Assumptions C43_lost_connection_refuted.

(** If no peer closes its connection gracefully, and a new connection is set up only
    when the reads of the old one have ended: between bytes of two connections the
    parser is reset. *)
Theorem C43_connections_separated_partial : forall es s os,
  conn_run cconn_init es = Ret (s, os) -> always reads_settled cconn_init es -> (forall g, ~ In (PeerClosed g) os) ->
  forall a g d m g' d' b, os = a ++ Received g d :: m ++ Received g' d' :: b -> g' <> g -> In Failed m.
Proof. exact connections_separated. Qed.
Print Assumptions C43_connections_separated_partial.

(** Therefore what a connection delivers, up to the next failure, is decoded as if
    it were the first one. *)
Theorem C43_fresh_decoding_partial : forall es s os a g b c pol buf items tail,
  conn_run cconn_init es = Ret (s, os) -> always reads_settled cconn_init es -> (forall g, ~ In (PeerClosed g) os) ->
  os = a ++ Established g :: b ++ c -> ~ In Failed b ->
  good_buf buf -> Forall bytes (received_data os) -> framed (List.concat (received_data b)) items tail -> no_long items ->
  exists st st' outs,
    mbap_run pol (mbap_new buf) (parser_ops a) = Ret (st, outs) /\
    mbap_run pol (mbap_new buf) (parser_ops (a ++ Established g :: b))
      = Ret (st', outs ++ map item_message (filter deliverable (settled items tail))).
Proof. exact fresh_decoding. Qed.
Print Assumptions C43_fresh_decoding_partial.

Example C43_case :
  let es := [NSend [1] setup_ok; NResolved true; NConnected 1 true; NTransfer 0 1; NWritten 0 true;
             NRead 0 (RData cut_response); NRead 1 RError; NRun;
             NSend [2] setup_ok; NResolved true; NConnected 3 true; NTransfer 1 1; NWritten 1 true;
             NRead 2 (RData (frame_bytes 1 1 [3; 2; 0; 9]))] in
  exists s os, conn_run cconn_init es = Ret (s, os) /\ always reads_settled cconn_init es /\ (forall g, ~ In (PeerClosed g) os) /\
  os = [Attempt; Established 1; Write (WStarted 0 [1]); Write (WTook 0 [1]); Write (WDone 0); WriteDone;
        Received 1 cut_response; Failed; SocketClosed 1; Attempt; Established 3; Write (WStarted 1 [2]);
        Write (WTook 1 [2]); Write (WDone 1); WriteDone; Received 3 (frame_bytes 1 1 [3; 2; 0; 9])].
Proof.
  do 2 eexists. split; [vm_compute; reflexivity|]. split; [settle|]. split; [intro g; cbn; intuition discriminate|reflexivity].
Qed.

(** ** C44: the client can always reconnect

    Refuted three times.  After one failure to resolve the name, or to bind the
    local address, no later event makes the client try again; requests are
    swallowed.  A request made between a connect error and the posted closing is
    lost, too. *)
Theorem C44_resolve_failure_refuted : exists es s os,
  conn_run cconn_init es = Ret (s, os) /\ os = [Attempt; Failed] /\
  forall es', exists s' os', conn_run s es' = Ret (s', os') /\ Forall (fun x => x = SetupFailed) os'.
Proof. exact resolve_failure_final. Qed.
Print Assumptions C44_resolve_failure_refuted.

Theorem C44_bind_failure_refuted : exists es s os,
  conn_run cconn_init es = Ret (s, os) /\ os = [SetupFailed] /\
  forall es', exists s' os', conn_run s es' = Ret (s', os') /\ Forall (fun x => x = SetupFailed) os'.
Proof. exact bind_failure_final. Qed.
Print Assumptions C44_bind_failure_refuted.

Theorem C44_request_in_window_refuted : exists es s os,
  conn_run cconn_init es = Ret (s, os) /\
  es = [NSend [1] setup_ok; NResolved true; NConnected 1 false; NSend [2] setup_ok; NRun] /\
  os = [Attempt; Failed; SocketClosed 1] /\
  cn_resolves s = 0%nat /\ cn_connects s = [] /\ cn_reads s = [] /\ wr_ops (cn_writer s) = [] /\ cn_queue s = [].
Proof. exact window_loses_request. Qed.
Print Assumptions C44_request_in_window_refuted.

(** After any other failure, or a graceful close, in any state with no attempt in
    progress: when the closures posted so far have run, whatever else happened, a
    new attempt was made already or the next request makes one (if the system calls
    succeed). *)
Theorem C44_reconnects_partial : forall s e s1 o1 es s2 o2 d,
  cn_shutdown s = false -> ~ In NDoShutdown (cn_queue s) ->
  conn_step s e = Ret (s1, o1) -> (In Failed o1 /\ (forall ok, e <> NResolved ok)) \/ (exists g, In (PeerClosed g) o1) ->
  cn_resolves s1 = 0%nat -> cn_connects s1 = [] ->
  Forall good_setup es -> ~ In NShutdown es -> (List.length (cn_queue s) < runs es)%nat ->
  conn_run s1 es = Ret (s2, o2) ->
  In Attempt o2 \/ exists s3, conn_step s2 (NSend d setup_ok) = Ret (s3, [Attempt]).
Proof. exact recovers. Qed.
Print Assumptions C44_reconnects_partial.

Example C44_case : exists s s1 o1 s2 o2,
  conn_run cconn_init [NSend [1] setup_ok; NResolved true; NConnected 1 true] = Ret (s, [Attempt; Established 1; Write (WStarted 0 [1])]) /\
  conn_step s (NRead 0 RError) = Ret (s1, o1) /\ In Failed o1 /\ cn_resolves s1 = 0%nat /\ cn_connects s1 = [] /\
  conn_run s1 [NSend [2] setup_ok; NWritten 0 false; NRun] = Ret (s2, o2) /\ ~ In Attempt o2.
Proof.
  do 5 eexists. split; [vm_compute; reflexivity|]. split; [vm_compute; reflexivity|]. split; [left; reflexivity|].
  split; [reflexivity|]. split; [reflexivity|]. split; [vm_compute; reflexivity|]. cbn. intuition discriminate.
Qed.

(** ** C45: in-flight write buffers stay alive

    Refuted on both sides.  On the client by a request made while the previous
    write is in progress (after a timeout), and by one made before its completion
    was noticed; on the server by two requests received together. *)
Theorem C45_client_refuted :
  conn_run cconn_init [NSend [1] setup_ok; NResolved true; NConnected 1 true; NSend [2] setup_ok; NTransfer 0 1] = UB /\
  conn_run cconn_init [NSend [1] setup_ok; NResolved true; NConnected 1 true; NTransfer 0 1; NSend [2] setup_ok;
                       NWritten 0 true; NTransfer 1 1] = UB.
Proof. exact (conj client_replaces_in_flight client_frees_in_flight). Qed.
Print Assumptions C45_client_refuted.

Theorem C45_server_refuted : exists s w s' w' os,
  server_run (demo 1) demo_shutdown Truncate server_init 0%nat [EApi (ApiAdd 5 1); ERun; EAccept 9 (repeat 0 260)] = Ret (s, w, []) /\
  server_step (demo 1) demo_shutdown Truncate s w (EReceive 9 (read_frame 1 5 ++ read_frame 2 5)) = Ret (s', w', os) /\
  map payload (sends_on 9 os) = [frame_bytes 1 5 [3; 2; 0; 7]; frame_bytes 2 5 [3; 2; 0; 7]] /\
  vconn_run sconn_init ([VStart; VRead 0 (RData (read_frame 1 5 ++ read_frame 2 5))] ++ map VSend (map payload (sends_on 9 os)) ++
                        [VTransfer 0 11]) = UB.
Proof. exact server_replaces_in_flight. Qed.
Print Assumptions C45_server_refuted.

(** If frames are sent only when earlier writes have completed, no freed buffer is
    ever used. *)
Theorem C45_client_partial : forall es, always writes_settled cconn_init es -> exists s os, conn_run cconn_init es = Ret (s, os).
Proof. exact client_buffers_alive. Qed.
Print Assumptions C45_client_partial.

Theorem C45_server_partial : forall es, valways vwrites_settled sconn_init es -> exists s os, vconn_run sconn_init es = Ret (s, os).
Proof. exact server_buffers_alive. Qed.
Print Assumptions C45_server_partial.

Example C45_case : always writes_settled cconn_init interrupted /\ valways vwrites_settled sconn_init vshort_write.
Proof. split; [unfold interrupted|unfold vshort_write]; settle. Qed.

(** ** C46: frames are transmitted completely

    Refuted: a send that transferred one byte counts as done. *)
Theorem C46_complete_transmission_refuted :
  (exists s os, conn_run cconn_init short_write = Ret (s, os) /\
     os = [Attempt; Established 1; Write (WStarted 0 [1; 2; 3]); Write (WTook 0 [1]); Write (WDone 0); WriteDone] /\
     always writes_settled cconn_init short_write /\ ~ complete_writes (writes os) /\
     wr_buffer (cn_writer s) = None /\ wr_ops (cn_writer s) = []) /\
  (exists s os, vconn_run sconn_init vshort_write = Ret (s, os) /\
     os = [VWrite (WStarted 0 [1; 2; 3]); VWrite (WTook 0 [1]); VWrite (WDone 0); VWriteDone] /\
     valways vwrites_settled sconn_init vshort_write /\ ~ complete_writes (vwrites os) /\
     wr_buffer (vn_writer s) = None /\ wr_ops (vn_writer s) = []).
Proof. exact (conj client_short_write server_short_write). Qed.
Print Assumptions C46_complete_transmission_refuted.

(** What completed was at least begun: a non-empty beginning of the frame was
    taken, once. *)
Theorem C46_client_prefix_partial : forall es s os, conn_run cconn_init es = Ret (s, os) -> sound_writes (writes os).
Proof. exact client_sound_writes. Qed.
Print Assumptions C46_client_prefix_partial.

Theorem C46_server_prefix_partial : forall es s os, vconn_run sconn_init es = Ret (s, os) -> sound_writes (vwrites os).
Proof. exact server_sound_writes. Qed.
Print Assumptions C46_server_prefix_partial.

(** On a transport that takes whole buffers, what completed was sent completely. *)
Theorem C46_client_whole_partial : forall es s os,
  conn_run cconn_init es = Ret (s, os) -> always whole_transfers cconn_init es -> complete_writes (writes os).
Proof. exact client_complete_writes. Qed.
Print Assumptions C46_client_whole_partial.

Theorem C46_server_whole_partial : forall es s os,
  vconn_run sconn_init es = Ret (s, os) -> valways vwhole_transfers sconn_init es -> complete_writes (vwrites os).
Proof. exact server_complete_writes. Qed.
Print Assumptions C46_server_whole_partial.

Example C46_case : exists s os,
  vconn_run sconn_init [VStart; VSend [1; 2; 3]; VTransfer 0 3; VWritten 0 true] = Ret (s, os) /\
  valways vwhole_transfers sconn_init [VStart; VSend [1; 2; 3]; VTransfer 0 3; VWritten 0 true] /\
  vwrites os = [WStarted 0 [1; 2; 3]; WTook 0 [1; 2; 3]; WDone 0].
Proof.
  do 2 eexists. split; [vm_compute; reflexivity|]. split; [|reflexivity].
  repeat (split; [cbn; auto; try (intros o Ho; cbn in Ho; injection Ho as <-; reflexivity)|];
          intros ? ? HE; vm_compute in HE; injection HE as <- <-); exact Logic.I.
Qed.

(** ** C56: a connection failure is reported once

    Refuted: a write error is followed by the error of the aborted read.  The
    second report can arrive when the next attempt is in progress; it fails the new
    request and closes the new socket. *)
Theorem C56_reported_once_refuted : exists es s os,
  conn_run cconn_init es = Ret (s, os) /\ (count is_attempt os < count is_failed os)%nat.
Proof. exact failure_twice. Qed.
Print Assumptions C56_reported_once_refuted.

Theorem C56_echo_refuted : exists s os, conn_run cconn_init echo = Ret (s, os) /\
  os = [Attempt; Established 1; Write (WStarted 0 [1]); Write (WFailed 0); Failed; SocketClosed 1; Attempt; Failed; SocketClosed 2] /\
  cn_status s = NotConnected /\ cn_resolves s = 1%nat.
Proof. exact failure_echo. Qed.
Print Assumptions C56_echo_refuted.

(** Every attempt is reported as failed at most once, apart from failures of writes. *)
Theorem C56_failures_bounded_partial : forall es s os, conn_run cconn_init es = Ret (s, os) ->
  (count is_failed os <= count is_attempt os + count is_write_failure os)%nat.
Proof. exact failures_bounded. Qed.
Print Assumptions C56_failures_bounded_partial.

Example C56_case : exists s os,
  conn_run cconn_init [NSend [1] setup_ok; NResolved true; NConnected 1 false; NRun; NSend [1] setup_ok; NResolved true; NConnected 3 true;
                       NRead 0 RError] = Ret (s, os) /\ count is_failed os = 2%nat /\ count is_attempt os = 2%nat /\ count is_write_failure os = 0%nat.
Proof. do 2 eexists. split; [vm_compute; reflexivity|]. repeat split. Qed.

(** ** C57: a connection that was shut down is silent

    When the closures posted up to [shutdown] have run, the connection does nothing
    any more. *)
Theorem C57_shutdown_silent : forall es s os es1 s1 os1 es2,
  conn_run cconn_init es = Ret (s, os) -> conn_run s (NShutdown :: es1) = Ret (s1, os1) -> (List.length (cn_queue s) < runs es1)%nat ->
  exists s2, conn_run s1 es2 = Ret (s2, []).
Proof. exact shutdown_silent. Qed.
Print Assumptions C57_shutdown_silent.

(** A connection of the server only tells the server again that it is gone. *)
Theorem C57_server_silent : forall es s os es1 s1 os1 es2,
  vconn_run sconn_init es = Ret (s, os) -> vconn_run s (VShutdown :: es1) = Ret (s1, os1) -> (List.length (vn_queue s) < vruns es1)%nat ->
  exists s2 o2, vconn_run s1 es2 = Ret (s2, o2) /\ Forall (fun x => x = VRemoved) o2.
Proof. exact server_shutdown_silent. Qed.
Print Assumptions C57_server_silent.

Example C57_server_case : exists s s1 s2,
  vconn_run sconn_init [VStart; VSend [1]; VClose] = Ret (s, [VWrite (WStarted 0 [1])]) /\ List.length (vn_queue s) = 1%nat /\
  vconn_run s [VShutdown; VRun; VRun] = Ret (s1, [VSocketClosed; VRemoved; VRemoved]) /\
  vconn_run s1 [VRead 0 (RData [2]); VTransfer 0 1; VWritten 0 false; VSend [3]; VStart; VClose; VShutdown; VRun] = Ret (s2, [VRemoved]).
Proof. do 3 eexists. split; [vm_compute; reflexivity|]. split; [reflexivity|]. split; vm_compute; reflexivity. Qed.

Example C57_case : exists s s1 os1,
  conn_run cconn_init [NSend [1] setup_ok; NResolved true; NConnected 1 true] = Ret (s, [Attempt; Established 1; Write (WStarted 0 [1])]) /\
  conn_run s [NShutdown; NTransfer 0 1; NRun] = Ret (s1, os1) /\ (List.length (cn_queue s) < runs [NTransfer 0 1; NRun])%nat /\
  List.length (cn_reads s1) = 1%nat /\ List.length (wr_ops (cn_writer s1)) = 1%nat.
Proof. do 3 eexists. split; [vm_compute; reflexivity|]. split; [vm_compute; reflexivity|]. split; [repeat constructor|]. split; reflexivity. Qed.

(** ** C58: the request waiting for a connection is sent when it is established *)
Theorem C58_waiting_request_sent : forall s d x s1 es s2 os g s3 o,
  conn_step s (NSend d x) = Ret (s1, [Attempt]) ->
  Forall (fun e => is_send e = false) es -> (forall w, ~ In (NWritten w true) es) ->
  conn_run s1 es = Ret (s2, os) ->
  conn_step s2 (NConnected g true) = Ret (s3, o) -> In (Established g) o ->
  exists w, o = [Established g; Write (WStarted w d)].
Proof. exact waiting_frame_sent. Qed.
Print Assumptions C58_waiting_request_sent.

Example C58_case : exists s1 s2 s3,
  conn_step cconn_init (NSend [1; 2] setup_ok) = Ret (s1, [Attempt]) /\ conn_run s1 [NResolved true] = Ret (s2, []) /\
  conn_step s2 (NConnected 1 true) = Ret (s3, [Established 1; Write (WStarted 0 [1; 2])]).
Proof. do 3 eexists. split; [vm_compute; reflexivity|]. split; vm_compute; reflexivity. Qed.

(** ** C59: a failed server connection is closed and forgotten *)

(** The server is told at once, and when the closures posted so far have run, the
    socket is closed. *)
Theorem C59_failure_closes : forall es s os e s1 o1 es2 s2 o2,
  vconn_run sconn_init es = Ret (s, os) -> ~ In VShutdown (es ++ es2) -> e <> VShutdown ->
  vconn_step s e = Ret (s1, o1) -> In VFailed o1 ->
  vconn_run s1 es2 = Ret (s2, o2) -> (List.length (vn_queue s) < vruns es2)%nat ->
  In VRemoved o1 /\ In VSocketClosed (os ++ o1 ++ o2).
Proof. exact server_failure_closes. Qed.
Print Assumptions C59_failure_closes.

(** Afterwards nothing is sent. *)
Theorem C59_silent_after_close : forall es s os a b, ~ In VStart (tl es) ->
  vconn_run sconn_init es = Ret (s, os) -> os = a ++ VSocketClosed :: b -> Forall no_traffic b.
Proof. exact server_silent_after_close. Qed.
Print Assumptions C59_silent_after_close.

(** Nothing is put on a closed socket, however the connection is used. *)
Theorem C59_closed_takes_nothing : forall es s os a b, vconn_run sconn_init es = Ret (s, os) -> os = a ++ VSocketClosed :: b ->
  forall w d, ~ In (VWrite (WTook w d)) b.
Proof. exact closed_takes_nothing. Qed.
Print Assumptions C59_closed_takes_nothing.

(** What the server hears afterwards: the end of the read that was in progress, and
    the failures of the sends that were. *)
Theorem C59_late_events : forall es s os a b, ~ In VStart (tl es) ->
  vconn_run sconn_init es = Ret (s, os) -> os = a ++ VSocketClosed :: b ->
  (vcount is_heard b <= 1 + vcount is_wfailed b)%nat.
Proof. exact server_late_events. Qed.
Print Assumptions C59_late_events.

Example C59_late_case : exists s s',
  vconn_run sconn_init [VStart; VClose; VRun; VRead 0 (RData [1]); VRead 1 (RData [2])] = Ret (s, [VSocketClosed; VRemoved; VReceived [1]]) /\
  vconn_run sconn_init [VStart; VClose; VRun; VSend [1]; VStart; VTransfer 0 1] = Ret (s', [VSocketClosed; VRemoved; VWrite (WStarted 0 [1])]).
Proof. do 2 eexists. split; vm_compute; reflexivity. Qed.

Example C59_case : exists s os,
  vconn_run sconn_init [VStart; VSend [1]; VRead 0 REof; VRun; VSend [2]; VWritten 0 false] = Ret (s, os) /\
  os = [VWrite (WStarted 0 [1]); VFailed; VRemoved; VSocketClosed; VRemoved; VWrite (WFailed 0); VFailed; VRemoved].
Proof. do 2 eexists. split; [vm_compute; reflexivity|reflexivity]. Qed.

(** ** C79: a server connection delivers what arrives, and keeps reading

    While it is neither closed nor shut down, and no closing is posted, there is one
    read in progress; the data it yields is delivered, and the next read begins. *)
Theorem C79_always_reading : forall es s os, vconn_run sconn_init (VStart :: es) = Ret (s, os) -> ~ In VStart es ->
  vn_connected s = true -> vn_shutdown s = false -> ~ In VDoClose (vn_queue s) ->
  exists r, vn_reads s = [(r, true)] /\
    forall d, exists s', vconn_step s (VRead r (RData d)) = Ret (s', [VReceived d]) /\
      vn_reads s' = [(vn_next_read s, true)] /\ vn_connected s' = true /\ vn_shutdown s' = false /\ vn_queue s' = vn_queue s.
Proof. exact always_reading. Qed.
Print Assumptions C79_always_reading.

Example C79_case : exists s s',
  vconn_run sconn_init [VStart; VRead 0 (RData [1; 2]); VSend [3]; VTransfer 0 1; VWritten 0 true] =
    Ret (s, [VReceived [1; 2]; VWrite (WStarted 0 [3]); VWrite (WTook 0 [3]); VWrite (WDone 0); VWriteDone]) /\
  vn_connected s = true /\ vn_shutdown s = false /\ vn_queue s = [] /\ vn_reads s = [(1%nat, true)] /\
  vconn_step s (VRead 1 (RData [4])) = Ret (s', [VReceived [4]]).
Proof. do 2 eexists. split; [vm_compute; reflexivity|]. repeat (split; [vm_compute; reflexivity|]). vm_compute. reflexivity. Qed.
