(** C118: the log of a TCP connection tells what happens to it. *)
From Verif Require Import Prelude Config AsyncWrite ClientConn ServerConn SpecConn ConnLogs SpecConnLogs ConnLogsFacts ConnLogsCases.

(** Logging changes nothing. *)
Theorem C118_client_unchanged : forall es s,
  conn_run s es = match log_conn_run s es with Ret (s', l) => Ret (s', did l) | UB => UB end.
Proof. exact run_quiet. Qed.
Print Assumptions C118_client_unchanged.

Theorem C118_server_unchanged : forall es s,
  vconn_run s es = match log_vconn_run s es with Ret (s', l) => Ret (s', did l) | UB => UB end.
Proof. exact vrun_quiet. Qed.
Print Assumptions C118_server_unchanged.

(** Every line is next to what it is about and everything has its line; the numbers of bytes
    are those of the data that was received, or that the transport took of the write. *)
Theorem C118_client_log : forall es s l, log_conn_run cconn_init es = Ret (s, l) ->
  client_log l /\ NoDup (map fst (took (writes (did l)))).
Proof. exact connection_logged. Qed.
Print Assumptions C118_client_log.

Example C118_client_case : exists s l,
  log_conn_run cconn_init [NSend [1; 2; 3] setup_ok; NResolved true; NConnected 1 true; NTransfer 0 3; NWritten 0 true;
                           NRead 0 (RData [4; 5]); NRead 1 REof; NRun] = Ret (s, l) /\
  said l = [Establishing; EstablishedLine; SentBytes 3; ReceivedBytes 2; ClosedByPeer; ClosingLine].
Proof. exact one_exchange. Qed.
Print Assumptions C118_client_case.

Theorem C118_server_log : forall es s l, log_vconn_run sconn_init es = Ret (s, l) ->
  server_log l /\ NoDup (map fst (took (vwrites (did l)))).
Proof. exact server_connection_logged. Qed.
Print Assumptions C118_server_log.

Example C118_server_case : exists s l,
  log_vconn_run sconn_init [VStart; VRead 0 (RData [4; 5]); VSend [1; 2; 3]; VTransfer 0 3; VWritten 0 true; VRead 1 REof; VRun] = Ret (s, l) /\
  said l = [EstablishedLine; ReceivedBytes 2; SentBytes 3; ReadError; ClosingLine].
Proof. exact server_exchange. Qed.
Print Assumptions C118_server_case.

(** As many errors are logged as are reported to the channel: on the client this is refuted,
    a socket that cannot be opened is only logged. *)
Theorem C118_errors_reported_refuted :
  ~ (forall es s l, log_conn_run cconn_init es = Ret (s, l) ->
     how_many error_line (said l) = List.length (filter (fun x => match x with Failed => true | _ => false end) (did l))).
Proof. exact setup_unreported. Qed.
Print Assumptions C118_errors_reported_refuted.

Theorem C118_errors_reported_partial : forall l, client_log l ->
  how_many error_line (said l) = (List.length (filter (fun x => match x with Failed => true | _ => false end) (did l)) + how_many setup_line (said l))%nat.
Proof. exact errors_counted. Qed.
Print Assumptions C118_errors_reported_partial.

Theorem C118_server_errors_reported : forall l, server_log l ->
  how_many error_line (said l) = List.length (filter (fun x => match x with VFailed => true | _ => false end) (did l)).
Proof. exact server_errors_counted. Qed.
Print Assumptions C118_server_errors_reported.

(** If nothing fails no error is logged; for the server this is refuted, that the client
    closes its connection is logged as an error. *)
Theorem C118_client_no_errors : forall es s l, Forall goes_well es -> log_conn_run cconn_init es = Ret (s, l) ->
  forall x, In x (said l) -> error_line x = false.
Proof. exact no_error_lines. Qed.
Print Assumptions C118_client_no_errors.

Example C118_client_no_errors_case :
  Forall goes_well [NSend [1; 2; 3] setup_ok; NResolved true; NConnected 1 true; NTransfer 0 3; NWritten 0 true;
                    NRead 0 (RData [4; 5]); NRead 1 REof; NRun].
Proof. exact one_exchange_well. Qed.
Print Assumptions C118_client_no_errors_case.

Theorem C118_server_no_errors_refuted :
  ~ (forall es s l, Forall vgoes_well es -> log_vconn_run sconn_init es = Ret (s, l) -> forall x, In x (said l) -> error_line x = false).
Proof. exact end_is_error. Qed.
Print Assumptions C118_server_no_errors_refuted.

(** Only connections that were established are said to be closed: refuted, so are attempts;
    but at most two closings come of an attempt. *)
Theorem C118_closings_refuted :
  ~ (forall es s l, log_conn_run cconn_init es = Ret (s, l) ->
     (how_many (is_line ClosingLine) (said l) <= how_many (is_line EstablishedLine) (said l))%nat).
Proof. exact closed_unestablished. Qed.
Print Assumptions C118_closings_refuted.

Theorem C118_closings_partial : forall es s l, log_conn_run cconn_init es = Ret (s, l) ->
  (how_many (is_line ClosingLine) (said l) <= 2 * how_many (is_line Establishing) (said l))%nat.
Proof. exact closings_bounded. Qed.
Print Assumptions C118_closings_partial.

(** A connection is said to be closed before the next one is established: refuted, attempts
    can overlap. *)
Theorem C118_one_at_a_time_refuted :
  ~ (forall es s l a b c, log_conn_run cconn_init es = Ret (s, l) ->
     said l = a ++ [EstablishedLine] ++ b ++ [EstablishedLine] ++ c -> In ClosingLine b).
Proof. exact established_twice. Qed.
Print Assumptions C118_one_at_a_time_refuted.

(** A server's connection that is given up is said to be: refuted, not if it is shut down. *)
Theorem C118_end_logged_refuted :
  ~ (forall es s l, log_vconn_run sconn_init es = Ret (s, l) -> In VRemoved (did l) -> In ClosingLine (said l) \/ In ReadError (said l)).
Proof. exact shutdown_unlogged. Qed.
Print Assumptions C118_end_logged_refuted.

(** After a shutdown nothing is logged. *)
Theorem C118_client_silent : forall es s s' l, cn_shutdown s = true -> log_conn_run s es = Ret (s', l) -> said l = [].
Proof. exact silent_connection. Qed.
Print Assumptions C118_client_silent.

Theorem C118_server_silent : forall es s s' l, vn_shutdown s = true -> log_vconn_run s es = Ret (s', l) -> said l = [].
Proof. exact vsilent_connection. Qed.
Print Assumptions C118_server_silent.

(** At the level error exactly the errors are written. *)
Theorem C118_errors_written : forall {S : Type} (base : logger S) name x,
  emits (channel_logger base name 4) (tline_severity x) = if error_line x then lg_sinks base else [].
Proof. exact @errors_written. Qed.
Print Assumptions C118_errors_written.

(** Every line is about what just happened: which of the steps failed can be told. *)
Theorem C118_client_lines_caused : forall s e s' l, log_conn_step s e = Ret (s', l) ->
  forall x, In x (said l) -> client_cause x e.
Proof. exact client_lines_caused. Qed.
Print Assumptions C118_client_lines_caused.

Example C118_client_lines_caused_case : exists s l,
  log_conn_run cconn_init [NSend [1] setup_ok; NResolved true; NConnected 1 false; NRun; NSend [2] setup_ok; NResolved false] = Ret (s, l) /\
  said l = [Establishing; ConnectionError; ClosingLine; Establishing; ResolverError].
Proof. exact refusals. Qed.
Print Assumptions C118_client_lines_caused_case.

Theorem C118_server_lines_caused : forall s e s' l, log_vconn_step s e = Ret (s', l) ->
  forall x, In x (said l) -> server_cause x e.
Proof. exact server_lines_caused. Qed.
Print Assumptions C118_server_lines_caused.
