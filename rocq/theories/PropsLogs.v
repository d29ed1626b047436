(** C117: the log of a channel tells what happens to it. *)
From Verif Require Import Prelude Ser4 Messages Mbap SpecPdu SpecMbap Config Client SpecClient Server SpecServer Logs SpecLogs LogsFacts LogsEvents LogsCases.

(** Logging changes nothing: without the lines, what is observed and what becomes of the
    channels are what they are without logging. *)
Theorem C117_client_unchanged : forall {W : Type} (handler : nat -> W -> expected (list N) -> W * list capi) pol es s w,
  client_run handler pol s w es =
  match log_client_run handler pol s w es with Ret (s', w', l) => Ret (s', w', seen l) | UB => UB end.
Proof. exact @run_unchanged. Qed.
Print Assumptions C117_client_unchanged.

Theorem C117_server_unchanged : forall {W : Type} on_request (on_shutdown : N -> W -> W * list api) pol es s w,
  server_run on_request on_shutdown pol s w es =
  match log_server_run on_request on_shutdown pol s w es with Ret (s', w', l) => Ret (s', w', shown l) | UB => UB end.
Proof. exact @srun_unchanged. Qed.
Print Assumptions C117_server_unchanged.

(** Every transmission, answer, timeout and failure that a user is told is logged before, with
    the identifiers of the request; and the lines about them are true. *)
Theorem C117_client_log : forall {W : Type} (handler : nat -> W -> expected (list N) -> W * list capi) pol es buf w s' w' l,
  log_client_run handler pol (client_init buf) w es = Ret (s', w', l) -> well_logged l.
Proof. exact @client_well_logged. Qed.
Print Assumptions C117_client_log.

(** In particular the log accounts for everything that was sent, answered and given up. *)
Theorem C117_client_accounts : forall l, well_logged l ->
  said_sent l = really_sent l /\ said_answered l = really_answered l /\ said_timed_out l = really_timed_out l.
Proof. exact log_accounts. Qed.
Print Assumptions C117_client_accounts.

Example C117_client_case : exists s w l, log_client_run mute AllOrNothing (client_init (repeat 0 260)) tt busy_day = Ret (s, w, l) /\
  log_lines l = [LogSending 7 0 1000 5; LogTimeout 7 0; LogSending 7 1 1000 5; LogReceived 10; LogUnexpected 7 0;
                 LogReceived 21; LogResponse 7 1; LogNotWaiting; LogError].
Proof. exact busy_day_logged. Qed.
Print Assumptions C117_client_case.

(** Which lines an event leads to: one for the data, one for every frame in it, one for a
    timeout, for a connection error, for a shutdown, and for the request that is sent next. *)
Theorem C117_client_events : forall {W : Type} (handler : nat -> W -> expected (list N) -> W * list capi) pol s w e s' w' l,
  log_client_step handler pol s w e = Ret (s', w', l) -> event_lines pol s e (log_lines l).
Proof. exact @step_lines. Qed.
Print Assumptions C117_client_events.

(** After a shutdown nothing is logged but further shutdowns. *)
Theorem C117_client_silent : forall {W : Type} (handler : nat -> W -> expected (list N) -> W * list capi) pol es s w s' w' l,
  cc_shutdown s = true -> log_client_run handler pol s w es = Ret (s', w', l) -> Forall (eq LogShuttingDown) (log_lines l).
Proof. exact @silent_log. Qed.
Print Assumptions C117_client_silent.

(** Every failure is logged: refuted, a request that is refused because it is invalid is not. *)
Theorem C117_failures_refuted :
  ~ (forall (W : Type) handler pol es buf (w : W) s w' l i e, good_buf buf -> Forall typed_cevent es ->
     log_client_run handler pol (client_init buf) w es = Ret (s, w', l) -> In (Completed i (Error e)) (seen l) -> log_lines l <> []).
Proof. exact refused_unlogged. Qed.
Print Assumptions C117_failures_refuted.

Theorem C117_failures_partial : forall l i e, well_logged l -> In (Completed i (Error e)) (seen l) ->
  match e with
  | ETimeout => exists unit tx, In (LogTimeout unit tx) (log_lines l)
  | EConnection _ => In LogError (log_lines l)
  | EMalformedRequest => True
  | _ => False
  end.
Proof. exact failures_logged. Qed.
Print Assumptions C117_failures_partial.

(** A frame that a running server channel receives leads to a warning, which tells why, or a
    session is asked. *)
Theorem C117_server_warns : forall {W : Type} on_request s (w : W) c m s' w' l,
  sv_shutdown s = false -> typed_message m -> log_on_mbap on_request s w c m = Ret (s', w', l) ->
  warning (registry s) (mb_unit m) (mb_data m) (notes l) /\
  (notes l = [] <-> exists x r, In (OConsult x r) (shown l)).
Proof. exact @frame_warned. Qed.
Print Assumptions C117_server_warns.

Theorem C117_warning_unique : forall registry unit pdu a b, bytes pdu ->
  warning registry unit pdu a -> warning registry unit pdu b -> a = b.
Proof. exact warning_fun. Qed.
Print Assumptions C117_warning_unique.

(** So do all the frames that arrive together, in order. *)
Theorem C117_server_receive : forall {W : Type} on_request (on_shutdown : N -> W -> W * list api) pol s w c data p p' ms s' w' l,
  sv_shutdown s = false -> sv_conns s c = Some p -> mbap_parse pol p data = Ret (p', ms) -> Forall typed_message ms ->
  log_server_step on_request on_shutdown pol s w (EReceive c data) = Ret (s', w', l) ->
  exists wss, Forall2 (fun m ws => warning (registry s) (mb_unit m) (mb_data m) ws) ms wss /\ notes l = List.concat wss.
Proof. exact @receive_warnings. Qed.
Print Assumptions C117_server_receive.

Example C117_server_case : exists s w l,
  log_on_messages (fun _ w _ => (w, Value (SingleRegisterWritten 1 2), [])) served_units tt 0
    [frame_of 8 [6; 0; 1; 0; 2]; frame_of 7 []; frame_of 7 [99]; frame_of 7 [1; 0; 0; 0; 0]; frame_of 7 [6; 0]; frame_of 7 [6; 0; 1; 0; 2]] = Ret (s, w, l) /\
  notes l = [WarnUnknown 8; WarnInvalid; WarnUnsupported 99; WarnInvalid; WarnInvalid] /\ List.length (shown l) = 4%nat.
Proof. exact six_frames. Qed.
Print Assumptions C117_server_case.

(** Nothing else is logged by a server channel than the warnings about received frames, if it
    is not shut down, and its shutdowns. *)
Theorem C117_server_events : forall {W : Type} on_request on_shutdown pol s (w : W) e s' w' l,
  log_server_step on_request on_shutdown pol s w e = Ret (s', w', l) ->
  match e with
  | EReceive _ _ => sv_shutdown s = true -> notes l = []
  | ERun => match sv_queue s with
            | TaskShutdown :: _ => exists o, l = Noted InfoShuttingDown :: map Shown o
            | _ => notes l = []
            end
  | _ => notes l = []
  end.
Proof. exact @server_events. Qed.
Print Assumptions C117_server_events.

Theorem C117_server_silent : forall {W : Type} on_request on_shutdown pol es s (w : W) s' w' l, sv_shutdown s = true ->
  log_server_run on_request on_shutdown pol s w es = Ret (s', w', l) -> Forall (eq InfoShuttingDown) (notes l).
Proof. exact @server_silent. Qed.
Print Assumptions C117_server_silent.

(** Every request that is not answered is logged: refuted, it is not if the session returned
    an error that is no Modbus exception. *)
Theorem C117_unanswered_refuted :
  ~ (forall (W : Type) on_request s (w : W) c m s' w' l, well_typed on_request -> sv_shutdown s = false -> typed_message m ->
     log_on_mbap on_request s w c m = Ret (s', w', l) -> (forall c' frame, ~ In (OSend c' frame) (shown l)) -> notes l <> []).
Proof. exact unanswered_unlogged. Qed.
Print Assumptions C117_unanswered_refuted.

(** A channel whose level is warn writes exactly what went wrong. *)
Theorem C117_warnings_written : forall {S : Type} (base : logger S) name x,
  emits (channel_logger base name 3) (cline_severity x) =
  match x with LogUnexpected _ _ | LogNotWaiting | LogTimeout _ _ | LogError => lg_sinks base | _ => [] end.
Proof. exact @warnings_written. Qed.
Print Assumptions C117_warnings_written.

Theorem C117_server_warnings_written : forall {S : Type} (base : logger S) name x,
  emits (channel_logger base name 3) (sline_severity x) = match x with InfoShuttingDown => [] | _ => lg_sinks base end.
Proof. exact @server_warnings_written. Qed.
Print Assumptions C117_server_warnings_written.
