(** What the channels log: lib/src/client/channel/ClientChannelTcp.cpp and
    lib/src/server/channel/ServerChannelTcp.cpp with the calls of [m_logger], which Client.v
    and Server.v leave out.  Each function is the one of the same name there, and says
    where among its outputs the lines are.  To which sinks a line of a severity is written
    is in Config.v. *)
From Verif Require Import Prelude Ser4 Messages Mbap Client Server.

(** ** The client channel *)

Inductive cline : Type :=
| LogShuttingDown                          (* info, ClientChannelTcp.cpp:97 *)
| LogReceived (n : N)                      (* debug, :118 *)
| LogError                                 (* error, :127 *)
| LogResponse (unit tx : N)                (* info, :149-150 *)
| LogUnexpected (unit tx : N)              (* warn, :160-161 *)
| LogNotWaiting                            (* warn, :166 *)
| LogSending (unit tx timeout length : N)  (* info, :179-183; the timeout is printed in ms *)
| LogTimeout (unit tx : N).                (* warn, :200-201 *)

(** Their severities, as in Config.v: debug, info, warn, error are 1 to 4. *)
Definition cline_severity (x : cline) : N :=
  match x with
  | LogReceived _ => 1
  | LogShuttingDown | LogResponse _ _ | LogSending _ _ _ _ => 2
  | LogUnexpected _ _ | LogNotWaiting | LogTimeout _ _ => 3
  | LogError => 4
  end.

(** What happens, in order. *)
Inductive centry : Type :=
| Seen (o : coutput)
| Logged (x : cline).

(** ClientChannelTcp.cpp:179-183, in :170-208 *)
Definition sending_line (s : client) : list centry :=
  if cc_shutdown s then []
  else
    match cc_current s, cc_pending s with
    | None, p :: _ => [Logged (LogSending (pr_unit p) (pr_tx p) (pr_timeout p) (im_length (pr_msg p)))]
    | _, _ => []
    end.

Definition log_check_pending_requests (s : client) : client * list centry :=
  let line := sending_line s in
  let '(s, o) := check_pending_requests s in
  (s, line ++ map Seen o).

(** ClientChannelTcp.cpp:210-219 *)
Definition log_cancel_current_request (s : client) : client * list centry :=
  match cc_current s with
  | Some _ => log_check_pending_requests (cancel_timer (with_current s None))
  | None => (s, [])
  end.

Section Client.
Context {W : Type}.
Context (handler : nat -> W -> expected (list N) -> W * list capi).

(** ClientChannelTcp.cpp:123-138 *)
Definition log_on_error (s : client) (w : W) (msg : string) : client * W * list centry :=
  if cc_shutdown s then (s, w, [])
  else
    let s := with_parser s (mbap_reset (cc_parser s)) in
    let '(s, w, o) := cancel_all_pending_requests handler s w msg in
    match cc_current s with
    | Some p =>
        let '(s, w, o') := call_handler handler s w (pr_id p) (Error (EConnection msg)) in
        let '(s, l) := log_cancel_current_request s in
        (s, w, Logged LogError :: map Seen o ++ map Seen o' ++ l)
    | None => (s, w, Logged LogError :: map Seen o)
    end.

(** ClientChannelTcp.cpp:140-168 *)
Definition log_on_response (s : client) (w : W) (m : mbap_message) : client * W * list centry :=
  if cc_shutdown s then (s, w, [])
  else
    match cc_current s with
    | Some p =>
        if (mb_tx m =? pr_tx p) && (mb_unit m =? pr_unit p) then
          let s := cancel_timer s in
          let '(s, w, o) := call_handler handler s w (pr_id p) (Value (mb_data m)) in
          let '(s, l) := log_check_pending_requests (with_current s None) in
          (s, w, Logged (LogResponse (mb_unit m) (mb_tx m)) :: map Seen o ++ l)
        else (s, w, [Logged (LogUnexpected (mb_unit m) (mb_tx m))])
    | None => (s, w, [Logged LogNotWaiting])
    end.

Fixpoint log_on_responses (s : client) (w : W) (ms : list mbap_message) : client * W * list centry :=
  match ms with
  | [] => (s, w, [])
  | m :: ms' =>
      let '(s, w, l) := log_on_response s w m in
      let '(s, w, l') := log_on_responses s w ms' in
      (s, w, l ++ l')
  end.

(** ClientChannelTcp.cpp:114-121 *)
Definition log_on_receive (pol : copy_policy) (s : client) (w : W) (data : list N)
    : outcome (client * W * list centry) :=
  if cc_shutdown s then Ret (s, w, [])
  else
    let! (p, ms) := mbap_parse pol (cc_parser s) data in
    let '(s, w, l) := log_on_responses (with_parser s p) w ms in
    Ret (s, w, Logged (LogReceived (size data)) :: l).

(** ClientChannelTcp.cpp:195-206 *)
Definition log_on_timeout (s : client) (w : W) : client * W * list centry :=
  if cc_shutdown s then (s, w, [])
  else
    match cc_current s with
    | Some p =>
        let '(s, w, o) := call_handler handler s w (pr_id p) (Error ETimeout) in
        let '(s, l) := log_cancel_current_request s in
        (s, w, Logged (LogTimeout (pr_unit p) (pr_tx p)) :: map Seen o ++ l)
    | None => (s, w, [])
    end.

(** The bodies of the posted closures (ClientChannelTcp.cpp:70-83, :87-90, :96-111). *)
Definition log_run_ctask (s : client) (w : W) (t : ctask) : client * W * list centry :=
  match t with
  | DoSend i k =>
      if cc_shutdown s then (s, w, [])
      else
        let p := {| pr_id := i; pr_unit := k_unit k; pr_tx := cc_next_tx s;
                    pr_msg := k_msg k; pr_timeout := k_timeout k |} in
        let s := with_pending s (cc_pending s ++ [p]) in
        let s := with_next_tx s (to_u16 (cc_next_tx s + 1)) in
        let '(s, l) := log_check_pending_requests s in
        (s, w, l)
  | DoReject i =>
      let '(s, w, o) := call_handler handler s w i (Error EMalformedRequest) in
      (s, w, map Seen o)
  | DoShutdown =>
      let s := with_shutdown s in
      let s := cancel_timer (with_current (with_pending s []) None) in
      (s, w, [Logged LogShuttingDown; Seen TcpShutdown])
  end.

Definition log_client_step (pol : copy_policy) (s : client) (w : W) (e : cevent)
    : outcome (client * W * list centry) :=
  match e with
  | CApi a => let '(s, o) := capi_call s a in Ret (s, w, map Seen o)
  | CRun =>
      match cc_queue s with
      | [] => Ret (s, w, [])
      | t :: q => Ret (log_run_ctask (with_queue s q (cc_calls s)) w t)
      end
  | CReceive data => log_on_receive pol s w data
  | CError msg => Ret (log_on_error s w msg)
  | CExpire t =>
      if existsb (Nat.eqb t) (cc_armed s)
      then Ret (with_timers s (cc_timer s) (filter (fun x => negb (Nat.eqb x t)) (cc_armed s))
                  (cc_expired s ++ [t]) (cc_next_timer s), w, [])
      else Ret (s, w, [])
  | CFire t =>
      if existsb (Nat.eqb t) (cc_expired s)
      then Ret (log_on_timeout (with_timers s (cc_timer s) (cc_armed s)
                  (filter (fun x => negb (Nat.eqb x t)) (cc_expired s)) (cc_next_timer s)) w)
      else Ret (s, w, [])
  end.

Fixpoint log_client_run (pol : copy_policy) (s : client) (w : W) (es : list cevent)
    : outcome (client * W * list centry) :=
  match es with
  | [] => Ret (s, w, [])
  | e :: es' =>
      let! (s, w, l) := log_client_step pol s w e in
      let! (s, w, l') := log_client_run pol s w es' in
      Ret (s, w, l ++ l')
  end.
End Client.

(** ** The server channel *)

Inductive sline : Type :=
| WarnInvalid                              (* warn, ServerChannelTcp.cpp:109 and :162 *)
| WarnUnsupported (fc : N)                 (* warn, :142 *)
| WarnUnknown (unit : N)                   (* warn, :148 *)
| InfoShuttingDown.                        (* info, :71 *)

Definition sline_severity (x : sline) : N :=
  match x with InfoShuttingDown => 2 | _ => 3 end.

Inductive sentry : Type :=
| Shown (o : output)
| Noted (x : sline).

Section Server.
Context {W : Type}.
Context (on_request : N -> W -> request -> W * expected response * list api).
Context (on_shutdown : N -> W -> W * list api).

(** ServerChannelTcp.cpp:152-199 *)
Definition log_process_message (s : server) (w : W) (session : N) (m : mbap_message) (conn fc : N)
    (parse : rseq -> outcome (expected request)) : outcome (server * W * list sentry) :=
  let! parse_result := parse (mb_data m) in
  match parse_result with
  | Error (EModbus t) =>
      Ret (s, w, [Noted WarnInvalid; Shown (send_message conn (mb_unit m) (mb_tx m) (ExceptionResponse fc t))])
  | Error _ => Ret (s, w, [Noted WarnInvalid])
  | Value req =>
      let '(w, response_result, calls) := on_request session w req in
      let s := api_calls s calls in
      match response_result with
      | Error (EModbus t) =>
          Ret (s, w, [Shown (OConsult session req);
                      Shown (send_message conn (mb_unit m) (mb_tx m) (ExceptionResponse fc t))])
      | Error _ => Ret (s, w, [Shown (OConsult session req)])
      | Value resp =>
          Ret (s, w, [Shown (OConsult session req);
                      Shown (send_message conn (mb_unit m) (mb_tx m) (response_message resp))])
      end
  end.

(** ServerChannelTcp.cpp:99-150 *)
Definition log_on_mbap (s : server) (w : W) (conn : N) (m : mbap_message)
    : outcome (server * W * list sentry) :=
  if sv_shutdown s then Ret (s, w, [])
  else
    match find_session (sv_sessions s) (mb_unit m) with
    | None => Ret (s, w, [Noted (WarnUnknown (mb_unit m))])
    | Some session =>
        if size (mb_data m) <? 1 then Ret (s, w, [Noted WarnInvalid])
        else
          rd8 (mb_data m) (fun fc _ =>
          match request_parser fc with
          | Some parse => log_process_message s w session m conn fc parse
          | None =>
              Ret (s, w, [Noted (WarnUnsupported fc);
                          Shown (send_message conn (mb_unit m) (mb_tx m)
                                   (ExceptionResponse fc IllegalFunction))])
          end)
    end.

Fixpoint log_on_messages (s : server) (w : W) (conn : N) (ms : list mbap_message)
    : outcome (server * W * list sentry) :=
  match ms with
  | [] => Ret (s, w, [])
  | m :: ms' =>
      let! (s, w, l) := log_on_mbap s w conn m in
      let! (s, w, l') := log_on_messages s w conn ms' in
      Ret (s, w, l ++ l')
  end.

(** The bodies of the posted closures; only ServerChannelTcp.cpp:71 logs. *)
Definition log_run_task (s : server) (w : W) (t : task) : server * W * list sentry :=
  let '(s, w, o) := run_task on_shutdown s w t in
  (s, w, match t with TaskShutdown => [Noted InfoShuttingDown] | _ => [] end ++ map Shown o).

Definition log_server_step (pol : copy_policy) (s : server) (w : W) (e : event)
    : outcome (server * W * list sentry) :=
  match e with
  | EApi a => Ret (api_call s a, w, [])
  | ERun =>
      match sv_queue s with
      | [] => Ret (s, w, [])
      | t :: q => Ret (log_run_task (set_queue s q) w t)
      end
  | EAccept c buf => Ret (set_conn s c (Some (mbap_new buf)), w, [])
  | EReceive c data =>
      match sv_conns s c with
      | None => Ret (s, w, [])
      | Some p =>
          let! (p', ms) := mbap_parse pol p data in
          log_on_messages (set_conn s c (Some p')) w c ms
      end
  | EConnError c =>
      match sv_conns s c with
      | None => Ret (s, w, [])
      | Some p => Ret (set_conn s c (Some (mbap_reset p)), w, [])
      end
  end.

Fixpoint log_server_run (pol : copy_policy) (s : server) (w : W) (es : list event)
    : outcome (server * W * list sentry) :=
  match es with
  | [] => Ret (s, w, [])
  | e :: es' =>
      let! (s, w, l) := log_server_step pol s w e in
      let! (s, w, l') := log_server_run pol s w es' in
      Ret (s, w, l ++ l')
  end.
End Server.
