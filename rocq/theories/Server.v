(** Model of lib/src/server/channel/ServerChannelTcp.cpp and
    ServerConnectionListener.cpp.

    Everything runs on one strand: tasks given to [m_executor->post] are executed
    one at a time in FIFO order, and never at the same time as a connection
    handler.  (exe4cpp is not in the repository; this is an assumption.)  The
    model is a transition system whose events are API calls from any thread, the
    execution of the next posted task, and what the transport reports. *)
From Verif Require Import Prelude Ser4 Messages Mbap.

(** Calls of the public API (lib/include/modbus/server/IServerChannel.h). A
    session object is represented by a number. *)
Inductive api : Type :=
| ApiStart
| ApiShutdown
| ApiAdd (unit : N) (session : N).

(** The closures posted by the three methods. *)
Inductive task : Type :=
| TaskStart
| TaskShutdown
| TaskAdd (unit : N) (session : N).

(** What can be observed from outside. *)
Inductive output : Type :=
| OListen                                        (* m_server->start(...) *)
| OStopListening                                 (* m_server->shutdown() *)
| OConsult (session : N) (r : request)           (* session->on_request(request) *)
| OSessionShutdown (session : N)                 (* session->shutdown() *)
| OSend (conn : N) (frame : list (option N)).    (* connection.send(...) *)

Inductive event : Type :=
| EApi (a : api)
| ERun                                           (* the next posted task *)
| EAccept (conn : N) (buf : list N)              (* new connection and listener *)
| EReceive (conn : N) (data : list N)            (* on_receive *)
| EConnError (conn : N).                         (* on_error *)

(** Members of ServerChannelTcp (ServerChannelTcp.h:58-60), the strand's queue and
    the parser of each connection's listener (ServerConnectionListener.h). *)
Record server : Type := {
  sv_shutdown : bool;
  sv_started : bool;
  sv_sessions : list (N * N);      (* unordered_map<UnitIdentifier, session> *)
  sv_queue : list task;
  sv_conns : N -> option pstate
}.

Definition server_init : server :=
  {| sv_shutdown := false; sv_started := false; sv_sessions := []; sv_queue := [];
     sv_conns := fun _ => None |}.

Definition set_queue (s : server) (q : list task) : server :=
  {| sv_shutdown := sv_shutdown s; sv_started := sv_started s; sv_sessions := sv_sessions s;
     sv_queue := q; sv_conns := sv_conns s |}.

Definition set_conn (s : server) (c : N) (p : option pstate) : server :=
  {| sv_shutdown := sv_shutdown s; sv_started := sv_started s; sv_sessions := sv_sessions s;
     sv_queue := sv_queue s; sv_conns := fun x => if x =? c then p else sv_conns s x |}.

(** ServerChannelTcp.cpp:56-66 (start), :68-86 (shutdown), :88-97
    (add_session): what the calling thread does. *)
Definition api_call (s : server) (a : api) : server :=
  match a with
  | ApiStart => if sv_shutdown s then s else set_queue s (sv_queue s ++ [TaskStart])
  | ApiShutdown => set_queue s (sv_queue s ++ [TaskShutdown])
  | ApiAdd u x => if sv_shutdown s then s else set_queue s (sv_queue s ++ [TaskAdd u x])
  end.

Definition api_calls (s : server) (l : list api) : server := fold_left api_call l s.

(** [m_sessions.find(unit)] *)
Fixpoint find_session (l : list (N * N)) (unit : N) : option N :=
  match l with
  | [] => None
  | (u, x) :: l' => if u =? unit then Some x else find_session l' unit
  end.

(** [m_sessions.insert({unit, session})]: does nothing if the key exists. *)
Definition insert_session (l : list (N * N)) (unit session : N) : list (N * N) :=
  match find_session l unit with
  | Some _ => l
  | None => l ++ [(unit, session)]
  end.

(** ServerChannelTcp.cpp:201-213 *)
Definition send_message (conn unit tx : N) (message : imessage) : output :=
  OSend conn (mbap_build 260 unit tx message).

Section Server.
(** User code: any sessions with any state [W].  While answering or shutting down
    they may also call the channel's API. *)
Context {W : Type}.
Context (on_request : N -> W -> request -> W * expected response * list api).
Context (on_shutdown : N -> W -> W * list api).

(** ServerChannelTcp.cpp:152-199.  [parse] is [TRequest::parse]. *)
Definition process_message (s : server) (w : W) (session : N) (m : mbap_message) (conn fc : N)
    (parse : rseq -> outcome (expected request)) : outcome (server * W * list output) :=
  let! parse_result := parse (mb_data m) in
  match parse_result with
  | Error (EModbus t) =>
      Ret (s, w, [send_message conn (mb_unit m) (mb_tx m) (ExceptionResponse fc t)])
  | Error _ => Ret (s, w, [])
  | Value req =>
      let '(w, response_result, calls) := on_request session w req in
      let s := api_calls s calls in
      match response_result with
      | Error (EModbus t) =>
          Ret (s, w, [OConsult session req;
                      send_message conn (mb_unit m) (mb_tx m) (ExceptionResponse fc t)])
      | Error _ => Ret (s, w, [OConsult session req])
      | Value resp =>
          Ret (s, w, [OConsult session req;
                      send_message conn (mb_unit m) (mb_tx m) (response_message resp)])
      end
  end.

(** ServerChannelTcp.cpp:99-150 *)
Definition on_mbap (s : server) (w : W) (conn : N) (m : mbap_message)
    : outcome (server * W * list output) :=
  if sv_shutdown s then Ret (s, w, [])
  else
    match find_session (sv_sessions s) (mb_unit m) with
    | None => Ret (s, w, [])
    | Some session =>
        if size (mb_data m) <? 1 then Ret (s, w, [])
        else
          rd8 (mb_data m) (fun fc _ =>
          match request_parser fc with
          | Some parse => process_message s w session m conn fc parse
          | None =>
              Ret (s, w, [send_message conn (mb_unit m) (mb_tx m)
                            (ExceptionResponse fc IllegalFunction)])
          end)
    end.

(** The calls of [on_mbap_message] made by one [parse]
    (ServerConnectionListener.cpp:20-28, :30-38). The weak pointers to the channel
    and the connection are taken to be valid; C106 and C107 show when it matters. *)
Fixpoint on_messages (s : server) (w : W) (conn : N) (ms : list mbap_message)
    : outcome (server * W * list output) :=
  match ms with
  | [] => Ret (s, w, [])
  | m :: ms' =>
      let! (s, w, o) := on_mbap s w conn m in
      let! (s, w, o') := on_messages s w conn ms' in
      Ret (s, w, o ++ o')
  end.

(** ServerChannelTcp.cpp:80-83: the loop over the sessions (in an unspecified
    order; the model uses the order of the list). *)
Fixpoint shutdown_sessions (s : server) (w : W) (l : list (N * N)) : server * W * list output :=
  match l with
  | [] => (s, w, [])
  | (_, x) :: l' =>
      let '(w, calls) := on_shutdown x w in
      let s := api_calls s calls in
      let '(s, w, o) := shutdown_sessions s w l' in
      (s, w, OSessionShutdown x :: o)
  end.

(** The bodies of the posted closures. *)
Definition run_task (s : server) (w : W) (t : task) : server * W * list output :=
  match t with
  | TaskStart =>
      if sv_shutdown s then (s, w, [])
      else ({| sv_shutdown := sv_shutdown s; sv_started := true; sv_sessions := sv_sessions s;
               sv_queue := sv_queue s; sv_conns := sv_conns s |}, w, [OListen])
  | TaskShutdown =>
      let o := if sv_started s then [OStopListening] else [] in
      let s := {| sv_shutdown := true; sv_started := false; sv_sessions := sv_sessions s;
                  sv_queue := sv_queue s; sv_conns := sv_conns s |} in
      let '(s, w, o') := shutdown_sessions s w (sv_sessions s) in
      ({| sv_shutdown := sv_shutdown s; sv_started := sv_started s; sv_sessions := [];
          sv_queue := sv_queue s; sv_conns := sv_conns s |}, w, o ++ o')
  | TaskAdd u x =>
      if sv_shutdown s then (s, w, [])
      else ({| sv_shutdown := sv_shutdown s; sv_started := sv_started s;
               sv_sessions := insert_session (sv_sessions s) u x;
               sv_queue := sv_queue s; sv_conns := sv_conns s |}, w, [])
  end.

Definition server_step (pol : copy_policy) (s : server) (w : W) (e : event)
    : outcome (server * W * list output) :=
  match e with
  | EApi a => Ret (api_call s a, w, [])
  | ERun =>
      match sv_queue s with
      | [] => Ret (s, w, [])
      | t :: q => Ret (run_task (set_queue s q) w t)
      end
  | EAccept c buf => Ret (set_conn s c (Some (mbap_new buf)), w, [])
  | EReceive c data =>
      match sv_conns s c with
      | None => Ret (s, w, [])
      | Some p =>
          let! (p', ms) := mbap_parse pol p data in
          on_messages (set_conn s c (Some p')) w c ms
      end
  | EConnError c =>
      match sv_conns s c with
      | None => Ret (s, w, [])
      | Some p => Ret (set_conn s c (Some (mbap_reset p)), w, [])
      end
  end.

Fixpoint server_run (pol : copy_policy) (s : server) (w : W) (es : list event)
    : outcome (server * W * list output) :=
  match es with
  | [] => Ret (s, w, [])
  | e :: es' =>
      let! (s, w, o) := server_step pol s w e in
      let! (s, w, o') := server_run pol s w es' in
      Ret (s, w, o ++ o')
  end.
End Server.
