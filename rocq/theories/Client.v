(** Model of lib/src/client/channel/ClientChannelTcp.cpp and PendingRequest.h.

    Like the server (Server.v), everything runs on one strand: posted closures are
    executed one at a time in FIFO order and never at the same time as a timer
    action or a connection callback.  A timer that is started is [armed]; it can
    expire at any moment, after which its action waits to be executed and can no
    longer be cancelled (lib/include/modbus/ITimer.h:39-45).  Durations are only
    recorded: the model lets timers expire in any order, at any time. *)
From Verif Require Import Prelude Ser4 Messages Mbap.

(** The arguments of [send_request] (ClientChannelTcp.cpp:60-63).  The handler is
    represented by the number of the call. *)
Record call : Type := {
  k_unit : N;
  k_msg : imessage;
  k_timeout : N
}.

Inductive capi : Type :=
| Submit (k : call)                              (* send_request *)
| Shutdown.                                      (* shutdown *)

(** The closures posted by the two methods. *)
Inductive ctask : Type :=
| DoSend (i : nat) (k : call)                    (* ClientChannelTcp.cpp:70-83 *)
| DoReject (i : nat)                             (* :87-90 *)
| DoShutdown.                                    (* :96-111 *)

(** What can be observed from outside. *)
Inductive coutput : Type :=
| Called (i : nat) (k : call)                            (* send_request was entered *)
| Sent (i : nat) (unit tx : N) (frame : list (option N)) (* m_tcp_connection->send *)
| Armed (i : nat) (t : nat) (timeout : N)                (* m_executor->start *)
| Completed (i : nat) (r : expected (list N))            (* the call of the handler *)
| TcpShutdown.                                           (* m_tcp_connection->shutdown *)

Inductive cevent : Type :=
| CApi (a : capi)                                (* a call from any thread *)
| CRun                                           (* the next posted closure *)
| CReceive (data : list N)                       (* on_receive *)
| CError (msg : string)                          (* on_error *)
| CExpire (t : nat)                              (* timer [t] expires *)
| CFire (t : nat).                               (* the action of timer [t] is executed *)

(** PendingRequest.h:30-50 *)
Record prequest : Type := {
  pr_id : nat;
  pr_unit : N;
  pr_tx : N;
  pr_msg : imessage;
  pr_timeout : N
}.

(** Members of ClientChannelTcp (ClientChannelTcp.h:71-77), except [m_sessions],
    then the executor: the posted closures, the armed timers, the expired timers
    whose action was not executed yet; and the number of calls so far. *)
Record client : Type := {
  cc_shutdown : bool;
  cc_parser : pstate;
  cc_pending : list prequest;
  cc_current : option prequest;
  cc_timer : option nat;
  cc_next_tx : N;
  cc_queue : list ctask;
  cc_armed : list nat;
  cc_expired : list nat;
  cc_next_timer : nat;
  cc_calls : nat
}.

(** ClientChannelTcp.cpp:28-40; the content of the parser's buffer is arbitrary. *)
Definition client_init (buf : list N) : client :=
  {| cc_shutdown := false; cc_parser := mbap_new buf; cc_pending := []; cc_current := None;
     cc_timer := None; cc_next_tx := 0; cc_queue := []; cc_armed := []; cc_expired := [];
     cc_next_timer := 0; cc_calls := 0 |}.

Definition with_queue (s : client) (q : list ctask) (n : nat) : client :=
  {| cc_shutdown := cc_shutdown s; cc_parser := cc_parser s; cc_pending := cc_pending s;
     cc_current := cc_current s; cc_timer := cc_timer s; cc_next_tx := cc_next_tx s;
     cc_queue := q; cc_armed := cc_armed s; cc_expired := cc_expired s;
     cc_next_timer := cc_next_timer s; cc_calls := n |}.

Definition with_parser (s : client) (p : pstate) : client :=
  {| cc_shutdown := cc_shutdown s; cc_parser := p; cc_pending := cc_pending s;
     cc_current := cc_current s; cc_timer := cc_timer s; cc_next_tx := cc_next_tx s;
     cc_queue := cc_queue s; cc_armed := cc_armed s; cc_expired := cc_expired s;
     cc_next_timer := cc_next_timer s; cc_calls := cc_calls s |}.

Definition with_pending (s : client) (l : list prequest) : client :=
  {| cc_shutdown := cc_shutdown s; cc_parser := cc_parser s; cc_pending := l;
     cc_current := cc_current s; cc_timer := cc_timer s; cc_next_tx := cc_next_tx s;
     cc_queue := cc_queue s; cc_armed := cc_armed s; cc_expired := cc_expired s;
     cc_next_timer := cc_next_timer s; cc_calls := cc_calls s |}.

Definition with_current (s : client) (c : option prequest) : client :=
  {| cc_shutdown := cc_shutdown s; cc_parser := cc_parser s; cc_pending := cc_pending s;
     cc_current := c; cc_timer := cc_timer s; cc_next_tx := cc_next_tx s;
     cc_queue := cc_queue s; cc_armed := cc_armed s; cc_expired := cc_expired s;
     cc_next_timer := cc_next_timer s; cc_calls := cc_calls s |}.

Definition with_next_tx (s : client) (tx : N) : client :=
  {| cc_shutdown := cc_shutdown s; cc_parser := cc_parser s; cc_pending := cc_pending s;
     cc_current := cc_current s; cc_timer := cc_timer s; cc_next_tx := tx;
     cc_queue := cc_queue s; cc_armed := cc_armed s; cc_expired := cc_expired s;
     cc_next_timer := cc_next_timer s; cc_calls := cc_calls s |}.

Definition with_timers (s : client) (timer : option nat) (armed expired : list nat) (next : nat) : client :=
  {| cc_shutdown := cc_shutdown s; cc_parser := cc_parser s; cc_pending := cc_pending s;
     cc_current := cc_current s; cc_timer := timer; cc_next_tx := cc_next_tx s;
     cc_queue := cc_queue s; cc_armed := armed; cc_expired := expired;
     cc_next_timer := next; cc_calls := cc_calls s |}.

Definition with_shutdown (s : client) : client :=
  {| cc_shutdown := true; cc_parser := cc_parser s; cc_pending := cc_pending s;
     cc_current := cc_current s; cc_timer := cc_timer s; cc_next_tx := cc_next_tx s;
     cc_queue := cc_queue s; cc_armed := cc_armed s; cc_expired := cc_expired s;
     cc_next_timer := cc_next_timer s; cc_calls := cc_calls s |}.

(** ClientChannelTcp.cpp:60-92 and :94-112: what the calling thread does. *)
Definition capi_call (s : client) (a : capi) : client * list coutput :=
  match a with
  | Submit k =>
      let i := cc_calls s in
      let q :=
        if cc_shutdown s then cc_queue s
        else if im_valid (k_msg k) then cc_queue s ++ [DoSend i k]
        else cc_queue s ++ [DoReject i] in
      (with_queue s q (S i), [Called i k])
  | Shutdown => (with_queue s (cc_queue s ++ [DoShutdown]) (cc_calls s), [])
  end.

Fixpoint capi_calls (s : client) (l : list capi) : client * list coutput :=
  match l with
  | [] => (s, [])
  | a :: l' =>
      let '(s, o) := capi_call s a in
      let '(s, o') := capi_calls s l' in
      (s, o ++ o')
  end.

(** [m_current_timer.cancel()]: disarms the timer unless it has already expired,
    and forgets it. *)
Definition cancel_timer (s : client) : client :=
  with_timers s None
    match cc_timer s with
    | Some t => filter (fun x => negb (Nat.eqb x t)) (cc_armed s)
    | None => cc_armed s
    end (cc_expired s) (cc_next_timer s).

(** ClientChannelTcp.cpp:170-208 *)
Definition check_pending_requests (s : client) : client * list coutput :=
  if cc_shutdown s then (s, [])
  else
    match cc_current s, cc_pending s with
    | None, p :: ps =>
        let t := cc_next_timer s in
        let s := with_pending (with_current s (Some p)) ps in
        (with_timers s (Some t) (cc_armed s ++ [t]) (cc_expired s) (S t),
         [Sent (pr_id p) (pr_unit p) (pr_tx p) (mbap_build 260 (pr_unit p) (pr_tx p) (pr_msg p));
          Armed (pr_id p) t (pr_timeout p)])
    | _, _ => (s, [])
    end.

(** ClientChannelTcp.cpp:210-219 *)
Definition cancel_current_request (s : client) : client * list coutput :=
  match cc_current s with
  | Some _ => check_pending_requests (cancel_timer (with_current s None))
  | None => (s, [])
  end.

Section Client.
(** User code: handlers with any state [W]; a handler may call the channel's API
    (directly or through a session), which posts closures. *)
Context {W : Type}.
Context (handler : nat -> W -> expected (list N) -> W * list capi).

Definition call_handler (s : client) (w : W) (i : nat) (r : expected (list N))
    : client * W * list coutput :=
  let '(w, calls) := handler i w r in
  let '(s, o) := capi_calls s calls in
  (s, w, Completed i r :: o).

(** ClientChannelTcp.cpp:221-229: the loop, then the clearing. *)
Fixpoint fail_all (s : client) (w : W) (l : list prequest) (msg : string)
    : client * W * list coutput :=
  match l with
  | [] => (s, w, [])
  | p :: l' =>
      let '(s, w, o) := call_handler s w (pr_id p) (Error (EConnection msg)) in
      let '(s, w, o') := fail_all s w l' msg in
      (s, w, o ++ o')
  end.

Definition cancel_all_pending_requests (s : client) (w : W) (msg : string)
    : client * W * list coutput :=
  let '(s, w, o) := fail_all s w (cc_pending s) msg in
  (with_pending s [], w, o).

(** ClientChannelTcp.cpp:123-138 *)
Definition on_error (s : client) (w : W) (msg : string) : client * W * list coutput :=
  if cc_shutdown s then (s, w, [])
  else
    let s := with_parser s (mbap_reset (cc_parser s)) in
    let '(s, w, o) := cancel_all_pending_requests s w msg in
    match cc_current s with
    | Some p =>
        let '(s, w, o') := call_handler s w (pr_id p) (Error (EConnection msg)) in
        let '(s, o'') := cancel_current_request s in
        (s, w, o ++ o' ++ o'')
    | None => (s, w, o)
    end.

(** ClientChannelTcp.cpp:140-168 *)
Definition on_response (s : client) (w : W) (m : mbap_message) : client * W * list coutput :=
  if cc_shutdown s then (s, w, [])
  else
    match cc_current s with
    | Some p =>
        if (mb_tx m =? pr_tx p) && (mb_unit m =? pr_unit p) then
          let s := cancel_timer s in
          let '(s, w, o) := call_handler s w (pr_id p) (Value (mb_data m)) in
          let '(s, o') := check_pending_requests (with_current s None) in
          (s, w, o ++ o')
        else (s, w, [])
    | None => (s, w, [])
    end.

(** The calls of [on_mbap_message] made by one [m_parser.parse]. *)
Fixpoint on_responses (s : client) (w : W) (ms : list mbap_message) : client * W * list coutput :=
  match ms with
  | [] => (s, w, [])
  | m :: ms' =>
      let '(s, w, o) := on_response s w m in
      let '(s, w, o') := on_responses s w ms' in
      (s, w, o ++ o')
  end.

(** ClientChannelTcp.cpp:114-121 *)
Definition on_receive (pol : copy_policy) (s : client) (w : W) (data : list N)
    : outcome (client * W * list coutput) :=
  if cc_shutdown s then Ret (s, w, [])
  else
    let! (p, ms) := mbap_parse pol (cc_parser s) data in
    Ret (on_responses (with_parser s p) w ms).

(** ClientChannelTcp.cpp:195-206: the action of every timer. *)
Definition on_timeout (s : client) (w : W) : client * W * list coutput :=
  if cc_shutdown s then (s, w, [])
  else
    match cc_current s with
    | Some p =>
        let '(s, w, o) := call_handler s w (pr_id p) (Error ETimeout) in
        let '(s, o') := cancel_current_request s in
        (s, w, o ++ o')
    | None => (s, w, [])
    end.

(** The bodies of the posted closures; [++m_next_transaction_id] is
    TransactionIdentifier.cpp:43-47. *)
Definition run_ctask (s : client) (w : W) (t : ctask) : client * W * list coutput :=
  match t with
  | DoSend i k =>
      if cc_shutdown s then (s, w, [])
      else
        let p := {| pr_id := i; pr_unit := k_unit k; pr_tx := cc_next_tx s;
                    pr_msg := k_msg k; pr_timeout := k_timeout k |} in
        let s := with_pending s (cc_pending s ++ [p]) in
        let s := with_next_tx s (to_u16 (cc_next_tx s + 1)) in
        let '(s, o) := check_pending_requests s in
        (s, w, o)
  | DoReject i => call_handler s w i (Error EMalformedRequest)
  | DoShutdown =>
      let s := with_shutdown s in
      let s := cancel_timer (with_current (with_pending s []) None) in
      (s, w, [TcpShutdown])
  end.

Definition client_step (pol : copy_policy) (s : client) (w : W) (e : cevent)
    : outcome (client * W * list coutput) :=
  match e with
  | CApi a => let '(s, o) := capi_call s a in Ret (s, w, o)
  | CRun =>
      match cc_queue s with
      | [] => Ret (s, w, [])
      | t :: q => Ret (run_ctask (with_queue s q (cc_calls s)) w t)
      end
  | CReceive data => on_receive pol s w data
  | CError msg => Ret (on_error s w msg)
  | CExpire t =>
      if existsb (Nat.eqb t) (cc_armed s)
      then Ret (with_timers s (cc_timer s) (filter (fun x => negb (Nat.eqb x t)) (cc_armed s))
                  (cc_expired s ++ [t]) (cc_next_timer s), w, [])
      else Ret (s, w, [])
  | CFire t =>
      if existsb (Nat.eqb t) (cc_expired s)
      then Ret (on_timeout (with_timers s (cc_timer s) (cc_armed s)
                  (filter (fun x => negb (Nat.eqb x t)) (cc_expired s)) (cc_next_timer s)) w)
      else Ret (s, w, [])
  end.

Fixpoint client_run (pol : copy_policy) (s : client) (w : W) (es : list cevent)
    : outcome (client * W * list coutput) :=
  match es with
  | [] => Ret (s, w, [])
  | e :: es' =>
      let! (s, w, o) := client_step pol s w e in
      let! (s, w, o') := client_run pol s w es' in
      Ret (s, w, o ++ o')
  end.
End Client.
