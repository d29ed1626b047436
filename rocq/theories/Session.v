(** Model of lib/src/client/session/ClientSessionImpl.cpp: the sessions of a client
    channel (Client.v) and their scheduled requests (Scheduled.v).

    Sessions, scheduled requests and calls of the channel's [send_request] are numbered
    in the order of their creation.  The closures posted by the sessions and their
    scheduled requests are executed in FIFO order, and so are those posted by the
    channel; the model lets the two queues, which are one in the program, interleave
    freely. *)
From Verif Require Import Prelude Ser4 Messages Mbap Client Scheduled SessionCall.

Inductive kapi : Type :=
| Open (unit timeout : N)                                        (* IClientChannel::create_session *)
| Send (x : nat) (r : request) (timeout : option N)              (* IClientSession::send_request *)
| Schedule (x : nat) (r : request) (timeout : option N) (f : N)  (* IClientSession::schedule_request *)
| OnSchedule (j : nat) (a : sapi)                                (* IScheduledRequest *)
| CloseSession (x : nat)                                         (* IClientSession::shutdown *)
| CloseChannel.                                                  (* IClientChannel::shutdown *)

Inductive kclosure : Type :=
| RunPoll (j : nat)                              (* a closure of scheduled request [j] *)
| Register (x j : nat)                           (* ClientSessionImpl.cpp:274-276 *)
| StopAll (x : nat).                             (* ClientSessionImpl.cpp:57-64 *)

(** ClientSessionImpl.h: the unit, the default timeout, m_scheduled_requests. *)
Record session : Type := { ss_unit : N; ss_timeout : N; ss_listed : list nat }.

(** A scheduled request: what it was created with, and its state. *)
Record poll : Type := { po_session : nat; po_request : request; po_timeout : N; po_sched : sched }.

(** Whose handler is behind a call of the channel's [send_request]. *)
Inductive owner : Type := ByUser (r : request) | ByPoll (j n : nat).

(** The users' handlers: of a one-time request (the number of the call), and of the
    [n]-th request of scheduled request [j]. *)
Inductive source : Type := Once (i : nat) | Polling (j n : nat).

Inductive koutput : Type :=
| Channel (o : coutput)                          (* of the channel *)
| Asked (a : kapi)                               (* an API call of users, handlers or the library *)
| Opened (x : nat) (unit timeout : N)            (* session [x] was created *)
| Issued (i x : nat) (r : request) (timeout : option N)
                                                 (* one-time request: call [i] of the channel *)
| Answered (i : nat) (v : expected response)     (* its handler is called *)
| Scheduled (j x : nat) (r : request) (timeout : option N) (f : N)
                                                 (* scheduled request [j] was created *)
| Polled (j : nat) (o : soutput (expected response))
                                                 (* of scheduled request [j] *)
| Repeated (i j n : nat).                        (* its [n]-th request: call [i] of the channel *)

Inductive kevent : Type :=
| KApi (a : kapi)                                (* a call from any thread *)
| KRun                                           (* the next posted closure, not of the channel *)
| KExpire (j t : nat)                            (* a timer of scheduled request [j] expires *)
| KFire (j t : nat)                              (* its action is executed *)
| KChannel (e : cevent).                         (* an event of the channel, not an API call *)

(** Everything but the channel's own state; [ks_open] is its member m_sessions,
    [ks_shutdown] is its flag, [ks_log] what the current event has shown so far and
    [ks_bad] says whether there was undefined behaviour. *)
Record sessions (W : Type) : Type := {
  ks_user : W;
  ks_shutdown : bool;
  ks_sessions : list session;
  ks_open : list nat;
  ks_polls : list poll;
  ks_queue : list kclosure;
  ks_owners : list owner;
  ks_log : list koutput;
  ks_bad : bool
}.
Arguments ks_user {W}. Arguments ks_shutdown {W}. Arguments ks_sessions {W}. Arguments ks_open {W}.
Arguments ks_polls {W}. Arguments ks_queue {W}. Arguments ks_owners {W}. Arguments ks_log {W}. Arguments ks_bad {W}.

Fixpoint update {A : Type} (l : list A) (n : nat) (a : A) : list A :=
  match l, n with
  | [], _ => []
  | _ :: l', O => a :: l'
  | b :: l', S n' => b :: update l' n' a
  end.

Section Sessions.
Context {W : Type}.
Context (user : source -> W -> expected response -> W * list kapi).
Implicit Type z : sessions W.

Definition sessions_init (w : W) : sessions W :=
  {| ks_user := w; ks_shutdown := false; ks_sessions := []; ks_open := []; ks_polls := []; ks_queue := []; ks_owners := [];
     ks_log := []; ks_bad := false |}.

Definition with_user z w : sessions W :=
  {| ks_user := w; ks_shutdown := ks_shutdown z; ks_sessions := ks_sessions z; ks_open := ks_open z; ks_polls := ks_polls z;
     ks_queue := ks_queue z; ks_owners := ks_owners z; ks_log := ks_log z; ks_bad := ks_bad z |}.
Definition with_closed z : sessions W :=
  {| ks_user := ks_user z; ks_shutdown := true; ks_sessions := ks_sessions z; ks_open := []; ks_polls := ks_polls z;
     ks_queue := ks_queue z; ks_owners := ks_owners z; ks_log := ks_log z; ks_bad := ks_bad z |}.
Definition with_sessions z l o : sessions W :=
  {| ks_user := ks_user z; ks_shutdown := ks_shutdown z; ks_sessions := l; ks_open := o; ks_polls := ks_polls z;
     ks_queue := ks_queue z; ks_owners := ks_owners z; ks_log := ks_log z; ks_bad := ks_bad z |}.
Definition with_polls z l : sessions W :=
  {| ks_user := ks_user z; ks_shutdown := ks_shutdown z; ks_sessions := ks_sessions z; ks_open := ks_open z; ks_polls := l;
     ks_queue := ks_queue z; ks_owners := ks_owners z; ks_log := ks_log z; ks_bad := ks_bad z |}.
Definition with_kqueue z q : sessions W :=
  {| ks_user := ks_user z; ks_shutdown := ks_shutdown z; ks_sessions := ks_sessions z; ks_open := ks_open z; ks_polls := ks_polls z;
     ks_queue := q; ks_owners := ks_owners z; ks_log := ks_log z; ks_bad := ks_bad z |}.
Definition with_owner z o : sessions W :=
  {| ks_user := ks_user z; ks_shutdown := ks_shutdown z; ks_sessions := ks_sessions z; ks_open := ks_open z; ks_polls := ks_polls z;
     ks_queue := ks_queue z; ks_owners := ks_owners z ++ [o]; ks_log := ks_log z; ks_bad := ks_bad z |}.
Definition with_log z l : sessions W :=
  {| ks_user := ks_user z; ks_shutdown := ks_shutdown z; ks_sessions := ks_sessions z; ks_open := ks_open z; ks_polls := ks_polls z;
     ks_queue := ks_queue z; ks_owners := ks_owners z; ks_log := l; ks_bad := ks_bad z |}.
Definition with_bad z : sessions W :=
  {| ks_user := ks_user z; ks_shutdown := ks_shutdown z; ks_sessions := ks_sessions z; ks_open := ks_open z; ks_polls := ks_polls z;
     ks_queue := ks_queue z; ks_owners := ks_owners z; ks_log := ks_log z; ks_bad := true |}.

Definition show z (l : list koutput) : sessions W := with_log z (ks_log z ++ l).
Definition kpost z (l : list kclosure) : sessions W := with_kqueue z (ks_queue z ++ l).

Definition set_sched z (j : nat) (p : poll) (s : sched) : sessions W :=
  with_polls z (update (ks_polls z) j
    {| po_session := po_session p; po_request := po_request p; po_timeout := po_timeout p; po_sched := s |}).

(** A method of scheduled request [j] posts a closure (ScheduledRequest.hpp:46-76). *)
Definition post_poll z (j : nat) (a : sapi) : sessions W :=
  match nth_error (ks_polls z) j with
  | Some p => kpost (set_sched z j p (with_posted (po_sched p) [a])) [RunPoll j]
  | None => z
  end.

(** What the calling thread does, and which calls of the channel it makes.
    ClientChannelTcp.cpp:43-58; ClientSessionImpl.cpp:67-71 etc. and :241-258;
    :177-182 etc. and :261-279; :55-65. *)
Definition kapi_call z (a : kapi) : sessions W * list capi :=
  let z := show z [Asked a] in
  match a with
  | Open u t =>
      if ks_shutdown z then (z, [])
      else
        let x := List.length (ks_sessions z) in
        (show (with_sessions z (ks_sessions z ++ [{| ss_unit := u; ss_timeout := t; ss_listed := [] |}])
                 (ks_open z ++ [x])) [Opened x u t], [])
  | Send x r t =>
      match nth_error (ks_sessions z) x with
      | Some s => (with_owner (show z [Issued (List.length (ks_owners z)) x r t]) (ByUser r),
                   [Submit (session_call (ss_unit s) r (match t with Some t => t | None => ss_timeout s end))])
      | None => (z, [])
      end
  | Schedule x r t f =>
      match nth_error (ks_sessions z) x with
      | Some s =>
          let j := List.length (ks_polls z) in
          let p := {| po_session := x; po_request := r; po_timeout := match t with Some t => t | None => ss_timeout s end;
                      po_sched := sched_init f |} in
          let z := post_poll (show (with_polls z (ks_polls z ++ [p])) [Scheduled j x r t f]) j Start in
          (kpost z [Register x j], [])
      | None => (z, [])
      end
  | OnSchedule j a => (post_poll z j a, [])
  | CloseSession x =>
      match nth_error (ks_sessions z) x with
      | Some _ => (kpost z [StopAll x], [])
      | None => (z, [])
      end
  | CloseChannel => (z, [Client.Shutdown])
  end.

Fixpoint kapi_calls z (l : list kapi) : sessions W * list capi :=
  match l with
  | [] => (z, [])
  | a :: l' =>
      let '(z, c) := kapi_call z a in
      let '(z, c') := kapi_calls z l' in
      (z, c ++ c')
  end.

(** The requests among the outputs of scheduled request [j] are given to the channel
    by its session (ScheduledRequest.hpp:93, ClientSessionImpl.cpp:241-258). *)
Fixpoint poll_requests z (j : nat) (p : poll) (o : list (soutput (expected response))) : sessions W * list capi :=
  match o with
  | [] => (z, [])
  | Request n :: o' =>
      let '(z, c) := poll_requests (with_owner (show z [Repeated (List.length (ks_owners z)) j n]) (ByPoll j n)) j p o' in
      (z, Submit (session_call match nth_error (ks_sessions z) (po_session p) with Some s => ss_unit s | None => 0 end
                    (po_request p) (po_timeout p)) :: c)
  | _ :: o' => poll_requests z j p o'
  end.

Definition no_calls (n : nat) (w : unit) (r : expected response) : unit * list sapi := (w, []).

(** One step of scheduled request [j]; the calls its user makes are treated separately. *)
Definition poll_step z (j : nat) (e : sevent (expected response)) : sessions W * list capi :=
  match nth_error (ks_polls z) j with
  | Some p =>
      let '(s, _, o) := sched_step no_calls (po_sched p) tt e in
      poll_requests (show (set_sched z j p s) (map (Polled j) o)) j p o
  | None => (z, [])
  end.

(** The handler given to the channel for call [i] (ClientSessionImpl.cpp:246-257):
    parses the response and calls the handler of the user, which may call the API, or
    that of a scheduled request (ScheduledRequest.hpp:93-106), which calls its user's
    handler.  The calls the latter makes only post closures or submit requests, so it
    makes no difference that they come after the timer is started here. *)
Definition on_completion (i : nat) z (x : expected (list N)) : sessions W * list capi :=
  match nth_error (ks_owners z) i with
  | None => (z, [])
  | Some (ByUser r) =>
      match session_result r x with
      | UB => (with_bad z, [])
      | Ret v =>
          let '(w, calls) := user (Once i) (ks_user z) v in
          kapi_calls (show (with_user z w) [Answered i v]) calls
      end
  | Some (ByPoll j n) =>
      match nth_error (ks_polls z) j with
      | None => (z, [])
      | Some p =>
          match session_result (po_request p) x with
          | UB => (with_bad z, [])
          | Ret v =>
              let '(w, calls) := user (Polling j n) (ks_user z) v in
              let '(z, c) := poll_step (with_user z w) j (SAnswer n v) in
              let '(z, c') := kapi_calls z calls in
              (z, c ++ c')
          end
      end
  end.

(** The bodies of the closures. *)
Definition run_kclosure z (c : kclosure) : sessions W * list capi :=
  match c with
  | RunPoll j => poll_step z j SRun
  | Register x j =>
      match nth_error (ks_sessions z) x with
      | Some s => (with_sessions z (update (ks_sessions z) x
                     {| ss_unit := ss_unit s; ss_timeout := ss_timeout s; ss_listed := ss_listed s ++ [j] |}) (ks_open z), [])
      | None => (z, [])
      end
  | StopAll x =>
      match nth_error (ks_sessions z) x with
      | Some s =>
          let '(z, c) := kapi_calls z (map (fun j => OnSchedule j Stop) (ss_listed s)) in
          (with_sessions z (update (ks_sessions z) x {| ss_unit := ss_unit s; ss_timeout := ss_timeout s; ss_listed := [] |}) (ks_open z), c)
      | None => (z, [])
      end
  end.

Record stack : Type := { st_channel : client; st_rest : sessions W }.

(** A new channel without sessions. *)
Definition stack_init (buf : list N) (w : W) : stack := {| st_channel := client_init buf; st_rest := sessions_init w |}.

(** The calls [c] of the channel are made. *)
Definition finish (s : client) (x : sessions W * list capi) : outcome (stack * list koutput) :=
  let '(z, c) := x in
  let '(s, o) := capi_calls s c in
  Ret ({| st_channel := s; st_rest := with_log z [] |}, map Channel o ++ ks_log z).

(** ClientChannelTcp.cpp:100-104: the shutdown of the channel shuts its sessions down. *)
Definition close_sessions z (o : list coutput) : sessions W :=
  if existsb (fun x => match x with TcpShutdown => true | _ => false end) o
  then fst (kapi_calls (with_closed z) (map CloseSession (ks_open z)))
  else z.

Definition stack_step (pol : copy_policy) (k : stack) (e : kevent) : outcome (stack * list koutput) :=
  let s := st_channel k in
  let z := st_rest k in
  match e with
  | KApi a => finish s (kapi_call z a)
  | KRun =>
      match ks_queue z with
      | [] => Ret (k, [])
      | c :: q => finish s (run_kclosure (with_kqueue z q) c)
      end
  | KExpire j t => finish s (poll_step z j (SExpire t))
  | KFire j t => finish s (poll_step z j (SFire t))
  | KChannel (CApi _) => Ret (k, [])
  | KChannel e =>
      let! (s, z, o) := client_step on_completion pol s z e in
      let z := close_sessions z o in
      Ret ({| st_channel := s; st_rest := with_log z [] |}, map Channel o ++ ks_log z)
  end.

Fixpoint stack_run (pol : copy_policy) (k : stack) (es : list kevent) : outcome (stack * list koutput) :=
  match es with
  | [] => Ret (k, [])
  | e :: es' =>
      let! (k, o) := stack_step pol k e in
      let! (k, o') := stack_run pol k es' in
      Ret (k, o ++ o')
  end.
End Sessions.
Arguments stack W : clear implicits.

(** ScheduledRequest.hpp:84-88 *)
Definition is_running {W : Type} (k : stack W) (j : nat) : bool :=
  match nth_error (ks_polls (st_rest k)) j with
  | Some p => sr_running (po_sched p)
  | None => false
  end.

(** ScheduledRequest.hpp:78-82 *)
Definition frequency {W : Type} (k : stack W) (j : nat) : N :=
  match nth_error (ks_polls (st_rest k)) j with
  | Some p => sr_frequency (po_sched p)
  | None => 0
  end.
