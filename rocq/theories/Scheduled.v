(** Model of lib/src/client/session/ScheduledRequest.hpp: one scheduled request.

    Everything runs on the executor (see Client.v): posted closures in FIFO order,
    timer actions and response handlers one at a time.  The session is open: it may
    answer any request that was sent and not answered yet, at any time.  A timer that
    is overwritten in [m_timer] stays armed: exe4cpp::Timer is a handle that is copied
    and destroyed freely (lib/src/TimerWrapper.cpp:21-25). *)
From Verif Require Import Prelude.

(** The methods of IScheduledRequest that post a closure. *)
Inductive sapi : Type :=
| Start                                          (* ScheduledRequest.hpp:47-56 *)
| Stop                                           (* :59-68 *)
| SetFrequency (f : N).                          (* :71-76 *)

(** What can be observed: requests given to the session, calls of the user's handler,
    started timers, and when the closures of the methods above change something. *)
Inductive soutput (R : Type) : Type :=
| Request (i : nat)                              (* m_session->send_request *)
| Response (i : nat) (r : R)                     (* m_handler *)
| Wait (t : nat) (f : N)                         (* m_executor->start *)
| Started                                        (* m_running becomes true *)
| Stopped                                        (* m_running becomes false *)
| Frequency (f : N).                             (* m_frequency is changed *)
Arguments Request {R} i.
Arguments Response {R} i r.
Arguments Wait {R} t f.
Arguments Started {R}.
Arguments Stopped {R}.
Arguments Frequency {R} f.

Inductive sevent (R : Type) : Type :=
| SApi (a : sapi)                                (* a call from any thread *)
| SRun                                           (* the next posted closure *)
| SAnswer (i : nat) (r : R)                      (* the session answers request [i] *)
| SExpire (t : nat)                              (* timer [t] expires *)
| SFire (t : nat).                               (* the action of timer [t] is executed *)
Arguments SApi {R} a.
Arguments SRun {R}.
Arguments SAnswer {R} i r.
Arguments SExpire {R} t.
Arguments SFire {R} t.

(** ScheduledRequest.h:54-62; then the executor and the session. *)
Record sched : Type := {
  sr_running : bool;
  sr_frequency : N;
  sr_timer : option nat;
  sr_queue : list sapi;
  sr_armed : list nat;
  sr_expired : list nat;
  sr_outstanding : list nat;
  sr_next_timer : nat;
  sr_next_request : nat
}.

(** ScheduledRequest.hpp:28-44 *)
Definition sched_init (f : N) : sched :=
  {| sr_running := false; sr_frequency := f; sr_timer := None; sr_queue := []; sr_armed := [];
     sr_expired := []; sr_outstanding := []; sr_next_timer := 0; sr_next_request := 0 |}.

Definition without (x : nat) (l : list nat) : list nat := filter (fun y => negb (Nat.eqb y x)) l.

Section Scheduled.
Context {R W : Type}.
(** The user's handler may call the methods of the scheduled request. *)
Context (handler : nat -> W -> R -> W * list sapi).

Definition with_posted (s : sched) (l : list sapi) : sched :=
  {| sr_running := sr_running s; sr_frequency := sr_frequency s; sr_timer := sr_timer s;
     sr_queue := sr_queue s ++ l; sr_armed := sr_armed s; sr_expired := sr_expired s;
     sr_outstanding := sr_outstanding s; sr_next_timer := sr_next_timer s; sr_next_request := sr_next_request s |}.

(** ScheduledRequest.hpp:91-107, the call of [send_request]. *)
Definition execute (s : sched) : sched * list (soutput R) :=
  ({| sr_running := sr_running s; sr_frequency := sr_frequency s; sr_timer := sr_timer s;
      sr_queue := sr_queue s; sr_armed := sr_armed s; sr_expired := sr_expired s;
      sr_outstanding := sr_outstanding s ++ [sr_next_request s]; sr_next_timer := sr_next_timer s;
      sr_next_request := S (sr_next_request s) |}, [Request (sr_next_request s)]).

(** ScheduledRequest.hpp:94-106, the handler given to [send_request]. *)
Definition on_answer (s : sched) (w : W) (i : nat) (r : R) : sched * W * list (soutput R) :=
  let '(w, calls) := handler i w r in
  let s := with_posted s calls in
  let s := {| sr_running := sr_running s; sr_frequency := sr_frequency s; sr_timer := sr_timer s;
              sr_queue := sr_queue s; sr_armed := sr_armed s; sr_expired := sr_expired s;
              sr_outstanding := without i (sr_outstanding s); sr_next_timer := sr_next_timer s;
              sr_next_request := sr_next_request s |} in
  if sr_running s then
    let t := sr_next_timer s in
    ({| sr_running := sr_running s; sr_frequency := sr_frequency s; sr_timer := Some t;
        sr_queue := sr_queue s; sr_armed := sr_armed s ++ [t]; sr_expired := sr_expired s;
        sr_outstanding := sr_outstanding s; sr_next_timer := S t; sr_next_request := sr_next_request s |},
     w, [Response i r; Wait t (sr_frequency s)])
  else (s, w, [Response i r]).

(** The closures: ScheduledRequest.hpp:49-55, :61-67, :73-75. *)
Definition run_sapi (s : sched) (a : sapi) : sched * list (soutput R) :=
  match a with
  | Start =>
      if sr_running s then (s, [])
      else
        let '(s, o) := execute
          {| sr_running := true; sr_frequency := sr_frequency s; sr_timer := sr_timer s;
             sr_queue := sr_queue s; sr_armed := sr_armed s; sr_expired := sr_expired s;
             sr_outstanding := sr_outstanding s; sr_next_timer := sr_next_timer s;
             sr_next_request := sr_next_request s |} in
        (s, Started :: o)
  | Stop =>
      if sr_running s then
        ({| sr_running := false; sr_frequency := sr_frequency s; sr_timer := None;
            sr_queue := sr_queue s;
            sr_armed := match sr_timer s with Some t => without t (sr_armed s) | None => sr_armed s end;
            sr_expired := sr_expired s; sr_outstanding := sr_outstanding s;
            sr_next_timer := sr_next_timer s; sr_next_request := sr_next_request s |}, [Stopped])
      else (s, [])
  | SetFrequency f =>
      ({| sr_running := sr_running s; sr_frequency := f; sr_timer := sr_timer s;
          sr_queue := sr_queue s; sr_armed := sr_armed s; sr_expired := sr_expired s;
          sr_outstanding := sr_outstanding s; sr_next_timer := sr_next_timer s;
          sr_next_request := sr_next_request s |}, [Frequency f])
  end.

Definition with_squeue (s : sched) (q : list sapi) : sched :=
  {| sr_running := sr_running s; sr_frequency := sr_frequency s; sr_timer := sr_timer s;
     sr_queue := q; sr_armed := sr_armed s; sr_expired := sr_expired s;
     sr_outstanding := sr_outstanding s; sr_next_timer := sr_next_timer s; sr_next_request := sr_next_request s |}.

Definition with_stimers (s : sched) (armed expired : list nat) : sched :=
  {| sr_running := sr_running s; sr_frequency := sr_frequency s; sr_timer := sr_timer s;
     sr_queue := sr_queue s; sr_armed := armed; sr_expired := expired;
     sr_outstanding := sr_outstanding s; sr_next_timer := sr_next_timer s; sr_next_request := sr_next_request s |}.

Definition sched_step (s : sched) (w : W) (e : sevent R) : sched * W * list (soutput R) :=
  match e with
  | SApi a => (with_posted s [a], w, [])
  | SRun =>
      match sr_queue s with
      | [] => (s, w, [])
      | a :: q => let '(s, o) := run_sapi (with_squeue s q) a in (s, w, o)
      end
  | SAnswer i r =>
      if existsb (Nat.eqb i) (sr_outstanding s) then on_answer s w i r else (s, w, [])
  | SExpire t =>
      if existsb (Nat.eqb t) (sr_armed s)
      then (with_stimers s (without t (sr_armed s)) (sr_expired s ++ [t]), w, [])
      else (s, w, [])
  | SFire t =>                                   (* ScheduledRequest.hpp:102-104 *)
      if existsb (Nat.eqb t) (sr_expired s)
      then let '(s, o) := execute (with_stimers s (sr_armed s) (without t (sr_expired s))) in (s, w, o)
      else (s, w, [])
  end.

Fixpoint sched_run (s : sched) (w : W) (es : list (sevent R)) : sched * W * list (soutput R) :=
  match es with
  | [] => (s, w, [])
  | e :: es' =>
      let '(s, w, o) := sched_step s w e in
      let '(s, w, o') := sched_run s w es' in
      (s, w, o ++ o')
  end.
End Scheduled.
