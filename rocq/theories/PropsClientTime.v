(** C108: when the requests of a client channel are completed. *)
From Verif Require Import Prelude Ser4 Messages Mbap SpecMbap Client SpecClient SpecClientTime
  ClientCases ClientTime ClientTimeRun ClientTimeCases.

(** Whatever the peer and the handlers do, the handler of a request that is made at time
    [c] is called at the latest after the timeouts of the valid requests that were made
    before and are still unanswered, and its own timeout; an invalid request is completed
    as soon as its closure runs.  Each step may be late by [eps]. *)
Theorem C108_completed_in_time_partial : forall (W : Type) (handler : nat -> W -> expected (list N) -> W * list capi)
    pol prompt eps now s w os a c i k b,
  timed_history handler pol prompt eps now s w os -> os = a ++ (c, Called i k) :: b ->
  (forall t r, In (t, Completed i r) os ->
     c <= t <= if im_valid (k_msg k) then time_limit eps a c (k_timeout k) else c + eps) /\
  (~ In TcpShutdown (map snd os) -> ~ In i (completed_ids (map snd os)) ->
   now <= if im_valid (k_msg k) then time_limit eps a c (k_timeout k) else c + eps).
Proof. exact @completed_in_time. Qed.
Print Assumptions C108_completed_in_time_partial.

(** With nothing else unanswered: its own timeout. *)
Theorem C108_alone_in_time_partial : forall (W : Type) (handler : nat -> W -> expected (list N) -> W * list capi)
    pol prompt eps now s w os a c i k b,
  timed_history handler pol prompt eps now s w os -> os = a ++ (c, Called i k) :: b -> unanswered a = [] ->
  (forall t r, In (t, Completed i r) os -> c <= t <= c + k_timeout k + 2 * eps) /\
  (~ In TcpShutdown (map snd os) -> ~ In i (completed_ids (map snd os)) -> now <= c + k_timeout k + 2 * eps).
Proof. exact @alone_in_time. Qed.
Print Assumptions C108_alone_in_time_partial.

(** A request that has to wait for others is not completed within its timeout: the timer
    is started when the request is sent. *)
Theorem C108_own_timeout_refuted :
  ~ (forall (handler : nat -> unit -> expected (list N) -> unit * list capi) pol eps now s w os c i k t r,
     timed_history handler pol true eps now s w os -> In (c, Called i k) os -> In (t, Completed i r) os ->
     t <= c + k_timeout k + 2 * eps).
Proof. exact own_timeout_refuted. Qed.
Print Assumptions C108_own_timeout_refuted.

(** A request does not time out before its timeout has elapsed since it was sent, provided
    that the action of a timer runs as soon as the timer expires. *)
Theorem C108_not_too_early_partial : forall (W : Type) (handler : nat -> W -> expected (list N) -> W * list capi)
    pol eps now s w os i t,
  timed_history handler pol true eps now s w os -> In (t, Completed i (Error ETimeout)) os ->
  exists a tm k, In (Called i k) (map snd os) /\ In (a, Armed i tm (k_timeout k)) os /\ a + k_timeout k <= t.
Proof. exact @not_too_early. Qed.
Print Assumptions C108_not_too_early_partial.

(** Otherwise it can time out at the moment when it is sent. *)
Theorem C108_not_too_early_refuted :
  ~ (forall (handler : nat -> unit -> expected (list N) -> unit * list capi) pol eps now s w os i t a tm d,
     timed_history handler pol false eps now s w os -> In (t, Completed i (Error ETimeout)) os ->
     In (a, Armed i tm d) os -> a + d <= t).
Proof. exact not_too_early_refuted. Qed.
Print Assumptions C108_not_too_early_refuted.

(** The limits do not stop the clock: whatever has happened, every later time can be
    reached. *)
Theorem C108_time_goes_on : forall (W : Type) (handler : nat -> W -> expected (list N) -> W * list capi)
    pol prompt eps now s w os later,
  0 < eps -> timed_history handler pol prompt eps now s w os -> now <= later ->
  exists s' w' os', timed_history handler pol prompt eps later s' w' (os ++ os').
Proof. exact @time_reaches. Qed.
Print Assumptions C108_time_goes_on.

(** Erasing the times gives the histories of the other properties. *)
Theorem C108_times_erased : forall (W : Type) (handler : nat -> W -> expected (list N) -> W * list capi)
    pol prompt eps now s w os,
  timed_history handler pol prompt eps now s w os -> exists es, history handler pol es s w (map snd os).
Proof. exact @times_erased. Qed.
Print Assumptions C108_times_erased.

(** Two requests that are not answered, made at time 50 with timeout 100; the second one
    is completed at its limit. *)
Example C108_case : exists s os, timed_history idle Truncate true 1 1000 s tt os /\
  (exists a b, os = a ++ (50, Called 1 read_call) :: b /\ time_limit 1 a 50 (k_timeout read_call) = 253) /\
  In (253, Completed 1 (Error ETimeout)) os /\ ~ In TcpShutdown (map snd os).
Proof. exact unanswered_history. Qed.
