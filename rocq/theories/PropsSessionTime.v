(** C114: when users of sessions are told something, and when scheduled requests are
    repeated. *)
From Verif Require Import Prelude Ser4 Messages Mbap SpecMbap Client SpecClient SpecClientTime Scheduled SpecScheduled SessionCall Session SpecSession
  SpecSessionTime SystemCases SessionCases SessionTimed SessionTimeRun SessionTimeCases.

(** Whatever the peer and the users do, the handler of a one-time request is called at the
    latest after the timeouts of the valid requests of all sessions that were made before
    and are still unanswered, and its own timeout.  Each step may be late by [eps]. *)
Theorem C114_told_in_time_partial : forall (W : Type) (user : source -> W -> expected response -> W * list kapi)
    pol eps now k ages os a c i q b x r t,
  timed_sessions user pol eps now k ages os -> os = a ++ (c, Channel (Called i q)) :: b -> In (Issued i x r t) (map snd os) ->
  (forall u v, In (u, Answered i v) os -> c <= u <= call_limit eps a c q) /\
  (~ In (Channel TcpShutdown) (map snd os) -> ~ In i (answered_ids (map snd os)) -> now <= call_limit eps a c q).
Proof. exact @told_in_time. Qed.
Print Assumptions C114_told_in_time_partial.

(** So is the handler of a scheduled request, for each of its requests. *)
Theorem C114_polled_in_time_partial : forall (W : Type) (user : source -> W -> expected response -> W * list kapi)
    pol eps now k ages os a c i q b j n,
  timed_sessions user pol eps now k ages os -> os = a ++ (c, Channel (Called i q)) :: b -> In (Repeated i j n) (map snd os) ->
  (forall u v, In (u, Polled j (Response n v)) os -> c <= u <= call_limit eps a c q) /\
  (~ In (Channel TcpShutdown) (map snd os) -> (forall v, ~ In (Polled j (Response n v)) (map snd os)) -> now <= call_limit eps a c q).
Proof. exact @polled_in_time. Qed.
Print Assumptions C114_polled_in_time_partial.

(** A scheduled request is started, and its first request made, as soon as its closure
    runs. *)
Theorem C114_first_request : forall (W : Type) (user : source -> W -> expected response -> W * list kapi)
    pol eps now k ages os j c x r t f,
  timed_sessions user pol eps now k ages os -> In (c, Scheduled j x r t f) os ->
  (exists y n, In (y, Polled j Started) os /\ In (y, Polled j (Request n)) os /\ c <= y <= c + eps) \/ now <= c + eps.
Proof. exact @first_request. Qed.
Print Assumptions C114_first_request.

(** When a timer with frequency [f] has been started the next request is made after [f],
    unless the scheduled request is stopped. *)
Theorem C114_next_request : forall (W : Type) (user : source -> W -> expected response -> W * list kapi)
    pol eps now k ages os j a c t f b,
  timed_sessions user pol eps now k ages os -> os = a ++ (c, Polled j (Wait t f)) :: b ->
  (exists x n, In (x, Polled j (Request n)) b /\ c + f <= x <= c + f + eps) \/
  (exists x, In (x, Polled j Stopped) b) \/ now <= c + f + eps.
Proof. exact @next_request. Qed.
Print Assumptions C114_next_request.

(** No request is made otherwise: it is the first one after a start, or some timer has
    run for its whole time. *)
Theorem C114_request_not_early : forall (W : Type) (user : source -> W -> expected response -> W * list kapi)
    pol eps now k ages os j a x n b,
  timed_sessions user pol eps now k ages os -> os = a ++ (x, Polled j (Request n)) :: b ->
  (exists a', a = a' ++ [(x, Polled j Started)]) \/ exists c t f, In (c, Polled j (Wait t f)) a /\ c + f <= x.
Proof. exact @request_not_early. Qed.
Print Assumptions C114_request_not_early.

(** A scheduled request that runs, on a channel that is not shut down: each request gets
    its response within its limit, and the next request is made [f] after the response. *)
Theorem C114_polling_period_partial : forall (W : Type) (user : source -> W -> expected response -> W * list kapi)
    pol eps now k ages os j x r tt f a c n b i a' c' q b',
  timed_sessions user pol eps now k ages os ->
  os = a ++ (c, Polled j (Request n)) :: b -> In (Scheduled j x r tt f) (map snd os) ->
  polling (of_poll j (map snd a)) = true -> ~ In (Polled j Stopped) (map snd b) -> (forall g, ~ In (Polled j (Frequency g)) (map snd os)) ->
  ~ In (Channel TcpShutdown) (map snd os) ->
  In (Repeated i j n) (map snd os) -> os = a' ++ (c', Channel (Called i q)) :: b' ->
  now <= call_limit eps a' c' q + f + eps \/
  exists u v y m, In (u, Polled j (Response n v)) b /\ c <= u <= call_limit eps a' c' q /\
    In (y, Polled j (Request m)) b /\ (n < m)%nat /\ u + f <= y <= u + f + eps.
Proof. exact @polling_period. Qed.
Print Assumptions C114_polling_period_partial.

(** The "frequency" is the time from a response to the next request, not the time from
    one request to the next. *)
Theorem C114_frequency_refuted :
  ~ (forall (W : Type) (user : source -> W -> expected response -> W * list kapi) pol eps now k ages os j x r t f a c n b,
     timed_sessions user pol eps now k ages os -> os = a ++ (c, Polled j (Request n)) :: b -> In (Scheduled j x r t f) (map snd os) ->
     ~ In (Polled j Stopped) (map snd os) -> (forall g, ~ In (Polled j (Frequency g)) (map snd os)) -> ~ In (Channel TcpShutdown) (map snd os) ->
     (exists y m, In (y, Polled j (Request m)) b /\ (n < m)%nat /\ y <= c + f + 2 * eps) \/ now <= c + f + 2 * eps).
Proof. exact frequency_refuted. Qed.
Print Assumptions C114_frequency_refuted.

(** Between a response and the next request there is at least the frequency, provided
    that the scheduled request is started only once. *)
Theorem C114_requests_spaced_partial : forall (W : Type) (user : source -> W -> expected response -> W * list kapi)
    pol eps now k ages os j x r tt f a y n b u m v,
  timed_sessions user pol eps now k ages os -> os = a ++ (y, Polled j (Request n)) :: b ->
  In (Scheduled j x r tt f) (map snd os) -> (forall g, ~ In (Polled j (Frequency g)) (map snd os)) ->
  (starts (of_poll j (map snd os)) <= 1)%nat -> In (u, Polled j (Response m v)) a -> u + f <= y.
Proof. exact @requests_spaced. Qed.
Print Assumptions C114_requests_spaced_partial.

(** One that is stopped and started again repeats its request twice as often. *)
Theorem C114_requests_spaced_refuted :
  ~ (forall (W : Type) (user : source -> W -> expected response -> W * list kapi) pol eps now k ages os j x r t f a y n b u m v,
     timed_sessions user pol eps now k ages os -> os = a ++ (y, Polled j (Request n)) :: b -> In (Scheduled j x r t f) (map snd os) ->
     (forall g, ~ In (Polled j (Frequency g)) (map snd os)) -> In (u, Polled j (Response m v)) a -> u + f <= y).
Proof. exact spaced_refuted. Qed.
Print Assumptions C114_requests_spaced_refuted.

(** What the methods of a scheduled request are called for is done after [eps]. *)
Theorem C114_methods_in_time : forall (W : Type) (user : source -> W -> expected response -> W * list kapi)
    pol eps now k ages os j c x r t f,
  timed_sessions user pol eps now k ages os -> In (c, Scheduled j x r t f) os ->
  (forall y o, In (y, o) os -> concerns j o = true -> y + eps < now) ->
  (is_running k j, frequency k j) = meant j (map snd os).
Proof. exact @methods_in_time. Qed.
Print Assumptions C114_methods_in_time.

(** The limits do not stop the clock, whatever the users do: every history can go on up to
    any time. *)
Theorem C114_time_goes_on : forall (W : Type) (user : source -> W -> expected response -> W * list kapi) pol eps now k ages os later,
  0 < eps -> timed_sessions user pol eps now k ages os -> now <= later ->
  exists k' ages' os', timed_sessions user pol eps later k' ages' (os ++ os').
Proof. exact @session_time_reaches. Qed.
Print Assumptions C114_time_goes_on.

(** Erasing the times gives the histories of the other properties. *)
Theorem C114_times_erased : forall (W : Type) (user : source -> W -> expected response -> W * list kapi) pol eps now k ages os,
  timed_sessions user pol eps now k ages os -> exists es, stack_history user pol es k (map snd os).
Proof. exact @erased. Qed.
Print Assumptions C114_times_erased.

(** A scheduled request with timeout 20 and frequency 50, whose second and third requests
    are not answered, and a one-time request meanwhile. *)
Example C114_periodic : exists k ages os, timed_sessions quiet_user AllOrNothing 1 180 k ages os /\
  shown_polls os =
    [(5, Scheduled 0 0 read1 (Some 20) 50); (6, Polled 0 Started); (6, Polled 0 (Request 0)); (6, Repeated 0 0 0);
     (20, Polled 0 (Response 0 answer1)); (20, Polled 0 (Wait 0 50)); (71, Polled 0 (Request 1)); (71, Repeated 1 0 1);
     (92, Polled 0 (Response 1 (Error ETimeout))); (92, Polled 0 (Wait 1 50)); (142, Polled 0 (Request 2)); (142, Repeated 2 0 2);
     (143, Issued 3 0 read1 None); (164, Polled 0 (Response 2 (Error ETimeout))); (164, Polled 0 (Wait 2 50)); (170, Answered 3 answer1)] /\
  (exists a q b, os = a ++ (142, Channel (Called 2 q)) :: b /\ call_limit 1 a 142 q = 164) /\
  (exists a q b, os = a ++ (143, Channel (Called 3 q)) :: b /\ call_limit 1 a 143 q = 266) /\
  ~ In (Channel TcpShutdown) (map snd os) /\ (is_running k 0, frequency k 0) = (true, 50).
Proof. exact periodic_history. Qed.
Print Assumptions C114_periodic.
