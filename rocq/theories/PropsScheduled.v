(** Properties C47 to C49: scheduled requests.

    [schedule handler f es s w os] says that the events [es] happening to a new
    scheduled request of frequency [f] lead to the state [s] and the outputs [os].  The
    user's response handler is arbitrary and may call start, stop and set_frequency. *)
From Verif Require Import Prelude Scheduled SpecScheduled ScheduledFacts ScheduledLemmas.

(** ** C47: waiting for the response before the next request does not hold

    [stop] followed by [start] while a request waits for its response begins a second
    polling loop (ScheduledRequest.hpp:46-68). *)
Theorem C47_one_outstanding_refuted :
  ~ (forall f es s w os a i b j c, schedule passive f es s w os ->
     os = a ++ Request i :: b ++ Request j :: c -> exists r, In (Response i r) b).
Proof. exact overlap_refuted. Qed.
Print Assumptions C47_one_outstanding_refuted.

(** It holds for a schedule that is started at most once. *)
Theorem C47_one_outstanding_started_once_partial :
  forall {R W : Type} (handler : nat -> W -> R -> W * list sapi) f es s w os,
  schedule handler f es s w os -> (starts os <= 1)%nat ->
  forall a i b j c, os = a ++ Request i :: b ++ Request j :: c -> exists r, In (Response i r) b.
Proof. exact @started_once. Qed.
Print Assumptions C47_one_outstanding_started_once_partial.

(** It also holds when every start finds all requests answered, provided the action
    of a timer is executed as soon as the timer expires. *)
Theorem C47_one_outstanding_orderly_partial :
  forall {R W : Type} (handler : nat -> W -> R -> W * list sapi) f es s w os,
  prompt_timers es -> schedule handler f es s w os -> restarts_when_answered os ->
  forall a i b j c, os = a ++ Request i :: b ++ Request j :: c -> exists r, In (Response i r) b.
Proof. exact @orderly_one_at_a_time. Qed.
Print Assumptions C47_one_outstanding_orderly_partial.

(** In every history there are at most as many unanswered requests as there were
    starts. *)
Theorem C47_outstanding_bounded :
  forall {R W : Type} (handler : nat -> W -> R -> W * list sapi) f es s w os,
  schedule handler f es s w os -> (List.length (unanswered os) <= starts os)%nat.
Proof. exact @bounded_by_starts. Qed.
Print Assumptions C47_outstanding_bounded.

Example C47_case : exists s os, schedule passive 5 [SApi Start; SRun; SAnswer 0 7; SExpire 0; SFire 0] s tt os /\
  os = [Started; Request 0; Response 0 7; Wait 0 5; Request 1] /\ starts os = 1%nat /\ unanswered os = [1%nat].
Proof.
  do 2 eexists. split; [apply make_schedule; vm_compute; reflexivity|]. split; [reflexivity|]. split; reflexivity.
Qed.

Example C47_bound_reached : exists s os, schedule passive 5 restarted s tt os /\
  unanswered os = [0%nat; 1%nat] /\ starts os = 2%nat.
Proof. do 2 eexists. split; [apply make_schedule; vm_compute; reflexivity|]. split; reflexivity. Qed.

(** ** C48: silence after stop does not hold

    The action of a timer does not check whether polling was stopped
    (ScheduledRequest.hpp:102-104); a timer that expired before the stop ran is not
    cancelled (ITimer.h:39-45). *)
Theorem C48_stopped_silent_refuted :
  ~ (forall f es s w os a b i c, schedule passive f es s w os ->
     os = a ++ Stopped :: b ++ Request i :: c -> In Started b).
Proof. exact stopped_refuted. Qed.
Print Assumptions C48_stopped_silent_refuted.

(** The race with the timer is not the only reason: a restart while a request is
    waiting begins a second loop, and stop only cancels the timer of the loop that
    armed its timer last. *)
Theorem C48_stopped_silent_prompt_refuted :
  ~ (forall f es s w os a b i c, prompt_timers es -> schedule passive f es s w os ->
     os = a ++ Stopped :: b ++ Request i :: c -> In Started b).
Proof. exact stopped_prompt_refuted. Qed.
Print Assumptions C48_stopped_silent_prompt_refuted.

(** Without these two reasons it holds. *)
Theorem C48_stopped_silent_partial :
  forall {R W : Type} (handler : nat -> W -> R -> W * list sapi) f es s w os,
  prompt_timers es -> schedule handler f es s w os -> restarts_when_answered os ->
  forall a b i c, os = a ++ Stopped :: b ++ Request i :: c -> In Started b.
Proof. exact @stopped_silent. Qed.
Print Assumptions C48_stopped_silent_partial.

(** In every history, stopping ends the polling: the requests sent after it, until
    the next start, are at most as many as the starts before it. *)
Theorem C48_stopping_ends_polling :
  forall {R W : Type} (handler : nat -> W -> R -> W * list sapi) f es s w a b,
  schedule handler f es s w (a ++ Stopped :: b) -> ~ In Started b ->
  (List.length (requested b) <= starts a)%nat.
Proof. exact @stopped_stray. Qed.
Print Assumptions C48_stopping_ends_polling.

Example C48_case : exists s os, schedule passive 5 [SApi Start; SRun; SAnswer 0 7; SApi Stop; SRun; SExpire 0; SFire 0] s tt os /\
  os = [Started; Request 0; Response 0 7; Wait 0 5; Stopped].
Proof. do 2 eexists. split; [apply make_schedule; vm_compute; reflexivity|reflexivity]. Qed.

Example C48_stray_case : exists s os, schedule passive 5 late_stop s tt os /\
  os = [Started; Request 0; Response 0 7; Wait 0 5; Stopped; Request 1].
Proof. do 2 eexists. split; [apply make_schedule; vm_compute; reflexivity|reflexivity]. Qed.

(** ** C49: polling *)

(** The getters report the last start or stop and the last frequency set. *)
Theorem C49_getters :
  forall {R W : Type} (handler : nat -> W -> R -> W * list sapi) f es s w os,
  schedule handler f es s w os -> sr_running s = polling os /\ sr_frequency s = frequency_of f os.
Proof. exact @reported. Qed.
Print Assumptions C49_getters.

(** A start sends a request at once. *)
Theorem C49_start_sends :
  forall {R W : Type} (handler : nat -> W -> R -> W * list sapi) f es s w a b,
  schedule handler f es s w (a ++ Started :: b) ->
  exists b', b = Request (List.length (requested a)) :: b'.
Proof. exact @starts_at_once. Qed.
Print Assumptions C49_start_sends.

(** After a response, while polling, a timer of the current frequency is started. *)
Theorem C49_response_starts_timer :
  forall {R W : Type} (handler : nat -> W -> R -> W * list sapi) f es s w a i r b,
  schedule handler f es s w (a ++ Response i r :: b) -> polling a = true ->
  exists t b', b = Wait t (frequency_of f a) :: b'.
Proof. exact @response_cut. Qed.
Print Assumptions C49_response_starts_timer.

(** Timers are only started then. *)
Theorem C49_timer_after_response :
  forall {R W : Type} (handler : nat -> W -> R -> W * list sapi) f es s w a t g b,
  schedule handler f es s w (a ++ Wait t g :: b) ->
  exists a' i r, a = a' ++ [Response i r] /\ g = frequency_of f a /\ polling a = true.
Proof. exact @wait_cut. Qed.
Print Assumptions C49_timer_after_response.

(** Any request that does not come from a start comes from such a timer, which has
    expired. *)
Theorem C49_request_after_timer :
  forall {R W : Type} (handler : nat -> W -> R -> W * list sapi) f es s w a i b,
  schedule handler f es s w (a ++ Request i :: b) ->
  i = List.length (requested a) /\
  ((exists a', a = a' ++ [Started]) \/
   exists es1 t es2 g, es = es1 ++ SFire t :: es2 /\ In (SExpire t) es1 /\ In (Wait t g) a).
Proof. exact @request_source. Qed.
Print Assumptions C49_request_after_timer.

(** A timer sends at most one request. *)
Theorem C49_timer_fires_once :
  forall {R W : Type} (handler : nat -> W -> R -> W * list sapi) w0 f es1 t s1 w1 o1 es2 s2 w2 o2 s3 w3 o3,
  sched_run handler (sched_init f) w0 es1 = (s1, w1, o1) ->
  sched_run handler s1 w1 (SFire t :: es2) = (s2, w2, o2) -> In t (sr_expired s1) ->
  sched_step handler s2 w2 (SFire t) = (s3, w3, o3) -> o3 = [].
Proof. exact @fired_once. Qed.
Print Assumptions C49_timer_fires_once.

(** While polling, there is a request waiting for its response, or a started timer
    whose expiry sends the next request. *)
Theorem C49_always_active :
  forall {R W : Type} (handler : nat -> W -> R -> W * list sapi) f es s w os,
  schedule handler f es s w os -> polling os = true ->
  unanswered os <> [] \/
  exists t g s' w' o, In (Wait t g) os /\
    sched_run handler s w [SExpire t; SFire t] = (s', w', o) /\ o = [Request (List.length (requested os))].
Proof. exact @always_active. Qed.
Print Assumptions C49_always_active.

(** Starting is idempotent: a start while polling changes nothing, so that two starts
    that take effect are separated by a stop. *)
Theorem C49_start_idempotent :
  forall {R W : Type} (handler : nat -> W -> R -> W * list sapi) (s : sched) (w : W) q,
  sr_running s = true -> sr_queue s = Start :: q ->
  sched_step handler s w SRun = (with_squeue s q, w, []).
Proof. exact @start_idempotent. Qed.
Print Assumptions C49_start_idempotent.

Theorem C49_starts_separated :
  forall {R W : Type} (handler : nat -> W -> R -> W * list sapi) f es s w a b c,
  schedule handler f es s w (a ++ Started :: b ++ Started :: c) -> In Stopped b.
Proof. exact @start_stop_alternate. Qed.
Print Assumptions C49_starts_separated.

(** Calls of start, stop and set_frequency, of any thread or of the handler, are queued
    and take effect in the order in which they are made. *)
Theorem C49_calls_take_effect :
  forall {R W : Type} (handler : nat -> W -> R -> W * list sapi) f es s w os s' w' o,
  schedule handler f es s w os -> sched_run handler s w (repeat SRun (List.length (sr_queue s))) = (s', w', o) ->
  sr_queue s' = [] /\ (polling (os ++ o), frequency_of f (os ++ o)) = after_calls (sr_queue s) (polling os, frequency_of f os).
Proof. exact @calls_take_effect. Qed.
Print Assumptions C49_calls_take_effect.

Theorem C49_handler_calls :
  forall {R W : Type} (handler : nat -> W -> R -> W * list sapi) s w e s' w' o i r,
  sched_step handler s w e = (s', w', o) -> In (Response i r) o ->
  sr_queue s' = sr_queue s ++ snd (handler i w r) /\ w' = fst (handler i w r).
Proof. exact @handler_calls_posted. Qed.
Print Assumptions C49_handler_calls.

Theorem C49_api_calls :
  forall {R W : Type} (handler : nat -> W -> R -> W * list sapi) s w a,
  exists s', sched_step handler s w (SApi a) = (s', w, []) /\ sr_queue s' = sr_queue s ++ [a].
Proof. exact (fun R W handler s w a => ex_intro _ (with_posted s [a]) (conj eq_refl eq_refl)). Qed.
Print Assumptions C49_api_calls.

Example C49_case : exists s os,
  schedule passive 5 [SApi Start; SApi Start; SRun; SRun; SAnswer 0 7; SApi (SetFrequency 9); SRun; SExpire 0; SFire 0; SAnswer 1 8] s tt os /\
  os = [Started; Request 0; Response 0 7; Wait 0 5; Frequency 9; Request 1; Response 1 8; Wait 1 9] /\
  polling os = true /\ unanswered os = [] /\ frequency_of 5 os = 9.
Proof.
  do 2 eexists. split; [apply make_schedule; vm_compute; reflexivity|]. split; [reflexivity|].
  split; [reflexivity|]. split; reflexivity.
Qed.
