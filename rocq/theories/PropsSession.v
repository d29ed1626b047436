(** The properties of client sessions. *)
From Verif Require Import Prelude Ser4 Messages Mbap SpecPdu SpecMbap Client SpecClient ClientView Scheduled SpecScheduled SessionCall Session SpecSession
  SessionLemmas SessionCalls SessionDown SessionMeant SystemCases SessionCases.

(** ** C61: shutting a session down stops its scheduled requests

    Once the posted closures have run, a request scheduled on a session before its
    shutdown, and not started again since, is not running. *)
Theorem C61_session_shutdown_partial :
  forall {W : Type} (user : users W) pol es k os j x r t f a m b, stack_history user pol es k os ->
  os = a ++ Scheduled j x r t f :: m ++ Asked (CloseSession x) :: b -> ~ In (Asked (CloseSession x)) m ->
  ~ In (Asked (OnSchedule j Start)) b -> ks_queue (st_rest k) = [] -> is_running k j = false.
Proof. exact @closed_stops. Qed.
Print Assumptions C61_session_shutdown_partial.

Example C61_example : nth_error (snd (play stopping)) 3 = Some (Scheduled 0 0 read1 None 50) /\
  nth_error (snd (play stopping)) 8 = Some (Asked (CloseSession 0)) /\
  existsb (closes 0) (firstn 8 (snd (play stopping))) = false /\
  existsb (starts_poll 0) (skipn 9 (snd (play stopping))) = false /\
  is_running (fst (play (firstn 4 stopping))) 0 = true /\
  ks_queue (st_rest (fst (play stopping))) = [] /\ is_running (fst (play stopping)) 0 = false.
Proof. vm_compute. repeat split; reflexivity. Qed.

(** Only the first shutdown does: a request started again is not stopped by the second. *)
Theorem C61_session_shutdown_refuted :
  ~ (forall (W : Type) (user : users W) pol es k os j x r t f a m b, stack_history user pol es k os ->
       os = a ++ Scheduled j x r t f :: m ++ Asked (CloseSession x) :: b -> ~ In (Asked (OnSchedule j Start)) b ->
       ks_queue (st_rest k) = [] -> is_running k j = false).
Proof. exact second_close_refuted. Qed.
Print Assumptions C61_session_shutdown_refuted.

(** ** C62: polling goes on

    While the channel is not shut down, a running scheduled request always waits for
    something: when nothing is left to happen, none is running. *)
Theorem C62_polling_goes_on_partial :
  forall {W : Type} (user : users W) pol es k os j, stack_history user pol es k os ->
  resting k -> ~ In (Channel TcpShutdown) os -> is_running k j = false.
Proof. exact @polling_lives. Qed.
Print Assumptions C62_polling_goes_on_partial.

Example C62_example : is_running (fst (play stopping)) 0 = false /\ is_running (fst (play twice)) 0 = true /\
  existsb tcp_down (snd (play twice)) = false.
Proof. vm_compute. repeat split; reflexivity. Qed.

(** After the shutdown of the channel, one may run for ever with nothing to wait for. *)
Theorem C62_polling_goes_on_refuted :
  ~ (forall (W : Type) (user : users W) pol es k os j, stack_history user pol es k os -> resting k -> is_running k j = false).
Proof. exact polling_lives_refuted. Qed.
Print Assumptions C62_polling_goes_on_refuted.

(** ** C63: handlers of one-time requests

    Each is called at most once; with what the outcome of the call of the channel
    means for the request; and exactly once when nothing is left to happen, unless the
    channel was shut down. *)
Theorem C63_at_most_once :
  forall {W : Type} (user : users W) pol es k os, stack_history user pol es k os ->
  NoDup (answered_ids os) /\ incl (answered_ids os) (issued_ids os).
Proof. exact @answered_once. Qed.
Print Assumptions C63_at_most_once.

Theorem C63_told :
  forall {W : Type} (user : users W) pol es k os i v, stack_history user pol es k os -> In (Answered i v) os ->
  exists x r t y, In (Issued i x r t) os /\ In (Channel (Completed i y)) os /\ (typed_request r -> told r y v).
Proof. exact @answer_source. Qed.
Print Assumptions C63_told.

Theorem C63_completed :
  forall {W : Type} (user : users W) pol es k os i x r t y, stack_history user pol es k os ->
  In (Issued i x r t) os -> In (Channel (Completed i y)) os -> exists v, In (Answered i v) os /\ (typed_request r -> told r y v).
Proof. exact @answered_when_completed. Qed.
Print Assumptions C63_completed.

Theorem C63_exactly_once :
  forall {W : Type} (user : users W) pol es k os i, stack_history user pol es k os ->
  quiescent (st_channel k) -> ~ In (Channel TcpShutdown) os -> In i (issued_ids os) ->
  count_occ Nat.eq_dec (answered_ids os) i = 1%nat.
Proof. exact @answered_at_rest. Qed.
Print Assumptions C63_exactly_once.

Example C63_example : visible (snd (play once)) =
  [Asked (Open 9 1000); Opened 0 9 1000; Asked (Send 0 read1 None); Issued 0 0 read1 None;
   Channel (Sent 0 9 0 (map Some [0; 0; 0; 0; 0; 6; 9; 3; 0; 5; 0; 1])); Channel (Armed 0 0 1000);
   Channel (Completed 0 (Value [3; 2; 1; 7])); Answered 0 answer1].
Proof. exact once_shown. Qed.

(** ** C64: unit, timeout and contents of requests

    Every request of a session, scheduled or not, is one call of the channel with the
    unit of the session, the encoding of the request, and the timeout given or else the
    default of the session; and these are all the calls of the channel. *)
Theorem C64_one_time :
  forall {W : Type} (user : users W) pol es k os i x r t u d, stack_history user pol es k os ->
  In (Issued i x r t) os -> In (Opened x u d) os -> exists c, In (Channel (Called i c)) os /\ call_for c u d r t.
Proof. exact @issued_call. Qed.
Print Assumptions C64_one_time.

Theorem C64_scheduled :
  forall {W : Type} (user : users W) pol es k os i j n x r t f u d, stack_history user pol es k os ->
  In (Repeated i j n) os -> In (Scheduled j x r t f) os -> In (Opened x u d) os ->
  exists c, In (Channel (Called i c)) os /\ call_for c u d r t.
Proof. exact @repeated_call. Qed.
Print Assumptions C64_scheduled.

Theorem C64_nothing_else :
  forall {W : Type} (user : users W) pol es k os i c, stack_history user pol es k os -> In (Channel (Called i c)) os ->
  exists x u d r t, In (Opened x u d) os /\ call_for c u d r t /\
    (In (Issued i x r t) os \/ exists j n f, In (Repeated i j n) os /\ In (Scheduled j x r t f) os).
Proof. exact @call_origin. Qed.
Print Assumptions C64_nothing_else.

Example C64_example : visible (snd (play twice)) =
  [Asked (Open 9 1000); Opened 0 9 1000; Asked (Schedule 0 read1 (Some 7) 50); Scheduled 0 0 read1 (Some 7) 50;
   Polled 0 Started; Polled 0 (Request 0); Repeated 0 0 0;
   Channel (Sent 0 9 0 (map Some [0; 0; 0; 0; 0; 6; 9; 3; 0; 5; 0; 1])); Channel (Armed 0 0 7); Channel (Completed 0 (Value [3; 2; 1; 7]));
   Polled 0 (Response 0 answer1); Polled 0 (Wait 0 50); Polled 0 (Request 1); Repeated 1 0 1;
   Channel (Sent 1 9 1 (map Some [0; 1; 0; 0; 0; 6; 9; 3; 0; 5; 0; 1])); Channel (Armed 1 1 7)].
Proof. exact twice_shown. Qed.

(** ** C65: shutting a session down cancels its pending requests

    It does not: after its shutdown was executed, responses are still reported to the
    handlers, and requests are still accepted; the shutdown does nothing to the channel. *)
Theorem C65_cancels_refuted :
  ~ (forall (W : Type) (user : users W) pol es k os x e k' o i r t v, stack_history user pol es k os ->
       In (Asked (CloseSession x)) os -> ks_queue (st_rest k) = [] -> In (Issued i x r t) os ->
       typed_kevent e -> stack_step user pol k e = Ret (k', o) -> ~ In (Answered i (Value v)) o).
Proof. exact close_cancels_refuted. Qed.
Print Assumptions C65_cancels_refuted.

Theorem C65_no_more_requests_refuted :
  ~ (forall (W : Type) (user : users W) pol es k os x r t k' o i, stack_history user pol es k os ->
       In (Asked (CloseSession x)) os -> ks_queue (st_rest k) = [] ->
       stack_step user pol k (KApi (Send x r t)) = Ret (k', o) -> ~ In (Issued i x r t) o).
Proof. exact sending_refuted. Qed.
Print Assumptions C65_no_more_requests_refuted.

Theorem C65_channel_untouched :
  forall {W : Type} (user : users W) pol (k : stack W) x k' o,
  stack_step user pol k (KApi (CloseSession x)) = Ret (k', o) -> st_channel k' = st_channel k.
Proof. exact @close_leaves_channel. Qed.
Print Assumptions C65_channel_untouched.

Theorem C65_channel_untouched_later :
  forall {W : Type} (user : users W) pol (k : stack W) x q k' o, ks_queue (st_rest k) = StopAll x :: q ->
  stack_step user pol k KRun = Ret (k', o) -> st_channel k' = st_channel k.
Proof. exact @stop_all_leaves_channel. Qed.
Print Assumptions C65_channel_untouched_later.

(** ** C66: shutting a channel down shuts its sessions down

    All of them, in the order of their creation, at once; and so their scheduled
    requests stop. *)
Theorem C66_closes_sessions :
  forall {W : Type} (user : users W) pol es k os a b, stack_history user pol es k os ->
  os = a ++ Channel TcpShutdown :: b -> ~ In (Channel TcpShutdown) a ->
  (exists b', b = map (fun x => Asked (CloseSession x)) (opened_ids a) ++ b') /\ exists es1 k1, stack_history user pol es1 k1 a.
Proof. intros W user pol es k os a b. exact (shutdown_closes_all user pol es k os a b). Qed.
Print Assumptions C66_closes_sessions.

Theorem C66_stops_scheduled_partial :
  forall {W : Type} (user : users W) pol es k os j x r t f a m b, stack_history user pol es k os ->
  os = (a ++ Scheduled j x r t f :: m) ++ Channel TcpShutdown :: b -> ~ In (Channel TcpShutdown) (a ++ Scheduled j x r t f :: m) ->
  ~ In (Asked (CloseSession x)) m -> ~ In (Asked (OnSchedule j Start)) b -> ks_queue (st_rest k) = [] -> is_running k j = false.
Proof. exact @shutdown_stops. Qed.
Print Assumptions C66_stops_scheduled_partial.

Example C66_example : nth_error (snd (play channel_down)) 3 = Some (Scheduled 0 0 read1 None 50) /\
  nth_error (snd (play channel_down)) 11 = Some (Channel TcpShutdown) /\
  existsb tcp_down (firstn 11 (snd (play channel_down))) = false /\ existsb (closes 0) (firstn 11 (snd (play channel_down))) = false /\
  existsb (starts_poll 0) (skipn 12 (snd (play channel_down))) = false /\
  is_running (fst (play (firstn 6 channel_down))) 0 = true /\
  ks_queue (st_rest (fst (play channel_down))) = [] /\ is_running (fst (play channel_down)) 0 = false.
Proof. vm_compute. repeat split; reflexivity. Qed.

(** Requests scheduled later are accepted, and run. *)
Theorem C66_stops_scheduled_refuted :
  ~ (forall (W : Type) (user : users W) pol es k os j, stack_history user pol es k os ->
       In (Channel TcpShutdown) os -> ks_queue (st_rest k) = [] -> is_running k j = false).
Proof. exact no_polling_after_shutdown_refuted. Qed.
Print Assumptions C66_stops_scheduled_refuted.

(** ** C67: sessions, scheduled requests and the channel together

    No behaviour is undefined; what the channel shows is a history of the channel on
    its own, and what a scheduled request shows is one of a scheduled request on its
    own, so that their properties (C32-C42, C47-C49) hold for them together; every
    request of a scheduled request is one call of the channel, and its answer what the
    outcome of this call means. *)
Theorem C67_no_undefined_behaviour :
  forall {W : Type} (user : users W) pol buf w es, good_buf buf -> Forall typed_kevent es ->
  exists k os, stack_run user pol (stack_init buf w) es = Ret (k, os) /\ ks_bad (st_rest k) = false.
Proof. exact @never_stuck. Qed.
Print Assumptions C67_no_undefined_behaviour.

Theorem C67_channel :
  forall {W : Type} (user : users W) pol es k os, stack_history user pol es k os ->
  exists ces script, history scripted pol ces (st_channel k) script (of_channel os) /\ filter not_api ces = channel_only es.
Proof. exact @channel_history. Qed.
Print Assumptions C67_channel.

Theorem C67_scheduled :
  forall {W : Type} (user : users W) pol es k os j x r t f, stack_history user pol es k os -> In (Scheduled j x r t f) os ->
  exists ses s, schedule no_calls f ses s tt (of_poll j os) /\ sr_running s = is_running k j.
Proof. exact @poll_history. Qed.
Print Assumptions C67_scheduled.

Theorem C67_requests :
  forall {W : Type} (user : users W) pol es k os j n, stack_history user pol es k os ->
  (In (Polled j (Request n)) os <-> exists i, In (Repeated i j n) os).
Proof. exact @repeated_requests. Qed.
Print Assumptions C67_requests.

Theorem C67_requests_once :
  forall {W : Type} (user : users W) pol es k os i i' j n, stack_history user pol es k os ->
  In (Repeated i j n) os -> In (Repeated i' j n) os -> i = i'.
Proof. exact @repeated_once. Qed.
Print Assumptions C67_requests_once.

Theorem C67_answers :
  forall {W : Type} (user : users W) pol es k os j x r t f n v, stack_history user pol es k os -> In (Scheduled j x r t f) os ->
  In (Polled j (Response n v)) os ->
  exists i y, In (Repeated i j n) os /\ In (Channel (Completed i y)) os /\ (typed_request r -> told r y v).
Proof. exact @poll_answer. Qed.
Print Assumptions C67_answers.

Theorem C67_answered :
  forall {W : Type} (user : users W) pol es k os i j n y, stack_history user pol es k os ->
  In (Repeated i j n) os -> In (Channel (Completed i y)) os -> exists v, In (Polled j (Response n v)) os.
Proof. exact @poll_answered. Qed.
Print Assumptions C67_answered.

Example C67_example : stack_history quiet_user AllOrNothing twice (fst (play twice)) (snd (play twice)) /\
  of_poll 0 (snd (play twice)) = [Started; Request 0; Response 0 answer1; Wait 0 50; Request 1].
Proof. split; [exact (played _ twice_typed)|vm_compute; reflexivity]. Qed.

(** ** C90: what users' handlers do takes effect

    In each step, the handlers are called in turn with the state the previous call left;
    the API calls made in a step that is no API call are those the handlers make, in
    order, and the library's own: stopping scheduled requests, and closing the sessions
    when the channel is shut down for the first time. *)
Theorem C90_handlers_take_effect :
  forall {W : Type} (user : users W) pol es k os e k' o, stack_history user pol es k os -> typed_kevent e ->
  stack_step user pol k e = Ret (k', o) ->
  exists c, handlers_do user (ks_user (st_rest k)) (tellings o) = (ks_user (st_rest k'), c) /\
  match e with
  | KApi a => tellings o = [] /\ asked o = [a]
  | KRun => tellings o = [] /\ exists js, asked o = map (fun j => OnSchedule j Stop) js
  | KExpire _ _ | KFire _ _ => tellings o = [] /\ asked o = []
  | KChannel _ => asked o = c ++ (if shuts_down o && negb (shuts_down os) then map CloseSession (opened_ids os) else [])
  end.
Proof. exact @handlers_take_effect. Qed.
Print Assumptions C90_handlers_take_effect.

Example C90_example : fst (busy_play busy) = 3%nat /\
  tellings (snd (busy_play busy)) = [(Once 0, answer1); (Once 1, answer1); (Once 2, answer1)] /\
  asked (snd (busy_play busy)) = [Open 9 1000; Send 0 read1 None; Send 0 read1 None; Send 0 read1 None; CloseSession 0; CloseChannel;
    CloseSession 0; CloseChannel].
Proof. vm_compute. repeat split; reflexivity. Qed.

(** Nothing is shut down that nobody asked to shut down: the connection only if the
    channel was to be, and scheduled requests are stopped by the library only if a
    session was to be. *)
Theorem C90_shutdown_asked :
  forall {W : Type} (user : users W) pol es k os, stack_history user pol es k os ->
  In (Channel TcpShutdown) os -> In (Asked CloseChannel) os.
Proof. exact @shutdown_asked. Qed.
Print Assumptions C90_shutdown_asked.

Theorem C90_stop_asked :
  forall {W : Type} (user : users W) pol es k os k' o, stack_history user pol es k os ->
  stack_step user pol k KRun = Ret (k', o) -> asked o <> [] -> exists x, In (Asked (CloseSession x)) os.
Proof. exact @closure_asks. Qed.
Print Assumptions C90_stop_asked.

(** ** C104: the methods of scheduled requests do what they are called for

    Once the posted closures have run, a scheduled request runs, and as often, as the
    calls of its methods say, taken in order: those of users, of handlers and of the
    library when it shuts a session down. *)
Theorem C104_meant :
  forall {W : Type} (user : users W) pol es k os j x r t f, stack_history user pol es k os ->
  In (Scheduled j x r t f) os -> ks_queue (st_rest k) = [] -> (is_running k j, frequency k j) = meant j os.
Proof. exact @meant_now. Qed.
Print Assumptions C104_meant.

Example C104_example : stack_history quiet_user AllOrNothing changing (fst (play changing)) (snd (play changing)) /\
  ks_queue (st_rest (fst (play changing))) = [] /\ In (Scheduled 0 0 read1 None 50) (snd (play changing)) /\
  meant 0 (snd (play changing)) = (true, 70) /\ meant 0 (snd (play stopping)) = (false, 50).
Proof. exact changing_shown. Qed.
