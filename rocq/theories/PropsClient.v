(** Properties C32 - C42: the client channel.

    Completion handlers are arbitrary: they may have any state and may submit
    further requests or shut the channel down ([handler]).  A history is any list
    of API calls, executions of posted closures, received chunks, connection errors,
    timer expirations and timer actions, starting from a new channel; [os] are the
    observations made in it, in order.  Requests are named by the number of the call
    of [send_request]. *)
From Verif Require Import Prelude Ser4 Messages Mbap SpecPdu SpecMbap Client SpecClient
  ClientLemmas ClientTx ClientShutdown ClientResponses ClientOutcomes ClientCases ClientFacts.

(** ** C32: at most one request on the wire *)
Theorem C32_one_request_on_wire :
  forall {W : Type} (handler : nat -> W -> expected (list N) -> W * list capi) pol es s w os a i u t v b j u' t' v' c,
  history handler pol es s w os ->
  os = a ++ Sent i u t v :: b ++ Sent j u' t' v' :: c ->
  exists r, In (Completed i r) b.
Proof. exact @one_on_wire. Qed.
Print Assumptions C32_one_request_on_wire.

Example C32_case : exists s os a b c, history idle Truncate race_history s tt os /\
  os = a ++ Sent 0 7 0 (map Some [0; 0; 0; 0; 0; 6; 7; 1; 0; 1; 0; 2]) ::
       b ++ Sent 1 7 1 (map Some [0; 1; 0; 0; 0; 6; 7; 1; 0; 1; 0; 2]) :: c.
Proof.
  destruct race as (s & os & H & ->). exists s. eexists. exists [Called 0 read_call; Called 1 read_call].
  exists [Armed 0 0 100; Completed 0 (Value [1; 1; 3])]. eexists. split; [exact H|reflexivity].
Qed.

(** ** C33: first in, first out *)
Theorem C33_calls_are_numbered :
  forall {W : Type} (handler : nat -> W -> expected (list N) -> W * list capi) pol es s w os,
  history handler pol es s w os -> called_ids os = seq 0 (List.length (called_ids os)).
Proof. exact @calls_numbered. Qed.
Print Assumptions C33_calls_are_numbered.

Theorem C33_first_in_first_out :
  forall {W : Type} (handler : nat -> W -> expected (list N) -> W * list capi) pol es s w os,
  history handler pol es s w os -> StronglySorted lt (sent_ids os).
Proof. exact @sent_in_order. Qed.
Print Assumptions C33_first_in_first_out.

(** Nothing is sent before everything submitted earlier is finished. *)
Theorem C33_no_overtaking :
  forall {W : Type} (handler : nat -> W -> expected (list N) -> W * list capi) pol es s w os a j u t v b i,
  history handler pol es s w os -> os = a ++ Sent j u t v :: b -> (i < j)%nat -> exists r, In (Completed i r) a.
Proof. exact @no_overtaking. Qed.
Print Assumptions C33_no_overtaking.

(** What is sent for call [i] is the frame of the request given to call [i]. *)
Theorem C33_frames_are_the_requests :
  forall {W : Type} (handler : nat -> W -> expected (list N) -> W * list capi) pol es s w os i u t v k r,
  history handler pol es s w os ->
  In (Sent i u t v) os -> In (Called i k) os -> k_msg k = request_message r -> typed_request r -> u8 (k_unit k) ->
  exists pdu, request_pdu r pdu /\ v = map Some (frame_bytes t (k_unit k) pdu) /\ u = k_unit k.
Proof. exact @request_frames. Qed.
Print Assumptions C33_frames_are_the_requests.

Example C33_case : exists s os, history idle Truncate race_history s tt os /\ sent_ids os = [0%nat; 1%nat].
Proof. destruct race as (s & os & H & ->). exists s. eexists. split; [exact H|reflexivity]. Qed.

(** ** C34: a completion handler is called at most once *)
Theorem C34_completed_at_most_once :
  forall {W : Type} (handler : nat -> W -> expected (list N) -> W * list capi) pol es s w os,
  history handler pol es s w os -> NoDup (completed_ids os) /\ incl (completed_ids os) (called_ids os).
Proof. exact @at_most_once. Qed.
Print Assumptions C34_completed_at_most_once.

Example C34_case : exists s os, history idle Truncate race_history s tt os /\ completed_ids os = [0%nat; 1%nat].
Proof. destruct race as (s & os & H & ->). exists s. eexists. split; [exact H|reflexivity]. Qed.

(** ** C35: exactly once without shutdown *)
Theorem C35_completed_exactly_once :
  forall {W : Type} (handler : nat -> W -> expected (list N) -> W * list capi), no_shutdown_handler handler ->
  forall pol es s w os, no_shutdown es -> history handler pol es s w os -> quiescent s ->
  forall i, In i (called_ids os) -> count_occ Nat.eq_dec (completed_ids os) i = 1%nat.
Proof. exact @exactly_once. Qed.
Print Assumptions C35_completed_exactly_once.

(** From every reachable state, posted closures and timers alone bring a given
    request to completion. *)
Theorem C35_never_stuck :
  forall {W : Type} (handler : nat -> W -> expected (list N) -> W * list capi), no_shutdown_handler handler ->
  forall pol es s w os i, no_shutdown es -> history handler pol es s w os ->
  In i (called_ids os) -> ~ In i (completed_ids os) ->
  exists es' s' w' o r, forallb spontaneous es' = true /\
    client_run handler pol s w es' = Ret (s', w', o) /\ In (Completed i r) o.
Proof. exact @never_stuck. Qed.
Print Assumptions C35_never_stuck.

(** The channel survives every history. *)
Theorem C35_no_undefined_behaviour :
  forall {W : Type} (handler : nat -> W -> expected (list N) -> W * list capi) pol buf w es,
  good_buf buf -> Forall typed_cevent es ->
  exists s w' os, client_run handler pol (client_init buf) w es = Ret (s, w', os).
Proof. exact @client_never_stuck. Qed.
Print Assumptions C35_no_undefined_behaviour.

Example C35_case : exists s os,
  history idle Truncate (race_history ++ [CExpire 1; CFire 1]) s tt os /\ quiescent s /\ no_shutdown race_history.
Proof.
  do 2 eexists. split.
  - apply (make_history _ _ _ tt); [|vm_compute; reflexivity].
    repeat constructor; try apply answer_bytes; unfold u8; reflexivity.
  - split; [repeat split; reflexivity|]. unfold no_shutdown. cbn. intuition discriminate.
Qed.

(** ** C36: a response only reaches the request it answers

    When a handler is given a response, its request was sent before and has not been
    completed, and the frame that is just being received carries its identifiers and
    this PDU ([got], [arrives]). *)
Theorem C36_responses_reach_their_request :
  forall {W : Type} (handler : nat -> W -> expected (list N) -> W * list capi) pol es s w os e s' w' o a i d b,
  history handler pol es s w os -> typed_cevent e ->
  client_step handler pol s w e = Ret (s', w', o) -> os ++ o = a ++ Completed i (Value d) :: b ->
  (List.length os <= List.length a)%nat ->
  exists chunk it unit tx v, e = CReceive chunk /\ In (Sent i unit tx v) a /\ ~ In i (completed_ids a) /\
    arrives (stream es) chunk it /\ deliverable it = true /\
    got it {| mb_unit := unit; mb_tx := tx; mb_data := d |}.
Proof. exact @response_source. Qed.
Print Assumptions C36_responses_reach_their_request.

(** Such a frame does not carry the transaction id of a request submitted fewer than
    65536 calls before or after. *)
Theorem C36_no_late_response :
  forall {W : Type} (handler : nat -> W -> expected (list N) -> W * list capi)
    pol es s w os e s' w' o i d unit tx v it j u t v',
  history handler pol es s w os -> typed_cevent e ->
  client_step handler pol s w e = Ret (s', w', o) ->
  In (Sent i unit tx v) (os ++ o) -> got it {| mb_unit := unit; mb_tx := tx; mb_data := d |} ->
  In (Sent j u t v') (os ++ o) -> i <> j -> N.of_nat j < N.of_nat i + 65536 -> N.of_nat i < N.of_nat j + 65536 ->
  i_tx it <> t.
Proof. exact @response_not_for. Qed.
Print Assumptions C36_no_late_response.

(** Frames that do not carry the identifiers of the outstanding request change
    nothing but the receive buffer. *)
Theorem C36_other_frames_ignored :
  forall {W : Type} (handler : nat -> W -> expected (list N) -> W * list capi) pol es s w os chunk s' w' o,
  history handler pol es s w os -> bytes chunk ->
  client_step handler pol s w (CReceive chunk) = Ret (s', w', o) ->
  (forall it i v, arrives (stream es) chunk it -> deliverable it = true ->
     In (Sent i (i_unit it) (i_tx it) v) os -> In i (completed_ids os)) ->
  o = [] /\ w' = w /\ s' = with_parser s (cc_parser s').
Proof. exact @others_ignored. Qed.
Print Assumptions C36_other_frames_ignored.

(** A frame that carries them is reported, at once and before anything else. *)
Theorem C36_response_reported :
  forall {W : Type} (handler : nat -> W -> expected (list N) -> W * list capi)
    pol es s w os i u t v chunk before pdu after s' w' o,
  history handler pol es s w os -> bytes chunk -> ~ In TcpShutdown os ->
  In (Sent i u t v) os -> ~ In i (completed_ids os) ->
  Forall typed_item before -> 1 <= size pdu <= 253 ->
  stream es ++ chunk = flat_map item_bytes before ++ frame_bytes t u pdu ++ after -> size after < size chunk ->
  (forall it, In it before -> i_tx it = t -> i_unit it = u -> arrives (stream es) chunk it -> deliverable it = false) ->
  client_step handler pol s w (CReceive chunk) = Ret (s', w', o) ->
  exists o', o = Completed i (Value pdu) :: o'.
Proof. exact @response_reported. Qed.
Print Assumptions C36_response_reported.

Example C36_case : exists s os s' o,
  history idle Truncate [CApi (Submit read_call); CRun; CReceive (firstn 3 (answer 0))] s tt os /\
  client_step idle Truncate s tt (CReceive (skipn 3 (answer 0))) = Ret (s', tt, o) /\
  o = [Completed 0 (Value [1; 1; 3])] /\
  stream [CApi (Submit read_call); CRun; CReceive (firstn 3 (answer 0))] ++ skipn 3 (answer 0) = frame_bytes 0 7 [1; 1; 3].
Proof.
  do 4 eexists. split.
  - apply (make_history _ _ _ tt); [|vm_compute; reflexivity].
    repeat constructor; unfold u8; reflexivity.
  - split; [vm_compute; reflexivity|]. split; reflexivity.
Qed.

(** ** C37: transaction identifiers *)
Theorem C37_transaction_id_counts_valid_requests :
  forall {W : Type} (handler : nat -> W -> expected (list N) -> W * list capi) pol es s w os i u t v,
  history handler pol es s w os -> In (Sent i u t v) os -> t = N.of_nat (valid_before os i) mod 65536.
Proof. exact @tx_counts. Qed.
Print Assumptions C37_transaction_id_counts_valid_requests.

Theorem C37_transaction_ids_distinct :
  forall {W : Type} (handler : nat -> W -> expected (list N) -> W * list capi) pol es s w os i u t v j u' t' v',
  history handler pol es s w os -> In (Sent i u t v) os -> In (Sent j u' t' v') os -> (i < j)%nat ->
  N.of_nat (valid_before os j) < N.of_nat (valid_before os i) + 65536 -> t <> t'.
Proof. exact @tx_distinct. Qed.
Print Assumptions C37_transaction_ids_distinct.

Theorem C37_transaction_ids_distinct_calls :
  forall {W : Type} (handler : nat -> W -> expected (list N) -> W * list capi) pol es s w os i u t v j u' t' v',
  history handler pol es s w os -> In (Sent i u t v) os -> In (Sent j u' t' v') os -> (i < j)%nat ->
  N.of_nat j < N.of_nat i + 65536 -> t <> t'.
Proof. exact @tx_distinct_near. Qed.
Print Assumptions C37_transaction_ids_distinct_calls.

Example C37_case : exists s os v v',
  history idle Truncate [CApi (Submit bad_call); CApi (Submit read_call); CApi (Submit read_call); CRun; CRun; CRun; CReceive (answer 0)] s tt os /\
  In (Sent 1 7 0 v) os /\ In (Sent 2 7 1 v') os /\ valid_before os 2 = 1%nat.
Proof.
  do 4 eexists. split.
  - apply (make_history _ _ _ tt); [|vm_compute; reflexivity].
    repeat constructor; try apply answer_bytes; unfold u8; reflexivity.
  - split; [cbn; auto 10|]. split; [cbn; auto 20|reflexivity].
Qed.

(** ** C38: a connection error fails everything outstanding

    The handlers of the queued requests, in order, then of the outstanding one are
    called with the error; only requests whose posted closure has not been executed
    yet ([cc_queue]) are not concerned.  Nothing is sent, nothing is left over, and
    the receive state is that of a new stream. *)
Theorem C38_error_fails_everything :
  forall {W : Type} (handler : nat -> W -> expected (list N) -> W * list capi) pol es s w os msg s' w' o,
  history handler pol es s w os ->
  client_step handler pol s w (CError msg) = Ret (s', w', o) -> ~ In TcpShutdown os ->
  sent_ids o = [] /\ stream (es ++ [CError msg]) = [] /\
  (exists queued outstanding,
     results o = map (fun i => (i, Error (EConnection msg))) (queued ++ outstanding) /\
     (forall i u t v, In (Sent i u t v) os -> ~ In i (completed_ids os) -> outstanding = [i]) /\
     incl outstanding (sent_ids os) /\
     StronglySorted lt (outstanding ++ queued)) /\
  (forall i, In i (called_ids os) -> ~ In i (completed_ids os) ->
     In (Completed i (Error (EConnection msg))) o \/ In i (qids (cc_queue s))) /\
  cc_current s' = None /\ cc_pending s' = [] /\ cc_armed s' = [] /\ cc_parser s' = mbap_reset (cc_parser s).
Proof. exact @error_fails_all. Qed.
Print Assumptions C38_error_fails_everything.

Example C38_case : exists s os s' o,
  history idle Truncate [CApi (Submit read_call); CApi (Submit read_call); CApi (Submit read_call); CRun; CRun; CRun; CReceive [0; 0]] s tt os /\
  client_step idle Truncate s tt (CError "reset") = Ret (s', tt, o) /\
  results o = [(1%nat, Error (EConnection "reset")); (2%nat, Error (EConnection "reset")); (0%nat, Error (EConnection "reset"))].
Proof.
  do 4 eexists. split.
  - apply (make_history _ _ _ tt); [|vm_compute; reflexivity]. repeat constructor; unfold u8; reflexivity.
  - split; vm_compute; reflexivity.
Qed.

(** ** C39: invalid requests never reach the wire *)
Theorem C39_invalid_never_sent :
  forall {W : Type} (handler : nat -> W -> expected (list N) -> W * list capi) pol es s w os i k,
  history handler pol es s w os -> In (Called i k) os -> im_valid (k_msg k) = false ->
  ~ In i (sent_ids os) /\ forall r, In (Completed i r) os -> r = Error EMalformedRequest.
Proof. exact @invalid_never_sent. Qed.
Print Assumptions C39_invalid_never_sent.

Theorem C39_valid_never_malformed :
  forall {W : Type} (handler : nat -> W -> expected (list N) -> W * list capi) pol es s w os i k r,
  history handler pol es s w os -> In (Called i k) os -> im_valid (k_msg k) = true -> In (Completed i r) os ->
  (exists d, r = Value d) \/ r = Error ETimeout \/ exists m, r = Error (EConnection m).
Proof. exact @valid_results. Qed.
Print Assumptions C39_valid_never_malformed.

(** The report touches nothing but the executor's queue, where the handler may have
    posted something. *)
Theorem C39_others_unaffected :
  forall {W : Type} (handler : nat -> W -> expected (list N) -> W * list capi) pol es s w os e s' w' o i,
  history handler pol es s w os -> typed_cevent e ->
  client_step handler pol s w e = Ret (s', w', o) -> In (Completed i (Error EMalformedRequest)) o ->
  e = CRun /\ sent_ids o = [] /\ completed_ids o = [i] /\ exists q n, s' = with_queue s q n.
Proof. exact @rejection_isolated. Qed.
Print Assumptions C39_others_unaffected.

Example C39_case : exists s os, history idle Truncate [CApi (Submit bad_call); CRun] s tt os /\
  os = [Called 0 bad_call; Completed 0 (Error EMalformedRequest)] /\ im_valid (k_msg bad_call) = false.
Proof.
  do 2 eexists. split; [apply (make_history _ _ _ tt); [repeat constructor|vm_compute; reflexivity]|].
  split; reflexivity.
Qed.

(** ** C40: completion despite shutdown does not hold

    Shutdown drops the outstanding and the queued requests without calling their
    handlers (ClientChannelTcp.cpp:94-112), and later calls are ignored (:65). *)
Theorem C40_every_request_told_refuted :
  ~ (forall (handler : nat -> unit -> expected (list N) -> unit * list capi) pol es s w os,
     no_shutdown_handler handler -> history handler pol es s w os -> quiescent s ->
     forall i, In i (called_ids os) -> In i (completed_ids os)).
Proof. exact told_refuted. Qed.
Print Assumptions C40_every_request_told_refuted.

(** Every valid request not completed when shutdown takes effect is lost for good. *)
Theorem C40_shutdown_loses_requests :
  forall {W : Type} (handler : nat -> W -> expected (list N) -> W * list capi) pol es s w os a b i k,
  history handler pol es s w os -> os = a ++ TcpShutdown :: b ->
  In (Called i k) os -> im_valid (k_msg k) = true -> ~ In i (completed_ids a) -> ~ In i (completed_ids os).
Proof. exact @shutdown_loses. Qed.
Print Assumptions C40_shutdown_loses_requests.

(** Shutdown is the only way to lose a request. *)
Theorem C40_every_request_told_partial :
  forall {W : Type} (handler : nat -> W -> expected (list N) -> W * list capi) pol es s w os i,
  history handler pol es s w os -> quiescent s ->
  In i (called_ids os) -> ~ In i (completed_ids os) -> In TcpShutdown os.
Proof. exact @lost_only_by_shutdown. Qed.
Print Assumptions C40_every_request_told_partial.

Example C40_case : exists s os, history idle Truncate abandoned_history s tt os /\ quiescent s /\
  called_ids os = [0%nat] /\ completed_ids os = [].
Proof. exact abandoned. Qed.

(** ** C41: silence after shutdown *)
Theorem C41_silent_after_shutdown :
  forall {W : Type} (handler : nat -> W -> expected (list N) -> W * list capi) pol es s w os a b,
  history handler pol es s w os -> os = a ++ TcpShutdown :: b -> Forall quiet b.
Proof. exact @silent_after_shutdown. Qed.
Print Assumptions C41_silent_after_shutdown.

(** A requested shutdown takes effect once the closures posted so far have run. *)
Theorem C41_shutdown_takes_effect :
  forall {W : Type} (handler : nat -> W -> expected (list N) -> W * list capi) pol es s w os,
  history handler pol es s w os -> In (CApi Shutdown) es ->
  exists s' w' o, client_run handler pol s w (repeat CRun (List.length (cc_queue s))) = Ret (s', w', o) /\
    In TcpShutdown (os ++ o).
Proof. exact @shutdown_effective. Qed.
Print Assumptions C41_shutdown_takes_effect.

Example C41_case : exists s os,
  history idle Truncate (abandoned_history ++ [CReceive (answer 0); CExpire 0; CError "x"; CApi (Submit read_call); CRun]) s tt os /\
  os = [Called 0 read_call; Sent 0 7 0 (map Some [0; 0; 0; 0; 0; 6; 7; 1; 0; 1; 0; 2]); Armed 0 0 100;
        TcpShutdown; Called 1 read_call].
Proof.
  do 2 eexists. split; [|vm_compute; reflexivity].
  apply (make_history _ _ _ tt); [|vm_compute; reflexivity].
  repeat constructor; try apply answer_bytes; unfold u8; reflexivity.
Qed.

(** ** C42: timing out only because of the own timer does not hold

    The action of a timer acts on whatever request is outstanding when it is executed
    (ClientChannelTcp.cpp:195-206).  A timer that has expired just before a response
    is processed can no longer be cancelled (ITimer.h:39-45); its action then fails
    the next request. *)
Theorem C42_own_timer_refuted :
  ~ (forall (handler : nat -> unit -> expected (list N) -> unit * list capi) pol es s w os i,
     history handler pol es s w os -> In (Completed i (Error ETimeout)) os ->
     exists t d, In (Armed i t d) os /\ In (CExpire t) es).
Proof. exact own_timer_refuted. Qed.
Print Assumptions C42_own_timer_refuted.

(** It holds when the action of a timer is executed as soon as the timer expires. *)
Theorem C42_own_timer_partial :
  forall {W : Type} (handler : nat -> W -> expected (list N) -> W * list capi) pol es s w os i,
  atomic_timers es -> history handler pol es s w os -> In (Completed i (Error ETimeout)) os ->
  exists t d, In (Armed i t d) os /\ In (CExpire t) es.
Proof. exact @own_timeout_atomic. Qed.
Print Assumptions C42_own_timer_partial.

(** In every history, only a sent request times out, and only when some timer has
    expired and its action is executed. *)
Theorem C42_some_timer_partial :
  forall {W : Type} (handler : nat -> W -> expected (list N) -> W * list capi) pol es s w os i,
  history handler pol es s w os -> In (Completed i (Error ETimeout)) os ->
  In i (sent_ids os) /\ exists t, In (CExpire t) es /\ In (CFire t) es.
Proof. exact @some_timeout. Qed.
Print Assumptions C42_some_timer_partial.

Example C42_case : exists s os, history retry Truncate [CApi (Submit read_call); CRun; CExpire 0; CFire 0; CRun] s tt os /\
  atomic_timers [CApi (Submit read_call); CRun; CExpire 0; CFire 0; CRun] /\
  results os = [(0%nat, Error ETimeout)] /\ sent_ids os = [0%nat; 1%nat].
Proof.
  do 2 eexists. split; [apply (make_history _ _ _ tt); [repeat constructor|vm_compute; reflexivity]|].
  split; [repeat (first [apply atomic_expiry|apply atomic_other; [discriminate|discriminate|]|constructor])|].
  split; reflexivity.
Qed.
