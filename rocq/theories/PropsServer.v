(** Properties C25 - C30: the server channel.

    Sessions are arbitrary: [on_request] and [on_shutdown] may do anything to the
    sessions' state, answer anything of the right type ([well_typed]), and call the
    channel's API.  A history is any list of API calls, task executions,
    connections, received chunks and connection errors. *)
From Verif Require Import Prelude Ser4 Messages Mbap SpecPdu SpecMbap Server SpecServer ServerLemmas ServerFacts.

(** ** C25: one answer per frame, with matching identifiers

    Whatever is consulted or sent in a history belongs to received frames, taken in
    order; each causes at most one response, on its own connection. *)
Theorem C25_one_answer_matching_ids :
  forall {W : Type} (on_request : N -> W -> request -> W * expected response * list api) on_shutdown,
  well_typed on_request -> forall pol w es,
  Forall typed_event es ->
  exists s' w' os vs,
    server_run on_request on_shutdown pol server_init w es = Ret (s', w', os) /\
    filter by_frame os = List.concat (map caused vs) /\
    StronglySorted le (map at_event vs) /\
    Forall (fun v => in_history on_request on_shutdown pol server_init w es v /\ answered_once v) vs.
Proof. exact @every_history. Qed.
Print Assumptions C25_one_answer_matching_ids.

Example C25_case :
  let es := [EApi (ApiAdd 5 1); ERun; EAccept 9 (repeat 0 260); EReceive 9 (read_frame 258 5)] in
  Forall typed_event es /\ well_typed (demo 1) /\
  exists s w os, server_run (demo 1) demo_shutdown Truncate server_init 0%nat es = Ret (s, w, os) /\
    os = [OConsult 1 (ReadHoldingRegisters 0 1);
          OSend 9 (map Some [1; 2; 0; 0; 0; 5; 5; 3; 2; 0; 7])].
Proof.
  split; [repeat constructor|]. split; [apply demo_typed|].
  do 3 eexists. split; vm_compute; reflexivity.
Qed.

(** ** C26: the decision table

    [in_history] says that the frame is served ([serves]) by the sessions registered
    at that moment: by the table [decision], which always gives exactly one verdict. *)
Theorem C26_decision_table_total : forall registry unit pdu, bytes pdu ->
  exists a, decision registry unit pdu a /\ forall b, decision registry unit pdu b -> b = a.
Proof. exact decision_table. Qed.
Print Assumptions C26_decision_table_total.

Theorem C26_frames_are_served :
  forall {W : Type} (on_request : N -> W -> request -> W * expected response * list api) (on_shutdown : N -> W -> W * list api),
  well_typed on_request -> forall s w c m,
  typed_message m ->
  exists s' w' os, on_mbap on_request s w c m = Ret (s', w', os) /\
    same_but_queue s s' /\ served on_request s c m w w' os.
Proof. exact @on_mbap_spec. Qed.
Print Assumptions C26_frames_are_served.

Example C26_unsupported : decision (fun _ => Some 1) 5 [43; 14] (Refuse IllegalFunction).
Proof. apply (unsupported_function _ _ _ 1 43 [14]); auto. vm_compute. intuition discriminate. Qed.

Example C26_illegal : decision (fun _ => Some 1) 5 [1; 0; 0; 0; 0] (Refuse IllegalDataValue).
Proof.
  apply (illegal_value _ _ _ 1 1); [reflexivity|left; reflexivity|].
  left. split; [left; reflexivity|]. exists 0, 0. repeat split. intros [H _]. exact (H eq_refl).
Qed.

Example C26_ask : decision (fun _ => Some 1) 5 [6; 1; 2; 3; 4] (Ask 1 (WriteSingleRegister 258 772)).
Proof. apply answerable; [reflexivity|repeat constructor|reflexivity]. Qed.

(** ** C27: pipelined requests are served in order

    For every connection, in every history with any other activity in between: the
    frames served on it are those of its byte stream, in that order, whatever the
    chunking, each by the sessions registered when it was completed. *)
Theorem C27_stream_served_in_order :
  forall {W : Type} (on_request : N -> W -> request -> W * expected response * list api) on_shutdown,
  well_typed on_request -> forall pol w es1 c buf es2 chunks items tail,
  Forall typed_event es1 -> good_buf buf -> Forall typed_event es2 -> same_connection c es2 ->
  ops_on c es2 = map Chunk chunks -> framed (List.concat chunks) items tail ->
  exists s1 w1 o1 s2 w2 o2 vs,
    server_run on_request on_shutdown pol server_init w (es1 ++ [EAccept c buf]) = Ret (s1, w1, o1) /\
    server_run on_request on_shutdown pol s1 w1 es2 = Ret (s2, w2, o2) /\
    filter by_frame o2 = List.concat (map caused vs) /\
    StronglySorted le (map at_event vs) /\
    Forall (fun v => in_history on_request on_shutdown pol s1 w1 es2 v /\ answered_once v) vs /\
    Forall2 got (filter deliverable (settled items tail)) (map frame_in (filter (on_conn c) vs)).
Proof. exact @stream_in_order. Qed.
Print Assumptions C27_stream_served_in_order.

(** A pipeline of well-formed frames with nothing in between: the outputs and the
    sessions' states are exactly those of serving the frames one after the other. *)
Theorem C27_pipeline :
  forall {W : Type} (on_request : N -> W -> request -> W * expected response * list api) on_shutdown,
  well_typed on_request -> forall pol w es s0 w0 o0 c buf frames chunks tail,
  Forall typed_event es ->
  server_run on_request on_shutdown pol server_init w es = Ret (s0, w0, o0) -> sv_shutdown s0 = false ->
  good_buf buf -> Forall frame_ok frames -> Forall bytes chunks ->
  List.concat chunks = flat_map (fun '(tx, unit, pdu) => frame_bytes tx unit pdu) frames ++ tail ->
  incomplete tail ->
  exists s1 w1 os,
    server_run on_request on_shutdown pol s0 w0 (EAccept c buf :: map (EReceive c) chunks) = Ret (s1, w1, os) /\
    serves_all on_request (registry s0) c (map frame_message frames) w0 w1 os.
Proof. exact @pipeline. Qed.
Print Assumptions C27_pipeline.

Example C27_case : exists s w os,
  server_run (demo 1) demo_shutdown AllOrNothing server_init 0%nat
    [EApi (ApiAdd 5 1); ERun; EAccept 9 (repeat 0 260);
     EReceive 9 (firstn 5 (read_frame 1 5)); EReceive 9 (skipn 5 (read_frame 1 5) ++ frame_bytes 2 5 [99] ++ frame_bytes 3 6 [3]);
     EReceive 9 (read_frame 4 5)] = Ret (s, w, os) /\
  sends_on 9 os = map (map Some) [frame_bytes 1 5 [3; 2; 0; 7]; frame_bytes 2 5 [227; 1]; frame_bytes 4 5 [3; 2; 0; 7]].
Proof. do 3 eexists. split; vm_compute; reflexivity. Qed.

(** ** C28: adding a session replaces the previous one

    Refuted: the documentation promises replacement, but the first session stays.
    What holds: the first session added for a unit identifier keeps it until
    shutdown. *)
Theorem C28_add_session_replaces_refuted : exists es s w os,
  Forall typed_event es /\
  es = [EApi (ApiAdd 5 1); ERun; EApi (ApiAdd 5 2); ERun; EAccept 9 (repeat 0 260); EReceive 9 (read_frame 1 5)] /\
  server_run (demo 1) demo_shutdown Truncate server_init 0%nat es = Ret (s, w, os) /\
  filter by_frame os =
    [OConsult 1 (ReadHoldingRegisters 0 1);
     OSend 9 (map Some (frame_bytes 1 5 [3; 2; 0; 7]))].
Proof. exact replace_refuted. Qed.
Print Assumptions C28_add_session_replaces_refuted.

Theorem C28_first_session_kept :
  forall {W : Type} (on_request : N -> W -> request -> W * expected response * list api) on_shutdown
    pol w es1 s1 w1 o1 es2 s2 w2 o2 u x,
  server_run on_request on_shutdown pol server_init w es1 = Ret (s1, w1, o1) -> registry s1 u = Some x ->
  server_run on_request on_shutdown pol s1 w1 es2 = Ret (s2, w2, o2) ->
  registry s2 u = Some x \/ sv_shutdown s2 = true.
Proof. exact @first_session_kept. Qed.
Print Assumptions C28_first_session_kept.

Theorem C28_add_session_registers :
  forall {W : Type} (on_request : N -> W -> request -> W * expected response * list api) on_shutdown
    pol s w u x q,
  sv_shutdown s = false -> sv_queue s = TaskAdd u x :: q ->
  exists s', server_step on_request on_shutdown pol s w ERun = Ret (s', w, []) /\
    sv_shutdown s' = false /\ sv_queue s' = q /\
    registry s' u = Some (match registry s u with Some y => y | None => x end) /\
    forall v, v <> u -> registry s' v = registry s v.
Proof. exact @first_add_wins. Qed.
Print Assumptions C28_add_session_registers.

(** ** C29: silence after shutdown *)

(** After shutdown has taken effect nothing at all is output. *)
Theorem C29_silence_after_shutdown :
  forall {W : Type} (on_request : N -> W -> request -> W * expected response * list api) on_shutdown
    pol w es1 s1 w1 o1 es2 s2 w2 o2,
  server_run on_request on_shutdown pol server_init w es1 = Ret (s1, w1, o1) -> sv_shutdown s1 = true ->
  server_run on_request on_shutdown pol s1 w1 es2 = Ret (s2, w2, o2) ->
  sv_shutdown s2 = true /\ o2 = [].
Proof. exact @silence_after_shutdown. Qed.
Print Assumptions C29_silence_after_shutdown.

(** A call of [shutdown] takes effect once the tasks posted before it have run. *)
Theorem C29_shutdown_takes_effect :
  forall {W : Type} (on_request : N -> W -> request -> W * expected response * list api) on_shutdown
    pol w es1 s1 w1 o1 es2 s2 w2 o2,
  server_run on_request on_shutdown pol server_init w (es1 ++ [EApi ApiShutdown]) = Ret (s1, w1, o1) ->
  server_run on_request on_shutdown pol s1 w1 es2 = Ret (s2, w2, o2) ->
  (List.length (sv_queue s1) <= List.length (filter is_run es2))%nat ->
  sv_shutdown s2 = true.
Proof. exact @shutdown_takes_effect. Qed.
Print Assumptions C29_shutdown_takes_effect.

(** In any history the sessions shut down are, once each, those of the units
    registered when shutdown took effect. *)
Theorem C29_registered_sessions_shut_down :
  forall {W : Type} (on_request : N -> W -> request -> W * expected response * list api) on_shutdown
    pol w es s' w' os,
  server_run on_request on_shutdown pol server_init w es = Ret (s', w', os) ->
  (sv_shutdown s' = false -> session_shutdowns os = []) /\
  (sv_shutdown s' = true -> exists es1 es2 s1 w1 o1 reg,
     es = es1 ++ ERun :: es2 /\
     server_run on_request on_shutdown pol server_init w es1 = Ret (s1, w1, o1) /\
     sv_shutdown s1 = false /\ hd_error (sv_queue s1) = Some TaskShutdown /\
     NoDup (map fst reg) /\ (forall u x, In (u, x) reg <-> registry s1 u = Some x) /\
     session_shutdowns os = map snd reg).
Proof. exact @registered_shut_down. Qed.
Print Assumptions C29_registered_sessions_shut_down.

(** "Exactly once" is per unit identifier: a session object registered for two
    units is shut down twice. *)
Theorem C29_once_per_session_refuted : exists s w os,
  server_run (demo 1) demo_shutdown Truncate server_init 0%nat
    [EApi (ApiAdd 5 1); ERun; EApi (ApiAdd 6 1); ERun; EApi ApiShutdown; ERun] = Ret (s, w, os) /\
  session_shutdowns os = [1; 1].
Proof. exact shared_session. Qed.
Print Assumptions C29_once_per_session_refuted.

Example C29_case : exists s w os,
  server_run (demo 1) demo_shutdown Truncate server_init 0%nat
    [EApi (ApiAdd 5 1); EApi ApiStart; EApi (ApiAdd 6 2); EApi (ApiAdd 5 3); ERun; ERun; ERun; ERun;
     EAccept 9 (repeat 0 260); EApi ApiShutdown; ERun; EReceive 9 (read_frame 1 5); EApi ApiShutdown; ERun] = Ret (s, w, os) /\
  os = [OListen; OStopListening; OSessionShutdown 1; OSessionShutdown 2] /\ sv_shutdown s = true.
Proof. do 3 eexists. split; [vm_compute; reflexivity|]. split; reflexivity. Qed.

(** ** C30: only written bytes are sent

    Refuted for a session that returns more than 125 registers: the last of the 260
    bytes is never written. *)
Theorem C30_only_written_bytes_refuted : exists es s w os view,
  Forall typed_event es /\ well_typed (demo 126) /\
  server_run (demo 126) demo_shutdown Truncate server_init 0%nat es = Ret (s, w, os) /\
  In (OSend 9 view) os /\ List.length view = 260%nat /\ nth_error view 259 = Some None.
Proof. exact unwritten_refuted. Qed.
Print Assumptions C30_only_written_bytes_refuted.

(** It holds if sessions do not do that; oversized bit responses are harmless. *)
Theorem C30_only_written_bytes_partial :
  forall {W : Type} (on_request : N -> W -> request -> W * expected response * list api) on_shutdown
    pol w es s' w' os c view,
  well_typed on_request ->
  (forall x w1 r w2 resp calls, on_request x w1 r = (w2, Value resp, calls) ->
     response_fits resp \/ register_response resp = false) ->
  Forall typed_event es ->
  server_run on_request on_shutdown pol server_init w es = Ret (s', w', os) ->
  In (OSend c view) os -> exists bs, bytes bs /\ view = map Some bs.
Proof. exact @written_partial. Qed.
Print Assumptions C30_only_written_bytes_partial.

Example C30_partial_case : well_typed (demo 125) /\
  (forall x w1 r w2 resp calls, demo 125 x w1 r = (w2, Value resp, calls) ->
     response_fits resp \/ register_response resp = false) /\
  exists s w os, server_run (demo 125) demo_shutdown Truncate server_init 0%nat
    [EApi (ApiAdd 5 1); ERun; EAccept 9 (repeat 0 260); EReceive 9 (read_frame 1 5)] = Ret (s, w, os) /\
    sends_on 9 os <> [].
Proof.
  split; [apply demo_typed|]. split.
  - intros x w r w' resp calls E. destruct r; try discriminate. injection E as <- <- <-. left. vm_compute. discriminate.
  - do 3 eexists. split; [vm_compute; reflexivity|]. discriminate.
Qed.

(** In all cases the frame has at most 260 bytes, as many as its length field says,
    and at most its last byte is unwritten. *)
Theorem C30_frame_size :
  forall {W : Type} (on_request : N -> W -> request -> W * expected response * list api) on_shutdown
    pol w es s' w' os c view,
  well_typed on_request -> Forall typed_event es ->
  server_run on_request on_shutdown pol server_init w es = Ret (s', w', os) ->
  In (OSend c view) os ->
  exists tx unit len code, headed tx unit len code view /\ 2 <= len <= 254 /\
    (forall i, (i < List.length view - 1)%nat -> exists b, nth_error view i = Some (Some b)).
Proof. exact @sent_header. Qed.
Print Assumptions C30_frame_size.
