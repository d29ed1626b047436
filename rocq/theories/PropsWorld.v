(** The properties of the whole, over the network. *)
From Verif Require Import Prelude Ser4 Messages Mbap Client Server Database System.
From Verif Require Import AsyncWrite ClientConn ClientTcp Listener ServerConn ServerTcp World.
From Verif Require Import SpecPdu SpecMbap SpecClient SpecDb SpecConn SpecListener SpecClientTcp SpecServerTcp SpecSystem SpecWorld.
From Verif Require Import WorldLemmas WorldParts WorldRest ClientCases SystemCases SpecWorld WorldCases.

(** ** C96: end-to-end correctness over TCP

    A client channel on its TCP connection, the network, and a server channel on its
    listener and connections, with a database behind it; others use the database, and
    connect to the server and send it anything.  In every orderly history, with any
    calls, timeouts, failures, reconnections, pieces and delays: the database goes
    through the states of the four-table model for the accesses of [log]; no call of the
    client is executed twice; and every response a session reports is the model's
    response to this request, taken between the call and the report. *)
Theorem C96_over_the_network :
  forall {W : Type} (handler : nat -> W -> expected (list N) -> W * list capi) pol units d F0 w0 es w l,
  Forall u8 units -> world_history handler pol units d w0 es w l -> orderly handler pol w0 es l -> holds d F0 ->
  exists os log F, observed_with_others l os /\ holds (us_user (wd_server w)) F /\ accesses os log /\
    calls_spec F0 (map x_call log) (map x_result log) F /\
    NoDup (executed log) /\
    (few_calls l -> forall a i x b, os = a ++ YC (Completed i (Value x)) :: b ->
       exists u r t n v, In (YC (Called i (session_call u r t))) a /\ legal_request r /\
         nth_error log n = Some {| x_call := CRequest r; x_result := RResponse v; x_by := Some i |} /\
         (n < List.length (db_calls a))%nat /\ session_result r (Value x) = Ret v).
Proof. exact @over_the_network. Qed.
Print Assumptions C96_over_the_network.

(** In particular: *)
Theorem C96_only_requested :
  forall {W : Type} (handler : nat -> W -> expected (list N) -> W * list capi) pol units d w0 es w l,
  Forall u8 units -> world_history handler pol units d w0 es w l -> orderly handler pol w0 es l -> only_requested (observed l).
Proof. exact @network_requested. Qed.
Print Assumptions C96_only_requested.

Theorem C96_at_most_once :
  forall {W : Type} (handler : nat -> W -> expected (list N) -> W * list capi) pol units d w0 es w l,
  Forall u8 units -> world_history handler pol units d w0 es w l -> orderly handler pol w0 es l -> at_most_once (observed l).
Proof. exact @network_once. Qed.
Print Assumptions C96_at_most_once.

Theorem C96_only_answered :
  forall {W : Type} (handler : nat -> W -> expected (list N) -> W * list capi) pol units d w0 es w l,
  Forall u8 units -> world_history handler pol units d w0 es w l -> orderly handler pol w0 es l -> few_calls l -> only_answered (observed l).
Proof. exact @network_answered. Qed.
Print Assumptions C96_only_answered.

Example C96_case : let l := marks three_registers broken_line in
  world_history idle Truncate [9] three_registers (from three_registers) broken_line (final three_registers broken_line) l /\
  orderly idle Truncate (from three_registers) broken_line l /\ few_calls l /\
  results (client_outputs (observed l)) = [(0%nat, Error (EConnection "reset")); (1%nat, Value [3; 6; 0; 0; 0; 100; 0; 200])] /\
  consults (observed l) = [WriteMultipleRegisters 6 [100; 200]; ReadHoldingRegisters 5 3] /\
  session_result (ReadHoldingRegisters 5 3) (Value [3; 6; 0; 0; 0; 100; 0; 200]) = Ret (Value (HoldingRegistersRead [(5, 0); (6, 100); (7, 200)])).
Proof. exact broken_line_history. Qed.

Example C96_case_another : let l := marks three_registers with_another in
  world_history idle Truncate [9] three_registers (from three_registers) with_another (final three_registers with_another) l /\
  orderly idle Truncate (from three_registers) with_another l /\ few_calls l /\
  others_consults l = [WriteSingleRegister 6 55; WriteSingleRegister 7 66] /\
  consults (observed l) = [ReadHoldingRegisters 5 3; ReadHoldingRegisters 5 3] /\
  results (client_outputs (observed l)) = [(0%nat, Value [3; 6; 0; 0; 0; 0; 0; 0]); (1%nat, Value [3; 6; 0; 0; 0; 55; 0; 66])].
Proof. exact with_another_history. Qed.

(** ** C97: what a history that is not orderly can lead to

    The remainder of a frame that was sent in part is never sent, so the server takes
    the beginning of the next one for it and executes a request nobody made. *)
Theorem C97_short_transfers_refuted : ~ (forall (handler : nat -> unit -> expected (list N) -> unit * list capi) pol units d w0 es w l,
  world_history handler pol units d w0 es w l -> walways handler pol one_attempt w0 es ->
  in_turn None (conn_outs (client_marks l)) -> (forall c, ends_at_failure (peer_outs c (server_marks l))) -> only_requested (observed l)).
Proof. exact whole_frames_needed. Qed.
Print Assumptions C97_short_transfers_refuted.

(** With two attempts to connect a request is sent, and executed, twice. *)
Theorem C97_two_attempts_refuted : ~ (forall (handler : nat -> unit -> expected (list N) -> unit * list capi) pol units d w0 es w l,
  world_history handler pol units d w0 es w l -> walways handler pol whole_frames w0 es ->
  in_turn None (conn_outs (client_marks l)) -> (forall c, ends_at_failure (peer_outs c (server_marks l))) -> at_most_once (observed l)).
Proof. exact one_attempt_needed. Qed.
Print Assumptions C97_two_attempts_refuted.

(** The second part of a late response, read after a write has failed, is taken for
    the response to a request the server has never seen. *)
Theorem C97_late_response_refuted : ~ (forall (handler : nat -> unit -> expected (list N) -> unit * list capi) pol units d w0 es w l,
  world_history handler pol units d w0 es w l -> walways handler pol whole_frames w0 es -> walways handler pol one_attempt w0 es ->
  (forall c, ends_at_failure (peer_outs c (server_marks l))) -> few_calls l -> only_answered (observed l)).
Proof. exact in_turn_needed. Qed.
Print Assumptions C97_late_response_refuted.

(** The second part of a request, read after a write has failed at the server, is
    executed as a request of its own. *)
Theorem C97_late_request_refuted : ~ (forall (handler : nat -> unit -> expected (list N) -> unit * list capi) pol units d w0 es w l,
  world_history handler pol units d w0 es w l -> walways handler pol whole_frames w0 es -> walways handler pol one_attempt w0 es ->
  in_turn None (conn_outs (client_marks l)) -> only_requested (observed l)).
Proof. exact ends_needed. Qed.
Print Assumptions C97_late_request_refuted.

Example C97_case_short_transfers : consults (observed (marks three_registers short_write)) = [WriteMultipleRegisters 6 [1; 0]] /\
  map snd (wires (observed (marks three_registers short_write))) = [[16; 0; 6; 0; 2; 4; 0; 1; 0; 2]; [3; 0; 5; 0; 3]].
Proof. split; vm_compute; reflexivity. Qed.

Example C97_case_two_attempts : consults (observed (marks three_registers two_attempts)) = [WriteSingleRegister 5 4; WriteSingleRegister 5 4] /\
  map snd (wires (observed (marks three_registers two_attempts))) = [[6; 0; 5; 0; 1]; [6; 0; 5; 0; 2]; [6; 0; 5; 0; 3]; [6; 0; 5; 0; 4]].
Proof. split; vm_compute; reflexivity. Qed.

Example C97_case_late_response : consults (observed (marks six_registers late_read)) = [ReadHoldingRegisters 5 6] /\
  results (client_outputs (observed (marks six_registers late_read))) =
    [(0%nat, Error ETimeout); (1%nat, Error (EConnection "reset")); (2%nat, Value [3; 2; 0; 77])].
Proof. split; vm_compute; reflexivity. Qed.

Example C97_case_late_request : consults (observed (marks three_registers late_request)) = [ReadHoldingRegisters 5 3; WriteSingleRegister 5 77] /\
  map snd (wires (observed (marks three_registers late_request))) = [[3; 0; 5; 0; 3]; [16; 0; 5; 0; 6; 12; 0; 7; 0; 0; 0; 6; 9; 6; 0; 5; 0; 77]].
Proof. split; vm_compute; reflexivity. Qed.

(** ** C98: the two sides of the whole

    What happens at the client of a whole is what can happen at a client over TCP, and
    what happens at its server is what can happen at a server over TCP, so everything
    that holds of these holds here. *)
Theorem C98_client_side :
  forall {W : Type} (handler : nat -> W -> expected (list N) -> W * list capi) pol units d w0 es w l,
  Forall u8 units -> world_history handler pol units d w0 es w l -> client_side handler pol es w l.
Proof. exact @world_client. Qed.
Print Assumptions C98_client_side.

Theorem C98_server_side :
  forall {W : Type} (handler : nat -> W -> expected (list N) -> W * list capi) pol units d w0 es w l,
  Forall u8 units -> world_history handler pol units d w0 es w l ->
  server_side pol units (as_max (us_listener (wd_server w0))) es w l.
Proof. exact @world_server. Qed.
Print Assumptions C98_server_side.

(** Behaviour is undefined only where the transport reads a buffer that was freed, and
    where the acceptor drops the oldest of no connections. *)
Theorem C98_undefined :
  forall {W : Type} (handler : nat -> W -> expected (list N) -> W * list capi) pol units d w0 es w l e,
  Forall u8 units -> world_history handler pol units d w0 es w l -> typed_wevent e ->
  world_step handler pol w e = UB -> buffer_freed w e \/ accept_undefined w e.
Proof. exact @world_undefined. Qed.
Print Assumptions C98_undefined.

(** It is defined if no frame is written before the previous one was, and the server is
    started once. *)
Theorem C98_defined :
  forall {W : Type} (handler : nat -> W -> expected (list N) -> W * list capi) pol units d w0 es w l e,
  Forall u8 units -> world_history handler pol units d w0 es w l -> typed_wevent e ->
  always writes_settled cconn_init (conn_ins (client_marks l)) ->
  (forall c, valways vwrites_settled sconn_init (peer_ins c (server_marks l))) ->
  (starts_of (listen_ins (server_marks l)) <= 1)%nat -> as_max (us_listener (wd_server w0)) < 2 ^ 32 - 1 ->
  exists w' m, world_step handler pol w e = Ret (w', m).
Proof. exact @world_defined. Qed.
Print Assumptions C98_defined.

Example C98_case_defined :
  always writes_settled cconn_init (conn_ins (client_marks (marks three_registers broken_line))) /\
  (forall c, valways vwrites_settled sconn_init (peer_ins c (server_marks (marks three_registers broken_line)))) /\
  starts_of (listen_ins (server_marks (marks three_registers broken_line))) = 1%nat /\
  as_max (us_listener (wd_server (from three_registers))) = 4.
Proof. exact broken_line_settled. Qed.

Example C98_case_undefined :
  world_history idle Truncate [9] three_registers (from three_registers) overtaken (final three_registers overtaken) (marks three_registers overtaken) /\
  world_step idle Truncate (final three_registers overtaken) (WClient (TTransfer 0 12)) = UB.
Proof. exact overtaken_history. Qed.

(** ** C99: every request is completed once everything has come to rest

    When nothing is posted, taken, under way or waiting to be taken between the client
    and a connection of the server, every request is completed: none can be lost on the
    way.  This needs that the completion of a write is not later than the end of its
    connection. *)
Theorem C99_completed_partial :
  forall {W : Type} (handler : nat -> W -> expected (list N) -> W * list capi) pol units d w0 es w l,
  Forall u8 units -> world_history handler pol units d w0 es w l -> orderly handler pol w0 es l ->
  walways handler pol timely_writes w0 es -> at_rest w l -> not_shut_down w -> calls_only units (observed l) -> each_completed (observed l).
Proof. exact @rest_completed. Qed.
Print Assumptions C99_completed_partial.

(** Valid requests are answered if no request times out and no connection fails. *)
Theorem C99_answered_partial :
  forall {W : Type} (handler : nat -> W -> expected (list N) -> W * list capi) pol units d w0 es w l,
  Forall u8 units -> world_history handler pol units d w0 es w l -> orderly handler pol w0 es l ->
  walways handler pol timely_writes w0 es -> at_rest w l -> not_shut_down w -> calls_only units (observed l) -> peaceful es l ->
  forall i u r t, In (YC (Called i (session_call u r t))) (observed l) -> legal_request r -> exists x, In (YC (Completed i (Value x))) (observed l).
Proof. exact @rest_answered. Qed.
Print Assumptions C99_answered_partial.

(** What a session's request can be completed with, in every history. *)
Theorem C99_outcomes :
  forall {W : Type} (handler : nat -> W -> expected (list N) -> W * list capi) pol units d w0 es w l,
  Forall u8 units -> world_history handler pol units d w0 es w l ->
  forall i u r t x, typed_request r -> In (YC (Called i (session_call u r t))) (observed l) -> In (YC (Completed i x)) (observed l) ->
  (~ legal_request r /\ x = Error EMalformedRequest) \/
  (legal_request r /\
    ((exists b, x = Value b) \/
     (x = Error ETimeout /\ exists t xs, In (WClient (TFire t xs)) es) \/
     (exists msg, x = Error (EConnection msg)) /\ In Failed (conn_outs (client_marks l)))).
Proof. exact @network_outcomes. Qed.
Print Assumptions C99_outcomes.

(** The completion of a write of a connection that was closed discards the request that
    waits for the next connection (AsioClientTcpConnection.cpp:199, :222); it is never sent. *)
Theorem C99_late_completion_refuted : ~ (forall (handler : nat -> unit -> expected (list N) -> unit * list capi) pol units d w0 es w l,
  Forall u8 units -> world_history handler pol units d w0 es w l -> orderly handler pol w0 es l -> at_rest w l -> not_shut_down w ->
  calls_only units (observed l) -> each_completed (observed l)).
Proof. exact timely_needed. Qed.
Print Assumptions C99_late_completion_refuted.

Example C99_case : let l := marks three_registers good_line in let w := final three_registers good_line in
  world_history idle Truncate [9] three_registers (from three_registers) good_line w l /\ orderly idle Truncate (from three_registers) good_line l /\
  walways idle Truncate timely_writes (from three_registers) good_line /\ at_rest w l /\ not_shut_down w /\ calls_only [9] (observed l) /\ peaceful good_line l /\
  results (client_outputs (observed l)) =
    [(2%nat, Error EMalformedRequest); (0%nat, Value [6; 0; 5; 0; 9]); (1%nat, Value [3; 6; 0; 9; 0; 0; 0; 0])].
Proof. exact good_line_rest. Qed.

Example C99_case_late_completion : map snd (wires (observed (marks three_registers erased))) = [[6; 0; 5; 0; 9]; [3; 0; 5; 0; 3]] /\
  consults (observed (marks three_registers erased)) = [] /\
  results (client_outputs (observed (marks three_registers erased))) = [(0%nat, Error ETimeout)].
Proof. split; [|split]; vm_compute; reflexivity. Qed.
