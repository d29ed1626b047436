(** The properties of the whole, from the sessions of the client to the database. *)
From Verif Require Import Prelude Ser4 Messages Mbap Client Server Database System.
From Verif Require Import AsyncWrite ClientConn ClientTcp Listener ServerConn ServerTcp World.
From Verif Require Import Scheduled SessionCall Session Full.
From Verif Require Import SpecPdu SpecMbap SpecClient SpecServer SpecDb SpecConn SpecListener SpecClientTcp SpecServerTcp SpecSystem SpecSession SpecWorld SpecFull.
From Verif Require Import FullLemmas FullUndefined ClientCases SystemCases SpecWorld WorldCases FullCases.

(** ** C111: what a user of a session is told, with everything between them and the database

    Sessions with their handlers and scheduled requests, the channel with its
    transactions, its TCP connection, the network, the listener and the connections of a
    server, and its database, which others use as well.  In every orderly history: the
    database goes through the states of the four-table model for the accesses of [log];
    no call is executed twice; and whatever a user is told about a request, at once or
    on schedule, is its malformation, the response of the database to this request,
    given before the user was told, an expired timeout or a failed connection. *)
Theorem C111_end_to_end :
  forall {W : Type} (user : users W) pol units d F0 w0 es w l,
  Forall u8 units -> full_history user pol units d w0 es w l -> forderly user pol w0 es l -> holds d F0 ->
  exists os log F, observed_with_others (world_marks l) os /\ holds (us_user (wd_server w)) F /\ accesses os log /\
    calls_spec F0 (map x_call log) (map x_result log) F /\ NoDup (executed log) /\
    (few_calls (world_marks l) -> forall a m b s v, l = a ++ FK m :: b -> In (s, v) (tellings [m]) ->
       exists i r before after, os = before ++ after /\ observed_with_others (world_marks a) before /\
         request_of l s i r /\ outcome_of es l log (List.length (db_calls before)) i r v).
Proof. exact @end_to_end. Qed.
Print Assumptions C111_end_to_end.

(** Once everything is at rest every request of a session, and every request a schedule
    made, has been answered, provided that no write completes after the end of its
    connection. *)
Theorem C111_answered_partial :
  forall {W : Type} (user : users W) pol units d w0 es w l,
  Forall u8 units -> full_history user pol units d w0 es w l -> forderly user pol w0 es l -> falways user pol timely_writes w0 es ->
  at_rest w (world_marks l) -> not_shut_down w -> sessions_only units l -> each_answered l.
Proof. exact @rest_told. Qed.
Print Assumptions C111_answered_partial.

(** If one does, the request that waits for the next connection may never be answered. *)
Theorem C111_answered_refuted : ~ (forall (user : users unit) pol units d w0 es w l,
  Forall u8 units -> full_history user pol units d w0 es w l ->
  forderly user pol w0 es l -> at_rest w (world_marks l) -> not_shut_down w -> sessions_only units l -> each_answered l).
Proof. exact timely_needed. Qed.
Print Assumptions C111_answered_refuted.

(** The handler of the first request sends the second; the third is scheduled, and
    reads what a local user of the database wrote. *)
Example C111_case : let l := full_marks whole_line in let w := full_final whole_line in
  full_history then_reads Truncate [9] three_registers full_from whole_line w l /\ forderly then_reads Truncate full_from whole_line l /\
  falways then_reads Truncate timely_writes full_from whole_line /\ at_rest w (world_marks l) /\ not_shut_down w /\ sessions_only [9] l /\
  few_calls (world_marks l) /\
  tellings (session_outputs l) =
    [(Once 0, Value (SingleRegisterWritten 5 9)); (Once 1, Value (HoldingRegistersRead [(5, 9); (6, 0); (7, 0)]));
     (Polling 0 0, Value (HoldingRegistersRead [(5, 77)]))].
Proof. exact whole_line_rest. Qed.

(** What happens at the sessions is what can happen at sessions of a channel, so that
    everything that holds of these holds here. *)
Theorem C111_sessions :
  forall {W : Type} (user : users W) pol units d w0 es w l, full_history user pol units d w0 es w l ->
  exists kes, stack_history user pol kes (stack_of w) (session_outputs l) /\ stack_only kes = session_only es /\
    channel_only kes = filter not_api (channel_ins (client_marks (world_marks l))).
Proof. exact @full_sessions. Qed.
Print Assumptions C111_sessions.

(** What happens below them is what can happen between a channel with some handlers and
    a database, in the same order. *)
Theorem C111_network :
  forall {W : Type} (user : users W) pol units d w0 es w l, full_history user pol units d w0 es w l ->
  exists (A : Type) (handler : nat -> A -> expected (list N) -> A * list capi) w0' wes w',
    world_history handler pol units d w0' wes w' (world_marks l) /\ same_world w0 w0' /\ same_world w w' /\
    (forall e, In e wes -> (exists a, e = WClient (TApi a)) \/ In (FWorld e) es) /\
    (forderly user pol w0 es l -> orderly handler pol w0' wes (world_marks l)) /\
    (falways user pol timely_writes w0 es -> walways handler pol timely_writes w0' wes).
Proof. exact @full_network. Qed.
Print Assumptions C111_network.

(** Behaviour is undefined only where it is without sessions. *)
Theorem C111_undefined :
  forall {W : Type} (user : users W) pol units d w0 es w l e,
  Forall u8 units -> full_history user pol units d w0 es w l -> typed_fevent e ->
  full_step user pol w e = UB -> exists e1, e = FWorld e1 /\ (buffer_freed w e1 \/ accept_undefined w e1).
Proof. exact @full_undefined. Qed.
Print Assumptions C111_undefined.

Example C111_case_undefined :
  full_history then_reads Truncate [9] three_registers full_from overtaken_line (full_final overtaken_line) (full_marks overtaken_line) /\
  full_step then_reads Truncate (full_final overtaken_line) (FWorld (WClient (TTransfer 0 12))) = UB.
Proof. exact overtaken_line_history. Qed.

Theorem C111_defined :
  forall {W : Type} (user : users W) pol units d w0 es w l e,
  Forall u8 units -> full_history user pol units d w0 es w l -> typed_fevent e ->
  always writes_settled cconn_init (conn_ins (client_marks (world_marks l))) ->
  (forall c, valways vwrites_settled sconn_init (peer_ins c (server_marks (world_marks l)))) ->
  (starts_of (listen_ins (server_marks (world_marks l))) <= 1)%nat -> as_max (us_listener (wd_server w0)) < 2 ^ 32 - 1 ->
  exists w' m, full_step user pol w e = Ret (w', m).
Proof. exact @full_defined. Qed.
Print Assumptions C111_defined.

Example C111_case_defined : let l := world_marks (full_marks whole_line) in
  always writes_settled cconn_init (conn_ins (client_marks l)) /\
  (forall c, valways vwrites_settled sconn_init (peer_ins c (server_marks l))) /\
  starts_of (listen_ins (server_marks l)) = 1%nat /\ as_max (us_listener (wd_server full_from)) = 4.
Proof. exact whole_line_settled. Qed.
