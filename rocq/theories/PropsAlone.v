(** What a client of a server notices of the other clients. *)
From Verif Require Import Prelude Ser4 Messages Mbap SpecPdu SpecMbap Server SpecServer Database System SpecAlone AloneFacts AloneCases.

(** ** C120: a client notices nothing of others that do not change what it asks about

    If what the others ask leaves the sessions as they are, a client is answered as if it
    were alone: its answers, all calls of the channel's users and the final state are those
    of the history without the other connections, whatever these send. *)
Theorem C120_alone : forall {W : Type} (on_request : N -> W -> request -> W * expected response * list api) (on_shutdown : N -> W -> W * list api)
  pol c w es s1 w1 o1, undisturbed on_request on_shutdown pol c server_init w es ->
  server_run on_request on_shutdown pol server_init w es = Ret (s1, w1, o1) ->
  exists t1 o2, server_run on_request on_shutdown pol server_init w (alone c es) = Ret (t1, w1, o2) /\
    sends_on c o2 = sends_on c o1 /\ filter (fun o => negb (by_frame o)) o2 = filter (fun o => negb (by_frame o)) o1 /\
    sv_sessions t1 = sv_sessions s1 /\ sv_shutdown t1 = sv_shutdown s1.
Proof. exact @as_if_alone. Qed.
Print Assumptions C120_alone.

(** So it is with a database if the others only read. *)
Theorem C120_database : forall pol c d es s1 d1 o1,
  asks_only db_session db_shutdown (fun own x r => own = true \/ reading r = true) pol c server_init d es ->
  server_run db_session db_shutdown pol server_init d es = Ret (s1, d1, o1) ->
  exists t1 o2, server_run db_session db_shutdown pol server_init d (alone c es) = Ret (t1, d1, o2) /\ sends_on c o2 = sends_on c o1.
Proof. exact readers_unnoticed. Qed.
Print Assumptions C120_database.

(** And if each session has a state of its own and the others talk to other sessions,
    which do not call the channel: also the state of the other sessions does not matter. *)
Theorem C120_units : forall {S : Type} (handle : N -> S -> request -> S * expected response * list api) (stop : N -> S -> S * list api)
  (mine : N -> bool) pol c w v es s1 w1 o1,
  (forall x, mine x = false -> calls_nothing handle stop x) -> (forall x, mine x = true -> w x = v x) ->
  asks_only (separately handle) (stop_separately stop) (fun own x r => mine x = own) pol c server_init w es ->
  server_run (separately handle) (stop_separately stop) pol server_init w es = Ret (s1, w1, o1) ->
  exists t1 v1 o2, server_run (separately handle) (stop_separately stop) pol server_init v (alone c es) = Ret (t1, v1, o2) /\
    sends_on c o2 = sends_on c o1 /\ forall x, mine x = true -> v1 x = w1 x.
Proof. exact @apart. Qed.
Print Assumptions C120_units.

Example C120_case : asks_only db_session db_shutdown (fun own x r => own = true \/ reading r = true) AllOrNothing 9 server_init one_register two_readers /\
  alone 9 two_readers = [EApi (ApiAdd 5 1); ERun; EAccept 9 (repeat 0 260); EReceive 9 (ask 1 [6; 0; 0; 0; 3]); EReceive 9 (ask 2 [3; 0; 0; 0; 1])] /\
  exists s d o, server_run db_session db_shutdown AllOrNothing server_init one_register two_readers = Ret (s, d, o) /\
    sends_on 9 o = map (map Some) [ask 1 [6; 0; 0; 0; 3]; ask 2 [3; 2; 0; 3]] /\
    sends_on 8 o = map (map Some) [ask 1 [3; 2; 0; 7]; ask 2 [3; 2; 0; 3]].
Proof.
  split.
  { apply asked_only. replace (asked_by _ _ _ _ _ _ _) with
      [(false, 1, ReadHoldingRegisters 0 1); (true, 1, WriteSingleRegister 0 3); (false, 1, ReadHoldingRegisters 0 1); (true, 1, ReadHoldingRegisters 0 1)]
      by (vm_compute; reflexivity).
    repeat constructor; (left; reflexivity) || (right; reflexivity). }
  split; [vm_compute; reflexivity|].
  do 3 eexists. split; [vm_compute; reflexivity|]. vm_compute. split; reflexivity.
Qed.

(** Writing is noticed. *)
Example C120_writer : exists s d o t d' o',
  server_run db_session db_shutdown AllOrNothing server_init one_register a_writer = Ret (s, d, o) /\
  server_run db_session db_shutdown AllOrNothing server_init one_register (alone 9 a_writer) = Ret (t, d', o') /\
  sends_on 9 o = [map Some (ask 2 [3; 2; 0; 3])] /\ sends_on 9 o' = [map Some (ask 2 [3; 2; 0; 7])].
Proof. do 6 eexists. split; [vm_compute; reflexivity|]. split; [vm_compute; reflexivity|]. vm_compute. split; reflexivity. Qed.

Example C120_units_case : (forall x, calls_nothing count_requests count_on x) /\
  asks_only (separately count_requests) (stop_separately count_on) (fun own x r => (x =? 1) = own) AllOrNothing 9 server_init (fun _ => 0) two_units /\
  exists s w o, server_run (separately count_requests) (stop_separately count_on) AllOrNothing server_init (fun _ => 0) two_units = Ret (s, w, o) /\
    sends_on 9 o = map (map Some) [frame_bytes 1 5 [3; 2; 0; 0]; frame_bytes 2 5 [3; 2; 0; 1]].
Proof.
  split; [intros x; split; reflexivity|]. split.
  { apply asked_only. replace (asked_by _ _ _ _ _ _ _) with
      [(false, 2, ReadHoldingRegisters 0 1); (true, 1, ReadHoldingRegisters 0 1); (false, 2, ReadHoldingRegisters 0 1); (true, 1, ReadHoldingRegisters 0 1)]
      by (vm_compute; reflexivity).
    repeat constructor. }
  do 3 eexists. split; [vm_compute; reflexivity|]. vm_compute. reflexivity.
Qed.
