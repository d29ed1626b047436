(** The properties of the order in which requests take effect. *)
From Verif Require Import Prelude Ser4 Messages Mbap Client Server Database System.
From Verif Require Import AsyncWrite ClientConn ClientTcp Listener ServerConn ServerTcp World.
From Verif Require Import Scheduled SessionCall Session Full.
From Verif Require Import SpecPdu SpecMbap SpecClient SpecServer SpecDb SpecConn SpecListener SpecClientTcp SpecServerTcp SpecSystem SpecSession SpecWorld SpecFull SpecOrder.
From Verif Require Import WorldOrder FullOrder ClientCases SystemCases SpecWorld WorldCases FullCases OrderCases.

(** ** C112: requests take effect in the order in which they were made

    As long as no timeout expires and no connection fails, a server executes the
    requests of a client in the order in which these were made. *)
Theorem C112_in_order_partial :
  forall {W : Type} (handler : nat -> W -> expected (list N) -> W * list capi) pol units d w0 es w l,
  Forall u8 units -> world_history handler pol units d w0 es w l -> orderly handler pol w0 es l -> few_calls l -> peaceful es l ->
  in_call_order (observed l).
Proof. exact @peaceful_order. Qed.
Print Assumptions C112_in_order_partial.

(** After a failure an old request may be executed after a newer one. *)
Theorem C112_in_order_refuted : ~ (forall (handler : nat -> unit -> expected (list N) -> unit * list capi) pol units d w0 es w l,
  Forall u8 units -> world_history handler pol units d w0 es w l -> orderly handler pol w0 es l -> few_calls l -> in_call_order (observed l)).
Proof. exact peace_needed. Qed.
Print Assumptions C112_in_order_refuted.

(** The register was set to 2 by the second request, as the server confirmed; what is
    read after this is 1, from the first, which the client takes to have failed. *)
Example C112_stale_case : let l := marks three_registers stale_write in
  world_history idle Truncate [9] three_registers (from three_registers) stale_write (final three_registers stale_write) l /\
  orderly idle Truncate (from three_registers) stale_write l /\ few_calls l /\
  results (client_outputs (observed l)) =
    [(0%nat, Error (EConnection "reset")); (1%nat, Value [6; 0; 5; 0; 2]); (2%nat, Value [3; 2; 0; 1])] /\
  consults (observed l) = [WriteSingleRegister 5 2; WriteSingleRegister 5 1; ReadHoldingRegisters 5 1].
Proof. exact stale_write_history. Qed.

(** Whatever fails, a request that is answered takes effect before all requests made
    after it. *)
Theorem C112_answered_first :
  forall {W : Type} (handler : nat -> W -> expected (list N) -> W * list capi) pol units d F0 w0 es w l,
  Forall u8 units -> world_history handler pol units d w0 es w l -> orderly handler pol w0 es l -> holds d F0 -> few_calls l ->
  exists os log F, observed_with_others l os /\ holds (us_user (wd_server w)) F /\ accesses os log /\
    calls_spec F0 (map x_call log) (map x_result log) F /\ NoDup (executed log) /\
    forall i x, In (YC (Completed i (Value x))) os -> before_later log i.
Proof. exact @network_order. Qed.
Print Assumptions C112_answered_first.

(** The same for sessions.  A user who was told that something was written, and then
    reads it, through any session and at once or on schedule, is told what was written,
    unless something else wrote to the same address in the meantime. *)
Theorem C112_reads_own_writes :
  forall {W : Type} (user : users W) pol units d F0 w0 es w l,
  Forall u8 units -> full_history user pol units d w0 es w l -> forderly user pol w0 es l -> holds d F0 -> few_calls (world_marks l) ->
  exists os log F, observed_with_others (world_marks l) os /\ holds (us_user (wd_server w)) F /\ accesses os log /\
    calls_spec F0 (map x_call log) (map x_result log) F /\ NoDup (executed log) /\
    (forall s v i r, In (s, v) (tellings (session_outputs l)) -> from_server v -> request_of l s i r ->
       (exists n, nth_error log n = Some {| x_call := CRequest r; x_result := RResponse v; x_by := Some i |}) /\ before_later log i) /\
    (forall s x i r s' y j r' t a v v', In (s, Value x) (tellings (session_outputs l)) -> request_of l s i r ->
       In (s', Value y) (tellings (session_outputs l)) -> request_of l s' j r' -> (i < j)%nat -> puts r t a v -> says y t a v' ->
       v' = v \/ exists m n, effect log i m /\ effect log j n /\ touched_between log m n t a).
Proof. exact @told_order. Qed.
Print Assumptions C112_reads_own_writes.

(** Requests of all sessions together are numbered in the order in which they are made. *)
Theorem C112_numbered :
  forall {W : Type} (user : users W) pol units d w0 es w l, full_history user pol units d w0 es w l -> made l = seq 0 (List.length (made l)).
Proof. exact @made_numbered. Qed.
Print Assumptions C112_numbered.

(** The second request is made by the handler of the first, and reads what it wrote. *)
Example C112_case : let l := full_marks whole_line in
  made l = [0; 1; 2]%nat /\ request_of l (Once 0) 0 (WriteSingleRegister 5 9) /\ request_of l (Once 1) 1 (ReadHoldingRegisters 5 3) /\
  In (Once 0, Value (SingleRegisterWritten 5 9)) (tellings (session_outputs l)) /\
  In (Once 1, Value (HoldingRegistersRead [(5, 9); (6, 0); (7, 0)])) (tellings (session_outputs l)) /\
  puts (WriteSingleRegister 5 9) Holdings 5 9 /\ says (HoldingRegistersRead [(5, 9); (6, 0); (7, 0)]) Holdings 5 9.
Proof. exact whole_line_order. Qed.
