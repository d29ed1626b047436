(** The properties of a client, a server and a database together. *)
From Verif Require Import Prelude Ser4 Messages Mbap Client Server Database System.
From Verif Require Import SpecPdu SpecMbap SpecClient SpecDb SpecSystem.
From Verif Require Import SystemLemmas ClientCases SystemCases.

(** ** C31: end-to-end correctness

    In every history, with any calls, timeouts, connection failures, pieces and
    delays: the database goes through the states of the four-table model for the
    accesses of [log]; no call of the client is executed twice; and every response a
    session reports is the model's response to this request, taken between the call
    and the report. *)
Theorem C31_end_to_end :
  forall {W : Type} (handler : nat -> W -> expected (list N) -> W * list capi) pol units d F0 es y os,
  happens handler pol units d es y os -> holds d F0 ->
  exists log F, holds (y_db y) F /\ accesses os log /\
    calls_spec F0 (map x_call log) (map x_result log) F /\
    NoDup (executed log) /\
    (timely es os -> forall a i x b, os = a ++ YC (Completed i (Value x)) :: b ->
       exists u r t n v, In (YC (Called i (session_call u r t))) a /\ legal_request r /\
         nth_error log n = Some {| x_call := CRequest r; x_result := RResponse v; x_by := Some i |} /\
         (n < List.length (db_calls a))%nat /\ session_result r (Value x) = Ret v).
Proof. exact @end_to_end. Qed.
Print Assumptions C31_end_to_end.

(** A single valid request to a registered unit, for every database and every
    division of the two byte streams. *)
Theorem C31_single_request :
  forall {W : Type} (handler : nat -> W -> expected (list N) -> W * list capi) pol units d F es y os u r t,
  happens handler pol units d es y os -> holds d F ->
  no_shutdown_handler handler -> Forall undisturbed es -> settled y ->
  called_ids (client_outputs os) = [0%nat] -> In (YC (Called 0 (session_call u r t))) os ->
  In u units -> legal_request r -> (forall c x, ~ In (YD c x) os) ->
  exists x v F', In (YC (Completed 0 (Value x))) os /\ session_result r (Value x) = Ret v /\
    holds (y_db y) F' /\ request_spec F r F' v.
Proof. exact @single_request. Qed.
Print Assumptions C31_single_request.

(** When everything sent has been delivered, every request to a registered unit has
    been completed; undisturbed, every valid one with a response. *)
Theorem C31_all_answered :
  forall {W : Type} (handler : nat -> W -> expected (list N) -> W * list capi) pol units d es y os,
  happens handler pol units d es y os ->
  nothing_under_way y -> cc_shutdown (y_client y) = false -> sv_shutdown (y_server y) = false ->
  forall i u tx f, In (YC (Sent i u tx f)) os -> In u units -> exists r, In (YC (Completed i r)) os.
Proof. exact @all_answered. Qed.
Print Assumptions C31_all_answered.

Theorem C31_all_completed :
  forall {W : Type} (handler : nat -> W -> expected (list N) -> W * list capi) pol units d es y os,
  happens handler pol units d es y os -> no_shutdown_handler handler ->
  Forall undisturbed es -> settled y -> (forall i k, In (YC (Called i k)) os -> In (k_unit k) units) ->
  forall i u r t, In (YC (Called i (session_call u r t))) os -> legal_request r ->
  exists x, In (YC (Completed i (Value x))) os.
Proof. exact @undisturbed_value. Qed.
Print Assumptions C31_all_completed.

(** Everything a handler can be told, and why. *)
Theorem C31_outcomes :
  forall {W : Type} (handler : nat -> W -> expected (list N) -> W * list capi) pol units d es y os,
  happens handler pol units d es y os ->
  forall i u r t x, typed_request r -> In (YC (Called i (session_call u r t))) os -> In (YC (Completed i x)) os ->
  (~ legal_request r /\ x = Error EMalformedRequest) \/
  (legal_request r /\
    ((exists b, x = Value b) \/
     (x = Error ETimeout /\ exists t, In (YFire t) es) \/
     exists msg buf, x = Error (EConnection msg) /\ In (YBreak msg buf) es)).
Proof. exact @outcomes. Qed.
Print Assumptions C31_outcomes.

(** No history leads to undefined behaviour. *)
Theorem C31_no_undefined_behaviour :
  forall {W : Type} (handler : nat -> W -> expected (list N) -> W * list capi) pol units d es buf sbuf w,
  good_buf buf -> good_buf sbuf -> reachable_db d -> session_handler handler -> Forall typed_yevent es ->
  exists y os, system_run handler pol (system_init units d buf sbuf w) es = Ret (y, os).
Proof. exact @system_total. Qed.
Print Assumptions C31_no_undefined_behaviour.

Example C31_case : exists y os, happens idle Truncate [9] three_registers byte_by_byte y os /\ settled y /\
  exists d1 d2, results (client_outputs os) = [(0%nat, Value d1); (1%nat, Value d2)] /\
  session_result (WriteMultipleRegisters 6 [100; 200]) (Value d1) = Ret (Value (MultipleRegistersWritten 6 2)) /\
  session_result (ReadHoldingRegisters 5 3) (Value d2) = Ret (Value (HoldingRegistersRead [(5, 0); (6, 100); (7, 200)])).
Proof. exact byte_by_byte_happens. Qed.

Example C31_case_single : exists y os, happens idle Truncate [9] three_registers one_read y os /\ settled y /\
  Forall undisturbed one_read /\ called_ids (client_outputs os) = [0%nat] /\ In (YC (Called 0 read56)) os /\
  (forall c x, ~ In (YD c x) os).
Proof. exact one_read_happens. Qed.

(** What "at most once" leaves open: a write that failed with the connection takes
    effect after a later one, and a request is executed after its timeout. *)
Example C31_failed_write_takes_effect : exists y os, happens idle Truncate [9] three_registers late_write y os /\
  (exists d2, results (client_outputs os) = [(0%nat, Error (EConnection "reset")); (1%nat, Value d2)]) /\
  run (get_value Holdings 6 0) (y_db y) = Ret (y_db y, (true, 1)).
Proof. exact late_write_happens. Qed.

Example C31_timed_out_write_takes_effect : exists y os, happens idle Truncate [9] three_registers slow_write y os /\
  results (client_outputs os) = [(0%nat, Error ETimeout)] /\
  run (get_value Holdings 6 0) (y_db y) = Ret (y_db y, (true, 1)).
Proof. exact slow_write_happens. Qed.
