(** Requests that are repeated or executed in another order. *)
From Verif Require Import Prelude Ser4 Messages Mbap SpecPdu SpecMbap Database SpecDb System Server SpecServer SpecAlone SpecChunks SpecStray SpecRepeat.
From Verif Require Import RepeatFacts RepeatServer RepeatCases.
Require Import Permutation.

(** ** C125: a request that is executed again does nothing more

    Executed twice, a request has the same response both times, and leaves the database as
    if it had been executed once. *)
Theorem C125_again : forall d r d1 x, reachable_db d -> typed_call (CRequest r) ->
  run_calls [CRequest r] d = Ret (d1, [x]) -> run_calls [CRequest r; CRequest r] d = Ret (d1, [x; x]).
Proof. exact again_at_once. Qed.
Print Assumptions C125_again.

(** Later on this is not so: it may undo what has been written in the meantime. *)
Theorem C125_later_refuted : ~ (forall d r cs d1 x rs, reachable_db d -> typed_call (CRequest r) -> Forall typed_call cs ->
  run_calls (CRequest r :: cs) d = Ret (d1, x :: rs) -> exists y, run_calls (CRequest r :: cs ++ [CRequest r]) d = Ret (d1, x :: rs ++ [y])).
Proof. exact again_noticed. Qed.
Print Assumptions C125_later_refuted.

(** It is if it is a read, or nothing has been changed where it writes. *)
Theorem C125_later_partial : forall d r cs d1 x rs, reachable_db d -> typed_call (CRequest r) -> Forall typed_call cs ->
  run_calls (CRequest r :: cs) d = Ret (d1, x :: rs) ->
  reading r = true \/ (forall c t a, In c cs -> about r t a -> ~ changes c t a) ->
  exists y, run_calls (CRequest r :: cs ++ [CRequest r]) d = Ret (d1, x :: rs ++ [y]) /\ (reading r = false \/ cs = [] -> y = x).
Proof. exact again_later. Qed.
Print Assumptions C125_later_partial.

Example C125_case :
  let r := WriteMultipleRegisters 5 [1; 2] in let cs := [CRequest (ReadHoldingRegisters 5 2); CAdd Holdings 7 3] in
  (forall c t a, In c cs -> about r t a -> ~ changes c t a) /\
  omap snd (run_calls (CRequest r :: cs ++ [CRequest r]) two_registers) =
    Ret [RResponse (Value (MultipleRegistersWritten 5 2)); RResponse (Value (HoldingRegistersRead [(5, 1); (6, 2)])); RBool true;
         RResponse (Value (MultipleRegistersWritten 5 2))].
Proof. exact again_case. Qed.
Print Assumptions C125_case.

(** A server of such sessions answers a frame that is received twice twice, in the same way;
    everything else, also later, is as if it had been received once. *)
Theorem C125_frame : forall {W : Type} (P : W -> Prop) (on_request : N -> W -> request -> W * expected response * list api)
  (on_shutdown : N -> W -> W * list api), repeatable P on_request on_shutdown ->
  forall pol w a c d its x b s0 w0 o0, P w -> Forall typed_event (a ++ EReceive c d :: b) ->
  whole (arrived c [] a) its ->
  server_run on_request on_shutdown pol server_init w a = Ret (s0, w0, o0) -> whole d [x] ->
  exists s1 w1 o s t w2 o2, server_run on_request on_shutdown pol s0 w0 [EReceive c d] = Ret (s1, w1, o) /\
    server_run on_request on_shutdown pol server_init w (a ++ EReceive c d :: b) = Ret (s, w2, o0 ++ o ++ o2) /\
    server_run on_request on_shutdown pol server_init w (a ++ EReceive c d :: EReceive c d :: b) = Ret (t, w2, o0 ++ o ++ o ++ o2) /\
    but_parsers s t /\ forall y, sv_conns s y = sv_conns t y.
Proof. exact @twice_as_once. Qed.
Print Assumptions C125_frame.

Theorem C125_database : repeatable reachable_db db_session db_shutdown.
Proof. exact db_repeatable. Qed.
Print Assumptions C125_database.

Example C125_frame_case : let answer := [OConsult 0 (WriteSingleRegister 5 9); OSend 9 (map Some (frame_bytes 1 2 [6; 0; 5; 0; 9]))] in
  ends (greeted ++ [EReceive 9 write_frame]) = Some ([(5, 9); (6, 0)], answer) /\
  ends (greeted ++ [EReceive 9 write_frame; EReceive 9 write_frame]) = Some ([(5, 9); (6, 0)], answer ++ answer).
Proof. exact frame_twice_case. Qed.
Print Assumptions C125_frame_case.

(** ** C126: requests about different addresses can be executed in any order

    If nothing that one of them writes is read or written by another, requests in any other
    order leave the same database, and each has the same response. *)
Theorem C126_any_order : forall rs rs' d d' xs, reachable_db d -> Forall (fun r => typed_call (CRequest r)) rs ->
  Permutation rs rs' -> ForallOrdPairs independent rs -> run_calls (map CRequest rs) d = Ret (d', xs) ->
  exists xs', run_calls (map CRequest rs') d = Ret (d', xs') /\ Permutation (combine rs xs) (combine rs' xs').
Proof. exact any_order. Qed.
Print Assumptions C126_any_order.

(** The condition matters. *)
Theorem C126_dependent_refuted : ~ (forall r q d d' x y, reachable_db d -> typed_call (CRequest r) -> typed_call (CRequest q) ->
  run_calls [CRequest r; CRequest q] d = Ret (d', [x; y]) -> run_calls [CRequest q; CRequest r] d = Ret (d', [y; x])).
Proof. exact order_noticed. Qed.
Print Assumptions C126_dependent_refuted.

Example C126_case : let r := WriteSingleRegister 5 1 in let q := ReadHoldingRegisters 6 1 in
  independent r q /\
  run_calls (map CRequest [r; q]) two_registers =
    Ret ({| d_coils := []; d_discretes := []; d_holdings := [(5, 1); (6, 0)]; d_inputs := [] |},
         [RResponse (Value (SingleRegisterWritten 5 1)); RResponse (Value (HoldingRegistersRead [(6, 0)]))]) /\
  run_calls (map CRequest [q; r]) two_registers =
    Ret ({| d_coils := []; d_discretes := []; d_holdings := [(5, 1); (6, 0)]; d_inputs := [] |},
         [RResponse (Value (HoldingRegistersRead [(6, 0)])); RResponse (Value (SingleRegisterWritten 5 1))]).
Proof. exact order_case. Qed.
Print Assumptions C126_case.
