(** Properties C19 - C24: the database. *)
From Verif Require Import Prelude Messages SpecPdu Database SpecDb DatabaseFacts DbLemmas
  Locking SpecLin LockFacts.

(** ** C19: a table is a partial map *)
Theorem C19_table_is_partial_map : forall t os, Forall (typed_op t) os ->
  exists d rs f, run_table t os db_empty = Ret (d, rs) /\
    table_history empty_map os rs f /\
    forall F, holds d F -> same f (F t) /\ forall t', t' <> t -> same empty_map (F t').
Proof. exact table_refines_holds. Qed.
Print Assumptions C19_table_is_partial_map.

Example C19_case :
  let os := [OAdd 7 70; OAdd 65535 1; OAdd 7 71; OSet 8 3; OSet 65535 2;
             OAdd 8 80; OSetMany 7 [5; 6]; OGet 8 0; OGetMany 7 [0; 0]; OValidRange 7 3; OValid 9] in
  Forall (typed_op Holdings) os /\
  omap snd (run_table Holdings os db_empty) =
    Ret [(true, []); (true, []); (false, []); (false, []); (true, []);
         (true, []); (true, []); (true, [6]); (true, [5; 6]); (false, []); (false, [])].
Proof. split; [repeat constructor|vm_compute; reflexivity]. Qed.

(** ** C20: ranges *)
Theorem C20_range_valid_iff : forall d t s n F, reachable_db d -> holds d F ->
  exists b, run (is_valid_range t s n) d = Ret (d, b) /\ (b = true <-> covered (F t) s n).
Proof. exact range_iff. Qed.
Print Assumptions C20_range_valid_iff.

Theorem C20_get_values : forall d t s out F, reachable_db d -> holds d F ->
  exists b vs, run (get_values t s out) d = Ret (d, (b, vs)) /\
    ((covered (F t) s (size out) /\ b = true /\ size vs = size out /\ values_at (F t) s vs)
     \/ (~ covered (F t) s (size out) /\ b = false /\ vs = out)).
Proof. exact get_values_iff. Qed.
Print Assumptions C20_get_values.

(** Every reachable database has tables as described by [holds]. *)
Theorem C20_every_db_holds : forall d, exists F, holds d F.
Proof. intros d. exists (contents d). exact (holds_contents d). Qed.
Print Assumptions C20_every_db_holds.

Example C20_case :
  let d := {| d_coils := []; d_discretes := []; d_holdings := [(65534, 8); (65535, 9)]; d_inputs := [] |} in
  reachable_db d /\
  run (is_valid_range Holdings 65534 2) d = Ret (d, true) /\
  run (is_valid_range Holdings 65534 3) d = Ret (d, false) /\
  run (is_valid_range Holdings 65534 0) d = Ret (d, false) /\
  run (get_values Holdings 65534 [0; 0]) d = Ret (d, (true, [8; 9])).
Proof.
  intros d. split.
  - set (d1 := {| d_coils := []; d_discretes := []; d_holdings := [(65535, 9)]; d_inputs := [] |}).
    apply (RD_op d1 Holdings (OAdd 65534 8) d (true, [])); [|repeat constructor|reflexivity].
    apply (RD_op db_empty Holdings (OAdd 65535 9) d1 (true, []));
      [apply RD_empty|repeat constructor|reflexivity].
  - vm_compute. repeat split.
Qed.

(** ** C21: multi-value writes are all-or-nothing *)
Theorem C21_set_values_all_or_nothing : forall d t s vs F,
  reachable_db d -> holds d F -> Forall (typed_val t) vs ->
  exists d' b F', run (set_values t s vs) d = Ret (d', b) /\ holds d' F' /\
    ((covered (F t) s (size vs) /\ b = true /\ only_writes F t s vs F')
     \/ (~ covered (F t) s (size vs) /\ b = false /\ unchanged F F')).
Proof. exact set_values_iff. Qed.
Print Assumptions C21_set_values_all_or_nothing.

Example C21_case :
  let d := {| d_coils := [(1, false); (2, false); (4, false)]; d_discretes := [];
              d_holdings := []; d_inputs := [] |} in
  omap snd (run (set_values Coils 1 [true; true]) d) = Ret true /\
  run (set_values Coils 1 [true; true; true]) d = Ret (d, false).
Proof. vm_compute. repeat split. Qed.

(** ** C22: no invalid iterator *)
Theorem C22_no_invalid_iterator : forall d, reachable_db d ->
  (forall c, typed_call c -> run (call_body c) d <> UB) /\
  (forall t o, typed_op t o -> run (table_body t o) d <> UB).
Proof. exact db_no_ub. Qed.
Print Assumptions C22_no_invalid_iterator.

(** Undefined behaviour is expressible: an unchecked loop reaches it. *)
Example C22_case : run (set_loop Coils (Some 1) [true; true; true])
  {| d_coils := [(1, false); (2, false)]; d_discretes := []; d_holdings := []; d_inputs := [] |} = UB.
Proof. reflexivity. Qed.

(** ** C23: four independent address spaces *)
Theorem C23_in_memory_data_model : forall cs, Forall typed_call cs ->
  exists d rs F, run_calls cs db_empty = Ret (d, rs) /\ holds d F /\ calls_spec no_values cs rs F /\
    forall rs' F', calls_spec no_values cs rs' F' -> rs' = rs /\ unchanged F F'.
Proof. exact calls_refine_holds. Qed.
Print Assumptions C23_in_memory_data_model.

Example C23_case :
  let cs := [CAdd Coils 10 true; CAdd Coils 11 false; CAdd Discretes 10 false; CAdd Holdings 10 7;
             CRequest (ReadCoils 10 2); CRequest (WriteMultipleCoils 10 [false; true]);
             CRequest (WriteSingleRegister 11 3); CRequest (ReadDiscreteInputs 10 1);
             CTransaction (TxGet Holdings 10 0 (fun b v => TxSet Holdings 10 (to_u16 (v + 1))
                                                 (fun b' => TxDone [v])));
             CRequest (ReadHoldingRegisters 10 1); CRequest (ReadCoils 10 2)] in
  Forall typed_call cs /\
  omap snd (run_calls cs db_empty) =
    Ret [RBool true; RBool true; RBool true; RBool true;
         RResponse (Value (CoilsRead [(10, true); (11, false)]));
         RResponse (Value (MultipleCoilsWritten 10 2));
         RResponse (Error (EModbus IllegalDataAddress));
         RResponse (Value (DiscreteInputsRead [(10, false)]));
         RTransaction [7];
         RResponse (Value (HoldingRegistersRead [(10, 8)]));
         RResponse (Value (CoilsRead [(10, false); (11, true)]))].
Proof.
  split; [|vm_compute; reflexivity].
  repeat constructor; unfold typed_val, u16, to_u16 in *; try lia.
Qed.

(** ** C24: linearizability *)
Theorem C24_linearizable : forall s, creachable s ->
  c_ub s = false /\
  exists l F, linearizes (c_hist s) l F /\ (c_lock s = None -> holds (c_db s) F).
Proof. exact linearizable. Qed.
Print Assumptions C24_linearizable.

Theorem C24_mutual_exclusion : forall s t1 t2 i1 c1 p1 i2 c2 p2, creachable s ->
  c_phase s t1 = Inside i1 c1 p1 -> c_phase s t2 = Inside i2 c2 p2 -> t1 = t2.
Proof. exact mutual_exclusion. Qed.
Print Assumptions C24_mutual_exclusion.

Theorem C24_no_deadlock : forall s th, creachable s -> c_phase s th <> Idle ->
  exists s', cstep s s' /\ c_next s' = c_next s.
Proof. exact no_deadlock. Qed.
Print Assumptions C24_no_deadlock.

(** Two overlapping calls; the second to be invoked is the first to take effect. *)
Example C24_case : exists s, creachable s /\
  c_hist s = [Inv 0 0 (CRequest (WriteSingleCoil 3 true)); Inv 1 1 (CAdd Coils 3 false);
              Res 0 (RResponse (Value (SingleCoilWritten 3 true))); Res 1 (RBool true)].
Proof.
  pose (ms := [MInvoke 0 (CRequest (WriteSingleCoil 3 true)); MInvoke 1 (CAdd Coils 3 false);
               MGo 1; MGo 1; MGo 1; MGo 0; MGo 0; MGo 0; MGo 0; MGo 0; MGo 1]).
  destruct (exec ms cstate_init) as [s|] eqn:E; [|vm_compute in E; discriminate].
  exists s. split.
  - apply (exec_reachable ms cstate_init); [repeat constructor|apply creach_init|exact E].
  - vm_compute in E. now injection E as <-.
Qed.
