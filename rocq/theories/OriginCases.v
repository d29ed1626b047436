(** Cases of the origin of values. *)
From Verif Require Import Prelude Messages SpecPdu Database SpecDb SpecOrder SpecOrigin OriginFacts.

(** The third call fails; the fourth writes another address. *)
Definition some_calls : list call :=
  [CAdd Holdings 5 1; CAdd Holdings 6 2; CRequest (WriteMultipleRegisters 5 [8; 8; 8]); CRequest (WriteSingleRegister 6 7);
   CRequest (WriteSingleRegister 5 9); CRequest (ReadHoldingRegisters 5 2)].

Definition some_results : list result :=
  [RBool true; RBool true; RResponse unknown_address; RResponse (Value (SingleRegisterWritten 6 7));
   RResponse (Value (SingleRegisterWritten 5 9)); RResponse (Value (HoldingRegistersRead [(5, 9); (6, 7)]))].

Lemma some_run : Forall typed_call some_calls /\ (exists d, run_calls some_calls db_empty = Ret (d, some_results)) /\
  says (HoldingRegistersRead [(5, 9); (6, 7)]) Holdings 5 9 /\ given_last no_values some_calls some_results 5 Holdings 5 9 /\
  ~ given_last no_values some_calls some_results 5 Holdings 5 1 /\ ~ given_last no_values some_calls some_results 5 Holdings 5 8.
Proof.
  assert (T : Forall typed_call some_calls).
  { unfold some_calls. repeat constructor; cbn; try exact Logic.I; unfold u16; try lia. }
  assert (R : exists d, run_calls some_calls db_empty = Ret (d, some_results)) by (eexists; vm_compute; reflexivity).
  assert (S : says (HoldingRegistersRead [(5, 9); (6, 7)]) Holdings 5 9) by (left; reflexivity).
  assert (G : given_last no_values some_calls some_results 5 Holdings 5 9).
  { destruct R as [d R]. exact (database_was_given _ _ _ 5%nat (ReadHoldingRegisters 5 2) _ _ _ _ T R eq_refl eq_refl S). }
  assert (N : forall x, ~ In (CTransaction x) some_calls) by (intros x; cbn; intuition discriminate).
  split; [exact T|]. split; [exact R|]. split; [exact S|]. split; [exact G|].
  split; intros K; assert (E := given_once _ _ _ _ _ _ _ _ N G K); discriminate E.
Qed.
