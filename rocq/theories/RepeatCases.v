(** Concrete requests that are repeated. *)
From Verif Require Import Prelude Ser4 Messages Mbap SpecPdu SpecMbap Database SpecDb System Server SpecServer SpecAlone SpecChunks SpecStray SpecRepeat.
Require Import Permutation.

Definition two_registers : db := {| d_coils := []; d_discretes := []; d_holdings := [(5, 0); (6, 0)]; d_inputs := [] |}.

Lemma two_reachable : reachable_db two_registers.
Proof.
  set (d1 := {| d_coils := []; d_discretes := []; d_holdings := [(5, 0)]; d_inputs := [] |}).
  apply (RD_op d1 Holdings (OAdd 6 0) two_registers (true, [])); [|repeat constructor|reflexivity].
  apply (RD_op db_empty Holdings (OAdd 5 0) d1 (true, [])); [apply RD_empty|repeat constructor|reflexivity].
Qed.

Lemma write_typed a v : u16 a -> u16 v -> typed_call (CRequest (WriteSingleRegister a v)).
Proof. intros A B. split; [split; assumption|exact I]. Qed.

(** An old request that is executed again undoes a newer one. *)
Theorem again_noticed : ~ (forall d r cs d1 x rs, reachable_db d -> typed_call (CRequest r) -> Forall typed_call cs ->
  run_calls (CRequest r :: cs) d = Ret (d1, x :: rs) -> exists y, run_calls (CRequest r :: cs ++ [CRequest r]) d = Ret (d1, x :: rs ++ [y])).
Proof.
  intros H. assert (K := H two_registers (WriteSingleRegister 5 1) [CRequest (WriteSingleRegister 5 2)]
    {| d_coils := []; d_discretes := []; d_holdings := [(5, 2); (6, 0)]; d_inputs := [] |}
    (RResponse (Value (SingleRegisterWritten 5 1))) [RResponse (Value (SingleRegisterWritten 5 2))] two_reachable (write_typed 5 1 eq_refl eq_refl)).
  destruct K as (y & E).
  - constructor; [|constructor]. apply write_typed; reflexivity.
  - vm_compute. reflexivity.
  - vm_compute in E. discriminate E.
Qed.

Theorem again_case :
  let r := WriteMultipleRegisters 5 [1; 2] in let cs := [CRequest (ReadHoldingRegisters 5 2); CAdd Holdings 7 3] in
  (forall c t a, In c cs -> about r t a -> ~ changes c t a) /\
  omap snd (run_calls (CRequest r :: cs ++ [CRequest r]) two_registers) =
    Ret [RResponse (Value (MultipleRegistersWritten 5 2)); RResponse (Value (HoldingRegistersRead [(5, 1); (6, 2)])); RBool true;
         RResponse (Value (MultipleRegistersWritten 5 2))].
Proof.
  split; [|vm_compute; reflexivity]. intros c t a [<-|[<-|[]]] H K; cbn in H, K; [destruct K; discriminate|].
  destruct H as [_ H], K as [_ ->]. vm_compute in H. destruct H as [_ H]. discriminate H.
Qed.

(** A frame is received twice by a server of this database. *)
Definition write_frame : list N := frame_bytes 1 2 [6; 0; 5; 0; 9].
Definition greeted : list event := [EApi (ApiAdd 2 0); ERun; EAccept 9 (repeat 0 260)].
Definition ends (es : list event) : option (list (N * N) * list output) :=
  match server_run db_session db_shutdown Truncate server_init two_registers es with Ret (_, d, o) => Some (d_holdings d, o) | UB => None end.

Theorem frame_twice_case : let answer := [OConsult 0 (WriteSingleRegister 5 9); OSend 9 (map Some (frame_bytes 1 2 [6; 0; 5; 0; 9]))] in
  ends (greeted ++ [EReceive 9 write_frame]) = Some ([(5, 9); (6, 0)], answer) /\
  ends (greeted ++ [EReceive 9 write_frame; EReceive 9 write_frame]) = Some ([(5, 9); (6, 0)], answer ++ answer).
Proof. vm_compute. split; reflexivity. Qed.

(** ** Other orders *)
Theorem order_noticed : ~ (forall r q d d' x y, reachable_db d -> typed_call (CRequest r) -> typed_call (CRequest q) ->
  run_calls [CRequest r; CRequest q] d = Ret (d', [x; y]) -> run_calls [CRequest q; CRequest r] d = Ret (d', [y; x])).
Proof.
  intros H. assert (E := H (WriteSingleRegister 5 1) (ReadHoldingRegisters 5 1) two_registers
    {| d_coils := []; d_discretes := []; d_holdings := [(5, 1); (6, 0)]; d_inputs := [] |}
    (RResponse (Value (SingleRegisterWritten 5 1))) (RResponse (Value (HoldingRegistersRead [(5, 1)]))) two_reachable
    (write_typed 5 1 eq_refl eq_refl) (conj (conj eq_refl eq_refl) I) eq_refl).
  vm_compute in E. discriminate E.
Qed.

Theorem order_case : let r := WriteSingleRegister 5 1 in let q := ReadHoldingRegisters 6 1 in
  independent r q /\
  run_calls (map CRequest [r; q]) two_registers =
    Ret ({| d_coils := []; d_discretes := []; d_holdings := [(5, 1); (6, 0)]; d_inputs := [] |},
         [RResponse (Value (SingleRegisterWritten 5 1)); RResponse (Value (HoldingRegistersRead [(6, 0)]))]) /\
  run_calls (map CRequest [q; r]) two_registers =
    Ret ({| d_coils := []; d_discretes := []; d_holdings := [(5, 1); (6, 0)]; d_inputs := [] |},
         [RResponse (Value (HoldingRegistersRead [(6, 0)])); RResponse (Value (SingleRegisterWritten 5 1))]).
Proof.
  split; [|vm_compute; split; reflexivity]. intros t a [_ A] [_ B]. lia.
Qed.
