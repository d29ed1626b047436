(** Concrete histories of the whole system. *)
From Verif Require Import Prelude Ser4 Messages Mbap Client Server Database System.
From Verif Require Import SpecPdu SpecMbap SpecClient SpecServer SpecDb SpecSystem.
From Verif Require Import DbLemmas SystemLemmas ClientCases.

Definition zeros : list N := repeat 0 260.

Lemma zeros_good : good_buf zeros.
Proof. split; [reflexivity|]. apply Forall_forall. intros x Hx. apply repeat_spec in Hx. subst x. unfold u8. lia. Qed.

(** A database with holding registers 5, 6 and 7. *)
Definition add_holding (a v : N) (d : db) : db :=
  match run (table_body Holdings (OAdd a v)) d with Ret (d', _) => d' | UB => d end.

Definition three_registers : db := add_holding 7 0 (add_holding 6 0 (add_holding 5 0 db_empty)).

Lemma add_reachable a v d : u16 a -> u16 v -> reachable_db d -> reachable_db (add_holding a v d).
Proof.
  intros Ha Hv Hd. unfold add_holding. destruct (run (table_body Holdings (OAdd a v)) d) as [[d' r]|] eqn:E; [|exact Hd].
  apply (RD_op d Holdings (OAdd a v) d' r Hd); [split; assumption|exact E].
Qed.

Lemma three_reachable : reachable_db three_registers.
Proof. repeat apply add_reachable; try apply RD_empty; unfold u16; lia. Qed.

Definition write67 : Client.call := session_call 9 (WriteMultipleRegisters 6 [100; 200]) 1000.
Definition read56 : Client.call := session_call 9 (ReadHoldingRegisters 5 3) 1000.

Lemma idle_session : session_handler idle.
Proof. intros i w r w' calls E. injection E as _ <-. constructor. Qed.

Ltac typed_session := do 3 eexists; split; [|split; [|reflexivity]]; [unfold u8; lia|].

Lemma write67_session : by_session (Submit write67).
Proof. typed_session. cbn. split; [unfold u16; lia|]. repeat constructor; unfold u16; lia. Qed.

Lemma read56_session : by_session (Submit read56).
Proof. typed_session. cbn. split; unfold u16; lia. Qed.

(** Both requests are submitted at once; every byte is delivered on its own. *)
Definition byte_by_byte : list yevent :=
  [YCall (Submit write67); YCall (Submit read56); YRun; YRun]
  ++ repeat (YUp 0 1) 17 ++ repeat (YDown 1) 12
  ++ repeat (YUp 0 1) 12 ++ repeat (YDown 1) 15.

Lemma byte_by_byte_typed : Forall typed_yevent byte_by_byte.
Proof.
  unfold byte_by_byte. constructor; [exact write67_session|]. constructor; [exact read56_session|].
  do 2 (constructor; [exact I|]). repeat (apply Forall_app; split); apply Forall_forall; intros x Hx; apply repeat_spec in Hx; subst x; exact I.
Qed.

Lemma byte_by_byte_undisturbed : Forall undisturbed byte_by_byte.
Proof.
  assert (U : forall e, (match e with YCall (Submit _) | YRun | YUp _ _ | YDown _ => True | _ => False end) -> undisturbed e).
  { intros e He. destruct e as [[k|]| |t|t|a| |c|c n|n|msg buf]; try destruct He; split; [split| |split| |split| |split|]; try discriminate; split; discriminate. }
  unfold byte_by_byte. do 4 (constructor; [apply U; exact I|]).
  repeat (apply Forall_app; split); apply Forall_forall; intros x Hx; apply repeat_spec in Hx; subst x; apply U; exact I.
Qed.

(** What is looked at below: the queue, what is under way, the outputs of the client,
    the local accesses, and register 6. *)
Definition observed {W} (r : outcome (system W * list youtput)) :=
  match r with
  | Ret (y, os) =>
      Some (match cc_queue (y_client y) with [] => true | _ => false end,
            (y_up y (y_conn y), y_down y (y_conn y)),
            (results (client_outputs os), called_ids (client_outputs os)),
            flat_map (fun o => match o with YD c r => [c] | _ => [] end) os,
            match run (get_value Holdings 6 0) (y_db y) with Ret (_, x) => Some x | UB => None end)
  | UB => None
  end.

Lemma settled_observed {W} (y : system W) :
  match cc_queue (y_client y) with [] => true | _ => false end = true ->
  y_up y (y_conn y) = [] -> y_down y (y_conn y) = [] -> settled y.
Proof. intros H1 H2 H3. split; [destruct (cc_queue (y_client y)); [reflexivity|discriminate]|split; assumption]. Qed.

Lemma register_observed d x : match run (get_value Holdings 6 0) d with Ret (_, x) => Some x | UB => None end = Some x ->
  run (get_value Holdings 6 0) d = Ret (d, x).
Proof.
  destruct (holds_contents d Holdings 6 0). destruct (run (get_value Holdings 6 0) d) as [[d' x']|] eqn:E; [|discriminate].
  intros H. injection H as ->. rewrite (holds_contents d Holdings 6 0) in E. injection E as <- <-. reflexivity.
Qed.

Lemma happens_run es y os : Forall typed_yevent es ->
  system_run idle Truncate (system_init [9] three_registers zeros zeros tt) es = Ret (y, os) ->
  happens idle Truncate [9] three_registers es y os.
Proof.
  intros Ht E. exists zeros, zeros, tt. split; [exact zeros_good|]. split; [exact zeros_good|].
  split; [exact three_reachable|]. split; [exact Ht|]. split; [exact idle_session|exact E].
Qed.

Lemma first_called {W} handler pol (y : system W) k es y' os : cc_shutdown (y_client y) = false ->
  system_run handler pol y (YCall (Submit k) :: es) = Ret (y', os) -> In (YC (Called (cc_calls (y_client y)) k)) os.
Proof.
  intros Hs E. cbn [system_run system_step] in E. unfold on_client in E. cbn [client_step capi_call] in E. rewrite Hs in E.
  cbn [obind] in E. destruct (system_run handler pol _ es) as [[y2 o2]|]; cbn [obind] in E; [|discriminate].
  injection E as _ <-. left. reflexivity.
Qed.

Lemma no_local os : flat_map (fun o => match o with YD c r => [c] | _ => [] end) os = [] -> forall c x, ~ In (YD c x) os.
Proof.
  intros H c x Hi. assert (X : In c (flat_map (fun o => match o with YD c r => [c] | _ => [] end) os)).
  { apply in_flat_map. eexists. split; [exact Hi|left; reflexivity]. }
  rewrite H in X. destruct X.
Qed.

Ltac observe es :=
  let E := fresh "E" in let O := fresh "O" in let y := fresh "y" in let os := fresh "os" in
  assert (O : observed (system_run idle Truncate (system_init [9] three_registers zeros zeros tt) es) <> None)
    by (vm_compute; discriminate);
  destruct (observed (system_run idle Truncate (system_init [9] three_registers zeros zeros tt) es)) as [x|] eqn:E; [|contradiction];
  clear O; assert (O := E); vm_compute in E; injection E as <-;
  destruct (system_run idle Truncate (system_init [9] three_registers zeros zeros tt) es) as [[y os]|] eqn:E; [|discriminate O];
  cbn [observed] in O; injection O as O1 O2 O3 O4 O5 O6 O7;
  exists y, os.

Lemma byte_by_byte_happens : exists y os, happens idle Truncate [9] three_registers byte_by_byte y os /\ settled y /\
  exists d1 d2, results (client_outputs os) = [(0%nat, Value d1); (1%nat, Value d2)] /\
  session_result (WriteMultipleRegisters 6 [100; 200]) (Value d1) = Ret (Value (MultipleRegistersWritten 6 2)) /\
  session_result (ReadHoldingRegisters 5 3) (Value d2) = Ret (Value (HoldingRegistersRead [(5, 0); (6, 100); (7, 200)])).
Proof.
  observe byte_by_byte. split; [apply happens_run; [exact byte_by_byte_typed|assumption]|].
  split; [apply settled_observed; assumption|]. do 2 eexists. split; [eassumption|]. split; vm_compute; reflexivity.
Qed.

(** A write that was reported as failed takes effect after a later one. *)
Definition write6 (v : N) : Client.call := session_call 9 (WriteSingleRegister 6 v) 1000.

Lemma write6_session v : u16 v -> by_session (Submit (write6 v)).
Proof. intros H. typed_session. cbn. split; [unfold u16; lia|exact H]. Qed.

Definition late_write : list yevent :=
  [YCall (Submit (write6 1)); YRun; YBreak "reset" zeros; YCall (Submit (write6 2)); YRun;
   YUp 1 12; YDown 12; YUp 0 12].

Lemma late_write_happens : exists y os, happens idle Truncate [9] three_registers late_write y os /\
  (exists d2, results (client_outputs os) = [(0%nat, Error (EConnection "reset")); (1%nat, Value d2)]) /\
  run (get_value Holdings 6 0) (y_db y) = Ret (y_db y, (true, 1)).
Proof.
  observe late_write. split; [|split; [eexists; eassumption|apply register_observed; assumption]].
  apply happens_run; [|assumption]. unfold late_write.
  repeat (constructor; [first [exact I | exact zeros_good | apply write6_session; unfold u16; lia]|]). constructor.
Qed.

(** A request is executed although its timeout was reported. *)
Definition slow_write : list yevent :=
  [YCall (Submit (write6 1)); YRun; YExpire 0; YFire 0; YUp 0 12; YDown 12].

Lemma slow_write_happens : exists y os, happens idle Truncate [9] three_registers slow_write y os /\
  results (client_outputs os) = [(0%nat, Error ETimeout)] /\
  run (get_value Holdings 6 0) (y_db y) = Ret (y_db y, (true, 1)).
Proof.
  observe slow_write. split; [|split; [assumption|apply register_observed; assumption]].
  apply happens_run; [|assumption]. unfold slow_write.
  repeat (constructor; [first [exact I | apply write6_session; unfold u16; lia]|]). constructor.
Qed.

(** The client sends one request and everything is delivered. *)
Definition one_read : list yevent := [YCall (Submit read56); YRun; YUp 0 5; YUp 0 7; YDown 9; YDown 6].

Lemma one_read_happens : exists y os, happens idle Truncate [9] three_registers one_read y os /\ settled y /\
  Forall undisturbed one_read /\ called_ids (client_outputs os) = [0%nat] /\ In (YC (Called 0 read56)) os /\
  (forall c x, ~ In (YD c x) os).
Proof.
  observe one_read. split; [|split; [apply settled_observed; assumption|split; [|split; [assumption|split]]]].
  - apply happens_run; [|assumption]. constructor; [exact read56_session|]. repeat (constructor; [exact I|]). constructor.
  - unfold one_read. repeat (constructor; [split; [split; discriminate|split; discriminate]|]). constructor.
  - match goal with E : system_run _ _ ?y0 _ = _ |- _ => exact (first_called idle Truncate y0 read56 _ _ _ eq_refl E) end.
  - apply no_local. assumption.
Qed.
