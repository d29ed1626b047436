(** Runs in which requests overtake each other. *)
From Verif Require Import Prelude Ser4 Messages Mbap Client Server Database System.
From Verif Require Import AsyncWrite ClientConn ClientTcp Listener ServerConn ServerTcp World.
From Verif Require Import Scheduled SessionCall Session Full.
From Verif Require Import SpecPdu SpecMbap SpecClient SpecServer SpecDb SpecConn SpecClientTcp SpecServerTcp SpecSystem SpecSession SpecWorld SpecFull SpecOrder.
From Verif Require Import ClientCases SystemCases SpecWorld WorldCases FullParts FullLemmas FullCases.

(** The client gives up a connection on which a request is on its way; the server
    receives this after it has executed the next, which was answered. *)
Definition stale_write : list wevent :=
  listening ++ [ask (WriteSingleRegister 5 1); turn_of_client] ++ connecting 1 0 ++ took_client 0 12 ++
  [WClient (TRead 0 RError "reset" []); turn_of_client; ask (WriteSingleRegister 5 2); turn_of_client] ++ connecting 3 1 ++ took_client 1 12 ++
  [WServer (URead 1 0 (RData [0; 1; 0; 0; 0; 6; 9; 6; 0; 5; 0; 2])); WServer (UTransfer 1 0 12); WServer (UWritten 1 0 true);
   WClient (TRead 1 (RData [0; 1; 0; 0; 0; 6; 9; 6; 0; 5; 0; 2]) "" []);
   WServer (URead 0 0 (RData [0; 0; 0; 0; 0; 6; 9; 6; 0; 5; 0; 1])); ask (ReadHoldingRegisters 5 1); turn_of_client] ++ took_client 2 12 ++
  [WServer (URead 1 1 (RData [0; 2; 0; 0; 0; 6; 9; 3; 0; 5; 0; 1])); WServer (UTransfer 1 1 11); WServer (UWritten 1 1 true);
   WClient (TRead 2 (RData [0; 2; 0; 0; 0; 5; 9; 3; 2; 0; 1]) "" [])].

Lemma stale_write_typed : Forall typed_wevent stale_write.
Proof. unfold stale_write. typed_events. Qed.

Lemma stale_write_history : let l := marks three_registers stale_write in
  world_history idle Truncate [9] three_registers (from three_registers) stale_write (final three_registers stale_write) l /\
  orderly idle Truncate (from three_registers) stale_write l /\ few_calls l /\
  results (client_outputs (observed l)) =
    [(0%nat, Error (EConnection "reset")); (1%nat, Value [6; 0; 5; 0; 2]); (2%nat, Value [3; 2; 0; 1])] /\
  consults (observed l) = [WriteSingleRegister 5 2; WriteSingleRegister 5 1; ReadHoldingRegisters 5 1].
Proof.
  cbv zeta. split; [apply history_of; [exact three_reachable|exact stale_write_typed|vm_compute; reflexivity]|].
  split; [orders|]. split; [vm_compute; discriminate|]. split; vm_compute; reflexivity.
Qed.

Lemma stale_write_overtaken : ~ in_call_order (observed (marks three_registers stale_write)).
Proof.
  intros (ids & N & F). destruct stale_write_history as (_ & _ & _ & _ & E). cbv zeta in E.
  rewrite E in F. inversion F as [|r i rs l (u & t & H) F1 E1 E2]; subst. inversion F1 as [|r' j rs' l' (u' & t' & H') F2 E1 E2]; subst.
  apply wires_in in H, H'. calls three_registers stale_write H. calls three_registers stale_write H'.
  computed (build_into 260 (request_message (WriteSingleRegister 5 2))) B. computed (build_into 260 (request_message (WriteSingleRegister 5 1))) B'.
  rewrite B in H. rewrite B' in H'. cbn [In] in H, H'. inversion N as [|? ? _ K]; subst. inversion K as [|? ? L _]; subst.
  assert (i = 1%nat) by (repeat match goal with K : _ \/ _ |- _ => destruct K as [K|K] | K : False |- _ => destruct K end; congruence).
  assert (j = 0%nat) by (repeat match goal with K : _ \/ _ |- _ => destruct K as [K|K] | K : False |- _ => destruct K end; congruence).
  lia.
Qed.

Lemma peace_needed : ~ (forall (handler : nat -> unit -> expected (list N) -> unit * list capi) pol units d w0 es w l,
  Forall u8 units -> world_history handler pol units d w0 es w l -> orderly handler pol w0 es l -> few_calls l -> in_call_order (observed l)).
Proof.
  intros H. destruct stale_write_history as (A & B & C & _). apply stale_write_overtaken.
  assert (U : Forall u8 [9]) by (constructor; [unfold u8; lia|constructor]). exact (H _ _ _ _ _ _ _ _ U A B C).
Qed.

Definition issues (l : list fmark) : list (nat * nat * request * option N) :=
  flat_map (fun m => match m with FK (Issued i x r t) => [(i, x, r, t)] | _ => [] end) l.
Lemma issues_in l i x r t : In (i, x, r, t) (issues l) -> In (FK (Issued i x r t)) l.
Proof.
  intros K. apply in_flat_map in K as (m & K & Hm). destruct m as [o|]; [|destruct Hm].
  destruct o; cbn in Hm; try contradiction Hm. destruct Hm as [Hm|[]]. injection Hm as -> -> -> ->. exact K.
Qed.

(** What is read after a write on the line that works. *)
Lemma whole_line_order : let l := full_marks whole_line in
  made l = [0; 1; 2]%nat /\ request_of l (Once 0) 0 (WriteSingleRegister 5 9) /\ request_of l (Once 1) 1 (ReadHoldingRegisters 5 3) /\
  In (Once 0, Value (SingleRegisterWritten 5 9)) (tellings (session_outputs l)) /\
  In (Once 1, Value (HoldingRegistersRead [(5, 9); (6, 0); (7, 0)])) (tellings (session_outputs l)) /\
  puts (WriteSingleRegister 5 9) Holdings 5 9 /\ says (HoldingRegistersRead [(5, 9); (6, 0); (7, 0)]) Holdings 5 9.
Proof.
  cbv zeta. split; [vm_compute; reflexivity|].
  computed (issues (full_marks whole_line)) E. assert (Is := issues_in (full_marks whole_line)). rewrite E in Is. revert Is. clear E.
  destruct whole_line_rest as (_ & _ & _ & _ & _ & _ & _ & T). cbv zeta in T. rewrite T. clear T. generalize (full_marks whole_line). intros l Is.
  split; [split; [reflexivity|do 2 eexists; apply Is; left; reflexivity]|].
  split; [split; [reflexivity|do 2 eexists; apply Is; right; left; reflexivity]|].
  split; [left; reflexivity|]. split; [right; left; reflexivity|]. split; [split; reflexivity|left; reflexivity].
Qed.
