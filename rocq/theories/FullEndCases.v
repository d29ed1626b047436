(** A channel that is shut down by a user who is told what was polled. *)
From Verif Require Import Prelude Ser4 Messages Mbap Client Server Database System.
From Verif Require Import AsyncWrite ClientConn ClientTcp Listener ServerConn ServerTcp World.
From Verif Require Import Scheduled SessionCall Session Full.
From Verif Require Import SpecPdu SpecMbap SpecClient SpecServer SpecDb SpecConn SpecListener SpecClientTcp SpecServerTcp SpecSystem SpecSession SpecWorld SpecFull.
From Verif Require Import ClientCases SystemCases SpecWorld WorldCases FullParts FullLemmas FullCases SpecFullEnd FullEnd FullEndRun.

(** When its request is polled for the first time, the user shuts the channel down. *)
Definition then_closes : users unit :=
  fun s w v => (w, match s with Once 0 => [Send 0 (ReadHoldingRegisters 5 3) None] | Polling 0 0 => [CloseChannel] | _ => [] end).

Definition closing (es : list fevent) : outcome (world (sessions unit) * list fmark) := full_run then_closes Truncate full_from es.
Definition closing_marks (es : list fevent) : list fmark := match closing es with Ret (_, l) => l | UB => [] end.
Definition closing_final (es : list fevent) : world (sessions unit) := match closing es with Ret (w, _) => w | UB => full_from end.
Definition closing_defined (es : list fevent) : bool := match closing es with Ret _ => true | UB => false end.

Lemma then_closes_typed : typed_user then_closes.
Proof.
  intros s w v w' calls E. injection E as <- <-. destruct s as [[|i]|[|j] [|n]]; try apply Forall_nil.
  - apply Forall_cons; [|apply Forall_nil]. cbn. unfold u16. lia.
  - apply Forall_cons; [exact I|apply Forall_nil].
Qed.

Lemma closing_history es : Forall typed_fevent es -> closing_defined es = true ->
  full_history then_closes Truncate [9] three_registers full_from es (closing_final es) (closing_marks es).
Proof.
  intros T E. split; [exists 4, zeros, tt; split; [exact zeros_good|reflexivity]|]. split; [exact three_reachable|]. split; [exact T|].
  split; [exact then_closes_typed|]. change (closing es = Ret (closing_final es, closing_marks es)). revert E. unfold closing_defined, closing_final, closing_marks.
  destruct (closing es) as [[w l]|]; intros E; [reflexivity|discriminate E].
Qed.

Lemma run_app_full (user : users unit) pol es es' : forall w, full_run user pol w (es ++ es') =
  let! (w1, l1) := full_run user pol w es in let! (w2, l2) := full_run user pol w1 es' in Ret (w2, l1 ++ l2).
Proof.
  induction es as [|e es IH]; intros w; cbn [full_run app obind].
  - destruct (full_run user pol w es') as [[w' l]|]; reflexivity.
  - destruct (full_step user pol w e) as [[w1 l1]|]; cbn [obind]; [|reflexivity]. rewrite IH. destruct (full_run user pol w1 es) as [[w2 l2]|]; cbn [obind]; [|reflexivity].
    destruct (full_run user pol w2 es') as [[w3 l3]|]; cbn [obind]; [|reflexivity]. rewrite app_assoc. reflexivity.
Qed.

Lemma closing_goes es es' : closing_defined (es ++ es') = true -> exists l, full_run then_closes Truncate (closing_final es) es' = Ret (closing_final (es ++ es'), l).
Proof.
  unfold closing_defined, closing_final, closing. rewrite run_app_full. destruct (full_run then_closes Truncate full_from es) as [[w l]|]; cbn [obind]; [|intros E; discriminate E].
  destruct (full_run then_closes Truncate w es') as [[w' l']|]; cbn [obind]; intros E; [|discriminate E]. exists l'. reflexivity.
Qed.

Definition asked_test (l : list fmark) : bool := existsb (fun m => match m with FK (Asked CloseChannel) => true | _ => false end) l.
Lemma asked_ok l : asked_test l = true -> In (FK (Asked CloseChannel)) l.
Proof.
  intros H. apply existsb_exists in H as (m & Hm & E). destruct m as [[|a| | | | | |]|]; try discriminate E. destruct a; try discriminate E. exact Hm.
Qed.

(** Something is left to do: a timer runs, and the session is to be closed. *)
Definition busy_test (w : world (sessions unit)) : bool :=
  match ks_queue (wd_user w), cn_reads (tc_conn (wd_client w)) with _ :: _, _ :: _ => existsb (fun p => match sr_armed (po_sched p) with [] => false | _ => true end) (ks_polls (wd_user w)) | _, _ => false end.
Lemma busy_ok w : busy_test w = true ->
  ks_queue (wd_user w) <> [] /\ cn_reads (tc_conn (wd_client w)) <> [] /\ Exists (fun p => sr_armed (po_sched p) <> []) (ks_polls (wd_user w)).
Proof.
  unfold busy_test. destruct (ks_queue (wd_user w)) as [|k ks]; [discriminate|]. destruct (cn_reads _) as [|n ns]; [discriminate|]. intros H. split; [discriminate|]. split; [discriminate|].
  apply existsb_exists in H as (p & Hp & E). apply Exists_exists. exists p. split; [exact Hp|]. destruct (sr_armed _); [discriminate E|discriminate].
Qed.

Lemma closed_by_user : exists w l w1 l1 w2 l2,
  full_history then_closes Truncate [9] three_registers full_from whole_line w l /\ ~ In (FApi CloseChannel) whole_line /\ In (FK (Asked CloseChannel)) l /\
  full_run then_closes Truncate w [FWorld turn_of_client] = Ret (w1, l1) /\ (List.length (tc_order (wd_client w)) <= fruns [FWorld turn_of_client])%nat /\
  full_run then_closes Truncate w1 [FWorld turn_of_client] = Ret (w2, l2) /\ (List.length (tc_order (wd_client w1)) <= fruns [FWorld turn_of_client])%nat /\
  (ks_queue (wd_user w2) <> [] /\ cn_reads (tc_conn (wd_client w2)) <> [] /\ Exists (fun p => sr_armed (po_sched p) <> []) (ks_polls (wd_user w2))) /\
  comes_to_end then_closes Truncate (wd_client w2).
Proof.
  assert (H := closing_history whole_line whole_line_typed ltac:(vm_compute; reflexivity)).
  destruct (closing_goes whole_line [FWorld turn_of_client]) as (l1 & R1); [vm_compute; reflexivity|].
  destruct (closing_goes (whole_line ++ [FWorld turn_of_client]) [FWorld turn_of_client]) as (l2 & R2); [vm_compute; reflexivity|].
  assert (A : In (FK (Asked CloseChannel)) (closing_marks whole_line)) by (apply asked_ok; vm_compute; reflexivity).
  assert (N : ~ In (FApi CloseChannel) whole_line).
  { intros K. assert (X : existsb (fun e => match e with FApi CloseChannel => true | _ => false end) whole_line = true) by (apply existsb_exists; eexists; split; [exact K|reflexivity]).
    vm_compute in X. discriminate X. }
  assert (L1 : (List.length (tc_order (wd_client (closing_final whole_line))) <= fruns [FWorld turn_of_client])%nat) by (apply Nat.leb_le; vm_compute; reflexivity).
  assert (L2 : (List.length (tc_order (wd_client (closing_final (whole_line ++ [FWorld turn_of_client])))) <= fruns [FWorld turn_of_client])%nat) by (apply Nat.leb_le; vm_compute; reflexivity).
  assert (B := busy_ok (closing_final ((whole_line ++ [FWorld turn_of_client]) ++ [FWorld turn_of_client])) ltac:(vm_compute; reflexivity)).
  do 6 eexists. split; [exact H|]. split; [exact N|]. split; [exact A|]. split; [exact R1|]. split; [exact L1|]. split; [exact R2|]. split; [exact L2|]. split; [exact B|].
  eapply sessions_end; [exact H|exact A| |exact R1|exact L1|exact R2|exact L2].
  repeat (apply Forall_cons; [exact I|]). apply Forall_nil.
Qed.
