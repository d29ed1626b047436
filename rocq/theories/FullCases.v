(** A concrete history of the whole. *)
From Verif Require Import Prelude Ser4 Messages Mbap Client Server Database System.
From Verif Require Import AsyncWrite ClientConn ClientTcp Listener ServerConn ServerTcp World.
From Verif Require Import Scheduled SessionCall Session Full.
From Verif Require Import SpecPdu SpecMbap SpecClient SpecServer SpecDb SpecConn SpecListener SpecClientTcp SpecServerTcp SpecSystem SpecSession SpecWorld SpecFull.
From Verif Require Import ClientCases SystemCases SpecWorld WorldCases FullParts FullLemmas.

(** When its first request is answered, the user sends another. *)
Definition then_reads : users unit := fun s w v => (w, match s with Once 0 => [Send 0 (ReadHoldingRegisters 5 3) None] | _ => [] end).

Definition full_from : world (sessions unit) := full_init [9] 4 three_registers zeros tt.
Definition full_marks (es : list fevent) : list fmark := match full_run then_reads Truncate full_from es with Ret (_, l) => l | UB => [] end.
Definition line_defined (es : list fevent) : bool := match full_run then_reads Truncate full_from es with Ret _ => true | UB => false end.
Definition full_final (es : list fevent) : world (sessions unit) := match full_run then_reads Truncate full_from es with Ret (w, _) => w | UB => full_from end.

(** Writes a register, reads it in the handler, and then polls it. *)
Definition whole_line : list fevent :=
  map FWorld listening ++ [FApi (Open 9 1000); FApi (Send 0 (WriteSingleRegister 5 9) None); FWorld turn_of_client] ++ map FWorld (connecting 1 0 ++ took_client 0 12) ++
  map FWorld [WServer (URead 0 0 (RData [0; 0; 0; 0; 0; 6; 9; 6; 0; 5; 0; 9])); WServer (UTransfer 0 0 12); WServer (UWritten 0 0 true);
   WClient (TRead 0 (RData [0; 0; 0; 0; 0; 6; 9; 6; 0; 5; 0; 9]) "" []); turn_of_client] ++ map FWorld (took_client 1 12) ++
  map FWorld [WServer (URead 0 1 (RData [0; 1; 0; 0; 0; 6; 9; 3; 0; 5; 0; 3])); WServer (UTransfer 0 1 15); WServer (UWritten 0 1 true);
   WClient (TRead 1 (RData [0; 1; 0; 0; 0; 9; 9; 3; 6; 0; 9]) "" []); WClient (TRead 2 (RData [0; 0; 0; 0]) "" [])] ++
  [FApi (Schedule 0 (ReadHoldingRegisters 5 1) (Some 300) 500); FRun; FRun; FWorld turn_of_client] ++ map FWorld (took_client 2 12) ++
  map FWorld [WLocal (CTransaction (TxSet Holdings 5 (77 : val Holdings) (fun _ => TxDone [])));
   WServer (URead 0 2 (RData [0; 2; 0; 0; 0; 6; 9; 3; 0; 5; 0; 1])); WServer (UTransfer 0 2 11); WServer (UWritten 0 2 true);
   WClient (TRead 3 (RData [0; 2; 0; 0; 0; 5; 9; 3; 2; 0; 77]) "" [])].

(** The server closes the connection after the request was taken, as in [erased]. *)
Definition unanswered_line : list fevent :=
  map FWorld listening ++ [FApi (Open 9 1000); FApi (Send 0 (WriteSingleRegister 5 9) None); FWorld turn_of_client] ++ map FWorld (connecting 1 0) ++
  map FWorld ([WClient (TTransfer 0 12); WServer (URead 0 0 RError); WServer URun; WClient (TRead 0 REof "" []); turn_of_client] ++ WorldCases.timed_out 0) ++
  [FWorld turn_of_client; FWorld (WClient (TWritten 0 true ""))] ++ map FWorld (connecting 3 1).

(** ** Checks *)
Section Checks.
Context {W : Type}.
Context (user : users W).

Fixpoint falways_test (test : world unit -> wevent -> bool) (w : world (sessions W)) (es : list fevent) : bool :=
  match es with
  | [] => true
  | e :: es' =>
      match e with FWorld e => test (with_wd_user w tt) e | _ => true end &&
      match full_step user Truncate w e with Ret (w', _) => falways_test test w' es' | UB => true end
  end.

Lemma falways_ok test (P : world (sessions W) -> wevent -> Prop) : (forall w e, test (with_wd_user w tt) e = true -> P w e) ->
  forall es w, falways_test test w es = true -> falways user Truncate P w es.
Proof.
  intros H es. induction es as [|e es IH]; intros w E; [exact I|]. cbn [falways_test] in E. apply andb_true_iff in E. destruct E as [A B].
  split; [destruct e; try exact I; exact (H _ _ A)|]. intros w' l Es. rewrite Es in B. exact (IH _ B).
Qed.

Lemma fwhole_ok (w : world (sessions W)) e : whole_frames_test (with_wd_user w tt) e = true -> whole_frames w e.
Proof. intros H. exact (whole_frames_ok _ _ H). Qed.
Lemma fattempt_ok (w : world (sessions W)) e : one_attempt_test (with_wd_user w tt) e = true -> one_attempt w e.
Proof. intros H. exact (one_attempt_ok _ _ H). Qed.
Lemma ftimely_ok (w : world (sessions W)) e : timely_test (with_wd_user w tt) e = true -> timely_writes w e.
Proof. intros H. exact (timely_ok _ _ H). Qed.
Lemma frest_ok (w : world (sessions W)) l g c : rest_test (with_wd_user w tt) l g c = true -> at_rest w l.
Proof. intros H. exact (rest_ok _ _ _ _ H). Qed.
End Checks.

Definition opened_test (u : N) (l : list fmark) : bool := forallb (fun m => match m with FK (Opened _ x _) => x =? u | _ => true end) l.
Lemma opened_ok u l : opened_test u l = true -> sessions_only [u] l.
Proof. intros H x v t K. unfold opened_test in H. rewrite forallb_forall in H. specialize (H _ K). apply N.eqb_eq in H. left. symmetry. exact H. Qed.

Definition issued_test (i : nat) (l : list fmark) : bool := existsb (fun m => match m with FK (Issued j _ _ _) => Nat.eqb j i | _ => false end) l.
Lemma issued_ok i l : issued_test i l = true -> exists x r t, In (FK (Issued i x r t)) l.
Proof.
  intros H. apply existsb_exists in H. destruct H as (m & Hm & E). destruct m as [[| | |j x r t| | | |]|]; try discriminate E.
  apply Nat.eqb_eq in E. subst j. exists x, r, t. exact Hm.
Qed.

Lemma then_reads_typed : typed_user then_reads.
Proof.
  intros s w v w' calls E. injection E as <- <-. destruct s as [[|i]|j n]; try apply Forall_nil.
  apply Forall_cons; [|apply Forall_nil]. cbn. unfold u16. lia.
Qed.

Lemma full_history_of es : Forall typed_fevent es ->
  line_defined es = true ->
  full_history then_reads Truncate [9] three_registers full_from es (full_final es) (full_marks es).
Proof.
  intros T E. split; [exists 4, zeros, tt; split; [exact zeros_good|reflexivity]|]. split; [exact three_reachable|]. split; [exact T|].
  split; [exact then_reads_typed|]. revert E. unfold line_defined, full_final, full_marks.
  destruct (full_run then_reads Truncate full_from es) as [[w l]|]; intros E; [reflexivity|discriminate E].
Qed.

Ltac typed_fevents :=
  unfold listening, connecting, WorldCases.timed_out, took_client; cbn [app map];
  repeat (apply Forall_cons; [lazymatch goal with
    | |- typed_fevent (FWorld (WLocal _)) => cbn; split; [unfold u16; lia|split; [cbn; unfold u16; lia|intros b; exact I]]
    | |- typed_fevent (FWorld ?e) => change (typed_wevent e); typed_event
    | |- typed_fevent _ => cbn; repeat split; unfold u8, u16; lia
    end|]); apply Forall_nil.
Ltac forders := split; [apply (falways_ok _ _ _ fwhole_ok); vm_compute; reflexivity|];
  split; [apply (falways_ok _ _ _ fattempt_ok); vm_compute; reflexivity|];
  split; [apply in_turn_ok; vm_compute; reflexivity|intros g c buf _; revert c; apply ends_ok; vm_compute; reflexivity].

Lemma whole_line_typed : Forall typed_fevent whole_line.
Proof. unfold whole_line. typed_fevents. Qed.
Lemma unanswered_line_typed : Forall typed_fevent unanswered_line.
Proof. unfold unanswered_line. typed_fevents. Qed.

Lemma whole_line_rest : let l := full_marks whole_line in let w := full_final whole_line in
  full_history then_reads Truncate [9] three_registers full_from whole_line w l /\ forderly then_reads Truncate full_from whole_line l /\
  falways then_reads Truncate timely_writes full_from whole_line /\ at_rest w (world_marks l) /\ not_shut_down w /\ sessions_only [9] l /\
  few_calls (world_marks l) /\
  tellings (session_outputs l) =
    [(Once 0, Value (SingleRegisterWritten 5 9)); (Once 1, Value (HoldingRegistersRead [(5, 9); (6, 0); (7, 0)]));
     (Polling 0 0, Value (HoldingRegistersRead [(5, 77)]))].
Proof.
  cbv zeta. split; [apply full_history_of; [exact whole_line_typed|vm_compute; reflexivity]|].
  split; [forders|]. split; [apply (falways_ok _ _ _ ftimely_ok); vm_compute; reflexivity|].
  split; [apply (frest_ok _ _ 1 0); vm_compute; reflexivity|]. split; [split; vm_compute; reflexivity|].
  split; [apply opened_ok; vm_compute; reflexivity|]. split; [vm_compute; discriminate|]. vm_compute. reflexivity.
Qed.

Lemma unanswered_line_rest : let l := full_marks unanswered_line in let w := full_final unanswered_line in
  full_history then_reads Truncate [9] three_registers full_from unanswered_line w l /\ forderly then_reads Truncate full_from unanswered_line l /\
  at_rest w (world_marks l) /\ not_shut_down w /\ sessions_only [9] l /\
  tellings (session_outputs l) = [(Once 0, Error ETimeout)] /\ exists x r t, In (FK (Issued 1 x r t)) l.
Proof.
  cbv zeta. split; [apply full_history_of; [exact unanswered_line_typed|vm_compute; reflexivity]|].
  split; [forders|]. 
  split; [apply (frest_ok _ _ 3 1); vm_compute; reflexivity|]. split; [split; vm_compute; reflexivity|].
  split; [apply opened_ok; vm_compute; reflexivity|]. split; [vm_compute; reflexivity|].
  apply issued_ok. vm_compute. reflexivity.
Qed.

(** What was answered was told to the user. *)
Lemma answered_told l i v : In (FK (Answered i v)) l -> In (Once i, v) (tellings (session_outputs l)).
Proof.
  intros H. unfold tellings. apply in_flat_map. exists (Answered i v). split; [|left; reflexivity].
  unfold session_outputs. apply in_flat_map. exists (FK (Answered i v)). split; [exact H|left; reflexivity].
Qed.

Lemma timely_needed : ~ (forall (user : users unit) pol units d w0 es w l, Forall u8 units -> full_history user pol units d w0 es w l ->
  forderly user pol w0 es l -> at_rest w (world_marks l) -> not_shut_down w -> sessions_only units l -> each_answered l).
Proof.
  intros H. destruct unanswered_line_rest as (A & B & C & D & E & F & x & r & t & K).
  assert (U : Forall u8 [9]) by (constructor; [unfold u8; lia|constructor]).
  destruct (proj1 (H _ _ _ _ _ _ _ _ U A B C D E) _ _ _ _ K) as (v & Hv). apply answered_told in Hv. rewrite F in Hv.
  destruct Hv as [Hv|[]]. discriminate Hv.
Qed.

Lemma whole_line_settled : let l := world_marks (full_marks whole_line) in
  always writes_settled cconn_init (conn_ins (client_marks l)) /\
  (forall c, valways vwrites_settled sconn_init (peer_ins c (server_marks l))) /\
  starts_of (listen_ins (server_marks l)) = 1%nat /\ as_max (us_listener (wd_server full_from)) = 4.
Proof.
  cbv zeta. split; [apply settled_ok; vm_compute; reflexivity|]. split; [apply (all_settled 2); vm_compute; reflexivity|].
  split; vm_compute; reflexivity.
Qed.

(** The second request takes the buffer of the first, which timed out. *)
Definition overtaken_line : list fevent :=
  [FApi (Open 9 1000); FApi (Send 0 (WriteSingleRegister 5 1) None); FWorld turn_of_client] ++
  map FWorld ([WClient (TResolved true ""); WClient (TConnected 1 true "")] ++ WorldCases.timed_out 0 ++ [turn_of_client]).

Lemma overtaken_line_history :
  full_history then_reads Truncate [9] three_registers full_from overtaken_line (full_final overtaken_line) (full_marks overtaken_line) /\
  full_step then_reads Truncate (full_final overtaken_line) (FWorld (WClient (TTransfer 0 12))) = UB.
Proof.
  split; [|vm_compute; reflexivity]. apply full_history_of; [unfold overtaken_line; typed_fevents|vm_compute; reflexivity].
Qed.
