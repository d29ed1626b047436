(** Concrete runs of the example client. *)
From Verif Require Import Prelude Ser4 Messages Mbap SpecPdu SpecMbap Client SpecClient Scheduled SpecScheduled SessionCall Session SpecSession
  Config ExampleClient SpecExampleClient ExampleClientFacts ExampleClientLemmas ExampleClientTheorems SystemCases.
From Coq Require Import String Lia.

Definition no_text (i : nat) : string := "malformed".

Definition client_plays (es : list pevent) : prog * seen :=
  match prog_init no_text AllOrNothing zeros with
  | Ret (x, (o, p)) =>
      match prog_run no_text AllOrNothing x es with
      | Ret (x, (o', p')) => (x, (o ++ o', p ++ p'))
      | UB => (x, ([], []))
      end
  | UB => ({| pg_stack := stack_init zeros tt; pg_over := true |}, ([], []))
  end.
Definition client_state (es : list pevent) : prog := fst (client_plays es).
Definition client_outputs (es : list pevent) : list koutput := fst (snd (client_plays es)).
Definition client_output (es : list pevent) : list string := snd (snd (client_plays es)).

Lemma client_played es : Forall typed_pevent es ->
  prog_history no_text AllOrNothing zeros es (client_state es) (client_outputs es) (client_output es).
Proof.
  intros T. destruct (client_defined no_text AllOrNothing zeros es zeros_good T) as (x & os & ls & H). assert (H' := H).
  destruct H' as (_ & _ & x0 & o1 & p1 & o2 & p2 & E1 & E2 & Eo & El).
  replace (client_state es) with x; [replace (client_outputs es) with os; [replace (client_output es) with ls; [exact H|]|]|];
    unfold client_state, client_outputs, client_output, client_plays; rewrite E1, E2; cbn [fst snd]; [exact El|exact Eo|reflexivity].
Qed.

(** The scheduled request is started, sent and answered with an exception; then the
    user reads the coil, writes the registers, stops the scheduled request and changes
    its frequency, and leaves. *)
Definition using_client : list pevent :=
  [PStack KRun; PStack KRun; PStack (KChannel CRun); PStack (KChannel (CReceive [0; 0; 0; 0; 0; 3; 1; 131; 1]));
   PCommand 114; PStack (KChannel CRun); PStack (KChannel (CReceive [0; 1; 0; 0; 0; 4; 1; 1; 1; 1]));
   PCommand 119; PStack (KChannel CRun); PStack (KChannel (CReceive [0; 2; 0; 0; 0; 3; 1; 144; 1]));
   PCommand 115; PStack KRun; PCommand 102; PStack KRun; PCommand 120; PCommand 113; PCommand 114].

Lemma using_client_typed : Forall typed_pevent using_client.
Proof.
  unfold using_client. repeat (apply Forall_cons; [cbn; first [exact Logic.I|unfold bytes; repeat (apply Forall_cons; [unfold u8; lia|]); apply Forall_nil|unfold u8; lia]|]).
  apply Forall_nil.
Qed.

Lemma using_client_shown :
  client_output using_client = ["Scheduled request received response."; "36: 1"; "Illegal function"]%string /\
  sent_once (client_outputs using_client) = [(0%nat, (ReadCoils 36 1, Some 3000)); (0%nat, (WriteMultipleRegisters 36 [11; 22; 33], None))] /\
  is_running (pg_stack (client_state using_client)) 0 = false /\ frequency (pg_stack (client_state using_client)) 0 = 5000 /\
  ks_queue (st_rest (pg_stack (client_state using_client))) = [].
Proof. vm_compute. repeat split; reflexivity. Qed.

(** Requests 1 and 2 are the user's. *)
Definition frame_of (i : nat) (os : list koutput) : list (N * N * list (option N)) :=
  flat_map (fun o => match o with Channel (Sent j u tx v) => if Nat.eqb j i then [(u, tx, v)] else [] | _ => [] end) os.

Lemma using_client_frames :
  issued_ids (client_outputs using_client) = [1%nat; 2%nat] /\
  frame_of 1 (client_outputs using_client) = [(1, 1, map Some [0; 1; 0; 0; 0; 6; 1; 1; 0; 36; 0; 1])] /\
  frame_of 2 (client_outputs using_client) = [(1, 2, map Some [0; 2; 0; 0; 0; 13; 1; 16; 0; 36; 0; 3; 6; 0; 11; 0; 22; 0; 33])].
Proof. vm_compute. repeat split; reflexivity. Qed.

(** The user types only when nothing is posted. *)
Fixpoint patient_run (x : prog) (es : list pevent) : bool :=
  match es with
  | [] => true
  | e :: es' =>
      match e with PCommand c => negb ((c =? 115) || (c =? 102)) || match ks_queue (st_rest (pg_stack x)) with [] => true | _ => false end | _ => true end &&
      match prog_step no_text AllOrNothing x e with Ret (x, _) => patient_run x es' | UB => true end
  end.

Lemma patient_run_spec es : forall x, patient_run x es = true -> forall es1 c es2 x1 o p, es = es1 ++ PCommand c :: es2 -> c = 115 \/ c = 102 ->
  prog_run no_text AllOrNothing x es1 = Ret (x1, (o, p)) -> ks_queue (st_rest (pg_stack x1)) = [].
Proof.
  induction es as [|e es IH]; intros x H es1 c es2 x1 o p E Hc R; [destruct es1; discriminate|]. cbn [patient_run] in H.
  apply Bool.andb_true_iff in H. destruct H as [H1 H2]. destruct es1 as [|e1 es1].
  - cbn [app] in E. inversion E; subst. cbn in R. inversion R; subst. destruct (ks_queue (st_rest (pg_stack x1))); [reflexivity|].
    destruct Hc as [-> | ->]; discriminate.
  - cbn [app] in E. inversion E; subst. cbn [prog_run] in R. destruct (prog_step no_text AllOrNothing x e1) as [[x2 [o2 p2]]|]; [|discriminate].
    cbn [obind] in R. destruct (prog_run no_text AllOrNothing x2 es1) as [[x3 [o3 p3]]|] eqn:R3; [|discriminate]. cbn [obind] in R. inversion R; subst.
    exact (IH _ H2 _ _ _ _ _ _ eq_refl Hc R3).
Qed.

Lemma using_client_patient : patient no_text AllOrNothing zeros using_client.
Proof.
  intros es1 c es2 x os ls E Hc (_ & _ & x0 & o1 & p1 & o2 & p2 & E1 & E2 & _ & _).
  refine (patient_run_spec using_client x0 _ es1 c es2 x o2 p2 E Hc E2).
  destruct (prog_init no_text AllOrNothing zeros) as [[y [o p]]|] eqn:Ei; [|discriminate]. inversion E1; subst.
  assert (K : match prog_init no_text AllOrNothing zeros with Ret (y, _) => patient_run y using_client | UB => false end = true) by (vm_compute; reflexivity).
  rewrite Ei in K. exact K.
Qed.

(** The user types 's' twice before the first is executed. *)
Definition typing_fast : list pevent := [PStack KRun; PStack KRun; PCommand 115; PCommand 115; PStack KRun; PStack KRun].

Lemma typing_fast_typed : Forall typed_pevent typing_fast.
Proof. unfold typing_fast. repeat (apply Forall_cons; [first [exact Logic.I|cbn; unfold u8; lia]|]). apply Forall_nil. Qed.

Lemma typing_fast_shown : ks_queue (st_rest (pg_stack (client_state typing_fast))) = [] /\
  is_running (pg_stack (client_state typing_fast)) 0 = false /\ typed_times 115 typing_fast = 2%nat.
Proof. vm_compute. auto. Qed.

Lemma client_toggles_refuted :
  ~ (forall text pol buf es x os ls, prog_history text pol buf es x os ls -> ks_queue (st_rest (pg_stack x)) = [] ->
       is_running (pg_stack x) 0 = Nat.even (typed_times 115 es)).
Proof.
  intros H. destruct typing_fast_shown as (Hq & Hr & Ht).
  specialize (H _ _ _ _ _ _ _ (client_played _ typing_fast_typed) Hq). rewrite Hr, Ht in H. clear Hq Hr Ht. cbn in H. discriminate H.
Qed.

(** The input ends at once. *)
Lemma client_safe_refuted :
  ~ (forall text pol buf es, good_buf buf -> exists x o, prog_init text pol buf = Ret (x, o) /\ prog_run text pol x es <> UB).
Proof.
  intros H. destruct (H no_text AllOrNothing zeros [PEnd] zeros_good) as (x & [o p] & E & K). apply K. cbn [prog_run].
  rewrite (client_end no_text AllOrNothing zeros [] x o p); [reflexivity| |reflexivity].
  split; [exact zeros_good|]. split; [constructor|]. exists x, o, p, [], []. rewrite !app_nil_r. auto.
Qed.
