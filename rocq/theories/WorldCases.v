(** Concrete histories of the whole, over the network. *)
From Verif Require Import Prelude Ser4 Messages Mbap Client Server Database System.
From Verif Require Import AsyncWrite ClientConn ClientTcp Listener ServerConn ServerTcp World.
From Verif Require Import SpecPdu SpecMbap SpecClient SpecServer SpecDb SpecConn SpecListener SpecClientTcp SpecServerTcp SpecSystem SpecWorld.
From Verif Require Import DbLemmas SystemFacts ClientCases SystemCases SpecWorld WorldSim WorldLemmas.

(** ** Checks *)
Definition whole_frames_test (w : world unit) (e : wevent) : bool :=
  match e with
  | WClient (TTransfer o n) =>
      match find_op (wr_ops (cn_writer (tc_conn (wd_client w)))) o with Some x => Nat.eqb n (List.length (snd (w_buf x))) | None => true end
  | WServer (UTransfer c o n) =>
      by_others w c || match us_conns (wd_server w) c with
      | Some v => match find_op (wr_ops (vn_writer v)) o with Some x => Nat.eqb n (List.length (snd (w_buf x))) | None => true end
      | None => true
      end
  | _ => true
  end.

Definition one_attempt_test (w : world unit) (e : wevent) : bool :=
  match e with
  | WClient (TConnected g true _) =>
      match cn_socket (tc_conn (wd_client w)), cn_resolves (tc_conn (wd_client w)), cn_connects (tc_conn (wd_client w)) with
      | Some x, O, [y] => Nat.eqb x g && Nat.eqb y g
      | _, _, [] => true
      | _, _, _ => false
      end
  | _ => true
  end.

Lemma whole_frames_ok w e : whole_frames_test w e = true -> whole_frames w e.
Proof.
  destruct e as [[]|[]| |]; cbn; try (intros; exact I).
  - intros H o E. rewrite E in H. apply Nat.eqb_eq. exact H.
  - intros H B v Ev o E. rewrite B, Ev, E in H. apply Nat.eqb_eq. exact H.
Qed.

Lemma one_attempt_ok w e : one_attempt_test w e = true -> one_attempt w e.
Proof.
  destruct e as [[]|[]| |]; cbn; try (intros; exact I). destruct ok; [|intros; exact I].
  destruct (cn_connects _) as [|y [|z l]].
  - intros _ [].
  - destruct (cn_socket _) as [x|], (cn_resolves _); try discriminate. intros H _. apply andb_true_iff in H. destruct H as [A B].
    apply Nat.eqb_eq in A, B. subst. auto.
  - destruct (cn_socket _) as [x|], (cn_resolves _); discriminate.
Qed.

Fixpoint always_test (test : world unit -> wevent -> bool) (w : world unit) (es : list wevent) : bool :=
  match es with
  | [] => true
  | e :: es' => test w e && match world_step idle Truncate w e with Ret (w', _) => always_test test w' es' | UB => true end
  end.

Lemma always_ok test (P : world unit -> wevent -> Prop) : (forall w e, test w e = true -> P w e) ->
  forall es w, always_test test w es = true -> walways idle Truncate P w es.
Proof.
  intros H es. induction es as [|e es IH]; intros w E; [exact I|]. cbn [always_test] in E. apply andb_true_iff in E. destruct E as [A B].
  split; [exact (H _ _ A)|]. intros w' l Es. rewrite Es in B. exact (IH _ B).
Qed.

Definition is_none (x : option nat) : bool := match x with None => true | Some _ => false end.
Definition is_some (x : option nat) (g : nat) : bool := match x with None => false | Some y => Nat.eqb y g end.
Fixpoint in_turn_test (cur : option nat) (os : list noutput) : bool :=
  match os with
  | [] => true
  | Established g :: os' => is_none cur && in_turn_test (Some g) os'
  | Received g _ :: os' => is_some cur g && in_turn_test cur os'
  | PeerClosed g :: os' => is_some cur g && in_turn_test None os'
  | Failed :: os' => in_turn_test None os'
  | _ :: os' => in_turn_test cur os'
  end.

Lemma is_some_ok x g : is_some x g = true -> x = Some g.
Proof. destruct x as [y|]; [|discriminate]. intros H. apply Nat.eqb_eq in H. subst. reflexivity. Qed.

Lemma in_turn_ok os : forall cur, in_turn_test cur os = true -> in_turn cur os.
Proof.
  induction os as [|o os IH]; intros cur H; [exact I|]. destruct o as [| |g|x|g d|g| | |g]; cbn in H |- *; try (apply IH; exact H);
    apply andb_true_iff in H; destruct H as [A B]; (split; [|apply IH; exact B]).
  - destruct cur; [discriminate A|reflexivity].
  - apply is_some_ok. exact A.
  - apply is_some_ok. exact A.
Qed.

Fixpoint ends_test (m : list smark) : bool :=
  match m with
  | [] => true
  | PeerOut c VFailed :: m' => negb (existsb (fun x => match x with PeerOut d (VReceived _) => Nat.eqb d c | _ => false end) m') && ends_test m'
  | _ :: m' => ends_test m'
  end.

Lemma peer_in c d m : In (VReceived d) (peer_outs c m) -> existsb (fun x => match x with PeerOut d (VReceived _) => Nat.eqb d c | _ => false end) m = true.
Proof.
  unfold peer_outs. intros H. apply in_flat_map in H. destruct H as (x & Hx & H). apply existsb_exists. exists x. split; [exact Hx|].
  destruct x as [| | | | |k o]; try destruct H. destruct (Nat.eqb k c) eqn:E; [|destruct H]. destruct H as [->|[]]. reflexivity.
Qed.

Lemma ends_ok m : ends_test m = true -> forall c, ends_at_failure (peer_outs c m).
Proof.
  induction m as [|x m IH]; intros H c; [intros a k d b E; destruct a; discriminate E|].
  assert (Cons : forall o os, ends_at_failure os -> (o = VFailed -> forall d, ~ In (VReceived d) os) -> ends_at_failure (o :: os)).
  { intros o os K1 K2 a k d b E. destruct a as [|o' a].
    - injection E as -> ->. apply (K2 eq_refl d). apply in_app_iff. right. left. reflexivity.
    - injection E as -> E. exact (K1 a k d b E). }
  assert (T : ends_test m = true).
  { destruct x as [| | | | |k o]; cbn in H; try exact H. destruct o; try exact H. apply andb_true_iff in H. exact (proj2 H). }
  specialize (IH T c). unfold peer_outs. cbn [flat_map]. fold (peer_outs c m). destruct x as [| | | | |k o]; try exact IH.
  destruct (Nat.eqb k c) eqn:E; [|exact IH]. cbn [app]. apply Cons; [exact IH|]. intros -> d Hd. cbn in H. apply andb_true_iff in H.
  destruct H as [H _]. apply Nat.eqb_eq in E. subst k. rewrite (peer_in _ _ _ Hd) in H. discriminate H.
Qed.

(** Only what concerns connection [c]. *)
Definition only_peer (c : nat) (m : list smark) : list smark :=
  filter (fun x => match x with PeerOut d _ => Nat.eqb d c | _ => true end) m.
Lemma only_peer_outs c m : peer_outs c (only_peer c m) = peer_outs c m.
Proof.
  induction m as [|x m IH]; [reflexivity|]. unfold only_peer, peer_outs in *. cbn [filter flat_map].
  destruct x as [| | | | |d o]; cbn [flat_map]; rewrite ?IH; try reflexivity.
  destruct (Nat.eqb d c) eqn:E; cbn [flat_map]; rewrite ?E, ?IH; reflexivity.
Qed.
Lemma ends_one c m : ends_test (only_peer c m) = true -> ends_at_failure (peer_outs c m).
Proof. intros H. rewrite <- only_peer_outs. apply ends_ok. exact H. Qed.

(** The calls and the PDUs of their requests. *)
Definition wires (os : list youtput) : list (nat * list N) :=
  flat_map (fun o => match o with YC (Called i k) => [(i, build_into 260 (k_msg k))] | _ => [] end) os.

Lemma wires_in i u r t os : In (YC (Called i (session_call u r t))) os -> In (i, build_into 260 (request_message r)) (wires os).
Proof. intros H. apply in_flat_map. eexists. split; [exact H|]. left. reflexivity. Qed.

(** ** Histories *)
Definition from (d : db) : world unit := world_init [9] 4 d zeros tt.
Definition defined (d : db) (es : list wevent) : bool := match world_run idle Truncate (from d) es with Ret _ => true | UB => false end.
Definition marks (d : db) (es : list wevent) : list wmark := match world_run idle Truncate (from d) es with Ret (_, l) => l | UB => [] end.
Definition final (d : db) (es : list wevent) : world unit := match world_run idle Truncate (from d) es with Ret (w, _) => w | UB => from d end.

Lemma history_of d es : reachable_db d -> Forall typed_wevent es -> defined d es = true ->
  world_history idle Truncate [9] d (from d) es (final d es) (marks d es).
Proof.
  intros Hr Ht Hd. split; [exists 4, zeros, tt; split; [exact zeros_good|reflexivity]|]. split; [exact Hr|]. split; [exact Ht|].
  split; [exact idle_session|]. unfold defined, final, marks in *. destruct (world_run idle Truncate (from d) es) as [[w l]|]; [reflexivity|discriminate Hd].
Qed.

Definition ask (r : request) : wevent := WClient (TApi (Submit (session_call 9 r 1000))).
Definition turn_of_client : wevent := WClient (TRun []).
Definition took_client (w n : nat) : list wevent := [WClient (TTransfer w n); WClient (TWritten w true "")].
Definition listening : list wevent := [WServer (UApi ApiStart); WServer URun; WServer URun].
Definition connecting (g c : nat) : list wevent := [WClient (TResolved true ""); WClient (TConnected g true ""); WAccept g c zeros; WServer URun].
Definition timed_out (t : nat) : list wevent := [WClient (TExpire t); WClient (TFire t [])].

(** The connection breaks after the request was executed; the next one is made over a new connection. *)
Definition broken_line : list wevent :=
  listening ++ [ask (WriteMultipleRegisters 6 [100; 200]); turn_of_client] ++ connecting 1 0 ++ took_client 0 17 ++
  [WServer (URead 0 0 (RData [0; 0; 0; 0; 0; 11; 9; 16; 0; 6; 0; 2; 4; 0; 100; 0; 200])); WClient (TRead 0 RError "reset" []); turn_of_client;
   WServer (URead 0 1 RError); WServer URun; ask (ReadHoldingRegisters 5 3); turn_of_client] ++
  connecting 3 1 ++ took_client 1 12 ++
  [WServer (URead 1 0 (RData [0; 1; 0; 0])); WServer (URead 1 1 (RData [0; 6; 9; 3; 0; 5; 0; 3])); WServer (UTransfer 1 0 15);
   WClient (TRead 1 (RData [0; 1; 0; 0; 0; 9; 9; 3; 6; 0; 0]) "" []); WClient (TRead 2 (RData [0; 100; 0; 200]) "" []); WServer (UWritten 1 0 true)].

(** Thirteen bytes of the first request are sent, and never the rest. *)
Definition short_write : list wevent :=
  listening ++ [ask (WriteMultipleRegisters 6 [1; 2]); turn_of_client] ++ connecting 1 0 ++ took_client 0 13 ++ timed_out 0 ++
  [ask (ReadHoldingRegisters 5 3); turn_of_client] ++ took_client 1 12 ++
  [WServer (URead 0 0 (RData [0; 0; 0; 0; 0; 11; 9; 16; 0; 6; 0; 2; 4; 0; 1; 0; 0; 0; 6; 9; 3; 0; 5; 0; 3]))].

(** Three operations of a broken connection fail one after another, the second while
    the next connection is being made, the third while two more are. *)
Definition two_attempts : list wevent :=
  listening ++ [ask (WriteSingleRegister 5 1); turn_of_client; WClient (TResolved true ""); WClient (TConnected 1 true "")] ++ timed_out 0 ++
  [ask (WriteSingleRegister 5 2); turn_of_client; WClient (TWritten 0 false "reset"); turn_of_client;
   ask (WriteSingleRegister 5 3); turn_of_client; WClient (TWritten 1 false "reset"); turn_of_client;
   ask (WriteSingleRegister 5 4); turn_of_client; WClient (TResolved true ""); WClient (TResolved true "");
   WClient (TConnected 4 true ""); WAccept 5 0 zeros; WServer URun; WClient (TTransfer 2 12); WClient (TRead 0 RError "reset" []);
   WClient (TConnected 5 true ""); WClient (TTransfer 3 12);
   WServer (URead 0 0 (RData [0; 3; 0; 0; 0; 6; 9; 6; 0; 5; 0; 4; 0; 3; 0; 0; 0; 6; 9; 6; 0; 5; 0; 4]))].

(** The values of six registers are those of a frame. *)
Definition six_registers : db := fold_right (fun x d => add_holding (fst x) (snd x) d) db_empty [(5, 2); (6, 0); (7, 5); (8, 2307); (9, 512); (10, 19712)].

(** A write fails in the middle of a late response; a read completes after this. *)
Definition late_read : list wevent :=
  listening ++ [ask (ReadHoldingRegisters 5 6); turn_of_client] ++ connecting 1 0 ++ took_client 0 12 ++
  [WServer (URead 0 0 (RData [0; 0; 0; 0; 0; 6; 9; 3; 0; 5; 0; 6])); WServer (UTransfer 0 0 21); WServer (UWritten 0 0 true);
   WClient (TRead 0 (RData [0; 0; 0; 0; 0; 15; 9; 3; 12]) "" [])] ++ timed_out 0 ++
  [ask (ReadHoldingRegisters 5 2); turn_of_client; ask (ReadHoldingRegisters 5 1); WClient (TWritten 1 false "reset"); turn_of_client;
   WClient (TRead 1 (RData [0; 2; 0; 0; 0; 5; 9; 3; 2; 0; 77; 0]) "" [])].

(** The same at the server, in the middle of a request. *)
Definition late_request : list wevent :=
  listening ++ [ask (ReadHoldingRegisters 5 3); turn_of_client] ++ connecting 1 0 ++ took_client 0 12 ++
  [WServer (URead 0 0 (RData [0; 0; 0; 0; 0; 6; 9; 3; 0; 5; 0; 3]))] ++ timed_out 0 ++
  [ask (WriteMultipleRegisters 5 [7; 0; 6; 2310; 5; 77]); turn_of_client] ++ took_client 1 25 ++
  [WServer (URead 0 1 (RData [0; 1; 0; 0; 0; 19; 9; 16; 0; 5; 0; 6; 12])); WServer (UWritten 0 0 false);
   WServer (URead 0 2 (RData [0; 7; 0; 0; 0; 6; 9; 6; 0; 5; 0; 77]))].

(** Another client writes a register between two reads of the client, on a connection
    that is in disorder. *)
Definition with_another : list wevent :=
  listening ++ [ask (ReadHoldingRegisters 5 3); turn_of_client; WServer (UAccept 0 true zeros); WServer URun] ++ connecting 1 1 ++ took_client 0 12 ++
  [WServer (URead 1 0 (RData [0; 0; 0; 0; 0; 6; 9; 3; 0; 5; 0; 3])); WServer (UTransfer 1 0 15); WServer (UWritten 1 0 true);
   WServer (URead 0 0 (RData [7; 7; 0; 0; 0; 6; 9; 6; 0; 6])); WServer (URead 0 1 (RData [0; 55; 3; 1; 2]));
   WServer (UTransfer 0 0 5); WServer (UWritten 0 0 false); WServer (URead 0 2 (RData [1; 1; 0; 0; 0; 6; 9; 6; 0; 7; 0; 66]));
   WClient (TRead 0 (RData [0; 0; 0; 0; 0; 9; 9; 3; 6; 0; 0; 0; 0; 0; 0]) "" []); ask (ReadHoldingRegisters 5 3); turn_of_client] ++ took_client 1 12 ++
  [WServer (URead 1 1 (RData [0; 1; 0; 0; 0; 6; 9; 3; 0; 5; 0; 3])); WServer (UTransfer 1 1 15); WServer (UWritten 1 1 true);
   WClient (TRead 1 (RData [0; 1; 0; 0; 0; 9; 9; 3; 6; 0; 0]) "" []); WClient (TRead 2 (RData [0; 55; 0; 66]) "" [])].

Lemma typed_ask r : typed_request r -> typed_wevent (ask r).
Proof. intros H. exists 9, r, 1000. split; [unfold u8; lia|]. auto. Qed.

Ltac typed_event :=
  lazymatch goal with
  | |- typed_wevent (ask _) => apply typed_ask; cbn; repeat (split || apply Forall_cons || apply Forall_nil); unfold u16; lia
  | |- typed_wevent (WAccept _ _ _) => exact zeros_good
  | |- typed_wevent (WServer (UAccept _ _ _)) => exact zeros_good
  | |- typed_wevent (WClient (TRead _ (RData _) _ _)) => cbn; repeat constructor; unfold u8; lia
  | |- typed_wevent (WServer (URead _ _ (RData _))) => cbn; repeat constructor; unfold u8; lia
  | |- _ => exact I
  end.
Ltac typed_events :=
  unfold listening, connecting, timed_out, took_client; cbn [app];
  repeat (apply Forall_cons; [typed_event|]); apply Forall_nil.

Lemma six_reachable : reachable_db six_registers.
Proof. unfold six_registers. cbn [fold_right fst snd]. repeat apply add_reachable; try apply RD_empty; unfold u16; lia. Qed.

Lemma with_another_typed : Forall typed_wevent with_another.
Proof. unfold with_another. typed_events. Qed.
Lemma broken_line_typed : Forall typed_wevent broken_line.
Proof. unfold broken_line. typed_events. Qed.
Lemma short_write_typed : Forall typed_wevent short_write.
Proof. unfold short_write. typed_events. Qed.
Lemma two_attempts_typed : Forall typed_wevent two_attempts.
Proof. unfold two_attempts. typed_events. Qed.
Lemma late_read_typed : Forall typed_wevent late_read.
Proof. unfold late_read. typed_events. Qed.
Lemma late_request_typed : Forall typed_wevent late_request.
Proof. unfold late_request. typed_events. Qed.

Ltac whole := apply (always_ok _ _ whole_frames_ok); vm_compute; reflexivity.
Ltac single := apply (always_ok _ _ one_attempt_ok); vm_compute; reflexivity.
Ltac turns := apply in_turn_ok; vm_compute; reflexivity.
Ltac ends := apply ends_ok; vm_compute; reflexivity.
Ltac orders := split; [whole|split; [single|split; [turns|intros g c buf _; revert c; ends]]].

Lemma broken_line_history : world_history idle Truncate [9] three_registers (from three_registers) broken_line (final three_registers broken_line) (marks three_registers broken_line) /\
  orderly idle Truncate (from three_registers) broken_line (marks three_registers broken_line) /\ few_calls (marks three_registers broken_line) /\
  results (client_outputs (observed (marks three_registers broken_line))) =
    [(0%nat, Error (EConnection "reset")); (1%nat, Value [3; 6; 0; 0; 0; 100; 0; 200])] /\
  consults (observed (marks three_registers broken_line)) = [WriteMultipleRegisters 6 [100; 200]; ReadHoldingRegisters 5 3] /\
  session_result (ReadHoldingRegisters 5 3) (Value [3; 6; 0; 0; 0; 100; 0; 200]) = Ret (Value (HoldingRegistersRead [(5, 0); (6, 100); (7, 200)])).
Proof.
  split; [apply history_of; [exact three_reachable|exact broken_line_typed|vm_compute; reflexivity]|].
  split; [orders|]. split; [vm_compute; discriminate|].
  split; [vm_compute; reflexivity|]. split; vm_compute; reflexivity.
Qed.

Lemma with_another_accepts g c buf : In (WAccept g c buf) with_another -> c = 1%nat.
Proof.
  unfold with_another, listening, connecting, took_client. cbn [app In]. intros H.
  repeat (destruct H as [H|H]; [discriminate H || (injection H as _ <- _; reflexivity)|]). destruct H.
Qed.

Definition others_consults (l : list wmark) : list request :=
  flat_map (fun m => match m with WO (TaskOut (OConsult _ r)) => [r] | _ => [] end) l.

Lemma with_another_history : let l := marks three_registers with_another in
  world_history idle Truncate [9] three_registers (from three_registers) with_another (final three_registers with_another) l /\
  orderly idle Truncate (from three_registers) with_another l /\ few_calls l /\
  others_consults l = [WriteSingleRegister 6 55; WriteSingleRegister 7 66] /\
  consults (observed l) = [ReadHoldingRegisters 5 3; ReadHoldingRegisters 5 3] /\
  results (client_outputs (observed l)) = [(0%nat, Value [3; 6; 0; 0; 0; 0; 0; 0]); (1%nat, Value [3; 6; 0; 0; 0; 55; 0; 66])].
Proof.
  cbv zeta. split; [apply history_of; [exact three_reachable|exact with_another_typed|vm_compute; reflexivity]|].
  split; [split; [whole|split; [single|split; [turns|]]]|].
  { intros g c buf H. rewrite (with_another_accepts _ _ _ H). apply ends_one. vm_compute. reflexivity. }
  split; [vm_compute; discriminate|]. split; [vm_compute; reflexivity|]. split; vm_compute; reflexivity.
Qed.

(** ** Each of the four conditions is needed *)
Lemma requested_in os r : only_requested os -> In r (consults os) -> exists i u t, In (YC (Called i (session_call u r t))) os.
Proof.
  intros H Hr. apply in_flat_map in Hr. destruct Hr as (o & Ho & Hr). destruct o as [|[]|]; try contradiction Hr. destruct Hr as [->|[]].
  apply in_split in Ho. destruct Ho as (a & b & E). destruct (H _ _ _ _ E) as (i & u & t & K). exists i, u, t. rewrite E. apply in_app_iff. left. exact K.
Qed.

Ltac computed x H := let y := eval vm_compute in x in assert (H : x = y) by (vm_cast_no_check (eq_refl y)).
Ltac calls d es H :=
  let E := fresh in computed (wires (observed (marks d es))) E; rewrite E in H; clear E.

Ltac unrequested H d es r := 
  apply (requested_in _ r) in H; [|let E := fresh in computed (consults (observed (marks d es))) E; rewrite E; cbn; tauto];
  destruct H as (i & u & t & H); apply wires_in in H; calls d es H; let E := fresh in computed (build_into 260 (request_message r)) E; rewrite E in H; cbn [In] in H; intuition discriminate.

Lemma short_write_invents : ~ only_requested (observed (marks three_registers short_write)).
Proof. intros H. unrequested H three_registers short_write (WriteMultipleRegisters 6 [1; 0]). Qed.

Lemma late_request_invents : ~ only_requested (observed (marks three_registers late_request)).
Proof. intros H. unrequested H three_registers late_request (WriteSingleRegister 5 77). Qed.

Lemma two_attempts_repeat : ~ at_most_once (observed (marks three_registers two_attempts)).
Proof.
  intros (ids & N & F).
  assert (E : consults (observed (marks three_registers two_attempts)) = [WriteSingleRegister 5 4; WriteSingleRegister 5 4]) by (vm_compute; reflexivity).
  rewrite E in F. inversion F as [|r i rs l (u & t & H) F1 E1 E2]; subst. inversion F1 as [|r' j rs' l' (u' & t' & H') F2 E1 E2]; subst.
  apply wires_in in H, H'. calls three_registers two_attempts H. calls three_registers two_attempts H'.
  computed (build_into 260 (request_message (WriteSingleRegister 5 4))) B. rewrite B in H, H'. cbn [In] in H, H'. inversion F2; subst.
  assert (i = j).
  { repeat match goal with K : _ \/ _ |- _ => destruct K as [K|K] | K : False |- _ => destruct K end; congruence. }
  subst. inversion N as [|? ? K _]; subst. apply K. left. reflexivity.
Qed.

Lemma completed_in i x os : In (i, x) (results (client_outputs os)) -> In (YC (Completed i x)) os.
Proof.
  intros K. apply in_flat_map in K. destruct K as (o & Ho & K). apply in_couts in Ho. destruct o; try contradiction K. destruct K as [K|[]].
  injection K as -> ->. exact Ho.
Qed.

Lemma late_read_invents : ~ only_answered (observed (marks six_registers late_read)).
Proof.
  intros H. assert (K : In (2%nat, Value [3; 2; 0; 77]) (results (client_outputs (observed (marks six_registers late_read))))).
  { computed (results (client_outputs (observed (marks six_registers late_read)))) R. rewrite R. cbn [In]. tauto. }
  assert (Ho := completed_in _ _ _ K). apply in_split in Ho. destruct Ho as (a & b & E). destruct (H _ _ _ _ E) as (u & r & t & K1 & K2).
  assert (K3 : In r (consults (observed (marks six_registers late_read)))) by (rewrite E, consults_app; apply in_app_iff; left; exact K2).
  assert (K4 : In (YC (Called 2 (session_call u r t))) (observed (marks six_registers late_read))) by (rewrite E; apply in_app_iff; left; exact K1).
  apply wires_in in K4. computed (consults (observed (marks six_registers late_read))) C. rewrite C in K3. destruct K3 as [<-|[]].
  calls six_registers late_read K4. computed (build_into 260 (request_message (ReadHoldingRegisters 5 6))) B. rewrite B in K4. cbn [In] in K4. intuition discriminate.
Qed.

Lemma short_write_history : world_history idle Truncate [9] three_registers (from three_registers) short_write (final three_registers short_write) (marks three_registers short_write) /\
  walways idle Truncate one_attempt (from three_registers) short_write /\
  in_turn None (conn_outs (client_marks (marks three_registers short_write))) /\
  forall c, ends_at_failure (peer_outs c (server_marks (marks three_registers short_write))).
Proof.
  split; [apply history_of; [exact three_reachable|exact short_write_typed|vm_compute; reflexivity]|].
  split; [single|]. split; [turns|ends].
Qed.

Lemma two_attempts_history : world_history idle Truncate [9] three_registers (from three_registers) two_attempts (final three_registers two_attempts) (marks three_registers two_attempts) /\
  walways idle Truncate whole_frames (from three_registers) two_attempts /\
  in_turn None (conn_outs (client_marks (marks three_registers two_attempts))) /\
  forall c, ends_at_failure (peer_outs c (server_marks (marks three_registers two_attempts))).
Proof.
  split; [apply history_of; [exact three_reachable|exact two_attempts_typed|vm_compute; reflexivity]|].
  split; [whole|]. split; [turns|ends].
Qed.

Lemma late_read_history : world_history idle Truncate [9] six_registers (from six_registers) late_read (final six_registers late_read) (marks six_registers late_read) /\
  walways idle Truncate whole_frames (from six_registers) late_read /\ walways idle Truncate one_attempt (from six_registers) late_read /\
  (forall c, ends_at_failure (peer_outs c (server_marks (marks six_registers late_read)))) /\ few_calls (marks six_registers late_read).
Proof.
  split; [apply history_of; [exact six_reachable|exact late_read_typed|vm_compute; reflexivity]|].
  split; [whole|]. split; [single|]. split; [ends|vm_compute; discriminate].
Qed.

Lemma late_request_history : world_history idle Truncate [9] three_registers (from three_registers) late_request (final three_registers late_request) (marks three_registers late_request) /\
  walways idle Truncate whole_frames (from three_registers) late_request /\ walways idle Truncate one_attempt (from three_registers) late_request /\
  in_turn None (conn_outs (client_marks (marks three_registers late_request))).
Proof.
  split; [apply history_of; [exact three_reachable|exact late_request_typed|vm_compute; reflexivity]|].
  split; [whole|]. split; [single|turns].
Qed.

Lemma whole_frames_needed : ~ (forall (handler : nat -> unit -> expected (list N) -> unit * list capi) pol units d w0 es w l,
  world_history handler pol units d w0 es w l -> walways handler pol one_attempt w0 es ->
  in_turn None (conn_outs (client_marks l)) -> (forall c, ends_at_failure (peer_outs c (server_marks l))) -> only_requested (observed l)).
Proof. intros H. destruct short_write_history as (A & B & C & D). exact (short_write_invents (H _ _ _ _ _ _ _ _ A B C D)). Qed.

Lemma one_attempt_needed : ~ (forall (handler : nat -> unit -> expected (list N) -> unit * list capi) pol units d w0 es w l,
  world_history handler pol units d w0 es w l -> walways handler pol whole_frames w0 es ->
  in_turn None (conn_outs (client_marks l)) -> (forall c, ends_at_failure (peer_outs c (server_marks l))) -> at_most_once (observed l)).
Proof. intros H. destruct two_attempts_history as (A & B & C & D). exact (two_attempts_repeat (H _ _ _ _ _ _ _ _ A B C D)). Qed.

Lemma in_turn_needed : ~ (forall (handler : nat -> unit -> expected (list N) -> unit * list capi) pol units d w0 es w l,
  world_history handler pol units d w0 es w l -> walways handler pol whole_frames w0 es -> walways handler pol one_attempt w0 es ->
  (forall c, ends_at_failure (peer_outs c (server_marks l))) -> few_calls l -> only_answered (observed l)).
Proof. intros H. destruct late_read_history as (A & B & C & D & E). exact (late_read_invents (H _ _ _ _ _ _ _ _ A B C D E)). Qed.

Lemma ends_needed : ~ (forall (handler : nat -> unit -> expected (list N) -> unit * list capi) pol units d w0 es w l,
  world_history handler pol units d w0 es w l -> walways handler pol whole_frames w0 es -> walways handler pol one_attempt w0 es ->
  in_turn None (conn_outs (client_marks l)) -> only_requested (observed l)).
Proof. intros H. destruct late_request_history as (A & B & C & D). exact (late_request_invents (H _ _ _ _ _ _ _ _ A B C D)). Qed.

(** ** Definedness *)
Definition no_ops (c : writer) : bool := match wr_ops c with [] => true | _ => false end.

Fixpoint settled_test (s : cconn) (es : list nevent) : bool :=
  match es with
  | [] => true
  | e :: es' =>
      match e with NSend _ _ | NConnected _ true => no_ops (cn_writer s) | _ => true end &&
      match conn_step s e with Ret (s', _) => settled_test s' es' | UB => true end
  end.
Fixpoint vsettled_test (s : sconn) (es : list vevent) : bool :=
  match es with
  | [] => true
  | e :: es' =>
      match e with VSend _ | VStart => no_ops (vn_writer s) | _ => true end &&
      match vconn_step s e with Ret (s', _) => vsettled_test s' es' | UB => true end
  end.

Lemma no_ops_ok c : no_ops c = true -> wr_ops c = [].
Proof. unfold no_ops. destruct (wr_ops c); [reflexivity|discriminate]. Qed.

Lemma settled_ok es : forall s, settled_test s es = true -> always writes_settled s es.
Proof.
  induction es as [|e es IH]; intros s H; [exact I|]. cbn [settled_test] in H. apply andb_true_iff in H. destruct H as [A B]. split.
  - destruct e as [| | | |? []| | |]; try exact I; apply no_ops_ok; exact A.
  - intros s' o E. rewrite E in B. exact (IH _ B).
Qed.
Lemma vsettled_ok es : forall s, vsettled_test s es = true -> valways vwrites_settled s es.
Proof.
  induction es as [|e es IH]; intros s H; [exact I|]. cbn [vsettled_test] in H. apply andb_true_iff in H. destruct H as [A B]. split.
  - destruct e; try exact I; apply no_ops_ok; exact A.
  - intros s' o E. rewrite E in B. exact (IH _ B).
Qed.

Definition below (n : nat) (m : list smark) : bool := forallb (fun x => match x with PeerIn c _ => Nat.ltb c n | _ => true end) m.
Lemma below_ok n m c : below n m = true -> (n <= c)%nat -> peer_ins c m = [].
Proof.
  intros H Hc. induction m as [|x m IH]; [reflexivity|]. cbn in H. apply andb_true_iff in H. destruct H as [A B].
  unfold peer_ins. cbn [flat_map]. fold (peer_ins c m). rewrite (IH B). destruct x as [| | | |d e|]; try reflexivity.
  apply Nat.ltb_lt in A. destruct (Nat.eqb d c) eqn:E; [apply Nat.eqb_eq in E; lia|reflexivity].
Qed.

Lemma all_settled n m : below n m = true -> forallb (fun c => vsettled_test sconn_init (peer_ins c m)) (seq 0 n) = true ->
  forall c, valways vwrites_settled sconn_init (peer_ins c m).
Proof.
  intros B H c. destruct (le_lt_dec n c) as [L|L]; [rewrite (below_ok _ _ _ B L); exact I|]. apply vsettled_ok.
  rewrite forallb_forall in H. apply H. apply in_seq. lia.
Qed.

Lemma broken_line_settled : let l := marks three_registers broken_line in
  always writes_settled cconn_init (conn_ins (client_marks l)) /\
  (forall c, valways vwrites_settled sconn_init (peer_ins c (server_marks l))) /\
  starts_of (listen_ins (server_marks l)) = 1%nat /\ as_max (us_listener (wd_server (from three_registers))) = 4.
Proof.
  cbv zeta. split; [apply settled_ok; vm_compute; reflexivity|]. split; [apply (all_settled 2); vm_compute; reflexivity|].
  split; vm_compute; reflexivity.
Qed.

(** A request times out while its frame is being written; the next one takes its buffer. *)
Definition overtaken : list wevent :=
  [ask (ReadHoldingRegisters 5 3); turn_of_client; WClient (TResolved true ""); WClient (TConnected 1 true "")] ++ timed_out 0 ++
  [ask (WriteSingleRegister 5 1); turn_of_client].

Lemma overtaken_history : world_history idle Truncate [9] three_registers (from three_registers) overtaken (final three_registers overtaken) (marks three_registers overtaken) /\
  world_step idle Truncate (final three_registers overtaken) (WClient (TTransfer 0 12)) = UB.
Proof.
  split; [|vm_compute; reflexivity]. apply history_of; [exact three_reachable| |vm_compute; reflexivity].
  unfold overtaken. typed_events.
Qed.

(** ** At rest *)
Definition timely_test (w : world unit) (e : wevent) : bool :=
  match e with
  | WClient (TWritten o true _) =>
      match find_op (wr_ops (cn_writer (tc_conn (wd_client w)))) o with Some x => negb (w_aborted x) | None => true end
  | _ => true
  end.

Lemma timely_ok w e : timely_test w e = true -> timely_writes w e.
Proof.
  destruct e as [[]|[]| |]; cbn; try (intros; exact I). destruct ok; [|intros; exact I].
  intros H x E. rewrite E in H. apply negb_true_iff. exact H.
Qed.

Definition taken_test (c : writer) : bool := forallb (fun o => w_aborted o || match w_taken o with Some _ => true | None => false end) (wr_ops c).
Lemma taken_ok c : taken_test c = true -> all_taken c.
Proof.
  intros H o Ho. unfold taken_test in H. rewrite forallb_forall in H. specialize (H o Ho). apply orb_true_iff in H.
  destruct H as [H|H]; [left; exact H|right]. destruct (w_taken o); [discriminate|discriminate H].
Qed.

Definition rest_test (w : world unit) (l : list wmark) (g c : nat) : bool :=
  match tc_order (wd_client w), cn_status (tc_conn (wd_client w)), cn_socket (tc_conn (wd_client w)), socket_of (wd_links w) c, us_conns (wd_server w) c with
  | [], Connected, Some g1, Some g2, Some v =>
      Nat.eqb g1 g && Nat.eqb g2 g && taken_test (cn_writer (tc_conn (wd_client w))) && taken_test (vn_writer v) &&
      match wd_up w g, wd_down w g, vn_queue v with [], [], [] => true | _, _, _ => false end && vn_open v &&
      negb (existsb (fun o => match o with VFailed => true | _ => false end) (peer_outs c (server_marks l)))
  | _, _, _, _, _ => false
  end.

Lemma rest_ok w l g c : rest_test w l g c = true -> at_rest w l.
Proof.
  unfold rest_test, at_rest. destruct (tc_order (wd_client w)); [|discriminate]. destruct (cn_status (tc_conn (wd_client w))); try discriminate.
  destruct (cn_socket (tc_conn (wd_client w))) as [g1|]; [|discriminate]. destruct (socket_of (wd_links w) c) as [g2|] eqn:E2; [|discriminate].
  destruct (us_conns (wd_server w) c) as [v|] eqn:Ev; [|discriminate]. intros H.
  apply andb_true_iff in H. destruct H as [H H7]. apply andb_true_iff in H. destruct H as [H H6]. apply andb_true_iff in H. destruct H as [H H5].
  apply andb_true_iff in H. destruct H as [H H4]. apply andb_true_iff in H. destruct H as [H H3]. apply andb_true_iff in H. destruct H as [H1 H2].
  apply Nat.eqb_eq in H1, H2. subst. exists g, c, v. destruct (wd_up w g); [|discriminate H5]. destruct (wd_down w g); [|discriminate H5].
  destruct (vn_queue v) eqn:Eq; [|discriminate H5].
  split; [reflexivity|]. split; [reflexivity|]. split; [reflexivity|]. split; [apply taken_ok; exact H3|]. split; [exact E2|].
  split; [reflexivity|]. split; [reflexivity|]. split; [exact Ev|]. split; [exact H6|]. split; [intros []|].
  split; [apply taken_ok; exact H4|]. intros K. apply negb_true_iff in H7.
  assert (K' : existsb (fun o => match o with VFailed => true | _ => false end) (peer_outs c (server_marks l)) = true)
    by (apply existsb_exists; exists VFailed; split; [exact K|reflexivity]). congruence.
Qed.

Ltac timely := apply (always_ok _ _ timely_ok); vm_compute; reflexivity.

(** Two requests, one after the other, and one that is not valid. *)
Definition good_line : list wevent :=
  listening ++ [ask (WriteSingleRegister 5 9); ask (ReadHoldingRegisters 5 3); ask (ReadHoldingRegisters 5 0); turn_of_client; turn_of_client; turn_of_client] ++
  connecting 1 0 ++ took_client 0 12 ++
  [WServer (URead 0 0 (RData [0; 0; 0; 0; 0; 6; 9; 6])); WServer (URead 0 1 (RData [0; 5; 0; 9])); WServer (UTransfer 0 0 12); WServer (UWritten 0 0 true);
   WClient (TRead 0 (RData [0; 0; 0; 0; 0; 6; 9; 6; 0; 5; 0; 9]) "" [])] ++ took_client 1 12 ++
  [WServer (URead 0 2 (RData [0; 1; 0; 0; 0; 6; 9; 3; 0; 5; 0; 3])); WServer (UTransfer 0 1 15);
   WClient (TRead 1 (RData [0; 1; 0; 0; 0; 9; 9; 3; 6; 0; 9; 0]) "" []); WClient (TRead 2 (RData [0; 0; 0]) "" [])].

(** The server closes the connection after the request was taken; its write completes
    while the next connection is being made, and discards the request that waits. *)
Definition erased : list wevent :=
  listening ++ [ask (WriteSingleRegister 5 9); turn_of_client] ++ connecting 1 0 ++
  [WClient (TTransfer 0 12); WServer (URead 0 0 RError); WServer URun; WClient (TRead 0 REof "" []); turn_of_client] ++ timed_out 0 ++
  [ask (ReadHoldingRegisters 5 3); turn_of_client; WClient (TWritten 0 true "")] ++ connecting 3 1.

Definition only_unit (u : N) (os : list youtput) : bool := forallb (fun o => match o with YC (Called _ k) => k_unit k =? u | _ => true end) os.
Lemma only_unit_ok u os : only_unit u os = true -> calls_only [u] os.
Proof. intros H i k Hi. unfold only_unit in H. rewrite forallb_forall in H. specialize (H _ Hi). apply N.eqb_eq in H. left. symmetry. exact H. Qed.

Definition peaceful_test (es : list wevent) (l : list wmark) : bool :=
  forallb (fun e => match e with WClient (TFire _ _) => false | _ => true end) es &&
  forallb (fun o => match o with Failed => false | _ => true end) (conn_outs (client_marks l)).
Lemma peaceful_ok es l : peaceful_test es l = true -> peaceful es l.
Proof.
  intros H. apply andb_true_iff in H. destruct H as [A B]. rewrite forallb_forall in A, B. split.
  - intros t xs K. specialize (A _ K). discriminate A.
  - intros K. specialize (B _ K). discriminate B.
Qed.

Lemma good_line_typed : Forall typed_wevent good_line.
Proof. unfold good_line. typed_events. Qed.
Lemma erased_typed : Forall typed_wevent erased.
Proof. unfold erased. typed_events. Qed.

Lemma good_line_rest : let l := marks three_registers good_line in let w := final three_registers good_line in
  world_history idle Truncate [9] three_registers (from three_registers) good_line w l /\ orderly idle Truncate (from three_registers) good_line l /\
  walways idle Truncate timely_writes (from three_registers) good_line /\ at_rest w l /\ not_shut_down w /\ calls_only [9] (observed l) /\ peaceful good_line l /\
  results (client_outputs (observed l)) =
    [(2%nat, Error EMalformedRequest); (0%nat, Value [6; 0; 5; 0; 9]); (1%nat, Value [3; 6; 0; 9; 0; 0; 0; 0])].
Proof.
  cbv zeta. split; [apply history_of; [exact three_reachable|exact good_line_typed|vm_compute; reflexivity]|].
  split; [orders|]. split; [timely|].
  split; [apply (rest_ok _ _ 1 0); vm_compute; reflexivity|]. split; [split; vm_compute; reflexivity|].
  split; [apply only_unit_ok; vm_compute; reflexivity|]. split; [apply peaceful_ok; vm_compute; reflexivity|]. vm_compute. reflexivity.
Qed.

Lemma erased_rest : let l := marks three_registers erased in let w := final three_registers erased in
  world_history idle Truncate [9] three_registers (from three_registers) erased w l /\ orderly idle Truncate (from three_registers) erased l /\
  at_rest w l /\ not_shut_down w /\ calls_only [9] (observed l) /\
  map fst (wires (observed l)) = [0%nat; 1%nat] /\ results (client_outputs (observed l)) = [(0%nat, Error ETimeout)].
Proof.
  cbv zeta. split; [apply history_of; [exact three_reachable|exact erased_typed|vm_compute; reflexivity]|].
  split; [orders|].
  split; [apply (rest_ok _ _ 3 1); vm_compute; reflexivity|]. split; [split; vm_compute; reflexivity|].
  split; [apply only_unit_ok; vm_compute; reflexivity|]. split; vm_compute; reflexivity.
Qed.

Lemma wires_called os i : In i (map fst (wires os)) -> exists k, In (YC (Called i k)) os.
Proof.
  intros H. apply in_map_iff in H. destruct H as ([j y] & Ei & H). cbn [fst] in Ei. subst j. apply in_flat_map in H. destruct H as (o & Ho & H).
  destruct o as [[j k| | | |]| |]; try contradiction H. destruct H as [H|[]]. injection H as -> _. eauto.
Qed.
Lemma in_results_of os i x : In (YC (Completed i x)) os -> In (i, x) (results (client_outputs os)).
Proof. intros H. apply in_flat_map. exists (Completed i x). split; [apply in_couts; exact H|left; reflexivity]. Qed.

Lemma timely_needed : ~ (forall (handler : nat -> unit -> expected (list N) -> unit * list capi) pol units d w0 es w l,
  Forall u8 units -> world_history handler pol units d w0 es w l -> orderly handler pol w0 es l -> at_rest w l -> not_shut_down w ->
  calls_only units (observed l) -> each_completed (observed l)).
Proof.
  intros H. destruct erased_rest as (A & B & C & D & E & F & G).
  assert (K := H _ _ [9] _ _ _ _ _ ltac:(repeat constructor; unfold u8; lia) A B C D E).
  assert (Hw : In 1%nat (map fst (wires (observed (marks three_registers erased))))) by (rewrite F; right; left; reflexivity).
  destruct (wires_called _ _ Hw) as (k & Ho). destruct (K _ _ Ho) as (x & Hx). assert (Hr := in_results_of _ _ _ Hx).
  rewrite G in Hr. destruct Hr as [Hr|[]]. discriminate Hr.
Qed.
