(** The same over the network: an orderly history with more than 65536 requests. *)
From Verif Require Import Prelude Ser4 Messages Mbap Client Server Database System.
From Verif Require Import AsyncWrite ClientConn ClientTcp Listener ServerConn ServerTcp World.
From Verif Require Import SpecPdu SpecMbap SpecClient SpecServer SpecDb SpecConn SpecListener SpecClientTcp SpecServerTcp SpecSystem SpecWorld.
From Verif Require Import Tac BuildFacts CodecLemmas DbLemmas FrameFacts SystemFacts ClientCases SystemCases SystemWrap SpecWorld WorldSim WorldLemmas WorldCases.
From Coq Require Import Lia.

(** ** The client *)
Definition line (k j : nat) (b : option buffer) (ops : list wop) : cconn :=
  {| cn_shutdown := false; cn_status := Connected; cn_socket := Some 1%nat;
     cn_writer := {| wr_buffer := b; wr_ops := ops; wr_next_buffer := k; wr_next_op := j |};
     cn_resolves := 0; cn_connects := []; cn_reads := [(0%nat, Some 1%nat)]; cn_queue := []; cn_next_socket := 2; cn_next_read := 1 |}.

Definition made (c : client) (n : cconn) (o : list turn) : tclient unit := {| tc_channel := c; tc_user := tt; tc_conn := n; tc_order := o |}.

Definition operation (k : nat) (data : list N) (x : option nat) : wop := {| w_id := k; w_buf := (k, data); w_taken := x; w_aborted := false |}.

Section Steps.
Context (pol : copy_policy) (p : pstate) (t : N) (k : nat) (c : Client.call).
Let f := mbap_build 260 (k_unit c) t (k_msg c).
Let data := frame_data f.

Lemma ask_step : im_valid (k_msg c) = true -> tcp_step idle pol (made (resting p t k) (line k k None []) []) (TApi (Submit c)) =
  Ret (made (with_queue (resting p t k) [DoSend k c] (S k)) (line k k None []) [ChannelTurn], [ChannelIn (CApi (Submit c)); ChannelOut (Called k c)]).
Proof. intros V. unfold tcp_step, channel_turn. cbn [made tc_channel tc_user tc_conn tc_order]. rewrite (call_step _ _ _ _ _ V). reflexivity. Qed.

Lemma turn_step : tcp_step idle pol (made (with_queue (resting p t k) [DoSend k c] (S k)) (line k k None []) [ChannelTurn]) (TRun []) =
  Ret (made (sending p t k c [k] []) (line (S k) (S k) (Some (k, data)) [operation k data None]) [],
       [ChannelIn CRun; ChannelOut (Sent k (k_unit c) t f); ConnIn (NSend data setup_ok); ConnOut (Write (WStarted k data)); ChannelOut (Armed k k (k_timeout c))]).
Proof. unfold tcp_step, channel_turn. cbn [made tc_channel tc_user tc_conn tc_order]. rewrite send_step. reflexivity. Qed.

Lemma transfer_step : forall n, List.length data = S n -> tcp_step idle pol (made (sending p t k c [k] []) (line (S k) (S k) (Some (k, data)) [operation k data None]) []) (TTransfer k (S n)) =
  Ret (made (sending p t k c [k] []) (line (S k) (S k) (Some (k, data)) [operation k data (Some (S n))]) [],
       [ConnIn (NTransfer k (S n)); ConnOut (Write (WTook k data))]).
Proof.
  intros n L. unfold tcp_step, conn_turn. cbn [made tc_channel tc_user tc_conn tc_order conn_step line cn_writer]. unfold w_transfer, operation.
  cbn [wr_ops find_op w_id]. rewrite Nat.eqb_refl. cbn [w_aborted w_taken w_buf snd fst orb wr_buffer Nat.eqb map w_id]. rewrite L, Nat.ltb_irrefl, !Nat.eqb_refl.
  cbn [w_aborted w_taken w_buf]. rewrite <- L, firstn_all. reflexivity.
Qed.

Lemma written_step : forall n, tcp_step idle pol (made (sending p t k c [k] []) (line (S k) (S k) (Some (k, data)) [operation k data (Some n)]) []) (TWritten k true "") =
  Ret (made (sending p t k c [k] []) (line (S k) (S k) None []) [], [ConnIn (NWritten k true); ConnOut (Write (WDone k)); ConnOut WriteDone]).
Proof.
  intros n. unfold tcp_step, conn_turn. cbn [made tc_channel tc_user tc_conn tc_order conn_step line cn_writer]. unfold write_handler, w_complete, operation.
  cbn [line cn_writer wr_ops find_op w_id]. rewrite Nat.eqb_refl. cbn [w_taken delete_op filter w_id]. unfold delete_op. cbn [filter w_id]. rewrite !Nat.eqb_refl. reflexivity.
Qed.

Lemma texpire_step : tcp_step idle pol (made (sending p t k c [k] []) (line (S k) (S k) None []) []) (TExpire k) =
  Ret (made (sending p t k c [] [k]) (line (S k) (S k) None []) [], [ChannelIn (CExpire k)]).
Proof. unfold tcp_step, channel_turn. cbn [made tc_channel tc_user tc_conn tc_order]. rewrite expire_step. reflexivity. Qed.

Lemma tfire_step : tcp_step idle pol (made (sending p t k c [] [k]) (line (S k) (S k) None []) []) (TFire k []) =
  Ret (made (resting p (to_u16 (t + 1)) (S k)) (line (S k) (S k) None []) [], [ChannelIn (CFire k); ChannelOut (Completed k (Error ETimeout))]).
Proof. unfold tcp_step, channel_turn. cbn [made tc_channel tc_user tc_conn tc_order]. rewrite fire_step. reflexivity. Qed.

Lemma answer_step : forall d p' m b ops, mbap_parse pol p d = Ret (p', [m]) -> mb_tx m = t -> mb_unit m = k_unit c ->
  exists s, tcp_step idle pol (made (sending p t k c [k] []) (line (S k) (S k) b ops) []) (TRead 0 (RData d) "" []) =
    Ret (s, [ConnIn (NRead 0 (RData d)); ConnOut (Received 1 d); ChannelIn (CReceive d); ChannelOut (Completed k (Value (mb_data m)))]).
Proof.
  intros d p' m b ops P T U. destruct (receive_step pol p t k c d p' m P T U) as (s & R). eexists. unfold tcp_step, conn_turn.
  set (n := line (S k) (S k) b ops). cbn [made tc_channel tc_user tc_conn tc_order].
  assert (E : conn_step n (NRead 0 (RData d)) = Ret (with_reads n [(1%nat, Some 1%nat)] 2, [Received 1 d])) by reflexivity.
  rewrite E. cbn [obind callbacks]. unfold channel_turn. cbn [tc_channel tc_user tc_conn tc_order]. rewrite R. cbn [obind to_conn app]. reflexivity.
Qed.
End Steps.

(** ** The whole *)
Definition quiet_events (e : tevent) : Prop := match e with TRead _ _ _ _ | TConnected _ _ _ => False | _ => True end.

(** The world does [es], in order. *)
Definition does (w : world unit) (es : list wevent) (w' : world unit) (l : list wmark) : Prop :=
  world_run idle Truncate w es = Ret (w', l) /\ walways idle Truncate whole_frames w es /\ walways idle Truncate one_attempt w es.

Lemma does_nil w : does w [] w [].
Proof. repeat split. Qed.

Lemma does_cons w e w1 l1 es w2 l2 : world_step idle Truncate w e = Ret (w1, l1) -> whole_frames w e -> one_attempt w e -> does w1 es w2 l2 -> does w (e :: es) w2 (l1 ++ l2).
Proof.
  intros E A B (R & C & D). unfold does. cbn [world_run walways]. rewrite E. cbn [obind]. rewrite R. split; [reflexivity|].
  split; (split; [assumption|]; intros w' l' Q; injection Q as <- <-; assumption).
Qed.

Lemma does_app es1 : forall w w1 l1 es2 w2 l2, does w es1 w1 l1 -> does w1 es2 w2 l2 -> does w (es1 ++ es2) w2 (l1 ++ l2).
Proof.
  induction es1 as [|e es1 IH]; intros w w1 l1 es2 w2 l2 (R & A & B) D2; cbn [world_run] in R.
  - injection R as <- <-. exact D2.
  - destruct (world_step idle Truncate w e) as [[w' l']|] eqn:E; cbn [obind] in R; [|discriminate R].
    destruct (world_run idle Truncate w' es1) as [[w'' l'']|] eqn:R1; cbn [obind] in R; [|discriminate R]. injection R as <- <-.
    destruct A as [A1 A2], B as [B1 B2]. rewrite <- app_assoc. cbn [app]. apply (does_cons _ _ _ _ _ _ _ E A1 B1). eapply IH; [|exact D2].
    split; [exact R1|]. split; [exact (A2 _ _ E)|exact (B2 _ _ E)].
Qed.

Lemma client_does w e s l : tcp_step idle Truncate (wd_client w) e = Ret (s, l) -> quiet_events e ->
  (forall o n, e = TTransfer o n -> takes_all (cn_writer (tc_conn (wd_client w))) o n) ->
  exists w', does w [WClient e] w' (map WC l) /\ wd_client w' = s /\ wd_down w' = wd_down w.
Proof.
  intros E Q T. assert (X : world_step idle Truncate w (WClient e) = client_turn idle Truncate w e) by (destruct e; try reflexivity; destruct Q).
  unfold client_turn in X. rewrite E in X. cbn [obind] in X. eexists. split; [|split].
  - rewrite <- app_nil_r. eapply does_cons; [exact X| | |apply does_nil].
    + destruct e; try exact I. exact (T _ _ eq_refl).
    + destruct e; try exact I. destruct Q.
  - reflexivity.
  - cbn [wd_down]. destruct e; try reflexivity. destruct Q.
Qed.

Definition gives_up (c : Client.call) (k : nat) : list wevent :=
  map WClient [TApi (Submit c); TRun []; TTransfer k 12; TWritten k true ""; TExpire k; TFire k []].

Definition gave_up (c : Client.call) (t : N) (k : nat) (f : list (option N)) : list mark :=
  [ChannelIn (CApi (Submit c)); ChannelOut (Called k c);
   ChannelIn CRun; ChannelOut (Sent k (k_unit c) t f); ConnIn (NSend (frame_data f) setup_ok); ConnOut (Write (WStarted k (frame_data f))); ChannelOut (Armed k k (k_timeout c));
   ConnIn (NTransfer k 12); ConnOut (Write (WTook k (frame_data f))); ConnIn (NWritten k true); ConnOut (Write (WDone k)); ConnOut WriteDone;
   ChannelIn (CExpire k); ChannelIn (CFire k); ChannelOut (Completed k (Error ETimeout))].

Lemma does_gives_up p t k c f w : im_valid (k_msg c) = true -> f = mbap_build 260 (k_unit c) t (k_msg c) -> List.length (frame_data f) = 12%nat ->
  wd_client w = made (resting p t k) (line k k None []) [] ->
  exists w', does w (gives_up c k) w' (map WC (gave_up c t k f)) /\ wd_client w' = made (resting p (to_u16 (t + 1)) (S k)) (line (S k) (S k) None []) [] /\ wd_down w' = wd_down w.
Proof.
  intros V F L C.
  destruct (client_does w _ _ _ (eq_trans (f_equal (fun s => tcp_step idle Truncate s _) C) (ask_step Truncate p t k c V)) I) as (w1 & D1 & C1 & P1); [intros o n Q; discriminate Q|].
  destruct (client_does w1 _ _ _ (eq_trans (f_equal (fun s => tcp_step idle Truncate s _) C1) (turn_step Truncate p t k c)) I) as (w2 & D2 & C2 & P2); [intros o n Q; discriminate Q|].
  rewrite <- F in D2, C2.
  assert (T3 := transfer_step Truncate p t k c 11). rewrite <- F in T3.
  destruct (client_does w2 _ _ _ (eq_trans (f_equal (fun s => tcp_step idle Truncate s _) C2) (T3 L)) I) as (w3 & D3 & C3 & P3).
  { intros o n Q. injection Q as <- <-. rewrite C2. intros x E. cbn [made tc_conn line cn_writer wr_ops find_op operation w_id] in E. rewrite Nat.eqb_refl in E. injection E as <-. symmetry. exact L. }
  assert (T4 := written_step Truncate p t k c 12). rewrite <- F in T4.
  destruct (client_does w3 _ _ _ (eq_trans (f_equal (fun s => tcp_step idle Truncate s _) C3) T4) I) as (w4 & D4 & C4 & P4); [intros o n Q; discriminate Q|].
  destruct (client_does w4 _ _ _ (eq_trans (f_equal (fun s => tcp_step idle Truncate s _) C4) (texpire_step Truncate p t k c)) I) as (w5 & D5 & C5 & P5); [intros o n Q; discriminate Q|].
  destruct (client_does w5 _ _ _ (eq_trans (f_equal (fun s => tcp_step idle Truncate s _) C5) (tfire_step Truncate p t k c)) I) as (w6 & D6 & C6 & P6); [intros o n Q; discriminate Q|].
  exists w6. split; [|split; [exact C6|congruence]].
  exact (does_app _ _ _ _ _ _ _ D1 (does_app _ _ _ _ _ _ _ D2 (does_app _ _ _ _ _ _ _ D3 (does_app _ _ _ _ _ _ _ D4 (does_app _ _ _ _ _ _ _ D5 D6))))).
Qed.

Lemma frame_length t : u16 t -> List.length (frame_data (mbap_build 260 (k_unit read6) t (k_msg read6))) = 12%nat.
Proof.
  intros U. unfold read6. cbn [k_unit k_msg session_call]. set (r := ReadHoldingRegisters 6 1).
  assert (L : legal_request r) by (apply valid_legal; [cbn; split; unfold u16; lia|reflexivity]).
  rewrite mbap_build_fits with (enc := enc_request r);
    [|assumption|unfold u8; lia|apply request_length_bound; exact L|apply enc_request_length; exact L|intros; apply build_request; assumption].
  unfold frame_data. rewrite !map_length. reflexivity.
Qed.

Definition identifier (k : nat) : N := N.of_nat k mod 65536.

Lemma identifier_u16 k : u16 (identifier k).
Proof. unfold u16, identifier. assert (X := N.mod_lt (N.of_nat k) 65536). lia. Qed.

Fixpoint give_ups (k n : nat) : list wevent := match n with O => [] | S n' => gives_up read6 k ++ give_ups (S k) n' end.

(** What happens meanwhile. *)
Definition unanswered_mark (n : nat) (m : mark) : Prop :=
  match m with
  | ChannelOut (Called i _) => (i < n)%nat
  | ConnOut (Established _) | ConnOut (Received _ _) | ConnOut (PeerClosed _) | ConnOut Failed => False
  | _ => True
  end.

Lemma does_give_ups n : forall k w, wd_client w = made (resting (mbap_new zeros) (identifier k) k) (line k k None []) [] ->
  exists w' l, does w (give_ups k n) w' (map WC l) /\
    wd_client w' = made (resting (mbap_new zeros) (identifier (n + k)) (n + k)) (line (n + k) (n + k) None []) [] /\
    wd_down w' = wd_down w /\ Forall (unanswered_mark (n + k)) l.
Proof.
  induction n as [|n IH]; intros k w C; cbn [give_ups].
  - exists w, []. split; [apply does_nil|]. split; [exact C|]. split; [reflexivity|apply Forall_nil].
  - destruct (does_gives_up _ _ _ read6 _ w eq_refl eq_refl (frame_length _ (identifier_u16 k)) C) as (w1 & D1 & C1 & P1).
    unfold identifier at 1 in C1. rewrite next_identifier in C1. fold (identifier (S k)) in C1.
    destruct (IH (S k) w1 C1) as (w2 & l2 & D2 & C2 & P2 & F2). exists w2. eexists. rewrite <- plus_n_Sm in C2, F2. split; [|split; [exact C2|split; [congruence|]]].
    + assert (D := does_app _ _ _ _ _ _ _ D1 D2). rewrite <- map_app in D. exact D.
    + apply Forall_app. split; [|exact F2]. unfold gave_up. repeat (apply Forall_cons; [cbn [unanswered_mark]; first [exact I|lia]|]). apply Forall_nil.
Qed.

(** The first answer is under way when its request times out. *)
Definition late_start : list wevent :=
  listening ++ [ask (ReadHoldingRegisters 5 1); turn_of_client] ++ connecting 1 0 ++ took_client 0 12 ++
  [WServer (URead 0 0 (RData [0; 0; 0; 0; 0; 6; 9; 3; 0; 5; 0; 1])); WServer (UTransfer 0 0 11); WServer (UWritten 0 0 true)] ++ WorldCases.timed_out 0.
Definition late_end : list wevent := [WClient (TApi (Submit read6)); WClient (TRun []); WClient (TRead 0 (RData late_answer) "" [])].
Definition round (n : nat) : list wevent := late_start ++ give_ups 1 n ++ late_end.

Lemma late_started : exists w l, does (from three_registers) late_start w l /\
  wd_client w = made (resting (mbap_new zeros) 1 1) (line 1 1 None []) [] /\ wd_down w 1%nat = late_answer /\
  conn_outs (client_marks l) = conn_outs (client_marks (marks three_registers late_start)) /\
  (forall c, ends_at_failure (peer_outs c (server_marks l))) /\
  called_ids (client_outputs (observed l)) = [0%nat] /\ consults (observed l) = [ReadHoldingRegisters 5 1].
Proof.
  exists (final three_registers late_start), (marks three_registers late_start). split.
  - split; [|split; [whole|single]]. unfold final, marks. assert (D : defined three_registers late_start = true) by (vm_compute; reflexivity). unfold defined in D.
    destruct (world_run idle Truncate (from three_registers) late_start) as [[w l]|]; [reflexivity|discriminate D].
  - split; [vm_compute; reflexivity|]. split; [vm_compute; reflexivity|]. split; [reflexivity|]. split; [ends|]. split; vm_compute; reflexivity.
Qed.

Lemma does_late_end k w p' m : wd_client w = made (resting (mbap_new zeros) 0 k) (line k k None []) [] -> wd_down w 1%nat = late_answer ->
  mbap_parse Truncate (mbap_new zeros) late_answer = Ret (p', [m]) -> mb_tx m = 0 -> mb_unit m = 9 ->
  exists w' f, does w late_end w' (map WC [ChannelIn (CApi (Submit read6)); ChannelOut (Called k read6);
    ChannelIn CRun; ChannelOut (Sent k 9 0 f); ConnIn (NSend (frame_data f) setup_ok); ConnOut (Write (WStarted k (frame_data f))); ChannelOut (Armed k k 1000);
    ConnIn (NRead 0 (RData late_answer)); ConnOut (Received 1 late_answer); ChannelIn (CReceive late_answer); ChannelOut (Completed k (Value (mb_data m)))]).
Proof.
  intros C D P T U.
  destruct (client_does w _ _ _ (eq_trans (f_equal (fun s => tcp_step idle Truncate s _) C) (ask_step Truncate (mbap_new zeros) 0 k read6 eq_refl)) I) as (w1 & D1 & C1 & P1); [intros o n Q; discriminate Q|].
  destruct (client_does w1 _ _ _ (eq_trans (f_equal (fun s => tcp_step idle Truncate s _) C1) (turn_step Truncate (mbap_new zeros) 0 k read6)) I) as (w2 & D2 & C2 & P2); [intros o n Q; discriminate Q|].
  revert D2 C2. generalize (mbap_build 260 (k_unit read6) 0 (k_msg read6)). intros f D2 C2.
  destruct (answer_step Truncate (mbap_new zeros) 0 k read6 late_answer p' m (Some (k, frame_data f)) [operation k (frame_data f) None] P T U) as (s & E).
  rewrite <- C2 in E.
  assert (R : can_read (wd_down w2) (reads_from (tc_conn (wd_client w2)) 0) (RData late_answer) = true).
  { rewrite C2. cbn [made tc_conn reads_from line cn_reads find_read Nat.eqb can_read]. unfold reads_from. cbn [cn_reads find_read Nat.eqb can_read]. rewrite P2, P1, D. vm_compute. reflexivity. }
  eexists. exists f. unfold late_end. refine (does_app [_] _ _ _ [_; _] _ _ D1 (does_app [_] _ _ _ [_] _ _ D2 _)).
  rewrite <- app_nil_r. eapply does_cons; [|exact I|exact I|apply does_nil].
  unfold world_step. rewrite R. unfold client_turn. rewrite E. reflexivity.
Qed.

Lemma read6_typed : typed_wevent (WClient (TApi (Submit read6))).
Proof. exact read6_session. Qed.

Lemma give_ups_typed n : forall k, Forall typed_wevent (give_ups k n).
Proof.
  induction n as [|n IH]; intros k; cbn [give_ups]; [apply Forall_nil|]. apply Forall_app. split; [|apply IH]. unfold gives_up. cbn [map].
  repeat (apply Forall_cons; [first [exact read6_typed|exact I]|]). apply Forall_nil.
Qed.

Lemma round_typed n : Forall typed_wevent (round n).
Proof.
  unfold round. apply Forall_app. split; [unfold late_start, WorldCases.timed_out; typed_events|]. apply Forall_app. split; [apply give_ups_typed|].
  unfold late_end. apply Forall_cons; [exact read6_typed|]. apply Forall_cons; [exact I|]. apply Forall_cons; [|apply Forall_nil].
  cbn. repeat constructor; unfold u8; lia.
Qed.

Lemma in_turn_unanswered l : forall n cur os, Forall (unanswered_mark n) l -> in_turn cur os -> in_turn cur (conn_outs l ++ os).
Proof.
  induction l as [|m l IH]; intros n cur os F H; [exact H|]. inversion F as [|? ? F1 F2]; subst. destruct m as [e|o|e|o]; try (exact (IH _ _ _ F2 H)).
  destruct o; try destruct F1; exact (IH _ _ _ F2 H).
Qed.

Lemma marks_app l l' : client_marks (l ++ l') = client_marks l ++ client_marks l'.
Proof. apply flat_map_app. Qed.
Lemma marks_client l : client_marks (map WC l) = l.
Proof. induction l as [|m l IH]; [reflexivity|]. cbn. f_equal. exact IH. Qed.
Lemma conn_outs_both l l' : conn_outs (l ++ l') = conn_outs l ++ conn_outs l'.
Proof. apply flat_map_app. Qed.
Lemma server_marks_client l l' : server_marks (l ++ map WC l') = server_marks l.
Proof. unfold server_marks. rewrite flat_map_app. replace (flat_map _ (map WC l')) with (@nil smark); [apply app_nil_r|]. induction l' as [|m l' IH]; [reflexivity|exact IH]. Qed.
Lemma observed_both l l' : observed (l ++ l') = observed l ++ observed l'.
Proof. apply flat_map_app. Qed.
Lemma consults_client l : consults (observed (map WC l)) = [].
Proof. induction l as [|m l IH]; [reflexivity|]. destruct m as [e|o|e|o]; exact IH. Qed.

Lemma called_unanswered n l i k : Forall (unanswered_mark n) l -> In (YC (Called i k)) (observed (map WC l)) -> (i < n)%nat.
Proof.
  intros F H. apply in_flat_map in H as (m & Hm & H). apply in_map_iff in Hm as (x & <- & Hx). rewrite Forall_forall in F. apply F in Hx.
  destruct x as [e|o|e|o]; cbn in H; try contradiction. destruct H as [H|[]]. injection H as ->. exact Hx.
Qed.

Lemma round_history n : N.of_nat n = 65535 -> exists w l a x b, world_history idle Truncate [9] three_registers (from three_registers) (round n) w l /\
  orderly idle Truncate (from three_registers) (round n) l /\
  observed l = a ++ YC (Completed (n + 1) (Value x)) :: b /\
  (forall k, In (YC (Called (n + 1) k)) a -> k = read6) /\ consults a = [ReadHoldingRegisters 5 1].
Proof.
  intros Hn. destruct late_started as (w0 & l0 & D0 & C0 & P0 & O0 & E0 & I0 & B0).
  destruct (does_give_ups n 1 w0 C0) as (w1 & l1 & D1 & C1 & P1 & F1).
  assert (Hk : identifier (n + 1) = 0) by (unfold identifier; replace (N.of_nat (n + 1)) with 65536 by lia; reflexivity). rewrite Hk in C1.
  destruct (does_late_end _ w1 _ _ C1 (eq_trans (f_equal (fun f => f 1%nat) P1) P0) late_parsed eq_refl eq_refl) as (w2 & f & D2).
  assert (K0 : (n + 1 <> 0)%nat) by lia. clear Hk Hn. remember (n + 1)%nat as k eqn:Ek. cbn [mb_data] in D2.
  assert (D := does_app _ _ _ _ _ _ _ D0 (does_app _ _ _ _ _ _ _ D1 D2)). destruct D as (R & A1 & A2). rewrite <- map_app in R.
  match type of R with _ = Ret (_, l0 ++ map WC (l1 ++ ?z)) => set (l2 := z) in * end.
  exists w2, (l0 ++ map WC (l1 ++ l2)), (observed l0 ++ observed (map WC l1) ++ [YC (Called k read6); YC (Sent k 9 0 f); YC (Armed k k 1000)]), [3; 2; 0; 0], [].
  split; [|split; [|split; [|split]]].
  - split; [exists 4, zeros, tt; split; [exact zeros_good|reflexivity]|]. split; [exact three_reachable|]. split; [apply round_typed|]. split; [exact idle_session|exact R].
  - split; [exact A1|]. split; [exact A2|]. split.
    + rewrite marks_app, marks_client, !conn_outs_both, O0.
      assert (Z : conn_outs (client_marks (marks three_registers late_start)) =
        [Attempt; Established 1; Write (WStarted 0 [0; 0; 0; 0; 0; 6; 9; 3; 0; 5; 0; 1]); Write (WTook 0 [0; 0; 0; 0; 0; 6; 9; 3; 0; 5; 0; 1]); Write (WDone 0); WriteDone]) by (vm_compute; reflexivity).
      rewrite Z. cbn [app in_turn]. split; [reflexivity|]. eapply in_turn_unanswered; [exact F1|]. cbn. auto.
    + intros g c buf _. rewrite server_marks_client. apply E0.
  - rewrite map_app, !observed_both, <- !app_assoc. reflexivity.
  - intros c J. apply in_app_iff in J as [J|J].
    + apply called_in in J. rewrite I0 in J. destruct J as [J|[]]. lia.
    + apply in_app_iff in J as [J|J]; [apply (called_unanswered _ _ _ _ F1) in J; lia|].
      destruct J as [J|[J|[J|[]]]]; [injection J as ->; reflexivity|discriminate J|discriminate J].
  - unfold consults. rewrite !flat_map_app. change (flat_map _ (observed l0)) with (consults (observed l0)). rewrite B0.
    change (flat_map _ (observed (map WC l1))) with (consults (observed (map WC l1))). rewrite consults_client. reflexivity.
Qed.

Lemma few_calls_needed : ~ (forall (handler : nat -> unit -> expected (list N) -> unit * list capi) pol units d w0 es w l,
  world_history handler pol units d w0 es w l -> orderly handler pol w0 es l -> only_answered (observed l)).
Proof.
  intros X. destruct (round_history (N.to_nat 65535) (N2Nat.id _)) as (w & l & a & x & b & H & O & E & K & B). destruct (X _ _ _ _ _ _ _ _ H O _ _ _ _ E) as (u & r & t & J1 & J2).
  rewrite B in J2. destruct J2 as [<-|[]]. apply K in J1. exact (read6_not_read5 _ _ (eq_sym J1)).
Qed.

(** ** Without the connection classes *)
Lemma system_answered {W} (handler : nat -> W -> expected (list N) -> W * list capi) pol units d es y os :
  happens handler pol units d es y os -> timely es os -> only_answered os.
Proof.
  intros H T. destruct (SystemLemmas.end_to_end handler pol units d _ es y os H (holds_contents d)) as (log & F & _ & A & _ & _ & D).
  intros a i x b E. destruct (D T a i x b E) as (u & r & t & n & v & H1 & _ & H3 & H4 & _). exists u, r, t. split; [exact H1|].
  destruct (accesses_nth _ _ A _ _ _ _ H3) as (a2 & z & b2 & E2 & L). rewrite E in E2. exact (consult_before a b a2 b2 _ z r E2 ltac:(lia)).
Qed.

Lemma consults_calls r os : In r (consults os) -> In (CRequest r) (db_calls os).
Proof.
  intros H. apply in_flat_map in H as (o & Ho & H). apply in_flat_map. exists o. split; [exact Ho|].
  destruct o as [o|o|c v]; try contradiction. destruct o; try contradiction. destruct H as [->|[]]. left. reflexivity.
Qed.

Lemma timely_needed : ~ (forall (handler : nat -> unit -> expected (list N) -> unit * list capi) pol units d es y os,
  happens handler pol units d es y os -> only_answered os).
Proof.
  intros X. destruct (wrong_answer (N.to_nat 65535) (N2Nat.id _)) as (y & a & x & b & H & _ & K & B).
  destruct (X _ _ _ _ _ _ _ H _ _ _ _ eq_refl) as (u & r & t & J1 & J2). apply consults_calls in J2.
  rewrite B in J2. destruct J2 as [J2|[]]. injection J2 as <-. apply K in J1. exact (read6_not_read5 _ _ (eq_sym J1)).
Qed.

Lemma in_time : exists y os, happens idle Truncate [9] three_registers byte_by_byte y os /\ timely byte_by_byte os /\
  exists d1 d2, results (client_outputs os) = [(0%nat, Value d1); (1%nat, Value d2)].
Proof.
  destruct byte_by_byte_happens as (y & os & H & _ & d1 & d2 & R & _). exists y, os. split; [exact H|]. split; [|exists d1, d2; exact R].
  left. intros t I. unfold byte_by_byte in I. rewrite !in_app_iff in I.
  repeat match goal with K : _ \/ _ |- _ => destruct K as [K|K] | K : In _ (repeat _ _) |- _ => apply repeat_spec in K; discriminate K end.
  cbn [In] in I. intuition discriminate.
Qed.

Lemma too_late : exists n y a x b, N.of_nat n = 65535 /\
  happens idle Truncate [9] three_registers (come_round n) y (a ++ YC (Completed (n + 1) (Value x)) :: b) /\
  In (YC (Called (n + 1) (session_call 9 (ReadHoldingRegisters 6 1) 1000))) a /\ db_calls a = [CRequest (ReadHoldingRegisters 5 1)].
Proof.
  destruct (wrong_answer (N.to_nat 65535) (N2Nat.id _)) as (y & a & x & b & H & J & _ & B). exists (N.to_nat 65535), y, a, x, b.
  split; [apply N2Nat.id|]. split; [exact H|]. split; [exact J|exact B].
Qed.
