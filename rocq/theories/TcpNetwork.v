(** Proofs about ClientTcp.v: a working network. *)
From Verif Require Import Prelude Ser4 Messages Mbap SpecPdu SpecMbap BitFacts MbapFacts BuildFacts CodecLemmas FrameFacts Client SpecClient ClientFacts ClientResponses
  SystemServe AsyncWrite ClientConn SpecConn ConnFacts ClientTcp SpecClientTcp TcpFacts TcpWire TcpOrder TcpLemmas.
From Coq Require Import Lia.

(** ** One frame, piece by piece *)
Lemma frame_prefix : forall tx u pdu a b, frame_bytes tx u pdu = a ++ b -> b <> [] -> incomplete a.
Proof.
  intros tx u pdu a b E N. assert (SB : 0 < size b) by (destruct b; [contradiction|unfold size; cbn; lia]).
  assert (SZ : size a + size b = 7 + size pdu).
  { change pdu with (body_of (frame tx u pdu)). rewrite <- item_bytes_size. fold (frame_bytes tx u pdu). rewrite E. unfold size. rewrite app_length. lia. }
  destruct (N.lt_ge_cases (size a) 7) as [L|L]; [left; exact L|right].
  unfold frame_bytes, item_bytes in E. cbn [frame i_tx i_proto i_unit announced i_body body_of] in E.
  destruct a as [|a0 [|a1 [|a2 [|a3 [|a4 [|a5 [|a6 a]]]]]]]; try (unfold size in L; cbn in L; lia).
  unfold be16 in E. cbn [app] in E. injection E as E0 E1 E2 E3 E4 E5 E6 E7.
  exists (a4 * 256 + a5). split; [do 7 eexists; split; reflexivity|].
  assert (K : a4 * 256 + a5 = 1 + size pdu); [|lia].
  rewrite <- E4, <- E5. pose proof (N.div_mod (1 + size pdu) 256 ltac:(discriminate)). lia.
Qed.

Section Piece.
Context (pol : copy_policy) (tx u : N) (pdu : list N).
Context (Htx : u16 tx) (Hu : u8 u) (Hp : bytes pdu) (Hs : 1 <= size pdu <= 253).

Lemma frame_is_bytes : bytes (frame_bytes tx u pdu).
Proof.
  unfold frame_bytes, item_bytes. cbn [frame i_tx i_proto i_unit announced i_body body_of].
  apply bytes_app. split; [apply be16_bytes; exact Htx|]. apply bytes_app. split; [apply be16_bytes; exact eq_refl|].
  apply bytes_app. split; [apply be16_bytes; unfold u16; lia|]. apply bytes_app. split; [|exact Hp]. constructor; [exact Hu|constructor].
Qed.

Lemma middle_piece : forall st t c rest, R pol st t -> t ++ c ++ rest = frame_bytes tx u pdu -> rest <> [] ->
  exists st', mbap_parse pol st c = Ret (st', []) /\ R pol st' (t ++ c).
Proof.
  intros st t c rest HR E N. assert (B : bytes c) by (pose proof frame_is_bytes as B; rewrite <- E in B; apply bytes_app in B as [_ B]; apply bytes_app in B as [B _]; exact B).
  destruct (parse_spec pol st t c HR B) as (st' & t' & items & outs & Ep & _ & Ec & HR' & Hm & _).
  assert (I : incomplete (t ++ c)) by (eapply frame_prefix; [rewrite <- E, app_assoc; reflexivity|exact N]).
  destruct (items_before [] (t ++ c) items t' I Ec) as (zs & Z). symmetry in Z. apply app_eq_nil in Z as [-> _].
  cbn [flat_map app] in Ec. rewrite Ec. inversion Hm; subst. eauto.
Qed.

Lemma last_piece : forall st t c, R pol st t -> t ++ c = frame_bytes tx u pdu ->
  exists st', mbap_parse pol st c = Ret (st', [{| mb_unit := u; mb_tx := tx; mb_data := pdu |}]) /\ R pol st' [].
Proof.
  intros st t c HR E. assert (B : bytes c) by (pose proof frame_is_bytes as B; rewrite <- E in B; apply bytes_app in B as [_ B]; exact B).
  destruct (parse_spec pol st t c HR B) as (st' & t' & items & outs & Ep & _ & Ec & HR' & Hm & _).
  assert (Ec' : flat_map item_bytes [frame tx u pdu] ++ [] = flat_map item_bytes items ++ t').
  { rewrite <- Ec, E. cbn [flat_map]. rewrite !app_nil_r. reflexivity. }
  assert (IN : incomplete []) by (left; reflexivity).
  destruct (items_before _ _ _ _ IN Ec') as (zs & Z).
  destruct items as [|i items].
  - exfalso. cbn [flat_map app] in Ec'. rewrite !app_nil_r in Ec'. destruct (R_tail _ _ _ HR') as [I|(e & _ & Ee & Be)].
    + rewrite <- Ec' in I. rewrite <- (app_nil_r (item_bytes _)) in I. exact (item_not_incomplete _ _ I).
    + rewrite Ee in Ec'. destruct (item_bytes_inj _ _ [] [] ltac:(rewrite !app_nil_r; exact Ec')) as [<- _]. cbn in Be. injection Be as ->. unfold size in Hs. cbn in Hs. lia.
  - injection Z as <- Z. symmetry in Z. apply app_eq_nil in Z as [-> _]. cbn [flat_map] in Ec'. rewrite !app_nil_r in Ec'.
    assert (T' : t' = []) by (rewrite <- (app_nil_r (item_bytes _)) in Ec' at 1; apply app_inv_head in Ec'; auto). subst t'.
    exists st'. split; [|exact HR']. rewrite Ep. cbn [filter deliverable frame i_body i_proto] in Hm. rewrite N.eqb_refl in Hm.
    inversion Hm as [|? m ? ms M Hm']; subst. inversion Hm'; subst. destruct M as (M1 & M2 & M3 & _). cbn in M1, M2.
    assert (M4 : mb_data m = pdu) by (apply M3; unfold long; cbn; lia). destruct m as [a b d]. cbn in *. subst. reflexivity.
Qed.
End Piece.

(** ** The states between exchanges *)
Definition idle_channel (p : pstate) (j : nat) : client :=
  {| cc_shutdown := false; cc_parser := p; cc_pending := []; cc_current := None; cc_timer := None; cc_next_tx := tx_of j; cc_queue := [];
     cc_armed := []; cc_expired := []; cc_next_timer := j; cc_calls := j |}.
Definition busy_channel (p : pstate) (j : nat) (k : call) : client :=
  {| cc_shutdown := false; cc_parser := p; cc_pending := [];
     cc_current := Some {| pr_id := j; pr_unit := k_unit k; pr_tx := tx_of j; pr_msg := k_msg k; pr_timeout := k_timeout k |};
     cc_timer := Some j; cc_next_tx := tx_of (S j); cc_queue := []; cc_armed := [j]; cc_expired := []; cc_next_timer := S j; cc_calls := S j |}.
Definition ready_conn (j r : nat) : cconn :=
  {| cn_shutdown := false; cn_status := Connected; cn_socket := Some 1%nat;
     cn_writer := {| wr_buffer := None; wr_ops := []; wr_next_buffer := j; wr_next_op := j |};
     cn_resolves := 0; cn_connects := []; cn_reads := [(r, Some 1%nat)]; cn_queue := []; cn_next_socket := 2; cn_next_read := S r |}.

Lemma tx_next : forall j, to_u16 (tx_of j + 1) = tx_of (S j).
Proof.
  intro j. unfold to_u16, tx_of. rewrite Nat2N.inj_succ, <- N.add_1_r, N.add_mod_idemp_l by discriminate. reflexivity.
Qed.
Lemma tx_u16 : forall j, u16 (tx_of j).
Proof. intro j. unfold u16, tx_of. apply N.mod_lt. discriminate. Qed.

(** What a part of a history contains. *)
Definition sums (l : list mark) (rs : list (nat * expected (list N))) (tk : list (nat * list N)) (n : nat) : Prop :=
  results (channel_outs l) = rs /\ took (writes (conn_outs l)) = tk /\ count is_attempt (conn_outs l) = n /\ Forall harmless (conn_outs l).

Lemma sums_app : forall l l' rs rs' tk tk' n n', sums l rs tk n -> sums l' rs' tk' n' -> sums (l ++ l') (rs ++ rs') (tk ++ tk') (n + n').
Proof.
  intros l l' rs rs' tk tk' n n' (A & B & C & D) (A' & B' & C' & D'). unfold sums. rewrite channel_outs_app, conn_outs_app.
  unfold results, took, writes, count in *. rewrite !flat_map_app, filter_app, app_length. split; [congruence|]. split; [congruence|]. split; [congruence|].
  apply Forall_app. auto.
Qed.
Lemma sums_nil : sums [] [] [] 0.
Proof. repeat split; constructor. Qed.

Section Tcp.
Context {W : Type}.
Context (handler : nat -> W -> expected (list N) -> W * list capi).
Context (pol : copy_policy).
Context (HC : forall i w r, snd (handler i w r) = []).
Notation tcp_run := (tcp_run handler pol).
Notation tcp_step := (tcp_step handler pol).

Definition at_rest (p : pstate) (w : W) (j r : nat) : tclient W :=
  {| tc_channel := idle_channel p j; tc_user := w; tc_conn := match j with O => cconn_init | _ => ready_conn j r end; tc_order := [] |}.
Definition waits (p : pstate) (w : W) (j r : nat) (k : call) : tclient W :=
  {| tc_channel := busy_channel p j k; tc_user := w; tc_conn := ready_conn (S j) r; tc_order := [] |}.

Lemma built : forall j x, answered j x -> im_valid (k_msg (x_call x)) = true /\
  mbap_build 260 (k_unit (x_call x)) (tx_of j) (k_msg (x_call x)) = map Some (request_frame j x) /\ (0 < List.length (request_frame j x))%nat.
Proof.
  intros j x ((r & Em & L & P) & U & _). assert (X : x_request x = enc_request r) by (apply (request_pdu_unique r); [exact P|apply enc_request_pdu]).
  rewrite Em. split; [apply legal_valid; exact L|]. split.
  - unfold request_frame. rewrite X. pose proof (request_length_bound r L). apply mbap_build_fits; auto using enc_request_length, tx_u16.
    intros w1. apply build_request. exact L.
  - unfold request_frame, frame_bytes, item_bytes, be16. cbn. lia.
Qed.

Lemma tcp_cons : forall s e s1 l1 es s2 l2, tcp_step s e = Ret (s1, l1) -> tcp_run s1 es = Ret (s2, l2) -> tcp_run s (e :: es) = Ret (s2, l1 ++ l2).
Proof. intros s e s1 l1 es s2 l2 A B. cbn [ClientTcp.tcp_run]. rewrite A. cbn [obind]. rewrite B. reflexivity. Qed.

Definition put (ch : client) (w : W) (c : cconn) : tclient W := {| tc_channel := ch; tc_user := w; tc_conn := c; tc_order := [] |}.

Lemma conn_event : forall ch w c e m xs c' o, conn_step c e = Ret (c', o) -> Forall calm_out o -> cn_queue c = [] -> cn_queue c' = [] ->
  conn_turn handler pol (put ch w c) [] e m xs = Ret (put ch w c', ConnIn e :: map ConnOut o).
Proof.
  intros ch w c e m xs c' o E C Q Q'. unfold conn_turn. cbn [tc_conn put tc_channel tc_user]. rewrite E. cbn [obind]. rewrite callbacks_calm by exact C. cbn [obind].
  rewrite Q, Q'. reflexivity.
Qed.

(** The connection with a frame that was given to the transport, and was taken. *)
Definition writing_conn (j r : nat) (f : list N) (t : option nat) : cconn :=
  {| cn_shutdown := false; cn_status := Connected; cn_socket := Some 1%nat;
     cn_writer := {| wr_buffer := Some (j, f); wr_ops := [{| w_id := j; w_buf := (j, f); w_taken := t; w_aborted := false |}]; wr_next_buffer := S j; wr_next_op := S j |};
     cn_resolves := 0; cn_connects := []; cn_reads := [(r, Some 1%nat)]; cn_queue := []; cn_next_socket := 2; cn_next_read := S r |}.

Lemma transfer_step : forall j r f, (0 < List.length f)%nat ->
  conn_step (writing_conn j r f None) (NTransfer j (List.length f)) = Ret (writing_conn j r f (Some (List.length f)), [Write (WTook j f)]).
Proof.
  intros j r f L. cbn [conn_step writing_conn cn_writer]. unfold w_transfer. cbn [wr_ops find_op w_id]. rewrite Nat.eqb_refl. cbn [w_aborted w_taken w_buf snd fst orb].
  replace (Nat.eqb (List.length f) 0) with false by (symmetry; apply Nat.eqb_neq; lia). rewrite Nat.ltb_irrefl. cbn [orb wr_buffer fst]. rewrite Nat.eqb_refl.
  cbn [obind map w_id w_buf w_aborted]. rewrite Nat.eqb_refl, firstn_all. reflexivity.
Qed.

Lemma written_step : forall j r f n, conn_step (writing_conn j r f (Some n)) (NWritten j true) = Ret (ready_conn (S j) r, [Write (WDone j); WriteDone]).
Proof.
  intros j r f n. cbn [conn_step]. unfold write_handler. cbn [cn_writer writing_conn cn_shutdown]. unfold w_complete. cbn [wr_ops find_op w_id]. rewrite Nat.eqb_refl.
  cbn [w_taken delete_op filter w_id]. rewrite Nat.eqb_refl. reflexivity.
Qed.

(** The connection while a name is resolved, and while it is connecting. *)
Definition waiting_conn (f : list N) (g n : nat) (cs : list nat) : cconn :=
  {| cn_shutdown := false; cn_status := Connecting; cn_socket := Some g; cn_writer := {| wr_buffer := Some (0%nat, f); wr_ops := []; wr_next_buffer := 1; wr_next_op := 0 |};
     cn_resolves := n; cn_connects := cs; cn_reads := []; cn_queue := []; cn_next_socket := S g; cn_next_read := 0 |}.
Lemma attempt_step : forall f, conn_step cconn_init (NSend f setup_ok) = Ret (waiting_conn f 0 1 [], [Attempt]).
Proof. reflexivity. Qed.
Lemma resolved_step : forall f, conn_step (waiting_conn f 0 1 []) (NResolved true) = Ret (waiting_conn f 1 0 [1%nat], []).
Proof. reflexivity. Qed.
Lemma connected_step : forall f, conn_step (waiting_conn f 1 0 [1%nat]) (NConnected 1 true) = Ret (writing_conn 0 0 f None, [Established 1; Write (WStarted 0 f)]).
Proof. reflexivity. Qed.
Lemma next_step : forall j r f, conn_step (ready_conn j r) (NSend f setup_ok) = Ret (writing_conn j r f None, [Write (WStarted j f)]).
Proof. reflexivity. Qed.

Lemma conn_events : forall ch w c e q m c' o, conn_step c q = Ret (c', o) -> Forall calm_out o -> cn_queue c = [] -> cn_queue c' = [] ->
  (e = TResolved true m /\ q = NResolved true) \/ (exists g, e = TConnected g true m /\ q = NConnected g true) \/
  (exists w n, e = TTransfer w n /\ q = NTransfer w n) \/ (exists w, e = TWritten w true m /\ q = NWritten w true) ->
  tcp_step (put ch w c) e = Ret (put ch w c', ConnIn q :: map ConnOut o).
Proof.
  intros ch w c e q m c' o E C Q Q' [[-> ->]|[(g & -> & ->)|[(w1 & n & -> & ->)|(w1 & -> & ->)]]]; cbn [ClientTcp.tcp_step put tc_order]; apply conn_event; assumption.
Qed.

(** The request is transmitted. *)
Lemma request_submitted : forall p w j c x, answered j x -> cn_queue c = [] -> exists l,
  tcp_step (put (idle_channel p j) w c) (TApi (Submit (x_call x))) =
    Ret ({| tc_channel := with_queue (idle_channel p j) [DoSend j (x_call x)] (S j); tc_user := w; tc_conn := c; tc_order := [ChannelTurn] |}, l) /\ sums l [] [] 0.
Proof.
  intros p w j c x A Q. destruct (built j x A) as (V & _). cbn [ClientTcp.tcp_step put tc_order]. unfold channel_turn.
  cbn [client_step tc_channel capi_call cc_calls idle_channel cc_shutdown cc_queue]. rewrite V. cbn [obind to_conn put tc_conn tc_user]. rewrite Q. eexists. split; [reflexivity|]. repeat split; constructor.
Qed.

Lemma request_executed : forall p w j c c' o x, answered j x -> cn_queue c = [] ->
  conn_step c (NSend (request_frame j x) setup_ok) = Ret (c', o) -> cn_queue c' = [] ->
  exists l, tcp_step {| tc_channel := with_queue (idle_channel p j) [DoSend j (x_call x)] (S j); tc_user := w; tc_conn := c; tc_order := [ChannelTurn] |} (TRun []) =
    Ret (put (busy_channel p j (x_call x)) w c', l) /\ channel_outs l = [Sent j (k_unit (x_call x)) (tx_of j) (map Some (request_frame j x)); Armed j j (k_timeout (x_call x))] /\
    conn_outs l = o.
Proof.
  intros p w j c c' o x A Q E Q'. destruct (built j x A) as (_ & B & _). cbn [ClientTcp.tcp_step tc_order]. unfold channel_turn.
  cbn [client_step tc_channel cc_queue with_queue idle_channel run_ctask cc_shutdown]. unfold check_pending_requests.
  cbn [cc_shutdown cc_current cc_pending with_next_tx with_pending with_queue with_current with_timers idle_channel cc_next_timer cc_armed cc_expired cc_next_tx cc_timer cc_parser cc_queue cc_calls app
       pr_id pr_unit pr_tx pr_msg pr_timeout obind tc_conn tc_user to_conn next_setup tl].
  rewrite B, frame_data_some, tx_next. fold setup_ok. rewrite E. cbn [obind].
  rewrite Q, Q'. cbn [List.length]. eexists. split; [reflexivity|]. views. rewrite ?app_nil_r. split; reflexivity.
Qed.

Lemma run_then : forall es1 s s1 l1 es2 s2 l2, tcp_run s es1 = Ret (s1, l1) -> tcp_run s1 es2 = Ret (s2, l2) -> tcp_run s (es1 ++ es2) = Ret (s2, l1 ++ l2).
Proof. intros es1 s s1 l1 es2 s2 l2 A B. rewrite run_app_tcp, A. cbn [obind]. rewrite B. reflexivity. Qed.

Lemma connection_made : forall p w k f, exists l,
  tcp_run (put (busy_channel p 0 k) w (waiting_conn f 0 1 [])) [TResolved true ""; TConnected 1 true ""] = Ret (put (busy_channel p 0 k) w (writing_conn 0 0 f None), l) /\
  sums l [] [] 0.
Proof.
  intros p w k f. eexists. split.
  - eapply tcp_cons; [eapply conn_events; [apply resolved_step|repeat constructor|reflexivity|reflexivity|left; split; reflexivity]|].
    eapply tcp_cons; [eapply conn_events; [apply connected_step|repeat constructor|reflexivity|reflexivity|right; left; eexists; split; reflexivity]|]. reflexivity.
  - unfold sums. views. split; [reflexivity|]. split; [reflexivity|]. split; [reflexivity|]. repeat constructor.
Qed.

Lemma frame_taken : forall p w k j r f, (0 < List.length f)%nat -> exists l,
  tcp_run (put (busy_channel p j k) w (writing_conn j r f None)) [TTransfer j (List.length f); TWritten j true ""] = Ret (waits p w j r k, l) /\
  sums l [] [(j, f)] 0.
Proof.
  intros p w k j r f L. eexists. split.
  - eapply tcp_cons; [eapply conn_events with (m := EmptyString); [apply transfer_step; exact L|repeat constructor|reflexivity|reflexivity|right; right; left; do 2 eexists; split; reflexivity]|].
    eapply tcp_cons; [eapply conn_events; [apply written_step|repeat constructor|reflexivity|reflexivity|right; right; right; eexists; split; reflexivity]|]. reflexivity.
  - unfold sums. views. split; [reflexivity|]. split; [reflexivity|]. split; [reflexivity|]. repeat constructor.
Qed.

Lemma request_given : forall p w j c c' o x, answered j x -> cn_queue c = [] -> conn_step c (NSend (request_frame j x) setup_ok) = Ret (c', o) -> cn_queue c' = [] ->
  Forall harmless o -> took (writes o) = [] ->
  exists l, tcp_run (put (idle_channel p j) w c) [TApi (Submit (x_call x)); TRun []] = Ret (put (busy_channel p j (x_call x)) w c', l) /\ sums l [] [] (count is_attempt o).
Proof.
  intros p w j c c' o x A Q E Q' H K.
  destruct (request_submitted p w j c x A Q) as (l1 & R1 & S1). destruct (request_executed p w j c c' o x A Q E Q') as (l2 & R2 & A2 & B2).
  exists (l1 ++ l2). split.
  - eapply tcp_cons; [exact R1|]. rewrite <- (app_nil_r l2). eapply tcp_cons; [exact R2|]. reflexivity.
  - apply (sums_app l1 l2 [] [] [] [] 0 (count is_attempt o) S1). unfold sums. rewrite A2, B2. split; [reflexivity|]. split; [exact K|]. split; [reflexivity|exact H].
Qed.

Lemma request_sent : forall p w j r x, answered j x -> (j = O -> r = O) ->
  exists l, tcp_run (at_rest p w j r)
    (([TApi (Submit (x_call x)); TRun []] ++ (if Nat.eqb j 0 then [TResolved true ""; TConnected 1 true ""] else [])) ++
     [TTransfer j (List.length (request_frame j x)); TWritten j true ""]) = Ret (waits p w j r (x_call x), l) /\
    sums l [] [(j, request_frame j x)] (if Nat.eqb j 0 then 1 else 0).
Proof.
  intros p w j r x A J. destruct (built j x A) as (_ & _ & L0).
  destruct (frame_taken p w (x_call x) j r _ L0) as (l3 & R3 & S3).
  assert (first : exists l, tcp_run (at_rest p w j r) ([TApi (Submit (x_call x)); TRun []] ++ (if Nat.eqb j 0 then [TResolved true ""; TConnected 1 true ""] else [])) =
    Ret (put (busy_channel p j (x_call x)) w (writing_conn j r (request_frame j x) None), l) /\ sums l [] [] (if Nat.eqb j 0 then 1 else 0)).
  { destruct j as [|j].
    - rewrite (J eq_refl). cbn [Nat.eqb].
      destruct (request_given p w 0 cconn_init _ _ x A eq_refl (attempt_step _) eq_refl ltac:(repeat constructor) eq_refl) as (l1 & R1 & S1).
      destruct (connection_made p w (x_call x) (request_frame 0 x)) as (l2 & R2 & S2).
      exists (l1 ++ l2). split; [eapply run_then; [exact R1|exact R2]|]. exact (sums_app _ _ [] [] [] [] _ _ S1 S2).
    - cbn [Nat.eqb]. rewrite app_nil_r.
      destruct (request_given p w (S j) (ready_conn (S j) r) _ _ x A eq_refl (next_step _ _ _) eq_refl ltac:(repeat constructor) eq_refl) as (l1 & R1 & S1).
      exists l1. split; [exact R1|exact S1]. }
  destruct first as (l2 & R2 & S2). exists (l2 ++ l3). split; [eapply run_then; [exact R2|exact R3]|].
  rewrite <- (Nat.add_0_r (if Nat.eqb j 0 then 1 else 0)). exact (sums_app _ _ [] [] [] _ _ _ S2 S3).
Qed.

(** The answer arrives. *)
Lemma read_step : forall j r d, conn_step (ready_conn j r) (NRead r (RData d)) = Ret (ready_conn j (S r), [Received 1 d]).
Proof.
  intros j r d. cbn [conn_step cn_reads ready_conn find_read]. rewrite Nat.eqb_refl. cbn [possible filter fst cn_next_read]. rewrite Nat.eqb_refl. reflexivity.
Qed.

Lemma receive_event : forall ch w j r d ch' w' os, client_step handler pol ch w (CReceive d) = Ret (ch', w', os) ->
  cc_queue ch = [] -> cc_queue ch' = [] -> sent_ids os = [] -> ~ In TcpShutdown os ->
  exists l, tcp_step (put ch w (ready_conn j r)) (TRead r (RData d) "" []) = Ret (put ch' w' (ready_conn j (S r)), l) /\ sums l (results os) [] 0.
Proof.
  intros ch w j r d ch' w' os E Q Q' Sn N.
  assert (TC : forall c, exists l, to_conn c os [] = Ret (c, l) /\ channel_outs l = os /\ conn_outs l = []).
  { intro c. clear E. induction os as [|o os IH]; [exists []; auto|]. assert (N1 : ~ In TcpShutdown os) by (intro K; apply N; right; exact K).
    destruct o; cbn [sent_ids flat_map app] in Sn; try discriminate; try (exfalso; apply N; left; reflexivity);
      (destruct (IH Sn N1) as (l & A & B & C); cbn [to_conn]; rewrite A; cbn [obind]; eexists; split; [reflexivity|]; views; rewrite B, C; split; reflexivity). }
  cbn [ClientTcp.tcp_step put tc_order]. unfold conn_turn. cbn [tc_conn put]. rewrite read_step. cbn [obind callbacks]. unfold channel_turn.
  cbn [tc_channel tc_user tc_conn tc_order put]. rewrite E. cbn [obind]. destruct (TC (ready_conn j (S r))) as (l & A & B & C). rewrite A. cbn [obind].
  rewrite Q, Q'. cbn [List.length ready_conn cn_queue]. eexists. split; [reflexivity|]. unfold sums. views. rewrite ?app_nil_r, ?B, ?C.
  split; [reflexivity|]. split; [reflexivity|]. split; [reflexivity|]. repeat constructor.
Qed.

Lemma answer_read : forall cs p w j r k t pdu, R pol p t -> u8 (k_unit k) -> bytes pdu -> 1 <= size pdu <= 253 ->
  cs <> [] -> Forall (fun c => c <> []) cs -> t ++ List.concat cs = frame_bytes (tx_of j) (k_unit k) pdu ->
  exists p' w' l, tcp_run (waits p w j r k) (reads_of r cs) = Ret (at_rest p' w' (S j) (r + List.length cs), l) /\ R pol p' [] /\
    sums l [(j, Value pdu)] [] 0.
Proof.
  induction cs as [|c cs IH]; intros p w j r k t pdu HR U B Sz N NE E; [contradiction|]. inversion NE as [|? ? N1 N2]; subst. cbn [List.concat] in E.
  destruct cs as [|c' cs].
  - cbn [List.concat] in E. rewrite app_nil_r in E. destruct (last_piece pol _ _ _ (tx_u16 j) U B Sz p t c HR E) as (p' & Ep & HR').
    destruct (handler j w (Value pdu)) as [w' calls] eqn:Hh. assert (Cn : calls = []) by (pose proof (HC j w (Value pdu)) as K; rewrite Hh in K; exact K). subst calls.
    assert (CS : client_step handler pol (busy_channel p j k) w (CReceive c) = Ret (idle_channel p' (S j), w', [Completed j (Value pdu)])).
    { cbn [client_step]. unfold on_receive. cbn [cc_shutdown busy_channel cc_parser]. rewrite Ep. cbn [obind on_responses]. unfold on_response.
      cbn [cc_shutdown with_parser busy_channel cc_current mb_tx mb_unit pr_tx pr_unit mb_data pr_id]. rewrite !N.eqb_refl. cbn [andb].
      unfold call_handler. rewrite Hh. cbn [capi_calls]. unfold cancel_timer, check_pending_requests.
      cbn [cc_shutdown with_current with_timers with_parser busy_channel cc_current cc_pending cc_timer cc_armed filter cc_expired cc_next_timer cc_next_tx cc_queue cc_calls cc_parser app].
      rewrite Nat.eqb_refl. reflexivity. }
    destruct (receive_event _ _ (S j) r _ _ _ _ CS eq_refl eq_refl eq_refl ltac:(intros [K|[]]; discriminate)) as (l & S1 & Sm).
    exists p', w', (l ++ []). split; [|split; [exact HR'|rewrite app_nil_r; exact Sm]].
    cbn [reads_of]. eapply tcp_cons; [exact S1|]. cbn [ClientTcp.tcp_run List.length]. rewrite Nat.add_1_r. reflexivity.
  - destruct (middle_piece pol _ _ _ (tx_u16 j) U B Sz p t c (List.concat (c' :: cs)) HR E) as (p' & Ep & HR').
    { cbn [List.concat]. inversion N2; subst. destruct c'; [contradiction|discriminate]. }
    assert (CS : client_step handler pol (busy_channel p j k) w (CReceive c) = Ret (busy_channel p' j k, w, [])).
    { cbn [client_step]. unfold on_receive. cbn [cc_shutdown busy_channel cc_parser]. rewrite Ep. reflexivity. }
    destruct (receive_event _ _ (S j) r _ _ _ _ CS eq_refl eq_refl eq_refl ltac:(intros [])) as (l & S1 & Sm).
    destruct (IH p' w j (S r) k (t ++ c) pdu HR' U B Sz ltac:(discriminate) N2 ltac:(rewrite <- app_assoc; exact E)) as (p2 & w2 & l2 & R2 & HR2 & Sm2).
    exists p2, w2, (l ++ l2). split; [|split; [exact HR2|exact (sums_app _ _ [] _ [] _ 0 0 Sm Sm2)]].
    cbn [reads_of]. eapply tcp_cons; [exact S1|]. cbn [List.length] in *. rewrite Nat.add_succ_r. exact R2.
Qed.

Lemma network_rounds : forall xs p w j r, R pol p [] -> all_answered j xs -> (j = O -> r = O) ->
  exists s l, tcp_run (at_rest p w j r) (rounds j r xs) = Ret (s, l) /\
    sums l (replies j xs) (request_frames_of j xs) (match xs with [] => 0 | _ => if Nat.eqb j 0 then 1 else 0 end).
Proof.
  induction xs as [|x xs IH]; intros p w j r HR A J.
  - exists (at_rest p w j r), []. split; [reflexivity|exact sums_nil].
  - destruct A as [A A']. destruct (request_sent p w j r x A J) as (l1 & R1 & S1). destruct A as (_ & U & B & Sz & NE & E).
    assert (NC : x_chunks x <> []).
    { intro K. rewrite K in E. unfold frame_bytes, item_bytes, be16 in E. cbn in E. discriminate. }
    destruct (answer_read _ p w j r (x_call x) [] _ HR U B Sz NC NE E) as (p2 & w2 & l2 & R2 & HR2 & S2).
    destruct (IH p2 w2 (S j) (r + List.length (x_chunks x))%nat HR2 A' ltac:(discriminate)) as (s3 & l3 & R3 & S3).
    exists s3, ((l1 ++ l2) ++ l3). split.
    + cbn [rounds]. eapply run_then; [|exact R3]. unfold round. rewrite !app_assoc in *. eapply run_then; [exact R1|exact R2].
    + pose proof (sums_app _ _ _ _ _ _ _ _ (sums_app _ _ _ _ _ _ _ _ S1 S2) S3) as K. cbn [replies request_frames_of app] in *.
      replace (if Nat.eqb j 0 then 1 else 0)%nat with ((if Nat.eqb j 0 then 1 else 0) + 0 + match xs with [] => 0 | _ => if Nat.eqb (S j) 0 then 1 else 0 end)%nat by (destruct xs; cbn [Nat.eqb]; lia).
      exact K.
Qed.

Theorem working_network : forall buf (w0 : W) xs, good_buf buf -> all_answered 0 xs ->
  exists s l, tcp_run (tclient_init buf w0) (rounds 0 0 xs) = Ret (s, l) /\ Forall typed_tevent (rounds 0 0 xs) /\
    results (channel_outs l) = replies 0 xs /\ took (writes (conn_outs l)) = request_frames_of 0 xs /\
    (count is_attempt (conn_outs l) <= 1)%nat /\ Forall harmless (conn_outs l).
Proof.
  intros buf w0 xs G A. destruct (network_rounds xs (mbap_new buf) w0 0 0 (R_new pol buf G) A ltac:(reflexivity)) as (s & l & E & S1 & S2 & S3 & S4).
  exists s, l. split; [exact E|]. split.
  - clear - A.
    assert (K : forall xs j r, all_answered j xs -> Forall typed_tevent (rounds j r xs)); [|apply K; exact A].
    clear. induction xs as [|x xs IH]; intros j r A; [constructor|]. destruct A as [A A']. cbn [rounds]. apply Forall_app. split; [|apply IH; exact A'].
    unfold round. apply Forall_app. split; [repeat constructor|]. apply Forall_app. split; [destruct (Nat.eqb j 0); repeat constructor|]. apply Forall_app. split; [repeat constructor|].
    destruct A as (_ & U & B & Sz & _ & E). pose proof (frame_is_bytes _ _ _ (tx_u16 j) U B Sz) as FB. rewrite <- E in FB. clear - FB. revert r.
    induction (x_chunks x) as [|c cs IH]; intro r; cbn [reads_of]; [constructor|]; cbn [List.concat] in FB; apply bytes_app in FB as [B1 B2]; constructor; [exact B1|apply IH; exact B2].
  - split; [exact S1|]. split; [exact S2|]. split; [rewrite S3; destruct xs; cbn; lia|exact S4].
Qed.
End Tcp.
