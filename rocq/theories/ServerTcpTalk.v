(** A client that waits for each answer is served completely. *)
From Verif Require Import Prelude Ser4 Messages Mbap SpecPdu SpecMbap Server SpecServer Listener SpecListener AsyncWrite ServerConn SpecConn ServerTcp SpecServerTcp.
From Verif Require Import FrameFacts MbapFacts MbapLemmas ServerFacts ServerLemmas ListenerFacts WriteFacts ConnFacts ServerConnFacts ServerConnMore.
From Verif Require Import ServerTcpTrack ServerTcpLink ServerTcpTurns ServerTcpSteps ServerTcpFacts ServerTcpLemmas ServerTcpTheorems.
From Coq Require Import Lia.

(** ** The writes that a list of responses starts *)
Definition send1 (wr : writer) (f : list (option N)) : writer := fst (w_start (w_replace wr (response_data f)) true).
Definition sendall (wr : writer) (l : list (list (option N))) : writer := fold_left send1 l wr.
Fixpoint startall (wr : writer) (l : list (list (option N))) : list woutput :=
  match l with [] => [] | f :: l' => snd (w_start (w_replace wr (response_data f)) true) ++ startall (send1 wr f) l' end.

Lemma startall_app a : forall wr b, startall wr (a ++ b) = startall wr a ++ startall (sendall wr a) b.
Proof. induction a as [|f a IH]; intros wr b; [reflexivity|]. cbn [app startall]. rewrite IH, app_assoc. reflexivity. Qed.
Lemma sendall_app wr a b : sendall wr (a ++ b) = sendall (sendall wr a) b.
Proof. apply fold_left_app. Qed.

Lemma sends_on_app c a b : sends_on c (a ++ b) = sends_on c a ++ sends_on c b.
Proof. unfold sends_on. apply flat_map_app. Qed.

Definition talking (wr : writer) (r : nat) : sconn := vmk false true true wr [(r, true)] [] (S r).

Section Talk.
Context {W : Type}.
Context (on_request : N -> W -> request -> W * expected response * list api).
Context (on_shutdown : N -> W -> W * list api).
Context (pol : copy_policy).
Implicit Types (h : tserver W) (m : list smark).

Notation server_history := (server_history on_request on_shutdown).
Notation userver_step := (userver_step on_request on_shutdown pol).
Notation userver_run := (userver_run on_request on_shutdown pol).
Notation sstep := (server_step on_request on_shutdown pol).
Notation srun := (server_run on_request on_shutdown pol).

Lemma chan_frames c os : forall h wr rd n, Forall (frame_output (N.of_nat c)) os -> us_conns h c = Some (vmk false true true wr rd [] n) ->
  exists h' m, channel_outputs on_request on_shutdown pol h os = Ret (h', m) /\ us_channel h' = us_channel h /\ us_user h' = us_user h /\
    us_conns h' c = Some (vmk false true true (sendall wr (sends_on (N.of_nat c) os)) rd [] n) /\
    task_ins m = [] /\ task_outs m = os /\ peer_outs c m = map VWrite (startall wr (sends_on (N.of_nat c) os)).
Proof.
  induction os as [|o os IH]; intros h wr rd n F C; cbn [channel_outputs].
  { exists h, []. repeat split; auto. }
  inversion_clear F as [|? ? F1 F2]. destruct o as [| |x q| |d f]; cbn in F1; try contradiction.
  - cbn [obind]. destruct (IH h wr rd n F2 C) as (h' & m & -> & A1 & A2 & A3 & A4 & A5 & A6). cbn [obind].
    exists h', (TaskOut (OConsult x q) :: m). split; [reflexivity|]. split; [exact A1|]. split; [exact A2|]. split; [exact A3|]. split; [exact A4|]. split; [|exact A6]. rewrite <- A5. reflexivity.
  - subst d. rewrite Nat2N.id. unfold peer_step. rewrite C. cbn [vconn_step obind].
    assert (SE : v_send (vmk false true true wr rd [] n) (response_data f) =
      (vmk false true true (send1 wr f) rd [] n, map VWrite (snd (w_start (w_replace wr (response_data f)) true)))) by reflexivity.
    rewrite SE. cbn [obind]. set (h1 := with_conn h c (vmk false true true (send1 wr f) rd [] n)).
    assert (C1 : us_conns h1 c = Some (vmk false true true (send1 wr f) rd [] n)) by (unfold h1; rewrite conns_set, Nat.eqb_refl; reflexivity).
    destruct (IH h1 (send1 wr f) rd n F2 C1) as (h' & m & -> & A1 & A2 & A3 & A4 & A5 & A6). cbn [obind].
    do 2 eexists. split; [reflexivity|]. split; [exact A1|]. split; [exact A2|]. unfold sends_on at 1 2. cbn [flat_map]. rewrite N.eqb_refl. cbn [app].
    fold (sends_on (N.of_nat c) os). split; [exact A3|].
    assert (V : forall l, task_ins (map (PeerOut c) l) = [] /\ task_outs (map (PeerOut c) l) = [] /\ peer_outs c (map (PeerOut c) l) = l).
    { induction l as [|y l (I1 & I2 & I3)]; [auto|]. cbn. rewrite Nat.eqb_refl. cbn. repeat split; auto. f_equal. exact I3. }
    match goal with |- task_ins (?a :: ?b :: ?l ++ m) = _ /\ _ => change (a :: b :: l ++ m) with ([a; b] ++ l ++ m) end.
    rewrite !task_ins_app, !task_outs_app, !peer_outs_app.
    match goal with |- context[map (PeerOut c) ?l] => destruct (V l) as (V1 & V2 & V3); rewrite V1, V2, V3 end.
    rewrite A4, A5, A6. split; [reflexivity|]. split; [reflexivity|]. cbn [startall]. rewrite map_app. reflexivity.
Qed.

(** One chunk. *)
Lemma read_step c h r wr d s' w' os : us_conns h c = Some (talking wr r) -> sstep (us_channel h) (us_user h) (EReceive (N.of_nat c) d) = Ret (s', w', os) ->
  exists h' m, userver_step h (URead c r (RData d)) = Ret (h', m) /\ us_channel h' = s' /\ us_user h' = w' /\
    us_conns h' c = Some (talking (sendall wr (sends_on (N.of_nat c) os)) (S r)) /\
    task_ins m = [EReceive (N.of_nat c) d] /\ task_outs m = os /\ peer_outs c m = VReceived d :: map VWrite (startall wr (sends_on (N.of_nat c) os)).
Proof.
  intros C E. cbn [ServerTcp.userver_step]. unfold peer_turn. rewrite C. cbn [talking vconn_step vmk vn_reads find_vread]. rewrite Nat.eqb_refl. cbn [orb].
  assert (RD : v_read_handler (with_vreads (talking wr r) (filter (fun x : nat * bool => negb (Nat.eqb (fst x) r)) [(r, true)]) (S r)) (RData d) =
    (talking wr (S r), [VReceived d])).
  { cbn [filter fst]. rewrite Nat.eqb_refl. reflexivity. }
  match goal with |- context[v_read_handler ?a ?b] => change (v_read_handler a b) with (v_read_handler (with_vreads (talking wr r) (filter (fun x : nat * bool => negb (Nat.eqb (fst x) r)) [(r, true)]) (S r)) (RData d)) end.
  rewrite RD. cbn [obind peer_outputs]. unfold task_turn.
  change (us_channel (with_conn h c (talking wr (S r)))) with (us_channel h). change (us_user (with_conn h c (talking wr (S r)))) with (us_user h). rewrite E. cbn [obind].
  pose proof (ce_outputs _ _ _ _ (sstep_effect _ _ _ _ _ _ _ _ _ E)) as FO. cbn in FO.
  set (h1 := with_channel (with_conn h c (talking wr (S r))) s' w').
  assert (C1 : us_conns h1 c = Some (vmk false true true wr [(S r, true)] [] (S (S r)))) by (unfold h1; cbn [with_channel us_conns]; rewrite conns_set, Nat.eqb_refl; reflexivity).
  destruct (chan_frames c os h1 wr _ _ FO C1) as (h' & m & -> & A1 & A2 & A3 & A4 & A5 & A6). cbn [obind].
  do 2 eexists. split; [reflexivity|]. split; [exact A1|]. split; [exact A2|]. split; [exact A3|].
  rewrite app_nil_r. cbn [task_ins task_outs peer_outs flat_map app]. rewrite Nat.eqb_refl. cbn [app].
  fold (task_ins m) (task_outs m) (peer_outs c m). rewrite A4, A5, A6. auto.
Qed.

Lemma run_app2 a b h h1 m1 h2 m2 : userver_run h a = Ret (h1, m1) -> userver_run h1 b = Ret (h2, m2) -> userver_run h (a ++ b) = Ret (h2, m1 ++ m2).
Proof. intros A B. rewrite urun_app, A. cbn [obind]. rewrite B. reflexivity. Qed.

Definition quiet_since c m := times is_vfailed (peer_outs c m) = 0%nat /\ ~ In VSocketClosed (peer_outs c m).

Lemma quiet_since_app c a b : quiet_since c a -> quiet_since c b -> quiet_since c (a ++ b).
Proof.
  intros [A1 A2] [B1 B2]. unfold quiet_since. rewrite peer_outs_app, times_app. split; [lia|]. intro I. apply in_app_or in I as [I|I]; auto.
Qed.

Lemma reads_run c cs : forall h r wr s' w' os, us_conns h c = Some (talking wr r) ->
  srun (us_channel h) (us_user h) (map (EReceive (N.of_nat c)) cs) = Ret (s', w', os) ->
  exists h' m, userver_run h (reads c r cs) = Ret (h', m) /\ us_channel h' = s' /\ us_user h' = w' /\
    us_conns h' c = Some (talking (sendall wr (sends_on (N.of_nat c) os)) (r + List.length cs)) /\
    task_ins m = map (EReceive (N.of_nat c)) cs /\ task_outs m = os /\ vwrites (peer_outs c m) = startall wr (sends_on (N.of_nat c) os) /\ quiet_since c m.
Proof.
  induction cs as [|d cs IH]; intros h r wr s' w' os C E; cbn [map server_run reads ServerTcp.userver_run] in *.
  { injection E as <- <- <-. exists h, []. cbn [List.length]. rewrite Nat.add_0_r. repeat split; auto. }
  ob E. ob E. injection E as <- <- <-. destruct (read_step c h r wr d _ _ _ C F) as (h1 & m1 & -> & A1 & A2 & A3 & A4 & A5 & A6). cbn [obind].
  rewrite <- A1, <- A2 in F0. destruct (IH h1 (S r) _ _ _ _ A3 F0) as (h2 & m2 & -> & B1 & B2 & B3 & B4 & B5 & B6 & B7). cbn [obind].
  do 2 eexists. split; [reflexivity|]. split; [exact B1|]. split; [exact B2|]. rewrite sends_on_app, sendall_app, startall_app.
  split; [rewrite B3; f_equal; f_equal; cbn [List.length]; lia|].
  split; [rewrite task_ins_app, A4, B4; reflexivity|]. split; [rewrite task_outs_app, A5, B5; reflexivity|]. split.
  - rewrite peer_outs_app, vwrites_app, A6, B6. f_equal. change (vwrites (VReceived d :: ?l)) with (vwrites l). apply vwrites_map.
  - apply quiet_since_app; [|exact B7]. unfold quiet_since. rewrite A6. split.
    + change (times is_vfailed (VReceived d :: ?l)) with (times is_vfailed l). apply times_none, Forall_map, Forall_forall. reflexivity.
    + intros [I|I]; [discriminate|]. apply in_map_iff in I as (x & I & _). discriminate.
Qed.

(** Writer of a connection without outstanding writes. *)
Definition resting (wr : writer) (w : nat) : Prop := wr_ops wr = [] /\ wr_next_op wr = w.

Lemma answer_sent c h wr w r f : us_conns h c = Some (talking (send1 wr f) r) -> resting wr w -> f <> [] ->
  exists h' m wr', userver_run h [UTransfer c w (List.length f); UWritten c w true] = Ret (h', m) /\
    us_channel h' = us_channel h /\ us_user h' = us_user h /\ us_conns h' c = Some (talking wr' r) /\ resting wr' (S w) /\
    task_outs m = [] /\ vwrites (peer_outs c m) = [WTook w (response_data f); WDone w] /\ quiet_since c m.
Proof.
  intros C [R1 R2] NE. destruct wr as [b ops nb no]. cbn [wr_ops wr_next_op] in R1, R2. subst ops no.
  assert (LEN : List.length (response_data f) = List.length f) by apply map_length.
  cbn [ServerTcp.userver_run ServerTcp.userver_step]. unfold peer_turn. rewrite C. cbn [vconn_step talking vmk vn_writer].
  unfold w_transfer. cbn [send1 w_replace w_start fst snd wr_ops wr_buffer wr_next_op wr_next_buffer app find_op w_id]. rewrite Nat.eqb_refl. cbn [w_aborted w_taken w_buf negb orb snd].
  rewrite LEN, Nat.ltb_irrefl. destruct (List.length f) as [|n] eqn:L; [destruct f; [congruence|discriminate L]|]. cbn [Nat.eqb orb fst]. rewrite Nat.eqb_refl. cbn [obind map with_vwriter].
  rewrite Nat.eqb_refl. cbn [peer_outputs obind]. cbn [app].
  match goal with |- context[with_conn h c ?x] => set (v1 := x) end. rewrite conns_set, Nat.eqb_refl. cbn [vconn_step].
  assert (HD : v_write_handler v1 w true = (talking {| wr_buffer := None; wr_ops := []; wr_next_buffer := S nb; wr_next_op := S w |} r, [VWrite (WDone w); VWriteDone])).
  { unfold v_write_handler, w_complete, v1. cbn [with_vwriter vn_writer set_op wr_ops find_op w_id w_taken]. rewrite Nat.eqb_refl. unfold delete_op. cbn [filter w_id]. rewrite Nat.eqb_refl. reflexivity. }
  rewrite HD. cbn [obind map app peer_outputs].
  assert (FI : firstn (S n) (response_data f) = response_data f) by (apply firstn_all2; lia). rewrite FI.
  do 3 eexists. split; [reflexivity|]. split; [reflexivity|]. split; [reflexivity|]. split; [rewrite conns_set, Nat.eqb_refl; reflexivity|].
  split; [split; reflexivity|]. split; [reflexivity|]. cbn [peer_outs flat_map app]. rewrite Nat.eqb_refl. cbn [app]. split; [reflexivity|].
  unfold quiet_since. cbn [peer_outs flat_map app]. rewrite Nat.eqb_refl. cbn [app]. split; [reflexivity|]. intro I. cbn in I. intuition discriminate.
Qed.

Lemma view_nonempty (Hwt : well_typed on_request) reg c x w w' os : SpecServer.serves on_request reg c x w w' os ->
  sends_on c os = [] \/ exists f, sends_on c os = [f] /\ f <> [].
Proof.
  intros S. destruct S as [D|fc rest t D E|y r w' a calls os D E RP].
  - left. reflexivity.
  - right. exists (exception_view (mb_tx x) (mb_unit x) fc t). unfold sends_on. cbn. rewrite N.eqb_refl. split; [reflexivity|]. discriminate.
  - change (sends_on c (OConsult y r :: os)) with (sends_on c os). destruct a as [resp|[]]; cbn in RP; try (subst os; left; reflexivity).
    + destruct RP as (view & V & ->). right. exists view. unfold sends_on. cbn. rewrite N.eqb_refl. split; [reflexivity|].
      destruct V as [V1 V2]. intros ->. destruct (fits_dec resp) as [F|F].
      * destruct (V1 F) as (pdu & _ & X). discriminate X.
      * destruct (V2 F) as [(rest & X & _) _]. discriminate X.
    + subst os. right. eexists. unfold sends_on. cbn. rewrite N.eqb_refl. split; [reflexivity|]. discriminate.
Qed.

(** A conversation. *)
Lemma conversation_run (Hwt : well_typed on_request) c buf frames : good_buf buf -> Forall frame_ok frames ->
  forall todo done past css h r w wr p ms,
  frames = done ++ todo -> Forall bytes past -> List.concat past = flat_map (fun '(tx, unit, pdu) => frame_bytes tx unit pdu) done ->
  mbap_run pol (mbap_new buf) (map Chunk past) = Ret (p, ms) ->
  Forall2 (fun f cs => Forall bytes cs /\ List.concat cs = let '(tx, unit, pdu) := f in frame_bytes tx unit pdu) todo css ->
  us_conns h c = Some (talking wr r) -> resting wr w -> sv_conns (us_channel h) (N.of_nat c) = Some p -> sv_shutdown (us_channel h) = false ->
  exists ls h' m w' os, List.length ls = List.length css /\ userver_run h (conversation c r w (combine css ls)) = Ret (h', m) /\
    serves_all on_request (registry (us_channel h)) (N.of_nat c) (map frame_message todo) (us_user h) w' os /\
    us_user h' = w' /\ task_outs m = os /\ map snd (took (vwrites (peer_outs c m))) = map response_data (sends_on (N.of_nat c) os) /\ quiet_since c m.
Proof.
  intros GB FO. induction todo as [|f todo IH]; intros done past css h r w wr p ms FE PB PE PM CS C RS SC SH.
  { inversion CS. subst css. exists [], h, [], (us_user h), []. cbn. repeat split; auto. constructor. }
  destruct css as [|cs css]; [inversion CS|]. inversion_clear CS as [|? ? ? ? [CB CE] CS2].
  assert (PM2 : exists p2, mbap_run pol (mbap_new buf) (map Chunk (past ++ cs)) = Ret (p2, map frame_message (done ++ [f]))).
  { eapply (frames_round_trip pol buf (done ++ [f]) (past ++ cs) []); auto.
    - subst frames. apply Forall_app in FO as [FO1 FO2]. apply Forall_app. split; [exact FO1|]. inversion_clear FO2. repeat constructor; assumption.
    - apply Forall_app. auto.
    - rewrite concat_app, PE, CE, flat_map_app, app_nil_r. cbn [flat_map]. rewrite app_nil_r. reflexivity.
    - cbn. left. reflexivity. }
  destruct PM2 as (p2 & PM2).
  assert (MS : ms = map frame_message done).
  { destruct (frames_round_trip pol buf done past [] GB) as (st & X); auto.
    - subst frames. apply Forall_app in FO as [FO1 _]. exact FO1.
    - rewrite PE, app_nil_r. reflexivity.
    - cbn. left. reflexivity.
    - rewrite PM in X. congruence. }
  subst ms. assert (RP : exists t, R pol p t).
  { destruct (run_chunks pol past (mbap_new buf) [] (R_new pol buf GB) PB) as (st & t & i & o & X & _ & _ & Y & _). rewrite PM in X. injection X as <- _. eauto. }
  destruct RP as (t & RP). rewrite (map_app Chunk), MbapLemmas.run_app, PM in PM2. cbn [obind] in PM2.
  destruct (pipeline_chunks on_request on_shutdown Hwt pol (N.of_nat c) cs (us_channel h) (us_user h) p t SC RP CB SH) as (p3 & ms3 & s1 & w1 & os1 & X1 & X2 & X3 & X4 & X5 & X6).
  rewrite X1 in PM2. cbn [obind] in PM2. injection PM2 as -> PM2. rewrite map_app in PM2. apply app_inv_head in PM2. cbn [map] in PM2. subst ms3.
  inversion X3 as [|m0 ms0 w0 w2 w3 o1 o2 SV SN]. subst. inversion SN. subst. rewrite app_nil_r in *.
  destruct (reads_run c cs h r wr _ _ _ C X2) as (h1 & m1 & Y1 & Y2 & Y3 & Y4 & Y5 & Y6 & Y7 & Y8). 
  assert (PM3 : mbap_run pol (mbap_new buf) (map Chunk (past ++ cs)) = Ret (p2, map frame_message done ++ [frame_message f])).
  { rewrite (map_app Chunk). rewrite MbapLemmas.run_app, PM. cbn [obind]. rewrite X1. reflexivity. }
  assert (PE3 : List.concat (past ++ cs) = flat_map (fun '(tx, unit, pdu) => frame_bytes tx unit pdu) (done ++ [f])).
  { rewrite concat_app, PE, CE, flat_map_app. cbn [flat_map]. rewrite app_nil_r. reflexivity. }
  assert (FE3 : done ++ f :: todo = (done ++ [f]) ++ todo) by (rewrite <- app_assoc; reflexivity).
  assert (PB3 : Forall bytes (past ++ cs)) by (apply Forall_app; auto).
  assert (REG : forall h2, us_channel h2 = us_channel h1 -> registry (us_channel h2) = registry (us_channel h)) by (intros h2 ->; unfold registry; rewrite Y2, X5; reflexivity).
  destruct (view_nonempty Hwt _ _ _ _ _ _ SV) as [NS|(v & NS & NE)]; rewrite NS in *.
  - cbn [sendall fold_left startall] in Y4, Y7.
    assert (K1 : sv_conns (us_channel h1) (N.of_nat c) = Some p2) by (rewrite Y2; exact X6). assert (K2 : sv_shutdown (us_channel h1) = false) by (rewrite Y2; exact X4).
    destruct (IH (done ++ [f]) (past ++ cs) css h1 _ _ _ _ _ FE3 PB3 PE3 PM3 CS2 Y4 RS K1 K2) as (ls & h2 & m2 & w2 & os2 & Z1 & Z2 & Z3 & Z4 & Z5 & Z6 & Z7).
    exists (None :: ls), h2, (m1 ++ m2), w2, (o1 ++ os2). split; [cbn; lia|]. split; [cbn [combine conversation]; eapply run_app2; eauto|].
    split; [|split; [exact Z4|split; [rewrite task_outs_app, Z5, Y6; reflexivity|split; [|apply quiet_since_app; assumption]]]].
    + cbn [map]. econstructor; [exact SV|]. rewrite (REG h1 eq_refl), Y3 in Z3. exact Z3.
    + rewrite peer_outs_app, vwrites_app, Y7, sends_on_app, NS. exact Z6.
  - destruct (answer_sent c h1 wr w _ v Y4 RS NE) as (h2 & m2 & wr2 & A1 & A2 & A3 & A4 & A5 & A6 & A7 & A8).
    assert (K1 : sv_conns (us_channel h2) (N.of_nat c) = Some p2) by (rewrite A2, Y2; exact X6). assert (K2 : sv_shutdown (us_channel h2) = false) by (rewrite A2, Y2; exact X4).
    destruct (IH (done ++ [f]) (past ++ cs) css h2 _ _ _ _ _ FE3 PB3 PE3 PM3 CS2 A4 A5 K1 K2) as (ls & h3 & m3 & w2 & os2 & Z1 & Z2 & Z3 & Z4 & Z5 & Z6 & Z7).
    exists (Some (List.length v) :: ls), h3, (m1 ++ m2 ++ m3), w2, (o1 ++ os2). split; [cbn; lia|].
    split; [cbn [combine conversation]; eapply run_app2; [exact Y1|]; exact (run_app2 [_; _] _ _ _ _ _ _ A1 Z2)|].
    split; [|split; [exact Z4|split; [rewrite !task_outs_app, A6, Z5, Y6; reflexivity|split; [|apply quiet_since_app; [assumption|apply quiet_since_app; assumption]]]]].
    + cbn [map]. econstructor; [exact SV|]. rewrite (REG h2 A2), A3, Y3 in Z3. exact Z3.
    + rewrite !peer_outs_app, !vwrites_app, Y7, A7, sends_on_app, NS. unfold took in *. rewrite !flat_map_app, !map_app, Z6. reflexivity.
Qed.

(** From a connection that was just accepted. *)
Theorem conversation_served (Hwt : well_typed on_request) max w0 es h m c frames css : server_history pol max w0 es h m ->
  peer_ins c m = [VStart] -> sv_shutdown (us_channel h) = false -> Forall frame_ok frames ->
  Forall2 (fun f cs => Forall bytes cs /\ List.concat cs = let '(tx, unit, pdu) := f in frame_bytes tx unit pdu) frames css ->
  exists ls h' m' w' os, List.length ls = List.length css /\ userver_run h (conversation c 0 0 (combine css ls)) = Ret (h', m') /\
    serves_all on_request (registry (us_channel h)) (N.of_nat c) (map frame_message frames) (us_user h) w' os /\
    us_user h' = w' /\ task_outs m' = os /\ map snd (took (vwrites (peer_outs c m'))) = map response_data (sends_on (N.of_nat c) os) /\
    times is_vfailed (peer_outs c m') = 0%nat /\ ~ In VSocketClosed (peer_outs c m').
Proof.
  intros H PI SH FO CS. destruct (server_parts _ _ _ _ _ _ _ _ H) as (T & R & _ & P). destruct (P c) as [RC G].
  destruct (us_conns h c) as [v|] eqn:C; [|rewrite G in PI; discriminate]. rewrite PI in RC. cbn in RC. injection RC as RC RO.
  assert (NE : us_conns h c <> None) by congruence. destruct (accepted_at _ _ _ _ _ _ _ _ _ H NE) as (es1 & es2 & buf & E & N1 & N2).
  destruct (proj2 (server_wired _ _ _ _ _ _ _ _ H) c) as (_ & HE & _). rewrite <- RO, E in HE. unfold ops_on in HE, N1. rewrite flat_map_app, N1 in HE. cbn [flat_map app heard] in HE.
  rewrite E in *. apply Forall_app in T as [T1 T2]. inversion_clear T2 as [|? ? T3 T4].
  assert (SC : sv_conns (us_channel h) (N.of_nat c) = Some (mbap_new buf)).
  { destruct (run_spec on_request on_shutdown Hwt pol es1 server_init w0 (init_ok pol) T1) as (sa & wa & oa & va & Ea & Ca & _).
    assert (C1 : conns_ok pol (set_conn sa (N.of_nat c) (Some (mbap_new buf)))).
    { intros c' p. cbn [set_conn sv_conns]. destruct (c' =? N.of_nat c); [|apply Ca]. intros X. injection X as <-. exists []. apply R_new, T3. }
    destruct (run_spec on_request on_shutdown Hwt pol es2 _ wa C1 T4) as (sb & wb & ob' & vb & Eb & _ & _ & _ & _ & M).
    destruct (M (N.of_nat c) (mbap_new buf)) as (p' & Mp & Sp); [cbn [set_conn sv_conns]; rewrite N.eqb_refl; reflexivity|exact N2|].
    unfold ops_on in Mp. rewrite <- HE in Mp. cbn in Mp. injection Mp as <- _.
    rewrite run_app_events, Ea in R. cbn [obind server_run server_step] in R. rewrite Eb in R. cbn [obind] in R. injection R as <- _ _. exact Sp. }
  destruct (conversation_run Hwt c buf frames T3 FO frames [] [] css h 0 0 writer_init (mbap_new buf) []) as (ls & h' & m' & w' & os & Z1 & Z2 & Z3 & Z4 & Z5 & Z6 & Z7 & Z8); auto.
  { rewrite C, <- RC. reflexivity. }
  { split; reflexivity. }
  exists ls, h', m', w', os. auto 10.
Qed.
End Talk.
