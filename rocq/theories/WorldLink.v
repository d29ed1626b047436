(** The simulation of the server, and of the whole. *)
From Verif Require Import Prelude Ser4 Messages Mbap Client Server Database System.
From Verif Require Import AsyncWrite ClientConn ClientTcp Listener ServerConn ServerTcp World.
From Verif Require Import SpecPdu SpecMbap SpecClient SpecServer SpecDb SpecConn SpecClientTcp SpecServerTcp SpecSystem SpecWorld.
From Verif Require Import DatabaseFacts ServerFacts ServerTcpFacts ServerTcpTurns ServerTcpSteps.
From Verif Require Import SystemFacts SystemSteps NetFacts WorldConn WorldSim WorldServe WorldOther.

Section Link.
Context {W : Type}.
Context (handler : nat -> W -> expected (list N) -> W * list capi).
Context (pol : copy_policy).

(** The connections the client is at the other end of. *)
Definition mine (links : list (nat * nat)) (c : nat) : Prop := socket_of links c <> None.

Record spart (s : tserver db) (links : list (nat * nat)) (n : net W) (sm : list smark) : Prop := {
  sp_channel : n_server n = us_channel s;
  sp_user : n_db n = us_user s;
  sp_links : forall g x, n_link n g = Some x -> exists c, x = N.of_nat c /\ In (g, c) links /\ us_conns s c <> None;
  sp_conns : forall c v g, us_conns s c = Some v -> socket_of links c = Some g -> n_link n g = Some (N.of_nat c);
  sp_inv : conns_hold (mine links) s (fun c => n_sout n (N.of_nat c));
  sp_known : forall g c, In (g, c) links -> (c < as_next (us_listener s))%nat /\ ~ In c (as_pending (us_listener s));
  sp_exist : forall c, us_conns s c <> None -> (c < as_next (us_listener s))%nat /\ ~ In c (as_pending (us_listener s));
  sp_pending : forall c, In c (as_pending (us_listener s)) -> (c < as_next (us_listener s))%nat;
  sp_dead : forall c, n_dead n (N.of_nat c) = true -> In VFailed (peer_outs c sm)
}.

Lemma spart_move s links n sm s' m os n' : spart s links n sm ->
  hush (mine links) (with_channel s (n_server n') (n_db n')) s' m os -> n_link n' = n_link n ->
  (forall c, mine links c -> n_sout n' (N.of_nat c) = latest_to (N.of_nat c) (n_sout n (N.of_nat c)) os) ->
  (forall c, n_dead n' (N.of_nat c) = true -> n_dead n (N.of_nat c) = true \/ In VFailed (peer_outs c m)) ->
  spart s' links n' (sm ++ m).
Proof.
  intros [P1 P2 P3 P4 P5 P6 P9 P7 P8] [H1 H2 H3 H4 H5 H6 H7] Hl Hs Hd.
  cbn [with_channel us_channel us_user us_conns us_listener] in *. constructor.
  - symmetry. exact H1.
  - symmetry. exact H2.
  - intros g x E. rewrite Hl in E. destruct (P3 g x E) as (c & K1 & K2 & K3). exists c. split; [exact K1|]. split; [exact K2|].
    intros K. apply K3. apply H3. exact K.
  - intros c v g E Eg. destruct (us_conns s c) as [v0|] eqn:Ec; [|apply H3 in Ec; congruence]. rewrite Hl. exact (P4 c v0 g Ec Eg).
  - intros c v M E. rewrite (Hs c M). exact (H4 (fun c => n_sout n (N.of_nat c)) P5 c v M E).
  - intros g c K. destruct (P6 g c K) as [K1 K2]. split; [lia|]. intros K3. destruct (H6 c K3) as [K4|K4]; [exact (K2 K4)|lia].
  - intros c K. destruct (P9 c) as [K1 K2]; [intros Z; apply K; apply H3; exact Z|].
    split; [lia|]. intros K3. destruct (H6 c K3) as [K4|K4]; [exact (K2 K4)|lia].
  - intros c K. destruct (H6 c K) as [K1|K1]; [specialize (P7 c K1)|]; lia.
  - intros c K. rewrite peer_outs_app. apply in_or_app. destruct (Hd c K) as [K1|K1]; [left; exact (P8 c K1)|right; exact K1].
Qed.

Lemma with_channel_id (s : tserver db) : with_channel s (us_channel s) (us_user s) = s.
Proof. destruct s. reflexivity. Qed.

(** The network sees nothing of the step. *)
Lemma spart_still s links n sm s' m : spart s links n sm -> hush (mine links) s s' m [] -> spart s' links n (sm ++ m).
Proof.
  intros P H. eapply (spart_move s links n sm s' m [] n); [exact P| |reflexivity|reflexivity|auto].
  rewrite (sp_channel _ _ _ _ P), (sp_user _ _ _ _ P), with_channel_id. exact H.
Qed.

Definition same_client (n n' : net W) : Prop :=
  n_client n' = n_client n /\ n_user n' = n_user n /\ n_cur n' = n_cur n /\ n_reading n' = n_reading n /\ n_out n' = n_out n.

Definition server_done (mk : smark -> wmark) (n : net W) (sm : list smark) (s' : tserver db) (links : list (nat * nat)) (up down : nat -> list N) (m : list smark) : Prop :=
  exists n' ys, observed_with_others (map mk m) ys /\ nsteps handler pol n ys n' /\ spart s' links n' (sm ++ m) /\
    (forall g, up g = n_up n' g) /\ (forall g, down g = n_down n' g) /\ same_client n n'.

Ltac ns := cbn [set_client set_server set_pipes set_conns set_cur n_client n_user n_server n_db n_cur n_reading n_out n_up n_down n_link n_sout n_dead] in *.

Definition by_server (mk : smark -> wmark) : Prop := mk = WS \/ mk = WO.

Lemma no_tasks mk m : by_server mk -> task_outs m = [] -> observed_with_others (map mk m) [].
Proof.
  intros [->| ->] E.
  - assert (K := others_ws m). rewrite E in K. exact K.
  - apply others_wo. rewrite E. exists []. split; [constructor|reflexivity].
Qed.

Lemma still_done mk s links n sm s' m up down : by_server mk -> spart s links n sm -> hush (mine links) s s' m [] ->
  (forall g, up g = n_up n g) -> (forall g, down g = n_down n g) -> server_done mk n sm s' links up down m.
Proof.
  intros Hm P H Hu Hd. exists n, []. split; [exact (no_tasks mk m Hm (hu_tasks _ _ _ _ _ H))|]. split; [constructor|]. split; [exact (spart_still _ _ _ _ _ _ P H)|].
  split; [exact Hu|]. split; [exact Hd|repeat split; reflexivity].
Qed.

Lemma own_done s q links n sm e s' m up down : spart s links n sm -> own e ->
  task_turn db_session db_shutdown pol (with_order s q) e = Ret (s', m) ->
  (forall g, up g = n_up n g) -> (forall g, down g = n_down n g) -> server_done WS n sm s' links up down m.
Proof.
  intros P He E Hu Hd. destruct (hush_task (mine links) _ _ _ _ _ E) as (ch & w & os & E1 & H).
  cbn [with_order us_channel us_user] in E1. rewrite <- (sp_channel _ _ _ _ P), <- (sp_user _ _ _ _ P) in E1.
  destruct (server_quiet pol (n_server n) (n_db n) e) as (s1 & o1 & E2 & Q & _).
  { destruct e; try contradiction He; exact Logic.I. }
  rewrite E1 in E2. injection E2 as -> -> ->.
  exists (set_server n s1 (n_db n)), (map YS o1). split; [rewrite <- (hu_tasks _ _ _ _ _ H); apply others_ws|].
  split; [apply nsteps_one; exact (N_server handler pol n e s1 (n_db n) o1 He E1)|].
  split; [|split; [exact Hu|split; [exact Hd|repeat split; reflexivity]]].
  eapply (spart_move s links n sm s' m o1); [exact P| |reflexivity|ns; intros c _; rewrite latest_to_quiet by exact Q; reflexivity|auto].
  ns. exact (hush_order' (mine links) (with_channel s s1 (n_db n)) _ _ _ q H).
Qed.

Definition quiet_vout (x : voutput) : Prop := match x with VReceived _ | VFailed | VRemoved => False | _ => True end.

Lemma quiet_outputs c o rest : Forall quiet_vout o -> forall s,
  peer_outputs db_session db_shutdown pol s c (o ++ rest) =
  let! (s', m) := peer_outputs db_session db_shutdown pol s c rest in Ret (s', map (PeerOut c) o ++ m).
Proof.
  induction 1 as [|x o H _ IH]; intros s.
  - cbn [app map]. destruct (peer_outputs db_session db_shutdown pol s c rest) as [[s' m]|]; reflexivity.
  - cbn [app peer_outputs map]. destruct x; try contradiction H; cbn [obind]; rewrite IH;
      destruct (peer_outputs db_session db_shutdown pol s c rest) as [[s' m]|]; reflexivity.
Qed.

(** A failure of connection [c]. *)
Lemma fail_done mk s links n sm c v v' e o s' m up down : by_server mk -> spart s links n sm -> us_conns s c = Some v ->
  vconn_step v e = Ret (v', o ++ [VFailed; VRemoved]) -> Forall quiet_vout o -> (mine links c -> forall out, vinv v out -> vinv v' out) ->
  peer_turn db_session db_shutdown pol s c e = Ret (s', m) ->
  (forall g, up g = n_up n g) -> (forall g, down g = n_down n g) -> server_done mk n sm s' links up down m.
Proof.
  intros Hmk P Ec Ev Ho Hv E Hu Hd. unfold peer_turn in E. rewrite Ec, Ev in E. cbn [obind] in E. rewrite (quiet_outputs c o _ Ho) in E.
  assert (K : exists s1 m1 s2 m2, task_turn db_session db_shutdown pol (with_conn s c v') (EConnError (N.of_nat c)) = Ret (s1, m1) /\
     listener_turn db_session db_shutdown pol s1 (AFail c) [] = Ret (s2, m2) /\ s' = s2 /\
     m = PeerIn c e :: map (PeerOut c) o ++ PeerOut c VFailed :: m1 ++ PeerOut c VRemoved :: m2).
  { cbn [peer_outputs] in E.
    destruct (task_turn db_session db_shutdown pol (with_conn s c v') (EConnError (N.of_nat c))) as [[s1 m1]|] eqn:E1; [|discriminate E]. cbn [obind] in E.
    destruct (listener_turn db_session db_shutdown pol s1 (AFail c) []) as [[s2 m2]|] eqn:E2; [|discriminate E]. cbn [obind] in E.
    injection E as <- <-. rewrite app_nil_r. exists s1, m1, s2, m2. auto. }
  destruct K as (s1 & m1 & s2 & m2 & E1 & E2 & -> & ->).
  destruct (hush_task (mine links) _ _ _ _ _ E1) as (ch & w & os & E3 & H). cbn [with_conn us_channel us_user] in E3.
  rewrite <- (sp_channel _ _ _ _ P), <- (sp_user _ _ _ _ P) in E3.
  assert (Eos : os = []).
  { cbn [server_step] in E3. destruct (sv_conns (n_server n) (N.of_nat c)); injection E3 as _ _ E3; symmetry; exact E3. }
  assert (H2 := hush_listens (mine links) _ _ (AFail c) _ _ _ Logic.I E2).
  set (n1 := set_conns (set_server n ch w) (n_link n) (n_sout n) (updN (n_dead n) (N.of_nat c) true)).
  assert (HH : hush (mine links) (with_channel s ch w) s2 (PeerIn c e :: map (PeerOut c) o ++ PeerOut c VFailed :: m1 ++ PeerOut c VRemoved :: m2) []).
  { change (hush (mine links) (with_channel s ch w) s2 ((PeerIn c e :: map (PeerOut c) o) ++ ([PeerOut c VFailed] ++ m1) ++ [PeerOut c VRemoved] ++ m2) ([] ++ [] ++ [])).
    eapply hush_trans.
    { apply (hush_conn (mine links) (with_channel s ch w) c v v'); [exact Ec|exact Hv|apply tasks_peer]. }
    eapply hush_trans; [apply hush_mark; [rewrite Eos in H; exact H|reflexivity]|]. apply hush_mark; [exact H2|reflexivity]. }
  exists n1, (map YS os). split; [rewrite Eos; exact (no_tasks mk _ Hmk (hu_tasks _ _ _ _ _ HH))|].
  split; [apply nsteps_one; exact (N_fail handler pol n (N.of_nat c) ch w os E3)|].
  split; [|split; [exact Hu|split; [exact Hd|repeat split; reflexivity]]].
  eapply (spart_move s links n sm s2); [exact P|exact HH|reflexivity|reflexivity|].
  intros d K. unfold n1 in K. ns. destruct (N.eq_dec (N.of_nat d) (N.of_nat c)) as [Ed|Ed].
  - right. apply Nat2N.inj in Ed. subst d. change (In VFailed (peer_outs c ([PeerIn c e] ++ map (PeerOut c) o ++ [PeerOut c VFailed] ++ m1 ++ PeerOut c VRemoved :: m2))).
    rewrite !peer_outs_app. apply in_or_app. right. apply in_or_app. right. apply in_or_app. left. cbn [peer_outs flat_map]. rewrite Nat.eqb_refl. left. reflexivity.
  - left. rewrite updN_ne in K by exact Ed. exact K.
Qed.
Lemma peer_quiet s c e v v' o s' m : us_conns s c = Some v -> vconn_step v e = Ret (v', o) ->
  Forall quiet_vout o ->
  peer_turn db_session db_shutdown pol s c e = Ret (s', m) -> s' = with_conn s c v' /\ m = PeerIn c e :: map (PeerOut c) o.
Proof.
  intros Ec Ev F E. unfold peer_turn in E. rewrite Ec, Ev in E. cbn [obind] in E.
  rewrite <- (app_nil_r o), (quiet_outputs c o [] F) in E. cbn [peer_outputs obind] in E. rewrite !app_nil_r in E. injection E as <- <-. auto.
Qed.

(** What happens on a connection of others. *)
Lemma other_done mk s links n sm c e s' m up down : by_server mk -> spart s links n sm -> ~ mine links c ->
  wf (us_user s) -> conns_ok pol (us_channel s) -> alive s -> completion e -> typed_vevent e ->
  match e with VRead _ _ => mk = WO | _ => True end ->
  peer_turn db_session db_shutdown pol s c e = Ret (s', m) ->
  (forall g, up g = n_up n g) -> (forall g, down g = n_down n g) -> server_done mk n sm s' links up down m.
Proof.
  intros Hmk P Nm Hw Hc Ha Ce Te Hr E Hu Hd. destruct (us_conns s c) as [v|] eqn:Ec.
  2:{ unfold peer_turn in E. rewrite Ec in E. injection E as <- <-. apply (still_done mk s links n sm s []); auto. apply hush_refl; [reflexivity|constructor]. }
  assert (Nl : forall g, n_link n g <> Some (N.of_nat c)).
  { intros g K. destruct (sp_links _ _ _ _ P g _ K) as (c' & K1 & K2 & _). apply Nat2N.inj in K1. subst c'. exact (Nm (in_socket _ _ _ K2)). }
  destruct (vconn_step v e) as [[v' os]|] eqn:Ev; [|unfold peer_turn in E; rewrite Ec, Ev in E; discriminate E].
  assert (Qv : forall l, Forall ServerTcpSteps.quiet_output l -> Forall quiet_vout l).
  { intros l F. eapply Forall_impl; [|exact F]. intros o Ho. destruct o; try contradiction Ho; exact Logic.I. }
  destruct (completion_shape _ _ _ _ Ev Ce (Ha c v Ec)) as (_ & _ & [[_ S]|[(_ & r & d & -> & ->)|(_ & pre & S & ->)]]).
  - destruct (peer_quiet s c e v v' os s' m Ec Ev (Qv _ S) E) as [-> ->].
    apply (still_done mk s links n sm); auto. apply (hush_conn (mine links) s c v v'); [exact Ec|intros K; contradiction|apply tasks_peer].
  - subst mk. unfold peer_turn in E. rewrite Ec, Ev in E. cbn [obind peer_outputs] in E.
    destruct (task_turn db_session db_shutdown pol (with_conn s c v') (EReceive (N.of_nat c) d)) as [[s1 m1]|] eqn:E1; [|discriminate E].
    cbn [obind] in E. injection E as <- <-. rewrite app_nil_r in *.
    destruct (hush_task (mine links) _ _ _ _ _ E1) as (ch & u & os & E3 & H). cbn [with_conn us_channel us_user] in E3.
    rewrite <- (sp_channel _ _ _ _ P), <- (sp_user _ _ _ _ P) in *.
    destruct (other_receive handler pol n (N.of_nat c) d ch u os Hw Hc Te Nl E3) as (F & ys & R & Ns).
    assert (HH : hush (mine links) (with_channel s ch u) s1 (PeerIn c (VRead r (RData d)) :: PeerOut c (VReceived d) :: m1) os).
    { change (hush (mine links) (with_channel s ch u) s1 ([PeerIn c (VRead r (RData d)); PeerOut c (VReceived d)] ++ m1) ([] ++ os)).
      eapply hush_trans; [|exact H]. apply (hush_conn (mine links) (with_channel s ch u) c v v'); [exact Ec|intros K; contradiction|reflexivity]. }
    exists (set_server n ch u), ys. split; [apply others_wo; rewrite (hu_tasks _ _ _ _ _ HH); exact R|]. split; [exact Ns|].
    split; [|split; [exact Hu|split; [exact Hd|repeat split; reflexivity]]].
    eapply (spart_move s links n sm s1); [exact P|exact HH|reflexivity| |auto].
    ns. intros c' M. rewrite (latest_other (N.of_nat c)); [reflexivity|exact F|]. intros K. apply Nat2N.inj in K. subst c'. contradiction.
  - eapply (fail_done mk s links n sm c v v' e pre); [exact Hmk|exact P|exact Ec|exact Ev|exact (Qv _ S)|intros K; contradiction|exact E|exact Hu|exact Hd].
Qed.

Lemma server_turn_sim (w : world W) n sm e s' m : spart (wd_server w) (wd_links w) n sm ->
  (forall g, wd_up w g = n_up n g) -> (forall g, wd_down w g = n_down n g) ->
  whole_frames w (WServer e) -> typed_uevent e ->
  wf (us_user (wd_server w)) -> conns_ok pol (us_channel (wd_server w)) -> alive (wd_server w) ->
  match e with
  | URead c r x => by_others w c || can_read (wd_up w) (gets_from w c r) x = true
  | UAccept _ true _ => False
  | _ => True
  end ->
  userver_step db_session db_shutdown pol (wd_server w) e = Ret (s', m) ->
  (forall c, mine (wd_links w) c -> ends_at_failure (peer_outs c (sm ++ m))) ->
  server_done (server_mark w e) n sm s' (wd_links w)
    (match e with URead c r x => pipe_drop (wd_up w) (gets_from w c r) (read_length x) | _ => wd_up w end)
    (match e with UTransfer c _ _ => pipe_add (wd_down w) (socket_of (wd_links w) c) (server_took m) | _ => wd_down w end) m.
Proof.
  intros P Hu Hd Ca Ty Hwf Hok Hal Hr E He. set (s := wd_server w) in *.
  assert (Hid : forall c e, us_conns s c = None -> peer_turn db_session db_shutdown pol s c e = Ret (s, [])).
  { intros c e0 Ec. unfold peer_turn. rewrite Ec. reflexivity. }
  assert (H0 : hush (mine (wd_links w)) s s [] []) by (apply hush_refl; [reflexivity|constructor]).
  assert (Bs : by_server WS) by (left; reflexivity).
  assert (Oth : forall c, by_others w c = true -> ~ mine (wd_links w) c).
  { intros c K. unfold by_others in K. unfold mine. destruct (socket_of (wd_links w) c); [discriminate K|intros Z; apply Z; reflexivity]. }
  assert (Own : forall c, by_others w c = false -> exists g, socket_of (wd_links w) c = Some g).
  { intros c K. unfold by_others in K. destruct (socket_of (wd_links w) c) as [g|]; [eauto|discriminate K]. }
  destruct e as [a| |c ok buf|c r x|c o k|c o ok]; cbn [userver_step server_mark] in *.
  - eapply (own_done s (us_order s) _ _ _ (EApi a)); [exact P|exact Logic.I| |exact Hu|exact Hd].
    replace (with_order s (us_order s)) with s by (destruct s; reflexivity). exact E.
  - destruct (us_order s) as [|[|] q].
    + injection E as <- <-. exact (still_done _ _ _ _ _ _ _ _ _ Bs P H0 Hu Hd).
    + eapply (own_done s q _ _ _ ERun); [exact P|exact Logic.I|exact E|exact Hu|exact Hd].
    + apply (hush_run (mine (wd_links w))) in E. apply hush_order' in E. exact (still_done _ _ _ _ _ _ _ _ _ Bs P E Hu Hd).
  - destruct ok; [contradiction Hr|].
    apply (hush_listens (mine (wd_links w)) _ _ (AAccept c false)) in E; [|exact Logic.I]. exact (still_done _ _ _ _ _ _ _ _ _ Bs P E Hu Hd).
  - destruct (by_others w c) eqn:Eo.
    { apply (other_done WO s (wd_links w) n sm c (VRead r x)); [right; reflexivity|exact P|exact (Oth c Eo)|exact Hwf|exact Hok|exact Hal|exact Logic.I|exact Ty|reflexivity|exact E| |exact Hd].
      intros g. unfold gets_from, by_others in *. fold s. destruct (us_conns s c) as [v|]; [|apply Hu].
      destruct (find_vread (vn_reads v) r) as [[|]|]; try apply Hu. destruct (socket_of (wd_links w) c); [discriminate Eo|apply Hu]. }
    cbn [orb] in Hr. destruct (Own c Eo) as (g & Hso). assert (Mc : mine (wd_links w) c) by (unfold mine; rewrite Hso; discriminate).
    destruct (us_conns s c) as [v|] eqn:Ec.
    + destruct (vconn_step v (VRead r x)) as [[v' o]|] eqn:Ev; [|unfold peer_turn in E; rewrite Ec, Ev in E; discriminate E].
      assert (Hv : forall out, vinv v out -> vinv v' out) by (intros out V; exact (proj1 (vi_read _ _ _ _ _ _ V Ev))).
      assert (Hx := proj2 (vi_read _ _ _ _ _ _ (sp_inv _ _ _ _ P c v Mc Ec) Ev)).
      assert (Hg : gets_from w c r = match find_vread (vn_reads v) r with Some true => socket_of (wd_links w) c | _ => None end).
      { unfold gets_from. fold s. rewrite Ec. reflexivity. }
      destruct x as [d| |].
      * destruct (find_vread (vn_reads v) r) as [[|]|] eqn:Ef; [|rewrite Hg in Hr; discriminate Hr|rewrite Hg in Hr; discriminate Hr].
        assert (Hl := sp_conns _ _ _ _ P c v g Ec Hso). rewrite Hg, Hso in *. cbn [can_read] in Hr.
        assert (Hf : firstn (List.length d) (n_up n g) = d).
        { rewrite <- Hu. apply starts_firstn. destruct d; [discriminate Hr|exact Hr]. }
        subst o. unfold peer_turn in E. rewrite Ec, Ev in E. cbn [obind peer_outputs] in E.
        destruct (task_turn db_session db_shutdown pol (with_conn s c v') (EReceive (N.of_nat c) d)) as [[s1 m1]|] eqn:E1; [|discriminate E].
        cbn [obind] in E. injection E as <- <-. rewrite app_nil_r in *.
        destruct (hush_task (mine (wd_links w)) _ _ _ _ _ E1) as (ch & u & os & E3 & H). cbn [with_conn us_channel us_user] in E3.
        rewrite <- (sp_channel _ _ _ _ P), <- (sp_user _ _ _ _ P) in E3. rewrite <- Hf in E3.
        assert (Hdead : n_dead n (N.of_nat c) = false).
        { destruct (n_dead n (N.of_nat c)) eqn:Ed; [|reflexivity]. exfalso.
          apply (sp_dead _ _ _ _ P) in Ed. apply in_split in Ed. destruct Ed as (a & b & Ed).
          apply (He c Mc a b d (peer_outs c m1)). rewrite peer_outs_app, Ed. cbn [peer_outs flat_map]. rewrite Nat.eqb_refl, <- !app_assoc. reflexivity. }
        set (n1 := set_conns (set_pipes (set_server n ch u) (upd (n_up n) g (skipn (List.length d) (n_up n g))) (n_down n))
                          (n_link n) (fun c' => latest_to c' (n_sout n c') os) (n_dead n)).
        assert (HH : hush (mine (wd_links w)) (with_channel s ch u) s1 (PeerIn c (VRead r (RData d)) :: PeerOut c (VReceived d) :: m1) os).
        { change (hush (mine (wd_links w)) (with_channel s ch u) s1 ([PeerIn c (VRead r (RData d)); PeerOut c (VReceived d)] ++ m1) ([] ++ os)).
          eapply hush_trans; [|exact H]. apply (hush_conn (mine (wd_links w)) (with_channel s ch u) c v v'); [exact Ec|intros _; exact Hv|reflexivity]. }
        exists n1, (map YS os). split; [rewrite <- (hu_tasks _ _ _ _ _ HH); apply others_ws|].
        split; [apply nsteps_one; exact (N_serve handler pol n g (N.of_nat c) (List.length d) ch u os Hl Hdead E3)|].
        split; [eapply (spart_move s (wd_links w) n sm s1); [exact P|exact HH|reflexivity|reflexivity|auto]|].
        split; [|split; [exact Hd|repeat split; reflexivity]].
        intros y. unfold n1. ns. rewrite pipe_drop_upd. cbn [read_length]. unfold upd. destruct (Nat.eqb y g); rewrite Hu; reflexivity.
      * assert (Hu' : forall g, pipe_drop (wd_up w) (gets_from w c r) (read_length REof) g = n_up n g) by (intros g'; cbn [read_length]; rewrite pipe_drop_0; apply Hu).
        destruct Hx as [->| ->].
        -- apply (peer_quiet s c _ v v' []) in E; [|exact Ec|exact Ev|constructor]. destruct E as [-> ->].
           eapply (still_done WS s (wd_links w) n); [exact Bs|exact P| |exact Hu'|exact Hd]. apply (hush_conn (mine (wd_links w)) s c v); [exact Ec|intros _; exact Hv|reflexivity].
        -- eapply (fail_done WS s (wd_links w) n sm c v v' _ []); [exact Bs|exact P|exact Ec|exact Ev|constructor|intros _; exact Hv|exact E|exact Hu'|exact Hd].
      * assert (Hu' : forall g, pipe_drop (wd_up w) (gets_from w c r) (read_length RError) g = n_up n g) by (intros g'; cbn [read_length]; rewrite pipe_drop_0; apply Hu).
        destruct Hx as [->| ->].
        -- apply (peer_quiet s c _ v v' []) in E; [|exact Ec|exact Ev|constructor]. destruct E as [-> ->].
           eapply (still_done WS s (wd_links w) n); [exact Bs|exact P| |exact Hu'|exact Hd]. apply (hush_conn (mine (wd_links w)) s c v); [exact Ec|intros _; exact Hv|reflexivity].
        -- eapply (fail_done WS s (wd_links w) n sm c v v' _ []); [exact Bs|exact P|exact Ec|exact Ev|constructor|intros _; exact Hv|exact E|exact Hu'|exact Hd].
    + rewrite (Hid _ _ Ec) in E. injection E as <- <-. eapply (still_done WS s (wd_links w) n); [exact Bs|exact P|exact H0| |exact Hd].
      intros g'. unfold gets_from. fold s. rewrite Ec. rewrite pipe_drop_none. apply Hu.
  - destruct (by_others w c) eqn:Eo.
    { apply (other_done WS s (wd_links w) n sm c (VTransfer o k)); [exact Bs|exact P|exact (Oth c Eo)|exact Hwf|exact Hok|exact Hal|exact Logic.I|exact Logic.I|exact Logic.I|exact E|exact Hu|].
      intros g. unfold by_others in Eo. destruct (socket_of (wd_links w) c); [discriminate Eo|]. apply Hd. }
    destruct (Own c Eo) as (g & Hso). assert (Mc : mine (wd_links w) c) by (unfold mine; rewrite Hso; discriminate).
    destruct (us_conns s c) as [v|] eqn:Ec.
    + destruct (vconn_step v (VTransfer o k)) as [[v' ov]|] eqn:Ev; [|unfold peer_turn in E; rewrite Ec, Ev in E; discriminate E].
      cbn [whole_frames] in Ca. specialize (Ca Eo v Ec).
      assert (V := sp_inv _ _ _ _ P c v Mc Ec). cbn beta in V.
      destruct (vi_transfer _ _ _ _ _ _ V Ev Ca) as [[V' ->]|(d & Hout & -> & V')].
      * apply (peer_quiet s c _ v v' []) in E; [|exact Ec|exact Ev|constructor]. destruct E as [-> ->].
        eapply (still_done WS s (wd_links w) n); [exact Bs|exact P| |exact Hu|intros g'; cbn [map server_took flat_map app]; rewrite pipe_add_nil; apply Hd].
        apply (hush_conn (mine (wd_links w)) s c v); [exact Ec| |reflexivity]. intros _ out V0.
        destruct (vi_transfer _ _ _ _ _ _ V0 Ev Ca) as [[V1 _]|(d & _ & K & _)]; [exact V1|discriminate K].
      * apply (peer_quiet s c _ v v' [VWrite (WTook o d)]) in E; [|exact Ec|exact Ev|repeat constructor]. destruct E as [-> ->].
        assert (Hl := sp_conns _ _ _ _ P c v g Ec Hso).
        exists (set_conns (set_pipes n (n_up n) (upd (n_down n) g (n_down n g ++ d))) (n_link n) (updN (n_sout n) (N.of_nat c) None) (n_dead n)), [].
        split; [exact (no_tasks WS _ Bs (tasks_peer _ _ _))|].
        split; [apply nsteps_one; exact (N_answer handler pol n g (N.of_nat c) d Hl Hout)|].
        split.
        { destruct P as [P1 P2 P3 P4 P5 P6 P9 P7 P8]. constructor; ns; cbn [with_conn us_channel us_user us_conns us_listener]; auto.
          - intros g0 x0 E0. destruct (P3 g0 x0 E0) as (c0 & K1 & K2 & K3). exists c0. split; [exact K1|]. split; [exact K2|].
            destruct (Nat.eqb c0 c); [discriminate|exact K3].
          - intros c0 v0 g0 E0 Eg. destruct (Nat.eqb c0 c) eqn:Ed; [apply Nat.eqb_eq in Ed; subst; exact (P4 c v g0 Ec Eg)|exact (P4 c0 v0 g0 E0 Eg)].
          - intros c0 v0 M0 E0. ns. cbn [with_conn us_conns] in E0. destruct (Nat.eqb c0 c) eqn:Ed.
            + apply Nat.eqb_eq in Ed. subst. injection E0 as <-. rewrite updN_eq. exact V'.
            + apply Nat.eqb_neq in Ed. rewrite updN_ne by (intros K; apply Ed; apply Nat2N.inj; exact K). exact (P5 c0 v0 M0 E0).
          - intros c0 K. apply P9. destruct (Nat.eqb c0 c) eqn:Ed; [apply Nat.eqb_eq in Ed; subst; congruence|exact K].
          - intros c0 K. rewrite peer_outs_app. apply in_or_app. left. exact (P8 c0 K). }
        split; [exact Hu|]. split; [|repeat split; reflexivity].
        intros y. ns. cbn [map server_took flat_map app]. rewrite Hso, pipe_add_upd. unfold upd. destruct (Nat.eqb y g); [rewrite Hd, ?app_nil_r; reflexivity|apply Hd].
    + rewrite (Hid _ _ Ec) in E. injection E as <- <-. eapply (still_done WS s (wd_links w) n); [exact Bs|exact P|exact H0|exact Hu|].
      intros g'. cbn [server_took flat_map]. rewrite pipe_add_nil. apply Hd.
  - destruct (by_others w c) eqn:Eo.
    { apply (other_done WS s (wd_links w) n sm c (VWritten o ok)); [exact Bs|exact P|exact (Oth c Eo)|exact Hwf|exact Hok|exact Hal|exact Logic.I|exact Logic.I|exact Logic.I|exact E|exact Hu|exact Hd]. }
    destruct (Own c Eo) as (g & Hso). assert (Mc : mine (wd_links w) c) by (unfold mine; rewrite Hso; discriminate).
    destruct (us_conns s c) as [v|] eqn:Ec.
    + destruct (v_write_handler v o ok) as [v' ov] eqn:Ew.
      assert (Ev : vconn_step v (VWritten o ok) = Ret (v', ov)) by (cbn [vconn_step]; rewrite Ew; reflexivity).
      assert (Hv : forall out, vinv v out -> vinv v' out) by (intros out V; exact (proj1 (vi_written _ _ _ _ _ _ V Ew))).
      destruct (proj2 (vi_written _ _ _ _ _ _ (sp_inv _ _ _ _ P c v Mc Ec) Ew)) as [->|[->| ->]].
      * apply (peer_quiet s c _ v v' []) in E; [|exact Ec|exact Ev|constructor]. destruct E as [-> ->].
        eapply (still_done WS s (wd_links w) n); [exact Bs|exact P| |exact Hu|exact Hd]. apply (hush_conn (mine (wd_links w)) s c v); [exact Ec|intros _; exact Hv|reflexivity].
      * apply (peer_quiet s c _ v v' [VWrite (WDone o); VWriteDone]) in E; [|exact Ec|exact Ev|repeat constructor]. destruct E as [-> ->].
        eapply (still_done WS s (wd_links w) n); [exact Bs|exact P| |exact Hu|exact Hd]. apply (hush_conn (mine (wd_links w)) s c v); [exact Ec|intros _; exact Hv|reflexivity].
      * eapply (fail_done WS s (wd_links w) n sm c v v' _ [VWrite (WFailed o)]); [exact Bs|exact P|exact Ec|exact Ev|repeat constructor|intros _; exact Hv|exact E|exact Hu|exact Hd].
    + rewrite (Hid _ _ Ec) in E. injection E as <- <-. exact (still_done _ _ _ _ _ _ _ _ _ Bs P H0 Hu Hd).
Qed.

(** A connection of the server. *)
Lemma accept_sim (w : world W) n sm og c buf s' m :
  let links := wd_links w in
  let links' := match og with Some g => links ++ [(g, c)] | None => links end in
  spart (wd_server w) (wd_links w) n sm ->
  (forall g, wd_up w g = n_up n g) -> (forall g, wd_down w g = n_down n g) -> good_buf buf ->
  match og with Some g => existsb (fun x => Nat.eqb (fst x) g) (wd_links w) = false | None => True end -> member c (as_pending (us_listener (wd_server w))) = true ->
  userver_step db_session db_shutdown pol (wd_server w) (UAccept c true buf) = Ret (s', m) ->
  server_done WS n sm s' links' (wd_up w) (wd_down w) m.
Proof.
  intros links links' P Hu Hd Hb Hg Hc E. set (s := wd_server w) in *. cbn [userver_step] in E.
  fold links in P, Hg.
  assert (Hgl : forall g, og = Some g -> forall c', ~ In (g, c') links).
  { intros g -> c' K. assert (T : existsb (fun x => Nat.eqb (fst x) g) links = true); [|congruence].
    apply existsb_exists. exists (g, c'). split; [exact K|apply Nat.eqb_refl]. }
  assert (Hcp : In c (as_pending (us_listener s))).
  { unfold member in Hc. apply existsb_exists in Hc. destruct Hc as (y & Hy & Ey). apply Nat.eqb_eq in Ey. subst. exact Hy. }
  assert (Hcl : forall g', ~ In (g', c) links) by (intros g' K; exact (proj2 (sp_known _ _ _ _ P g' c K) Hcp)).
  assert (Hcn : us_conns s c = None).
  { destruct (us_conns s c) as [v|] eqn:Ec; [|reflexivity]. exfalso. apply (proj2 (sp_exist _ _ _ _ P c ltac:(congruence)) Hcp). }
  assert (Hln : forall g, og = Some g -> n_link n g = None).
  { intros g Eg. destruct (n_link n g) as [x|] eqn:El; [|reflexivity]. destruct (sp_links _ _ _ _ P g x El) as (c' & _ & K & _). exfalso. exact (Hgl g Eg c' K). }
  assert (Hlc : forall g', n_link n g' <> Some (N.of_nat c)).
  { intros g' K. destruct (sp_links _ _ _ _ P g' _ K) as (c' & K1 & K2 & _). apply Nat2N.inj in K1. subst. exact (Hcl g' K2). }
  (* the acceptor *)
  unfold listener_turn in E. cbn [aserver_step] in E. rewrite Hc in E.
  match type of E with context [handle_accept ?lx c true] => set (l0 := lx) in E; destruct (handle_accept l0 c true) as [[l os]|] eqn:E1 end; [|discriminate E].
  cbn [obind] in E. apply accept_step in E1. destruct E1 as (An & Ap & Aos). unfold l0 in An, Ap. cbn [as_next as_pending] in An, Ap.
  assert (Hpd : forall d, In d (as_pending l) <-> In d (as_pending (us_listener s)) /\ d <> c).
  { intros d. rewrite Ap. unfold delete. rewrite filter_In. split; intros [K1 K2]; split; auto.
    - intros ->. rewrite Nat.eqb_refl in K2. discriminate K2.
    - apply Nat.eqb_neq in K2. rewrite K2. reflexivity. }
  match type of E with context [listener_outputs _ _ _ ?a _ _ _] => set (s1 := a) in E end.
  assert (Hso : forall c', c' <> c -> socket_of links' c' = socket_of links c').
  { intros c' N. unfold links'. destruct og as [g|]; [apply socket_ne; exact N|reflexivity]. }
  assert (Hin : forall g0 c0, In (g0, c0) links -> In (g0, c0) links').
  { intros g0 c0 K. unfold links'. destruct og as [g|]; [apply in_or_app; left|]; exact K. }
  assert (Hin' : forall g0 c0, In (g0, c0) links' -> In (g0, c0) links \/ c0 = c).
  { intros g0 c0. unfold links'. destruct og as [g|]; [|auto]. intros K. apply in_app_or in K. destruct K as [K|[K|[]]]; [auto|]. injection K as <- <-. auto. }
  assert (P1 : spart s1 links' n sm).
  { destruct P as [Q1 Q2 Q3 Q4 Q5 Q6 Q9 Q7 Q8]. constructor; cbn [s1 with_order with_listener us_channel us_user us_conns us_listener]; auto.
    - intros g0 x K. destruct (Q3 g0 x K) as (c0 & K1 & K2 & K3). exists c0. split; [exact K1|]. split; [apply Hin; exact K2|exact K3].
    - intros c0 v g0 K Kg. apply (Q4 c0 v g0 K). rewrite <- Hso; [exact Kg|]. intros ->. congruence.
    - intros c0 v M K. cbn [with_order with_listener us_conns] in K. apply (Q5 c0 v); [|exact K]. unfold mine in *. rewrite <- Hso; [exact M|]. intros ->. subst s1; cbn [with_order with_listener us_conns] in K; congruence.
    - intros g0 c0 K. rewrite Hpd, An. destruct (Hin' g0 c0 K) as [K1| ->].
      + destruct (Q6 g0 c0 K1) as [K2 K3]. split; [exact K2|]. intros [K4 _]. exact (K3 K4).
      + split; [exact (Q7 c Hcp)|]. intros [_ K1]. exact (K1 eq_refl).
    - intros c0 K. destruct (Q9 c0 K) as [K1 K2]. rewrite Hpd, An. split; [exact K1|]. intros [K3 _]. exact (K2 K3).
    - intros d K. rewrite An. apply Q7. apply Hpd. exact K. }
  destruct Aos as [->|(o1 & -> & F)].
  - cbn [listener_outputs obind] in E. injection E as <- <-.
    exists n, []. split; [apply no_tasks; [left; reflexivity|reflexivity]|]. split; [constructor|]. split; [|split; [exact Hu|split; [exact Hd|repeat split; reflexivity]]].
    apply spart_still with (s := s1); [exact P1|apply hush_refl; [reflexivity|constructor]].
  - cbn [listener_outputs obind app] in E.
    assert (K : forall os0 s0, listener_outputs db_session db_shutdown pol s0 (as_list (us_listener s)) buf (os0 ++ [Serving c]) =
      let! (s2, m2) := listener_outputs db_session db_shutdown pol s0 (as_list (us_listener s)) buf os0 in
      let! (s3, m3) := serve db_session db_shutdown pol s2 c buf in Ret (s3, m2 ++ ListenOut (Serving c) :: m3)).
    { induction os0 as [|x os0 IH]; intros s0.
      - cbn [app listener_outputs obind]. destruct (serve db_session db_shutdown pol s0 c buf) as [[s3 m3]|]; cbn [obind]; [rewrite app_nil_r|]; reflexivity.
      - cbn [app listener_outputs]. match goal with |- obind ?y _ = _ => destruct y as [[s2 m2]|] end; cbn [obind]; [|reflexivity].
        rewrite IH. destruct (listener_outputs db_session db_shutdown pol s2 (as_list (us_listener s)) buf os0) as [[s3 m3]|]; cbn [obind]; [|reflexivity].
        destruct (serve db_session db_shutdown pol s3 c buf) as [[s4 m4]|]; cbn [obind]; [|reflexivity]. cbn [app]; rewrite <- ?app_assoc; reflexivity. }
    rewrite K in E. clear K.
    destruct (listener_outputs db_session db_shutdown pol s1 (as_list (us_listener s)) buf o1) as [[s2 m2]|] eqn:E2; [|discriminate E]. cbn [obind] in E.
    destruct (serve db_session db_shutdown pol s2 c buf) as [[s3 m3]|] eqn:E3; [|discriminate E]. cbn [obind] in E. injection E as <- <-.
    assert (H2 : hush (mine links') s1 s2 (ListenIn (AAccept c true) :: ListenOut (Accepted c) :: m2 ++ [ListenOut (Serving c)]) []).
    { apply hush_mark; [|reflexivity]. apply hush_mark; [|reflexivity].
      apply (hush_trans (mine links') s1 s2 s2 m2 [ListenOut (Serving c)] [] []); [exact (hush_acceptor (mine links') _ _ _ _ _ _ _ F E2)|apply hush_refl; [reflexivity|constructor]]. }
    assert (P2 := spart_still _ _ _ _ _ _ P1 H2).
    assert (Hcn2 : us_conns s2 c = None) by (apply (hu_dom _ _ _ _ _ H2); exact Hcn).
    assert (Hc2 : (c < as_next (us_listener s2))%nat /\ ~ In c (as_pending (us_listener s2))).
    { assert (K := hu_next _ _ _ _ _ H2). assert (K' := hu_pending _ _ _ _ _ H2 c). unfold s1 in K, K'. cbn [with_order with_listener us_listener] in K, K'.
      rewrite An in K, K'. assert (Z := sp_pending _ _ _ _ P c Hcp). split; [lia|]. intros Y. destruct (K' Y) as [X|X]; [apply Hpd in X; apply (proj2 X); reflexivity|lia]. }
    unfold serve in E3. cbn [server_step obind] in E3.
    match type of E3 with context [v_start ?a] => destruct (v_start a) as [v ov] eqn:Ev end.
    injection E3 as <- <-. destruct (vi_start _ _ _ Ev) as [V ->].
    set (k := closes c (as_queue (us_listener s2))) in *.
    set (ch := set_conn (us_channel s2) (N.of_nat c) (Some (mbap_new buf))) in *.
    set (m' := TaskIn (EAccept (N.of_nat c) buf) :: repeat (PeerIn c VClose) k ++ PeerIn c VStart :: map (PeerOut c) []) in *.
    assert (Tm : task_outs m' = []).
    { unfold m'. cbn [task_outs flat_map map app]. fold (task_outs (repeat (PeerIn c VClose) k ++ [PeerIn c VStart])).
      rewrite task_outs_app. cbn [task_outs flat_map app]. rewrite app_nil_r. clear; generalize k as z; induction z as [|z IH]; [reflexivity|exact IH]. }
    assert (Eall : ListenIn (AAccept c true) :: ListenOut (Accepted c) :: m2 ++ ListenOut (Serving c) :: m' =
                   (ListenIn (AAccept c true) :: ListenOut (Accepted c) :: m2 ++ [ListenOut (Serving c)]) ++ m').
    { cbn [app]. rewrite <- app_assoc. reflexivity. }
    rewrite Eall. set (mm := ListenIn (AAccept c true) :: ListenOut (Accepted c) :: m2 ++ [ListenOut (Serving c)]) in *.
    assert (Tall : task_outs (mm ++ m') = []) by (rewrite task_outs_app, Tm, (hu_tasks _ _ _ _ _ H2); reflexivity).
    assert (Hvf : forall c0, In VFailed (peer_outs c0 sm) -> In VFailed (peer_outs c0 (sm ++ mm ++ m'))) by (intros c0 K; rewrite peer_outs_app; apply in_or_app; left; exact K).
    unfold links' in *. destruct og as [g|].
    + exists (set_conns (set_server n ch (us_user s2)) (upd (n_link n) g (Some (N.of_nat c))) (updN (n_sout n) (N.of_nat c) None) (updN (n_dead n) (N.of_nat c) false)), [].
      split; [apply no_tasks; [left; reflexivity|exact Tall]|]. split.
      { apply nsteps_one. apply (N_accept handler pol n g (N.of_nat c) buf ch (us_user s2) [] (Hln g eq_refl) Hlc Hb).
        rewrite (sp_channel _ _ _ _ P2), (sp_user _ _ _ _ P2). reflexivity. }
      split; [|split; [exact Hu|split; [exact Hd|repeat split; reflexivity]]].
      destruct P2 as [Q1 Q2 Q3 Q4 Q5 Q6 Q9 Q7 Q8]. constructor; ns; cbn [with_conn with_channel us_channel us_user us_conns us_listener]; auto.
      * intros g0 x K. destruct (Nat.eq_dec g0 g) as [->|Ne].
        -- rewrite upd_eq in K. injection K as <-. exists c. split; [reflexivity|]. split; [apply in_or_app; right; left; reflexivity|]. rewrite Nat.eqb_refl. discriminate.
        -- rewrite upd_ne in K by exact Ne. destruct (Q3 g0 x K) as (c0 & K1 & K2 & K3). exists c0. split; [exact K1|]. split; [exact K2|].
           destruct (Nat.eqb c0 c); [discriminate|exact K3].
      * intros c0 v0 g0 K Kg. destruct (Nat.eqb c0 c) eqn:Ed.
        -- apply Nat.eqb_eq in Ed. subst c0. rewrite (socket_new _ _ _ Hcl) in Kg. injection Kg as <-. apply upd_eq.
        -- assert (K2 := Q4 c0 v0 g0 K Kg). rewrite upd_ne; [exact K2|]. intros ->. rewrite (Hln g eq_refl) in K2. discriminate K2.
      * intros c0 v0 M K. cbn [with_conn with_channel us_conns] in K. destruct (Nat.eqb c0 c) eqn:Ed.
        -- injection K as <-. apply Nat.eqb_eq in Ed. subst c0. rewrite updN_eq. exact V.
        -- apply Nat.eqb_neq in Ed. rewrite updN_ne by (intros K0; apply Nat2N.inj in K0; contradiction). exact (Q5 c0 v0 M K).
      * intros c0 K. destruct (Nat.eqb c0 c) eqn:Ed; [apply Nat.eqb_eq in Ed; subst c0; exact Hc2|exact (Q9 c0 K)].
      * intros c0 K. apply Hvf. apply (sp_dead _ _ _ _ P). destruct (N.eq_dec (N.of_nat c0) (N.of_nat c)) as [Ed|Ed].
        -- rewrite Ed, updN_eq in K. discriminate K.
        -- rewrite updN_ne in K by exact Ed. exact K.
    + exists (set_server n ch (n_db n)), [].
      split; [apply no_tasks; [left; reflexivity|exact Tall]|]. split.
      { apply nsteps_one. unfold ch. rewrite <- (sp_channel _ _ _ _ P2). apply N_other. exact Hlc. }
      split; [|split; [exact Hu|split; [exact Hd|repeat split; reflexivity]]].
      destruct P2 as [Q1 Q2 Q3 Q4 Q5 Q6 Q9 Q7 Q8]. constructor; ns; cbn [with_conn with_channel us_channel us_user us_conns us_listener]; auto.
      * intros g0 x K. destruct (Q3 g0 x K) as (c0 & K1 & K2 & K3). exists c0. split; [exact K1|]. split; [exact K2|].
        destruct (Nat.eqb c0 c); [discriminate|exact K3].
      * intros c0 v0 g0 K Kg. destruct (Nat.eqb c0 c) eqn:Ed; [|exact (Q4 c0 v0 g0 K Kg)].
        apply Nat.eqb_eq in Ed. subst c0. exfalso. exact (Hcl g0 (socket_in _ _ _ Kg)).
      * intros c0 v0 M K. cbn [with_conn with_channel us_conns] in K. destruct (Nat.eqb c0 c) eqn:Ed; [|exact (Q5 c0 v0 M K)].
        apply Nat.eqb_eq in Ed. subst c0. exfalso. unfold mine in M. destruct (socket_of links c) as [g0|] eqn:Kg; [exact (Hcl g0 (socket_in _ _ _ Kg))|exact (M eq_refl)].
      * intros c0 K. destruct (Nat.eqb c0 c) eqn:Ed; [apply Nat.eqb_eq in Ed; subst c0; exact Hc2|exact (Q9 c0 K)].
      * intros c0 K. apply Hvf. apply (sp_dead _ _ _ _ P). exact K.
Qed.
End Link.
