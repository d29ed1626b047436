(** A server channel that was started twice does not come to an end. *)
From Verif Require Import Prelude Ser4 Messages Mbap SpecPdu SpecMbap Server SpecServer ServerLemmas ServerFacts Listener SpecListener AsyncWrite ServerConn SpecConn ServerTcp SpecServerTcp.
From Verif Require Import ServerTcpTurns ServerTcpSteps ServerTcpTotal ServerTcpFacts ServerTcpLemmas ServerTcpCases ServerLifetime SpecServerLifetime ServerLifetimeCases SpecServerEnd ServerEnd.

Section Survivor.
Context {W : Type}.
Context (on_request : N -> W -> request -> W * expected response * list api).
Context (on_shutdown : N -> W -> W * list api).
Context (Hwt : well_typed on_request).

(** The channel is shut down, and yet the connection [c] is read. *)
Record is_read (c : nat) (h : tserver W) : Prop := {
  ir_down : sv_shutdown (us_channel h) = true;
  ir_conn : exists v, us_conns h c = Some v /\ vn_open v = true /\ vn_connected v = true /\ vn_shutdown v = false /\
    vn_reads v <> [] /\ Forall (fun x => snd x = true) (vn_reads v)
}.

Lemma read_again pol max w0 es h m c d : server_history on_request on_shutdown pol max w0 es h m -> is_read c h -> bytes d ->
  exists r h' m', server_enabled h (URead c r (RData d)) /\ userver_step on_request on_shutdown pol h (URead c r (RData d)) = Ret (h', m') /\ is_read c h'.
Proof.
  intros H [SD (v & C & O & CO & SH & NE & F)] B. destruct (vn_reads v) as [|[r g] l] eqn:R; [congruence|]. exists r.
  pose proof F as F0. apply Forall_cons_iff in F as [G F]. cbn in G. subst g.
  assert (FR : find_vread (vn_reads v) r = Some true) by (rewrite R; cbn; rewrite Nat.eqb_refl; reflexivity).
  destruct (ustep_total on_request on_shutdown pol Hwt h (URead c r (RData d)) (sd_inv _ _ _ _ _ _ (history_done _ _ _ _ _ _ _ _ H)) (history_conns_ok _ _ _ Hwt _ _ _ _ _ H) B) as (h' & m' & E);
    [discriminate|discriminate|].
  exists h', m'. split; [exists v, true; auto|]. split; [exact E|]. cbn [userver_step] in E. unfold peer_turn in E. rewrite C in E. cbn [vconn_step] in E. rewrite FR in E. cbn [orb] in E.
  unfold v_read_handler in E. cbn [with_vreads vn_shutdown] in E. rewrite SH in E. cbn [obind peer_outputs] in E. unfold task_turn in E.
  destruct (server_step _ _ _ _ _ _) as [[[ch w] os]|] eqn:S in E; cbn [obind] in E; [|discriminate E].
  destruct (server_parts _ _ _ _ _ _ _ _ H) as (_ & RR & _). pose proof (run_reg_ok _ _ _ _ _ _ _ _ _ reg_ok_init RR) as RO.
  assert (S1 : server_run on_request on_shutdown pol (us_channel h) (us_user h) [EReceive (N.of_nat c) d] = Ret (ch, w, os ++ [])).
  { cbn [server_run]. cbn [us_channel us_user with_conn] in S. rewrite S. reflexivity. }
  destruct (silent_after _ _ _ _ _ _ _ _ _ RO SD S1) as [SD' OS]. rewrite app_nil_r in OS. subst os. cbn [channel_outputs obind] in E. injection E as <- _. split; [exact SD'|].
  cbn [with_order with_channel with_conn us_conns]. rewrite Nat.eqb_refl. eexists. split; [reflexivity|].
  unfold v_begin_read. cbn [with_vreads vn_shutdown vn_connected vn_open vn_reads]. rewrite SH, CO. cbn [with_vreads vn_shutdown vn_connected vn_open vn_reads].
  rewrite O. repeat split; auto.
  - destruct (filter _ _); discriminate.
  - apply Forall_app. split; [|repeat constructor]. rewrite Forall_forall in *. intros x I. apply filter_In in I as [I _]. rewrite R in I. apply F0. exact I.
Qed.

Lemma never_ends pol max w0 c h : server_ends on_request on_shutdown pol h -> forall es m, server_history on_request on_shutdown pol max w0 es h m -> is_read c h -> False.
Proof.
  revert h. fix IH 2. intros h [A _] es m H R.
  assert (B : bytes [0]) by (repeat constructor).
  destruct (read_again _ _ _ _ _ _ _ [0] H R B) as (r & h' & m' & En & E & R'). destruct (A (URead c r (RData [0])) B En) as (h2 & m2 & E2 & X).
  rewrite E in E2. injection E2 as E2 _.
  apply (IH h2 X (es ++ [URead c r (RData [0])]) (m ++ m')); [|rewrite <- E2; exact R']. rewrite <- E2.
  eapply history_extend; [exact H|constructor; [exact B|constructor]|]. cbn [userver_run]. rewrite E. cbn [obind]. rewrite app_nil_r. reflexivity.
Qed.
End Survivor.

Lemma survivor_reads : exists h m, server_history (demo 1) demo_shutdown AllOrNothing 1 0%nat survivor h m /\ us_order h = [] /\ is_read 0 h.
Proof.
  destruct (played_history 1 survivor) as (s & H & F); [unfold survivor, twice_started; typed_events|vm_compute; reflexivity|].
  exists s, (marks 1 survivor). split; [exact H|]. split; [idle F|].
  pose proof (F _ (fun h => sv_shutdown (us_channel h))) as D.
  pose proof (F _ (fun h => option_map (fun v => (vn_open v, vn_connected v, vn_shutdown v, vn_reads v)) (us_conns h 0%nat))) as O. cbv beta in D, O.
  assert (Z1 : final (fun h => sv_shutdown (us_channel h)) 1 survivor = Some true) by (vm_compute; reflexivity).
  assert (Z2 : exists r, final (fun h => option_map (fun v => (vn_open v, vn_connected v, vn_shutdown v, vn_reads v)) (us_conns h 0%nat)) 1 survivor = Some (Some (true, true, false, [(r, true)])))
    by (vm_compute; eexists; reflexivity).
  destruct Z2 as [r Z2]. rewrite Z1 in D. rewrite Z2 in O. split; [congruence|]. destruct (us_conns s 0) as [v|]; [|discriminate O]. injection O as O1 O2 O3 O4.
  exists v. rewrite <- O4. split; [reflexivity|]. split; [auto|]. split; [auto|]. split; [auto|]. split; [discriminate|repeat constructor].
Qed.

Lemma survivor_goes_on : exists es h m, server_history (demo 1) demo_shutdown AllOrNothing 1 0%nat es h m /\ In (UApi ApiShutdown) es /\
  times is_start es = 2%nat /\ us_order h = [] /\ ~ server_ends (demo 1) demo_shutdown AllOrNothing h.
Proof.
  destruct survivor_reads as (h & m & H & Q & R). exists survivor, h, m. split; [exact H|]. split; [vm_compute; tauto|]. split; [reflexivity|]. split; [exact Q|].
  intros E. exact (never_ends _ _ (demo_typed 1) _ _ _ _ _ E _ _ H R).
Qed.

Lemma ends_refuted :
  ~ (forall (W : Type) on_request on_shutdown pol max (w0 : W) es h m, well_typed on_request -> server_history on_request on_shutdown pol max w0 es h m -> max < 2 ^ 32 - 1 ->
     In (UApi ApiShutdown) es -> us_order h = [] -> server_ends on_request on_shutdown pol h).
Proof.
  intros X. destruct survivor_goes_on as (es & h & m & H & I & _ & Q & N). exact (N (X _ _ _ _ _ _ _ _ _ (demo_typed 1) H eq_refl I Q)).
Qed.

Lemma stopped_ends : exists es h m, server_history (demo 1) demo_shutdown AllOrNothing 4 0%nat es h m /\ In (UApi ApiShutdown) es /\ us_order h = [] /\
  starts_of (listen_ins m) = 1%nat /\ server_enabled h (UAccept 1 false fresh) /\ server_ends (demo 1) demo_shutdown AllOrNothing h.
Proof.
  destruct stopped_operations as (h & m & H & I & Q & ST & A & _). exists stopped, h, m. split; [exact H|]. split; [exact I|]. split; [exact Q|]. split; [exact ST|]. split; [exact A|].
  eapply shutdown_ends; [exact (demo_typed 1)|exact H|exact I|exact Q|rewrite ST; constructor|reflexivity].
Qed.
