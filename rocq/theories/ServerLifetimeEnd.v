(** A server channel that is shut down comes to an end. *)
From Verif Require Import Prelude Ser4 Messages Mbap SpecPdu SpecMbap Server SpecServer Listener SpecListener AsyncWrite ServerConn SpecConn ServerTcp SpecServerTcp.
From Verif Require Import MbapFacts MbapLemmas ServerFacts ServerLemmas ListenerFacts ListenerOnce ListenerLemmas WriteFacts ConnFacts ServerConnFacts ServerConnMore.
From Verif Require Import ServerTcpTrack ServerTcpLink ServerTcpTurns ServerTcpSteps ServerTcpFacts ServerTcpLemmas ServerTcpTheorems ServerTcpTotal.
From Verif Require Import ServerLifetime SpecServerLifetime ServerLifetimeFacts.
From Coq Require Import Lia Relations.

Lemma find_vread_in l r : In r (map fst l) -> find_vread l r <> None.
Proof.
  induction l as [|[r' g] l IH]; [intros []|]. cbn [map In fst find_vread]. intros [->|I]; [rewrite Nat.eqb_refl; discriminate|].
  destruct (Nat.eqb r' r); [discriminate|auto].
Qed.
Lemma find_op_in l w : In w (map w_id l) -> find_op l w <> None.
Proof.
  induction l as [|x l IH]; [intros []|]. cbn [map In find_op]. intros [->|I]; [rewrite Nat.eqb_refl; discriminate|].
  destruct (Nat.eqb _ w); [discriminate|auto].
Qed.

(** An operation that fails is over. *)
Lemma read_over v r : vn_shutdown v = false -> In r (read_ids v) ->
  exists v', vconn_step v (VRead r RError) = Ret (v', [VFailed; VRemoved]) /\ ~ In r (read_ids v').
Proof.
  intros SH I. cbn [vconn_step]. destruct (find_vread (vn_reads v) r) as [g|] eqn:F; [|destruct (find_vread_in _ _ I F)].
  rewrite Bool.orb_true_r. unfold v_read_handler, v_close. cbn [with_vreads vn_shutdown]. rewrite SH. eexists. split; [reflexivity|].
  unfold read_ids. cbn. intros J. apply in_map_iff in J as ([r' g'] & E & J). apply filter_In in J as [_ J]. cbn in E, J. subst r'. rewrite Nat.eqb_refl in J. discriminate.
Qed.
Lemma write_over v w : vn_shutdown v = false -> In w (write_ids v) ->
  exists v', vconn_step v (VWritten w false) = Ret (v', [VWrite (WFailed w); VFailed; VRemoved]) /\ ~ In w (write_ids v').
Proof.
  intros SH I. cbn [vconn_step]. unfold v_write_handler, w_complete. destruct (find_op (wr_ops (vn_writer v)) w) as [x|] eqn:F; [|destruct (find_op_in _ _ I F)].
  unfold v_close. cbn [with_vwriter vn_shutdown]. rewrite SH. eexists. split; [reflexivity|].
  unfold write_ids. cbn. intros J. apply in_map_iff in J as (y & E & J). apply filter_In in J as [_ J]. rewrite E, Nat.eqb_refl in J. discriminate.
Qed.

(** A way for [x] to fail. *)
Definition failure (x : operation) : uevent :=
  match x with OpAccept c => UAccept c false (repeat 0 260) | OpRead c r => URead c r RError | OpWrite c w => UWritten c w false end.

Lemma failure_fails x : fails x (failure x) /\ typed_uevent (failure x).
Proof.
  destruct x; try (repeat split; fail). split; [split; reflexivity|]. split; [reflexivity|]. apply Forall_forall. intros y I. apply repeat_spec in I as ->. reflexivity.
Qed.

Section End.
Context {W : Type}.
Context (on_request : N -> W -> request -> W * expected response * list api).
Context (on_shutdown : N -> W -> W * list api).
Implicit Types (h : tserver W) (m : list smark) (app : sobject -> Prop).
Notation server_history := (server_history on_request on_shutdown).
Notation userver_step := (userver_step on_request on_shutdown).
Notation userver_run := (userver_run on_request on_shutdown).

(** The channel was shut down. *)
Record down (pol : copy_policy) (max : N) (w0 : W) (es : list uevent) h m : Prop := {
  dn_history : server_history pol max w0 es h m;
  dn_asked : In (UApi ApiShutdown) es;
  dn_idle : us_order h = [];
  dn_once : (starts_of (listen_ins m) <= 1)%nat;
  dn_max : max < 2 ^ 32 - 1
}.

Lemma down_acceptor pol max w0 es h m : down pol max w0 es h m -> In ShutDown (listen_outs m) \/ starts_of (listen_ins m) = 0%nat.
Proof.
  intros D. destruct (starts_of (listen_ins m)) eqn:Z; [auto|left]. apply (acceptor_closes _ _ _ _ _ _ _ _ (dn_history _ _ _ _ _ _ D) (dn_asked _ _ _ _ _ _ D) (dn_idle _ _ _ _ _ _ D)). congruence.
Qed.

(** No operation begins. *)
Lemma nothing_begins_after pol max w0 es h m es1 h1 m1 es2 h2 m2 x : down pol max w0 es h m -> Forall typed_uevent es1 -> userver_run pol h es1 = Ret (h1, m1) ->
  Forall typed_uevent es2 -> userver_run pol h1 es2 = Ret (h2, m2) -> in_progress h2 x -> in_progress h1 x.
Proof.
  intros D T1 R1 T2 R2 I2. pose proof D as [H IA Q ST MX]. destruct (shutdown_done _ _ _ _ _ _ _ _ H IA Q ST MX) as [CL AFTER].
  assert (R12 : userver_run pol h (es1 ++ es2) = Ret (h2, m1 ++ m2)) by (rewrite urun_app, R1; cbn [obind]; rewrite R2; reflexivity).
  destruct (AFTER _ _ _ (proj2 (Forall_app _ _ _) (conj T1 T2)) R12) as (TO & _ & NC).
  pose proof (history_extend _ _ _ _ _ _ _ _ _ _ _ H T1 R1) as H1. pose proof (history_extend _ _ _ _ _ _ _ _ _ _ _ H1 T2 R2) as H2.
  destruct (server_parts _ _ _ _ _ _ _ _ H1) as (_ & _ & RL1 & _). destruct (server_parts _ _ _ _ _ _ _ _ H2) as (_ & _ & RL2 & _).
  pose proof (userver_run_done on_request on_shutdown pol es1 h h1 m1 (sd_inv _ _ _ _ _ _ (history_done _ _ _ _ _ _ _ _ H)) R1) as D1.
  pose proof (userver_run_done on_request on_shutdown pol es2 h1 h2 m2 (sd_inv _ _ _ _ _ _ (history_done _ _ _ _ _ _ _ _ H1)) R2) as D2.
  assert (CONN : forall c v2, us_conns h2 c = Some v2 -> exists v, us_conns h1 c = Some v /\ incl (read_ids v2) (read_ids v) /\ incl (write_ids v2) (write_ids v)).
  { intros c v2 C2. destruct (us_conns h c) as [v0|] eqn:C0; [|rewrite (proj2 (NC c) C0) in C2; discriminate].
    pose proof (tr_grows _ _ _ _ _ _ (sd_turn _ _ _ _ _ _ D1) c) as G1. pose proof (tr_peer _ _ _ _ _ _ (sd_turn _ _ _ _ _ _ D1) c) as TP1.
    pose proof (tr_grows _ _ _ _ _ _ (sd_turn _ _ _ _ _ _ D2) c) as G2. pose proof (tr_peer _ _ _ _ _ _ (sd_turn _ _ _ _ _ _ D2) c) as TP2.
    unfold tracks_peer, conn_of in TP1, TP2. rewrite C0 in G1, TP1. destruct (us_conns h1 c) as [v|] eqn:C1; [|destruct G1]. rewrite C2 in G2, TP2. exists v. split; [reflexivity|].
    pose proof (responses_sent _ _ _ _ _ _ _ _ c H) as RS. rewrite C0 in RS. pose proof (responses_sent _ _ _ _ _ _ _ _ c H1) as RS1. rewrite C1 in RS1.
    destruct (ids_run _ _ _ _ TP1 (proj1 RS) (CL c v0 C0) G1) as (O1 & _). exact (proj2 (ids_run _ _ _ _ TP2 (proj1 RS1) O1 G2)). }
  destruct x as [c|c r|c w]; cbn [in_progress] in *.
  - pose proof (tr_listen _ _ _ _ _ _ (sd_turn _ _ _ _ _ _ D2)) as TL. destruct (down_acceptor _ _ _ _ _ _ D) as [SD|Z].
    + assert (SD1 : In ShutDown (listen_outs (m ++ m1))) by (rewrite listen_outs_app; apply in_or_app; auto). exact (proj2 (down_run _ _ _ _ (shut_flag _ _ _ _ RL1 SD1) TL) c I2).
    + assert (Z2 : starts_of (listen_ins ((m ++ m1) ++ m2)) = 0%nat).
      { pose proof (userver_run_done on_request on_shutdown pol _ h h2 _ (sd_inv _ _ _ _ _ _ (history_done _ _ _ _ _ _ _ _ H)) R12) as D12.
        rewrite <- app_assoc, listen_ins_app, starts_prefix, Z. rewrite (starts_calls (listen_ins (m1 ++ m2))). rewrite (proj1 (sd_wired _ _ _ _ _ _ D12)), TO. reflexivity. }
      destruct (never_started _ _ _ _ RL2 Z2) as (_ & X & _). rewrite X in I2. destruct I2.
  - destruct I2 as (v2 & C2 & I2). destruct (CONN c v2 C2) as (v & C & A & _). exists v. split; [exact C|]. exact (A _ I2).
  - destruct I2 as (v2 & C2 & I2). destruct (CONN c v2 C2) as (v & C & _ & A). exists v. split; [exact C|]. exact (A _ I2).
Qed.

Theorem nothing_begins pol max w0 es h m es2 h2 m2 x : down pol max w0 es h m -> Forall typed_uevent es2 -> userver_run pol h es2 = Ret (h2, m2) ->
  in_progress h2 x -> in_progress h x.
Proof. intros D. exact (nothing_begins_after _ _ _ _ _ _ [] h [] es2 h2 m2 x D (Forall_nil _) eq_refl). Qed.

Lemma run_single pol h e h' m : userver_step pol h e = Ret (h', m) -> userver_run pol h [e] = Ret (h', m).
Proof. intros E. cbn [ServerTcp.userver_run]. rewrite E. cbn [obind]. rewrite app_nil_r. reflexivity. Qed.

Lemma failing_outputs pol h c pre : alive h -> Forall quiet_output pre ->
  exists h' m, peer_outputs on_request on_shutdown pol h c (pre ++ [VFailed; VRemoved]) = Ret (h', m).
Proof.
  intros AL P. rewrite (peer_outputs_app _ _ _ c _ pre _ P). cbn [ServerTcp.peer_outputs].
  destruct (error_total on_request on_shutdown pol h (N.of_nat c) AL) as (h2 & m2 & -> & A2). cbn [obind].
  destruct (fail_total on_request on_shutdown pol h2 c A2) as (h3 & m3 & -> & _). cbn [obind]. eauto.
Qed.

(** An operation that fails is over. *)
Theorem failed_over pol max w0 es h m x e : down pol max w0 es h m -> in_progress h x -> fails x e ->
  typed_uevent e -> exists h' m', userver_step pol h e = Ret (h', m') /\ ~ in_progress h' x.
Proof.
  intros D I F T. pose proof D as [H IA Q ST MX]. destruct (shutdown_done _ _ _ _ _ _ _ _ H IA Q ST MX) as [CL _].
  pose proof (sd_inv _ _ _ _ _ _ (history_done _ _ _ _ _ _ _ _ H)) as U. pose proof (ui_linked _ U) as L. pose proof (linked_alive _ L) as AL.
  assert (PEER : forall c v ev v' pre, us_conns h c = Some v -> completion ev -> vconn_step v ev = Ret (v', pre ++ [VFailed; VRemoved]) -> Forall quiet_output pre ->
    exists h' m', peer_turn on_request on_shutdown pol h c ev = Ret (h', m') /\
      forall v2, us_conns h' c = Some v2 -> incl (read_ids v2) (read_ids v') /\ incl (write_ids v2) (write_ids v')).
  { intros c v ev v' pre C CE S P. pose proof (AL c v C) as SH. destruct (completion_shape _ _ _ _ S CE SH) as (S1 & _).
    destruct (failing_outputs pol (with_conn h c v') c pre (alive_set h c v' AL S1) P) as (h' & m' & PO).
    assert (E : peer_turn on_request on_shutdown pol h c ev = Ret (h', PeerIn c ev :: m')).
    { unfold ServerTcp.peer_turn. rewrite C, S. cbn [obind]. rewrite PO. reflexivity. }
    exists h', (PeerIn c ev :: m'). split; [exact E|]. intros v2 C2. pose proof (sd_turn _ _ _ _ _ _ (peer_turn_step _ _ _ _ _ _ _ _ U CE E)) as TT.
    pose proof (tr_grows _ _ _ _ _ _ TT c) as G. pose proof (tr_peer _ _ _ _ _ _ TT c) as TP. unfold tracks_peer, conn_of in TP. rewrite C2, C in G, TP.
    assert (PI : peer_ins c (PeerIn c ev :: m') = ev :: peer_ins c m') by (cbn [peer_ins flat_map]; rewrite Nat.eqb_refl; reflexivity).
    rewrite PI in G, TP. cbn in G. inversion_clear G as [|? ? G1 G2]. apply vrun_cons in TP as (v1 & o1 & o2 & S' & RR & _). rewrite S in S'. injection S' as <- <-.
    pose proof (responses_sent _ _ _ _ _ _ _ _ c H) as RS. rewrite C in RS. destruct (kept_step _ _ _ _ S (proj1 RS) G1) as (K1 & KA & _). destruct (KA (CL c v C)) as [O1 _].
    exact (proj2 (ids_run _ _ _ _ RR K1 O1 G2)). }
  destruct x as [c|c r|c w]; cbn [in_progress] in I; destruct e as [a| |d ok buf|d r' y|d w' n|d w' ok]; try (destruct F; fail); cbn [fails] in F.
  - destruct F as [-> ->]. cbn [ServerTcp.userver_step]. destruct (down_acceptor _ _ _ _ _ _ D) as [SD|Z].
    + destruct (server_parts _ _ _ _ _ _ _ _ H) as (_ & _ & RL & _). pose proof (shut_flag _ _ _ _ RL SD) as SH.
      assert (X : exists l' os, aserver_step (us_listener h) (AAccept c false) = Ret (l', os) /\ ~ In c (as_pending l')).
      { cbn [aserver_step]. rewrite (proj2 (member_in c _) I). unfold handle_accept. cbn [as_shutdown]. rewrite SH. do 2 eexists. split; [reflexivity|]. cbn. intros J. apply in_delete in J. apply (proj2 J). reflexivity. }
      destruct X as (l' & os & X & NI). destruct (listener_turn_total on_request on_shutdown pol h (AAccept c false) buf l' os AL X) as (h' & m' & E & _). exists h', m'. split; [exact E|].
      destruct (listener_turn_inv _ _ _ _ _ _ _ _ (linked_linked_pre h (AAccept c false) Logic.I L) (ui_numbered _ U) E) as (l2 & os2 & X2 & LT). rewrite X in X2. injection X2 as <- <-.
      cbn [in_progress]. rewrite (lt_state _ _ _ _ _ _ _ _ _ _ LT). exact NI.
    + destruct (server_parts _ _ _ _ _ _ _ _ H) as (_ & _ & RL & _). destruct (never_started _ _ _ _ RL Z) as (_ & X & _). rewrite X in I. destruct I.
  - destruct F as (-> & -> & ->). destruct I as (v & C & I). destruct (read_over v r (AL c v C) I) as (v' & S & NI).
    destruct (PEER c v (VRead r RError) v' [] C Logic.I S (Forall_nil _)) as (h' & m' & E & INC). exists h', m'. split; [exact E|].
    intros (v2 & C2 & I2). apply NI. exact (proj1 (INC v2 C2) _ I2).
  - destruct F as (-> & -> & ->). destruct I as (v & C & I). destruct (write_over v w (AL c v C) I) as (v' & S & NI).
    destruct (PEER c v (VWritten w false) v' [VWrite (WFailed w)] C Logic.I S) as (h' & m' & E & INC); [repeat constructor|]. exists h', m'. split; [exact E|].
    intros (v2 & C2 & I2). apply NI. exact (proj2 (INC v2 C2) _ I2).
Qed.

Lemma nat_dec_in (x : nat) l : In x l \/ ~ In x l.
Proof. destruct (in_dec Nat.eq_dec x l); auto. Qed.

Lemma in_progress_dec h x : in_progress h x \/ ~ in_progress h x.
Proof.
  destruct x as [c|c r|c w]; cbn [in_progress]; [apply nat_dec_in| |]; destruct (us_conns h c) as [v|]; try (right; intros (v & E & _); discriminate).
  - destruct (nat_dec_in r (map fst (vn_reads v))); [left; exists v; auto|right; intros (v' & E & I); injection E as <-; contradiction].
  - destruct (nat_dec_in w (map w_id (wr_ops (vn_writer v)))); [left; exists v; auto|right; intros (v' & E & I); injection E as <-; contradiction].
Qed.

(** The operations in progress, of connections that were numbered. *)
Definition operations h : list operation :=
  map OpAccept (as_pending (us_listener h)) ++
  flat_map (fun c => match us_conns h c with Some v => map (OpRead c) (read_ids v) ++ map (OpWrite c) (write_ids v) | None => [] end) (as_active (us_listener h)).

Lemma all_operations pol max w0 es h m x : server_history pol max w0 es h m -> in_progress h x -> In x (operations h).
Proof.
  intros H I. pose proof (ui_linked _ (sd_inv _ _ _ _ _ _ (history_done _ _ _ _ _ _ _ _ H))) as L. apply in_or_app.
  assert (ACT : forall c v, us_conns h c = Some v -> In c (as_active (us_listener h))).
  { intros c v C. apply member_in. destruct (linked_some h c v L C) as (_ & _ & _ & A). exact A. }
  destruct x as [c|c r|c w]; [left; apply in_map; exact I| |]; destruct I as (v & C & I); right; apply in_flat_map; exists c; (split; [eauto|]); rewrite C; apply in_or_app; [left|right]; apply in_map; exact I.
Qed.

Lemma down_extend pol max w0 es h m es2 h2 m2 : down pol max w0 es h m -> Forall typed_uevent es2 -> userver_run pol h es2 = Ret (h2, m2) -> us_order h2 = [] ->
  down pol max w0 (es ++ es2) h2 (m ++ m2).
Proof.
  intros [H IA Q ST MX] T2 R2 Q2. pose proof (history_extend _ _ _ _ _ _ _ _ _ _ _ H T2 R2) as H2. split; auto; [apply in_or_app; auto|].
  destruct (shutdown_done _ _ _ _ _ _ _ _ H IA Q ST MX) as [_ AFTER]. destruct (AFTER _ _ _ T2 R2) as (TO & _).
  pose proof (userver_run_done on_request on_shutdown pol es2 h h2 m2 (sd_inv _ _ _ _ _ _ (history_done _ _ _ _ _ _ _ _ H)) R2) as D2.
  rewrite listen_ins_app, starts_prefix, (starts_calls (listen_ins m2)), (proj1 (sd_wired _ _ _ _ _ _ D2)), TO. cbn. lia.
Qed.

Lemma history_run pol max w0 es es2 h m h2 m2 : server_history pol max w0 es h m -> server_history pol max w0 (es ++ es2) h2 (m ++ m2) -> userver_run pol h es2 = Ret (h2, m2).
Proof.
  intros [_ R] [_ R2]. rewrite urun_app, R in R2. cbn [obind] in R2. ob R2. injection R2 as <- E. apply app_inv_head in E as ->. reflexivity.
Qed.

Lemma ends_within pol max w0 l : forall es h m, down pol max w0 es h m -> (forall x, in_progress h x -> In x l) ->
  exists es2 h2 m2, Forall (fun e => e = URun \/ exists x, fails x e) es2 /\ Forall typed_uevent es2 /\ userver_run pol h es2 = Ret (h2, m2) /\ at_end h2.
Proof.
  induction l as [|x l IH]; intros es h m D A.
  - exists [], h, []. repeat split; try constructor. exact (dn_idle _ _ _ _ _ _ D). exact A.
  - destruct (in_progress_dec h x) as [P|P].
    2:{ apply (IH es h m D). intros y I. destruct (A y I) as [->|J]; [contradiction|exact J]. }
    destruct (failure_fails x) as [F T]. destruct (failed_over _ _ _ _ _ _ _ _ D P F T) as (h1 & m1 & E & NP). apply run_single in E.
    pose proof (history_extend _ _ _ _ _ _ _ _ _ _ _ (dn_history _ _ _ _ _ _ D) (Forall_cons _ T (Forall_nil _)) E) as H1.
    destruct (strand_drains _ _ _ _ _ _ _ _ H1) as (n & h2 & m2 & H2 & Q2). pose proof (history_run _ _ _ _ _ _ _ _ _ H1 H2) as R2.
    assert (R12 : userver_run pol h ([failure x] ++ repeat URun n) = Ret (h2, m1 ++ m2)) by (rewrite urun_app, E; cbn [obind]; rewrite R2; reflexivity).
    assert (T12 : Forall typed_uevent ([failure x] ++ repeat URun n)) by (apply Forall_app; split; [constructor; auto|apply repeat_urun]).
    pose proof (down_extend _ _ _ _ _ _ _ _ _ D T12 R12 Q2) as D2.
    destruct (IH _ _ _ D2) as (es3 & h3 & m3 & F3 & T3 & R3 & E3).
    { intros y I. pose proof (nothing_begins _ _ _ _ _ _ _ _ _ y D T12 R12 I) as J. destruct (A y J) as [<-|K]; [|exact K]. exfalso. apply NP.
      exact (nothing_begins_after _ _ _ _ _ _ _ _ _ _ _ _ x D (Forall_cons _ T (Forall_nil _)) E (repeat_urun n) R2 I). }
    exists (([failure x] ++ repeat URun n) ++ es3), h3, ((m1 ++ m2) ++ m3). split; [|split; [|split]].
    + apply Forall_app. split; [|exact F3]. apply Forall_app. split; [constructor; [right; eauto|constructor]|]. apply Forall_forall. intros y I. apply repeat_spec in I. auto.
    + apply Forall_app. auto.
    + rewrite urun_app, R12. cbn [obind]. rewrite R3. reflexivity.
    + exact E3.
Qed.
Lemma comes_to_end pol max w0 es h m : down pol max w0 es h m ->
  exists es2 h2 m2, Forall (fun e => e = URun \/ exists x, fails x e) es2 /\ Forall typed_uevent es2 /\ userver_run pol h es2 = Ret (h2, m2) /\ at_end h2.
Proof.
  intros D. apply (ends_within pol max w0 (operations h) es h m D). intros x. exact (all_operations _ _ _ _ _ _ x (dn_history _ _ _ _ _ _ D)).
Qed.
(** ** In terms of the history *)
Theorem begins_nothing pol max w0 es h m es2 h2 m2 x : server_history pol max w0 es h m -> In (UApi ApiShutdown) es -> us_order h = [] ->
  (starts_of (listen_ins m) <= 1)%nat -> max < 2 ^ 32 - 1 -> Forall typed_uevent es2 -> userver_run pol h es2 = Ret (h2, m2) ->
  in_progress h2 x -> in_progress h x.
Proof. intros. eapply (nothing_begins pol max w0 es h m es2); [constructor|..]; eassumption. Qed.

Theorem failure_ends pol max w0 es h m x e : server_history pol max w0 es h m -> In (UApi ApiShutdown) es -> us_order h = [] ->
  (starts_of (listen_ins m) <= 1)%nat -> max < 2 ^ 32 - 1 -> in_progress h x -> fails x e -> typed_uevent e ->
  exists h' m', userver_step pol h e = Ret (h', m') /\ ~ in_progress h' x.
Proof. intros. eapply (failed_over pol max w0 es h m x); [constructor|..]; eassumption. Qed.

Theorem end_comes pol max w0 es h m : server_history pol max w0 es h m -> In (UApi ApiShutdown) es -> us_order h = [] ->
  (starts_of (listen_ins m) <= 1)%nat -> max < 2 ^ 32 - 1 ->
  exists es2 h2 m2, Forall (fun e => e = URun \/ exists x, fails x e) es2 /\ userver_run pol h es2 = Ret (h2, m2) /\ at_end h2 /\ forall o, ~ remains h2 nothing o.
Proof.
  intros H A Q ST MX. destruct (comes_to_end pol max w0 es h m) as (es2 & h2 & m2 & F & T & R & E); [split; assumption|]. exists es2, h2, m2.
  split; [exact F|]. split; [exact R|]. split; [exact E|]. intros o X. destruct (end_reached _ _ _ _ _ _ _ _ _ _ (history_extend _ _ _ _ _ _ _ _ _ _ _ H T R) E X) as (a & [] & _).
Qed.
End End.
