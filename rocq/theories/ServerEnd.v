(** Everything that can happen after the shutdown of a server channel comes to an end. *)
From Verif Require Import Prelude Ser4 Messages Mbap SpecPdu SpecMbap Server SpecServer Listener SpecListener AsyncWrite ServerConn SpecConn ServerTcp SpecServerTcp.
From Verif Require Import MbapFacts MbapLemmas ServerFacts ServerLemmas ListenerFacts ListenerOnce ListenerLemmas WriteFacts ConnFacts ServerConnFacts ServerConnMore.
From Verif Require Import ServerTcpTrack ServerTcpLink ServerTcpTurns ServerTcpSteps ServerTcpFacts ServerTcpLemmas ServerTcpTheorems ServerTcpTotal.
From Verif Require Import ServerLifetime SpecServerLifetime ServerLifetimeFacts ServerLifetimeEnd SpecServerEnd.
From Coq Require Import Lia.

Lemma filter_gone {A} (f : A -> nat) r l : ~ In r (map f (filter (fun x => negb (Nat.eqb (f x) r)) l)).
Proof. intros J. apply in_map_iff in J as (y & E & J). apply filter_In in J as [_ J]. rewrite E, Nat.eqb_refl in J. discriminate J. Qed.

Lemma read_gone v r x v' o g : vconn_step v (VRead r x) = Ret (v', o) -> find_vread (vn_reads v) r = Some g -> g = true \/ x = RError ->
  kept v -> vn_open v = false -> ~ In r (read_ids v').
Proof.
  intros E F G (S & _ & C) O. rewrite O in C. cbn [vconn_step] in E. rewrite F in E.
  assert (X : g || match x with RError => true | _ => false end = true) by (destruct G as [->| ->]; [reflexivity|apply Bool.orb_true_r]). rewrite X in E. clear X.
  unfold v_read_handler, v_begin_read, v_close in E. cbn [with_vreads vn_shutdown vn_connected] in E. rewrite S, C in E. unfold read_ids.
  destruct x; injection E as <- <-; cbn [with_vreads with_vqueue vn_reads]; apply (filter_gone fst).
Qed.

Lemma write_gone v w ok v' o : vconn_step v (VWritten w ok) = Ret (v', o) -> w_complete (vn_writer v) w ok <> None -> vn_shutdown v = false -> ~ In w (write_ids v').
Proof.
  intros E F S. cbn [vconn_step] in E. unfold v_write_handler, v_close in E. destruct (w_complete (vn_writer v) w ok) as [[c oc]|] eqn:X; [|congruence].
  apply complete_ids in X. unfold write_ids. cbn [with_vwriter vn_shutdown] in E. rewrite S in E. destruct ok; injection E as <- <-; cbn [with_vwriter with_vqueue vn_writer]; rewrite X; apply filter_gone.
Qed.

(** The operation that an event completes. *)
Definition completes (e : uevent) : option operation :=
  match e with UAccept c _ _ => Some (OpAccept c) | URead c r _ => Some (OpRead c r) | UWritten c w _ => Some (OpWrite c w) | _ => None end.

Section End.
Context {W : Type}.
Context (on_request : N -> W -> request -> W * expected response * list api).
Context (on_shutdown : N -> W -> W * list api).
Context (Hwt : well_typed on_request).
Implicit Types (h : tserver W) (m : list smark).
Notation server_history := (server_history on_request on_shutdown).
Notation userver_step := (userver_step on_request on_shutdown).
Notation userver_run := (userver_run on_request on_shutdown).

(** After the shutdown [es1] happened. *)
Definition after pol max w0 es h0 m0 es1 h m1 : Prop :=
  down on_request on_shutdown pol max w0 es h0 m0 /\ Forall typed_uevent es1 /\ userver_run pol h0 es1 = Ret (h, m1).

Lemma after_history pol max w0 es h0 m0 es1 h m1 : after pol max w0 es h0 m0 es1 h m1 -> server_history pol max w0 (es ++ es1) h (m0 ++ m1).
Proof. intros (D & T & R). eapply history_extend; eauto using dn_history. Qed.

Lemma after_step pol max w0 es h0 m0 es1 h m1 e h' m' : after pol max w0 es h0 m0 es1 h m1 -> typed_uevent e -> userver_step pol h e = Ret (h', m') ->
  after pol max w0 es h0 m0 (es1 ++ [e]) h' (m1 ++ m').
Proof.
  intros (D & T & R) Te E. split; [exact D|]. split; [apply Forall_app; auto|]. rewrite urun_app, R. cbn [obind]. rewrite (run_single _ _ _ _ _ _ _ E). reflexivity.
Qed.

Lemma after_shut pol max w0 es h0 m0 es1 h m1 : after pol max w0 es h0 m0 es1 h m1 -> sv_shutdown (us_channel h) = true.
Proof.
  intros A. pose proof A as (D & T & R). pose proof (after_history _ _ _ _ _ _ _ _ _ A) as H. destruct D as [H0 IA Q ST MX].
  destruct (server_parts _ _ _ _ _ _ _ _ H0) as (_ & R0 & _). destruct (idle_strand _ _ _ _ _ _ _ _ H0 Q) as [_ SQ].
  assert (SH : sv_shutdown (us_channel h0) = true).
  { destruct (asked_run _ _ _ _ _ _ _ _ _ reg_ok_init R0 (or_intror (or_intror (api_in_tasks _ _ _ _ _ _ _ _ _ H0 IA)))) as [X|X]; [rewrite SQ in X; destruct X|exact X]. }
  pose proof (run_reg_ok _ _ _ _ _ _ _ _ _ reg_ok_init R0) as RO.
  pose proof (userver_run_done on_request on_shutdown pol es1 h0 h m1 (sd_inv _ _ _ _ _ _ (history_done _ _ _ _ _ _ _ _ H0)) R) as D1.
  pose proof (tr_task _ _ _ _ _ _ (sd_turn _ _ _ _ _ _ D1)) as TT. exact (proj1 (silent_after _ _ _ _ _ _ _ _ _ RO SH TT)).
Qed.

(** Every connection is closed. *)
Lemma after_closed pol max w0 es h0 m0 es1 h m1 c v : after pol max w0 es h0 m0 es1 h m1 -> us_conns h c = Some v ->
  kept v /\ vn_open v = false /\ Forall (fun o => w_aborted o = true) (wr_ops (vn_writer v)).
Proof.
  intros A C. pose proof A as (D & T & R). pose proof (after_history _ _ _ _ _ _ _ _ _ A) as H. destruct D as [H0 IA Q ST MX].
  destruct (shutdown_done _ _ _ _ _ _ _ _ H0 IA Q ST MX) as [CL AFTER]. destruct (AFTER _ _ _ T R) as (_ & _ & NC).
  destruct (us_conns h0 c) as [v0|] eqn:C0; [|rewrite (proj2 (NC c) C0) in C; discriminate].
  pose proof (userver_run_done on_request on_shutdown pol es1 h0 h m1 (sd_inv _ _ _ _ _ _ (history_done _ _ _ _ _ _ _ _ H0)) R) as D1.
  pose proof (tr_grows _ _ _ _ _ _ (sd_turn _ _ _ _ _ _ D1) c) as G1. pose proof (tr_peer _ _ _ _ _ _ (sd_turn _ _ _ _ _ _ D1) c) as TP1.
  unfold tracks_peer, conn_of in TP1. rewrite C0, C in *. pose proof (responses_sent _ _ _ _ _ _ _ _ c H0) as RS. rewrite C0 in RS.
  destruct (ids_run _ _ _ _ TP1 (proj1 RS) (CL c v0 C0) G1) as (O1 & _). pose proof (responses_sent _ _ _ _ _ _ _ _ c H) as RS1. rewrite C in RS1.
  split; [exact (proj1 RS1)|]. split; [exact O1|]. destruct (server_parts _ _ _ _ _ _ _ _ H) as (_ & _ & _ & RP). destruct (RP c) as [RC _]. rewrite C in RC.
  exact (closed_off_run _ _ _ _ RC ltac:(intro X; discriminate X) O1).
Qed.

Lemma after_acceptor pol max w0 es h0 m0 es1 h m1 c : after pol max w0 es h0 m0 es1 h m1 -> In c (as_pending (us_listener h)) -> as_shutdown (us_listener h) = true.
Proof.
  intros A I. pose proof A as (D & T & R). pose proof (after_history _ _ _ _ _ _ _ _ _ A) as H.
  destruct (down_acceptor _ _ _ _ _ _ _ _ D) as [SD|Z].
  - destruct (server_parts _ _ _ _ _ _ _ _ H) as (_ & _ & RL & _). apply (shut_flag _ _ _ _ RL). rewrite listen_outs_app. apply in_or_app. auto.
  - exfalso. pose proof (nothing_begins _ _ _ _ _ _ _ _ _ _ _ (OpAccept c) D T R I) as J. cbn [in_progress] in J.
    destruct (server_parts _ _ _ _ _ _ _ _ (dn_history _ _ _ _ _ _ _ _ D)) as (_ & _ & RL & _). destruct (never_started _ _ _ _ RL Z) as (_ & X & _). rewrite X in J. destruct J.
Qed.

(** What happens by itself is defined. *)
Lemma after_defined pol max w0 es h0 m0 es1 h m1 e : after pol max w0 es h0 m0 es1 h m1 -> typed_uevent e -> server_enabled h e ->
  exists h' m', userver_step pol h e = Ret (h', m').
Proof.
  intros A T En. pose proof (after_history _ _ _ _ _ _ _ _ _ A) as H. destruct (userver_step pol h e) as [[h' m']|] eqn:E; [eauto|]. exfalso.
  destruct (undefined_causes _ _ _ Hwt _ _ _ _ _ _ H T E) as [(c & ok & buf & -> & X)|(c & w & n & v & -> & C & X)].
  - cbn [server_enabled] in En. cbn [aserver_step] in X. rewrite (proj2 (member_in c _) En) in X. unfold handle_accept in X. cbn [as_shutdown] in X.
    rewrite (after_acceptor _ _ _ _ _ _ _ _ _ _ A En) in X. discriminate X.
  - destruct (after_closed _ _ _ _ _ _ _ _ _ _ _ A C) as (_ & _ & AB). cbn [vconn_step] in X. rewrite (aborted_transfer _ _ _ AB) in X. discriminate X.
Qed.

(** A completion is the end of its operation. *)
Lemma after_completed pol max w0 es h0 m0 es1 h m1 e h' m' x : after pol max w0 es h0 m0 es1 h m1 -> server_enabled h e ->
  userver_step pol h e = Ret (h', m') -> completes e = Some x -> in_progress h x /\ ~ in_progress h' x.
Proof.
  intros A En E X. pose proof (after_history _ _ _ _ _ _ _ _ _ A) as H.
  pose proof (sd_inv _ _ _ _ _ _ (history_done _ _ _ _ _ _ _ _ H)) as U. pose proof (ui_linked _ U) as L. pose proof (linked_alive _ L) as AL.
  assert (PEER : forall c v ev, us_conns h c = Some v -> completion ev -> peer_turn on_request on_shutdown pol h c ev = Ret (h', m') ->
    exists v' o, vconn_step v ev = Ret (v', o) /\ forall v2, us_conns h' c = Some v2 -> incl (read_ids v2) (read_ids v') /\ incl (write_ids v2) (write_ids v')).
  { intros c v ev C CE E'. pose proof (sd_turn _ _ _ _ _ _ (peer_turn_step _ _ _ _ _ _ _ _ U CE E')) as TT.
    unfold ServerTcp.peer_turn in E'. rewrite C in E'. destruct (vconn_step v ev) as [[v' o]|] eqn:S; cbn [obind] in E'; [|discriminate E'].
    exists v', o. split; [reflexivity|]. intros v2 C2. pose proof (tr_grows _ _ _ _ _ _ TT c) as G. pose proof (tr_peer _ _ _ _ _ _ TT c) as TP. unfold tracks_peer, conn_of in TP. rewrite C2, C in G, TP.
    destruct (ServerTcp.peer_outputs _ _ _ _ _ _) as [[h3 m3]|] in E'; cbn [obind] in E'; [|discriminate E']. injection E' as _ <-.
    assert (PI : peer_ins c (PeerIn c ev :: m3) = ev :: peer_ins c m3) by (cbn [peer_ins flat_map]; rewrite Nat.eqb_refl; reflexivity).
    rewrite PI in G, TP. cbn in G. inversion_clear G as [|? ? G1 G2]. apply vrun_cons in TP as (v1 & o1 & o2 & S' & RR & _). rewrite S in S'. injection S' as <- <-.
    destruct (after_closed _ _ _ _ _ _ _ _ _ _ _ A C) as (K & O & _). destruct (kept_step _ _ _ _ S K G1) as (K1 & KA & _). destruct (KA O) as [O1 _].
    exact (proj2 (ids_run _ _ _ _ RR K1 O1 G2)). }
  destruct e as [a| |c ok buf|c r y|c w n|c w ok]; try discriminate X; injection X as <-; cbn [server_enabled] in En; cbn [ServerTcp.userver_step] in E.
  - split; [exact En|]. assert (Y : exists l' os, aserver_step (us_listener h) (AAccept c ok) = Ret (l', os) /\ ~ In c (as_pending l')).
    { cbn [aserver_step]. rewrite (proj2 (member_in c _) En). unfold handle_accept. cbn [as_shutdown]. rewrite (after_acceptor _ _ _ _ _ _ _ _ _ _ A En). do 2 eexists. split; [reflexivity|].
      cbn. intros J. apply in_delete in J. apply (proj2 J). reflexivity. }
    destruct Y as (l' & os & Y & NI).
    destruct (listener_turn_inv _ _ _ _ _ _ _ _ (linked_linked_pre h (AAccept c ok) Logic.I L) (ui_numbered _ U) E) as (l2 & os2 & X2 & LT). rewrite Y in X2. injection X2 as <- <-.
    cbn [in_progress]. rewrite (lt_state _ _ _ _ _ _ _ _ _ _ LT). exact NI.
  - destruct En as (v & g & C & F & G). destruct (after_closed _ _ _ _ _ _ _ _ _ _ _ A C) as (K & O & _).
    destruct (PEER c v (VRead r y) C Logic.I E) as (v' & o & S & INC). split.
    + cbn [in_progress]. exists v. split; [exact C|]. clear - F. induction (vn_reads v) as [|[r' g'] l IH]; cbn in F; [discriminate|]. cbn.
      destruct (Nat.eqb_spec r' r); [left; assumption|right; auto].
    + intros (v2 & C2 & I2). exact (read_gone _ _ _ _ _ _ S F G K O (proj1 (INC v2 C2) _ I2)).
  - destruct En as (v & C & F). destruct (after_closed _ _ _ _ _ _ _ _ _ _ _ A C) as (K & O & _).
    destruct (PEER c v (VWritten w ok) C Logic.I E) as (v' & o & S & INC). split.
    + cbn [in_progress]. exists v. split; [exact C|]. unfold w_complete in F. destruct (find_op (wr_ops (vn_writer v)) w) as [x|] eqn:Y; [|destruct (F eq_refl)].
      clear - Y. induction (wr_ops (vn_writer v)) as [|z l IH]; cbn in Y; [discriminate|]. cbn. destruct (Nat.eqb_spec (w_id z) w); [left; assumption|right; auto].
    + intros (v2 & C2 & I2). exact (write_gone _ _ _ _ _ S F (proj1 K) (proj2 (INC v2 C2) _ I2)).
Qed.

(** How many of [l] are in progress. *)
Lemma busy_dec h x : {in_progress h x} + {~ in_progress h x}.
Proof.
  destruct x as [c|c r|c w]; cbn [in_progress]; [apply (in_dec Nat.eq_dec)| |]; destruct (us_conns h c) as [v|]; try (right; intros (v & E & _); discriminate).
  - destruct (in_dec Nat.eq_dec r (map fst (vn_reads v))); [left; exists v; auto|right; intros (v' & E & I); injection E as <-; contradiction].
  - destruct (in_dec Nat.eq_dec w (map w_id (wr_ops (vn_writer v)))); [left; exists v; auto|right; intros (v' & E & I); injection E as <-; contradiction].
Qed.
Definition busy h (l : list operation) : nat := List.length (filter (fun x => if busy_dec h x then true else false) l).

Lemma busy_le h h' l : (forall x, in_progress h' x -> in_progress h x) -> (busy h' l <= busy h l)%nat.
Proof.
  intros I. unfold busy. induction l as [|x l IH]; cbn [filter]; [lia|]. destruct (busy_dec h' x) as [P|P], (busy_dec h x) as [Q|Q]; cbn [List.length]; try lia. destruct (Q (I x P)).
Qed.
Lemma busy_lt h h' l x : (forall x, in_progress h' x -> in_progress h x) -> In x l -> in_progress h x -> ~ in_progress h' x -> (busy h' l < busy h l)%nat.
Proof.
  intros I. induction l as [|y l IH]; intros J P N; [destruct J|]. pose proof (busy_le h h' l I) as LE. unfold busy in *. cbn [filter]. destruct J as [->|J].
  - destruct (busy_dec h' x); [contradiction|]. destruct (busy_dec h x); [cbn [List.length]; lia|contradiction].
  - specialize (IH J P N). destruct (busy_dec h' y) as [P'|P'], (busy_dec h y) as [Q|Q]; cbn [List.length]; try lia. destruct (Q (I y P')).
Qed.

Lemma not_enabled pol max w0 es h m : server_history pol max w0 es h m -> (forall e, typed_uevent e -> ~ server_enabled h e) -> at_end h /\ forall o, ~ remains h nothing o.
Proof.
  intros H N. assert (AE : at_end h).
  { split; [destruct (us_order h) eqn:O; [reflexivity|destruct (N URun Logic.I); cbn; rewrite O; discriminate]|].
    intros x I. destruct (failure_fails x) as [F T]. destruct (N (failure x) T). destruct x as [c|c r|c w]; cbn [failure server_enabled in_progress] in *; [exact I| |].
    - destruct I as (v & C & I). apply find_vread_in in I. destruct (find_vread (vn_reads v) r) as [g|] eqn:E; [|congruence]. exists v, g. auto.
    - destruct I as (v & C & I). apply find_op_in in I. exists v. split; [exact C|]. unfold w_complete. destruct (find_op _ _); [discriminate|congruence]. }
  split; [exact AE|]. intros o X. destruct (end_reached _ _ _ _ _ _ _ _ _ _ H AE X) as (a & [] & _).
Qed.

Lemma after_ends pol max w0 es h0 m0 : forall n k h es1 m1, after pol max w0 es h0 m0 es1 h m1 -> (busy h (operations h0) < n)%nat -> (swork h < k)%nat ->
  server_ends on_request on_shutdown pol h.
Proof.
  induction n as [|n IHn]; [intros; lia|]. induction k as [|k IHk]; [intros; lia|]. intros h es1 m1 A B S. pose proof (after_history _ _ _ _ _ _ _ _ _ A) as H. constructor.
  - intros e T En. destruct (after_defined _ _ _ _ _ _ _ _ _ _ A T En) as (h' & m' & E). exists h', m'. split; [exact E|].
    pose proof (after_step _ _ _ _ _ _ _ _ _ _ _ _ A T E) as A'. pose proof A as (D & T1 & R1).
    assert (INC : forall x, in_progress h' x -> in_progress h x).
    { intros x. exact (nothing_begins_after _ _ _ _ _ _ _ _ _ _ _ _ _ _ x D T1 R1 (Forall_cons _ T (Forall_nil _)) (run_single _ _ _ _ _ _ _ E)). }
    destruct (completes e) as [x|] eqn:X.
    + destruct (after_completed _ _ _ _ _ _ _ _ _ _ _ _ _ A En E X) as [P NP].
      eapply IHn; [exact A'| |apply Nat.lt_succ_diag_r].
      assert (LT : (busy h' (operations h0) < busy h (operations h0))%nat); [|lia]. eapply busy_lt; eauto.
      apply (all_operations _ _ _ _ _ _ _ _ _ (dn_history _ _ _ _ _ _ _ _ D)). eapply (nothing_begins _ _ _ _ _ _ _ _ _ _ _ x D T1 R1). exact P.
    + destruct e as [a| |c ok buf|c r y|c w i|c w ok]; try discriminate X; cbn [server_enabled] in En.
      * destruct En.
      * destruct (server_parts _ _ _ _ _ _ _ _ H) as (_ & R & _). pose proof (run_reg_ok _ _ _ _ _ _ _ _ _ reg_ok_init R) as RO.
        destruct (urun_progress on_request on_shutdown pol h (sd_inv _ _ _ _ _ _ (history_done _ _ _ _ _ _ _ _ H)) RO En) as (h2 & m2 & E2 & _ & _ & P).
        rewrite E in E2. injection E2 as <- <-. destruct P as [[_ P]|[P _]]; [|rewrite (after_shut _ _ _ _ _ _ _ _ _ A) in P; discriminate P].
        eapply IHk; [exact A'| |lia]. pose proof (busy_le h h' (operations h0) INC). lia.
      * exfalso. destruct En as (v & o & C & F & _ & AB & _). destruct (after_closed _ _ _ _ _ _ _ _ _ _ _ A C) as (_ & _ & AA).
        rewrite Forall_forall in AA. rewrite (AA o) in AB; [discriminate AB|].
        clear - F. induction (wr_ops (vn_writer v)) as [|z l IH]; cbn in F; [discriminate|]. destruct (Nat.eqb (w_id z) w); [injection F as ->; left; reflexivity|right; auto].
  - exact (not_enabled _ _ _ _ _ _ H).
Qed.

Theorem shutdown_ends pol max w0 es h m : server_history pol max w0 es h m -> In (UApi ApiShutdown) es -> us_order h = [] ->
  (starts_of (listen_ins m) <= 1)%nat -> max < 2 ^ 32 - 1 -> server_ends on_request on_shutdown pol h.
Proof.
  intros H I Q ST MX. eapply (after_ends pol max w0 es h m _ _ h [] []); [|apply Nat.lt_succ_diag_r|apply Nat.lt_succ_diag_r].
  split; [split; assumption|]. split; [constructor|reflexivity].
Qed.
End End.
