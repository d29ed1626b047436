(** A server channel over its acceptor and its connections: what it does to its peers. *)
From Verif Require Import Prelude Ser4 Messages Mbap SpecPdu SpecMbap Server SpecServer Listener SpecListener AsyncWrite ServerConn SpecConn ServerTcp SpecServerTcp.
From Verif Require Import MbapFacts MbapLemmas ServerFacts ServerLemmas ListenerFacts ListenerOnce ListenerLemmas WriteFacts ConnFacts ServerConnFacts ServerConnMore.
From Verif Require Import ServerTcpTrack ServerTcpLink ServerTcpTurns ServerTcpSteps ServerTcpFacts ServerTcpLemmas.
From Coq Require Import Lia.

(** ** A connection whose socket is closed *)
Definition closed_off (v : sconn) : Prop := vn_open v = false -> Forall (fun o => w_aborted o = true) (wr_ops (vn_writer v)).

Lemma closed_off_step v e v' o : vconn_step v e = Ret (v', o) -> closed_off v -> closed_off v'.
Proof.
  intros E C O'. destruct (vn_open v) eqn:O.
  - apply vstep_trans in E. destruct E; cbn [vmk vn_open vn_writer] in *; try congruence. apply aborted_abort.
  - apply vstep_trans in E. exact (proj2 (proj1 (voff_step _ _ _ _ (conj O (C O)) E))).
Qed.

Lemma closed_off_run es : forall v v' os, vconn_run v es = Ret (v', os) -> closed_off v -> closed_off v'.
Proof.
  induction es as [|e es IH]; intros v v' os E C; [injection E as <- <-; exact C|]. apply vrun_cons in E as (v1 & o1 & o2 & S & R & ->).
  eapply IH; [exact R|]. eapply closed_off_step; eauto.
Qed.

Lemma never_closed v e v' o : vtrans v e v' o -> vn_open v = false -> ~ In VSocketClosed o.
Proof.
  intros T O I. destruct T; cbn [vmk vn_open] in O; try discriminate O; first [apply in_map_iff in I as (x & I & _); discriminate I|cbn in I; intuition discriminate].
Qed.

Lemma off_step v e v' o : vconn_step v e = Ret (v', o) -> kept v -> voff v -> plain_event e -> kept v' /\ voff v' /\ Forall no_traffic o.
Proof.
  intros E K V P. destruct (kept_step _ _ _ _ E K P) as (K' & A & _). destruct (A (proj1 V)) as [_ S]. apply vstep_trans in E as T.
  destruct (voff_step _ _ _ _ V T) as [V' F]. split; [exact K'|]. split; [exact V'|].
  apply Forall_forall. intros x I. rewrite Forall_forall in F. specialize (F x I). destruct x as [w| | | | |]; try exact Logic.I.
  - destruct w; try exact Logic.I; [|exact (F Logic.I)]. apply in_split in I as (a & b & ->). rewrite vwrites_app, started_app in S.
    change (vwrites (VWrite (WStarted w data) :: b)) with (WStarted w data :: vwrites b) in S. destruct (started (vwrites a)); discriminate S.
  - exfalso. revert I. apply (never_closed _ _ _ _ T (proj1 V)).
Qed.

Lemma off_run es : forall v v' os, vconn_run v es = Ret (v', os) -> kept v -> voff v -> Forall plain_event es -> voff v' /\ Forall no_traffic os.
Proof.
  induction es as [|e es IH]; intros v v' os E K V P; [injection E as <- <-; split; [exact V|constructor]|].
  apply vrun_cons in E as (v1 & o1 & o2 & S & R & ->). inversion_clear P as [|? ? P1 P2]. destruct (off_step _ _ _ _ S K V P1) as (K1 & V1 & F1).
  destruct (IH _ _ _ R K1 V1 P2) as [V2 F2]. split; [exact V2|]. apply Forall_app. auto.
Qed.

(** ** A connection that failed closes *)
Definition closing_soon (v : sconn) : Prop := vn_open v = false \/ In VDoClose (vn_queue v).

Lemma failing_step v e v' o : vconn_step v e = Ret (v', o) -> kept v -> closing_soon v \/ In VFailed o -> closing_soon v'.
Proof.
  intros E (K1 & K2 & _) C. apply vstep_trans in E. destruct E; cbn [vmk vn_shutdown vn_queue] in *; unfold closing_soon in *; cbn [vmk vn_open vn_queue] in *;
    try discriminate; try (left; reflexivity); try (right; apply in_or_app; right; left; reflexivity);
    try (destruct C as [C|[]]; exact C); try (destruct C as [C|C]; [exact C|]; exfalso; first [apply in_map_iff in C as (x & C & _); discriminate C|cbn in C; intuition discriminate]).
  - destruct C as [[C|C]|[]]; [left; exact C|right; apply in_or_app; left; exact C].
  - exfalso. apply K2. left. reflexivity.
Qed.

Lemma failing_run es : forall v v' os, vconn_run v es = Ret (v', os) -> kept v -> Forall plain_event es -> closing_soon v \/ In VFailed os -> closing_soon v'.
Proof.
  induction es as [|e es IH]; intros v v' os E K P C; [injection E as <- <-; destruct C as [C|[]]; exact C|].
  apply vrun_cons in E as (v1 & o1 & o2 & S & R & ->). inversion_clear P as [|? ? P1 P2]. pose proof (proj1 (kept_step _ _ _ _ S K P1)) as K1.
  eapply IH; [exact R|exact K1|exact P2|]. destruct C as [C|C]; [left; eapply failing_step; eauto|]. apply in_app_or in C as [C|C]; [left; eapply failing_step; eauto|auto].
Qed.

Lemma accepted_failing k rest v os : Forall plain_event rest -> vconn_run sconn_init (repeat VClose k ++ VStart :: rest) = Ret (v, os) -> In VFailed os -> closing_soon v.
Proof.
  intros P E I. assert (S0 : vconn_run sconn_init (repeat VClose k ++ [VStart]) = Ret (vmk false true true writer_init [(0%nat, true)] (repeat VDoClose k) 1, [])).
  { eapply (vrun_app _ _ _ _ []); [apply closes_run; reflexivity|]. reflexivity. }
  replace (repeat VClose k ++ VStart :: rest) with ((repeat VClose k ++ [VStart]) ++ rest) in E by (rewrite <- app_assoc; reflexivity).
  destruct (vconn_run (vmk false true true writer_init [(0%nat, true)] (repeat VDoClose k) 1) rest) as [[v1 o1]|] eqn:R.
  - pose proof (vrun_app _ _ _ _ _ _ _ S0 R) as X. rewrite E in X. injection X as -> ->. eapply failing_run; [exact R| |exact P|right; exact I].
    repeat split. cbn. intro J. apply repeat_spec in J. discriminate.
  - exfalso. assert (X : forall a b s s1 o1, vconn_run s a = Ret (s1, o1) -> vconn_run s1 b = UB -> vconn_run s (a ++ b) = UB).
    { clear. induction a as [|e a IH]; intros b s s1 o1 A B; cbn [vconn_run app] in *; [injection A as <- <-; exact B|].
      ob A. ob A. cbn [obind]. injection A as <- <-. rewrite (IH _ _ _ _ F0 B). reflexivity. }
    rewrite (X _ _ _ _ _ S0 R) in E. discriminate.
Qed.

(** ** An acceptor that is never started *)
Lemma never_started max es s os : SpecListener.serves max es s os -> starts_of es = 0%nat ->
  as_list s = [] /\ as_pending s = [] /\ as_open s = [] /\ as_active s = [] /\ Forall (fun a => a = Shutdown) (as_queue s) /\ Forall (fun o => o = ShutDown) os.
Proof.
  apply (serves_ind max (fun es s os => starts_of es = 0%nat ->
    as_list s = [] /\ as_pending s = [] /\ as_open s = [] /\ as_active s = [] /\ Forall (fun a => a = Shutdown) (as_queue s) /\ Forall (fun o => o = ShutDown) os)).
  - intros _. cbn. repeat split; constructor.
  - clear. intros es e s os s' o H IH E Z. rewrite starts_app in Z. destruct IH as (A & B & C & D & Q & F); [lia|].
    destruct e as [| | |c ok|c]; cbn [aserver_step] in E.
    + unfold starts_of in Z. cbn in Z. lia.
    + injection E as <- <-. cbn [apost as_list as_pending as_open as_active as_queue]. rewrite app_nil_r. repeat split; auto. apply Forall_app. repeat constructor; auto.
    + destruct (as_queue s) as [|a q] eqn:AQ; [injection E as <- <-; rewrite app_nil_r, AQ; repeat split; auto|]. inversion_clear Q as [|? ? Q1 Q2]. subst a.
      injection E as <- <-. cbn [apost as_list as_pending as_open as_active as_queue]. rewrite A. cbn [map]. rewrite app_nil_r.
      repeat split; auto. apply Forall_app. repeat constructor; auto.
    + rewrite B in E. cbn in E. injection E as <- <-. rewrite app_nil_r. repeat split; auto.
    + rewrite D in E. cbn in E. injection E as <- <-. rewrite app_nil_r. repeat split; auto.
Qed.

Section Theorems.
Context {W : Type}.
Context (on_request : N -> W -> request -> W * expected response * list api).
Context (on_shutdown : N -> W -> W * list api).
Implicit Types (h : tserver W) (m : list smark).

Notation server_history := (server_history on_request on_shutdown).
Notation userver_step := (userver_step on_request on_shutdown).
Notation userver_run := (userver_run on_request on_shutdown).
Notation sstep := (server_step on_request on_shutdown).
Notation srun := (server_run on_request on_shutdown).

(** ** The stream received on a connection is served in order *)
Theorem stream_served (Hwt : well_typed on_request) pol max w0 es h m c chunks items tail : server_history pol max w0 es h m -> us_conns h c <> None ->
  heard (peer_outs c m) = map Chunk chunks -> framed (List.concat chunks) items tail ->
  exists vs, filter by_frame (task_outs m) = List.concat (map caused vs) /\ StronglySorted le (map at_event vs) /\
    Forall (fun v => in_history on_request on_shutdown pol server_init w0 (task_ins m) v /\ answered_once v) vs /\
    Forall2 got (filter deliverable (settled items tail)) (map frame_in (filter (on_conn (N.of_nat c)) vs)).
Proof.
  intros H NE HC FR. destruct (server_parts _ _ _ _ _ _ _ _ H) as (T & R & _). destruct (accepted_at _ _ _ _ _ _ _ _ _ H NE) as (es1 & es2 & buf & E & N1 & N2).
  destruct (proj2 (server_wired _ _ _ _ _ _ _ _ H) c) as (_ & HE & _). rewrite E in *. apply Forall_app in T as [T1 T2]. inversion_clear T2 as [|? ? T3 T4].
  destruct (accepted_services on_request on_shutdown Hwt pol (N.of_nat c) buf es2 T4 N2 T3 es1 server_init w0 (init_ok pol) T1 N1) as (s' & w' & os & vs & p' & R' & B & S & IH & M).
  rewrite R in R'. injection R' as _ _ <-.
  assert (OE : ops_on (N.of_nat c) es2 = map Chunk chunks).
  { rewrite <- HC, HE. unfold ops_on in *. rewrite flat_map_app, N1. reflexivity. }
  rewrite OE in M. destruct (delivery_settled pol _ chunks items tail (R_new pol buf T3) (ops_bytes _ _ _ T4 OE) FR) as (st' & outs & Ed & _ & Hm).
  rewrite Ed in M. injection M as _ M. exists vs. split; [exact B|]. split; [exact S|]. split.
  - eapply Forall_impl; [|exact IH]. intros v Hv. split; [exact Hv|]. exact (history_answered_once _ _ Hwt _ _ _ _ _ Hv).
  - rewrite <- M. eapply Forall2_impl; [|exact Hm]. intros a b. apply matches_got.
Qed.

(** ** When the strand is idle *)
Lemma idle_strand pol max w0 es h m : server_history pol max w0 es h m -> us_order h = [] -> as_queue (us_listener h) = [] /\ sv_queue (us_channel h) = [].
Proof.
  intros H Q. destruct (ui_ordered _ (sd_inv _ _ _ _ _ _ (history_done _ _ _ _ _ _ _ _ H))) as [A B]. rewrite Q in *. cbn in A, B.
  split; apply length_zero_iff_nil; symmetry; assumption.
Qed.

Lemma open_is_known pol max w0 es h m c v : server_history pol max w0 es h m -> us_conns h c = Some v -> vn_open v = member c (as_open (us_listener h)).
Proof. intros H C. destruct (linked_some h c v (ui_linked _ (sd_inv _ _ _ _ _ _ (history_done _ _ _ _ _ _ _ _ H))) C) as (_ & _ & X & _). exact X. Qed.

(** No more connections than allowed are open. *)
Theorem few_open pol max w0 es h m l : server_history pol max w0 es h m -> us_order h = [] -> (starts_of (listen_ins m) <= 1)%nat -> max < 2 ^ 32 - 1 ->
  NoDup l -> (forall c, In c l -> exists v, us_conns h c = Some v /\ vn_open v = true) -> N.of_nat (List.length l) <= max.
Proof.
  intros H Q ST MX ND O. destruct (server_parts _ _ _ _ _ _ _ _ H) as (_ & _ & RL & _). destruct (idle_strand _ _ _ _ _ _ H Q) as [LQ _].
  pose proof (serves_once _ _ _ _ RL ST MX) as OI. pose proof (o_limit _ _ _ OI) as LIM.
  assert (INC : incl l (live (listen_outs m))).
  { intros c I. destruct (O c I) as (v & C & V). apply (closed_when_quiet _ _ _ _ RL ST MX LQ). rewrite <- (o_open _ _ _ OI).
    rewrite (open_is_known _ _ _ _ _ _ _ _ H C) in V. apply member_in. exact V. }
  pose proof (NoDup_incl_length ND INC). lia.
Qed.

(** A connection that failed is closed. *)
Theorem failed_closes pol max w0 es h m c : server_history pol max w0 es h m -> us_order h = [] -> In VFailed (peer_outs c m) ->
  exists v, us_conns h c = Some v /\ vn_open v = false /\ In VSocketClosed (peer_outs c m).
Proof.
  intros H Q I. pose proof (responses_sent _ _ _ _ _ _ _ _ c H) as RS. destruct (server_parts _ _ _ _ _ _ _ _ H) as (_ & _ & _ & P). destruct (P c) as [R G].
  destruct (us_conns h c) as [v|] eqn:C; [|destruct RS as [_ RS]; rewrite RS in I; destruct I]. exists v. split; [reflexivity|].
  destruct G as (k & rest & E & N1 & N2). rewrite E in R.
  assert (PL : Forall plain_event rest) by (apply Forall_forall; intros e J; split; intro; subst e; contradiction).
  pose proof (accepted_failing _ _ _ _ PL R I) as CS.
  destruct (linked_some h c v (ui_linked _ (sd_inv _ _ _ _ _ _ (history_done _ _ _ _ _ _ _ _ H))) C) as (_ & VQ & _).
  destruct (idle_strand _ _ _ _ _ _ H Q) as [LQ _]. rewrite LQ in VQ. cbn in VQ.
  destruct CS as [CS|CS]; [|rewrite VQ in CS; destruct CS]. split; [exact CS|]. destruct RS as (_ & late & _ & [[X _]|[_ X]]); [congruence|exact X].
Qed.

(** ** Connections do not disturb each other *)
Definition only (c : nat) (x : smark) : Prop := match x with PeerIn d _ | PeerOut d _ => d = c | _ => True end.

Lemma only_views c d m : Forall (only c) m -> d <> c -> peer_ins d m = [] /\ peer_outs d m = [].
Proof.
  intros F NE. induction F as [|x m X _ [A B]]; [auto|]. destruct x; cbn in X; try (split; assumption); subst;
    (split; cbn; [|]; destruct (Nat.eqb_spec c d); try congruence; assumption).
Qed.

Lemma only_peer c e o : Forall (only c) (PeerIn c e :: map (PeerOut c) o).
Proof. constructor; [reflexivity|]. apply Forall_map, Forall_forall. reflexivity. Qed.

Lemma only_peer_step c h e h' m : peer_step h c e = Ret (h', m) -> Forall (only c) m.
Proof. unfold peer_step. destruct (us_conns h c); intros E; [|injection E as <- <-; constructor]. ob E. injection E as <- <-. apply only_peer. Qed.

Lemma only_fail pol c h h' m : listener_turn on_request on_shutdown pol h (AFail c) [] = Ret (h', m) -> Forall (only c) m.
Proof.
  intros E. unfold listener_turn in E. ob E. ob E. injection E as <- <-. constructor; [exact Logic.I|].
  assert (O : l = [] \/ l = [Removed c]).
  { cbn [aserver_step] in F. destruct (member c (as_active (us_listener h))); [|injection F as <- <-; auto]. unfold connection_error, remove_connection in F.
    destruct (member c _); injection F as <- <-; auto. }
  destruct O as [->| ->]; cbn [listener_outputs] in F0; [injection F0 as <- <-; constructor|].
  destruct (peer_step _ c VClose) as [[h1 m1]|] eqn:P; [|discriminate]. cbn [obind] in F0. injection F0 as <- <-. constructor; [exact Logic.I|].
  rewrite app_nil_r. eapply only_peer_step; eauto.
Qed.

Lemma only_channel pol c os : forall h h' m, Forall (frame_output (N.of_nat c)) os -> channel_outputs on_request on_shutdown pol h os = Ret (h', m) -> Forall (only c) m.
Proof.
  induction os as [|o os IH]; intros h h' m F E; cbn [channel_outputs] in E; [injection E as <- <-; constructor|]. inversion_clear F as [|? ? F1 F2].
  ob E. ob E. injection E as <- <-. constructor; [exact Logic.I|]. apply Forall_app. split; [|eapply IH; eauto].
  destruct o as [| | | |d f]; cbn in F1; try contradiction; try (injection F as <- <-; constructor; fail). subst d. rewrite Nat2N.id in F. eapply only_peer_step; eauto.
Qed.

Lemma only_task pol c h e h' m : match e with EReceive d _ | EConnError d => d = N.of_nat c | _ => False end ->
  task_turn on_request on_shutdown pol h e = Ret (h', m) -> Forall (only c) m.
Proof.
  intros K E. unfold task_turn in E. ob E. ob E. injection E as <- <-. constructor; [exact Logic.I|].
  pose proof (ce_outputs _ _ _ _ (sstep_effect _ _ _ _ _ _ _ _ _ F)) as O. eapply only_channel; [|exact F0].
  destruct e; try destruct K; [subst; exact O|rewrite O; constructor].
Qed.

Lemma only_peer_outputs pol c os : forall h h' m, peer_outputs on_request on_shutdown pol h c os = Ret (h', m) -> Forall (only c) m.
Proof.
  induction os as [|o os IH]; intros h h' m E; cbn [peer_outputs] in E; [injection E as <- <-; constructor|]. ob E. ob E. injection E as <- <-.
  constructor; [reflexivity|]. apply Forall_app. split; [|eapply IH; eauto].
  destruct o; try (injection F as <- <-; constructor); try (eapply only_fail; eauto; fail); eapply only_task; try exact F; reflexivity.
Qed.

Lemma only_peer_turn pol c h e h' m : peer_turn on_request on_shutdown pol h c e = Ret (h', m) -> Forall (only c) m.
Proof.
  intros E. unfold peer_turn in E. destruct (us_conns h c); [|injection E as <- <-; constructor]. ob E. ob E. injection E as <- <-.
  constructor; [reflexivity|]. eapply only_peer_outputs; eauto.
Qed.


Theorem isolated pol max w0 es h m e h' m' c d : server_history pol max w0 es h m -> of_peer c e -> userver_step pol h e = Ret (h', m') -> d <> c ->
  us_conns h' d = us_conns h d /\ peer_ins d m' = [] /\ peer_outs d m' = [].
Proof.
  intros H K E NE. assert (O : Forall (only c) m') by (destruct e; try destruct K; eapply only_peer_turn; eauto).
  destruct (only_views c d m' O NE) as [A B]. split; [|auto].
  pose proof (sd_turn _ _ _ _ _ _ (userver_step_done on_request on_shutdown pol h e h' m' (sd_inv _ _ _ _ _ _ (history_done _ _ _ _ _ _ _ _ H)) E)) as TU.
  pose proof (tr_peer _ _ _ _ _ _ TU d) as TP. pose proof (tr_grows _ _ _ _ _ _ TU d) as G. rewrite A in G. unfold tracks_peer in TP. rewrite A in TP. injection TP as TP _.
  unfold conn_of in TP. destruct (us_conns h d), (us_conns h' d); cbn in G; try contradiction; try congruence.
  destruct G as (k & rest & X & _). destruct k; discriminate X.
Qed.

(** ** Shutdown *)
Lemma started_step pol s w e s' w' os : reg_ok s -> sstep pol s w e = Ret (s', w', os) ->
  (sv_started s = true -> sv_started s' = true \/ In OStopListening os) /\ (In OListen os -> sv_started s' = true).
Proof.
  intros RO E.
  assert (FR : forall c, Forall (frame_output c) os -> ~ In OListen os) by (intros c F I; rewrite Forall_forall in F; exact (F _ I)).
  destruct e as [a| |c buf|c d|c]; cbn [server_step] in E.
  - injection E as <- <- <-. destruct (api_call_sbq s a) as (_ & X & _). rewrite X. split; [auto|intros []].
  - destruct (sv_queue s) as [|t q] eqn:Q; [injection E as <- <- <-; split; [auto|intros []]|]. 
    assert (RR : run_task on_shutdown (set_queue s q) w t = (s', w', os)) by congruence. clear E. destruct t as [| |u x]; cbn [run_task set_queue sv_shutdown sv_started sv_sessions sv_queue sv_conns] in RR.
    + destruct (sv_shutdown s) eqn:SH; injection RR as <- <- <-; cbn; split; auto; intros [].
    + match type of RR with context[shutdown_sessions on_shutdown ?a ?b ?l] => destruct (shutdown_sessions_spec on_shutdown l a b) as (s1 & w1 & E1 & Q1 & Q2 & _) end.
      rewrite E1 in RR. injection RR as <- <- <-. cbn [sv_started]. split.
      * intros X. right. rewrite X. left. reflexivity.
      * intros I. exfalso. apply in_app_or in I as [I|I]; [destruct (sv_started s); [destruct I as [I|[]]; discriminate I|destruct I]|]. apply in_map_iff in I as (y & I & _). discriminate I.
    + destruct (sv_shutdown s); injection RR as <- <- <-; cbn; split; auto; intros [].
  - injection E as <- <- <-. cbn. split; [auto|intros []].
  - destruct (sv_conns s c) as [p|]; [|injection E as <- <- <-; split; [auto|intros []]]. ob E.
    pose proof (on_messages_outputs _ _ _ _ _ _ _ _ E) as O. destruct (on_messages_sbq _ _ _ _ _ _ _ _ E) as ((_ & X & _) & _). cbn in X. rewrite X. split; [auto|].
    intros I. destruct (FR _ O I).
  - destruct (sv_conns s c); injection E as <- <- <-; cbn; split; auto; intros [].
Qed.

Lemma started_run pol es : forall s w s' w' os, reg_ok s -> srun pol s w es = Ret (s', w', os) ->
  sv_started s = true \/ In OListen os -> sv_started s' = true \/ In OStopListening os.
Proof.
  induction es as [|e es IH]; intros s w s' w' os RO E C; cbn [server_run] in E; [injection E as <- <- <-; destruct C as [C|[]]; auto|].
  ob E. ob E. injection E as <- <- <-. destruct (started_step _ _ _ _ _ _ _ RO F) as [A B]. pose proof (proj1 (step_cases _ _ _ _ _ _ _ _ _ RO F)) as RO1.
  destruct C as [C|C]; [|apply in_app_or in C as [C|C]].
  - destruct (A C) as [X|X]; [destruct (IH _ _ _ _ _ RO1 F0 (or_introl X)) as [Y|Y]; [auto|right; apply in_or_app; auto]|right; apply in_or_app; auto].
  - destruct (IH _ _ _ _ _ RO1 F0 (or_introl (B C))) as [Y|Y]; [auto|right; apply in_or_app; auto].
  - destruct (IH _ _ _ _ _ RO1 F0 (or_intror C)) as [Y|Y]; [auto|right; apply in_or_app; auto].
Qed.

Lemma asked_run pol es : forall s w s' w' os, reg_ok s -> srun pol s w es = Ret (s', w', os) ->
  In TaskShutdown (sv_queue s) \/ sv_shutdown s = true \/ In (EApi ApiShutdown) es -> In TaskShutdown (sv_queue s') \/ sv_shutdown s' = true.
Proof.
  induction es as [|e es IH]; intros s w s' w' os RO E C; cbn [server_run] in E; [injection E as <- <- <-; destruct C as [C|[C|[]]]; auto|].
  ob E. ob E. injection E as <- <- <-. destruct (step_cases _ _ _ _ _ _ _ _ _ RO F) as (RO1 & SH & _).
  apply (IH _ _ _ _ _ RO1 F0). destruct C as [C|[C|[C|C]]]; [|right; left; apply SH; exact C| |auto].
  - apply In_nth_error in C as [i C]. destruct (ServerLemmas.step_queue _ _ _ _ _ _ _ _ _ _ _ F C) as [[_ X]|[_ X]]; [left; eapply nth_error_In; eauto|].
    destruct i; [auto|left; eapply nth_error_In; eauto].
  - subst e. cbn [server_step] in F. injection F as <- _ _. left. cbn. apply in_or_app. right. left. reflexivity.
Qed.

Lemma api_in_tasks pol max w0 es h m a : server_history pol max w0 es h m -> In (UApi a) es -> In (EApi a) (task_ins m).
Proof.
  revert es h m. apply (history_snoc_ind on_request on_shutdown pol max w0 (fun es h m => In (UApi a) es -> In (EApi a) (task_ins m))); [intros []|].
  intros es h m e h' m' H IH T S D HX I. rewrite task_ins_app. apply in_or_app. apply in_app_or in I as [I|[->|[]]]; [left; exact (IH I)|right].
  cbn [ServerTcp.userver_step] in S. rewrite (task_turn_ins _ _ _ _ _ _ _ S). left. reflexivity.
Qed.

Lemma starts_calls l : starts_of l = starts_of (filter is_call l).
Proof. unfold starts_of. induction l as [|e l IH]; [reflexivity|]. destruct e; cbn [filter is_call]; cbn; auto. Qed.

Theorem acceptor_closes pol max w0 es h m : server_history pol max w0 es h m -> In (UApi ApiShutdown) es -> us_order h = [] ->
  starts_of (listen_ins m) <> 0%nat -> In ShutDown (listen_outs m).
Proof.
  intros H I Q NZ. destruct (server_parts _ _ _ _ _ _ _ _ H) as (_ & R & RL & _). destruct (idle_strand _ _ _ _ _ _ H Q) as [LQ SQ].
  pose proof (run_reg_ok _ _ _ _ _ _ _ _ _ reg_ok_init R) as RO.
  assert (SH : sv_shutdown (us_channel h) = true).
  { destruct (asked_run _ _ _ _ _ _ _ reg_ok_init R (or_intror (or_intror (api_in_tasks _ _ _ _ _ _ _ H I)))) as [X|X]; [rewrite SQ in X; destruct X|exact X]. }
  pose proof (server_wired _ _ _ _ _ _ _ _ H) as [WC _]. destruct (starts_of (listen_ins m)) eqn:Z; [congruence|].
  assert (L : In OListen (task_outs m)).
  { rewrite starts_calls, WC in Z. clear - Z. induction (task_outs m) as [|o l IH]; [discriminate Z|]. unfold acceptor_calls in Z. cbn [flat_map] in Z.
    destruct o; try (right; apply IH; exact Z). left. reflexivity. }
  destruct (started_run _ _ _ _ _ _ _ reg_ok_init R (or_intror L)) as [X|X]; [destruct (proj2 RO SH) as [Y _]; congruence|].
  assert (AS : In AShutdown (listen_ins m)).
  { apply (proj1 (filter_In is_call AShutdown (listen_ins m))). rewrite WC. unfold acceptor_calls. apply in_flat_map. exists OStopListening. split; [exact X|left; reflexivity]. }
  destruct (shutdown_posted _ _ _ _ RL AS) as [Y|Y]; [rewrite LQ in Y; destruct Y|exact Y].
Qed.

Theorem shutdown_done pol max w0 es h m : server_history pol max w0 es h m -> In (UApi ApiShutdown) es -> us_order h = [] ->
  (starts_of (listen_ins m) <= 1)%nat -> max < 2 ^ 32 - 1 ->
  (forall c v, us_conns h c = Some v -> vn_open v = false) /\
  forall es2 h2 m2, Forall typed_uevent es2 -> userver_run pol h es2 = Ret (h2, m2) ->
    task_outs m2 = [] /\
    (forall c, ~ In (Accepting c) (listen_outs m2) /\ ~ In (Accepted c) (listen_outs m2) /\ ~ In (Serving c) (listen_outs m2)) /\
    forall c, Forall no_traffic (peer_outs c m2) /\ (us_conns h c = None -> us_conns h2 c = None).
Proof.
  intros H I Q ST MX. destruct (server_parts _ _ _ _ _ _ _ _ H) as (_ & R & RL & RP). destruct (idle_strand _ _ _ _ _ _ H Q) as [LQ SQ].
  pose proof (run_reg_ok _ _ _ _ _ _ _ _ _ reg_ok_init R) as RO.
  assert (SH : sv_shutdown (us_channel h) = true).
  { destruct (asked_run _ _ _ _ _ _ _ reg_ok_init R (or_intror (or_intror (api_in_tasks _ _ _ _ _ _ _ H I)))) as [X|X]; [rewrite SQ in X; destruct X|exact X]. }
  pose proof (server_wired _ _ _ _ _ _ _ _ H) as [WC _].
  (* the acceptor has shut down, or was never started *)
  assert (CASES : In ShutDown (listen_outs m) \/ starts_of (listen_ins m) = 0%nat).
  { destruct (starts_of (listen_ins m)) eqn:Z; [auto|left]. apply (acceptor_closes _ _ _ _ _ _ H I); [assumption|congruence]. }
  assert (OP : as_open (us_listener h) = []).
  { destruct CASES as [SD|Z]; [|exact (proj1 (proj2 (proj2 (never_started _ _ _ _ RL Z))))]. pose proof (serves_once _ _ _ _ RL ST MX) as O. rewrite (o_open _ _ _ O).
    destruct (open_sockets (listen_outs m)) as [|c l] eqn:OP; [reflexivity|].
    assert (J : In c (live (listen_outs m))) by (apply (closed_when_quiet _ _ _ _ RL ST MX LQ); rewrite OP; left; reflexivity).
    rewrite (proj2 (o_down _ _ _ O (shut_flag _ _ _ _ RL SD))) in J. destruct J. }
  assert (CL : forall c v, us_conns h c = Some v -> vn_open v = false).
  { intros c v C. rewrite (open_is_known _ _ _ _ _ _ _ _ H C), OP. reflexivity. }
  split; [exact CL|]. intros es2 h2 m2 T2 R2.
  pose proof (history_extend _ _ _ _ _ _ _ _ _ _ _ H T2 R2) as H2. destruct (server_parts _ _ _ _ _ _ _ _ H2) as (_ & RR & RL2 & RP2).
  pose proof (userver_run_done on_request on_shutdown pol es2 h h2 m2 (sd_inv _ _ _ _ _ _ (history_done _ _ _ _ _ _ _ _ H)) R2) as D2.
  assert (TO : task_outs m2 = []).
  { pose proof (tr_task _ _ _ _ _ _ (sd_turn _ _ _ _ _ _ D2)) as TT. exact (proj2 (silent_after _ _ _ _ _ _ _ _ _ RO SH TT)). }
  assert (NA : forall c, ~ In (Accepting c) (listen_outs m2) /\ ~ In (Accepted c) (listen_outs m2) /\ ~ In (Serving c) (listen_outs m2)).
  { intro c. rewrite listen_outs_app in RL2. destruct CASES as [SD|Z].
    - apply in_split in SD as (a & b & SD). rewrite SD, <- app_assoc in RL2. cbn [app] in RL2. destruct (nothing_after_shutdown _ _ _ _ _ RL2 c) as (X & Y & V).
      split; [intro K; apply X|split; intro K; [apply Y|apply V]]; apply in_or_app; right; exact K.
    - assert (Z2 : starts_of (listen_ins (m ++ m2)) = 0%nat).
      { rewrite listen_ins_app, starts_prefix, Z. rewrite (starts_calls (listen_ins m2)). rewrite (proj1 (sd_wired _ _ _ _ _ _ D2)), TO. reflexivity. }
      destruct (never_started _ _ _ _ RL2 Z2) as (_ & _ & _ & _ & _ & F). apply Forall_app in F as [_ F]. rewrite Forall_forall in F. split; [|split]; intro K; discriminate (F _ K). }
  split; [exact TO|]. split; [exact NA|]. intro c. pose proof (tr_grows _ _ _ _ _ _ (sd_turn _ _ _ _ _ _ D2) c) as G.
  pose proof (tr_peer _ _ _ _ _ _ (sd_turn _ _ _ _ _ _ D2) c) as TP. unfold tracks_peer, conn_of in TP. destruct (us_conns h c) as [v|] eqn:C.
  - split; [|discriminate]. destruct (us_conns h2 c) as [v2|]; [|destruct G]. cbn in G.
    pose proof (responses_sent _ _ _ _ _ _ _ _ c H) as RS. rewrite C in RS. destruct (RP c) as [RC _]. rewrite C in RC.
    pose proof (closed_off_run _ _ _ _ RC ltac:(intro X; discriminate X) (CL c v C)) as AB.
    exact (proj2 (off_run _ _ _ _ TP (proj1 RS) (conj (CL c v C) AB) G)).
  - assert (NS : us_conns h2 c = None).
    { destruct (us_conns h2 c) as [v2|]; [|reflexivity]. cbn in G. destruct G as (k & rest & E & _). exfalso.
      destruct (proj2 (sd_wired _ _ _ _ _ _ D2) c) as (_ & _ & _ & _ & X & _). rewrite E, times_app in X. change (times is_vstart (VStart :: rest)) with (1 + times is_vstart rest)%nat in X.
      assert (Y : times (is_serving c) (listen_outs m2) = 0%nat).
      { apply times_none, Forall_forall. intros o K. destruct o; try reflexivity. cbn. destruct (Nat.eqb_spec c0 c); [subst; destruct (NA c) as (_ & _ & Z); contradiction|reflexivity]. }
      lia. }
    split; [|intros _; exact NS]. rewrite NS in G. cbn in G. rewrite G in TP. injection TP as _ TP. rewrite <- TP. constructor.
Qed.
End Theorems.
