(** The server over its acceptor and its connections: what is sent, served and closed. *)
From Verif Require Import Prelude Ser4 Messages Mbap SpecPdu SpecMbap Server SpecServer Listener SpecListener AsyncWrite ServerConn SpecConn ServerTcp SpecServerTcp.
From Verif Require Import MbapFacts ServerFacts ServerLemmas ListenerFacts ListenerLemmas WriteFacts ConnFacts ServerConnFacts ServerConnMore.
From Verif Require Import ServerTcpTrack ServerTcpLink ServerTcpTurns ServerTcpSteps ServerTcpFacts.
From Coq Require Import Lia.

(** ** What a served connection does with what it is given to send *)

Lemma started_app a b : started (a ++ b) = started a ++ started b.
Proof. apply flat_map_app. Qed.
Lemma vwrites_app a b : vwrites (a ++ b) = vwrites a ++ vwrites b.
Proof. apply flat_map_app. Qed.
Lemma vwrites_map o : vwrites (map VWrite o) = o.
Proof. induction o as [|x o IH]; [reflexivity|]. cbn. f_equal. exact IH. Qed.
Lemma sent_to_app a b : sent_to (a ++ b) = sent_to a ++ sent_to b.
Proof. apply flat_map_app. Qed.

Lemma transfer_not_started c w n c' o : w_transfer c w n = Ret (c', o) -> started o = [].
Proof.
  unfold w_transfer. destruct (find_op _ _) as [x|]; [|intros E; injection E as <- <-; reflexivity].
  destruct (_ || _); [intros E; injection E as <- <-; reflexivity|]. destruct (match wr_buffer c with Some _ => _ | None => _ end); intros E; [|discriminate].
  injection E as <- <-. reflexivity.
Qed.

Lemma kept_step v e v' o : vconn_step v e = Ret (v', o) -> kept v -> plain_event e ->
  kept v' /\ (vn_open v = false -> vn_open v' = false /\ started (vwrites o) = []) /\
  (vn_open v = true -> map snd (started (vwrites o)) = sent_to [e] /\ (vn_open v' = false -> In VSocketClosed o)).
Proof.
  intros E (K1 & K2 & K3) [P1 P2].
  assert (SEND : (exists d, e = VSend d) \/ sent_to [e] = []) by (destruct e; eauto). destruct SEND as [[d ->]|SEND].
  - destruct v as [sd co op wr rd q n]. cbn [vn_shutdown vn_queue vn_connected vn_open] in *. subst sd co. cbn [vconn_step] in E. unfold v_send, v_send_buffer in E.
    cbn in E. destruct op; injection E as <- <-; cbn; (split; [repeat split; auto|]); split; intros X; try discriminate X; split; auto. discriminate.
  - rewrite SEND. apply vstep_trans in E. destruct E; cbn [vn_shutdown vn_queue vn_connected vn_open vmk] in *; try discriminate; try contradiction; try (exfalso; congruence).
    + split; [repeat split; assumption|]. split; [auto|]. intros O. split; [reflexivity|congruence].
    + split; [|split; [auto|intros O; split; [reflexivity|congruence]]]. repeat split; auto. intro I. apply in_app_or in I as [I|[I|[]]]; [auto|discriminate].
    + split; [|split; [auto|discriminate]]. repeat split. intro I. apply K2. right. exact I.
    + split; [|split; [auto|intros _; split; [reflexivity|intros _; left; reflexivity]]]. repeat split. intro I. apply K2. right. exact I.
    + exfalso. apply K2. left. reflexivity.
    + split; [repeat split; auto|]. split; [auto|]. intros O. split; [reflexivity|congruence].
    + split; [repeat split; auto|]. split; [auto|]. intros O. split; [reflexivity|congruence].
    + split; [|split; [auto|intros O; split; [reflexivity|congruence]]]. repeat split; auto. intro I. apply in_app_or in I as [I|[I|[]]]; [auto|discriminate].
    + rewrite vwrites_map, (transfer_not_started _ _ _ _ _ H). split; [repeat split; auto|]. split; [auto|]. intros O. split; [reflexivity|congruence].
    + split; [repeat split; auto|]. split; [auto|]. intros O. split; [reflexivity|congruence].
    + split; [|split; [auto|intros O; split; [reflexivity|congruence]]]. repeat split; auto. intro I. apply in_app_or in I as [I|[I|[]]]; [auto|discriminate].
Qed.

Lemma kept_run es : forall v v' os, kept v -> Forall plain_event es -> vconn_run v es = Ret (v', os) ->
  kept v' /\ (vn_open v = false -> vn_open v' = false /\ started (vwrites os) = []) /\
  (vn_open v = true -> exists late, sent_to es = map snd (started (vwrites os)) ++ late /\ (vn_open v' = true /\ late = [] \/ vn_open v' = false /\ In VSocketClosed os)).
Proof.
  induction es as [|e es IH]; intros v v' os K P E.
  - injection E as <- <-. split; [exact K|]. split; [auto|]. intros O. exists []. split; [reflexivity|auto].
  - apply vrun_cons in E as (v1 & o1 & o2 & S & R & ->). inversion_clear P as [|? ? P1 P2].
    destruct (kept_step _ _ _ _ S K P1) as (K1 & A1 & B1). destruct (IH _ _ _ K1 P2 R) as (K2 & A2 & B2).
    split; [exact K2|]. rewrite vwrites_app, started_app, map_app. split.
    + intros O. destruct (A1 O) as [O1 S1], (A2 (proj1 (A1 O))) as [O2 S2]. rewrite S1, S2. auto.
    + intros O. destruct (B1 O) as [S1 C1]. change (e :: es) with ([e] ++ es). rewrite sent_to_app, S1. destruct (vn_open v1) eqn:O1.
      * destruct (B2 eq_refl) as (late & S2 & D). exists late. split; [rewrite S2, app_assoc; reflexivity|]. destruct D as [D|[D D']]; [auto|right; split; [exact D|apply in_or_app; auto]].
      * destruct (A2 eq_refl) as [O2 S2]. rewrite S2. cbn [map]. exists (sent_to es). split; [rewrite app_nil_r; reflexivity|]. right. split; [exact O2|]. apply in_or_app; auto.
Qed.

Lemma accepted_run k rest v os : Forall plain_event rest -> vconn_run sconn_init (repeat VClose k ++ VStart :: rest) = Ret (v, os) ->
  kept v /\ exists late, sent_to rest = map snd (started (vwrites os)) ++ late /\ (vn_open v = true /\ late = [] \/ vn_open v = false /\ In VSocketClosed os).
Proof.
  intros P E. assert (S0 : vconn_run sconn_init (repeat VClose k ++ [VStart]) = Ret (vmk false true true writer_init [(0%nat, true)] (repeat VDoClose k) 1, [])).
  { eapply (vrun_app _ _ _ _ []); [apply closes_run; reflexivity|]. reflexivity. }
  replace (repeat VClose k ++ VStart :: rest) with ((repeat VClose k ++ [VStart]) ++ rest) in E by (rewrite <- app_assoc; reflexivity).
  destruct (vconn_run (vmk false true true writer_init [(0%nat, true)] (repeat VDoClose k) 1) rest) as [[v1 o1]|] eqn:R.
  - pose proof (vrun_app _ _ _ _ _ _ _ S0 R) as X. rewrite E in X. injection X as -> ->.
    edestruct (kept_run rest) as (A & _ & B); [| |exact R|]; [|exact P|].
    + repeat split. cbn. intro I. apply repeat_spec in I. discriminate.
    + split; [exact A|]. exact (B eq_refl).
  - exfalso. assert (X : forall a b s s1 o1, vconn_run s a = Ret (s1, o1) -> vconn_run s1 b = UB -> vconn_run s (a ++ b) = UB).
    { clear. induction a as [|e a IH]; intros b s s1 o1 A B; cbn [vconn_run app] in *; [injection A as <- <-; exact B|].
      ob A. ob A. cbn [obind]. injection A as <- <-. rewrite (IH _ _ _ _ F0 B). reflexivity. }
    rewrite (X _ _ _ _ _ S0 R) in E. discriminate.
Qed.

Section Lemmas.
Context {W : Type}.
Context (on_request : N -> W -> request -> W * expected response * list api).
Context (on_shutdown : N -> W -> W * list api).
Implicit Types (h : tserver W) (m : list smark).
Notation server_history := (server_history on_request on_shutdown).
Notation userver_step := (userver_step on_request on_shutdown).
Notation userver_run := (userver_run on_request on_shutdown).

(** ** The responses of the channel go to the transport of their connection *)
Theorem responses_sent pol max w0 es h m c : server_history pol max w0 es h m ->
  match us_conns h c with
  | Some v => kept v /\ exists late, map response_data (sends_on (N.of_nat c) (task_outs m)) = map snd (started (vwrites (peer_outs c m))) ++ late /\
      (vn_open v = true /\ late = [] \/ vn_open v = false /\ In VSocketClosed (peer_outs c m))
  | None => sends_on (N.of_nat c) (task_outs m) = [] /\ peer_outs c m = []
  end.
Proof.
  intros H. destruct (server_parts _ _ _ _ _ _ _ _ H) as (_ & _ & _ & P). destruct (P c) as [R G]. destruct (proj2 (server_wired _ _ _ _ _ _ _ _ H) c) as (S & _).
  destruct (us_conns h c) as [v|].
  - destruct G as (k & rest & E & N1 & N2). rewrite E in R. apply accepted_run in R as [K (late & A & B)].
    + split; [exact K|]. exists late. rewrite <- S, E, sent_to_app, closes_sent. change (sent_to (VStart :: rest)) with (sent_to rest). rewrite A. auto.
    + apply Forall_forall. intros e I. split; intro; subst e; contradiction.
  - rewrite G in *. injection R as R. cbn in S. symmetry in S. apply map_eq_nil in S. auto.
Qed.

(** Whatever is put on a connection is the beginning of a response to a request that
    was received on it. *)
Theorem wire_is_answers (Hwt : well_typed on_request) pol max w0 es h m c w x : server_history pol max w0 es h m ->
  In (w, x) (took (vwrites (peer_outs c m))) ->
  exists v view rest, in_history on_request on_shutdown pol server_init w0 (task_ins m) v /\ answered_once v /\
    at_conn v = N.of_nat c /\ In (OSend (N.of_nat c) view) (caused v) /\ response_data view = x ++ rest.
Proof.
  intros H I. destruct (server_parts _ _ _ _ _ _ _ _ H) as (T & R & _ & P). destruct (P c) as [RC _].
  destruct (proj1 (proj2 (server_sound_writes _ _ _ RC)) w x I) as (d & rest & IS & ->).
  assert (J : In (x ++ rest) (map response_data (sends_on (N.of_nat c) (task_outs m)))).
  { pose proof (responses_sent _ _ _ _ _ _ c H) as S. destruct (us_conns h c).
    - destruct S as (_ & late & -> & _). apply in_or_app. left. apply in_map_iff. exists (w, x ++ rest). auto.
    - destruct S as [_ S]. rewrite S in I. destruct I. }
  apply in_map_iff in J as (view & D & J). unfold sends_on in J. apply in_flat_map in J as (o & J & K). destruct o as [| | | |d view']; try destruct K.
  destruct (N.eqb_spec d (N.of_nat c)) as [->|]; [|destruct K]. destruct K as [->|[]].
  destruct (run_spec on_request on_shutdown Hwt pol (task_ins m) server_init w0 (init_ok pol) T) as (s2 & w2 & os2 & vs & E2 & _ & B & _ & IH & _).
  rewrite R in E2. injection E2 as <- <- <-. destruct (sent_in_service _ _ _ _ B J) as (v & Hv & Hs). rewrite Forall_forall in IH. specialize (IH v Hv).
  pose proof (history_answered_once on_request on_shutdown Hwt _ _ _ _ _ IH) as A. exists v, view, rest. split; [exact IH|]. split; [exact A|].
  split; [|auto]. destruct A as [[_ A]|(fc & r & pre & vw & len & code & _ & EC & Hp & _)]; [destruct (A _ _ Hs)|].
  rewrite EC in Hs. apply in_app_or in Hs as [Hs|[Hs|[]]]; [destruct (Hp _ _ Hs)|]. congruence.
Qed.

(** ** The stream received on a connection is served in order *)
Lemma accepted_services (Hwt : well_typed on_request) pol c buf es2 : Forall typed_event es2 -> same_connection c es2 -> good_buf buf ->
  forall es1 s w, conns_ok pol s -> Forall typed_event es1 -> ops_on c es1 = [] ->
  exists s' w' os vs p', server_run on_request on_shutdown pol s w (es1 ++ EAccept c buf :: es2) = Ret (s', w', os) /\
    filter by_frame os = List.concat (map caused vs) /\ StronglySorted le (map at_event vs) /\
    Forall (in_history on_request on_shutdown pol s w (es1 ++ EAccept c buf :: es2)) vs /\
    mbap_run pol (mbap_new buf) (ops_on c es2) = Ret (p', map frame_in (filter (on_conn c) vs)).
Proof.
  intros T2 SC GB. induction es1 as [|e es1 IH]; intros s w CO T1 NO; cbn [app server_run].
  - destruct (step_spec on_request on_shutdown Hwt pol s w (EAccept c buf) CO GB) as (s1 & w1 & o1 & v1 & E & C1 & _). cbn [server_step] in E. injection E as E1 <- <-.
    cbn [server_step obind]. rewrite E1 in *.
    destruct (run_spec on_request on_shutdown Hwt pol es2 s1 w C1 T2) as (s2 & w2 & o2 & vs & -> & _ & B & S & I & M). cbn [obind app].
    destruct (M c (mbap_new buf)) as (p' & EM & _); [rewrite <- E1; cbn; rewrite N.eqb_refl; reflexivity|exact SC|].
    exists s2, w2, o2, (map later vs), p'. split; [reflexivity|]. rewrite caused_later. split; [exact B|]. split; [|split].
    + clear - S. rewrite map_map. induction vs as [|v vs IH]; [constructor|]. inversion_clear S as [|? ? S1 S2]. constructor; [apply IH; exact S1|].
      apply Forall_map. rewrite Forall_map in S2. eapply Forall_impl; [|exact S2]. cbn. intros; lia.
    + apply Forall_forall. intros v J. apply in_map_iff in J as (u & <- & J). rewrite Forall_forall in I.
      eapply in_history_cons; [|exact (I u J)]. cbn [server_step]. rewrite E1. reflexivity.
    + rewrite frames_later. exact EM.
  - apply Forall_cons_iff in T1 as [Te T1]. destruct (step_spec on_request on_shutdown Hwt pol s w e CO Te) as (s1 & w1 & o1 & v1 & E & C1 & B1 & Z1 & I1 & _).
    rewrite E. cbn [obind]. assert (NE : ops_on c [e] = [] /\ ops_on c es1 = []).
    { unfold ops_on in *. cbn [flat_map] in *. apply app_eq_nil in NO. rewrite app_nil_r. exact NO. }
    destruct NE as [NE NO1]. destruct (IH s1 w1 C1 T1 NO1) as (s2 & w2 & o2 & v2 & p' & -> & B2 & S2 & I2 & M2). cbn [obind].
    exists s2, w2, (o1 ++ o2), (v1 ++ map later v2), p'. split; [reflexivity|]. split; [|split; [|split]].
    + rewrite filter_app, B1, B2, map_app, concat_app, caused_later. reflexivity.
    + apply sorted_zero_later; assumption.
    + apply Forall_app. split.
      * apply Forall_forall. intros v Hv. rewrite Forall_forall in Z1, I1. apply in_history_one; [apply Z1, Hv|apply I1, Hv].
      * apply Forall_forall. intros v Hv. apply in_map_iff in Hv. destruct Hv as (u & <- & Hu).
        rewrite Forall_forall in I2. eapply in_history_cons; [exact E|exact (I2 u Hu)].
    + rewrite filter_app, map_app, frames_later.
      assert (F1 : filter (on_conn c) v1 = []).
      { clear - I1 Z1 NE. induction v1 as [|v v1 IH]; [reflexivity|]. inversion_clear I1 as [|? ? (sk & wk & ok & _ & (d & K) & _) I2]. inversion_clear Z1 as [|? ? Z Z2].
        rewrite Z in K. cbn in K. injection K as ->. cbn in NE. cbn [filter]. unfold on_conn at 1. destruct (at_conn v =? c); [discriminate|]. apply IH; assumption. }
      rewrite F1. exact M2.
Qed.

Lemma history_snoc_ind pol max w0 (P : list uevent -> tserver W -> list smark -> Prop) :
  P [] (tserver_init max w0) [] ->
  (forall es h m e h' m', server_history pol max w0 es h m -> P es h m -> typed_uevent e -> userver_step pol h e = Ret (h', m') ->
     step_done on_request on_shutdown pol h m' h' -> server_history pol max w0 (es ++ [e]) h' (m ++ m') -> P (es ++ [e]) h' (m ++ m')) ->
  forall es h m, server_history pol max w0 es h m -> P es h m.
Proof.
  intros P0 PS es. induction es as [|e es IH] using rev_ind; intros h m H.
  - destruct H as [_ E]. injection E as <- <-. exact P0.
  - destruct (history_app _ _ _ _ _ _ _ _ _ H) as (h1 & m1 & m2 & H1 & R & -> & D). cbn [ServerTcp.userver_run] in R. ob R. cbn [obind] in R. injection R as <- <-.
    rewrite app_nil_r in *. pose proof (proj1 H) as T. apply Forall_app in T as [_ T]. inversion_clear T. eapply PS; eauto.
Qed.

(** A connection is accepted by one event. *)
Lemma accepted_at pol max w0 es h m c : server_history pol max w0 es h m -> us_conns h c <> None ->
  exists es1 es2 buf, task_ins m = es1 ++ EAccept (N.of_nat c) buf :: es2 /\ ops_on (N.of_nat c) es1 = [] /\ same_connection (N.of_nat c) es2.
Proof.
  revert es h m. apply (history_snoc_ind pol max w0 (fun es h m => us_conns h c <> None ->
    exists es1 es2 buf, task_ins m = es1 ++ EAccept (N.of_nat c) buf :: es2 /\ ops_on (N.of_nat c) es1 = [] /\ same_connection (N.of_nat c) es2)).
  - intros NE. exfalso. apply NE. reflexivity.
  - intros es h m e h' m' H IH T S [INV TU WI] HX NE. rewrite task_ins_app. destruct (proj2 WI c) as (_ & W2 & _ & W4 & W5 & _).
    pose proof (tr_grows _ _ _ _ _ _ TU c) as G. destruct (us_conns h c) as [v|] eqn:C.
    + destruct (IH ltac:(discriminate)) as (es1 & es2 & buf & E & N1 & N2). exists es1, (es2 ++ task_ins m'), buf. split; [rewrite E, <- app_assoc; reflexivity|].
      split; [exact N1|]. apply Forall_app. split; [exact N2|]. destruct (us_conns h' c); [|destruct G]. cbn in G.
      assert (Z : times is_vstart (peer_ins c m') = 0%nat).
      { apply times_none. eapply Forall_impl; [|exact G]. intros [] [A B]; try reflexivity. congruence. }
      assert (Z2 : times (accepts (N.of_nat c)) (task_ins m') = 0%nat) by lia. clear - Z2. unfold times in Z2. apply length_zero_iff_nil in Z2.
      apply Forall_forall. intros x I. destruct (accepts (N.of_nat c) x) eqn:A; [|reflexivity].
      assert (J : In x (filter (accepts (N.of_nat c)) (task_ins m'))) by (apply filter_In; auto). rewrite Z2 in J. destruct J.
    + (* the event that accepts it *)
      destruct (us_conns h' c) as [v'|] eqn:C'; [|congruence]. cbn in G. destruct G as (k & rest & EP & F).
      assert (Z2 : times (accepts (N.of_nat c)) (task_ins m') <> 0%nat).
      { rewrite <- W4, W5, EP, times_app. change (times is_vstart (VStart :: rest)) with (1 + times is_vstart rest)%nat. lia. }
      assert (EX : exists x, In x (task_ins m') /\ accepts (N.of_nat c) x = true).
      { clear - Z2. unfold times in Z2. destruct (filter (accepts (N.of_nat c)) (task_ins m')) as [|x l] eqn:E; [destruct (Z2 eq_refl)|].
        exists x. apply filter_In. rewrite E. left. reflexivity. }
      destruct EX as (x & I & A). destruct x as [| |d buf| |]; try discriminate A. cbn in A. apply N.eqb_eq in A. subst d.
      assert (ONE : task_ins m' = [EAccept (N.of_nat c) buf]).
      { destruct (step_task_ins on_request on_shutdown pol h e h' m' (sd_inv _ _ _ _ _ _ (history_done _ _ _ _ _ _ _ _ H)) S) as [X|[y X]]; rewrite X in I |- *; [destruct I|].
        destruct I as [->|[]]. reflexivity. }
      rewrite ONE. exists (task_ins m), [], buf. split; [reflexivity|]. split; [|constructor].
      destruct (proj2 (server_wired _ _ _ _ _ _ _ _ H) c) as (_ & X & _). rewrite <- X.
      pose proof (responses_sent _ _ _ _ _ _ c H) as RS. rewrite C in RS. rewrite (proj2 RS). reflexivity.
Qed.
End Lemmas.
