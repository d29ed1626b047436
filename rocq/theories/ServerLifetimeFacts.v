(** What the shared pointers of a server channel keep. *)
From Verif Require Import Prelude Ser4 Messages Mbap SpecPdu SpecMbap Server SpecServer Listener SpecListener AsyncWrite ServerConn SpecConn ServerTcp SpecServerTcp.
From Verif Require Import MbapFacts MbapLemmas ServerFacts ServerLemmas ListenerFacts ListenerOnce ListenerLemmas WriteFacts ConnFacts ServerConnFacts ServerConnMore.
From Verif Require Import ServerTcpTrack ServerTcpLink ServerTcpTurns ServerTcpSteps ServerTcpFacts ServerTcpLemmas ServerTcpTheorems ServerTcpTotal.
From Verif Require Import ServerLifetime SpecServerLifetime.
From Coq Require Import Lia Relations.

(** ** The acceptor lists only connections that are pending or open *)
Definition listed_ok (s : aserver) : Prop := forall c, In c (as_list s) -> In c (as_pending s) \/ In c (as_open s).

Lemma listed_remove s c s' o : remove_connection s c = (s', o) ->
  as_list s' = delete c (as_list s) /\ as_pending s' = as_pending s /\ as_open s' = as_open s /\ as_shutdown s' = as_shutdown s.
Proof.
  unfold remove_connection. destruct (member c (as_list s)) eqn:M; intros E; injection E as <- <-; cbn; repeat split.
  symmetry. apply delete_notin. apply member_notin. exact M.
Qed.

Lemma listed_step s e s' o : (as_shutdown s = true -> as_list s = []) -> listed_ok s -> aserver_step s e = Ret (s', o) ->
  (as_shutdown s' = true -> as_list s' = []) /\ listed_ok s'.
Proof.
  intros SD L E. destruct e as [| | |c ok|c]; cbn [aserver_step] in E.
  - injection E as <- <-. unfold start_accept. split; destruct (as_shutdown s) eqn:SH; cbn; try (intros; apply SD; congruence); exact L.
  - injection E as <- <-. split; assumption.
  - destruct (as_queue s) as [|a q]; [injection E as <- <-; split; assumption|]. injection E as E. destruct a as [| |c].
    + unfold do_accept in E. cbn [as_shutdown] in E. destruct (as_shutdown s) eqn:SH; injection E as <- <-; [split; [exact SD|exact L]|].
      split; [discriminate|]. intros d I. cbn [as_list as_pending as_open] in *. apply in_app_or in I as [I|I].
      * destruct (L d I); [left; apply in_or_app; auto|auto].
      * left. apply in_or_app. auto.
    + injection E as <- <-. split; [reflexivity|]. intros d [].
    + unfold do_close in E. cbn [as_open] in E. destruct (member c (as_open s)); [|injection E as <- <-; split; [exact SD|exact L]].
      destruct (remove_connection _ c) as [s1 o1] eqn:R. injection E as <- <-. apply listed_remove in R as (A & B & C & D). cbn in A, B, C, D. split.
      * intros X. rewrite A, (SD (eq_trans (eq_sym D) X)). reflexivity.
      * intros d I. rewrite A in I. rewrite B, C. apply in_delete in I as [I NE]. destruct (L d I); [auto|]. right. apply in_delete. auto.
  - destruct (member c (as_pending s)) eqn:M; [|injection E as <- <-; split; assumption]. unfold handle_accept in E. cbn [as_shutdown] in E.
    destruct (as_shutdown s) eqn:SH.
    { injection E as <- <-. split; [exact SD|]. intros d I. cbn [as_list] in I. rewrite (SD eq_refl) in I. destruct I. }
    destruct ok; cbn [negb] in E.
    + ob E. injection E as <- <-.
      assert (R : (as_list a = as_list s \/ exists x, as_list a = delete x (as_list s)) /\ as_pending a = delete c (as_pending s) /\ as_open a = as_open s ++ [c] /\ as_shutdown a = false).
      { destruct (_ <? _); [|injection F as <- <-; cbn; auto]. cbn [as_list] in F. destruct (as_list s) as [|x l2] eqn:LS; [discriminate F|].
        injection F as F. apply listed_remove in F as (A & B & C & D). cbn in *. rewrite A, B, C, D. split; [right; exists x; reflexivity|auto]. }
      destruct R as (R1 & R2 & R3 & R4).
      assert (G : listed_ok {| as_shutdown := as_shutdown a; as_num := as_num a; as_max := as_max a; as_list := as_list a; as_pending := as_pending a;
        as_open := as_open a; as_active := as_active a ++ [c]; as_next := as_next a; as_queue := as_queue a |}).
      { intros d I. cbn [as_list as_pending as_open] in *. rewrite R2, R3.
        assert (I' : In d (as_list s)) by (destruct R1 as [R1|[x R1]]; rewrite R1 in I; [exact I|apply in_delete in I; apply I]).
        destruct (Nat.eq_dec d c) as [->|NE]; [right; apply in_or_app; right; left; reflexivity|].
        destruct (L d I'); [left; apply in_delete; auto|right; apply in_or_app; auto]. }
      unfold start_accept. cbn [as_shutdown]. rewrite R4. cbn. split; [discriminate|rewrite R4 in G; exact G].
    + destruct (remove_connection _ c) as [s1 o1] eqn:R. injection E as <- <-. apply listed_remove in R as (A & B & C & D). cbn in A, B, C, D.
      split; [congruence|]. intros d I. rewrite A in I. rewrite B, C. apply in_delete in I as [I NE]. destruct (L d I); [left; apply in_delete; auto|auto].
  - injection E as E. destruct (member c (as_active s)); [|injection E as <- <-; split; assumption]. unfold connection_error in E.
    apply listed_remove in E as (A & B & C & D). cbn in A, B, C, D. split.
    + intros X. rewrite A, (SD (eq_trans (eq_sym D) X)). reflexivity.
    + intros d I. rewrite A in I. rewrite B, C. apply in_delete in I as [I _]. exact (L d I).
Qed.

Lemma listed_known max es s os : SpecListener.serves max es s os -> (as_shutdown s = true -> as_list s = []) /\ listed_ok s.
Proof.
  apply (serves_ind max (fun es s os => (as_shutdown s = true -> as_list s = []) /\ listed_ok s)).
  - split; [reflexivity|intros c []].
  - clear. intros es e s os s' o _ [A B] E. exact (listed_step _ _ _ _ A B E).
Qed.

(** Once it is shut down, no accept begins. *)
Lemma down_step s e s' o : as_shutdown s = true -> aserver_step s e = Ret (s', o) -> as_shutdown s' = true /\ incl (as_pending s') (as_pending s).
Proof.
  intros SD E. destruct e as [| | |c ok|c]; cbn [aserver_step] in E.
  - injection E as <- <-. unfold start_accept. rewrite SD. auto using incl_refl.
  - injection E as <- <-. auto using incl_refl.
  - destruct (as_queue s) as [|a q]; [injection E as <- <-; auto using incl_refl|]. injection E as E. destruct a as [| |c].
    + unfold do_accept in E. cbn [as_shutdown] in E. rewrite SD in E. injection E as <- <-. auto using incl_refl.
    + injection E as <- <-. auto using incl_refl.
    + unfold do_close in E. cbn [as_open] in E. destruct (member c (as_open s)); [|injection E as <- <-; auto using incl_refl].
      destruct (remove_connection _ c) as [s1 o1] eqn:R. injection E as <- <-. apply listed_remove in R as (A & B & C & D). cbn in B, D. rewrite B, D. auto using incl_refl.
  - destruct (member c (as_pending s)); [|injection E as <- <-; auto using incl_refl]. unfold handle_accept in E. cbn [as_shutdown] in E. rewrite SD in E. injection E as <- <-.
    cbn [as_shutdown as_pending]. split; [reflexivity|]. intros d I. apply in_delete in I. apply I.
  - injection E as E. destruct (member c (as_active s)); [|injection E as <- <-; auto using incl_refl]. unfold connection_error in E.
    apply listed_remove in E as (A & B & C & D). cbn in B, D. rewrite B, D. auto using incl_refl.
Qed.

Lemma down_run es : forall s s' o, as_shutdown s = true -> aserver_run s es = Ret (s', o) -> as_shutdown s' = true /\ incl (as_pending s') (as_pending s).
Proof.
  induction es as [|e es IH]; intros s s' o SD E; cbn [aserver_run] in E; [injection E as <- <-; auto using incl_refl|]. ob E. ob E. injection E as <- <-.
  destruct (down_step _ _ _ _ SD F) as [A B]. destruct (IH _ _ _ A F0) as [C D]. split; [exact C|eapply incl_tran; eauto].
Qed.

(** ** A connection that is open is read *)
Definition reading (v : sconn) : Prop := vn_open v = true -> vn_reads v <> [] \/ In VDoClose (vn_queue v).

Lemma snoc_not_nil {A} (l : list A) x : l ++ [x] <> [].
Proof. destruct l; discriminate. Qed.

Lemma reading_step v e v' o : vconn_step v e = Ret (v', o) -> kept v -> plain_event e -> reading v -> reading v'.
Proof.
  intros E (K1 & K2 & K3) [P1 P2] R. apply vstep_trans in E. destruct E; unfold reading in *; cbn [vmk vn_shutdown vn_open vn_reads vn_queue vn_connected] in *;
    try exact R; try discriminate; try contradiction; intros O; try (left; apply snoc_not_nil); try (right; apply in_or_app; right; left; reflexivity);
    try congruence.
  exfalso. apply K2. left. reflexivity.
Qed.

Lemma reading_run es : forall v v' os, vconn_run v es = Ret (v', os) -> kept v -> Forall plain_event es -> reading v -> reading v'.
Proof.
  induction es as [|e es IH]; intros v v' os E K P R; [injection E as <- <-; exact R|].
  apply vrun_cons in E as (v1 & o1 & o2 & S & RR & ->). inversion_clear P as [|? ? P1 P2]. pose proof (proj1 (kept_step _ _ _ _ S K P1)) as K1.
  eapply IH; [exact RR|exact K1|exact P2|]. eapply reading_step; eauto.
Qed.

Lemma vrun_split a : forall b s s2 o, vconn_run s (a ++ b) = Ret (s2, o) -> exists s1 o1 o2, vconn_run s a = Ret (s1, o1) /\ vconn_run s1 b = Ret (s2, o2) /\ o = o1 ++ o2.
Proof.
  induction a as [|e a IH]; intros b s s2 o E; [exists s, [], o; auto|]. cbn [app] in E. apply vrun_cons in E as (s1 & o1 & o2 & S & R & ->).
  apply IH in R as (s3 & o3 & o4 & R1 & R2 & ->). exists s3, (o1 ++ o3), o4. split; [|split; [exact R2|rewrite app_assoc; reflexivity]].
  cbn [vconn_run]. rewrite S. cbn [obind]. rewrite R1. reflexivity.
Qed.

Lemma accepted_reading k rest v os : Forall plain_event rest -> vconn_run sconn_init (repeat VClose k ++ VStart :: rest) = Ret (v, os) -> reading v.
Proof.
  intros P E. assert (S0 : vconn_run sconn_init (repeat VClose k ++ [VStart]) = Ret (vmk false true true writer_init [(0%nat, true)] (repeat VDoClose k) 1, [])).
  { eapply (ServerTcpTrack.vrun_app _ _ _ _ []); [apply closes_run; reflexivity|]. reflexivity. }
  replace (repeat VClose k ++ VStart :: rest) with ((repeat VClose k ++ [VStart]) ++ rest) in E by (rewrite <- app_assoc; reflexivity).
  apply vrun_split in E as (s1 & o1 & o2 & E1 & E2 & _). rewrite S0 in E1. injection E1 as <- <-. eapply reading_run; [exact E2| |exact P|].
  - repeat split. cbn. intro J. apply repeat_spec in J. discriminate.
  - intros _. left. discriminate.
Qed.

(** ** A connection that is closed begins nothing *)
Definition read_ids (v : sconn) : list nat := map fst (vn_reads v).
Definition write_ids (v : sconn) : list nat := map w_id (wr_ops (vn_writer v)).

Lemma map_filter_incl {A B} (f : A -> B) p l : incl (map f (filter p l)) (map f l).
Proof. intros x I. apply in_map_iff in I as (y & <- & I). apply filter_In in I. apply in_map. apply I. Qed.

Lemma transfer_ids c w n c' o : w_transfer c w n = Ret (c', o) -> map w_id (wr_ops c') = map w_id (wr_ops c).
Proof.
  unfold w_transfer. destruct (find_op _ _) as [x|]; [|intros E; injection E as <- _; reflexivity].
  destruct (_ || _); [intros E; injection E as <- _; reflexivity|]. destruct (match wr_buffer c with Some _ => _ | None => _ end); intros E; [|discriminate].
  injection E as <- _. cbn. rewrite map_map. apply map_ext. intro y. destruct (Nat.eqb _ _); reflexivity.
Qed.
Lemma complete_ids c w ok c' o : w_complete c w ok = Some (c', o) -> wr_ops c' = delete_op (wr_ops c) w.
Proof.
  unfold w_complete. destruct (find_op (wr_ops c) w) as [x|] eqn:F; [|discriminate].
  destruct ok; [destruct (w_taken x); [|discriminate]|]; intros E; injection E as <- _; reflexivity.
Qed.

Lemma ids_step v e v' o : vconn_step v e = Ret (v', o) -> kept v -> vn_open v = false -> plain_event e ->
  incl (read_ids v') (read_ids v) /\ incl (write_ids v') (write_ids v).
Proof.
  intros E (K1 & K2 & K3) O [P1 P2]. apply vstep_trans in E.
  destruct E; unfold read_ids, write_ids in *; cbn [vmk vn_shutdown vn_open vn_reads vn_queue vn_connected vn_writer] in *;
    try contradiction; try congruence; (split; [try (apply incl_refl); try (apply map_filter_incl)|try apply incl_refl]).
  - exfalso. apply K2. left. reflexivity.
  - rewrite (transfer_ids _ _ _ _ _ H). apply incl_refl.
  - rewrite (complete_ids _ _ _ _ _ H). apply map_filter_incl.
  - rewrite (complete_ids _ _ _ _ _ H). apply map_filter_incl.
Qed.

Lemma ids_run es : forall v v' os, vconn_run v es = Ret (v', os) -> kept v -> vn_open v = false -> Forall plain_event es ->
  vn_open v' = false /\ incl (read_ids v') (read_ids v) /\ incl (write_ids v') (write_ids v).
Proof.
  induction es as [|e es IH]; intros v v' os E K O P; [injection E as <- <-; auto using incl_refl|].
  apply vrun_cons in E as (v1 & o1 & o2 & S & RR & ->). inversion_clear P as [|? ? P1 P2]. destruct (kept_step _ _ _ _ S K P1) as (K1 & A & _). destruct (A O) as [O1 _].
  destruct (IH _ _ _ RR K1 O1 P2) as (Z & X & Y). destruct (ids_step _ _ _ _ S K O P1) as (X1 & Y1). split; [exact Z|]. split; eapply incl_tran; eauto.
Qed.

Lemma some_id {A} (l : list A) (f : A -> nat) : l <> [] <-> exists x, In x (map f l).
Proof. destruct l as [|a l]; cbn; split; try congruence; [intros (? & [])|eauto]. Qed.

Lemma asked_dec es : In (UApi ApiShutdown) es \/ ~ In (UApi ApiShutdown) es.
Proof.
  induction es as [|e es [I|I]]; [right; intros []|left; right; exact I|].
  destruct e as [[]| | | | |]; try (right; intros [X|X]; [discriminate X|exact (I X)]). left. left. reflexivity.
Qed.

Section Facts.
Context {W : Type}.
Context (on_request : N -> W -> request -> W * expected response * list api).
Context (on_shutdown : N -> W -> W * list api).
Implicit Types (h : tserver W) (m : list smark) (app : sobject -> Prop).
Notation server_history := (server_history on_request on_shutdown).
Notation userver_step := (userver_step on_request on_shutdown).
Notation userver_run := (userver_run on_request on_shutdown).

(** ** No cycles *)
Theorem no_cycles h app o : remains h app o -> exists a, (app a \/ sexecutor_holds h a) /\ leads_to h a o.
Proof.
  intros (alive & N & A).
  assert (UP : forall x y, srefers h x y -> (exists a, (app a \/ sexecutor_holds h a) /\ leads_to h a x) -> exists a, (app a \/ sexecutor_holds h a) /\ leads_to h a y).
  { intros x y R (a & H & L). exists a. split; [exact H|]. eapply rt_trans; [exact L|]. apply rt_step. exact R. }
  assert (HERE : forall x, app x \/ sexecutor_holds h x -> exists a, (app a \/ sexecutor_holds h a) /\ leads_to h a x).
  { intros x H. exists x. split; [exact H|apply rt_refl]. }
  assert (CH : alive SChannel -> exists a, (app a \/ sexecutor_holds h a) /\ leads_to h a SChannel).
  { intros X. destruct (N _ X) as [H|[H|(p & _ & R)]]; [auto|auto|]. destruct p; destruct R. }
  assert (AC : alive SAcceptor -> exists a, (app a \/ sexecutor_holds h a) /\ leads_to h a SAcceptor).
  { intros X. destruct (N _ X) as [H|[H|(p & P & R)]]; [auto|auto|]. destruct p; try destruct R. apply (UP SChannel SAcceptor); auto. exact Logic.I. }
  assert (CO : forall c, alive (SConnection c) -> exists a, (app a \/ sexecutor_holds h a) /\ leads_to h a (SConnection c)).
  { intros c X. destruct (N _ X) as [H|[H|(p & P & R)]]; [auto|auto|]. destruct p; try destruct R. apply (UP SAcceptor (SConnection c)); auto. }
  destruct o as [| |c|c|x]; auto.
  - destruct (N _ A) as [H|[H|(p & P & R)]]; [auto|auto|]. destruct p; try (destruct R; fail). apply (UP (SConnection c0) (SListener c)); auto.
  - destruct (N _ A) as [H|[H|(p & P & R)]]; [auto|auto|]. destruct p; try (destruct R; fail). apply (UP SChannel (SSession x)); auto.
Qed.

Theorem reached_remains h app a o : app a \/ sexecutor_holds h a -> leads_to h a o -> remains h app o.
Proof.
  intros H L. exists (leads_to h a). split; [|exact L]. intros x X. apply clos_rt_rtn1 in X. destruct X as [|y z R X].
  - destruct H; auto.
  - right. right. exists y. split; [apply clos_rtn1_rt; exact X|exact R].
Qed.

Theorem remains_iff h app o : remains h app o <-> exists a, (app a \/ sexecutor_holds h a) /\ leads_to h a o.
Proof. split; [apply no_cycles|]. intros (a & H & L). exact (reached_remains _ _ _ _ H L). Qed.

(** ** Connections *)
Lemma closes_in c q : In (Close c) q <-> (closes c q <> 0)%nat.
Proof.
  unfold closes. split.
  - intros I. assert (J : In (Close c) (filter (fun a => match a with Close d => Nat.eqb d c | _ => false end) q)) by (apply filter_In; split; [exact I|apply Nat.eqb_refl]).
    destruct (filter _ q); [destruct J|discriminate].
  - intros H. destruct (filter (fun a => match a with Close d => Nat.eqb d c | _ => false end) q) as [|a l] eqn:F; [destruct (H eq_refl)|].
    assert (J : In a (a :: l)) by (left; reflexivity). rewrite <- F in J. apply filter_In in J as [J1 J2]. destruct a as [| |d]; try discriminate J2.
    apply Nat.eqb_eq in J2 as ->. exact J1.
Qed.

Lemma open_held pol max w0 es h m c v : server_history pol max w0 es h m -> us_conns h c = Some v -> vn_open v = true ->
  In (Close c) (as_queue (us_listener h)) \/ vn_reads v <> [].
Proof.
  intros H C O. destruct (server_parts _ _ _ _ _ _ _ _ H) as (_ & _ & _ & P). destruct (P c) as [R G]. rewrite C in R, G.
  destruct G as (k & rest & E & N1 & N2). rewrite E in R.
  assert (PL : Forall plain_event rest) by (apply Forall_forall; intros e J; split; intro; subst e; contradiction).
  destruct (accepted_reading _ _ _ _ PL R O) as [X|X]; [auto|left].
  destruct (linked_some h c v (ui_linked _ (sd_inv _ _ _ _ _ _ (history_done _ _ _ _ _ _ _ _ H))) C) as (_ & VQ & _). rewrite VQ in X.
  apply closes_in. destruct (closes c (as_queue (us_listener h))); [destruct X|discriminate].
Qed.

Lemma in_use_held pol max w0 es h m c : server_history pol max w0 es h m -> in_use h c -> sexecutor_holds h (SConnection c).
Proof.
  intros H [(x & C & I)|[I|(v & C & O)]]; cbn [sexecutor_holds]; [|auto|].
  - destruct x as [d|d r|d w]; cbn in C; subst d; cbn [in_progress] in I; [auto| |]; right; right; destruct I as (v & E & I); exists v; split; try exact E;
      [left; apply (some_id _ fst)|right; apply (some_id _ w_id)]; eauto.
  - destruct (open_held _ _ _ _ _ _ _ _ H C O) as [X|X]; [auto|]. right. right. exists v. auto.
Qed.

Lemma held_in_use h c : sexecutor_holds h (SConnection c) -> in_use h c.
Proof.
  intros [I|[I|(v & C & [I|I])]].
  - right. left. exact I.
  - left. exists (OpAccept c). auto.
  - left. apply (some_id _ fst) in I as (r & I). exists (OpRead c r). split; [reflexivity|exists v; auto].
  - left. apply (some_id _ w_id) in I as (r & I). exists (OpWrite c r). split; [reflexivity|exists v; auto].
Qed.

Lemma listed_in_use pol max w0 es h m c : server_history pol max w0 es h m -> In c (as_list (us_listener h)) -> in_use h c.
Proof.
  intros H I. destruct (server_parts _ _ _ _ _ _ _ _ H) as (_ & _ & RL & _). destruct (proj2 (listed_known _ _ _ _ RL) c I) as [X|X]; [left; exists (OpAccept c); auto|].
  pose proof (ui_linked _ (sd_inv _ _ _ _ _ _ (history_done _ _ _ _ _ _ _ _ H)) c) as L. apply member_in in X. rewrite X in L.
  destruct (us_conns h c) as [v|] eqn:C; [|destruct L; discriminate]. right. right. exists v. split; [exact C|]. apply L.
Qed.

Theorem connection_remains pol max w0 es h m app c : server_history pol max w0 es h m -> outside app ->
  (remains h app (SConnection c) <-> in_use h c).
Proof.
  intros H O. split.
  - intros (alive & N & A). destruct (N _ A) as [X|[X|(p & P & R)]]; [destruct (proj1 (O c) X)|exact (held_in_use _ _ X)|].
    destruct p; try (destruct R; fail). exact (listed_in_use _ _ _ _ _ _ _ H R).
  - intros U. apply (reached_remains h app (SConnection c)); [right; exact (in_use_held _ _ _ _ _ _ _ H U)|apply rt_refl].
Qed.

Theorem listener_remains pol max w0 es h m app c : server_history pol max w0 es h m -> outside app ->
  (remains h app (SListener c) <-> in_use h c /\ us_conns h c <> None).
Proof.
  intros H O. split.
  - intros (alive & N & A). destruct (N _ A) as [X|[X|(p & P & R)]]; [destruct (proj2 (O c) X)|destruct X|].
    destruct p as [| |d| |]; try (destruct R; fail). destruct R as [-> R]. split; [|exact R]. apply (connection_remains _ _ _ _ _ _ app c H O). exists alive. auto.
  - intros [U C]. apply (reached_remains h app (SConnection c)); [right; exact (in_use_held _ _ _ _ _ _ _ H U)|]. apply rt_step. split; auto.
Qed.

(** ** Shutdown *)
Lemma shut_or_posted pol max w0 es h m : server_history pol max w0 es h m -> In (UApi ApiShutdown) es ->
  sexecutor_holds h SChannel \/ sv_shutdown (us_channel h) = true.
Proof.
  intros H I. destruct (server_parts _ _ _ _ _ _ _ _ H) as (_ & R & _).
  destruct (asked_run _ _ _ _ _ _ _ _ _ reg_ok_init R (or_intror (or_intror (api_in_tasks _ _ _ _ _ _ _ _ _ H I)))) as [X|X]; [|auto].
  left. cbn. intros Y. rewrite Y in X. destruct X.
Qed.

Lemma silent_messages s w c ms : sv_shutdown s = true -> on_messages on_request s w c ms = Ret (s, w, []).
Proof.
  intros SH. induction ms as [|x ms IH]; [reflexivity|]. cbn [on_messages]. unfold on_mbap. rewrite SH. cbn [obind]. rewrite IH. reflexivity.
Qed.

Theorem channel_there pol max w0 es h m app : server_history pol max w0 es h m -> (~ In (UApi ApiShutdown) es -> app SChannel) ->
  ~ remains h app SChannel -> forall c ms, on_messages on_request (us_channel h) (us_user h) c ms = Ret (us_channel h, us_user h, []).
Proof.
  intros H A NR c ms. apply silent_messages. destruct (sv_shutdown (us_channel h)) eqn:SH; [reflexivity|]. exfalso. apply NR.
  apply (reached_remains h app SChannel); [|apply rt_refl].
  destruct (asked_dec es) as [D|D]; [|auto]. destruct (shut_or_posted _ _ _ _ _ _ H D) as [X|X]; [auto|congruence].
Qed.

Lemma acceptor_held pol max w0 es h m : server_history pol max w0 es h m -> sv_shutdown (us_channel h) = true ->
  sexecutor_holds h SAcceptor \/ as_list (us_listener h) = [].
Proof.
  intros H SH. destruct (server_parts _ _ _ _ _ _ _ _ H) as (_ & R & RL & _). pose proof (run_reg_ok _ _ _ _ _ _ _ _ _ reg_ok_init R) as RO.
  pose proof (server_wired _ _ _ _ _ _ _ _ H) as [WC _]. destruct (starts_of (listen_ins m)) eqn:Z; [right; exact (proj1 (never_started _ _ _ _ RL Z))|].
  assert (L : In OListen (task_outs m)).
  { rewrite starts_calls, WC in Z. clear - Z. induction (task_outs m) as [|o l IH]; [discriminate Z|]. unfold acceptor_calls in Z. cbn [flat_map] in Z.
    destruct o; try (right; apply IH; exact Z). left. reflexivity. }
  destruct (started_run _ _ _ _ _ _ _ _ _ reg_ok_init R (or_intror L)) as [X|X]; [destruct (proj2 RO SH) as [Y _]; congruence|].
  assert (AS : In AShutdown (listen_ins m)).
  { apply (proj1 (filter_In is_call AShutdown (listen_ins m))). rewrite WC. unfold acceptor_calls. apply in_flat_map. exists OStopListening. split; [exact X|left; reflexivity]. }
  destruct (shutdown_posted _ _ _ _ RL AS) as [Y|Y]; [left; cbn; auto|right]. apply (proj1 (listed_known _ _ _ _ RL)). exact (shut_flag _ _ _ _ RL Y).
Qed.

Theorem acceptor_there pol max w0 es h m app : server_history pol max w0 es h m -> (~ In (UApi ApiShutdown) es -> app SChannel) ->
  ~ remains h app SAcceptor -> forall c, remove_connection (us_listener h) c = (us_listener h, []).
Proof.
  intros H A NR c.
  assert (NC : ~ remains h app SChannel).
  { intros (alive & N & X). apply NR. exists (fun o => o = SAcceptor \/ alive o). split; [|auto]. intros o [->|O]; [right; right; exists SChannel; split; [auto|exact Logic.I]|].
    destruct (N _ O) as [Y|[Y|(p & P & R)]]; [auto|auto|]. right. right. exists p. auto. }
  assert (SH : sv_shutdown (us_channel h) = true).
  { destruct (asked_dec es) as [D|D]; [destruct (shut_or_posted _ _ _ _ _ _ H D) as [X|X]; [|exact X]|]; exfalso; apply NC; apply (reached_remains h app SChannel); auto; apply rt_refl. }
  destruct (acceptor_held _ _ _ _ _ _ H SH) as [X|X].
  - exfalso. apply NR. apply (reached_remains h app SAcceptor); [auto|apply rt_refl].
  - unfold remove_connection. rewrite X. reflexivity.
Qed.

(** ** What is left at the end *)
Lemma end_holds_nothing pol max w0 es h m o : server_history pol max w0 es h m -> at_end h -> ~ sexecutor_holds h o.
Proof.
  intros H (Q & P) E. destruct (idle_strand _ _ _ _ _ _ _ _ H Q) as [LQ SQ]. destruct o as [| |c|c|x].
  - exact (E SQ).
  - cbn in E. rewrite LQ in E. destruct E as [[]|[[]|E]]. apply (some_id _ (fun x => x)) in E as (c & E). rewrite map_id in E. exact (P (OpAccept c) E).
  - apply held_in_use in E as [(x & _ & I)|[I|(v & C & O)]]; [exact (P x I)|rewrite LQ in I; destruct I|].
    destruct (open_held _ _ _ _ _ _ _ _ H C O) as [X|X]; [rewrite LQ in X; destruct X|]. apply (some_id _ fst) in X as (r & X). apply (P (OpRead c r)). exists v. auto.
  - destruct E.
  - cbn in E. rewrite SQ in E. destruct E as (u & []).
Qed.

Theorem end_reached pol max w0 es h m app o : server_history pol max w0 es h m -> at_end h -> remains h app o -> exists a, app a /\ leads_to h a o.
Proof.
  intros H E R. apply no_cycles in R as (a & [A|A] & L); [eauto|]. destruct (end_holds_nothing _ _ _ _ _ _ _ H E A).
Qed.

Lemma idle_shut pol max w0 es h m : server_history pol max w0 es h m -> In (UApi ApiShutdown) es -> us_order h = [] -> sv_shutdown (us_channel h) = true.
Proof.
  intros H I Q. destruct (shut_or_posted _ _ _ _ _ _ H I) as [X|X]; [|exact X]. destruct (idle_strand _ _ _ _ _ _ _ _ H Q) as [_ SQ]. destruct (X SQ).
Qed.

(** When the closures have run, what is left belongs to operations in progress. *)
Theorem left_after pol max w0 es h m app o : server_history pol max w0 es h m -> In (UApi ApiShutdown) es -> us_order h = [] ->
  (starts_of (listen_ins m) <= 1)%nat -> max < 2 ^ 32 - 1 -> (forall x, ~ app x) -> remains h app o ->
  match o with
  | SChannel | SSession _ => False
  | SAcceptor => exists c, in_progress h (OpAccept c)
  | SConnection c | SListener c => exists x, of_connection x = c /\ in_progress h x
  end.
Proof.
  intros H I Q ST MX A R. destruct (shutdown_done _ _ _ _ _ _ _ _ H I Q ST MX) as [CL _]. destruct (idle_strand _ _ _ _ _ _ _ _ H Q) as [LQ SQ].
  assert (OUT : outside app) by (intro c; split; apply A).
  assert (U : forall c, in_use h c -> exists x, of_connection x = c /\ in_progress h x).
  { intros c [X|[X|(v & C & O)]]; [exact X|rewrite LQ in X; destruct X|]. rewrite (CL c v C) in O. discriminate O. }
  assert (NC : ~ remains h app SChannel).
  { intros (alive & N & X). destruct (N _ X) as [Y|[Y|(p & P & Y)]]; [exact (A _ Y)|exact (Y SQ)|]. destruct p; destruct Y. }
  destruct o as [| |c|c|x].
  - exact (NC R).
  - destruct R as (alive & N & X). destruct (N _ X) as [Y|[Y|(p & P & Y)]]; [destruct (A _ Y)| |].
    + cbn in Y. rewrite LQ in Y. destruct Y as [[]|[[]|Y]]. apply (some_id _ (fun x => x)) in Y as (c & Y). rewrite map_id in Y. exists c. exact Y.
    + destruct p; try (destruct Y; fail). exfalso. apply NC. exists alive. auto.
  - apply U. apply (connection_remains _ _ _ _ _ _ app c H OUT). exact R.
  - apply U. apply (listener_remains _ _ _ _ _ _ app c H OUT) in R. apply R.
  - destruct R as (alive & N & X). destruct (N _ X) as [Y|[Y|(p & P & Y)]]; [exact (A _ Y)| |].
    + cbn in Y. rewrite SQ in Y. destruct Y as (u & []).
    + destruct p; try (destruct Y; fail). apply NC. exists alive. auto.
Qed.

(** Sessions are released by the shutdown. *)
Theorem sessions_released pol max w0 es h m app x : server_history pol max w0 es h m -> In (UApi ApiShutdown) es -> us_order h = [] ->
  ~ app (SSession x) -> ~ remains h app (SSession x).
Proof.
  intros H I Q A (alive & N & X). destruct (idle_strand _ _ _ _ _ _ _ _ H Q) as [_ SQ]. destruct (N _ X) as [Y|[Y|(p & P & Y)]]; [exact (A Y)| |].
  - cbn in Y. rewrite SQ in Y. destruct Y as (u & []).
  - destruct p; try (destruct Y; fail). destruct Y as (u & Y). destruct (server_parts _ _ _ _ _ _ _ _ H) as (_ & R & _).
    pose proof (run_reg_ok _ _ _ _ _ _ _ _ _ reg_ok_init R) as RO. rewrite (proj2 (proj2 RO (idle_shut _ _ _ _ _ _ H I Q))) in Y. destruct Y.
Qed.
End Facts.
