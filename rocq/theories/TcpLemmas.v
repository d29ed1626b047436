(** Proofs about ClientTcp.v: what a client with its connection does. *)
From Verif Require Import Prelude Ser4 Messages Mbap SpecPdu SpecMbap Client SpecClient ClientFacts ClientLemmas ClientShutdown ClientTx ClientResponses ClientOutcomes
  AsyncWrite ClientConn SpecConn WriteFacts ConnFacts ConnRecover ConnStream ClientTcp SpecClientTcp TcpFacts TcpWire TcpOrder.
From Coq Require Import Lia.

Lemma in_channel_outs : forall o l, In o (channel_outs l) <-> In (ChannelOut o) l.
Proof.
  intros o l. unfold channel_outs. rewrite in_flat_map. split.
  - intros (m & H & K). destruct m; cbn in K; destruct K as [->|[]] || destruct K. exact H.
  - intro H. exists (ChannelOut o). split; [exact H|left; reflexivity].
Qed.
Lemma in_conn_outs : forall o l, In o (conn_outs l) <-> In (ConnOut o) l.
Proof.
  intros o l. unfold conn_outs. rewrite in_flat_map. split.
  - intros (m & H & K). destruct m; cbn in K; destruct K as [->|[]] || destruct K. exact H.
  - intro H. exists (ConnOut o). split; [exact H|left; reflexivity].
Qed.
Lemma in_conn_ins : forall o l, In o (conn_ins l) <-> In (ConnIn o) l.
Proof.
  intros o l. unfold conn_ins. rewrite in_flat_map. split.
  - intros (m & H & K). destruct m; cbn in K; destruct K as [->|[]] || destruct K. exact H.
  - intro H. exists (ConnIn o). split; [exact H|left; reflexivity].
Qed.
Lemma in_channel_ins : forall o l, In o (channel_ins l) <-> In (ChannelIn o) l.
Proof.
  intros o l. unfold channel_ins. rewrite in_flat_map. split.
  - intros (m & H & K). destruct m; cbn in K; destruct K as [->|[]] || destruct K. exact H.
  - intro H. exists (ChannelIn o). split; [exact H|left; reflexivity].
Qed.

Lemma sorted_last : forall x j y i, StronglySorted lt (x ++ j :: y) -> In i (x ++ [j]) -> (i <= j)%nat.
Proof.
  induction x as [|a x IH]; intros j y i S H; cbn [app] in *.
  - destruct H as [->|[]]. lia.
  - inversion S as [|a' l S1 S2]; subst. destruct H as [->|H]; [|eapply IH; eauto].
    rewrite Forall_forall in S2. apply Nat.lt_le_incl, S2, in_or_app. right. left. reflexivity.
Qed.

Lemma frame_data_some : forall d, frame_data (map Some d) = d.
Proof. intro d. unfold frame_data. rewrite map_map. apply map_id. Qed.

Section Tcp.
Context {W : Type}.
Context (handler : nat -> W -> expected (list N) -> W * list capi).
Context (pol : copy_policy).
Notation history := (history handler pol).
Notation tcp_history := (tcp_history handler pol).
Notation tcp_run := (tcp_run handler pol).
Notation tcp_step := (tcp_step handler pol).

(** ** What is transmitted *)
Theorem transmitted_latest : forall es s l a w d b, tcp_history es s l -> l = a ++ ConnOut (Write (WStarted w d)) :: b ->
  exists a1 i u t f a2, a = a1 ++ ChannelOut (Sent i u t f) :: a2 /\ sent_ids (channel_outs a2) = [] /\ d = frame_data f.
Proof. intros es s l a w d b H E. pose proof (history_trace _ _ _ _ _ H) as T. destruct (trace_latest _ _ _ T eq_refl eq_refl) as [L _]. exact (L _ _ _ _ E). Qed.

Theorem transmitted_in_order : forall es s l a w d b w' d' c, tcp_history es s l ->
  l = a ++ ConnOut (Write (WStarted w d)) :: b ++ ConnOut (Write (WStarted w' d')) :: c ->
  exists i u t f j u' t' f', In (ChannelOut (Sent i u t f)) a /\ d = frame_data f /\
    In (ChannelOut (Sent j u' t' f')) (a ++ b) /\ d' = frame_data f' /\ (i <= j)%nat.
Proof.
  intros es s l a w d b w' d' c H E.
  destruct (transmitted_latest _ _ _ _ _ _ _ H E) as (a1 & i & u & t & f & a2 & Ea & Na & Da).
  assert (E2 : l = (a ++ ConnOut (Write (WStarted w d)) :: b) ++ ConnOut (Write (WStarted w' d')) :: c) by (rewrite E, <- app_assoc; reflexivity).
  destruct (transmitted_latest _ _ _ _ _ _ _ H E2) as (p1 & j & u' & t' & f' & p2 & Ep & Np & Dp).
  exists i, u, t, f, j, u', t', f'. split; [rewrite Ea; apply in_or_app; right; left; reflexivity|]. split; [exact Da|].
  assert (J : In (ChannelOut (Sent j u' t' f')) (a ++ ConnOut (Write (WStarted w d)) :: b)) by (rewrite Ep; apply in_or_app; right; left; reflexivity).
  split; [apply in_app_or in J as [J|[J|J]]; [apply in_or_app; auto|discriminate|apply in_or_app; auto]|]. split; [exact Dp|].
  pose proof (sent_in_order _ _ _ _ _ _ (channel_view _ _ _ _ _ H)) as S. rewrite E2, Ep in S. revert S. views. rewrite ?sent_app.
  cbn [sent_ids flat_map app]. fold (sent_ids (channel_outs p1)) (sent_ids (channel_outs p2)) (sent_ids (channel_outs c)).
  rewrite <- app_assoc. cbn [app]. intro S. apply (sorted_last _ _ _ i S).
  assert (IE : In i (sent_ids (channel_outs (a ++ ConnOut (Write (WStarted w d)) :: b)))).
  { rewrite Ea. views. rewrite ?sent_app. apply in_or_app. left. apply in_or_app. right. left. reflexivity. }
  rewrite Ep in IE. revert IE. views. rewrite sent_app. cbn [sent_ids flat_map app]. fold (sent_ids (channel_outs p2)). rewrite Np. auto.
Qed.

(** Everything that is transmitted is the frame of a request. *)
Theorem transmitted_frame : forall es s l w d, tcp_history es s l ->
  (forall i k, In (ChannelOut (Called i k)) l -> exists r, k_msg k = request_message r /\ typed_request r /\ u8 (k_unit k)) ->
  In (ConnOut (Write (WStarted w d))) l ->
  exists i k r t pdu, In (ChannelOut (Called i k)) l /\ k_msg k = request_message r /\ request_pdu r pdu /\ d = frame_bytes t (k_unit k) pdu.
Proof.
  intros es s l w d H T I. apply in_split in I as (a & b & E). destruct (transmitted_latest _ _ _ _ _ _ _ H E) as (a1 & i & u & t & f & a2 & Ea & _ & D).
  assert (Hs : In (Sent i u t f) (channel_outs l)) by (apply in_channel_outs; rewrite E, Ea; apply in_or_app; left; apply in_or_app; right; left; reflexivity).
  pose proof (channel_view _ _ _ _ _ H) as HC. destruct (frames_sent _ _ _ _ _ _ _ _ _ _ HC Hs) as (k & Hk & V & Eu & Ev).
  destruct (T i k (proj1 (in_channel_outs _ _) Hk)) as (r & R1 & R2 & R3).
  destruct (request_frames _ _ _ _ _ _ _ _ _ _ _ _ HC Hs Hk R1 R2 R3) as (pdu & P & Pv & _).
  exists i, k, r, t, pdu. split; [apply in_channel_outs; exact Hk|]. split; [exact R1|]. split; [exact P|].
  rewrite D, Pv. apply frame_data_some.
Qed.

(** ** Completed requests *)
Lemma sent_live : forall es s w os a i u t v b, history es s w os -> os = a ++ Sent i u t v :: b -> ~ In i (completed_ids a).
Proof.
  induction es as [|e es IH] using rev_ind; intros s w os a i u t v b H E.
  - destruct H as (buf & w0 & _ & _ & R). cbn in R. injection R as <- <- <-. destruct a; discriminate.
  - destruct (history_reached _ _ _ _ _ _ H) as (C & St & _).
    apply history_split in H as (s1 & w1 & os1 & o & H & S1 & -> & Ty).
    destruct (split_sent _ _ _ _ _ _ _ _ E) as [(b1 & E1 & _)|(a2 & E1 & E2)]; [eapply IH; eauto|].
    intro K. pose proof (co_once _ _ C) as ND. rewrite E, completed_app in ND. cbn [completed_ids flat_map app] in ND.
    fold (completed_ids b) in ND.
    destruct (co_wire _ _ C _ _ _ _ _ _ E) as [B|[_ [SD|(p & P & <-)]]].
    + clear - ND K B. induction (completed_ids a) as [|x l IHl]; [destruct K|]. cbn in ND. inversion ND; subst.
      destruct K as [->|K]; [apply H1, in_or_app; auto|auto].
    + pose proof (proj1 (step_shutdown _ _ _ _ _ _ _ _ S1) SD) as [SD1|T].
      * pose proof (step_quiet _ _ _ _ _ _ _ _ SD1 S1) as Q. rewrite E2 in Q. apply Forall_app in Q as [_ Q]. inversion Q; subst. contradiction.
      * destruct (cc_shutdown s1) eqn:SD1.
        -- pose proof (step_quiet _ _ _ _ _ _ _ _ SD1 S1) as Q. rewrite E2 in Q. apply Forall_app in Q as [_ Q]. inversion Q; subst. contradiction.
        -- rewrite (shutdown_step _ _ _ _ _ _ _ _ S1 SD1 T) in E2. destruct a2 as [|x [|y a2]]; discriminate.
    + apply (co_gone _ _ C (pr_id p)); [rewrite E, completed_app; apply in_or_app; auto|].
      unfold live, waiting. rewrite P. left. reflexivity.
Qed.

Lemma block_started : forall c m c' a w d b, block c m c' -> m = a ++ ConnOut (Write (WStarted w d)) :: b ->
  (exists i u t f x, a = [ChannelOut (Sent i u t f); ConnIn (NSend (frame_data f) x)] /\ d = frame_data f) \/
  (exists g, a = [ConnIn (NConnected g true); ConnOut (Established g)]).
Proof.
  intros c m c' a w d b B E.
  assert (SB : forall s s' o a' b', send_buffer s = (s', o) -> o = a' ++ Write (WStarted w d) :: b' -> a' = []).
  { intros s s' o a' b' B' E'. unfold send_buffer in B'. destruct (cn_shutdown s); [injection B' as <- <-; destruct a'; discriminate|].
    destruct (w_start _ _) as [c1 ow] eqn:S. injection B' as <- <-. unfold w_start in S.
    destruct (wr_buffer (cn_writer s)) as [[n bf]|]; injection S as <- <-; cbn [map] in E'; destruct a' as [|y [|z a']]; try discriminate. reflexivity. }
  assert (P : forall e o a' b', plain_event e -> conn_step c e = Ret (c', o) -> o = a' ++ Write (WStarted w d) :: b' ->
            exists g, e = NConnected g true /\ a' = [Established g]).
  { intros e o a' b' PE S1 E'. destruct e as [d' x| | |ok|g ok|r x|w1 n|w1 ok]; try contradiction; cbn [conn_step] in S1.
    - exfalso. destruct (cn_queue c) as [|[|] q]; [injection S1 as <- <-; destruct a'; discriminate| |]; apply ret_inj in S1.
      + unfold do_close in S1. destruct (cn_shutdown _); [injection S1 as <- <-; destruct a'; discriminate|].
        cbv zeta in S1. destruct (cn_socket _); injection S1 as <- <-; destruct a' as [|y [|z a']]; discriminate.
      + injection S1 as <- <-. destruct a'; discriminate.
    - exfalso. destruct (cn_resolves c); [injection S1 as <- <-; destruct a'; discriminate|]. apply ret_inj in S1. unfold resolve_handler in S1.
      destruct (cn_shutdown _); [injection S1 as <- <-; destruct a'; discriminate|].
      destruct ok; cbn [negb] in S1; injection S1 as <- <-; destruct a' as [|y [|z a']]; discriminate.
    - destruct (existsb _ _); [|injection S1 as <- <-; destruct a'; discriminate]. apply ret_inj in S1. unfold connect_handler in S1.
      destruct (cn_shutdown _); [injection S1 as <- <-; destruct a'; discriminate|].
      destruct ok; cbn [negb] in S1; [|injection S1 as <- <-; destruct a' as [|y [|z a']]; discriminate].
      destruct (send_buffer _) as [s1 o1] eqn:B1. injection S1 as <- <-. destruct a' as [|y a']; [discriminate|]. cbn [app] in E'. injection E' as <- E'.
      rewrite (SB _ _ _ _ _ B1 E'). eauto.
    - exfalso. destruct (find_read _ _) as [h|]; [|injection S1 as <- <-; destruct a'; discriminate].
      destruct (possible h x); [|injection S1 as <- <-; destruct a'; discriminate].
      apply ret_inj in S1. unfold read_handler in S1. destruct (cn_shutdown _); [injection S1 as <- <-; destruct a'; discriminate|].
      destruct x, h; injection S1 as <- <-; destruct a' as [|y [|z a']]; discriminate.
    - exfalso. destruct (w_transfer _ _ _) as [[c1 ow]|] eqn:T; cbn [obind] in S1; [|discriminate]. injection S1 as <- <-.
      unfold w_transfer in T. destruct (find_op _ _) as [op|]; [|injection T as <- <-; destruct a'; discriminate].
      destruct (_ || _); [injection T as <- <-; destruct a'; discriminate|].
      destruct (match wr_buffer _ with Some _ => _ | None => _ end); [|discriminate].
      injection T as <- <-. destruct a' as [|y [|z a']]; discriminate.
    - exfalso. apply ret_inj in S1. unfold write_handler in S1. destruct (w_complete _ _ _) as [[c1 ow]|] eqn:C; [|injection S1 as <- <-; destruct a'; discriminate].
      destruct (cn_shutdown c); [injection S1 as <- <-; destruct a'; discriminate|].
      unfold w_complete in C. destruct (find_op _ _) as [op|]; [|discriminate].
      destruct ok; [destruct (w_taken op); [|discriminate]|]; injection C as <- <-; injection S1 as <- <-;
        cbn [map app] in E'; destruct a' as [|y [|z [|y' a']]]; discriminate. }
  assert (MO : forall o rest, map ConnOut o = rest ++ ConnOut (Write (WStarted w d)) :: b -> exists a1 b1, o = a1 ++ Write (WStarted w d) :: b1 /\ rest = map ConnOut a1).
  { intros o rest M. apply map_eq_app in M as (a1 & b1 & -> & M1 & M2). destruct b1 as [|y b1]; [discriminate|]. cbn [map] in M2. injection M2 as -> M2. eauto. }
  destruct B as [c e P1|c o P1|c i u t f x c' o S1 C|c c' S1|c e c' o P1 S1 C|c e c' o cb ce P1 S1 C K].
  - destruct a as [|y [|z a]]; discriminate.
  - destruct a as [|y [|z a]]; discriminate.
  - destruct a as [|y [|z a]]; try discriminate. cbn [app] in E. injection E as <- <- E. destruct (MO _ _ E) as (a1 & b1 & -> & ->).
    left. exists i, u, t, f, x.
    assert (A1 : a1 = []).
    { cbn [conn_step] in S1. apply ret_inj in S1. unfold conn_send in S1. destruct (cn_shutdown c); [injection S1 as _ K; destruct a1; discriminate|].
      cbn [cn_status with_writer cn_socket] in S1. destruct (cn_status c).
      - destruct (negb (su_address x)); [injection S1 as _ K; destruct a1 as [|q [|r a1]]; discriminate|].
        destruct (negb (su_open x) || _); [injection S1 as _ K; destruct a1 as [|q [|r a1]]; discriminate|].
        destruct (negb (su_bind x)); injection S1 as _ K; destruct a1 as [|q [|r a1]]; discriminate.
      - injection S1 as _ K. destruct a1; discriminate.
      - eapply SB; eauto. }
    subst a1. split; [reflexivity|]. destruct (send_start _ _ _ _ _ S1) as [_ Q]. eapply Q. left. reflexivity.
  - destruct a as [|y [|z [|q a]]]; discriminate.
  - destruct a as [|y a]; [discriminate|]. cbn [app] in E. injection E as <- E. destruct (MO _ _ E) as (a1 & b1 & -> & ->).
    destruct (P _ _ _ _ P1 S1 eq_refl) as (g & -> & ->). right. exists g. reflexivity.
  - destruct a as [|y a]; [discriminate|]. cbn [app] in E. injection E as <- E.
    change [ConnOut cb; ChannelIn ce] with (map ConnOut [cb] ++ [ChannelIn ce]) in E. rewrite app_assoc, <- map_app in E.
    apply split_app in E as [(b' & E & _)|(a' & E & _)].
    + apply map_eq_app in E as (a1 & b1 & E & <- & M2). destruct b1 as [|y b1]; [discriminate|]. cbn [map] in M2. injection M2 as -> M2.
      rewrite E in S1. destruct (P _ _ _ _ P1 S1 eq_refl) as (g & -> & ->). right. exists g. reflexivity.
    + destruct a' as [|y [|z a']]; discriminate.
Qed.

Theorem transmission_begins : forall es s l a w d b, tcp_history es s l -> l = a ++ ConnOut (Write (WStarted w d)) :: b ->
  (exists a' i u t f x, a = a' ++ [ChannelOut (Sent i u t f); ConnIn (NSend (frame_data f) x)] /\ d = frame_data f /\
     ~ In i (completed_ids (channel_outs a))) \/
  (exists a' g, a = a' ++ [ConnIn (NConnected g true); ConnOut (Established g)]).
Proof.
  intros es s l a w d b H E.
  assert (K : (exists a' i u t f x, a = a' ++ [ChannelOut (Sent i u t f); ConnIn (NSend (frame_data f) x)] /\ d = frame_data f) \/
    (exists a' g, a = a' ++ [ConnIn (NConnected g true); ConnOut (Established g)])).
  { pose proof (history_trace _ _ _ _ _ H) as T. clear H. revert a b E. induction T as [c|c l c' m c'' T IH B]; intros a b E; [destruct a; discriminate|].
    apply split_app in E as [(b' & E & _)|(a' & E & ->)]; [eapply IH; eauto|].
    destruct (block_started _ _ _ _ _ _ _ B E) as [(i & u & t & f & x & -> & ->)|(g & ->)]; [left; exists l, i, u, t, f, x; auto|right; eauto]. }
  destruct K as [(a' & i & u & t & f & x & -> & D)|K]; [left|right; exact K].
  exists a', i, u, t, f, x. split; [reflexivity|]. split; [exact D|].
  pose proof (channel_view _ _ _ _ _ H) as HC.
  assert (N : ~ In i (completed_ids (channel_outs a'))).
  { eapply sent_live; [exact HC|]. rewrite E, <- app_assoc. views. reflexivity. }
  views. rewrite completed_app. intro K. apply in_app_or in K as [K|K]; [auto|]. exact K.
Qed.
End Tcp.
