(** Proofs about ClientTcp.v: what makes a client connect. *)
From Verif Require Import Prelude Ser4 Messages Mbap SpecPdu SpecMbap Client SpecClient ClientFacts ClientLemmas ClientShutdown ClientTx ClientResponses ClientOutcomes
  AsyncWrite ClientConn SpecConn WriteFacts ConnFacts ConnRecover ConnStream ClientTcp SpecClientTcp TcpFacts TcpWire TcpOrder TcpLemmas.
From Coq Require Import Lia.

Lemma send_buffer_no_attempt s s' o : send_buffer s = (s', o) -> ~ In Attempt o.
Proof.
  unfold send_buffer. destruct (cn_shutdown s); [intros E; injection E as <- <-; intros []|].
  destruct (w_start _ _) as [c x]. intros E. injection E as <- <-. intro X. apply in_map_iff in X. destruct X as (? & X & _). discriminate X.
Qed.

(** Only [send] begins an attempt, and then nothing else. *)
Lemma attempt_source c e c' o : conn_step c e = Ret (c', o) -> In Attempt o -> (exists d x, e = NSend d x) /\ o = [Attempt].
Proof.
  assert (NW : forall w, ~ In Attempt (map Write w)) by (intros w X; apply in_map_iff in X; destruct X as (? & X & _); discriminate X).
  intros E I. destruct e as [d x| | |ok|g ok|r x|w n|w ok]; cbn [conn_step] in E.
  - split; [eauto|]. injection E as E. unfold conn_send in E. destruct (cn_shutdown c); [injection E as _ <-; destruct I|].
    cbn [cn_status with_writer cn_socket] in E. destruct (cn_status c).
    + destruct (negb (su_address x)); [injection E as _ <-; destruct I as [I|[]]; discriminate I|].
      destruct (negb (su_open x) || _); [injection E as _ <-; destruct I as [I|[]]; discriminate I|].
      destruct (negb (su_bind x)); injection E as _ <-; [destruct I as [I|[]]; discriminate I|reflexivity].
    + injection E as _ <-. destruct I.
    + destruct (send_buffer_no_attempt _ _ _ E I).
  - injection E as _ <-. destruct I.
  - destruct (cn_queue c) as [|[|] q]; [injection E as _ <-; destruct I| |].
    + injection E as E. unfold do_close in E. destruct (cn_shutdown _); [injection E as _ <-; destruct I|].
      cbv zeta in E. destruct (cn_socket _); injection E as _ <-; [destruct I as [I|[]]; discriminate I|destruct I].
    + injection E as _ <-. destruct I.
  - destruct (cn_resolves c); [injection E as _ <-; destruct I|]. injection E as E. unfold resolve_handler in E.
    destruct (cn_shutdown _); [injection E as _ <-; destruct I|].
    destruct (negb ok); injection E as _ <-; [destruct I as [I|[]]; discriminate I|destruct I].
  - destruct (existsb _ _); [|injection E as _ <-; destruct I]. injection E as E. unfold connect_handler in E.
    destruct (cn_shutdown _); [injection E as _ <-; destruct I|].
    destruct (negb ok); [injection E as _ <-; destruct I as [I|[]]; discriminate I|].
    destruct (send_buffer _) as [s1 o1] eqn:B. injection E as _ <-. destruct I as [I|I]; [discriminate I|destruct (send_buffer_no_attempt _ _ _ B I)].
  - destruct (find_read _ _) as [h|]; [|injection E as _ <-; destruct I]. destruct (possible h x); [|injection E as _ <-; destruct I].
    injection E as E. unfold read_handler in E. destruct (cn_shutdown _); [injection E as _ <-; destruct I|].
    destruct x, h; injection E as _ <-; first [destruct I; fail|destruct I as [I|[]]; discriminate I].
  - destruct (w_transfer _ _ _) as [[c1 ow]|]; cbn [obind] in E; [|discriminate]. injection E as _ <-. destruct (NW _ I).
  - injection E as E. unfold write_handler in E. destruct (w_complete _ _ _) as [[c1 ow]|]; [|injection E as _ <-; destruct I].
    destruct (cn_shutdown c); [injection E as _ <-; destruct I|].
    destruct ok; injection E as _ <-; apply in_app_or in I; destruct I as [I|[I|[]]]; try discriminate I; destruct (NW _ I).
Qed.

Lemma in_outs o : In (ConnOut Attempt) (map ConnOut o) -> In Attempt o.
Proof. intro X. apply in_map_iff in X. destruct X as (y & Y & X). injection Y as ->. exact X. Qed.

Lemma block_attempt : forall c m c' a b, block c m c' -> m = a ++ ConnOut Attempt :: b ->
  exists i u t f x, a = [ChannelOut (Sent i u t f); ConnIn (NSend (frame_data f) x)].
Proof.
  intros c m c' a b B E. assert (I : In (ConnOut Attempt) m) by (rewrite E; apply in_or_app; right; left; reflexivity).
  destruct B as [c e P1|c o P1|c i u t f x c' o S1 C|c c' S1|c e c' o P1 S1 C|c e c' o cb ce P1 S1 C K].
  - destruct I as [I|[]]. discriminate I.
  - destruct I as [I|[]]. discriminate I.
  - destruct I as [I|[I|I]]; [discriminate I|discriminate I|]. apply in_outs in I. destruct (attempt_source _ _ _ _ S1 I) as (_ & ->).
    cbn [map] in E. destruct a as [|y [|z a]]; try discriminate. cbn [app] in E. injection E as <- <- E.
    destruct a as [|y [|z a]]; [eauto 10|discriminate E|discriminate E].
  - destruct I as [I|[I|[]]]; discriminate I.
  - destruct I as [I|I]; [discriminate I|]. apply in_outs in I. destruct (attempt_source _ _ _ _ S1 I) as ((d & x & ->) & _). destruct P1.
  - destruct I as [I|I]; [discriminate I|]. apply in_app_or in I.
    assert (I2 : In Attempt (o ++ [cb])).
    { apply in_or_app. destruct I as [I|[I|[I|[]]]]; [left; exact (in_outs _ I)|injection I as ->; right; left; reflexivity|discriminate I]. }
    destruct (attempt_source _ _ _ _ S1 I2) as ((d & x & ->) & _). destruct P1.
Qed.

Section Demand.
Context {W : Type}.
Context (handler : nat -> W -> expected (list N) -> W * list capi).
Context (pol : copy_policy).

Theorem attempt_for_request : forall es s l a b, tcp_history handler pol es s l -> l = a ++ ConnOut Attempt :: b ->
  exists a' i u t f x, a = a' ++ [ChannelOut (Sent i u t f); ConnIn (NSend (frame_data f) x)] /\ ~ In i (completed_ids (channel_outs a)).
Proof.
  intros es s l a b H E.
  assert (K : exists a' i u t f x, a = a' ++ [ChannelOut (Sent i u t f); ConnIn (NSend (frame_data f) x)]).
  { pose proof (history_trace _ _ _ _ _ H) as T. clear H. revert a b E. induction T as [c|c l c' m c'' T IH B]; intros a b E; [destruct a; discriminate|].
    apply split_app in E as [(b' & E & _)|(a' & E & ->)]; [eapply IH; eauto|].
    destruct (block_attempt _ _ _ _ _ B E) as (i & u & t & f & x & ->). exists l, i, u, t, f, x. reflexivity. }
  destruct K as (a' & i & u & t & f & x & ->). exists a', i, u, t, f, x. split; [reflexivity|].
  pose proof (channel_view _ _ _ _ _ H) as HC.
  assert (N : ~ In i (completed_ids (channel_outs a'))).
  { eapply sent_live; [exact HC|]. rewrite E, <- app_assoc. views. reflexivity. }
  views. rewrite completed_app. intro K. apply in_app_or in K as [K|K]; [auto|]. exact K.
Qed.

(** A channel that is not used makes no connection. *)
Theorem unused_unconnected : forall es s l, tcp_history handler pol es s l -> sent_ids (channel_outs l) = [] ->
  ~ In Attempt (conn_outs l) /\ started (writes (conn_outs l)) = [].
Proof.
  intros es s l H N. split.
  - intro I. apply in_conn_outs in I. apply in_split in I. destruct I as (a & b & E).
    destruct (attempt_for_request _ _ _ _ _ H E) as (a' & i & u & t & f & x & -> & _).
    assert (X : In (ChannelOut (Sent i u t f)) l) by (rewrite E; apply in_or_app; left; apply in_or_app; right; left; reflexivity).
    apply in_channel_outs in X. assert (Y : In i (sent_ids (channel_outs l))) by (apply in_sent; eauto). rewrite N in Y. destruct Y.
  - destruct (started (writes (conn_outs l))) as [|[w d] r] eqn:S1; [reflexivity|exfalso].
    assert (I : In (w, d) (started (writes (conn_outs l)))) by (rewrite S1; left; reflexivity).
    unfold started in I. apply in_flat_map in I. destruct I as (o & I & J). destruct o; cbn in J; destruct J as [J|[]] || destruct J. injection J as -> ->.
    unfold writes in I. apply in_flat_map in I. destruct I as (o & I & J). destruct o; cbn in J; destruct J as [J|[]] || destruct J. subst.
    apply in_conn_outs in I. apply in_split in I. destruct I as (a & b & E).
    destruct (transmitted_latest _ _ _ _ _ _ _ _ _ H E) as (a1 & i & u & t & f & a2 & -> & _).
    assert (X : In (ChannelOut (Sent i u t f)) l) by (rewrite E; apply in_or_app; left; apply in_or_app; right; left; reflexivity).
    apply in_channel_outs in X. assert (Y : In i (sent_ids (channel_outs l))) by (apply in_sent; eauto). rewrite N in Y. destruct Y.
Qed.
End Demand.
