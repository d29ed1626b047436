(** Proofs about reconnecting (ClientConn.v). *)
From Verif Require Import Prelude Ser4 Mbap SpecPdu SpecMbap MbapFacts MbapLemmas AsyncWrite ClientConn ServerConn SpecConn WriteFacts ConnFacts.
From Coq Require Import Lia.

(** ** A state nothing leads out of *)
Definition stuck (s : cconn) : Prop :=
  cn_status s = NotConnected /\ (exists g, cn_socket s = Some g) /\ cn_resolves s = 0%nat /\ cn_connects s = [] /\ cn_reads s = [] /\
  wr_ops (cn_writer s) = [] /\ Forall (fun c => c = NDoShutdown) (cn_queue s).

Lemma stuck_step : forall s e, stuck s -> exists s' o, conn_step s e = Ret (s', o) /\ stuck s' /\ Forall (fun x => x = SetupFailed) o.
Proof.
  intros s e (S1 & (g & S2) & S3 & S4 & S5 & S6 & S7). unfold stuck.
  destruct e as [d x| | |ok|g' ok|r x|w n|w ok]; cbn [conn_step].
  - unfold conn_send. destruct (cn_shutdown s).
    + do 2 eexists. split; [reflexivity|]. split; [|constructor]. repeat split; eauto.
    + cbn [cn_status with_writer]. rewrite S1. destruct (negb (su_address x)).
      * do 2 eexists. split; [reflexivity|]. split; [|repeat constructor]. cbn. repeat split; eauto.
      * cbn [cn_socket with_writer]. rewrite S2, Bool.orb_true_r.
        do 2 eexists. split; [reflexivity|]. split; [|repeat constructor]. cbn. repeat split; eauto.
  - do 2 eexists. split; [reflexivity|]. split; [|constructor]. cbn. repeat split; eauto. apply Forall_app. split; [exact S7|repeat constructor].
  - destruct (cn_queue s) as [|c q] eqn:Q.
    + do 2 eexists. split; [reflexivity|]. split; [|constructor]. rewrite Q. repeat split; eauto.
    + inversion S7 as [|c' q' Hc Hq]; subst. do 2 eexists. split; [reflexivity|]. split; [|constructor].
      cbn. rewrite S6. repeat split; eauto.
  - rewrite S3. do 2 eexists. split; [reflexivity|]. split; [|constructor]. repeat split; eauto.
  - rewrite S4. cbn [existsb]. do 2 eexists. split; [reflexivity|]. split; [|constructor]. repeat split; eauto.
  - rewrite S5. cbn [find_read]. do 2 eexists. split; [reflexivity|]. split; [|constructor]. repeat split; eauto.
  - unfold w_transfer. rewrite S6. cbn [find_op obind]. do 2 eexists. split; [reflexivity|]. split; [|constructor]. cbn. repeat split; eauto.
  - unfold write_handler, w_complete. rewrite S6. cbn [find_op]. do 2 eexists. split; [reflexivity|]. split; [|constructor]. repeat split; eauto.
Qed.

Lemma stuck_run : forall es s, stuck s -> exists s' os, conn_run s es = Ret (s', os) /\ Forall (fun x => x = SetupFailed) os.
Proof.
  induction es as [|e es IH]; intros s S; cbn [conn_run].
  - do 2 eexists. split; [reflexivity|constructor].
  - destruct (stuck_step s e S) as (s1 & o1 & E & S1 & F). rewrite E. cbn [obind].
    destruct (IH _ S1) as (s2 & o2 & E2 & F2). rewrite E2. cbn [obind]. do 2 eexists. split; [reflexivity|].
    apply Forall_app. auto.
Qed.

(** A name that cannot be resolved, once. *)
Theorem resolve_failure_final : exists es s os, conn_run cconn_init es = Ret (s, os) /\ os = [Attempt; Failed] /\
  forall es', exists s' os', conn_run s es' = Ret (s', os') /\ Forall (fun x => x = SetupFailed) os'.
Proof.
  exists [NSend [1] setup_ok; NResolved false]. do 2 eexists. split; [vm_compute; reflexivity|]. split; [reflexivity|].
  intro es'. apply stuck_run. repeat split; cbn; eauto.
Qed.

(** The local address cannot be bound, once. *)
Theorem bind_failure_final : exists es s os, conn_run cconn_init es = Ret (s, os) /\ os = [SetupFailed] /\
  forall es', exists s' os', conn_run s es' = Ret (s', os') /\ Forall (fun x => x = SetupFailed) os'.
Proof.
  exists [NSend [1] {| su_address := true; su_open := true; su_bind := false |}]. do 2 eexists.
  split; [vm_compute; reflexivity|]. split; [reflexivity|].
  intro es'. apply stuck_run. repeat split; cbn; eauto.
Qed.

(** A frame given to the connection between a connect error and the execution of the
    posted close: nothing happens to it, and nothing is outstanding. *)
Theorem window_loses_request : exists es s os, conn_run cconn_init es = Ret (s, os) /\
  es = [NSend [1] setup_ok; NResolved true; NConnected 1 false; NSend [2] setup_ok; NRun] /\
  os = [Attempt; Failed; SocketClosed 1] /\
  cn_resolves s = 0%nat /\ cn_connects s = [] /\ cn_reads s = [] /\ wr_ops (cn_writer s) = [] /\ cn_queue s = [].
Proof. do 3 eexists. split; [|split; [reflexivity|]]; [vm_compute; reflexivity|]. repeat split. Qed.

(** ** Recovery *)
Definition idle (s : cconn) : Prop := cn_shutdown s = false /\ cn_resolves s = 0%nat /\ cn_connects s = [] /\ ~ In NDoShutdown (cn_queue s).
Definition closed (s : cconn) : Prop := cn_status s = NotConnected /\ cn_socket s = None.

Ltac unret s E := apply (f_equal (fun x => match x with Ret y => y | UB => (s, []) end)) in E; cbn beta iota in E.

Lemma idle_step : forall s e s' o, idle s -> good_setup e -> e <> NShutdown -> conn_step s e = Ret (s', o) -> ~ In Attempt o ->
  idle s' /\ (closed s -> closed s') /\ (e = NRun -> hd_error (cn_queue s) = Some NDoClose -> closed s').
Proof.
  intros s e s' o (I1 & I2 & I3 & I4) G NS E NA. unfold idle, closed.
  destruct e as [d x| | |ok|g ok|r x|w n|w ok]; cbn [conn_step] in E.
  - unret s E. unfold conn_send in E. rewrite I1 in E. cbn in G. subst x. cbn [cn_status with_writer] in E.
    destruct (cn_status s) eqn:ST.
    + cbn [setup_ok su_address su_open su_bind negb orb cn_socket with_writer] in E. destruct (cn_socket s) as [g|] eqn:SK.
      * injection E as <- <-. cbn. rewrite ST, SK. intuition congruence.
      * injection E as <- <-. exfalso. apply NA. left. reflexivity.
    + injection E as <- <-. cbn. rewrite ST. intuition congruence.
    + apply send_buffer_frame in E as (ow & -> & E1 & E2 & E3 & E4 & E5 & E6 & E7 & _).
      rewrite E1, E2, E4, E5, E6, E7. cbn. rewrite ST. intuition congruence.
  - congruence.
  - destruct (cn_queue s) as [|[|] q] eqn:Q.
    + injection E as <- <-. rewrite Q. cbn [hd_error]. intuition congruence.
    + unret s E. unfold do_close in E. cbn [cn_shutdown with_nqueue cn_socket with_status] in E. rewrite I1 in E.
      destruct (cn_socket s) eqn:SK; injection E as <- <-; cbn; cbn in I4; intuition congruence.
    + exfalso. apply I4. left. reflexivity.
  - rewrite I2 in E. injection E as <- <-. intuition congruence.
  - rewrite I3 in E. cbn [existsb] in E. injection E as <- <-. intuition congruence.
  - destruct (find_read _ _) as [g|]; [|injection E as <- <-; intuition congruence].
    destruct (possible g x); [|injection E as <- <-; intuition congruence].
    unret s E. unfold read_handler in E. cbn [cn_shutdown with_reads] in E. rewrite I1 in E.
    assert (K : ~ In NDoShutdown (cn_queue s ++ [NDoClose])).
    { intro K. apply in_app_or in K as [K|[K|[]]]; [auto|discriminate K]. }
    destruct x, g; injection E as <- <-; unfold conn_close, begin_read; cbn [cn_shutdown with_reads]; rewrite ?I1;
      cbn [cn_shutdown cn_resolves cn_connects cn_queue cn_status cn_socket with_reads with_nqueue];
      intuition congruence.
  - destruct (w_transfer (cn_writer s) w n) as [[c ow]|] eqn:W; cbn [obind] in E; [|discriminate]. injection E as <- <-.
    cbn. intuition congruence.
  - unret s E. unfold write_handler in E.
    destruct (w_complete (cn_writer s) w ok) as [[c ow]|] eqn:W; [|injection E as <- <-; intuition congruence].
    rewrite I1 in E.
    assert (K : ~ In NDoShutdown (cn_queue s ++ [NDoClose])).
    { intro K. apply in_app_or in K as [K|[K|[]]]; [auto|discriminate K]. }
    destruct ok; injection E as <- <-; unfold conn_close; cbn [cn_shutdown with_writer]; rewrite ?I1; cbn;
      intuition congruence.
Qed.

Lemma recovery_run : forall es s s' os, idle s -> Forall good_setup es -> ~ In NShutdown es ->
  (closed s \/ exists p q, cn_queue s = p ++ NDoClose :: q /\ (List.length p < runs es)%nat) ->
  conn_run s es = Ret (s', os) -> ~ In Attempt os -> idle s' /\ closed s'.
Proof.
  induction es as [|e es IH]; intros s s' os I G NS H E NA; cbn [conn_run] in E.
  - injection E as <- <-. split; [exact I|]. destruct H as [H|(p & q & _ & L)]; [exact H|cbn in L; lia].
  - destruct (conn_step s e) as [[s1 o1]|] eqn:S; cbn [obind] in E; [|discriminate].
    destruct (conn_run s1 es) as [[s2 o2]|] eqn:R; cbn [obind] in E; [|discriminate]. injection E as <- <-.
    inversion G as [|e' es' G1 G2]; subst.
    assert (NE : e <> NShutdown) by (intro; subst e; apply NS; left; reflexivity).
    assert (NA1 : ~ In Attempt o1) by (intro K; apply NA, in_or_app; auto).
    assert (NA2 : ~ In Attempt o2) by (intro K; apply NA, in_or_app; auto).
    destruct (idle_step _ _ _ _ I G1 NE S NA1) as (I' & C & D).
    eapply (IH s1); eauto; [intro K; apply NS; right; exact K|].
    destruct H as [H|(p & q & Q & L)]; [left; auto|].
    destruct (step_queue _ _ _ _ S) as (q' & Q').
    destruct e; try (right; exists p, (q ++ q'); split; [rewrite Q', Q, <- app_assoc; reflexivity|exact L]).
    destruct p as [|c p].
    + left. apply D; [reflexivity|]. rewrite Q. reflexivity.
    + right. exists p, (q ++ q'). split; [rewrite Q', Q; cbn [app tl]; rewrite <- app_assoc; reflexivity|].
      change (runs (NRun :: es)) with (1 + runs es)%nat in L. cbn [List.length] in L. lia.
Qed.

(** The events that report a failure post the closing. *)
Lemma failure_posts_close : forall s e s' o, cn_shutdown s = false -> conn_step s e = Ret (s', o) ->
  (In Failed o /\ (forall ok, e <> NResolved ok)) \/ (exists g, In (PeerClosed g) o) ->
  cn_queue s' = cn_queue s ++ [NDoClose] /\ cn_shutdown s' = false.
Proof.
  intros s e s' o SD E H.
  assert (H' : In Failed o \/ exists g, In (PeerClosed g) o) by tauto.
  destruct e as [d x| | |ok|g ok|r x|w n|w ok]; cbn [conn_step] in E.
  - exfalso. unret s E. unfold conn_send in E. rewrite SD in E. cbn [cn_status with_writer] in E.
    clear H. destruct (cn_status s).
    + destruct (negb (su_address x)); [injection E as <- <-; destruct H' as [[K|[]]|(g & [K|[]])]; discriminate K|].
      destruct (negb (su_open x) || _); [injection E as <- <-; destruct H' as [[K|[]]|(g & [K|[]])]; discriminate K|].
      destruct (negb (su_bind x)); injection E as <- <-; destruct H' as [[K|[]]|(g & [K|[]])]; discriminate K.
    + injection E as <- <-. destruct H' as [[]|(g & [])].
    + apply send_buffer_frame in E as (ow & -> & _). destruct H' as [K|(g & K)]; apply in_map_iff in K as (y & K & _); discriminate K.
  - exfalso. injection E as <- <-. destruct H' as [[]|(g & [])].
  - exfalso. clear H. destruct (cn_queue s) as [|[|] q].
    + injection E as <- <-. destruct H' as [[]|(g & [])].
    + unret s E. unfold do_close in E. cbn [cn_shutdown with_nqueue cn_socket with_status] in E. rewrite SD in E.
      destruct (cn_socket s); injection E as <- <-; [destruct H' as [[K|[]]|(g & [K|[]])]; discriminate K|destruct H' as [[]|(g & [])]].
    + injection E as <- <-. destruct H' as [[]|(g & [])].
  - exfalso. destruct H as [[_ H]|(g & K)]; [exact (H ok eq_refl)|].
    destruct (cn_resolves s); [injection E as <- <-; destruct K|]. unret s E. unfold resolve_handler in E.
    cbn [cn_shutdown with_resolves] in E. rewrite SD in E.
    destruct ok; cbn [negb] in E; injection E as <- <-; [destruct K|destruct K as [K|[]]; discriminate K].
  - clear H. destruct (existsb _ _); [|exfalso; injection E as <- <-; destruct H' as [[]|(h & [])]].
    unret s E. unfold connect_handler in E. cbn [cn_shutdown with_connects] in E. rewrite SD in E. destruct ok; cbn [negb] in E.
    + exfalso. destruct (send_buffer _) as [s1 o1] eqn:B. injection E as <- <-. apply send_buffer_frame in B as (ow & -> & _).
      destruct H' as [[K|K]|(h & [K|K])]; try discriminate K; apply in_map_iff in K as (y & K & _); discriminate K.
    + injection E as <- <-. unfold conn_close. cbn [cn_shutdown with_connects]. rewrite SD. cbn. auto.
  - clear H. destruct (find_read _ _) as [g|]; [|exfalso; injection E as <- <-; destruct H' as [[]|(h & [])]].
    destruct (possible g x) eqn:P; [|exfalso; injection E as <- <-; destruct H' as [[]|(h & [])]].
    unret s E. unfold read_handler in E. cbn [cn_shutdown with_reads] in E. rewrite SD in E.
    destruct x, g; try discriminate P; injection E as <- <-; unfold conn_close, begin_read in *; cbn [cn_shutdown with_reads] in *; rewrite ?SD;
      cbn; auto. exfalso. destruct H' as [[K|[]]|(h & [K|[]])]; discriminate K.
  - exfalso. clear H. destruct (w_transfer (cn_writer s) w n) as [[c ow]|] eqn:W; cbn [obind] in E; [|discriminate]. injection E as <- <-.
    destruct H' as [K|(g & K)]; apply in_map_iff in K as (y & K & _); discriminate K.
  - clear H. unret s E. unfold write_handler in E.
    destruct (w_complete (cn_writer s) w ok) as [[c ow]|] eqn:W; [|exfalso; injection E as <- <-; destruct H' as [[]|(h & [])]].
    rewrite SD in E. destruct ok; injection E as <- <-.
    + exfalso. destruct H' as [K|(h & K)]; apply in_app_or in K as [K|[K|[]]]; try discriminate K;
        apply in_map_iff in K as (y & K & _); discriminate K.
    + unfold conn_close. cbn [cn_shutdown with_writer]. rewrite SD. cbn. auto.
Qed.

Lemma attempt_dec : forall o, In Attempt o \/ ~ In Attempt o.
Proof.
  induction o as [|x o IH]; [right; intros []|]. destruct IH as [IH|IH]; [left; right; exact IH|].
  destruct x; try (left; left; reflexivity); right; intros [K|K]; try discriminate K; exact (IH K).
Qed.

Theorem recovers : forall s e s1 o1 es s2 o2 d,
  cn_shutdown s = false -> ~ In NDoShutdown (cn_queue s) ->
  conn_step s e = Ret (s1, o1) -> (In Failed o1 /\ (forall ok, e <> NResolved ok)) \/ (exists g, In (PeerClosed g) o1) ->
  cn_resolves s1 = 0%nat -> cn_connects s1 = [] ->
  Forall good_setup es -> ~ In NShutdown es -> (List.length (cn_queue s) < runs es)%nat ->
  conn_run s1 es = Ret (s2, o2) ->
  In Attempt o2 \/ exists s3, conn_step s2 (NSend d setup_ok) = Ret (s3, [Attempt]).
Proof.
  intros s e s1 o1 es s2 o2 d SD NQ E F R C G NS L ER.
  destruct (failure_posts_close _ _ _ _ SD E F) as [Q SD1].
  destruct (attempt_dec o2) as [A|A]; [left; exact A|right].
  assert (I : idle s1).
  { repeat split; auto. rewrite Q. intro K. apply in_app_or in K as [K|[K|[]]]; [auto|discriminate K]. }
  destruct (recovery_run es s1 s2 o2 I G NS) as [I2 [C1 C2]]; [right|exact ER|exact A|].
  - exists (cn_queue s), []. auto.
  - destruct I2 as (I2 & _). cbn [conn_step]. unfold conn_send. rewrite I2. cbn [cn_status with_writer]. rewrite C1.
    cbn [setup_ok su_address su_open su_bind negb orb cn_socket with_writer]. rewrite C2. eexists. reflexivity.
Qed.

(** ** The frame waiting for the connection *)
Definition holds (d : list N) (s : cconn) : Prop := exists b, wr_buffer (cn_writer s) = Some (b, d).

Lemma wstep_buffer : forall P c o c', wstep P c o c' -> (forall w, ~ In (WDone w) o) ->
  wr_buffer c' = wr_buffer c \/ exists d, c' = w_replace c d.
Proof.
  intros P c o c' S N. destruct S as [c d|c b c' o E|c w n c' o _ E|c w ok c' o E|c w|c]; auto.
  - right. eauto.
  - left. unfold w_start in E. destruct (wr_buffer c) eqn:B; injection E as <- <-; auto.
  - left. unfold w_transfer in E. destruct (find_op (wr_ops c) w) as [x|]; [|injection E as <- <-; reflexivity].
    destruct (w_aborted x || _ || _ || _); [injection E as <- <-; reflexivity|].
    destruct (match wr_buffer c with Some _ => _ | None => _ end); [|discriminate E]. injection E as <- <-. reflexivity.
  - left. unfold w_complete in E. destruct (find_op (wr_ops c) w) as [x|]; [|discriminate E].
    destruct ok; [destruct (w_taken x); [|discriminate E]|]; injection E as <- <-; [|reflexivity].
    exfalso. apply (N w). left. reflexivity.
Qed.

Lemma holds_step : forall d s e s' o, holds d s -> is_send e = false -> (forall w, e <> NWritten w true) ->
  conn_step s e = Ret (s', o) -> holds d s'.
Proof.
  intros d s e s' o [b H] NS NW E. unfold holds. exists b. rewrite <- H.
  destruct e as [d' x| | |ok|g ok|r x|w n|w ok]; cbn [conn_step is_send] in *; try discriminate NS.
  - injection E as <- <-. reflexivity.
  - destruct (cn_queue s) as [|[|] q]; [injection E as <- <-; reflexivity| |].
    + unret s E. unfold do_close in E. cbn [cn_shutdown with_nqueue cn_socket with_status] in E. destruct (cn_shutdown s).
      * injection E as <- <-. reflexivity.
      * destruct (cn_socket s); injection E as <- <-; reflexivity.
    + injection E as <- <-. reflexivity.
  - destruct (cn_resolves s); [injection E as <- <-; reflexivity|]. unret s E. unfold resolve_handler in E.
    cbn [cn_shutdown with_resolves] in E. destruct (cn_shutdown s); [injection E as <- <-; reflexivity|].
    destruct ok; cbn [negb] in E; injection E as <- <-; reflexivity.
  - destruct (existsb _ _); [|injection E as <- <-; reflexivity]. unret s E. unfold connect_handler in E.
    cbn [cn_shutdown with_connects] in E. destruct (cn_shutdown s) eqn:SD; [injection E as <- <-; reflexivity|]. destruct ok; cbn [negb] in E.
    + destruct (send_buffer _) as [s1 o1] eqn:B. injection E as <- <-. rewrite begin_read_writer.
      unfold send_buffer in B. cbn [cn_shutdown with_status with_connects] in B. rewrite SD in B.
      destruct (w_start _ _) as [c ow] eqn:W. injection B as <- <-. unfold w_start in W.
      cbn [cn_writer with_status with_connects with_writer] in *. rewrite H in W. injection W as <- <-. cbn. auto.
    + injection E as <- <-. rewrite conn_close_writer. reflexivity.
  - destruct (find_read _ _) as [g|]; [|injection E as <- <-; reflexivity].
    destruct (possible g x); [|injection E as <- <-; reflexivity]. unret s E. unfold read_handler in E.
    cbn [cn_shutdown with_reads] in E. destruct (cn_shutdown s); [injection E as <- <-; reflexivity|].
    destruct x, g; injection E as <- <-; rewrite ?begin_read_writer, ?conn_close_writer; reflexivity.
  - destruct (w_transfer (cn_writer s) w n) as [[c ow]|] eqn:W; cbn [obind] in E; [|discriminate]. injection E as <- <-. cbn.
    unfold w_transfer in W. destruct (find_op _ w) as [x|]; [|injection W as <- <-; reflexivity].
    destruct (w_aborted x || _ || _ || _); [injection W as <- <-; reflexivity|].
    destruct (match wr_buffer _ with Some _ => _ | None => _ end); [|discriminate W]. injection W as <- <-. reflexivity.
  - destruct ok; [exfalso; exact (NW w eq_refl)|]. unret s E. unfold write_handler in E.
    destruct (w_complete (cn_writer s) w false) as [[c ow]|] eqn:W; [|injection E as <- <-; reflexivity].
    destruct (cn_shutdown s); injection E as <- <-; [reflexivity|]. rewrite conn_close_writer. cbn.
    unfold w_complete in W. destruct (find_op _ w) as [x|]; [|discriminate W]. injection W as <- <-. reflexivity.
Qed.

Lemma holds_run : forall es d s s' o, holds d s -> Forall (fun e => is_send e = false) es -> (forall w, ~ In (NWritten w true) es) ->
  conn_run s es = Ret (s', o) -> holds d s'.
Proof.
  induction es as [|e es IH]; intros d s s' o H NS NW E; cbn [conn_run] in E; [injection E as <- <-; exact H|].
  destruct (conn_step s e) as [[s1 o1]|] eqn:S; cbn [obind] in E; [|discriminate].
  destruct (conn_run s1 es) as [[s2 o2]|] eqn:R; cbn [obind] in E; [|discriminate]. injection E as <- <-.
  inversion NS as [|e' es' N1 N2]; subst. eapply (IH d s1); eauto.
  - eapply holds_step; [exact H|exact N1| |exact S]. intros w K. apply (NW w). left. exact K.
  - intros w K. apply (NW w). right. exact K.
Qed.

Theorem waiting_frame_sent : forall s d x s1 es s2 os g s3 o,
  conn_step s (NSend d x) = Ret (s1, [Attempt]) ->
  Forall (fun e => is_send e = false) es -> (forall w, ~ In (NWritten w true) es) ->
  conn_run s1 es = Ret (s2, os) ->
  conn_step s2 (NConnected g true) = Ret (s3, o) -> In (Established g) o ->
  exists w, o = [Established g; Write (WStarted w d)].
Proof.
  intros s d x s1 es s2 os g s3 o E NS NW R C H.
  assert (H1 : holds d s1).
  { cbn [conn_step] in E. unret s E. unfold conn_send in E. destruct (cn_shutdown s); [discriminate E|].
    cbn [cn_status with_writer] in E. destruct (cn_status s).
    - destruct (negb (su_address x)); [discriminate E|]. destruct (negb (su_open x) || _); [discriminate E|].
      destruct (negb (su_bind x)); [discriminate E|]. injection E as <-. eexists. reflexivity.
    - discriminate E.
    - apply send_buffer_frame in E as (ow & E & _). destruct ow; discriminate E. }
  destruct (holds_run _ _ _ _ _ H1 NS NW R) as [b B].
  cbn [conn_step] in C. destruct (existsb _ _); [|injection C as <- <-; destruct H].
  unret s C. unfold connect_handler in C. cbn [cn_shutdown with_connects] in C.
  destruct (cn_shutdown s2) eqn:SD; [injection C as <- <-; destruct H|]. cbn [negb] in C.
  unfold send_buffer in C. cbn [cn_shutdown with_status with_connects cn_writer cn_socket] in C. rewrite SD in C.
  unfold w_start in C. rewrite B in C. injection C as <- <-. eexists. reflexivity.
Qed.
