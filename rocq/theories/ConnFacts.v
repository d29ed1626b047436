(** Proofs about ClientConn.v. *)
From Verif Require Import Prelude Ser4 Mbap SpecPdu SpecMbap MbapFacts MbapLemmas AsyncWrite ClientConn ServerConn SpecConn WriteFacts.
From Coq Require Import Lia.

(** ** Runs *)
Lemma run_app : forall es es' s s' o, conn_run s (es ++ es') = Ret (s', o) ->
  exists s1 o1 o2, conn_run s es = Ret (s1, o1) /\ conn_run s1 es' = Ret (s', o2) /\ o = o1 ++ o2.
Proof.
  induction es as [|e es IH]; intros es' s s' o E; cbn [conn_run app] in *.
  - exists s, [], o. auto.
  - destruct (conn_step s e) as [[s1 o1]|]; cbn [obind] in *; [|discriminate].
    destruct (conn_run s1 (es ++ es')) as [[s2 o2]|] eqn:R; cbn [obind] in *; [|discriminate]. injection E as <- <-.
    destruct (IH _ _ _ _ R) as (s3 & o3 & o4 & -> & R4 & ->). cbn [obind]. do 3 eexists. split; [reflexivity|].
    split; [exact R4|]. apply app_assoc.
Qed.

Lemma run_join : forall es es' s s1 o1 s' o2, conn_run s es = Ret (s1, o1) -> conn_run s1 es' = Ret (s', o2) ->
  conn_run s (es ++ es') = Ret (s', o1 ++ o2).
Proof.
  induction es as [|e es IH]; intros es' s s1 o1 s' o2 E E'; cbn [conn_run app] in *.
  - injection E as <- <-. exact E'.
  - destruct (conn_step s e) as [[s3 o3]|]; cbn [obind] in *; [|discriminate].
    destruct (conn_run s3 es) as [[s4 o4]|] eqn:R; cbn [obind] in *; [|discriminate]. injection E as <- <-.
    rewrite (IH _ _ _ _ _ _ R E'). cbn [obind]. rewrite app_assoc. reflexivity.
Qed.

(** Induction from the left with what was observed so far. *)
Lemma run_ind : forall (P : cconn -> nevent -> Prop) (I : cconn -> list noutput -> Prop),
  (forall s os e s' o, I s os -> P s e -> conn_step s e = Ret (s', o) -> I s' (os ++ o)) ->
  forall es s os s' o, I s os -> always P s es -> conn_run s es = Ret (s', o) -> I s' (os ++ o).
Proof.
  intros P I H. induction es as [|e es IH]; intros s os s' o Hs A E; cbn [conn_run always] in *.
  - injection E as <- <-. rewrite app_nil_r. exact Hs.
  - destruct A as [A A']. destruct (conn_step s e) as [[s1 o1]|] eqn:S; cbn [obind] in *; [|discriminate].
    destruct (conn_run s1 es) as [[s2 o2]|] eqn:R; cbn [obind] in *; [|discriminate]. injection E as <- <-.
    rewrite app_assoc. eapply IH; eauto.
Qed.

Lemma always_true : forall (P : cconn -> nevent -> Prop) es s, (forall s e, P s e) -> always P s es.
Proof. intros P. induction es as [|e es IH]; intros s H; cbn; auto. Qed.

Lemma always_app : forall P es es' s s1 o1, always P s (es ++ es') -> conn_run s es = Ret (s1, o1) -> always P s es /\ always P s1 es'.
Proof.
  intros P. induction es as [|e es IH]; intros es' s s1 o1 A E; cbn [conn_run always app] in *.
  - injection E as <- <-. auto.
  - destruct A as [A A']. destruct (conn_step s e) as [[s2 o2]|] eqn:S; cbn [obind] in *; [|discriminate].
    destruct (conn_run s2 es) as [[s3 o3]|] eqn:R; cbn [obind] in *; [|discriminate]. injection E as <- <-.
    destruct (IH _ _ _ _ (A' _ _ eq_refl) R) as [B B']. split; [split; [exact A|]|exact B'].
    intros s' o E. injection E as <- <-. exact B.
Qed.

(** ** The writer *)
Definition transfer_of (e : nevent) (P : writer -> nat -> nat -> Prop) (s : cconn) : Prop :=
  match e with NTransfer w n => P (cn_writer s) w n | _ => True end.

Lemma send_buffer_writer : forall P s s' o, send_buffer s = (s', o) -> wsteps P (cn_writer s) (writes o) (cn_writer s').
Proof.
  intros P s s' o E. unfold send_buffer in E. destruct (cn_shutdown s).
  - injection E as <- <-. constructor.
  - destruct (w_start _ _) as [c ow] eqn:W. injection E as <- <-. rewrite writes_map. apply wsteps_one. econstructor. exact W.
Qed.

Lemma begin_read_writer : forall s, cn_writer (begin_read s) = cn_writer s.
Proof. intro s. unfold begin_read. destruct (cn_shutdown s); reflexivity. Qed.
Lemma conn_close_writer : forall s, cn_writer (conn_close s) = cn_writer s.
Proof. intro s. unfold conn_close. destruct (cn_shutdown s); reflexivity. Qed.

Lemma step_writer : forall P s e s' o, transfer_of e P s -> conn_step s e = Ret (s', o) ->
  wsteps P (cn_writer s) (writes o) (cn_writer s').
Proof.
  intros P s e s' o T E. destruct e as [d x| | |ok|g ok|r x|w n|w ok]; cbn [conn_step] in E.
  - apply (f_equal (fun x => match x with Ret y => y | UB => (s, []) end)) in E. cbn in E. unfold conn_send in E.
    destruct (cn_shutdown s) eqn:SD; [injection E as <- <-; constructor|].
    cbn [cn_status with_writer] in E.
    assert (R : wsteps P (cn_writer s) [] (w_replace (cn_writer s) d)) by (apply wsteps_one; constructor).
    destruct (cn_status s).
    + destruct (negb (su_address x)); [injection E as <- <-; exact R|].
      destruct (negb (su_open x) || _); [injection E as <- <-; exact R|].
      destruct (negb (su_bind x)); injection E as <- <-; exact R.
    + injection E as <- <-. exact R.
    + apply (send_buffer_writer P) in E. cbn [cn_writer with_writer] in E. exact (wsteps_trans _ _ _ _ _ _ R E).
  - injection E as <- <-. constructor.
  - destruct (cn_queue s) as [|[|] q]; [injection E as <- <-; constructor| |].
    + apply (f_equal (fun x => match x with Ret y => y | UB => (s, []) end)) in E. cbn in E. unfold do_close in E.
      cbn [cn_shutdown with_nqueue cn_socket with_status] in E. destruct (cn_shutdown s); [injection E as <- <-; constructor|].
      destruct (cn_socket s); injection E as <- <-; [|constructor]. apply wsteps_one. constructor.
    + injection E as <- <-. apply wsteps_one. constructor.
  - destruct (cn_resolves s); [injection E as <- <-; constructor|].
    apply (f_equal (fun x => match x with Ret y => y | UB => (s, []) end)) in E. cbn in E. unfold resolve_handler in E.
    cbn [cn_shutdown with_resolves] in E. destruct (cn_shutdown s); [injection E as <- <-; constructor|].
    destruct ok; cbn [negb] in E; injection E as <- <-; [|constructor]. apply wsteps_one. constructor.
  - destruct (existsb _ _); [|injection E as <- <-; constructor].
    apply (f_equal (fun x => match x with Ret y => y | UB => (s, []) end)) in E. cbn beta iota in E. unfold connect_handler in E.
    cbn [cn_shutdown with_connects] in E. destruct (cn_shutdown s); [injection E as <- <-; constructor|].
    destruct ok; cbn [negb] in E.
    + destruct (send_buffer _) as [s1 o1] eqn:B. injection E as <- <-. apply (send_buffer_writer P) in B.
      rewrite begin_read_writer. exact B.
    + injection E as <- <-. rewrite conn_close_writer. constructor.
  - destruct (find_read _ _) as [g|]; [|injection E as <- <-; constructor].
    destruct (possible g x); [|injection E as <- <-; constructor].
    apply (f_equal (fun x => match x with Ret y => y | UB => (s, []) end)) in E. cbn beta iota in E. unfold read_handler in E.
    cbn [cn_shutdown with_reads] in E. destruct (cn_shutdown s); [injection E as <- <-; constructor|].
    destruct x, g; injection E as <- <-; rewrite ?begin_read_writer, ?conn_close_writer; constructor.
  - destruct (w_transfer (cn_writer s) w n) as [[c ow]|] eqn:W; cbn [obind] in E; [|discriminate]. injection E as <- <-.
    rewrite writes_map. apply wsteps_one. econstructor; [exact T|exact W].
  - apply (f_equal (fun x => match x with Ret y => y | UB => (s, []) end)) in E. cbn beta iota in E. unfold write_handler in E.
    destruct (w_complete (cn_writer s) w ok) as [[c ow]|] eqn:W; [|injection E as <- <-; constructor].
    destruct (cn_shutdown s); [injection E as <- <-; apply wsteps_one; constructor|].
    destruct ok; injection E as <- <-; rewrite ?conn_close_writer, writes_app, writes_map; cbn [writes flat_map]; rewrite app_nil_r;
      apply wsteps_one; econstructor; exact W.
Qed.

Theorem client_sound_writes : forall es s os, conn_run cconn_init es = Ret (s, os) -> sound_writes (writes os).
Proof.
  intros es s os E.
  assert (I : winv (cn_writer s) (writes ([] ++ os))).
  { apply (run_ind (fun _ _ => True) (fun s os => winv (cn_writer s) (writes os))) with (es := es) (s := cconn_init) (os := []); [|exact winv_init|apply always_true; auto|exact E].
    intros s1 os1 e s' o I _ St. rewrite writes_app. eapply winv_steps; [exact I|].
    apply (step_writer (fun _ _ _ => True)) in St; [exact St|]. destruct e; exact Logic.I. }
  exact (wi_sound _ _ I).
Qed.

Theorem client_complete_writes : forall es s os, conn_run cconn_init es = Ret (s, os) -> always whole_transfers cconn_init es ->
  complete_writes (writes os).
Proof.
  intros es s os E A.
  assert (I : full (cn_writer s) (writes ([] ++ os))).
  { apply (run_ind whole_transfers (fun s os => full (cn_writer s) (writes os))) with (es := es) (s := cconn_init) (os := []); [|exact full_init|exact A|exact E].
    intros s1 os1 e s' o I P St. rewrite writes_app. eapply full_steps; [exact I|].
    apply (step_writer takes_all) in St; [exact St|]. destruct e; exact P || exact Logic.I. }
  exact (fu_complete _ _ I).
Qed.

(** ** No freed buffer is used *)
Lemma calm_send_buffer : forall s, wr_ops (cn_writer s) = [] -> calm (cn_writer (fst (send_buffer s))).
Proof.
  intros s H. unfold send_buffer. destruct (cn_shutdown s); [left; exact H|].
  pose proof (calm_start (cn_writer s) (match cn_socket s with Some _ => true | None => false end) H) as K.
  destruct (w_start _ _) as [c o]. exact K.
Qed.

Lemma calm_step : forall s e, calm (cn_writer s) -> writes_settled s e ->
  exists s' o, conn_step s e = Ret (s', o) /\ calm (cn_writer s').
Proof.
  intros s e C W. destruct e as [d x| | |ok|g ok|r x|w n|w ok]; cbn [conn_step].
  - cbn in W. unfold conn_send. destruct (cn_shutdown s); [do 2 eexists; split; [reflexivity|exact C]|].
    cbn [cn_status with_writer]. destruct (cn_status s).
    + destruct (negb (su_address x)); [do 2 eexists; split; [reflexivity|left; exact W]|].
      destruct (negb (su_open x) || _); [do 2 eexists; split; [reflexivity|left; exact W]|].
      destruct (negb (su_bind x)); do 2 eexists; (split; [reflexivity|left; exact W]).
    + do 2 eexists; split; [reflexivity|left; exact W].
    + pose proof (calm_send_buffer (with_writer s (w_replace (cn_writer s) d)) W) as K.
      destruct (send_buffer _) as [s' o]. exists s', o. split; [reflexivity|exact K].
  - do 2 eexists; split; [reflexivity|exact C].
  - destruct (cn_queue s) as [|[|] q]; [do 2 eexists; split; [reflexivity|exact C]| |].
    + unfold do_close. cbn [cn_shutdown with_nqueue cn_socket with_status].
      destruct (cn_shutdown s); [do 2 eexists; split; [reflexivity|exact C]|].
      destruct (cn_socket s); do 2 eexists; (split; [reflexivity|]); [apply calm_abort, C|exact C].
    + do 2 eexists; split; [reflexivity|apply calm_abort, C].
  - destruct (cn_resolves s); [do 2 eexists; split; [reflexivity|exact C]|].
    unfold resolve_handler. cbn [cn_shutdown with_resolves]. destruct (cn_shutdown s); [do 2 eexists; split; [reflexivity|exact C]|].
    destruct ok; cbn [negb]; do 2 eexists; (split; [reflexivity|]); [apply calm_abort, C|exact C].
  - destruct (existsb _ _); [|do 2 eexists; split; [reflexivity|exact C]].
    unfold connect_handler. cbn [cn_shutdown with_connects]. destruct (cn_shutdown s); [do 2 eexists; split; [reflexivity|exact C]|].
    destruct ok; cbn [negb].
    + match goal with |- context [send_buffer ?z] => pose proof (calm_send_buffer z W) as K; destruct (send_buffer z) as [s' o] end.
      do 2 eexists; split; [reflexivity|]. rewrite begin_read_writer. exact K.
    + do 2 eexists; split; [reflexivity|]. rewrite conn_close_writer. exact C.
  - destruct (find_read _ _) as [g|]; [|do 2 eexists; split; [reflexivity|exact C]].
    destruct (possible g x); [|do 2 eexists; split; [reflexivity|exact C]].
    unfold read_handler. cbn [cn_shutdown with_reads]. destruct (cn_shutdown s); [do 2 eexists; split; [reflexivity|exact C]|].
    destruct x, g; do 2 eexists; (split; [reflexivity|]); rewrite ?begin_read_writer, ?conn_close_writer; exact C.
  - destruct (calm_transfer _ w n C) as (c & o & E & K). rewrite E. cbn [obind]. do 2 eexists; split; [reflexivity|exact K].
  - unfold write_handler. destruct (w_complete (cn_writer s) w ok) as [[c ow]|] eqn:E; [|do 2 eexists; split; [reflexivity|exact C]].
    apply (calm_complete _ _ _ _ _ C) in E.
    destruct (cn_shutdown s); [do 2 eexists; split; [reflexivity|apply calm_forget, C]|].
    destruct ok; do 2 eexists; (split; [reflexivity|]); rewrite ?conn_close_writer; exact E.
Qed.

Lemma calm_run : forall es s, calm (cn_writer s) -> always writes_settled s es -> exists s' os, conn_run s es = Ret (s', os).
Proof.
  induction es as [|e es IH]; intros s C A; cbn [conn_run always] in *.
  - do 2 eexists. reflexivity.
  - destruct A as [A A']. destruct (calm_step _ _ C A) as (s1 & o1 & E & C1). rewrite E. cbn [obind].
    destruct (IH _ C1 (A' _ _ E)) as (s2 & o2 & E2). rewrite E2. cbn [obind]. do 2 eexists. reflexivity.
Qed.

Theorem client_buffers_alive : forall es, always writes_settled cconn_init es -> exists s os, conn_run cconn_init es = Ret (s, os).
Proof. intros es. apply calm_run. left. reflexivity. Qed.

(** ** Failures are bounded *)
Lemma count_app : forall p a b, count p (a ++ b) = (count p a + count p b)%nat.
Proof. intros. unfold count. rewrite filter_app, app_length. reflexivity. Qed.

Lemma count_writes : forall p o, (forall w, p (Write w) = false) -> count p (map Write o) = 0%nat.
Proof. intros p o H. unfold count. induction o as [|x o IH]; [reflexivity|]. cbn. rewrite H. exact IH. Qed.

Lemma filter_le : forall (A : Type) (f : A -> bool) l, (List.length (filter f l) <= List.length l)%nat.
Proof. induction l as [|x l IH]; cbn; [lia|]. destruct (f x); cbn; lia. Qed.

Lemma filter_lt : forall (A : Type) (f : A -> bool) l, existsb (fun x => negb (f x)) l = true ->
  (S (List.length (filter f l)) <= List.length l)%nat.
Proof.
  induction l as [|x l IH]; cbn; intro H; [discriminate|]. destruct (f x); cbn in *.
  - specialize (IH H). lia.
  - pose proof (filter_le _ f l). lia.
Qed.

Definition outstanding (s : cconn) : nat := cn_resolves s + List.length (cn_connects s) + List.length (cn_reads s).

Lemma find_read_lt : forall l r g, find_read l r = Some g ->
  (S (List.length (filter (fun x => negb (Nat.eqb (fst x) r)) l)) <= List.length l)%nat.
Proof.
  intros l r g H. apply filter_lt. revert H. induction l as [|[r' g'] l IH]; cbn; intro H; [discriminate|].
  rewrite Bool.negb_involutive. destruct (Nat.eqb r' r); [reflexivity|]. cbn. auto.
Qed.

Lemma send_buffer_frame : forall s s' o, send_buffer s = (s', o) ->
  exists ow, o = map Write ow /\ cn_resolves s' = cn_resolves s /\ cn_connects s' = cn_connects s /\ cn_reads s' = cn_reads s /\
    cn_status s' = cn_status s /\ cn_socket s' = cn_socket s /\ cn_queue s' = cn_queue s /\ cn_shutdown s' = cn_shutdown s /\
    cn_next_socket s' = cn_next_socket s /\ (forall w, ~ In (WFailed w) ow).
Proof.
  intros s s' o E. unfold send_buffer in E. destruct (cn_shutdown s) eqn:SD.
  - injection E as <- <-. exists []. repeat split; auto.
  - destruct (w_start _ _) as [c ow] eqn:W. injection E as <- <-. exists ow. cbn. repeat split; auto.
    unfold w_start in W. destruct (wr_buffer _); injection W as <- <-; cbn; intros w K; [destruct K as [K|[]]; discriminate K|contradiction].
Qed.

Lemma no_write_failures : forall ow, (forall w, ~ In (WFailed w) ow) -> count is_write_failure (map Write ow) = 0%nat.
Proof.
  induction ow as [|x ow IH]; intro H; [reflexivity|]. unfold count in *. cbn.
  destruct x as [? ?|? ?|?|w]; cbn; try (apply IH; intros v K; exact (H v (or_intror K))).
  exfalso. apply (H w). left. reflexivity.
Qed.

Lemma failures_step : forall s e s' o, conn_step s e = Ret (s', o) ->
  (count is_failed o + outstanding s' <= outstanding s + count is_attempt o + count is_write_failure o)%nat.
Proof.
  intros s e s' o E. unfold outstanding. destruct e as [d x| | |ok|g ok|r x|w n|w ok]; cbn [conn_step] in E.
  - apply (f_equal (fun x => match x with Ret y => y | UB => (s, []) end)) in E. cbn in E. unfold conn_send in E.
    destruct (cn_shutdown s); [injection E as <- <-; cbn; lia|].
    cbn [cn_status with_writer] in E. destruct (cn_status s).
    + destruct (negb (su_address x)); [injection E as <- <-; cbn; lia|].
      destruct (negb (su_open x) || _); [injection E as <- <-; cbn; lia|].
      destruct (negb (su_bind x)); injection E as <- <-; cbn; lia.
    + injection E as <- <-. cbn. lia.
    + apply send_buffer_frame in E as (ow & -> & E1 & E2 & E3 & _). rewrite E1, E2, E3. cbn [cn_resolves cn_connects cn_reads with_writer].
      rewrite count_writes by reflexivity. lia.
  - injection E as <- <-. cbn. lia.
  - destruct (cn_queue s) as [|[|] q]; [injection E as <- <-; cbn; lia| |].
    + apply (f_equal (fun x => match x with Ret y => y | UB => (s, []) end)) in E. cbn in E. unfold do_close in E.
      cbn [cn_shutdown with_nqueue cn_socket with_status] in E. destruct (cn_shutdown s); [injection E as <- <-; cbn; lia|].
      destruct (cn_socket s); injection E as <- <-; cbn; lia.
    + injection E as <- <-. cbn. lia.
  - destruct (cn_resolves s) eqn:RS; [injection E as <- <-; rewrite RS; cbn; lia|].
    apply (f_equal (fun x => match x with Ret y => y | UB => (s, []) end)) in E. cbn in E. unfold resolve_handler in E.
    cbn [cn_shutdown with_resolves] in E. destruct (cn_shutdown s); [injection E as <- <-; cbn; lia|].
    destruct ok; cbn [negb] in E; injection E as <- <-; cbn; rewrite ?app_length; cbn; lia.
  - destruct (existsb _ _) eqn:EX; [|injection E as <- <-; cbn; lia].
    apply (f_equal (fun x => match x with Ret y => y | UB => (s, []) end)) in E. cbn beta iota in E. unfold connect_handler in E.
    assert (L : (S (List.length (filter (fun x => negb (Nat.eqb x g)) (cn_connects s))) <= List.length (cn_connects s))%nat).
    { apply filter_lt. erewrite <- EX. clear. induction (cn_connects s) as [|y l IH]; [reflexivity|]. cbn [existsb].
      rewrite Bool.negb_involutive, Nat.eqb_sym, IH. reflexivity. }
    cbn [cn_shutdown with_connects] in E. destruct (cn_shutdown s) eqn:SD; [injection E as <- <-; cbn; lia|].
    destruct ok; cbn [negb] in E.
    + destruct (send_buffer _) as [s1 o1] eqn:B. injection E as <- <-. apply send_buffer_frame in B as (ow & -> & E1 & E2 & E3 & _ & _ & _ & E4 & _).
      unfold begin_read. rewrite E4. cbn [cn_shutdown with_status with_connects]. rewrite SD. cbn [cn_resolves cn_connects cn_reads with_reads].
      rewrite E1, E2, E3. cbn [cn_resolves cn_connects cn_reads with_status with_connects].
      change (Established g :: map Write ow) with ([Established g] ++ map Write ow). rewrite !count_app, (count_writes is_failed) by reflexivity.
      rewrite app_length. cbn. lia.
    + injection E as <- <-. unfold conn_close. cbn [cn_shutdown with_connects]. rewrite SD. cbn. lia.
  - destruct (find_read _ _) as [g|] eqn:F; [|injection E as <- <-; cbn; lia].
    destruct (possible g x); [|injection E as <- <-; cbn; lia]. apply find_read_lt in F.
    apply (f_equal (fun x => match x with Ret y => y | UB => (s, []) end)) in E. cbn beta iota in E. unfold read_handler in E.
    cbn [cn_shutdown with_reads] in E. destruct (cn_shutdown s) eqn:SD; [injection E as <- <-; cbn; lia|].
    destruct x, g; injection E as <- <-; unfold conn_close, begin_read; cbn [cn_shutdown with_reads]; rewrite ?SD;
      cbn [cn_resolves cn_connects cn_reads with_reads with_nqueue]; rewrite ?app_length; cbn; lia.
  - destruct (w_transfer (cn_writer s) w n) as [[c ow]|] eqn:W; cbn [obind] in E; [|discriminate]. injection E as <- <-.
    rewrite (count_writes is_failed) by reflexivity. cbn. lia.
  - apply (f_equal (fun x => match x with Ret y => y | UB => (s, []) end)) in E. cbn beta iota in E. unfold write_handler in E.
    destruct (w_complete (cn_writer s) w ok) as [[c ow]|] eqn:W; [|injection E as <- <-; cbn; lia].
    destruct (cn_shutdown s) eqn:SD; [injection E as <- <-; cbn; lia|].
    destruct ok; injection E as <- <-; rewrite ?count_app, ?(count_writes is_failed) by reflexivity.
    + cbn. lia.
    + unfold w_complete in W. destruct (find_op _ _); [|discriminate W]. injection W as <- <-.
      unfold conn_close. cbn [cn_shutdown with_writer]. rewrite SD. cbn. lia.
Qed.

Theorem failures_bounded : forall es s os, conn_run cconn_init es = Ret (s, os) ->
  (count is_failed os <= count is_attempt os + count is_write_failure os)%nat.
Proof.
  intros es s os E.
  assert (I : (count is_failed ([] ++ os) + outstanding s <= count is_attempt ([] ++ os) + count is_write_failure ([] ++ os))%nat).
  { apply (run_ind (fun _ _ => True) (fun s os => (count is_failed os + outstanding s <= count is_attempt os + count is_write_failure os)%nat)) with (es := es) (s := cconn_init) (os := []);
      [|cbn; lia|apply always_true; auto|exact E].
    intros s1 os1 e s' o I _ St. apply failures_step in St. rewrite !count_app. lia. }
  cbn [app] in I. lia.
Qed.

(** ** After shutdown *)
Definition dead (s : cconn) : Prop := cn_shutdown s = true /\ Forall (fun o => w_aborted o = true) (wr_ops (cn_writer s)).

Lemma aborted_transfer : forall c w n, Forall (fun o => w_aborted o = true) (wr_ops c) -> w_transfer c w n = Ret (c, []).
Proof.
  intros c w n H. unfold w_transfer. destruct (find_op (wr_ops c) w) as [x|] eqn:F; [|reflexivity].
  apply find_op_In in F as [F _]. rewrite Forall_forall in H. rewrite (H _ F). reflexivity.
Qed.

Lemma aborted_filter : forall f l, Forall (fun o => w_aborted o = true) l -> Forall (fun o => w_aborted o = true) (filter f l).
Proof. intros f l H. rewrite Forall_forall in *. intros x K. apply filter_In in K as [K _]. auto. Qed.

Lemma aborted_abort : forall c, Forall (fun o => w_aborted o = true) (wr_ops (w_abort c)).
Proof. intro c. rewrite Forall_forall. intros x K. apply in_map_iff in K as (y & <- & _). reflexivity. Qed.

Lemma dead_step : forall s e, dead s -> exists s', conn_step s e = Ret (s', []) /\ dead s'.
Proof.
  intros s e [D A]. destruct e as [d x| | |ok|g ok|r x|w n|w ok]; cbn [conn_step].
  - unfold conn_send. rewrite D. eexists. split; [reflexivity|split; assumption].
  - eexists. split; [reflexivity|split; assumption].
  - destruct (cn_queue s) as [|[|] q]; [eexists; split; [reflexivity|split; assumption]| |].
    + unfold do_close. cbn [cn_shutdown with_nqueue]. rewrite D. eexists; split; [reflexivity|split; assumption].
    + eexists; split; [reflexivity|split; [reflexivity|]]. apply aborted_abort.
  - destruct (cn_resolves s); [eexists; split; [reflexivity|split; assumption]|].
    unfold resolve_handler. cbn [cn_shutdown with_resolves]. rewrite D. eexists; split; [reflexivity|split; assumption].
  - destruct (existsb _ _); [|eexists; split; [reflexivity|split; assumption]].
    unfold connect_handler. cbn [cn_shutdown with_connects]. rewrite D. eexists; split; [reflexivity|split; assumption].
  - destruct (find_read _ _) as [g|]; [|eexists; split; [reflexivity|split; assumption]].
    destruct (possible g x); [|eexists; split; [reflexivity|split; assumption]].
    unfold read_handler. cbn [cn_shutdown with_reads]. rewrite D. eexists; split; [reflexivity|split; assumption].
  - rewrite aborted_transfer by exact A. cbn [obind]. eexists; split; [reflexivity|]. split; assumption.
  - unfold write_handler. destruct (w_complete (cn_writer s) w ok) as [[c ow]|] eqn:E; [|eexists; split; [reflexivity|split; assumption]].
    rewrite D. eexists; split; [reflexivity|]. split; [exact D|]. apply aborted_filter, A.
Qed.

Lemma dead_run : forall es s, dead s -> exists s', conn_run s es = Ret (s', []).
Proof.
  induction es as [|e es IH]; intros s D; cbn [conn_run]; [eexists; reflexivity|].
  destruct (dead_step s e D) as (s1 & E & D1). rewrite E. cbn [obind]. destruct (IH _ D1) as (s2 & E2). rewrite E2. eexists; reflexivity.
Qed.

Lemma dead_stays : forall es s s' os, dead s -> conn_run s es = Ret (s', os) -> dead s'.
Proof.
  induction es as [|e es IH]; intros s s' os D R; cbn [conn_run] in R; [injection R as <- <-; exact D|].
  destruct (dead_step s e D) as (s1 & E & D1). rewrite E in R. cbn [obind] in R.
  destruct (conn_run s1 es) as [[s2 o2]|] eqn:R2; cbn [obind] in R; [|discriminate]. injection R as <- <-. eauto.
Qed.

(** Where the closures are. *)
Lemma step_queue : forall s e s' o, conn_step s e = Ret (s', o) ->
  exists q, cn_queue s' = (match e with NRun => tl (cn_queue s) | _ => cn_queue s end) ++ q.
Proof.
  intros s e s' o E. destruct e as [d x| | |ok|g ok|r x|w n|w ok]; cbn [conn_step] in E.
  - apply (f_equal (fun x => match x with Ret y => y | UB => (s, []) end)) in E. cbn in E. unfold conn_send in E.
    destruct (cn_shutdown s); [injection E as <- <-; exists []; rewrite app_nil_r; reflexivity|].
    cbn [cn_status with_writer] in E. exists []. rewrite app_nil_r. destruct (cn_status s).
    + destruct (negb (su_address x)); [injection E as <- <-; reflexivity|].
      destruct (negb (su_open x) || _); [injection E as <- <-; reflexivity|].
      destruct (negb (su_bind x)); injection E as <- <-; reflexivity.
    + injection E as <- <-. reflexivity.
    + apply send_buffer_frame in E as (ow & _ & _ & _ & _ & _ & _ & -> & _). reflexivity.
  - injection E as <- <-. eexists. reflexivity.
  - destruct (cn_queue s) as [|[|] q] eqn:QQ; [injection E as <- <-; exists []; exact QQ| |].
    + apply (f_equal (fun x => match x with Ret y => y | UB => (s, []) end)) in E. cbn in E. unfold do_close in E.
      cbn [cn_shutdown with_nqueue cn_socket with_status] in E. exists []. rewrite app_nil_r. cbn [tl].
      destruct (cn_shutdown s); [injection E as <- <-; reflexivity|].
      destruct (cn_socket s); injection E as <- <-; reflexivity.
    + injection E as <- <-. exists []. rewrite app_nil_r. reflexivity.
  - exists []. rewrite app_nil_r. destruct (cn_resolves s); [injection E as <- <-; reflexivity|].
    apply (f_equal (fun x => match x with Ret y => y | UB => (s, []) end)) in E. cbn in E. unfold resolve_handler in E.
    cbn [cn_shutdown with_resolves] in E. destruct (cn_shutdown s); [injection E as <- <-; reflexivity|].
    destruct ok; cbn [negb] in E; injection E as <- <-; reflexivity.
  - destruct (existsb _ _); [|injection E as <- <-; exists []; rewrite app_nil_r; reflexivity].
    apply (f_equal (fun x => match x with Ret y => y | UB => (s, []) end)) in E. cbn beta iota in E. unfold connect_handler in E.
    cbn [cn_shutdown with_connects] in E. destruct (cn_shutdown s) eqn:SD; [injection E as <- <-; exists []; rewrite app_nil_r; reflexivity|].
    destruct ok; cbn [negb] in E.
    + destruct (send_buffer _) as [s1 o1] eqn:B. injection E as <- <-. apply send_buffer_frame in B as (ow & _ & _ & _ & _ & _ & _ & Q & SD1 & _).
      unfold begin_read. rewrite SD1. cbn [cn_shutdown with_status with_connects]. rewrite SD. cbn [cn_queue with_reads]. rewrite Q.
      exists []. rewrite app_nil_r. reflexivity.
    + injection E as <- <-. unfold conn_close. cbn [cn_shutdown with_connects]. rewrite SD. eexists. reflexivity.
  - destruct (find_read _ _) as [g|]; [|injection E as <- <-; exists []; rewrite app_nil_r; reflexivity].
    destruct (possible g x); [|injection E as <- <-; exists []; rewrite app_nil_r; reflexivity].
    apply (f_equal (fun x => match x with Ret y => y | UB => (s, []) end)) in E. cbn beta iota in E. unfold read_handler in E.
    cbn [cn_shutdown with_reads] in E. destruct (cn_shutdown s) eqn:SD; [injection E as <- <-; exists []; rewrite app_nil_r; reflexivity|].
    destruct x, g; injection E as <- <-; unfold conn_close, begin_read; cbn [cn_shutdown with_reads]; rewrite ?SD;
      cbn [cn_queue with_reads with_nqueue]; try (eexists; reflexivity); exists []; rewrite app_nil_r; reflexivity.
  - destruct (w_transfer (cn_writer s) w n) as [[c ow]|] eqn:W; cbn [obind] in E; [|discriminate]. injection E as <- <-.
    exists []; rewrite app_nil_r; reflexivity.
  - apply (f_equal (fun x => match x with Ret y => y | UB => (s, []) end)) in E. cbn beta iota in E. unfold write_handler in E.
    destruct (w_complete (cn_writer s) w ok) as [[c ow]|] eqn:W; [|injection E as <- <-; exists []; rewrite app_nil_r; reflexivity].
    destruct (cn_shutdown s) eqn:SD; [injection E as <- <-; exists []; rewrite app_nil_r; reflexivity|].
    destruct ok; injection E as <- <-.
    + exists []; rewrite app_nil_r; reflexivity.
    + unfold conn_close. cbn [cn_shutdown with_writer]. rewrite SD. eexists. reflexivity.
Qed.

Lemma run_shutdown : forall es s p q s' os, cn_queue s = p ++ NDoShutdown :: q -> (List.length p < runs es)%nat ->
  conn_run s es = Ret (s', os) -> dead s'.
Proof.
  induction es as [|e es IH]; intros s p q s' os Q L E; cbn [conn_run] in E; [cbn in L; lia|].
  destruct (conn_step s e) as [[s1 o1]|] eqn:S; cbn [obind] in E; [|discriminate].
  destruct (conn_run s1 es) as [[s2 o2]|] eqn:R; cbn [obind] in E; [|discriminate]. injection E as <- <-.
  destruct (step_queue _ _ _ _ S) as (q' & Q'). rewrite Q in Q'.
  assert (NR : (e = NRun) \/ (runs (e :: es) = runs es /\ cn_queue s1 = p ++ NDoShutdown :: (q ++ q'))).
  { destruct e; auto; right; (split; [reflexivity|]); rewrite Q', <- app_assoc; reflexivity. }
  destruct NR as [->|[NR Q1]].
  - destruct p as [|x p].
    + cbn [conn_step] in S. rewrite Q in S. injection S as <- <-.
      eapply dead_stays; [|exact R]. split; [reflexivity|apply aborted_abort].
    + eapply (IH s1 p (q ++ q')); [|change (runs (NRun :: es)) with (1 + runs es)%nat in L; cbn [List.length] in L; lia|exact R]. rewrite Q'. cbn [app tl]. rewrite <- app_assoc. reflexivity.
  - eapply (IH s1 p (q ++ q')); [exact Q1|lia|exact R].
Qed.

Theorem shutdown_silent : forall es s os es1 s1 os1 es2,
  conn_run cconn_init es = Ret (s, os) -> conn_run s (NShutdown :: es1) = Ret (s1, os1) -> (List.length (cn_queue s) < runs es1)%nat ->
  exists s2, conn_run s1 es2 = Ret (s2, []).
Proof.
  intros es s os es1 s1 os1 es2 _ E L. cbn [conn_run conn_step obind] in E.
  destruct (conn_run _ es1) as [[s3 o3]|] eqn:R; cbn [obind] in E; [|discriminate]. injection E as <- <-.
  apply dead_run. eapply (run_shutdown es1 _ (cn_queue s) []); [|exact L|exact R]. reflexivity.
Qed.
