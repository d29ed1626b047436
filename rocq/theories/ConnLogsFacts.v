(** Proofs about ConnLogs.v. *)
From Verif Require Import Prelude AsyncWrite ClientConn ServerConn SpecConn WriteFacts ConnFacts ServerConnFacts ConnLogs SpecConnLogs.
From Coq Require Import Lia.

Lemma did_app {O} (a b : list (tentry O)) : did (a ++ b) = did a ++ did b.
Proof. apply flat_map_app. Qed.
Lemma said_app {O} (a b : list (tentry O)) : said (a ++ b) = said a ++ said b.
Proof. apply flat_map_app. Qed.
Lemma said_S {O} x (l : list (tentry O)) : said (Said x :: l) = x :: said l.
Proof. reflexivity. Qed.
Lemma said_D {O} o (l : list (tentry O)) : said (Did o :: l) = said l.
Proof. reflexivity. Qed.
Lemma did_map {O A} (f : A -> O) l : did (map (fun x => Did (f x)) l) = map f l.
Proof. induction l as [|x l IH]; [reflexivity|]. cbn. f_equal. exact IH. Qed.
Lemma did_Did {O} (l : list O) : did (map Did l) = l.
Proof. induction l as [|x l IH]; [reflexivity|]. cbn. f_equal. exact IH. Qed.
Lemma did_Said {O} l : did (map (@Said O) l) = [].
Proof. induction l as [|x l IH]; [reflexivity|]. exact IH. Qed.
Lemma said_map {O A} (f : A -> O) l : said (map (fun x => Did (f x)) l) = [].
Proof. induction l as [|x l IH]; [reflexivity|]. exact IH. Qed.
Lemma said_Did {O} (l : list O) : said (map Did l) = [].
Proof. induction l as [|x l IH]; [reflexivity|]. exact IH. Qed.
Lemma said_Said {O} l : said (map (@Said O) l) = l.
Proof. induction l as [|x l IH]; [reflexivity|]. cbn. f_equal. exact IH. Qed.

(** ** Without the lines *)

Definition quiet_log {S O} (x : S * list (tentry O)) : S * list O := let '(s, l) := x in (s, did l).

Ltac erased := cbn [quiet_log]; rewrite ?did_app, ?did_Did, ?did_Said, ?did_map; reflexivity.

Lemma step_quiet s e : conn_step s e = omap quiet_log (log_conn_step s e).
Proof.
  destruct e as [d x| | |ok|g ok|r x|w n|w ok]; cbn [conn_step log_conn_step]; try reflexivity.
  - unfold log_conn_send. destruct (conn_send s d x) as [s' o]. cbn [omap]. erased.
  - destruct (cn_queue s) as [|[|] q]; try reflexivity. unfold log_do_close. set (s1 := with_nqueue s q).
    destruct (do_close s1) as [s' o]. destruct (cn_shutdown s1); [|destruct (cn_socket s1)]; cbn [omap]; erased.
  - destruct (cn_resolves s) as [|n]; [reflexivity|]. unfold log_resolve_handler. set (s1 := with_resolves s n).
    destruct (resolve_handler s1 ok) as [s' o]. destruct (cn_shutdown s1); [|destruct (negb ok)]; cbn [omap]; erased.
  - destruct (existsb _ _); [|reflexivity]. unfold log_connect_handler. set (s1 := with_connects s _).
    destruct (connect_handler s1 g ok) as [s' o]. destruct (cn_shutdown s1); [|destruct (negb ok)]; cbn [omap]; erased.
  - destruct (find_read _ _) as [g|]; [|reflexivity]. destruct (possible g x); [|reflexivity]. unfold log_read_handler. set (s1 := with_reads s _ _).
    destruct (read_handler s1 g x) as [s' o]. destruct (cn_shutdown s1); [|destruct x]; cbn [omap]; erased.
  - destruct (w_transfer _ _ _) as [[c o]|]; [|reflexivity]. cbn [obind omap]. erased.
  - unfold write_handler, log_write_handler. destruct (w_complete (cn_writer s) w ok) as [[c o]|]; [|reflexivity].
    destruct (cn_shutdown s); [reflexivity|]. destruct ok; cbn [negb omap]; cbn [quiet_log]; rewrite did_app, did_map; reflexivity.
Qed.

Lemma run_quiet : forall es s, conn_run s es =
  match log_conn_run s es with Ret (s', l) => Ret (s', did l) | UB => UB end.
Proof.
  induction es as [|e es IH]; intro s; [reflexivity|]. cbn [conn_run log_conn_run]. rewrite step_quiet.
  destruct (log_conn_step s e) as [[s1 l]|]; cbn [omap obind quiet_log]; [|reflexivity]. rewrite IH.
  destruct (log_conn_run s1 es) as [[s2 l']|]; cbn [obind]; [|reflexivity]. rewrite did_app. reflexivity.
Qed.

Lemma vstep_quiet s e : vconn_step s e = omap quiet_log (log_vconn_step s e).
Proof.
  destruct e as [|d| | | |r x|w n|w ok]; cbn [vconn_step log_vconn_step]; try reflexivity.
  - unfold log_v_start. destruct (v_start s) as [s' o]. destruct (vn_shutdown s); cbn [omap]; erased.
  - destruct (v_send s d) as [s' o]. cbn [omap]. erased.
  - destruct (vn_queue s) as [|[|] q]; try reflexivity. unfold log_v_do_close. set (s1 := with_vqueue s q).
    destruct (v_do_close s1) as [s' o]. destruct (vn_shutdown s1); [|destruct (vn_open s1)]; cbn [omap]; erased.
  - destruct (find_vread _ _) as [g|]; [|reflexivity]. destruct (g || _); [|reflexivity]. unfold log_v_read_handler. set (s1 := with_vreads s _ _).
    destruct (v_read_handler s1 x) as [s' o]. destruct (vn_shutdown s1); [|destruct x]; cbn [omap]; erased.
  - destruct (w_transfer _ _ _) as [[c o]|]; [|reflexivity]. cbn [obind omap]. erased.
  - unfold v_write_handler, log_v_write_handler. destruct (w_complete (vn_writer s) w ok) as [[c o]|]; [|reflexivity].
    destruct (vn_shutdown s); [reflexivity|]. destruct ok; cbn [negb omap]; cbn [quiet_log]; rewrite did_app, did_map; reflexivity.
Qed.

Lemma vrun_quiet : forall es s, vconn_run s es =
  match log_vconn_run s es with Ret (s', l) => Ret (s', did l) | UB => UB end.
Proof.
  induction es as [|e es IH]; intro s; [reflexivity|]. cbn [vconn_run log_vconn_run]. rewrite vstep_quiet.
  destruct (log_vconn_step s e) as [[s1 l]|]; cbn [omap obind quiet_log]; [|reflexivity]. rewrite IH.
  destruct (log_vconn_run s1 es) as [[s2 l']|]; cbn [obind]; [|reflexivity]. rewrite did_app. reflexivity.
Qed.

(** ** Induction *)

Lemma log_ind (P : cconn -> nevent -> Prop) (I : cconn -> list (tentry noutput) -> Prop) :
  (forall s l e s' l', I s l -> P s e -> log_conn_step s e = Ret (s', l') -> I s' (l ++ l')) ->
  forall es s l s' l', I s l -> (forall s, Forall (P s) es) -> log_conn_run s es = Ret (s', l') -> I s' (l ++ l').
Proof.
  intro H. induction es as [|e es IH]; intros s l s' l' Hs A E; cbn [log_conn_run] in E.
  - injection E as <- <-. rewrite app_nil_r. exact Hs.
  - destruct (log_conn_step s e) as [[s1 l1]|] eqn:St; cbn [obind] in E; [|discriminate].
    destruct (log_conn_run s1 es) as [[s2 l2]|] eqn:R; cbn [obind] in E; [|discriminate]. injection E as <- <-.
    rewrite app_assoc. eapply IH; [|intro x; exact (Forall_inv_tail (A x))|exact R].
    eapply H; [exact Hs|exact (Forall_inv (A s))|exact St].
Qed.

Lemma vlog_ind (P : sconn -> vevent -> Prop) (I : sconn -> list (tentry voutput) -> Prop) :
  (forall s l e s' l', I s l -> P s e -> log_vconn_step s e = Ret (s', l') -> I s' (l ++ l')) ->
  forall es s l s' l', I s l -> (forall s, Forall (P s) es) -> log_vconn_run s es = Ret (s', l') -> I s' (l ++ l').
Proof.
  intro H. induction es as [|e es IH]; intros s l s' l' Hs A E; cbn [log_vconn_run] in E.
  - injection E as <- <-. rewrite app_nil_r. exact Hs.
  - destruct (log_vconn_step s e) as [[s1 l1]|] eqn:St; cbn [obind] in E; [|discriminate].
    destruct (log_vconn_run s1 es) as [[s2 l2]|] eqn:R; cbn [obind] in E; [|discriminate]. injection E as <- <-.
    rewrite app_assoc. eapply IH; [|intro x; exact (Forall_inv_tail (A x))|exact R].
    eapply H; [exact Hs|exact (Forall_inv (A s))|exact St].
Qed.

Lemma all_true {A} (es : list A) : Forall (fun _ => True) es.
Proof. apply Forall_forall. trivial. Qed.

(** ** Every line is next to what it is about *)

Lemma start_outputs c b c' o : w_start c b = (c', o) -> o = [] \/ exists w d, o = [WStarted w d].
Proof. unfold w_start. destruct (wr_buffer c) as [b'|]; intros [= <- <-]; eauto. Qed.

Lemma transfer_outputs c w n c' o : w_transfer c w n = Ret (c', o) -> o = [] \/ exists d, o = [WTook w d].
Proof.
  unfold w_transfer. destruct (find_op _ _) as [x|]; [|intros [= <- <-]; auto].
  destruct (_ || _); [intros [= <- <-]; auto|]. destruct (match wr_buffer c with Some _ => _ | None => _ end); [|discriminate].
  intros [= <- <-]. eauto.
Qed.

Lemma complete_outputs c w ok c' o : w_complete c w ok = Some (c', o) -> o = [if ok then WDone w else WFailed w].
Proof.
  unfold w_complete. destruct (find_op _ _) as [x|]; [|discriminate]. destruct ok.
  - destruct (w_taken x); [|discriminate]. intros [= <- <-]. reflexivity.
  - intros [= <- <-]. reflexivity.
Qed.

Lemma complete_transferred c w c' o os : winv c os -> w_complete c w true = Some (c', o) ->
  exists d, In (w, d) (took os) /\ transferred c w = List.length d.
Proof.
  intros I. unfold w_complete, transferred. destruct (find_op (wr_ops c) w) as [x|] eqn:F; [|discriminate].
  apply find_op_In in F as [F <-]. destruct (w_taken x) as [n|] eqn:T; [|discriminate]. intros _.
  destruct (wi_taken _ _ I x n F T) as (_ & L & K). exists (firstn n (snd (w_buf x))). split; [exact K|].
  rewrite firstn_length. lia.
Qed.

Lemma send_buffer_outputs s s' o : send_buffer s = (s', o) -> o = [] \/ exists w d, o = [Write (WStarted w d)].
Proof.
  unfold send_buffer. destruct (cn_shutdown s); [intros [= <- <-]; auto|].
  destruct (w_start _ _) as [c ow] eqn:E. intros [= <- <-]. apply start_outputs in E as [->|(w & d & ->)]; [auto|right; exists w, d; reflexivity].
Qed.

Lemma cl_step s l e s' l' : client_log l -> winv (cn_writer s) (writes (did l)) -> log_conn_step s e = Ret (s', l') -> client_log (l ++ l').
Proof.
  intros C I. assert (C0 : client_log (l ++ [])) by (rewrite app_nil_r; exact C).
  destruct e as [d x| | |ok|g ok|r x|w n|w ok]; cbn [log_conn_step]; intro E.
  - injection E as E. unfold log_conn_send, conn_send, send_lines in E. destruct (cn_shutdown s); [injection E as <- <-; exact C0|].
    cbn [cn_status with_writer cn_socket] in E. destruct (cn_status s).
    + destruct (negb (su_address x)); [injection E as <- <-; cbn [map app]; constructor; auto|].
      destruct (negb (su_open x) || _); [injection E as <- <-; cbn [map app]; constructor; auto|].
      destruct (negb (su_bind x)); injection E as <- <-; cbn [map app]; constructor; auto.
    + injection E as <- <-. exact C0.
    + destruct (send_buffer _) as [s1 o] eqn:B. injection E as <- <-. cbn [map app].
      apply send_buffer_outputs in B as [->|(w & d' & ->)]; [exact C0|]. constructor. exact C.
  - injection E as <- <-. exact C0.
  - destruct (cn_queue s) as [|[|] q]; [injection E as <- <-; exact C0| |].
    + injection E as E. unfold log_do_close, do_close in E. cbn [with_nqueue with_status cn_shutdown cn_socket] in E.
      destruct (cn_shutdown s); [injection E as <- <-; exact C0|].
      destruct (cn_socket s); injection E as <- <-; [|exact C0]. constructor. exact C.
    + injection E as <- <-. exact C0.
  - destruct (cn_resolves s) as [|n]; [injection E as <- <-; exact C0|].
    injection E as E. unfold log_resolve_handler, resolve_handler in E. cbn [with_resolves cn_shutdown] in E.
    destruct (cn_shutdown s); [injection E as <- <-; exact C0|].
    destruct ok; cbn [negb] in E; injection E as <- <-; [exact C0|]. constructor; [exact C|cbn; auto].
  - destruct (existsb _ _); [|injection E as <- <-; exact C0].
    injection E as E. unfold log_connect_handler, connect_handler in E. cbn [with_connects cn_shutdown] in E.
    destruct (cn_shutdown s); [injection E as <- <-; exact C0|].
    destruct ok; cbn [negb] in E.
    + destruct (send_buffer _) as [s1 o] eqn:B. injection E as <- <-. cbn [map app].
      apply send_buffer_outputs in B as [->|(w & d' & ->)]; cbn [map].
      * constructor. exact C.
      * change (client_log (l ++ [Said EstablishedLine; Did (Established g)] ++ [Did (Write (WStarted w d'))])).
        rewrite app_assoc. constructor. constructor. exact C.
    + injection E as <- <-. constructor; [exact C|cbn; auto].
  - destruct (find_read _ _) as [g|]; [|injection E as <- <-; exact C0].
    destruct (possible g x) eqn:Q; [|injection E as <- <-; exact C0].
    injection E as E. unfold log_read_handler, read_handler in E. cbn [with_reads cn_shutdown] in E.
    destruct (cn_shutdown s); [injection E as <- <-; exact C0|].
    destruct x, g; try discriminate Q; injection E as <- <-; cbn [map app]; constructor; try exact C; cbn; auto.
  - destruct (w_transfer _ _ _) as [[c o]|] eqn:T; cbn [obind] in E; [|discriminate E]. injection E as <- <-.
    apply transfer_outputs in T as [->|(d & ->)]; [exact C0|]. constructor. exact C.
  - injection E as E. unfold log_write_handler in E. destruct (w_complete (cn_writer s) w ok) as [[c o]|] eqn:T; [|injection E as <- <-; exact C0].
    destruct (cn_shutdown s); [injection E as <- <-; exact C0|].
    pose proof (complete_outputs _ _ _ _ _ T) as O. destruct ok; cbn [negb] in E; injection E as <- <-; subst o; cbn [map app].
    + destruct (complete_transferred _ _ _ _ _ I T) as (d & K & ->). constructor; [exact C|exact K].
    + constructor. exact C.
Qed.

Lemma winv_logged s l e s' l' : winv (cn_writer s) (writes (did l)) -> log_conn_step s e = Ret (s', l') ->
  winv (cn_writer s') (writes (did (l ++ l'))).
Proof.
  intros I E. rewrite did_app, writes_app.
  assert (K : conn_step s e = Ret (s', did l')) by (rewrite step_quiet, E; reflexivity).
  eapply winv_steps; [exact I|]. apply (step_writer (fun _ _ _ => True)) in K; [exact K|]. destruct e; exact Logic.I.
Qed.

Theorem connection_logged : forall es s l, log_conn_run cconn_init es = Ret (s, l) -> client_log l /\ NoDup (map fst (took (writes (did l)))).
Proof.
  intros es s l E.
  apply (log_ind (fun _ _ => True) (fun s l => client_log l /\ winv (cn_writer s) (writes (did l)))) with (l := []) in E.
  - destruct E as [E I]. split; [exact E|]. destruct (wi_sound _ _ I) as (_ & _ & _ & N). exact N.
  - intros s0 l0 e s1 l1 [C I] _ St. split; [eapply cl_step; eassumption|eapply winv_logged; eassumption].
  - split; [constructor|exact winv_init].
  - intro x. apply all_true.
Qed.

Lemma v_send_buffer_outputs s s' o : v_send_buffer s = (s', o) -> o = [] \/ exists w d, o = [VWrite (WStarted w d)].
Proof.
  unfold v_send_buffer. destruct (vn_shutdown s); [intros [= <- <-]; auto|]. destruct (vn_connected s); [|intros [= <- <-]; auto].
  destruct (w_start _ _) as [c ow] eqn:E. intros [= <- <-]. apply start_outputs in E as [->|(w & d & ->)]; [auto|right; exists w, d; reflexivity].
Qed.

Lemma sl_step s l e s' l' : server_log l -> winv (vn_writer s) (vwrites (did l)) -> log_vconn_step s e = Ret (s', l') -> server_log (l ++ l').
Proof.
  intros C I. assert (C0 : server_log (l ++ [])) by (rewrite app_nil_r; exact C).
  destruct e as [|d| | | |r x|w n|w ok]; cbn [log_vconn_step]; intro E.
  - injection E as E. unfold log_v_start, v_start in E. destruct (vn_shutdown s); [injection E as <- <-; exact C0|].
    destruct (v_send_buffer _) as [s1 o] eqn:B. injection E as <- <-.
    apply v_send_buffer_outputs in B as [->|(w & d & ->)]; cbn [map app].
    + constructor. exact C.
    + change (server_log (l ++ [Said EstablishedLine] ++ [Did (VWrite (WStarted w d))])). rewrite app_assoc.
      constructor. constructor. exact C.
  - unfold v_send in E. destruct (vn_shutdown s); [injection E as <- <-; exact C0|].
    destruct (v_send_buffer _) as [s1 o] eqn:B. injection E as <- <-.
    apply v_send_buffer_outputs in B as [->|(w & d' & ->)]; cbn [map app]; [exact C0|]. constructor. exact C.
  - injection E as <- <-. exact C0.
  - injection E as <- <-. exact C0.
  - destruct (vn_queue s) as [|[|] q]; [injection E as <- <-; exact C0| |].
    + injection E as E. unfold log_v_do_close, v_do_close in E. cbn [with_vqueue with_vconnected vn_shutdown vn_open] in E.
      destruct (vn_shutdown s); [injection E as <- <-; exact C0|].
      destruct (vn_open s); injection E as <- <-; [|exact C0]. constructor. exact C.
    + injection E as <- <-. constructor. exact C.
  - destruct (find_vread _ _) as [g|]; [|injection E as <- <-; exact C0].
    destruct (g || _); [|injection E as <- <-; exact C0].
    injection E as E. unfold log_v_read_handler, v_read_handler in E. cbn [with_vreads vn_shutdown] in E.
    destruct (vn_shutdown s); [injection E as <- <-; exact C0|].
    destruct x; injection E as <- <-; cbn [map app]; constructor; exact C.
  - destruct (w_transfer _ _ _) as [[c o]|] eqn:T; cbn [obind] in E; [|discriminate E]. injection E as <- <-.
    apply transfer_outputs in T as [->|(d & ->)]; [exact C0|]. constructor. exact C.
  - injection E as E. unfold log_v_write_handler in E. destruct (w_complete (vn_writer s) w ok) as [[c o]|] eqn:T; [|injection E as <- <-; exact C0].
    destruct (vn_shutdown s); [injection E as <- <-; exact C0|].
    pose proof (complete_outputs _ _ _ _ _ T) as O. destruct ok; cbn [negb] in E; injection E as <- <-; subst o; cbn [map app].
    + destruct (complete_transferred _ _ _ _ _ I T) as (d & K & ->). constructor; [exact C|exact K].
    + constructor. exact C.
Qed.

Lemma vwinv_logged s l e s' l' : winv (vn_writer s) (vwrites (did l)) -> log_vconn_step s e = Ret (s', l') ->
  winv (vn_writer s') (vwrites (did (l ++ l'))).
Proof.
  intros I E. rewrite did_app, vwrites_app.
  assert (K : vconn_step s e = Ret (s', did l')) by (rewrite vstep_quiet, E; reflexivity).
  eapply winv_steps; [exact I|]. apply (vstep_writer (fun _ _ _ => True)) in K; [exact K|]. destruct e; exact Logic.I.
Qed.

Theorem server_connection_logged : forall es s l, log_vconn_run sconn_init es = Ret (s, l) -> server_log l /\ NoDup (map fst (took (vwrites (did l)))).
Proof.
  intros es s l E.
  apply (vlog_ind (fun _ _ => True) (fun s l => server_log l /\ winv (vn_writer s) (vwrites (did l)))) with (l := []) in E.
  - destruct E as [E I]. split; [exact E|]. destruct (wi_sound _ _ I) as (_ & _ & _ & N). exact N.
  - intros s0 l0 e s1 l1 [C I] _ St. split; [eapply sl_step; eassumption|eapply vwinv_logged; eassumption].
  - split; [constructor|exact winv_init].
  - intro x. apply all_true.
Qed.

(** ** What follows *)

Lemma many_app f a b : how_many f (a ++ b) = (how_many f a + how_many f b)%nat.
Proof. unfold how_many. rewrite filter_app, app_length. reflexivity. Qed.

(** Errors are logged if and only if they are reported, but for those of [send]. *)
Theorem errors_counted : forall l, client_log l ->
  how_many error_line (said l) = (List.length (filter (fun x => match x with Failed => true | _ => false end) (did l)) + how_many setup_line (said l))%nat.
Proof.
  induction 1 as [|l C IH|l x C IH H|l x C IH H|l g C IH|l g d C IH|l g C IH|l g C IH|l w d C IH|l w d C IH|l w d C IH K|l w C IH];
    [reflexivity|..]; rewrite said_app, did_app, !many_app, filter_app, app_length, IH; cbn [said did flat_map app];
    try (cbn; lia).
  - destruct x; try discriminate H; cbn; lia.
  - cbn in H. destruct H as [<-|[<-|[<-|[]]]]; cbn; lia.
Qed.

Theorem server_errors_counted : forall l, server_log l ->
  how_many error_line (said l) = List.length (filter (fun x => match x with VFailed => true | _ => false end) (did l)).
Proof.
  induction 1 as [|l C IH|l C IH|l d C IH|l C IH|l C IH|l w d C IH|l w d C IH|l w d C IH K|l w C IH];
    [reflexivity|..]; rewrite said_app, did_app, !many_app, filter_app, app_length, IH; cbn; lia.
Qed.

(** ** After a shutdown *)

Lemma down_step s e s' l : cn_shutdown s = true -> log_conn_step s e = Ret (s', l) -> cn_shutdown s' = true /\ said l = [].
Proof.
  intros D E. destruct e as [d x| | |ok|g ok|r x|w n|w ok]; cbn [log_conn_step] in E.
  - injection E as E. unfold log_conn_send, conn_send, send_lines in E. rewrite D in E. injection E as <- <-. auto.
  - injection E as <- <-. auto.
  - destruct (cn_queue s) as [|[|] q]; [injection E as <- <-; auto| |injection E as <- <-; auto].
    injection E as E. unfold log_do_close, do_close in E. cbn [with_nqueue cn_shutdown] in E. rewrite D in E. injection E as <- <-. auto.
  - destruct (cn_resolves s) as [|n]; [injection E as <- <-; auto|].
    injection E as E. unfold log_resolve_handler, resolve_handler in E. cbn [with_resolves cn_shutdown] in E. rewrite D in E. injection E as <- <-. auto.
  - destruct (existsb _ _); [|injection E as <- <-; auto].
    injection E as E. unfold log_connect_handler, connect_handler in E. cbn [with_connects cn_shutdown] in E. rewrite D in E. injection E as <- <-. auto.
  - destruct (find_read _ _) as [g|]; [|injection E as <- <-; auto]. destruct (possible g x); [|injection E as <- <-; auto].
    injection E as E. unfold log_read_handler, read_handler in E. cbn [with_reads cn_shutdown] in E. rewrite D in E. injection E as <- <-. auto.
  - destruct (w_transfer _ _ _) as [[c o]|]; cbn [obind] in E; [|discriminate E]. injection E as <- <-. split; [exact D|apply said_map].
  - injection E as E. unfold log_write_handler in E. rewrite D in E. destruct (w_complete _ _ _) as [[c o]|]; injection E as <- <-; auto.
Qed.

Theorem silent_connection : forall es s s' l, cn_shutdown s = true -> log_conn_run s es = Ret (s', l) -> said l = [].
Proof.
  induction es as [|e es IH]; intros s s' l D E; cbn [log_conn_run] in E.
  - injection E as <- <-. reflexivity.
  - destruct (log_conn_step s e) as [[s1 l1]|] eqn:St; cbn [obind] in E; [|discriminate].
    destruct (log_conn_run s1 es) as [[s2 l2]|] eqn:R; cbn [obind] in E; [|discriminate]. injection E as <- <-.
    destruct (down_step _ _ _ _ D St) as [D' K]. rewrite said_app, K. exact (IH _ _ _ D' R).
Qed.

Lemma vdown_step s e s' l : vn_shutdown s = true -> log_vconn_step s e = Ret (s', l) -> vn_shutdown s' = true /\ said l = [].
Proof.
  intros D E. destruct e as [|d| | | |r x|w n|w ok]; cbn [log_vconn_step] in E.
  - injection E as E. unfold log_v_start, v_start in E. rewrite D in E. injection E as <- <-. auto.
  - unfold v_send in E. rewrite D in E. injection E as <- <-. auto.
  - injection E as <- <-. unfold v_close. rewrite D. auto.
  - injection E as <- <-. auto.
  - destruct (vn_queue s) as [|[|] q]; [injection E as <- <-; auto| |injection E as <- <-; auto].
    injection E as E. unfold log_v_do_close, v_do_close in E. cbn [with_vqueue vn_shutdown] in E. rewrite D in E. injection E as <- <-. auto.
  - destruct (find_vread _ _) as [g|]; [|injection E as <- <-; auto]. destruct (g || _); [|injection E as <- <-; auto].
    injection E as E. unfold log_v_read_handler, v_read_handler in E. cbn [with_vreads vn_shutdown] in E. rewrite D in E. injection E as <- <-. auto.
  - destruct (w_transfer _ _ _) as [[c o]|]; cbn [obind] in E; [|discriminate E]. injection E as <- <-. split; [exact D|apply said_map].
  - injection E as E. unfold log_v_write_handler in E. rewrite D in E. destruct (w_complete _ _ _) as [[c o]|]; injection E as <- <-; auto.
Qed.

Theorem vsilent_connection : forall es s s' l, vn_shutdown s = true -> log_vconn_run s es = Ret (s', l) -> said l = [].
Proof.
  induction es as [|e es IH]; intros s s' l D E; cbn [log_vconn_run] in E.
  - injection E as <- <-. reflexivity.
  - destruct (log_vconn_step s e) as [[s1 l1]|] eqn:St; cbn [obind] in E; [|discriminate].
    destruct (log_vconn_run s1 es) as [[s2 l2]|] eqn:R; cbn [obind] in E; [|discriminate]. injection E as <- <-.
    destruct (vdown_step _ _ _ _ D St) as [D' K]. rewrite said_app, K. exact (IH _ _ _ D' R).
Qed.

(** ** Nothing fails, nothing is logged as an error *)

Definition closings (q : list nclosure) : nat := List.length (filter (fun x => match x with NDoClose => true | _ => false end) q).

Arguments closings : simpl never.

Record smooth (s : cconn) (l : list (tentry noutput)) : Prop := {
  sm_log : how_many error_line (said l) = 0%nat;
  sm_state : cn_shutdown s = false ->
    match cn_status s with
    | NotConnected => cn_socket s = None /\ cn_reads s = [] /\ cn_resolves s = 0%nat /\ cn_connects s = [] /\ closings (cn_queue s) = 0%nat
    | Connecting => cn_reads s = [] /\ closings (cn_queue s) = 0%nat /\ (cn_resolves s + List.length (cn_connects s) = 1)%nat /\ cn_socket s <> None
    | Connected => (List.length (cn_reads s) + closings (cn_queue s) <= 1)%nat /\ cn_resolves s = 0%nat /\ cn_connects s = [] /\ cn_socket s <> None
    end
}.

Lemma closings_app a b : closings (a ++ b) = (closings a + closings b)%nat.
Proof. unfold closings. rewrite filter_app, app_length. reflexivity. Qed.

Lemma last_read l r g : find_read l r = Some g -> (List.length l <= 1)%nat ->
  List.length l = 1%nat /\ filter (fun x => negb (Nat.eqb (fst x) r)) l = [].
Proof.
  destruct l as [|[r' g'] [|y l]]; cbn [find_read List.length filter fst]; intros F L; [discriminate| |lia].
  destruct (Nat.eqb r' r); [auto|discriminate].
Qed.

Lemma last_connect l g : existsb (Nat.eqb g) l = true -> (List.length l <= 1)%nat ->
  List.length l = 1%nat /\ filter (fun x => negb (Nat.eqb x g)) l = [].
Proof.
  destruct l as [|g' [|y l]]; cbn [existsb List.length filter]; intros F L; [discriminate| |lia].
  rewrite Bool.orb_false_r, Nat.eqb_sym in F. rewrite F. auto.
Qed.

Lemma smooth_none s l l' : smooth s l -> how_many error_line (said l') = 0%nat -> smooth s (l ++ l').
Proof. intros [A B] H. constructor; [rewrite said_app, many_app, A, H; reflexivity|exact B]. Qed.

Lemma send_buffer_same s s' o : send_buffer s = (s', o) ->
  cn_shutdown s' = cn_shutdown s /\ cn_status s' = cn_status s /\ cn_socket s' = cn_socket s /\ cn_reads s' = cn_reads s /\
  cn_resolves s' = cn_resolves s /\ cn_connects s' = cn_connects s /\ cn_queue s' = cn_queue s.
Proof.
  unfold send_buffer. destruct (cn_shutdown s) eqn:D; [intros [= <- <-]; auto 10|].
  destruct (w_start _ _) as [c o']. intros [= <- <-]. cbn. auto 10.
Qed.

Lemma smooth_step s l e s' l' : smooth s l -> goes_well e -> log_conn_step s e = Ret (s', l') -> smooth s' (l ++ l').
Proof.
  intros Sm G E. destruct (cn_shutdown s) eqn:D.
  { destruct (down_step _ _ _ _ D E) as [D' K]. destruct Sm as [A B].
    constructor; [rewrite said_app, K, app_nil_r; exact A|congruence]. }
  pose proof (sm_log _ _ Sm) as A. pose proof (sm_state _ _ Sm D) as B.
  assert (Sm0 : smooth s (l ++ [])) by (rewrite app_nil_r; exact Sm).
  destruct e as [d x| | |ok|g ok|r x|w n|w ok]; cbn [log_conn_step goes_well] in *.
  - subst x. injection E as E. unfold log_conn_send, conn_send, send_lines in E. rewrite D in E.
    cbn [cn_status with_writer cn_socket setup_ok su_address su_open su_bind negb orb] in E. destruct (cn_status s) eqn:St.
    + destruct B as (B1 & B2 & B3 & B4 & B5). rewrite B1 in E. injection E as <- <-.
      constructor; [rewrite said_app, many_app, A; reflexivity|]. intros _. cbn. rewrite B2, B3, B4. cbn. repeat split; auto. discriminate.
    + injection E as <- <-. rewrite app_nil_r. constructor; [exact A|]. intros _. cbn. rewrite St. exact B.
    + destruct (send_buffer _) as [s1 o] eqn:Sb. injection E as <- <-. cbn [map app].
      apply send_buffer_same in Sb as (E0 & E1 & E2 & E3 & E4 & E5 & E6).
      constructor; [rewrite said_app, many_app, A, said_Did; reflexivity|]. intros _. rewrite E1, E2, E3, E4, E5, E6. cbn. rewrite St. exact B.
  - injection E as <- <-. rewrite app_nil_r. constructor; [exact A|]. intros _. cbn. destruct (cn_status s); rewrite closings_app; change (closings [NDoShutdown]) with 0%nat; rewrite Nat.add_0_r; exact B.
  - destruct (cn_queue s) as [|[|] q] eqn:Q; [injection E as <- <-; exact Sm0| |].
    + injection E as E. unfold log_do_close, do_close in E. cbn [with_nqueue with_status cn_shutdown cn_socket] in E. rewrite D in E.
      change (closings (NDoClose :: q)) with (S (closings q)) in B.
      destruct (cn_status s) eqn:St; try (exfalso; lia).
      destruct B as (B1 & B2 & B3 & B4). destruct (cn_socket s) as [g|] eqn:So; [|contradiction]. injection E as <- <-.
      constructor; [rewrite said_app, many_app, A; reflexivity|]. intros _. cbn.
      repeat split; auto; [|lia]. apply length_zero_iff_nil. lia.
    + injection E as <- <-. rewrite app_nil_r. constructor; [exact A|]. cbn. discriminate.
  - subst ok. destruct (cn_resolves s) as [|n] eqn:R; [injection E as <- <-; exact Sm0|].
    injection E as E. unfold log_resolve_handler, resolve_handler in E. cbn [with_resolves cn_shutdown negb] in E. rewrite D in E.
    injection E as <- <-. rewrite app_nil_r. constructor; [exact A|]. intros _. cbn.
    destruct (cn_status s) eqn:St; try (exfalso; destruct B as (? & ? & ? & ?); lia).
    destruct B as (B1 & B2 & B3 & B4). rewrite app_length. cbn. repeat split; auto; [lia|discriminate].
  - subst ok. destruct (existsb (Nat.eqb g) (cn_connects s)) eqn:X; [|injection E as <- <-; exact Sm0].
    injection E as E. unfold log_connect_handler, connect_handler in E. cbn [with_connects cn_shutdown negb] in E. rewrite D in E.
    destruct (send_buffer _) as [s1 o] eqn:Sb. injection E as <- <-.
    apply send_buffer_same in Sb as (E0 & E1 & E2 & E3 & E4 & E5 & E6). cbn in E0, E1, E2, E3, E4, E5, E6.
    constructor; [rewrite said_app, many_app, A; cbn [map app]; rewrite said_S, said_D, said_Did; reflexivity|]. intros _.
    unfold begin_read. rewrite E0, D. cbn. rewrite E1, E2, E3, E4, E5, E6.
    destruct (cn_status s) eqn:St.
    + destruct B as (_ & _ & _ & B & _). rewrite B in X. discriminate X.
    + destruct B as (B1 & B2 & B3 & B4). destruct (last_connect _ _ X ltac:(lia)) as [L F]. rewrite B1, F. cbn. repeat split; auto; lia.
    + destruct B as (_ & _ & B & _). rewrite B in X. discriminate X.
  - destruct (find_read (cn_reads s) r) as [g|] eqn:F; [|injection E as <- <-; exact Sm0].
    destruct (possible g x) eqn:Q; [|injection E as <- <-; exact Sm0].
    injection E as E. unfold log_read_handler, read_handler in E. cbn [with_reads cn_shutdown] in E. rewrite D in E.
    destruct (cn_status s) eqn:St; [destruct B as (_ & B & _); rewrite B in F; discriminate F|destruct B as (B & _); rewrite B in F; discriminate F|].
    destruct B as (B1 & B2 & B3 & B4). destruct (last_read _ _ _ F ltac:(lia)) as [L K].
    destruct x; [| |contradiction]; (destruct g as [g|]; [|discriminate Q]); injection E as <- <-.
    + constructor; [rewrite said_app, many_app, A; reflexivity|]. intros _. unfold begin_read. cbn. rewrite D. cbn. rewrite St, K. cbn. repeat split; auto. lia.
    + constructor; [rewrite said_app, many_app, A; reflexivity|]. intros _. unfold conn_close. cbn. rewrite D. cbn. rewrite St, K, closings_app. change (closings [NDoClose]) with 1%nat. cbn.
      repeat split; auto. lia.
  - destruct (w_transfer _ _ _) as [[c o]|]; cbn [obind] in E; [|discriminate E]. injection E as <- <-.
    constructor; [rewrite said_app, many_app, A, said_map; reflexivity|]. intros _. cbn. exact B.
  - subst ok. injection E as E. unfold log_write_handler in E. destruct (w_complete (cn_writer s) w true) as [[c o]|]; [|injection E as <- <-; exact Sm0].
    rewrite D in E. cbn [negb] in E. injection E as <- <-.
    constructor; [rewrite said_app, many_app, A, said_app, said_map; reflexivity|]. intros _. cbn. exact B.
Qed.

Theorem no_error_lines : forall es s l, Forall goes_well es -> log_conn_run cconn_init es = Ret (s, l) ->
  forall x, In x (said l) -> error_line x = false.
Proof.
  intros es s l G E x H.
  apply (log_ind (fun _ => goes_well) smooth) with (l := []) in E.
  - destruct E as [A _]. cbn [app] in A. destruct (error_line x) eqn:X; [|reflexivity]. exfalso.
    assert (K : In x (filter error_line (said l))) by (apply filter_In; auto).
    unfold how_many in A. apply length_zero_iff_nil in A. rewrite A in K. exact K.
  - intros. eapply smooth_step; eassumption.
  - constructor; [reflexivity|]. intros _. cbn. auto.
  - intros _. exact G.
Qed.

(** ** How many connections are said to be closed *)

Definition bit (o : option nat) : nat := match o with Some _ => 1 | None => 0 end.

Lemma closing_step s l e s' l' :
  (how_many (is_line ClosingLine) (said l) + bit (cn_socket s) + cn_resolves s <= 2 * how_many (is_line Establishing) (said l))%nat ->
  log_conn_step s e = Ret (s', l') ->
  (how_many (is_line ClosingLine) (said (l ++ l')) + bit (cn_socket s') + cn_resolves s' <= 2 * how_many (is_line Establishing) (said (l ++ l')))%nat.
Proof.
  intros B E. rewrite said_app, !many_app. destruct (cn_shutdown s) eqn:D.
  { assert (K : cn_socket s' = cn_socket s /\ (cn_resolves s' <= cn_resolves s)%nat /\ said l' = []).
    { destruct (down_step _ _ _ _ D E) as [_ K]. rewrite K.
      destruct e as [d x| | |ok|g ok|r x|w n|w ok]; cbn [log_conn_step] in E.
      - injection E as E. unfold log_conn_send, conn_send, send_lines in E. rewrite D in E. injection E as <- <-. auto.
      - injection E as <- <-. auto.
      - destruct (cn_queue s) as [|[|] q]; [injection E as <- <-; auto| |injection E as <- <-; auto].
        injection E as E. unfold log_do_close, do_close in E. cbn [with_nqueue cn_shutdown] in E. rewrite D in E. injection E as <- <-. auto.
      - destruct (cn_resolves s) as [|n] eqn:R; [injection E as <- <-; rewrite R; auto|].
        injection E as E. unfold log_resolve_handler, resolve_handler in E. cbn [with_resolves cn_shutdown] in E. rewrite D in E. injection E as <- <-. cbn. auto.
      - destruct (existsb _ _); [|injection E as <- <-; auto].
        injection E as E. unfold log_connect_handler, connect_handler in E. cbn [with_connects cn_shutdown] in E. rewrite D in E. injection E as <- <-. auto.
      - destruct (find_read _ _) as [g|]; [|injection E as <- <-; auto]. destruct (possible g x); [|injection E as <- <-; auto].
        injection E as E. unfold log_read_handler, read_handler in E. cbn [with_reads cn_shutdown] in E. rewrite D in E. injection E as <- <-. auto.
      - destruct (w_transfer _ _ _) as [[c o]|]; cbn [obind] in E; [|discriminate E]. injection E as <- <-. auto.
      - injection E as E. unfold log_write_handler in E. rewrite D in E. destruct (w_complete _ _ _) as [[c o]|]; injection E as <- <-; auto. }
    destruct K as (-> & K & ->). cbn. lia. }
  destruct e as [d x| | |ok|g ok|r x|w n|w ok]; cbn [log_conn_step] in *.
  - injection E as E. unfold log_conn_send, conn_send, send_lines in E. rewrite D in E.
    cbn [cn_status with_writer cn_socket] in E. destruct (cn_status s).
    + destruct (negb (su_address x)); [injection E as <- <-; cbn; lia|].
      destruct (cn_socket s) as [g|] eqn:So.
      { rewrite Bool.orb_true_r in E. injection E as <- <-. cbn in *. rewrite So. cbn. lia. }
      cbn in B. rewrite Bool.orb_false_r in E. destruct (negb (su_open x)); [injection E as <- <-; cbn; rewrite So; cbn; lia|].
      destruct (negb (su_bind x)); injection E as <- <-; cbn; lia.
    + injection E as <- <-. cbn. lia.
    + destruct (send_buffer _) as [s1 o] eqn:Sb. injection E as <- <-.
      apply send_buffer_same in Sb as (_ & _ & E2 & _ & E4 & _). rewrite E2, E4. cbn [map app]. rewrite said_Did. cbn. lia.
  - injection E as <- <-. cbn. lia.
  - destruct (cn_queue s) as [|[|] q] eqn:Q; [injection E as <- <-; cbn; lia| |injection E as <- <-; cbn; lia].
    injection E as E. unfold log_do_close, do_close in E. cbn [with_nqueue with_status cn_shutdown cn_socket] in E. rewrite D in E.
    destruct (cn_socket s) as [g|] eqn:So; injection E as <- <-; cbn in *; rewrite ?So; cbn; lia.
  - destruct (cn_resolves s) as [|n] eqn:R; [injection E as <- <-; rewrite R; cbn; lia|].
    injection E as E. unfold log_resolve_handler, resolve_handler in E. cbn [with_resolves cn_shutdown] in E. rewrite D in E.
    destruct ok; cbn [negb] in E; injection E as <- <-; cbn in *; destruct (cn_socket s); cbn in *; lia.
  - destruct (existsb _ _); [|injection E as <- <-; cbn; lia].
    injection E as E. unfold log_connect_handler, connect_handler in E. cbn [with_connects cn_shutdown] in E. rewrite D in E.
    destruct ok; cbn [negb] in E.
    + destruct (send_buffer _) as [s1 o] eqn:Sb. injection E as <- <-.
      apply send_buffer_same in Sb as (E0 & _ & E2 & _ & E4 & _). cbn in E2, E4. cbn [map app]. rewrite said_S, said_D, said_Did.
      unfold begin_read. destruct (cn_shutdown s1); cbn; rewrite E2, E4; lia.
    + injection E as <- <-. unfold conn_close. cbn. rewrite D. cbn. lia.
  - destruct (find_read (cn_reads s) r) as [g|]; [|injection E as <- <-; cbn; lia].
    destruct (possible g x); [|injection E as <- <-; cbn; lia].
    injection E as E. unfold log_read_handler, read_handler in E. cbn [with_reads cn_shutdown] in E. rewrite D in E.
    destruct x, g; injection E as <- <-; unfold conn_close, begin_read; cbn; rewrite ?D; cbn; lia.
  - destruct (w_transfer _ _ _) as [[c o]|]; cbn [obind] in E; [|discriminate E]. injection E as <- <-. rewrite said_map. cbn. lia.
  - injection E as E. unfold log_write_handler in E. destruct (w_complete (cn_writer s) w ok) as [[c o]|]; [|injection E as <- <-; cbn; lia].
    rewrite D in E. destruct ok; cbn [negb] in E; injection E as <- <-; rewrite said_app, said_map; unfold conn_close; cbn; rewrite ?D; cbn; lia.
Qed.

Theorem closings_bounded : forall es s l, log_conn_run cconn_init es = Ret (s, l) ->
  (how_many (is_line ClosingLine) (said l) <= 2 * how_many (is_line Establishing) (said l))%nat.
Proof.
  intros es s l E.
  apply (log_ind (fun _ _ => True) (fun s l => (how_many (is_line ClosingLine) (said l) + bit (cn_socket s) + cn_resolves s
    <= 2 * how_many (is_line Establishing) (said l))%nat)) with (l := []) in E.
  - cbn [app] in E. lia.
  - intros. eapply closing_step; eassumption.
  - cbn. lia.
  - intro x. apply all_true.
Qed.

(** ** What each line is about *)

Lemma said_told (A O : Type) (f : A -> O) (o : list A) : said (map (fun x => Did (f x)) o) = [].
Proof. induction o; [reflexivity|exact IHo]. Qed.

Theorem client_lines_caused : forall s e s' l, log_conn_step s e = Ret (s', l) ->
  forall x, In x (said l) -> client_cause x e.
Proof.
  intros s e s' l E x H.
  destruct e as [d y| | |ok|g ok|r y|w n|w ok]; cbn [log_conn_step] in E.
  - injection E as E. unfold log_conn_send, send_lines in E. destruct (conn_send s d y) as [s1 o].
    injection E as <- <-. rewrite said_app, said_Did, app_nil_r in H.
    destruct (cn_shutdown s); [destruct H|].
    destruct (cn_status s); [|destruct H|destruct H].
    destruct y as [[|] [|] [|]], (cn_socket s); cbn in H; intuition subst; cbn; eauto 8.
  - injection E as <- <-. destruct H.
  - destruct (cn_queue s) as [|[|] q]; [injection E as <- <-; destruct H| |].
    + injection E as E. unfold log_do_close in E. destruct (do_close _) as [s1 o]. injection E as <- <-.
      rewrite said_app, said_Did, app_nil_r in H. destruct (cn_shutdown _); [destruct H|]. destruct (cn_socket _); [|destruct H].
      destruct H as [<-|[]]. reflexivity.
    + destruct (do_shutdown _) as [s1 o]. injection E as <- <-. rewrite said_Did in H. destruct H.
  - destruct (cn_resolves s); [injection E as <- <-; destruct H|]. injection E as E. unfold log_resolve_handler in E.
    destruct (resolve_handler _ ok) as [s1 o]. injection E as <- <-. rewrite said_app, said_Did, app_nil_r in H.
    destruct (cn_shutdown _); [destruct H|]. destruct ok; [destruct H|]. destruct H as [<-|[]]. reflexivity.
  - destruct (existsb _ _); [|injection E as <- <-; destruct H]. injection E as E. unfold log_connect_handler in E.
    destruct (connect_handler _ g ok) as [s1 o]. injection E as <- <-. rewrite said_app, said_Did, app_nil_r in H.
    destruct (cn_shutdown _); [destruct H|]. destruct ok; destruct H as [<-|[]]; cbn; eauto.
  - destruct (find_read _ r) as [g|]; [|injection E as <- <-; destruct H].
    destruct (possible g y); [|injection E as <- <-; destruct H]. injection E as E. unfold log_read_handler in E.
    destruct (read_handler _ g y) as [s1 o]. injection E as <- <-. rewrite said_app, said_Did, app_nil_r in H.
    destruct (cn_shutdown _); [destruct H|]. destruct y; destruct H as [<-|[]]; cbn; eauto.
  - destruct (w_transfer _ w n) as [[c o]|]; [|discriminate E]. cbn in E. injection E as <- <-. rewrite said_told in H. destruct H.
  - injection E as E. unfold log_write_handler in E. destruct (w_complete _ w ok) as [[c o]|]; [|injection E as <- <-; destruct H].
    destruct (cn_shutdown s); [injection E as <- <-; destruct H|].
    destruct ok; injection E as <- <-; rewrite said_app, said_told in H; destruct H as [<-|[]]; cbn; eauto.
Qed.

Theorem server_lines_caused : forall s e s' l, log_vconn_step s e = Ret (s', l) ->
  forall x, In x (said l) -> server_cause x e.
Proof.
  intros s e s' l E x H.
  destruct e as [|d| | | |r y|w n|w ok]; cbn [log_vconn_step] in E.
  - injection E as E. unfold log_v_start in E. destruct (v_start s) as [s1 o]. injection E as <- <-.
    rewrite said_app, said_Did, app_nil_r in H. destruct (vn_shutdown s); [destruct H|]. destruct H as [<-|[]]. reflexivity.
  - destruct (v_send s d) as [s1 o]. injection E as <- <-. rewrite said_Did in H. destruct H.
  - injection E as <- <-. destruct H.
  - injection E as <- <-. destruct H.
  - destruct (vn_queue s) as [|[|] q]; [injection E as <- <-; destruct H| |].
    + injection E as E. unfold log_v_do_close in E. destruct (v_do_close _) as [s1 o]. injection E as <- <-.
      rewrite said_app, said_Did, app_nil_r in H. destruct (vn_shutdown _); [destruct H|]. destruct (vn_open _); [|destruct H].
      destruct H as [<-|[]]. reflexivity.
    + destruct (v_do_shutdown _) as [s1 o]. injection E as <- <-. rewrite said_Did in H. destruct H.
  - destruct (find_vread _ r) as [g|]; [|injection E as <- <-; destruct H].
    destruct (g || _)%bool; [|injection E as <- <-; destruct H]. injection E as E. unfold log_v_read_handler in E.
    destruct (v_read_handler _ y) as [s1 o]. injection E as <- <-. rewrite said_app, said_Did, app_nil_r in H.
    destruct (vn_shutdown _); [destruct H|]. destruct y; destruct H as [<-|[]]; cbn; eauto.
  - destruct (w_transfer _ w n) as [[c o]|]; [|discriminate E]. cbn in E. injection E as <- <-. rewrite said_told in H. destruct H.
  - injection E as E. unfold log_v_write_handler in E. destruct (w_complete _ w ok) as [[c o]|]; [|injection E as <- <-; destruct H].
    destruct (vn_shutdown s); [injection E as <- <-; destruct H|].
    destruct ok; injection E as <- <-; rewrite said_app, said_told in H; destruct H as [<-|[]]; cbn; eauto.
Qed.
