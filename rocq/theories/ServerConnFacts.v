(** Proofs about ServerConn.v. *)
From Verif Require Import Prelude Ser4 Mbap SpecPdu SpecMbap AsyncWrite ClientConn ServerConn SpecConn WriteFacts ConnFacts.
From Coq Require Import Lia.

Ltac vunret s E := apply (f_equal (fun x => match x with Ret y => y | UB => (s, []) end)) in E; cbn beta iota in E.

Ltac vtry s E := match type of E with Ret _ = Ret _ => vunret s E | _ => idtac end.

Lemma vrun_ind : forall (P : sconn -> vevent -> Prop) (I : sconn -> list voutput -> Prop),
  (forall s os e s' o, I s os -> P s e -> vconn_step s e = Ret (s', o) -> I s' (os ++ o)) ->
  forall es s os s' o, I s os -> valways P s es -> vconn_run s es = Ret (s', o) -> I s' (os ++ o).
Proof.
  intros P I H. induction es as [|e es IH]; intros s os s' o Hs A E; cbn [vconn_run valways] in *.
  - injection E as <- <-. rewrite app_nil_r. exact Hs.
  - destruct A as [A A']. destruct (vconn_step s e) as [[s1 o1]|] eqn:S; cbn [obind] in *; [|discriminate].
    destruct (vconn_run s1 es) as [[s2 o2]|] eqn:R; cbn [obind] in *; [|discriminate]. injection E as <- <-.
    rewrite app_assoc. eapply IH; eauto.
Qed.

Lemma valways_true : forall (P : sconn -> vevent -> Prop) es s, (forall s e, P s e) -> valways P s es.
Proof. intros P. induction es as [|e es IH]; intros s H; cbn; auto. Qed.

Definition vtransfer_of (e : vevent) (P : writer -> nat -> nat -> Prop) (s : sconn) : Prop :=
  match e with VTransfer w n => P (vn_writer s) w n | _ => True end.

Lemma v_send_buffer_writer : forall P s s' o, v_send_buffer s = (s', o) -> wsteps P (vn_writer s) (vwrites o) (vn_writer s').
Proof.
  intros P s s' o E. unfold v_send_buffer in E. destruct (vn_shutdown s); [injection E as <- <-; constructor|].
  destruct (vn_connected s); [|injection E as <- <-; constructor].
  destruct (w_start _ _) as [c ow] eqn:W. injection E as <- <-. rewrite vwrites_map. apply wsteps_one. econstructor. exact W.
Qed.

Lemma v_begin_read_writer : forall s, vn_writer (v_begin_read s) = vn_writer s.
Proof. intro s. unfold v_begin_read. destruct (vn_shutdown s), (vn_connected s); reflexivity. Qed.
Lemma v_close_writer : forall s, vn_writer (v_close s) = vn_writer s.
Proof. intro s. unfold v_close. destruct (vn_shutdown s); reflexivity. Qed.

Lemma vstep_writer : forall P s e s' o, vtransfer_of e P s -> vconn_step s e = Ret (s', o) ->
  wsteps P (vn_writer s) (vwrites o) (vn_writer s').
Proof.
  intros P s e s' o T E. destruct e as [|d| | | |r x|w n|w ok]; cbn [vconn_step] in E; vtry s E.
  - unfold v_start in E. destruct (vn_shutdown s); [injection E as <- <-; constructor|].
    destruct (v_send_buffer _) as [s1 o1] eqn:B. injection E as <- <-. rewrite v_begin_read_writer.
    apply (v_send_buffer_writer P) in B. exact B.
  - unfold v_send in E. destruct (vn_shutdown s); [injection E as <- <-; constructor|].
    assert (R : wsteps P (vn_writer s) [] (w_replace (vn_writer s) d)) by (apply wsteps_one; constructor).
    apply (v_send_buffer_writer P) in E. exact (wsteps_trans _ _ _ _ _ _ R E).
  - injection E as <- <-. rewrite v_close_writer. constructor.
  - injection E as <- <-. constructor.
  - destruct (vn_queue s) as [|[|] q]; [injection E as <- <-; constructor| |].
    + vtry s E; unfold v_do_close in E. cbn [vn_shutdown with_vqueue vn_open with_vconnected] in E.
      destruct (vn_shutdown s); [injection E as <- <-; constructor|].
      destruct (vn_open s); injection E as <- <-; [|constructor]. apply wsteps_one. constructor.
    + injection E as <- <-. apply wsteps_one. constructor.
  - destruct (find_vread _ _) as [g|]; [|injection E as <- <-; constructor].
    destruct (g || _); [|injection E as <- <-; constructor].
    vunret s E. unfold v_read_handler in E. cbn [vn_shutdown with_vreads] in E. destruct (vn_shutdown s); [injection E as <- <-; constructor|].
    destruct x; injection E as <- <-; rewrite ?v_begin_read_writer, ?v_close_writer; constructor.
  - destruct (w_transfer (vn_writer s) w n) as [[c ow]|] eqn:W; cbn [obind] in E; [|discriminate]. injection E as <- <-.
    rewrite vwrites_map. apply wsteps_one. econstructor; [exact T|exact W].
  - unfold v_write_handler in E.
    destruct (w_complete (vn_writer s) w ok) as [[c ow]|] eqn:W; [|injection E as <- <-; constructor].
    destruct (vn_shutdown s); [injection E as <- <-; apply wsteps_one; constructor|].
    destruct ok; injection E as <- <-; rewrite ?v_close_writer, vwrites_app, vwrites_map; cbn [vwrites flat_map]; rewrite app_nil_r;
      apply wsteps_one; econstructor; exact W.
Qed.

Theorem server_sound_writes : forall es s os, vconn_run sconn_init es = Ret (s, os) -> sound_writes (vwrites os).
Proof.
  intros es s os E.
  assert (I : winv (vn_writer s) (vwrites ([] ++ os))).
  { apply (vrun_ind (fun _ _ => True) (fun s os => winv (vn_writer s) (vwrites os))) with (es := es) (s := sconn_init) (os := []);
      [|exact winv_init|apply valways_true; auto|exact E].
    intros s1 os1 e s' o I _ St. rewrite vwrites_app. eapply winv_steps; [exact I|].
    apply (vstep_writer (fun _ _ _ => True)) in St; [exact St|]. destruct e; exact Logic.I. }
  exact (wi_sound _ _ I).
Qed.

Theorem server_complete_writes : forall es s os, vconn_run sconn_init es = Ret (s, os) -> valways vwhole_transfers sconn_init es ->
  complete_writes (vwrites os).
Proof.
  intros es s os E A.
  assert (I : full (vn_writer s) (vwrites ([] ++ os))).
  { apply (vrun_ind vwhole_transfers (fun s os => full (vn_writer s) (vwrites os))) with (es := es) (s := sconn_init) (os := []);
      [|exact full_init|exact A|exact E].
    intros s1 os1 e s' o I P St. rewrite vwrites_app. eapply full_steps; [exact I|].
    apply (vstep_writer takes_all) in St; [exact St|]. destruct e; exact P || exact Logic.I. }
  exact (fu_complete _ _ I).
Qed.

Lemma v_calm_send_buffer : forall s, wr_ops (vn_writer s) = [] -> calm (vn_writer (fst (v_send_buffer s))).
Proof.
  intros s H. unfold v_send_buffer. destruct (vn_shutdown s); [left; exact H|]. destruct (vn_connected s); [|left; exact H].
  pose proof (calm_start (vn_writer s) (vn_open s) H) as K. destruct (w_start _ _) as [c o]. exact K.
Qed.

Lemma vcalm_step : forall s e, calm (vn_writer s) -> vwrites_settled s e ->
  exists s' o, vconn_step s e = Ret (s', o) /\ calm (vn_writer s').
Proof.
  intros s e C W. destruct e as [|d| | | |r x|w n|w ok]; cbn [vconn_step]; cbn in W.
  - unfold v_start. destruct (vn_shutdown s); [do 2 eexists; split; [reflexivity|exact C]|].
    match goal with |- context [v_send_buffer ?z] => pose proof (v_calm_send_buffer z W) as K; destruct (v_send_buffer z) as [s' o] end.
    do 2 eexists; split; [reflexivity|]. rewrite v_begin_read_writer. exact K.
  - unfold v_send. destruct (vn_shutdown s); [do 2 eexists; split; [reflexivity|exact C]|].
    match goal with |- context [v_send_buffer ?z] => pose proof (v_calm_send_buffer z W) as K; destruct (v_send_buffer z) as [s' o] end.
    do 2 eexists; split; [reflexivity|exact K].
  - do 2 eexists; split; [reflexivity|]. rewrite v_close_writer. exact C.
  - do 2 eexists; split; [reflexivity|exact C].
  - destruct (vn_queue s) as [|[|] q]; [do 2 eexists; split; [reflexivity|exact C]| |].
    + unfold v_do_close. cbn [vn_shutdown with_vqueue vn_open with_vconnected].
      destruct (vn_shutdown s); [do 2 eexists; split; [reflexivity|exact C]|].
      destruct (vn_open s); do 2 eexists; (split; [reflexivity|]); [apply calm_abort, C|exact C].
    + do 2 eexists; split; [reflexivity|apply calm_abort, C].
  - destruct (find_vread _ _) as [g|]; [|do 2 eexists; split; [reflexivity|exact C]].
    destruct (g || _); [|do 2 eexists; split; [reflexivity|exact C]].
    unfold v_read_handler. cbn [vn_shutdown with_vreads]. destruct (vn_shutdown s); [do 2 eexists; split; [reflexivity|exact C]|].
    destruct x; do 2 eexists; (split; [reflexivity|]); rewrite ?v_begin_read_writer, ?v_close_writer; exact C.
  - destruct (calm_transfer _ w n C) as (c & o & E & K). rewrite E. cbn [obind]. do 2 eexists; split; [reflexivity|exact K].
  - unfold v_write_handler. destruct (w_complete (vn_writer s) w ok) as [[c ow]|] eqn:E; [|do 2 eexists; split; [reflexivity|exact C]].
    apply (calm_complete _ _ _ _ _ C) in E.
    destruct (vn_shutdown s); [do 2 eexists; split; [reflexivity|apply calm_forget, C]|].
    destruct ok; do 2 eexists; (split; [reflexivity|]); rewrite ?v_close_writer; exact E.
Qed.

Lemma vcalm_run : forall es s, calm (vn_writer s) -> valways vwrites_settled s es -> exists s' os, vconn_run s es = Ret (s', os).
Proof.
  induction es as [|e es IH]; intros s C A; cbn [vconn_run valways] in *.
  - do 2 eexists. reflexivity.
  - destruct A as [A A']. destruct (vcalm_step _ _ C A) as (s1 & o1 & E & C1). rewrite E. cbn [obind].
    destruct (IH _ C1 (A' _ _ E)) as (s2 & o2 & E2). rewrite E2. cbn [obind]. do 2 eexists. reflexivity.
Qed.

Theorem server_buffers_alive : forall es, valways vwrites_settled sconn_init es -> exists s os, vconn_run sconn_init es = Ret (s, os).
Proof. intros es. apply vcalm_run. left. reflexivity. Qed.

(** ** After shutdown *)
Definition vdead (s : sconn) : Prop := vn_shutdown s = true /\ Forall (fun o => w_aborted o = true) (wr_ops (vn_writer s)).

(** Only removals are repeated, by further calls of shutdown. *)
Lemma vdead_step : forall s e, vdead s -> exists s' o, vconn_step s e = Ret (s', o) /\ vdead s' /\ Forall (fun x => x = VRemoved) o.
Proof.
  intros s e [D A]. destruct e as [|d| | | |r x|w n|w ok]; cbn [vconn_step].
  - unfold v_start. rewrite D. do 2 eexists. split; [reflexivity|]. split; [split; assumption|constructor].
  - unfold v_send. rewrite D. do 2 eexists. split; [reflexivity|]. split; [split; assumption|constructor].
  - unfold v_close. rewrite D. do 2 eexists. split; [reflexivity|]. split; [split; assumption|constructor].
  - do 2 eexists. split; [reflexivity|]. split; [split; assumption|constructor].
  - destruct (vn_queue s) as [|[|] q]; [do 2 eexists; split; [reflexivity|]; split; [split; assumption|constructor]| |].
    + unfold v_do_close. cbn [vn_shutdown with_vqueue]. rewrite D. do 2 eexists; split; [reflexivity|]; split; [split; assumption|constructor].
    + do 2 eexists; split; [reflexivity|]; split; [split; [reflexivity|apply aborted_abort]|repeat constructor].
  - destruct (find_vread _ _) as [g|]; [|do 2 eexists; split; [reflexivity|]; split; [split; assumption|constructor]].
    destruct (g || _); [|do 2 eexists; split; [reflexivity|]; split; [split; assumption|constructor]].
    unfold v_read_handler. cbn [vn_shutdown with_vreads]. rewrite D. do 2 eexists; split; [reflexivity|]; split; [split; assumption|constructor].
  - rewrite aborted_transfer by exact A. cbn [obind]. do 2 eexists; split; [reflexivity|]. split; [split; assumption|constructor].
  - unfold v_write_handler. destruct (w_complete (vn_writer s) w ok) as [[c ow]|] eqn:E;
      [|do 2 eexists; split; [reflexivity|]; split; [split; assumption|constructor]].
    rewrite D. do 2 eexists; split; [reflexivity|]. split; [|constructor]. split; [exact D|]. apply aborted_filter, A.
Qed.

(** ** After the closing *)
Definition vclosed (s : sconn) : Prop :=
  vn_connected s = false /\ vn_open s = false /\ Forall (fun o => w_aborted o = true) (wr_ops (vn_writer s)).

Lemma vclosed_step : forall s e, vclosed s -> e <> VStart -> exists s' o, vconn_step s e = Ret (s', o) /\ vclosed s' /\ Forall no_traffic o.
Proof.
  intros s e (C & O & A) NS. destruct e as [|d| | | |r x|w n|w ok]; cbn [vconn_step].
  - congruence.
  - unfold v_send. destruct (vn_shutdown s) eqn:SD; [do 2 eexists; split; [reflexivity|]; split; [repeat split; assumption|constructor]|].
    unfold v_send_buffer. cbn [vn_shutdown vn_connected with_vwriter]. rewrite SD, C.
    do 2 eexists; split; [reflexivity|]; split; [repeat split; assumption|constructor].
  - do 2 eexists; split; [reflexivity|]; split; [|constructor]. unfold v_close. destruct (vn_shutdown s); repeat split; assumption.
  - do 2 eexists; split; [reflexivity|]; split; [repeat split; assumption|constructor].
  - destruct (vn_queue s) as [|[|] q]; [do 2 eexists; split; [reflexivity|]; split; [repeat split; assumption|constructor]| |].
    + unfold v_do_close. cbn [vn_shutdown with_vqueue vn_open with_vconnected]. rewrite O.
      destruct (vn_shutdown s); do 2 eexists; (split; [reflexivity|]); (split; [repeat split; assumption|constructor]).
    + do 2 eexists; split; [reflexivity|]; split; [repeat split; try assumption; apply aborted_abort|repeat constructor].
  - destruct (find_vread _ _) as [g|]; [|do 2 eexists; split; [reflexivity|]; split; [repeat split; assumption|constructor]].
    destruct (g || _); [|do 2 eexists; split; [reflexivity|]; split; [repeat split; assumption|constructor]].
    unfold v_read_handler. cbn [vn_shutdown with_vreads].
    destruct (vn_shutdown s) eqn:SD; [do 2 eexists; split; [reflexivity|]; split; [repeat split; assumption|constructor]|].
    destruct x; do 2 eexists; (split; [reflexivity|]); split; repeat constructor; unfold v_begin_read, v_close; cbn [vn_shutdown vn_connected with_vreads];
      rewrite ?SD, ?C; assumption.
  - rewrite aborted_transfer by exact A. cbn [obind]. do 2 eexists; split; [reflexivity|]. split; [repeat split; assumption|constructor].
  - unfold v_write_handler. destruct (w_complete (vn_writer s) w ok) as [[c ow]|] eqn:E;
      [|do 2 eexists; split; [reflexivity|]; split; [repeat split; assumption|constructor]].
    destruct (vn_shutdown s) eqn:SD.
    { do 2 eexists; split; [reflexivity|]. split; [|constructor]. split; [exact C|split; [exact O|apply aborted_filter, A]]. }
    unfold w_complete in E. destruct (find_op _ w) as [y|]; [|discriminate E].
    destruct ok; [destruct (w_taken y); [|discriminate E]|]; injection E as <- <-; do 2 eexists; (split; [reflexivity|]).
    + split; [|repeat constructor]. split; [exact C|split; [exact O|apply aborted_filter, A]].
    + split; [|repeat constructor]. unfold v_close. cbn [vn_shutdown with_vwriter]. rewrite SD. split; [exact C|split; [exact O|apply aborted_filter, A]].
Qed.

Lemma vclosed_run : forall es s s' os, vclosed s -> ~ In VStart es -> vconn_run s es = Ret (s', os) -> Forall no_traffic os.
Proof.
  induction es as [|e es IH]; intros s s' os C NS E; cbn [vconn_run] in E; [injection E as <- <-; constructor|].
  destruct (vclosed_step s e C) as (s1 & o1 & S & C1 & F); [intro; subst e; apply NS; left; reflexivity|]. rewrite S in E. cbn [obind] in E.
  destruct (vconn_run s1 es) as [[s2 o2]|] eqn:R; cbn [obind] in E; [|discriminate]. injection E as <- <-.
  apply Forall_app. split; [exact F|]. eapply IH; eauto. intro K. apply NS. right. exact K.
Qed.

(** Outputs of a step that closes the socket. *)
Lemma closing_step : forall s e s' a b, vconn_step s e = Ret (s', a ++ VSocketClosed :: b) -> vclosed s' /\ b = [VRemoved].
Proof.
  intros s e s' a b E. assert (H : In VSocketClosed (a ++ VSocketClosed :: b)) by apply in_elt. remember (a ++ VSocketClosed :: b) as o eqn:EO.
  destruct e as [|d| | | |r x|w n|w ok]; cbn [vconn_step] in E; vtry s E.
  - exfalso. unfold v_start in E. destruct (vn_shutdown s); [injection E as <- <-; destruct H|].
    destruct (v_send_buffer _) as [s1 o1] eqn:B. injection E as <- <-.
    unfold v_send_buffer in B. destruct (vn_shutdown _); [injection B as <- <-; destruct H|]. destruct (vn_connected _); [|injection B as <- <-; destruct H].
    destruct (w_start _ _). injection B as <- <-. apply in_map_iff in H as (y & K & _). discriminate K.
  - exfalso. unfold v_send in E. destruct (vn_shutdown s); [injection E as <- <-; destruct H|].
    unfold v_send_buffer in E. destruct (vn_shutdown _); [injection E as <- <-; destruct H|]. destruct (vn_connected _); [|injection E as <- <-; destruct H].
    destruct (w_start _ _). injection E as <- <-. apply in_map_iff in H as (y & K & _). discriminate K.
  - injection E as <- <-. destruct H.
  - injection E as <- <-. destruct H.
  - destruct (vn_queue s) as [|[|] q]; [injection E as <- <-; destruct H| |].
    + vtry s E; unfold v_do_close in E. cbn [vn_shutdown with_vqueue vn_open with_vconnected] in E.
      destruct (vn_shutdown s); [injection E as <- <-; destruct H|].
      destruct (vn_open s); injection E as <- <-; [|destruct H].
      split; [split; [reflexivity|split; [reflexivity|apply aborted_abort]]|].
      destruct a as [|z [|z' a]]; cbn in EO; injection EO; intros; subst; auto; try discriminate. destruct a; discriminate.
    + exfalso. injection E as <- <-. destruct H as [H|[]]; discriminate H.
  - exfalso. destruct (find_vread _ _) as [g|]; [|injection E as <- <-; destruct H].
    destruct (g || _); [|injection E as <- <-; destruct H]. vunret s E. unfold v_read_handler in E. cbn [vn_shutdown with_vreads] in E.
    destruct (vn_shutdown s); [injection E as <- <-; destruct H|].
    destruct x; injection E as <- <-; cbn in H; intuition discriminate.
  - exfalso. destruct (w_transfer (vn_writer s) w n) as [[c ow]|] eqn:W; cbn [obind] in E; [|discriminate]. injection E as <- <-.
    apply in_map_iff in H as (y & K & _). discriminate K.
  - exfalso. unfold v_write_handler in E. destruct (w_complete (vn_writer s) w ok) as [[c ow]|]; [|injection E as <- <-; destruct H].
    destruct (vn_shutdown s); [injection E as <- <-; destruct H|].
    destruct ok; injection E as <- <-; apply in_app_or in H as [H|H]; try (apply in_map_iff in H as (y & K & _); discriminate K); cbn in H; intuition discriminate.
Qed.

Theorem server_silent_after_close : forall es s os a b, ~ In VStart (tl es) ->
  vconn_run sconn_init es = Ret (s, os) -> os = a ++ VSocketClosed :: b -> Forall no_traffic b.
Proof.
  intros es s os a b. generalize sconn_init. revert s os a b.
  induction es as [|e es IH]; intros s os a b s0 NS E EO; cbn [vconn_run tl] in *.
  - injection E as <- <-. destruct a; discriminate EO.
  - destruct (vconn_step s0 e) as [[s1 o1]|] eqn:S; cbn [obind] in E; [|discriminate].
    destruct (vconn_run s1 es) as [[s2 o2]|] eqn:R; cbn [obind] in E; [|discriminate]. injection E as <- <-.
    apply split_app in EO as [(b' & EO & ->)|(a' & EO & ->)].
    + rewrite EO in S. destruct (closing_step _ _ _ _ _ S) as [C ->]. apply Forall_app. split; [repeat constructor|].
      eapply vclosed_run; eauto.
    + eapply (IH s2 o2 a' b s1); eauto. intro K. apply NS. destruct es; [destruct K|right; exact K].
Qed.

(** ** Every failure closes the connection *)
Lemma vstep_queue : forall s e s' o, vconn_step s e = Ret (s', o) ->
  exists q, vn_queue s' = (match e with VRun => tl (vn_queue s) | _ => vn_queue s end) ++ q.
Proof.
  intros s e s' o E. destruct e as [|d| | | |r x|w n|w ok]; cbn [vconn_step] in E; vtry s E.
  - exists []. rewrite app_nil_r. unfold v_start in E. destruct (vn_shutdown s) eqn:SD; [injection E as <- <-; reflexivity|].
    destruct (v_send_buffer _) as [s1 o1] eqn:B. injection E as <- <-.
    unfold v_send_buffer in B. cbn [vn_shutdown vn_connected with_vconnected] in B. rewrite SD in B.
    destruct (w_start _ _). injection B as <- <-. unfold v_begin_read. cbn [vn_shutdown vn_connected with_vwriter with_vconnected]. rewrite SD. reflexivity.
  - exists []. rewrite app_nil_r. unfold v_send in E. destruct (vn_shutdown s) eqn:SD; [injection E as <- <-; reflexivity|].
    unfold v_send_buffer in E. cbn [vn_shutdown vn_connected with_vwriter] in E. rewrite SD in E.
    destruct (vn_connected s); [destruct (w_start _ _)|]; injection E as <- <-; reflexivity.
  - injection E as <- <-. unfold v_close. destruct (vn_shutdown s); [exists []; rewrite app_nil_r; reflexivity|eexists; reflexivity].
  - injection E as <- <-. eexists; reflexivity.
  - destruct (vn_queue s) as [|[|] q] eqn:Q; [injection E as <- <-; exists []; exact Q| |].
    + exists []. rewrite app_nil_r. vtry s E; unfold v_do_close in E. cbn [vn_shutdown with_vqueue vn_open with_vconnected] in E.
      destruct (vn_shutdown s); [injection E as <- <-; reflexivity|]. destruct (vn_open s); injection E as <- <-; reflexivity.
    + injection E as <- <-. exists []. rewrite app_nil_r. reflexivity.
  - destruct (find_vread _ _) as [g|]; [|injection E as <- <-; exists []; rewrite app_nil_r; reflexivity].
    destruct (g || _); [|injection E as <- <-; exists []; rewrite app_nil_r; reflexivity].
    vunret s E. unfold v_read_handler in E. cbn [vn_shutdown with_vreads] in E.
    destruct (vn_shutdown s) eqn:SD; [injection E as <- <-; exists []; rewrite app_nil_r; reflexivity|].
    destruct x; injection E as <- <-.
    + exists []. rewrite app_nil_r. unfold v_begin_read. cbn [vn_shutdown vn_connected with_vreads]. rewrite SD. destruct (vn_connected s); reflexivity.
    + unfold v_close. cbn [vn_shutdown with_vreads]. rewrite SD. eexists; reflexivity.
    + unfold v_close. cbn [vn_shutdown with_vreads]. rewrite SD. eexists; reflexivity.
  - destruct (w_transfer (vn_writer s) w n) as [[c ow]|] eqn:W; cbn [obind] in E; [|discriminate]. injection E as <- <-.
    exists []; rewrite app_nil_r; reflexivity.
  - unfold v_write_handler in E.
    destruct (w_complete (vn_writer s) w ok) as [[c ow]|] eqn:W; [|injection E as <- <-; exists []; rewrite app_nil_r; reflexivity].
    destruct (vn_shutdown s) eqn:SD; [injection E as <- <-; exists []; rewrite app_nil_r; reflexivity|].
    destruct ok; injection E as <- <-; [exists []; rewrite app_nil_r; reflexivity|].
    unfold v_close. cbn [vn_shutdown with_vwriter]. rewrite SD. eexists; reflexivity.
Qed.

(** A failure is reported to the listener, the server is told to forget the
    connection, and the closing is posted. *)
Lemma server_failure_posts : forall s e s' o, vn_shutdown s = false -> vconn_step s e = Ret (s', o) -> In VFailed o ->
  In VRemoved o /\ vn_queue s' = vn_queue s ++ [VDoClose].
Proof.
  intros s e s' o SD E H. destruct e as [|d| | | |r x|w n|w ok]; cbn [vconn_step] in E; vtry s E.
  - exfalso. unfold v_start in E. rewrite SD in E.
    destruct (v_send_buffer _) as [s1 o1] eqn:B. injection E as <- <-.
    unfold v_send_buffer in B. cbn [vn_shutdown vn_connected with_vconnected] in B. rewrite SD in B.
    destruct (w_start _ _). injection B as <- <-. apply in_map_iff in H as (y & K & _). discriminate K.
  - exfalso. unfold v_send in E. rewrite SD in E. unfold v_send_buffer in E. cbn [vn_shutdown vn_connected with_vwriter] in E. rewrite SD in E.
    destruct (vn_connected s); [destruct (w_start _ _)|]; injection E as <- <-; [|destruct H].
    apply in_map_iff in H as (y & K & _). discriminate K.
  - injection E as <- <-. destruct H.
  - injection E as <- <-. destruct H.
  - exfalso. destruct (vn_queue s) as [|[|] q]; [injection E as <- <-; destruct H| |].
    + vtry s E; unfold v_do_close in E. cbn [vn_shutdown with_vqueue vn_open with_vconnected] in E. rewrite SD in E.
      destruct (vn_open s); injection E as <- <-; cbn in H; intuition discriminate.
    + injection E as <- <-. cbn in H; intuition discriminate.
  - destruct (find_vread _ _) as [g|]; [|injection E as <- <-; destruct H].
    destruct (g || _); [|injection E as <- <-; destruct H].
    vunret s E. unfold v_read_handler in E. cbn [vn_shutdown with_vreads] in E. rewrite SD in E.
    destruct x; injection E as <- <-; [exfalso; cbn in H; intuition discriminate| |];
      unfold v_close; cbn [vn_shutdown with_vreads]; rewrite SD; cbn; auto.
  - exfalso. destruct (w_transfer (vn_writer s) w n) as [[c ow]|] eqn:W; cbn [obind] in E; [|discriminate]. injection E as <- <-.
    apply in_map_iff in H as (y & K & _). discriminate K.
  - unfold v_write_handler in E.
    destruct (w_complete (vn_writer s) w ok) as [[c ow]|] eqn:W; [|injection E as <- <-; destruct H].
    rewrite SD in E. destruct ok; injection E as <- <-.
    + exfalso. apply in_app_or in H as [H|H]; [apply in_map_iff in H as (y & K & _); discriminate K|]. cbn in H. intuition discriminate.
    + split; [apply in_or_app; right; cbn; auto|]. unfold v_close. cbn [vn_shutdown with_vwriter]. rewrite SD. reflexivity.
Qed.

Lemma vshutdown_false : forall s e s' o, vconn_step s e = Ret (s', o) -> ~ In VDoShutdown (vn_queue s) -> vn_shutdown s = false -> vn_shutdown s' = false.
Proof.
  intros s e s' o E NQ SD. destruct e as [|d| | | |r x|w n|w ok]; cbn [vconn_step] in E; vtry s E.
  - unfold v_start in E. rewrite SD in E. destruct (v_send_buffer _) as [s1 o1] eqn:B. injection E as <- <-.
    unfold v_send_buffer in B. cbn [vn_shutdown vn_connected with_vconnected] in B. rewrite SD in B.
    destruct (w_start _ _). injection B as <- <-. unfold v_begin_read. cbn [vn_shutdown vn_connected with_vwriter with_vconnected]. rewrite SD. exact SD.
  - unfold v_send in E. rewrite SD in E. unfold v_send_buffer in E. cbn [vn_shutdown vn_connected with_vwriter] in E. rewrite SD in E.
    destruct (vn_connected s); [destruct (w_start _ _)|]; injection E as <- <-; exact SD.
  - injection E as <- <-. unfold v_close. rewrite SD. exact SD.
  - injection E as <- <-. exact SD.
  - destruct (vn_queue s) as [|[|] q] eqn:Q; [injection E as <- <-; exact SD| |].
    + vtry s E; unfold v_do_close in E. cbn [vn_shutdown with_vqueue vn_open with_vconnected] in E. rewrite SD in E.
      destruct (vn_open s); injection E as <- <-; cbn; auto.
    + exfalso. apply NQ. left. reflexivity.
  - destruct (find_vread _ _) as [g|]; [|injection E as <- <-; exact SD].
    destruct (g || _); [|injection E as <- <-; exact SD].
    vunret s E. unfold v_read_handler in E. cbn [vn_shutdown with_vreads] in E. rewrite SD in E.
    destruct x; injection E as <- <-; unfold v_close, v_begin_read; cbn [vn_shutdown vn_connected with_vreads]; rewrite SD; [destruct (vn_connected s)| |]; exact SD.
  - destruct (w_transfer (vn_writer s) w n) as [[c ow]|] eqn:W; cbn [obind] in E; [|discriminate]. injection E as <- <-. exact SD.
  - unfold v_write_handler in E.
    destruct (w_complete (vn_writer s) w ok) as [[c ow]|] eqn:W; [|injection E as <- <-; exact SD].
    rewrite SD in E. destruct ok; injection E as <- <-; [exact SD|]. unfold v_close. cbn [vn_shutdown with_vwriter]. rewrite SD. exact SD.
Qed.

Lemma vqueue_new : forall s e s' o q, vconn_step s e = Ret (s', o) -> e <> VShutdown ->
  vn_queue s' = (match e with VRun => tl (vn_queue s) | _ => vn_queue s end) ++ q -> ~ In VDoShutdown q.
Proof.
  intros s e s' o q E NE H.
  assert (K : forall l, l = l ++ q -> ~ In VDoShutdown q).
  { intros l Z. assert (q = []) as ->; [|intros []]. apply (app_inv_head l). rewrite app_nil_r. auto. }
  assert (K' : forall l, l ++ [VDoClose] = l ++ q -> ~ In VDoShutdown q).
  { intros l Z. apply app_inv_head in Z. subst q. intros [Z|[]]. discriminate Z. }
  destruct e as [|d| | | |r x|w n|w ok]; cbn [vconn_step] in E; vtry s E; try congruence.
  - unfold v_start in E. destruct (vn_shutdown s) eqn:SD; [injection E as <- <-; eapply K; exact H|].
    destruct (v_send_buffer _) as [s1 o1] eqn:B. injection E as <- <-.
    unfold v_send_buffer in B. cbn [vn_shutdown vn_connected with_vconnected] in B. rewrite SD in B.
    destruct (w_start _ _). injection B as <- <-. unfold v_begin_read in H. cbn [vn_shutdown vn_connected with_vwriter with_vconnected] in H. rewrite SD in H.
    eapply K; exact H.
  - unfold v_send in E. destruct (vn_shutdown s) eqn:SD; [injection E as <- <-; eapply K; exact H|].
    unfold v_send_buffer in E. cbn [vn_shutdown vn_connected with_vwriter] in E. rewrite SD in E.
    destruct (vn_connected s); [destruct (w_start _ _)|]; injection E as <- <-; eapply K; exact H.
  - injection E as <- <-. unfold v_close in H. destruct (vn_shutdown s); [eapply K|eapply K']; exact H.
  - destruct (vn_queue s) as [|[|] qq] eqn:Q; [injection E as <- <-; rewrite Q in H; eapply K; exact H| |].
    + vtry s E; unfold v_do_close in E. cbn [vn_shutdown with_vqueue vn_open with_vconnected] in E. cbn [tl] in H.
      destruct (vn_shutdown s); [injection E as <- <-; eapply K; exact H|]. destruct (vn_open s); injection E as <- <-; eapply K; exact H.
    + injection E as <- <-. eapply K; exact H.
  - destruct (find_vread _ _) as [g|]; [|injection E as <- <-; eapply K; exact H].
    destruct (g || _); [|injection E as <- <-; eapply K; exact H].
    vunret s E. unfold v_read_handler in E. cbn [vn_shutdown with_vreads] in E.
    destruct (vn_shutdown s) eqn:SD; [injection E as <- <-; eapply K; exact H|].
    destruct x; injection E as <- <-.
    + unfold v_begin_read in H. cbn [vn_shutdown vn_connected with_vreads] in H. rewrite SD in H. destruct (vn_connected s); eapply K; exact H.
    + unfold v_close in H. cbn [vn_shutdown with_vreads] in H. rewrite SD in H. eapply K'; exact H.
    + unfold v_close in H. cbn [vn_shutdown with_vreads] in H. rewrite SD in H. eapply K'; exact H.
  - destruct (w_transfer (vn_writer s) w n) as [[c ow]|] eqn:W; cbn [obind] in E; [|discriminate]. injection E as <- <-. eapply K; exact H.
  - unfold v_write_handler in E.
    destruct (w_complete (vn_writer s) w ok) as [[c ow]|] eqn:W; [|injection E as <- <-; eapply K; exact H].
    destruct (vn_shutdown s) eqn:SD; [injection E as <- <-; eapply K; exact H|].
    destruct ok; injection E as <- <-; [eapply K; exact H|].
    unfold v_close in H. cbn [vn_shutdown with_vwriter] in H. rewrite SD in H. eapply K'; exact H.
Qed.

(** The socket only changes when it is closed. *)
Lemma vopen_step : forall s e s' o, vconn_step s e = Ret (s', o) -> vn_open s' = false -> vn_open s = false \/ In VSocketClosed o.
Proof.
  intros s e s' o E H. destruct e as [|d| | | |r x|w n|w ok]; cbn [vconn_step] in E; vtry s E.
  - left. unfold v_start in E. destruct (vn_shutdown s) eqn:SD; [injection E as <- <-; exact H|].
    destruct (v_send_buffer _) as [s1 o1] eqn:B. injection E as <- <-.
    unfold v_send_buffer in B. cbn [vn_shutdown vn_connected with_vconnected] in B. rewrite SD in B.
    destruct (w_start _ _). injection B as <- <-. unfold v_begin_read in H. cbn [vn_shutdown vn_connected with_vwriter with_vconnected] in H. rewrite SD in H. exact H.
  - left. unfold v_send in E. destruct (vn_shutdown s) eqn:SD; [injection E as <- <-; exact H|].
    unfold v_send_buffer in E. cbn [vn_shutdown vn_connected with_vwriter] in E. rewrite SD in E.
    destruct (vn_connected s); [destruct (w_start _ _)|]; injection E as <- <-; exact H.
  - left. injection E as <- <-. unfold v_close in H. destruct (vn_shutdown s); exact H.
  - left. injection E as <- <-. exact H.
  - destruct (vn_queue s) as [|[|] qq] eqn:Q; [injection E as <- <-; auto| |].
    + vtry s E; unfold v_do_close in E. cbn [vn_shutdown with_vqueue vn_open with_vconnected] in E.
      destruct (vn_shutdown s); [injection E as <- <-; auto|]. destruct (vn_open s); injection E as <- <-; cbn; auto.
    + injection E as <- <-. auto.
  - left. destruct (find_vread _ _) as [g|]; [|injection E as <- <-; exact H].
    destruct (g || _); [|injection E as <- <-; exact H].
    vunret s E. unfold v_read_handler in E. cbn [vn_shutdown with_vreads] in E.
    destruct (vn_shutdown s) eqn:SD; [injection E as <- <-; exact H|].
    destruct x; injection E as <- <-; unfold v_close, v_begin_read in H; cbn [vn_shutdown vn_connected with_vreads] in H; rewrite SD in H;
      [destruct (vn_connected s)| |]; exact H.
  - left. destruct (w_transfer (vn_writer s) w n) as [[c ow]|] eqn:W; cbn [obind] in E; [|discriminate]. injection E as <- <-. exact H.
  - left. unfold v_write_handler in E.
    destruct (w_complete (vn_writer s) w ok) as [[c ow]|] eqn:W; [|injection E as <- <-; exact H].
    destruct (vn_shutdown s) eqn:SD; [injection E as <- <-; exact H|].
    destruct ok; injection E as <- <-; [exact H|]. unfold v_close in H. cbn [vn_shutdown with_vwriter] in H. rewrite SD in H. exact H.
Qed.

(** A posted closing closes the socket, unless it is closed already. *)
Lemma vclose_run : forall es s p q s' os, vn_shutdown s = false -> ~ In VDoShutdown (vn_queue s) -> ~ In VShutdown es ->
  vn_queue s = p ++ VDoClose :: q -> (List.length p < vruns es)%nat -> vconn_run s es = Ret (s', os) ->
  vn_open s = false \/ In VSocketClosed os.
Proof.
  induction es as [|e es IH]; intros s p q s' os SD NQ NS Q L E; cbn [vconn_run] in E; [cbn in L; lia|].
  destruct (vconn_step s e) as [[s1 o1]|] eqn:S; cbn [obind] in E; [|discriminate].
  destruct (vconn_run s1 es) as [[s2 o2]|] eqn:R; cbn [obind] in E; [|discriminate]. injection E as <- <-.
  destruct (vstep_queue _ _ _ _ S) as (q' & Q').
  assert (NE : e <> VShutdown) by (intro; subst e; apply NS; left; reflexivity).
  assert (NQ' := vqueue_new _ _ _ _ _ S NE Q').
  assert (SD1 := vshutdown_false _ _ _ _ S NQ SD).
  assert (NS1 : ~ In VShutdown es) by (intro K; apply NS; right; exact K).
  assert (NQ1 : ~ In VDoShutdown (vn_queue s1)).
  { rewrite Q'. intro K. apply in_app_or in K as [K|K]; [|exact (NQ' K)]. apply NQ. destruct e; try exact K.
    destruct (vn_queue s); [destruct K|right; exact K]. }
  assert (D : vn_open s1 = false \/ In VSocketClosed o2 -> vn_open s = false \/ In VSocketClosed (o1 ++ o2)).
  { intros [D|D]; [|right; apply in_or_app; auto]. destruct (vopen_step _ _ _ _ S D); [auto|right; apply in_or_app; auto]. }
  assert (NR : (e = VRun) \/ (vruns (e :: es) = vruns es /\ vn_queue s1 = p ++ VDoClose :: (q ++ q'))).
  { destruct e; auto; right; (split; [reflexivity|]); rewrite Q', Q, <- app_assoc; reflexivity. }
  destruct NR as [->|[NR Q1]].
  - destruct p as [|x p].
    + cbn [vconn_step] in S. rewrite Q in S. cbn [app] in S. vunret s S. unfold v_do_close in S.
      cbn [vn_shutdown with_vqueue vn_open with_vconnected] in S. rewrite SD in S. destruct (vn_open s) eqn:O; [|left; reflexivity].
      injection S as <- <-. right. left. reflexivity.
    + apply D. eapply (IH s1 p (q ++ q')); eauto.
      * rewrite Q', Q. cbn [app tl]. rewrite <- app_assoc. reflexivity.
      * change (vruns (VRun :: es)) with (1 + vruns es)%nat in L. cbn [List.length] in L. lia.
  - apply D. eapply (IH s1 p (q ++ q')); eauto. lia.
Qed.

(** Either the socket was closed before the failure, or it is closed as soon as the
    posted closures have run. *)
Theorem server_failure_closes : forall es s os e s1 o1 es2 s2 o2,
  vconn_run sconn_init es = Ret (s, os) -> ~ In VShutdown (es ++ es2) -> e <> VShutdown ->
  vconn_step s e = Ret (s1, o1) -> In VFailed o1 ->
  vconn_run s1 es2 = Ret (s2, o2) -> (List.length (vn_queue s) < vruns es2)%nat ->
  In VRemoved o1 /\ In VSocketClosed (os ++ o1 ++ o2).
Proof.
  intros es s os e s1 o1 es2 s2 o2 R NS NE S F R2 L.
  assert (I : (vn_shutdown s = false /\ ~ In VDoShutdown (vn_queue s)) /\ (vn_open s = false -> In VSocketClosed ([] ++ os))).
  { apply (vrun_ind (fun _ e => e <> VShutdown)
      (fun s os => (vn_shutdown s = false /\ ~ In VDoShutdown (vn_queue s)) /\ (vn_open s = false -> In VSocketClosed os))) with (es := es) (s := sconn_init) (os := []).
    - intros s0 os0 e0 s0' o0 [[I1 I2] I3] P0 S0. destruct (vstep_queue _ _ _ _ S0) as (q' & Q'). split; [split|].
      + eapply vshutdown_false; eauto.
      + rewrite Q'. intro K. apply in_app_or in K as [K|K]; [|exact (vqueue_new _ _ _ _ _ S0 P0 Q' K)]. apply I2. destruct e0; try exact K.
        destruct (vn_queue s0); [destruct K|right; exact K].
      + intro O. apply in_or_app. destruct (vopen_step _ _ _ _ S0 O); auto.
    - repeat split; cbn; auto; discriminate.
    - clear -NS. generalize sconn_init. induction es as [|x es IH]; intro s; cbn; [exact Logic.I|]. split.
      + intro; subst. apply NS. left. reflexivity.
      + intros s' o _. apply IH. intro K. apply NS. right. exact K.
    - exact R. }
  destruct I as [[SD NQ] O]. cbn [app] in O.
  destruct (server_failure_posts _ _ _ _ SD S F) as [RM Q]. split; [exact RM|].
  assert (SD1 := vshutdown_false _ _ _ _ S NQ SD).
  destruct (vclose_run es2 s1 (vn_queue s) [] s2 o2) as [O1|O1]; auto.
  - rewrite Q. intro K. apply in_app_or in K as [K|[K|[]]]; [auto|discriminate K].
  - intro K. apply NS. apply in_or_app. auto.
  - destruct (vopen_step _ _ _ _ S O1) as [Z|Z]; [apply in_or_app; auto|apply in_or_app; right; apply in_or_app; auto].
  - apply in_or_app. right. apply in_or_app. auto.
Qed.
