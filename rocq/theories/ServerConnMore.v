(** More about ServerConn.v: after the shutdown, after the closing, and reading. *)
From Verif Require Import Prelude Ser4 Mbap SpecPdu SpecMbap AsyncWrite ClientConn ServerConn SpecConn WriteFacts ConnFacts ServerConnFacts.
From Coq Require Import Lia.

(** ** The steps *)
Definition vmk sd co op wr rd q n : sconn :=
  {| vn_shutdown := sd; vn_connected := co; vn_open := op; vn_writer := wr; vn_reads := rd; vn_queue := q; vn_next_read := n |}.

Definition vdrop (r : nat) (l : list (nat * bool)) : list (nat * bool) := filter (fun x => negb (Nat.eqb (fst x) r)) l.

Inductive vtrans : sconn -> vevent -> sconn -> list voutput -> Prop :=
| vt_idle s e : vtrans s e s []
| vt_start co op wr rd q n wr' o : w_start wr op = (wr', o) ->
    vtrans (vmk false co op wr rd q n) VStart (vmk false true op wr' (rd ++ [(n, op)]) q (S n)) (map VWrite o)
| vt_hold op wr rd q n d : vtrans (vmk false false op wr rd q n) (VSend d) (vmk false false op (w_replace wr d) rd q n) []
| vt_send op wr rd q n d wr' o : w_start (w_replace wr d) op = (wr', o) ->
    vtrans (vmk false true op wr rd q n) (VSend d) (vmk false true op wr' rd q n) (map VWrite o)
| vt_close co op wr rd q n : vtrans (vmk false co op wr rd q n) VClose (vmk false co op wr rd (q ++ [VDoClose]) n) []
| vt_post sd co op wr rd q n : vtrans (vmk sd co op wr rd q n) VShutdown (vmk sd co op wr rd (q ++ [VDoShutdown]) n) []
| vt_no_close co op wr rd q n : vtrans (vmk true co op wr rd (VDoClose :: q) n) VRun (vmk true co op wr rd q n) []
| vt_closed co wr rd q n : vtrans (vmk false co false wr rd (VDoClose :: q) n) VRun (vmk false false false wr rd q n) []
| vt_closes co wr rd q n : vtrans (vmk false co true wr rd (VDoClose :: q) n) VRun (vmk false false false (w_abort wr) rd q n) [VSocketClosed; VRemoved]
| vt_shutdown sd co op wr rd q n : vtrans (vmk sd co op wr rd (VDoShutdown :: q) n) VRun (vmk true co op (w_abort wr) rd q n) [VRemoved]
| vt_read_dead co op wr rd q n r x : find_vread rd r <> None -> vtrans (vmk true co op wr rd q n) (VRead r x) (vmk true co op wr (vdrop r rd) q n) []
| vt_read_on op wr rd q n r d : find_vread rd r = Some true ->
    vtrans (vmk false true op wr rd q n) (VRead r (RData d)) (vmk false true op wr (vdrop r rd ++ [(n, op)]) q (S n)) [VReceived d]
| vt_read_last op wr rd q n r d : find_vread rd r = Some true ->
    vtrans (vmk false false op wr rd q n) (VRead r (RData d)) (vmk false false op wr (vdrop r rd) q n) [VReceived d]
| vt_read_fails co op wr rd q n r x : find_vread rd r <> None -> (forall d, x <> RData d) ->
    vtrans (vmk false co op wr rd q n) (VRead r x) (vmk false co op wr (vdrop r rd) (q ++ [VDoClose]) n) [VFailed; VRemoved]
| vt_transfer sd co op wr rd q n w k wr' o : w_transfer wr w k = Ret (wr', o) ->
    vtrans (vmk sd co op wr rd q n) (VTransfer w k) (vmk sd co op wr' rd q n) (map VWrite o)
| vt_written_dead co op wr rd q n w ok : vtrans (vmk true co op wr rd q n) (VWritten w ok) (vmk true co op (set_op wr (delete_op (wr_ops wr) w)) rd q n) []
| vt_written co op wr rd q n w wr' : w_complete wr w true = Some (wr', [WDone w]) ->
    vtrans (vmk false co op wr rd q n) (VWritten w true) (vmk false co op wr' rd q n) [VWrite (WDone w); VWriteDone]
| vt_write_fails co op wr rd q n w wr' : w_complete wr w false = Some (wr', [WFailed w]) ->
    vtrans (vmk false co op wr rd q n) (VWritten w false) (vmk false co op wr' rd (q ++ [VDoClose]) n) [VWrite (WFailed w); VFailed; VRemoved].

Lemma w_complete_out : forall c w ok c' o, w_complete c w ok = Some (c', o) -> o = [if ok then WDone w else WFailed w].
Proof.
  intros c w ok c' o E. unfold w_complete in E. destruct (find_op _ w) as [y|]; [|discriminate].
  destruct ok; [destruct (w_taken y); [|discriminate]|]; injection E as <- <-; reflexivity.
Qed.

Lemma vstep_trans : forall s e s' o, vconn_step s e = Ret (s', o) -> vtrans s e s' o.
Proof.
  intros [sd co op wr rd q n] e s' o E. destruct e as [|d| | | |r x|w k|w ok]; cbn [vconn_step] in E; vtry sconn_init E.
  - unfold v_start in E. cbn [vn_shutdown] in E. destruct sd; [injection E as <- <-; apply vt_idle|].
    destruct (v_send_buffer _) as [s1 o1] eqn:B. injection E as <- <-. unfold v_send_buffer in B. cbn in B.
    destruct (w_start wr op) as [wr' ow] eqn:K. injection B as <- <-. exact (vt_start co op wr rd q n wr' ow K).
  - unfold v_send in E. cbn [vn_shutdown] in E. destruct sd; [injection E as <- <-; apply vt_idle|].
    unfold v_send_buffer in E. cbn [vn_shutdown vn_connected with_vwriter vn_writer vn_open] in E. destruct co; [|injection E as <- <-; exact (vt_hold op wr rd q n d)].
    destruct (w_start (w_replace wr d) op) as [wr' ow] eqn:K. injection E as <- <-. exact (vt_send op wr rd q n d wr' ow K).
  - injection E as <- <-. unfold v_close. cbn [vn_shutdown]. destruct sd; [apply vt_idle|exact (vt_close co op wr rd q n)].
  - injection E as <- <-. exact (vt_post sd co op wr rd q n).
  - cbn [vn_queue] in E. destruct q as [|[|] q]; [injection E as <- <-; apply vt_idle| |].
    + vunret sconn_init E. unfold v_do_close in E. cbn [vn_shutdown with_vqueue] in E. destruct sd; [injection E as <- <-; exact (vt_no_close co op wr rd q n)|].
      cbn [vn_open with_vconnected with_vqueue] in E. destruct op; injection E as <- <-; [exact (vt_closes co wr rd q n)|exact (vt_closed co wr rd q n)].
    + injection E as <- <-. exact (vt_shutdown sd co op wr rd q n).
  - cbn [vn_reads] in E. destruct (find_vread rd r) as [g|] eqn:F; [|injection E as <- <-; apply vt_idle].
    destruct (g || _) eqn:G; [|injection E as <- <-; apply vt_idle]. vunret sconn_init E.
    assert (NF : find_vread rd r <> None) by (rewrite F; discriminate).
    unfold v_read_handler in E. cbn [vn_shutdown with_vreads] in E. destruct sd; [injection E as <- <-; exact (vt_read_dead co op wr rd q n r x NF)|].
    destruct x as [d| |].
    + rewrite Bool.orb_false_r in G. subst g. injection E as <- <-. unfold v_begin_read. cbn [vn_shutdown vn_connected with_vreads]. destruct co.
      * exact (vt_read_on op wr rd q n r d F).
      * exact (vt_read_last op wr rd q n r d F).
    + injection E as <- <-. unfold v_close. cbn [vn_shutdown with_vreads]. apply (vt_read_fails co op wr rd q n r REof NF). discriminate.
    + injection E as <- <-. unfold v_close. cbn [vn_shutdown with_vreads]. apply (vt_read_fails co op wr rd q n r RError NF). discriminate.
  - cbn [vn_writer] in E. destruct (w_transfer wr w k) as [[wr' ow]|] eqn:K; cbn [obind] in E; [|discriminate]. injection E as <- <-.
    exact (vt_transfer sd co op wr rd q n w k wr' ow K).
  - unfold v_write_handler in E. cbn [vn_writer vn_shutdown] in E. destruct (w_complete wr w ok) as [[wr' ow]|] eqn:K; [|injection E as <- <-; apply vt_idle].
    destruct sd; [injection E as <- <-; exact (vt_written_dead co op wr rd q n w ok)|].
    pose proof (w_complete_out _ _ _ _ _ K) as ->. destruct ok; injection E as <- <-.
    + exact (vt_written co op wr rd q n w wr' K).
    + exact (vt_write_fails co op wr rd q n w wr' K).
Qed.

Lemma vrun_cons : forall s e es s' os, vconn_run s (e :: es) = Ret (s', os) ->
  exists s1 o1 o2, vconn_step s e = Ret (s1, o1) /\ vconn_run s1 es = Ret (s', o2) /\ os = o1 ++ o2.
Proof.
  intros s e es s' os E. cbn [vconn_run] in E. destruct (vconn_step s e) as [[s1 o1]|]; cbn [obind] in E; [|discriminate].
  destruct (vconn_run s1 es) as [[s2 o2]|] eqn:R; cbn [obind] in E; [|discriminate]. injection E as <- <-. eauto 6.
Qed.

Lemma vrun_snoc_ind : forall (I : list vevent -> sconn -> list voutput -> Prop), I [] sconn_init [] ->
  (forall es s os e s' o, I es s os -> vtrans s e s' o -> I (es ++ [e]) s' (os ++ o)) ->
  forall es s os, vconn_run sconn_init es = Ret (s, os) -> I es s os.
Proof.
  intros I I0 IS. enough (K : forall es2 es1 s1 o1 s2 o2, I es1 s1 o1 -> vconn_run s1 es2 = Ret (s2, o2) -> I (es1 ++ es2) s2 (o1 ++ o2)).
  { intros es s os R. exact (K es [] sconn_init [] s os I0 R). }
  induction es2 as [|e es2 IH]; intros es1 s1 o1 s2 o2 H R; [injection R as <- <-; rewrite !app_nil_r; exact H|].
  apply vrun_cons in R as (s3 & o3 & o4 & S & R & ->). apply vstep_trans in S.
  replace (es1 ++ e :: es2) with ((es1 ++ [e]) ++ es2) by (rewrite <- app_assoc; reflexivity).
  rewrite app_assoc. eapply IH; [|exact R]. eapply IS; eauto.
Qed.

(** ** After the shutdown *)
Lemma vdead_run : forall es s, vdead s -> exists s' os, vconn_run s es = Ret (s', os) /\ Forall (fun x => x = VRemoved) os.
Proof.
  induction es as [|e es IH]; intros s D; [do 2 eexists; split; [reflexivity|constructor]|]. cbn [vconn_run].
  destruct (vdead_step s e D) as (s1 & o1 & S & D1 & F1). rewrite S. cbn [obind].
  destruct (IH s1 D1) as (s2 & o2 & R & F2). rewrite R. cbn [obind]. do 2 eexists. split; [reflexivity|]. apply Forall_app. auto.
Qed.

Lemma vdead_keeps : forall es s s' os, vdead s -> vconn_run s es = Ret (s', os) -> vdead s'.
Proof.
  induction es as [|e es IH]; intros s s' os D R; [injection R as <- <-; exact D|].
  apply vrun_cons in R as (s1 & o1 & o2 & S & R & ->). destruct (vdead_step s e D) as (s4 & o5 & S' & D1 & _). rewrite S in S'. injection S' as <- <-.
  eapply IH; eauto.
Qed.

Lemma vdead_reached : forall es s p q s' os, vn_queue s = p ++ VDoShutdown :: q -> (List.length p < vruns es)%nat ->
  vconn_run s es = Ret (s', os) -> vdead s'.
Proof.
  induction es as [|e es IH]; intros s p q s' os Q L R; [cbn in L; lia|].
  apply vrun_cons in R as (s1 & o1 & o2 & S & R & ->). destruct (vstep_queue _ _ _ _ S) as (q' & Q').
  assert (NR : (e = VRun) \/ (vruns (e :: es) = vruns es /\ vn_queue s1 = p ++ VDoShutdown :: (q ++ q'))).
  { destruct e; auto; right; (split; [reflexivity|]); rewrite Q', Q, <- app_assoc; reflexivity. }
  destruct NR as [->|[NR Q1]].
  - change (vruns (VRun :: es)) with (1 + vruns es)%nat in L. destruct p as [|x p].
    + cbn [vconn_step] in S. rewrite Q in S. cbn [app] in S. injection S as <- <-.
      eapply vdead_keeps; [|exact R]. split; [reflexivity|apply aborted_abort].
    + eapply (IH s1 p (q ++ q')); [|cbn [List.length] in L; lia|exact R]. rewrite Q', Q. cbn [app tl]. rewrite <- app_assoc. reflexivity.
  - eapply (IH s1 p (q ++ q')); eauto. lia.
Qed.

Theorem server_shutdown_silent : forall es s os es1 s1 os1 es2,
  vconn_run sconn_init es = Ret (s, os) -> vconn_run s (VShutdown :: es1) = Ret (s1, os1) -> (List.length (vn_queue s) < vruns es1)%nat ->
  exists s2 o2, vconn_run s1 es2 = Ret (s2, o2) /\ Forall (fun x => x = VRemoved) o2.
Proof.
  intros es s os es1 s1 os1 es2 _ R L. apply vrun_cons in R as (s0 & o0 & o & S & R & ->). cbn [vconn_step] in S. injection S as <- <-.
  apply vdead_run. eapply vdead_reached; [|exact L|exact R]. reflexivity.
Qed.

(** ** After the closing *)
Definition is_took (o : voutput) : Prop := match o with VWrite (WTook _ _) => True | _ => False end.

Definition voff (s : sconn) : Prop := vn_open s = false /\ Forall (fun o => w_aborted o = true) (wr_ops (vn_writer s)).

Lemma start_aborted : forall wr wr' o, Forall (fun o => w_aborted o = true) (wr_ops wr) -> w_start wr false = (wr', o) ->
  Forall (fun o => w_aborted o = true) (wr_ops wr') /\ Forall (fun x => forall w d, x <> WTook w d) o.
Proof.
  intros wr wr' o A E. unfold w_start in E. destruct (wr_buffer wr) as [b|]; injection E as <- <-.
  - split; [|repeat constructor; discriminate]. apply Forall_app. split; [exact A|]. repeat constructor.
  - split; [exact A|constructor].
Qed.

Lemma no_took : forall o, Forall (fun x => forall w d, x <> WTook w d) o -> Forall (fun x => ~ is_took x) (map VWrite o).
Proof. intros o H. apply Forall_map. eapply Forall_impl; [|exact H]. intros [] K; cbn; auto. intros _. eapply K; reflexivity. Qed.

Lemma voff_step : forall s e s' o, voff s -> vtrans s e s' o -> voff s' /\ Forall (fun x => ~ is_took x) o.
Proof.
  intros s e s' o [O A] T.
  assert (N : Forall (fun x => ~ is_took x) []) by constructor.
  destruct T; cbn [vmk vn_open vn_writer] in *; try (split; [split; assumption|repeat constructor; cbn; auto; fail]).
  - subst op. destruct (start_aborted _ _ _ A H) as [A1 A2]. split; [split; [reflexivity|exact A1]|apply no_took, A2].
  - subst op. destruct (start_aborted (w_replace wr d) _ _ A H) as [A1 A2]. split; [split; [reflexivity|exact A1]|apply no_took, A2].
  - discriminate.
  - split; [split; [exact O|apply aborted_abort]|repeat constructor; cbn; auto].
  - rewrite aborted_transfer in H by exact A. injection H as <- <-. split; [split; assumption|constructor].
  - split; [split; [exact O|apply aborted_filter, A]|constructor].
  - unfold w_complete in H. destruct (find_op _ w) as [y|]; [|discriminate]. destruct (w_taken y); [|discriminate]. injection H as <-.
    split; [split; [exact O|apply aborted_filter, A]|repeat constructor; cbn; auto].
  - unfold w_complete in H. destruct (find_op _ w) as [y|]; [|discriminate]. injection H as <-.
    split; [split; [exact O|apply aborted_filter, A]|repeat constructor; cbn; auto].
Qed.

Lemma voff_run : forall es s s' os, voff s -> vconn_run s es = Ret (s', os) -> Forall (fun x => ~ is_took x) os.
Proof.
  induction es as [|e es IH]; intros s s' os V R; [injection R as <- <-; constructor|].
  apply vrun_cons in R as (s1 & o1 & o2 & S & R & ->). apply vstep_trans in S. destruct (voff_step _ _ _ _ V S) as [V1 F].
  apply Forall_app. split; [exact F|eapply IH; eauto].
Qed.

(** A closed socket takes nothing, however often the connection is started. *)
Theorem closed_takes_nothing : forall es s os a b, vconn_run sconn_init es = Ret (s, os) -> os = a ++ VSocketClosed :: b ->
  forall w d, ~ In (VWrite (WTook w d)) b.
Proof.
  intros es s os a b R E w d K.
  enough (F : Forall (fun x => ~ is_took x) b) by (rewrite Forall_forall in F; exact (F _ K Logic.I)). clear w d K. revert R E. generalize sconn_init. revert s os a b.
  induction es as [|e es IH]; intros s os a b s0 R E; [injection R as <- <-; destruct a; discriminate|].
  apply vrun_cons in R as (s1 & o1 & o2 & S & R & ->). apply split_app in E as [(b' & E & ->)|(a' & E & ->)]; [|eapply IH; eauto].
  subst o1. destruct (closing_step _ _ _ _ _ S) as [(_ & C1 & C2) ->]. apply Forall_app. split; [repeat constructor; cbn; auto|].
  eapply voff_run; [|exact R]. split; assumption.
Qed.

(** ** Reading *)
Lemma vdrop_length : forall r l, find_vread l r <> None -> (List.length (vdrop r l) < List.length l)%nat.
Proof.
  assert (K : forall r l, (List.length (vdrop r l) <= List.length l)%nat).
  { intros r l. induction l as [|[x g] l IH]; [apply le_n|]. cbn [vdrop filter fst]. fold (vdrop r l). destruct (Nat.eqb x r); cbn [negb List.length]; lia. }
  intros r l. induction l as [|[x g] l IH]; cbn [find_vread vdrop filter fst List.length]; [congruence|]. destruct (Nat.eqb x r); cbn [negb List.length]; intro H.
  - specialize (K r l). fold (vdrop r l). lia.
  - specialize (IH H). fold (vdrop r l). lia.
Qed.

Lemma vcount_app : forall p a b, vcount p (a ++ b) = (vcount p a + vcount p b)%nat.
Proof. intros. unfold vcount. rewrite filter_app, app_length. reflexivity. Qed.

Lemma map_not_heard : forall o, vcount is_heard (map VWrite o) = 0%nat.
Proof. induction o as [|x o IH]; [reflexivity|exact IH]. Qed.

Lemma late_step : forall s e s' o, vclosed s -> e <> VStart -> vtrans s e s' o ->
  vclosed s' /\ (vcount is_heard o + List.length (vn_reads s') <= List.length (vn_reads s) + vcount is_wfailed o)%nat.
Proof.
  intros s e s' o (C & O & A) NS T.
  assert (Z : forall n, (vcount is_heard [] + n <= n + vcount is_wfailed [])%nat) by (intro; cbn; lia).
  destruct T; cbn [vmk vn_open vn_writer vn_connected vn_reads] in *; try congruence; try (split; [split; [|split]; assumption|apply Z]).
  - split; [split; [|split]; [exact C|exact O|apply aborted_abort]|]. cbn. lia.
  - split; [split; [|split]; assumption|]. apply vdrop_length in H. cbn. lia.
  - split; [split; [|split]; assumption|]. assert (K : find_vread rd r <> None) by congruence. apply vdrop_length in K. cbn. lia.
  - split; [split; [|split]; assumption|]. apply vdrop_length in H. cbn. lia.
  - rewrite aborted_transfer in H by exact A. injection H as <- <-. split; [split; [|split]; assumption|]. apply Z.
  - split; [split; [|split]; [exact C|exact O|apply aborted_filter, A]|apply Z].
  - unfold w_complete in H. destruct (find_op _ w) as [y|]; [|discriminate]. destruct (w_taken y); [|discriminate]. injection H as <-.
    split; [split; [|split]; [exact C|exact O|apply aborted_filter, A]|cbn; lia].
  - unfold w_complete in H. destruct (find_op _ w) as [y|]; [|discriminate]. injection H as <-.
    split; [split; [|split]; [exact C|exact O|apply aborted_filter, A]|cbn; lia].
Qed.

Lemma late_run : forall es s s' os, vclosed s -> ~ In VStart es -> vconn_run s es = Ret (s', os) ->
  (vcount is_heard os <= List.length (vn_reads s) + vcount is_wfailed os)%nat.
Proof.
  induction es as [|e es IH]; intros s s' os V NS R; [injection R as <- <-; cbn; lia|].
  apply vrun_cons in R as (s1 & o1 & o2 & S & R & ->). apply vstep_trans in S.
  assert (NE : e <> VStart) by (intros ->; apply NS; left; reflexivity). destruct (late_step _ _ _ _ V NE S) as [V1 L].
  specialize (IH _ _ _ V1 (fun K => NS (or_intror K)) R). rewrite !vcount_app. lia.
Qed.

(** At most one read is in progress; none before the start and none on a closed
    socket that is still connected. *)
Definition reading (s : sconn) : Prop :=
  (vn_connected s = true -> vn_open s = true) /\
  (vn_reads s = [] \/ vn_reads s = [(Nat.pred (vn_next_read s), true)]) /\
  (vn_reads s = [] -> vn_connected s = true -> vn_shutdown s = true \/ In VDoClose (vn_queue s)) /\
  (vn_reads s <> [] -> vn_next_read s <> 0%nat).

Lemma vdrop_one : forall r n, find_vread [(n, true)] r <> None -> r = n /\ vdrop r [(n, true)] = [].
Proof.
  intros r n H. unfold find_vread, vdrop in *. cbn [filter fst]. destruct (Nat.eqb n r) eqn:E; [|congruence].
  apply Nat.eqb_eq in E as ->. split; reflexivity.
Qed.

Lemma reading_step : forall s e s' o, reading s -> e <> VStart -> vtrans s e s' o -> reading s'.
Proof.
  intros s e s' o (C & D & B & P) NS T.
  destruct T; unfold reading; cbn [vmk vn_open vn_writer vn_connected vn_reads vn_next_read vn_queue vn_shutdown] in *; try congruence; try (split; [|split; [|split]]; assumption).
  - split; [exact C|split; [exact D|split; [|exact P]]]. intros K1 K2. right. apply in_or_app. right. left. reflexivity.
  - split; [exact C|split; [exact D|split; [|exact P]]]. intros K1 K2. destruct (B K1 K2) as [B1|B1]; [left; exact B1|right; apply in_or_app; auto].
  - split; [exact C|split; [exact D|split; [|exact P]]]. intros K1 K2. left. reflexivity.
  - split; [discriminate|split; [exact D|split; [discriminate|exact P]]].
  - split; [discriminate|split; [exact D|split; [discriminate|exact P]]].
  - split; [exact C|split; [exact D|split; [|exact P]]]. intros K1 K2. left. reflexivity.
  - destruct D as [->|D]; [cbn in H; congruence|]. rewrite D in H |- *. apply vdrop_one in H as [-> ->].
    split; [exact C|split; [left; reflexivity|split; [intros _ _; left; reflexivity|congruence]]].
  - destruct D as [->|D]; [discriminate H|]. rewrite D in H |- *. assert (K : find_vread [(Nat.pred n, true)] r <> None) by congruence. apply vdrop_one in K as [-> ->].
    rewrite (C eq_refl). split; [auto|split; [right; reflexivity|split; [discriminate|]]]. discriminate.
  - destruct D as [->|D]; [discriminate H|]. rewrite D in H |- *. assert (K : find_vread [(Nat.pred n, true)] r <> None) by congruence. apply vdrop_one in K as [-> ->].
    split; [auto|split; [left; reflexivity|split; [discriminate|congruence]]].
  - destruct D as [->|D]; [cbn in H; congruence|]. rewrite D in H |- *. apply vdrop_one in H as [-> ->].
    split; [exact C|split; [left; reflexivity|split; [intros _ _; right; apply in_or_app; right; left; reflexivity|congruence]]].
  - split; [exact C|split; [exact D|split; [|exact P]]]. intros K1 K2. right. apply in_or_app. right. left. reflexivity.
Qed.

Lemma reading_run : forall es s s' os, reading s -> ~ In VStart es -> vconn_run s es = Ret (s', os) -> reading s'.
Proof.
  induction es as [|e es IH]; intros s s' os V NS R; [injection R as <- <-; exact V|].
  apply vrun_cons in R as (s1 & o1 & o2 & S & R & ->). apply vstep_trans in S.
  eapply IH; [|intro K; apply NS; right; exact K|exact R]. eapply reading_step; [exact V| |exact S]. intros ->. apply NS. left. reflexivity.
Qed.

Lemma reading_init : reading sconn_init.
Proof. split; [discriminate|]. split; [left; reflexivity|]. split; [discriminate|]. intro H. destruct H. reflexivity. Qed.

Lemma reading_history : forall es s os, ~ In VStart (tl es) -> vconn_run sconn_init es = Ret (s, os) -> reading s.
Proof.
  intros es s os NS R. destruct es as [|e es]; [injection R as <- <-|].
  { exact reading_init. }
  apply vrun_cons in R as (s1 & o1 & o2 & S & R & ->). eapply reading_run; [|exact NS|exact R].
  destruct e as [|d| | | |r x|w k|w ok]; try (apply vstep_trans in S; refine (reading_step _ _ _ _ reading_init _ S); discriminate).
  vm_compute in S. injection S as <- <-. split; [reflexivity|]. split; [right; reflexivity|]. split; [discriminate|discriminate].
Qed.

(** After the closing at most one more read is heard of, apart from failures of writes. *)
Theorem server_late_events : forall es s os a b, ~ In VStart (tl es) -> vconn_run sconn_init es = Ret (s, os) -> os = a ++ VSocketClosed :: b ->
  (vcount is_heard b <= 1 + vcount is_wfailed b)%nat.
Proof.
  intros es s os a b NS R E.
  enough (K : forall es1 es0 s0 o0 s os a b, ~ In VStart (tl (es0 ++ es1)) -> vconn_run sconn_init es0 = Ret (s0, o0) -> vconn_run s0 es1 = Ret (s, os) ->
    os = a ++ VSocketClosed :: b -> (vcount is_heard b <= 1 + vcount is_wfailed b)%nat).
  { exact (K es [] sconn_init [] s os a b NS eq_refl R E). }
  clear. induction es1 as [|e es IH]; intros es0 s0 o0 s os a b NS R0 R E; [injection R as <- <-; destruct a; discriminate|].
  apply vrun_cons in R as (s1 & o1 & o2 & S & R & ->).
  assert (R1 : vconn_run sconn_init (es0 ++ [e]) = Ret (s1, o0 ++ o1)).
  { clear -R0 S. revert R0. generalize sconn_init. revert o0. induction es0 as [|x es0 IH]; intros o0 s2 R0; cbn [vconn_run app] in *.
    - injection R0 as <- <-. rewrite S. cbn [obind]. rewrite app_nil_r. reflexivity.
    - apply vrun_cons in R0 as (s3 & o3 & o4 & S3 & R3 & ->). rewrite S3. cbn [obind]. rewrite (IH _ _ R3). cbn [obind]. rewrite app_assoc. reflexivity. }
  replace (es0 ++ e :: es) with ((es0 ++ [e]) ++ es) in NS by (rewrite <- app_assoc; reflexivity).
  assert (NS1 : ~ In VStart (tl (es0 ++ [e]))).
  { intro K. apply NS. destruct es0; cbn in *; [destruct K|]. rewrite <- app_assoc. apply in_app_or in K as [K|K]; apply in_or_app; auto. right. destruct K as [K|[]]. left. exact K. }
  apply split_app in E as [(b' & E & ->)|(a' & E & ->)]; [|eapply (IH (es0 ++ [e])); eauto].
  subst o1. destruct (closing_step _ _ _ _ _ S) as [C ->]. rewrite !vcount_app. change (vcount is_heard [VRemoved]) with 0%nat. change (vcount is_wfailed [VRemoved]) with 0%nat.
  assert (NS2 : ~ In VStart es).
  { intro K. apply NS. destruct es0 as [|x es0]; cbn; [exact K|apply in_or_app; right; exact K]. }
  pose proof (late_run _ _ _ _ C NS2 R) as L. destruct (reading_history _ _ _ NS1 R1) as (_ & [D|D] & _); rewrite D in L; cbn in L; cbn; lia.
Qed.

(** A started connection that is neither closed, nor shut down, nor about to be closed, is reading;
    and what is read is delivered, and the reading goes on. *)
Theorem always_reading : forall es s os, vconn_run sconn_init (VStart :: es) = Ret (s, os) -> ~ In VStart es ->
  vn_connected s = true -> vn_shutdown s = false -> ~ In VDoClose (vn_queue s) ->
  exists r, vn_reads s = [(r, true)] /\
    forall d, exists s', vconn_step s (VRead r (RData d)) = Ret (s', [VReceived d]) /\
      vn_reads s' = [(vn_next_read s, true)] /\ vn_connected s' = true /\ vn_shutdown s' = false /\ vn_queue s' = vn_queue s.
Proof.
  intros es s os R NS C SD NQ. destruct (reading_history (VStart :: es) _ _ NS R) as (O & [D|D] & B & _).
  - destruct (B D C) as [K|K]; [congruence|destruct (NQ K)].
  - exists (Nat.pred (vn_next_read s)). split; [exact D|]. intro d. cbn [vconn_step]. rewrite D. cbn [find_vread]. rewrite Nat.eqb_refl. cbn [orb].
    unfold v_read_handler. cbn [vn_shutdown with_vreads]. rewrite SD. eexists. split; [reflexivity|].
    cbn [filter fst]. rewrite Nat.eqb_refl. cbn [negb]. unfold v_begin_read. cbn [vn_shutdown vn_connected with_vreads vn_next_read vn_reads vn_open vn_queue]. rewrite SD, C.
    cbn [vn_reads vn_connected vn_shutdown vn_queue with_vreads vn_next_read app]. rewrite (O C). repeat split; assumption.
Qed.
