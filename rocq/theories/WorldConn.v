(** The connections of World.v: which frame a transfer takes, and on which socket. *)
From Verif Require Import Prelude Ser4 Messages Mbap Client Server Database System.
From Verif Require Import AsyncWrite ClientConn ClientTcp Listener ServerConn ServerTcp World.
From Verif Require Import SpecPdu SpecMbap SpecClient SpecServer SpecDb SpecConn SpecClientTcp SpecServerTcp SpecSystem SpecWorld.
From Verif Require Import WriteFacts ClientShutdown NetFacts.

(** ** The writer: an operation that can still be served holds the frame [out] *)
Record wlive (c : writer) (out : option (list N)) : Prop := {
  wl_next : forall b, wr_buffer c = Some b -> (fst b < wr_next_buffer c)%nat;
  wl_ops : forall o, In o (wr_ops c) -> (fst (w_buf o) < wr_next_buffer c)%nat;
  wl_inj : forall x y, In x (wr_ops c) -> In y (wr_ops c) -> fst (w_buf x) = fst (w_buf y) -> x = y;
  wl_out : forall o b, In o (wr_ops c) -> wr_buffer c = Some b -> fst (w_buf o) = fst b -> w_aborted o = false -> w_taken o = None ->
    out = Some (snd (w_buf o));
  wl_id_next : forall o, In o (wr_ops c) -> (w_id o < wr_next_op c)%nat;
  wl_ids : forall x y, In x (wr_ops c) -> In y (wr_ops c) -> w_id x = w_id y -> x = y
}.

(** An operation waits to be served. *)
Definition wwaits (c : writer) : Prop := exists o, In o (wr_ops c) /\ w_aborted o = false /\ w_taken o = None.

(** No operation uses the current buffer. *)
Definition wfree (c : writer) : Prop := forall b o, wr_buffer c = Some b -> In o (wr_ops c) -> fst (w_buf o) <> fst b.

(** The current buffer holds [out]. *)
Definition wholds (c : writer) (out : option (list N)) : Prop := forall b, wr_buffer c = Some b -> out = Some (snd b).

Definition wdead (c : writer) : Prop := forall o, In o (wr_ops c) -> w_aborted o = true.

Lemma wl_init out : wlive writer_init out.
Proof. constructor; cbn; intros; try contradiction; discriminate. Qed.

Lemma wl_dead c out out' : wlive c out -> wdead c -> wlive c out'.
Proof. intros [H1 H2 H3 H4 H5 H6] D. constructor; auto. intros o b Ho _ _ Ha. rewrite (D _ Ho) in Ha. discriminate. Qed.

Lemma wl_replace c out data : wlive c out -> wlive (w_replace c data) (Some data).
Proof.
  intros [H1 H2 H3 H4 H5 H6]. constructor; cbn [w_replace wr_buffer wr_ops wr_next_buffer wr_next_op].
  - intros b E. injection E as <-. cbn. lia.
  - intros o Ho. specialize (H2 o Ho). lia.
  - exact H3.
  - intros o b Ho E Eb. injection E as <-. cbn [fst] in Eb. specialize (H2 o Ho). lia.
  - exact H5.
  - exact H6.
Qed.

Lemma wf_replace c out data : wlive c out -> wfree (w_replace c data).
Proof. intros H b o E Ho. cbn in E, Ho. injection E as <-. cbn [fst]. assert (K := wl_ops _ _ H o Ho). lia. Qed.

Lemma wh_replace c data : wholds (w_replace c data) (Some data).
Proof. intros b E. cbn in E. injection E as <-. reflexivity. Qed.

Lemma wl_start c out op : wlive c out -> wfree c -> wholds c out -> wlive (fst (w_start c op)) out.
Proof.
  intros L F Ho. unfold w_start. destruct (wr_buffer c) as [b|] eqn:E; [|exact L]. destruct L as [H1 H2 H3 H4 H5 H6].
  constructor; cbn [fst wr_buffer wr_ops wr_next_buffer wr_next_op].
  - intros b' Eb. injection Eb as <-. exact (H1 _ E).
  - intros o Hi. apply in_app_or in Hi. destruct Hi as [Hi|[<-|[]]]; [exact (H2 _ Hi)|]. cbn [w_buf]. exact (H1 _ E).
  - intros x y Hx Hy Exy. apply in_app_or in Hx, Hy. destruct Hx as [Hx|[<-|[]]], Hy as [Hy|[<-|[]]].
    + exact (H3 _ _ Hx Hy Exy).
    + exfalso. exact (F b x E Hx Exy).
    + exfalso. exact (F b y E Hy (eq_sym Exy)).
    + reflexivity.
  - intros o b' Hi Eb Eo Ha Ht. injection Eb as <-. apply in_app_or in Hi. destruct Hi as [Hi|[<-|[]]].
    + exfalso. exact (F b o E Hi Eo).
    + cbn [w_buf]. exact (Ho _ E).
  - intros o Hi. apply in_app_or in Hi. destruct Hi as [Hi|[<-|[]]]; [specialize (H5 _ Hi)|cbn [w_id]]; lia.
  - intros x y Hx Hy Exy. apply in_app_or in Hx, Hy. destruct Hx as [Hx|[<-|[]]], Hy as [Hy|[<-|[]]].
    + exact (H6 _ _ Hx Hy Exy).
    + exfalso. specialize (H5 _ Hx). cbn [w_id] in Exy. lia.
    + exfalso. specialize (H5 _ Hy). cbn [w_id] in Exy. lia.
    + reflexivity.
Qed.

Lemma start_waits c : wr_buffer c <> None -> wwaits (fst (w_start c true)).
Proof.
  unfold w_start. destruct (wr_buffer c) as [b|]; [|contradiction]. intros _. eexists. cbn [fst wr_ops].
  split; [apply in_or_app; right; left; reflexivity|]. split; reflexivity.
Qed.

Lemma delete_waits c w x : (forall x y, In x (wr_ops c) -> In y (wr_ops c) -> w_id x = w_id y -> x = y) ->
  find_op (wr_ops c) w = Some x -> w_taken x <> None -> wwaits c -> wwaits (set_op c (delete_op (wr_ops c) w)).
Proof.
  intros H Ef Ht (o & H1 & H2 & H3). exists o. split; [|split; assumption]. cbn [set_op wr_ops]. apply filter_In. split; [exact H1|].
  apply find_op_In in Ef. destruct Ef as [Hx <-]. apply negb_true_iff, Nat.eqb_neq. intros E. rewrite (H _ _ H1 Hx E) in H3. contradiction.
Qed.

Lemma start_ops c op o : In o (wr_ops (fst (w_start c op))) -> In o (wr_ops c) \/ w_aborted o = negb op.
Proof.
  unfold w_start. destruct (wr_buffer c) as [b|]; [|left; assumption]. cbn [fst wr_ops]. intros H. apply in_app_or in H.
  destruct H as [H|[<-|[]]]; [left; exact H|right; reflexivity].
Qed.

Lemma start_outs c op o : In o (snd (w_start c op)) -> exists w d, o = WStarted w d.
Proof. unfold w_start. destruct (wr_buffer c); cbn; [|contradiction]. intros [<-|[]]. eauto. Qed.

Lemma wl_delete c out w : wlive c out -> wlive (set_op c (delete_op (wr_ops c) w)) out.
Proof.
  assert (K : forall o, In o (delete_op (wr_ops c) w) -> In o (wr_ops c)) by (intros o Ho; apply filter_In in Ho; apply Ho).
  intros [H1 H2 H3 H4 H5 H6]. constructor; cbn [set_op wr_buffer wr_ops wr_next_buffer wr_next_op]; [exact H1| | | | |].
  - intros o Ho. apply H2. apply K. exact Ho.
  - intros x y Hx Hy. apply H3; apply K; assumption.
  - intros o b Ho. apply H4. apply K. exact Ho.
  - intros o Ho. apply H5. apply K. exact Ho.
  - intros x y Hx Hy. apply H6; apply K; assumption.
Qed.

Lemma wl_done c out w : wlive c out ->
  wlive {| wr_buffer := None; wr_ops := delete_op (wr_ops c) w; wr_next_buffer := wr_next_buffer c; wr_next_op := wr_next_op c |} out.
Proof.
  intros H. apply (wl_delete _ _ w) in H. destruct H as [H1 H2 H3 H4 H5 H6]. cbn [set_op wr_ops wr_next_buffer wr_next_op] in *.
  constructor; cbn [wr_buffer wr_ops wr_next_buffer wr_next_op]; auto; intros; discriminate.
Qed.

Lemma wl_abort c out out' : wlive c out -> wlive (w_abort c) out'.
Proof.
  intros [H1 H2 H3 H4 H5 H6]. constructor; cbn [w_abort set_op wr_buffer wr_ops wr_next_buffer wr_next_op]; [exact H1| | | | |].
  - intros o Ho. apply in_map_iff in Ho. destruct Ho as (x & <- & Ho). exact (H2 _ Ho).
  - intros x y Hx Hy E. apply in_map_iff in Hx, Hy. destruct Hx as (x' & <- & Hx), Hy as (y' & <- & Hy).
    cbn [w_buf] in E. rewrite (H3 _ _ Hx Hy E). reflexivity.
  - intros o b Ho _ _ Ha. apply in_map_iff in Ho. destruct Ho as (x & <- & Ho). discriminate Ha.
  - intros o Ho. apply in_map_iff in Ho. destruct Ho as (x & <- & Ho). exact (H5 _ Ho).
  - intros x y Hx Hy E. apply in_map_iff in Hx, Hy. destruct Hx as (x' & <- & Hx), Hy as (y' & <- & Hy).
    cbn [w_id] in E. rewrite (H6 _ _ Hx Hy E). reflexivity.
Qed.

Lemma abort_dead c : wdead (w_abort c).
Proof. intros o Ho. cbn in Ho. apply in_map_iff in Ho. destruct Ho as (x & <- & _). reflexivity. Qed.

Lemma wf_abort c : wfree c -> wfree (w_abort c).
Proof. intros F b o E Ho. cbn in E, Ho. apply in_map_iff in Ho. destruct Ho as (x & <- & Ho). exact (F b x E Ho). Qed.

Lemma find_in l w o : find_op l w = Some o -> In o l /\ w_id o = w.
Proof.
  induction l as [|x l IH]; cbn [find_op]; [discriminate|]. destruct (Nat.eqb (w_id x) w) eqn:E.
  - intros H. injection H as <-. split; [left; reflexivity|apply Nat.eqb_eq; exact E].
  - intros H. destruct (IH H) as [K1 K2]. split; [right; exact K1|exact K2].
Qed.

Lemma wl_transfer c out w n c' o : wlive c out -> w_transfer c w n = Ret (c', o) -> takes_all c w n ->
  (c' = c /\ o = []) \/
  (exists x, In x (wr_ops c) /\ w_aborted x = false /\ o = [WTook w (snd (w_buf x))] /\ out = Some (snd (w_buf x)) /\
     wlive c' None /\ wr_buffer c' = wr_buffer c /\ ~ wfree c /\
     forall y, In y (wr_ops c') -> exists z, In z (wr_ops c) /\ w_aborted y = w_aborted z /\ w_buf y = w_buf z).
Proof.
  intros L E T. unfold w_transfer in E. destruct (find_op (wr_ops c) w) as [x|] eqn:Ef; [|injection E as <- <-; left; auto].
  specialize (T x Ef). destruct (find_in _ _ _ Ef) as [Hx Hw].
  destruct (w_aborted x) eqn:Ha; [injection E as <- <-; left; auto|].
  destruct (w_taken x) eqn:Ht; [injection E as <- <-; left; auto|]. cbn [orb] in E.
  destruct (Nat.eqb n 0); [injection E as <- <-; left; auto|]. cbn [orb] in E.
  destruct (Nat.ltb (List.length (snd (w_buf x))) n); [injection E as <- <-; left; auto|].
  destruct (wr_buffer c) as [b|] eqn:Eb; [|discriminate E].
  destruct (Nat.eqb (fst b) (fst (w_buf x))) eqn:Ebx; [|discriminate E]. apply Nat.eqb_eq in Ebx.
  injection E as <- <-. right. exists x.
  destruct L as [H1 H2 H3 H4 H5 H6].
  split; [exact Hx|]. split; [exact Ha|]. split; [rewrite T, firstn_all; reflexivity|].
  split; [exact (H4 x b Hx Eb (eq_sym Ebx) Ha Ht)|].
  assert (K : forall y, In y (wr_ops (set_op c (map (fun x0 => if Nat.eqb (w_id x0) w
                    then {| w_id := w_id x0; w_buf := w_buf x0; w_taken := Some n; w_aborted := w_aborted x0 |} else x0) (wr_ops c)))) ->
     exists z, In z (wr_ops c) /\ w_aborted y = w_aborted z /\ w_buf y = w_buf z /\ (w_id z = w -> w_taken y <> None)).
  { intros y Hy. cbn [set_op wr_ops] in Hy. apply in_map_iff in Hy. destruct Hy as (z & <- & Hz). exists z. split; [exact Hz|].
    destruct (Nat.eqb (w_id z) w) eqn:Ez; cbn [w_aborted w_buf w_taken].
    - split; [reflexivity|]. split; [reflexivity|]. intros _. discriminate.
    - split; [reflexivity|]. split; [reflexivity|]. intros Ew. apply Nat.eqb_neq in Ez. contradiction. }
  split; [|split; [cbn [set_op wr_buffer]; exact Eb|split]].
  - constructor.
    + cbn [set_op wr_buffer wr_next_buffer]. exact H1.
    + intros y Hy. destruct (K y Hy) as (z & Hz & _ & Ez & _). rewrite Ez. exact (H2 z Hz).
    + cbn [set_op wr_ops]. intros y z Hy Hz Eyz. apply in_map_iff in Hy, Hz. destruct Hy as (y' & <- & Hy), Hz as (z' & <- & Hz).
      assert (E0 : fst (w_buf y') = fst (w_buf z')).
      { destruct (Nat.eqb (w_id y') w), (Nat.eqb (w_id z') w); exact Eyz. }
      rewrite (H3 _ _ Hy Hz E0). reflexivity.
    + intros y b' Hy Eb' Ey Ha' Ht'. exfalso. destruct (K y Hy) as (z & Hz & _ & Ez & Hk).
      cbn [set_op wr_buffer] in Eb'. rewrite Eb in Eb'. injection Eb' as <-.
      rewrite Ez in Ey. assert (z = x) by (apply (H3 _ _ Hz Hx); congruence). subst z. exact (Hk Hw Ht').
    + cbn [set_op wr_ops wr_next_op]. intros y Hy. apply in_map_iff in Hy. destruct Hy as (y' & <- & Hy).
      specialize (H5 _ Hy). destruct (Nat.eqb (w_id y') w); exact H5.
    + cbn [set_op wr_ops]. intros y z Hy Hz Eyz. apply in_map_iff in Hy, Hz. destruct Hy as (y' & <- & Hy), Hz as (z' & <- & Hz).
      assert (E0 : w_id y' = w_id z').
      { destruct (Nat.eqb (w_id y') w), (Nat.eqb (w_id z') w); exact Eyz. }
      rewrite (H6 _ _ Hy Hz E0). reflexivity.
  - intros F. exact (F b x Eb Hx (eq_sym Ebx)).
  - intros y Hy. destruct (K y Hy) as (z & Hz & K1 & K2 & _). exists z. auto.
Qed.

(** ** The client's connection
    [strict]: no write of an earlier socket completes with success any more. *)
Section Conn.
Context {strict : bool}.

Record cinv (c : cconn) (cur : nat) (out : option (list N)) : Prop := {
  ci_live : wlive (cn_writer c) out;
  ci_socket : forall o, In o (wr_ops (cn_writer c)) -> w_aborted o = false -> cn_socket c = Some cur /\ cn_shutdown c = false;
  ci_cur : (cur <= cn_next_socket c)%nat;
  ci_resolves : cn_resolves c <> 0%nat -> (cur < cn_next_socket c)%nat;
  ci_connects : forall g, In g (cn_connects c) -> (cur < g < cn_next_socket c)%nat;
  ci_connected : cn_status c = Connected -> cn_shutdown c = false ->
    cn_resolves c = 0%nat /\ cn_connects c = [] /\ cn_socket c = Some cur;
  ci_attempt : cn_shutdown c = false -> cn_resolves c <> 0%nat \/ cn_connects c <> [] -> wfree (cn_writer c) /\ wholds (cn_writer c) out;
  ci_pending : cn_shutdown c = false -> cn_resolves c <> 0%nat \/ cn_connects c <> [] ->
    wdead (cn_writer c) /\ out <> None /\ (strict = true -> wr_buffer (cn_writer c) <> None);
  ci_busy : strict = true -> cn_shutdown c = false -> cn_status c = Connected -> ~ In NDoClose (cn_queue c) -> out <> None ->
    wwaits (cn_writer c)
}.

(** The connection is up. *)
Definition upright (c : cconn) : Prop := cn_shutdown c = false /\ cn_status c = Connected /\ ~ In NDoClose (cn_queue c).

Ltac cn := cbn [with_status with_writer with_resolves with_connects with_reads with_nqueue open_socket close_socket
  cn_shutdown cn_status cn_socket cn_writer cn_resolves cn_connects cn_reads cn_queue cn_next_socket cn_next_read fst snd] in *.

Lemma ci_dead c cur out : cinv c cur out -> cn_socket c = None \/ cn_shutdown c = true -> wdead (cn_writer c).
Proof.
  intros V H o Ho. destruct (w_aborted o) eqn:E; [reflexivity|]. destruct (ci_socket _ _ _ V o Ho E) as [K1 K2]. destruct H; congruence.
Qed.

Definition neutral (o : noutput) : Prop := match o with Established _ | Received _ _ | PeerClosed _ | Failed | Write (WTook _ _) => False | _ => True end.

(** [send] *)
Lemma ci_send c cur out data e c' o : cinv c cur out -> conn_send c data e = (c', o) ->
  cinv c' cur (Some data) /\ Forall neutral o /\ cn_shutdown c' = cn_shutdown c /\ cn_queue c' = cn_queue c /\ (upright c' -> upright c).
Proof.
  intros V E. unfold conn_send in E. destruct (cn_shutdown c) eqn:Hs.
  - injection E as <- <-. split; [|split; [constructor|split; [exact Hs|split; [reflexivity|auto]]]].
    assert (D := ci_dead _ _ _ V (or_intror Hs)). destruct V as [V1 V2 V3 V4 V5 V6 V7 V8 V9].
    constructor; auto; [apply (wl_dead _ _ _ V1 D)| | |].
    + intros K. rewrite Hs in K. discriminate.
    + intros K. rewrite Hs in K. discriminate.
    + intros _ K. rewrite Hs in K. discriminate.
  - assert (L := wl_replace _ _ data (ci_live _ _ _ V)). assert (F := wf_replace _ _ data (ci_live _ _ _ V)).
    assert (H := wh_replace (cn_writer c) data).
    assert (D := ci_dead _ _ _ V). destruct V as [V1 V2 V3 V4 V5 V6 V7 V8 V9].
    assert (V0 : cn_status c <> Connected -> cinv (with_writer c (w_replace (cn_writer c) data)) cur (Some data)).
    { intros Hn. constructor; cn; try assumption; try (intros; exact (conj F H)).
      - intros K1 K2. destruct (V8 K1 K2) as (D1 & _). split; [exact D1|]. split; [discriminate|]. intros _. discriminate.
      - intros _ _ K. contradiction. }
    assert (U : forall c1, cn_status c1 <> Connected -> upright c1 -> upright c) by (intros c1 K (_ & K' & _); contradiction).
    destruct (cn_status c) eqn:Est; cn; rewrite ?Est in E.
    + specialize (V0 ltac:(discriminate)).
      assert (U0 : upright (with_writer c (w_replace (cn_writer c) data)) -> upright c) by (apply U; cn; rewrite Est; discriminate).
      destruct (negb (su_address e)); [injection E as <- <-; split; [exact V0|split; [repeat constructor|cn; auto]]|].
      destruct (cn_socket c) eqn:Eso.
      * rewrite orb_true_r in E. injection E as <- <-; split; [exact V0|split; [repeat constructor|cn; auto]].
      * rewrite orb_false_r in E. specialize (D (or_introl eq_refl)).
        destruct (negb (su_open e)); [injection E as <- <-; split; [exact V0|split; [repeat constructor|cn; auto]]|].
        assert (P : wdead (w_replace (cn_writer c) data) /\ Some data <> None /\ (strict = true -> wr_buffer (w_replace (cn_writer c) data) <> None)).
        { split; [exact D|]. split; [discriminate|]. intros _. discriminate. }
        destruct (negb (su_bind e)); injection E as <- <-.
        -- split; [|split; [repeat constructor|cn; split; [auto|split; [auto|]]]].
           2: { apply U. cn. rewrite Est. discriminate. }
           constructor; cn.
           ++ exact L.
           ++ intros x Hx Ha. cbn in Hx. rewrite (D x Hx) in Ha. discriminate.
           ++ lia.
           ++ lia.
           ++ intros g Hg. specialize (V5 g Hg). lia.
           ++ intros K. congruence.
           ++ intros _ _. split; [exact F|exact H].
           ++ intros _ _. exact P.
           ++ intros _ _ K. congruence.
        -- split; [|split; [repeat constructor|cn; split; [auto|split; [auto|]]]].
           2: { apply U. cn. discriminate. }
           constructor; cn.
           ++ exact L.
           ++ intros x Hx Ha. cbn in Hx. rewrite (D x Hx) in Ha. discriminate.
           ++ lia.
           ++ lia.
           ++ intros g Hg. specialize (V5 g Hg). lia.
           ++ intros K. congruence.
           ++ intros _ _. split; [exact F|exact H].
           ++ intros _ _. exact P.
           ++ intros _ _ K. congruence.
    + injection E as <- <-. split; [apply V0; discriminate|]. split; [constructor|cn; split; [auto|split; [auto|]]].
      apply U. cn. rewrite Est. discriminate.
    + unfold send_buffer in E. cn. rewrite Hs in E. destruct (V6 eq_refl Hs) as (K1 & K2 & K3).
      destruct (w_start (w_replace (cn_writer c) data) match cn_socket c with Some _ => true | None => false end) as [c1 o1] eqn:E1.
      injection E as <- <-.
      assert (L1 : wlive c1 (Some data)).
      { replace c1 with (fst (w_start (w_replace (cn_writer c) data) match cn_socket c with Some _ => true | None => false end))
          by (rewrite E1; reflexivity). apply wl_start; assumption. }
      split; [|split; [|cn; split; [auto|split; [auto|unfold upright; cn; auto]]]].
      * constructor; cn; auto.
        -- intros K [K'|K']; [rewrite K1 in K'; contradiction|rewrite K2 in K'; contradiction].
        -- intros K [K'|K']; [rewrite K1 in K'; contradiction|rewrite K2 in K'; contradiction].
        -- intros _ _ _ _ _. rewrite K3 in E1.
           replace c1 with (fst (w_start (w_replace (cn_writer c) data) true)) by (rewrite E1; reflexivity). apply start_waits. discriminate.
      * apply Forall_forall. intros x Hx. apply in_map_iff in Hx. destruct Hx as (y & <- & Hy).
        destruct (start_outs (w_replace (cn_writer c) data) match cn_socket c with Some _ => true | None => false end y) as (w & d & ->);
          [rewrite E1; exact Hy|exact Logic.I].
Qed.

Definition goes_down (c : cconn) : Prop := cn_shutdown c = true \/ In NDoShutdown (cn_queue c).

Lemma ci_queue c cur out q : (In NDoClose (cn_queue c) -> In NDoClose q) -> cinv c cur out -> cinv (with_nqueue c q) cur out.
Proof. intros Hq [V1 V2 V3 V4 V5 V6 V7 V8 V9]. constructor; cn; try assumption. intros A B C D. apply V9; auto. Qed.

Lemma ci_reads c cur out l n : cinv c cur out -> cinv (with_reads c l n) cur out.
Proof. intros [V1 V2 V3 V4 V5 V6 V7 V8 V9]. constructor; cn; assumption. Qed.

Lemma ci_close c cur out : cinv c cur out -> cinv (conn_close c) cur out.
Proof. intros V. unfold conn_close. destruct (cn_shutdown c); [exact V|apply ci_queue; [|exact V]]. intros H. apply in_or_app. left. exact H. Qed.

Lemma ci_begin c cur out : cinv c cur out -> cinv (begin_read c) cur out.
Proof. intros V. unfold begin_read. destruct (cn_shutdown c); [exact V|apply ci_reads; exact V]. Qed.

Lemma gd_close c : goes_down (conn_close c) -> goes_down c.
Proof.
  unfold conn_close, goes_down. destruct (cn_shutdown c) eqn:E; [rewrite E; tauto|]. cn. rewrite in_app_iff.
  intros [H|[H|[H|[]]]]; [congruence|right; exact H|discriminate H].
Qed.

Lemma gd_begin c : goes_down (begin_read c) <-> goes_down c.
Proof. unfold begin_read, goes_down. destruct (cn_shutdown c) eqn:E; [rewrite E; reflexivity|]. cn. rewrite E. reflexivity. Qed.

Lemma up_close c : ~ upright (conn_close c).
Proof.
  unfold conn_close, upright. destruct (cn_shutdown c) eqn:E; [rewrite E; intros (K & _); discriminate K|]. cn.
  intros (_ & _ & K). apply K. apply in_or_app. right. left. reflexivity.
Qed.

Lemma up_begin c : upright (begin_read c) <-> upright c.
Proof. unfold begin_read, upright. destruct (cn_shutdown c) eqn:E; [rewrite E; reflexivity|]. cn. rewrite E. reflexivity. Qed.

Lemma ci_do_close c cur out q c' o : cinv c cur out -> ClientConn.do_close (with_nqueue c q) = (c', o) ->
  cinv c' cur out /\ Forall neutral o /\ (goes_down c' -> goes_down (with_nqueue c q)) /\ ~ upright c'.
Proof.
  intros V E. unfold ClientConn.do_close in E. cn. destruct (cn_shutdown c) eqn:Hs.
  - injection E as <- <-. split; [|split; [constructor|split; [auto|unfold upright; cn; intros (K & _); congruence]]].
    destruct V as [V1 V2 V3 V4 V5 V6 V7 V8 V9]. constructor; cn; try assumption. intros _ K. congruence.
  - assert (V' : cinv (with_status (with_nqueue c q) NotConnected) cur out).
    { destruct V as [V1 V2 V3 V4 V5 V6 V7 V8 V9]. constructor; cn; try assumption; [intros K|intros _ _ K]; discriminate K. }
    destruct (cn_socket c) eqn:Eg; injection E as <- <-.
    + split; [|split; [repeat constructor|split; [unfold goes_down; cn; tauto|unfold upright; cn; intros (_ & K & _); discriminate K]]].
      destruct V' as [V1 V2 V3 V4 V5 V6 V7 V8 V9]. constructor; cn; try assumption.
      * exact (wl_abort _ _ _ V1).
      * intros o Ho Ha. rewrite (abort_dead _ o Ho) in Ha. discriminate.
      * intros K. discriminate K.
      * intros K1 K2. destruct (V7 K1 K2) as [A B]. split; [apply wf_abort; exact A|exact B].
      * intros K1 K2. destruct (V8 K1 K2) as (A & B & C). split; [apply abort_dead|]. split; [exact B|exact C].
      * intros _ _ K. discriminate K.
    + split; [exact V'|]. split; [constructor|]. split; [unfold goes_down; cn; tauto|unfold upright; cn; intros (_ & K & _); discriminate K].
Qed.

Lemma ci_do_shutdown c cur out q c' o : cinv c cur out -> ClientConn.do_shutdown (with_nqueue c q) = (c', o) -> cinv c' cur out /\ o = [] /\ ~ upright c'.
Proof.
  intros [V1 V2 V3 V4 V5 V6 V7 V8 V9] E. injection E as <- <-. split; [|split; [reflexivity|intros (K & _); discriminate K]]. constructor; cn; try assumption.
  - exact (wl_abort _ _ _ V1).
  - intros o Ho Ha. rewrite (abort_dead _ o Ho) in Ha. discriminate.
  - intros _ K. discriminate.
  - intros K. discriminate.
  - intros K. discriminate.
  - intros _ K. discriminate.
Qed.

Lemma ci_resolved c cur out n ok c' o : cinv c cur out -> cn_resolves c = S n -> resolve_handler (with_resolves c n) ok = (c', o) ->
  cinv c' cur out /\ (o = [] \/ o = [Failed]) /\ (goes_down c' -> goes_down c) /\ ~ upright c'.
Proof.
  intros V En E. assert (V0 : cinv (with_resolves c n) cur out).
  { destruct V as [V1 V2 V3 V4 V5 V6 V7 V8 V9]. constructor; cn; try assumption.
    - intros _. apply V4. rewrite En. discriminate.
    - intros K1 K2. destruct (V6 K1 K2) as (K & _). rewrite En in K. discriminate.
    - intros K _. apply V7; [exact K|]. left. rewrite En. discriminate.
    - intros K _. apply V8; [exact K|]. left. rewrite En. discriminate. }
  unfold resolve_handler in E. destruct (cn_shutdown (with_resolves c n)) eqn:Hs;
    [injection E as <- <-; split; [exact V0|split; [left; reflexivity|split; [unfold goes_down; cn; tauto|intros (K & _); cn; congruence]]]|].
  assert (Hns : cn_status c <> Connected).
  { intros K. cn. destruct (ci_connected _ _ _ V K Hs) as (K1 & _). rewrite En in K1. discriminate. }
  destruct ok; cbn [negb] in E; injection E as <- <-.
  - split; [|split; [left; reflexivity|split; [unfold goes_down; cn; tauto|intros (_ & K & _); cn; congruence]]].
    assert (Hc : (cur < cn_next_socket c)%nat) by (apply (ci_resolves _ _ _ V); rewrite En; discriminate).
    assert (Ha : wfree (cn_writer c) /\ wholds (cn_writer c) out) by (apply (ci_attempt _ _ _ V); [exact Hs|left; rewrite En; discriminate]).
    assert (Hp : wdead (cn_writer c) /\ out <> None /\ (strict = true -> wr_buffer (cn_writer c) <> None))
      by (apply (ci_pending _ _ _ V); [exact Hs|left; rewrite En; discriminate]).
    destruct V0 as [W1 W2 W3 W4 W5 W6 W7 W8 W9]. constructor; cn.
    + exact (wl_abort _ _ _ W1).
    + intros x Hx Hxa. rewrite (abort_dead _ x Hx) in Hxa. discriminate.
    + lia.
    + lia.
    + intros g Hg. apply in_app_or in Hg. destruct Hg as [Hg|[<-|[]]]; [specialize (W5 g Hg); lia|lia].
    + intros K. contradiction.
    + intros _ _. split; [apply wf_abort; apply Ha|exact (proj2 Ha)].
    + intros _ _. split; [apply abort_dead|exact (proj2 Hp)].
    + intros _ _ K. contradiction.
  - split; [|split; [right; reflexivity|split; [unfold goes_down; cn; tauto|intros (_ & K & _); discriminate K]]].
    destruct V0 as [W1 W2 W3 W4 W5 W6 W7 W8 W9]. constructor; cn; try assumption; [intros K|intros _ _ K]; discriminate K.
Qed.

Lemma ci_unconnect c cur out g : cinv c cur out ->
  cinv (with_connects c (filter (fun x => negb (Nat.eqb x g)) (cn_connects c))) cur out.
Proof.
  intros [V1 V2 V3 V4 V5 V6 V7 V8 V9].
  assert (K : filter (fun x => negb (Nat.eqb x g)) (cn_connects c) <> [] -> cn_connects c <> []).
  { intros K2 K. rewrite K in K2. apply K2. reflexivity. }
  constructor; cn; try assumption.
  - intros x Hx. apply filter_In in Hx. apply V5. apply Hx.
  - intros K1 K2. destruct (V6 K1 K2) as (A & B & C). rewrite B. auto.
  - intros K1 [K2|K2]; apply V7; auto.
  - intros K1 [K2|K2]; apply V8; auto.
Qed.

Lemma ci_not_connected c cur out g c' o : cinv c cur out ->
  connect_handler (with_connects c (filter (fun x => negb (Nat.eqb x g)) (cn_connects c))) g false = (c', o) ->
  cinv c' cur out /\ (o = [] \/ o = [Failed]) /\ (goes_down c' -> goes_down c) /\ ~ upright c'.
Proof.
  intros V E. apply (ci_unconnect _ _ _ g) in V. unfold connect_handler in E. cbn [negb] in E.
  set (c0 := with_connects c (filter (fun x => negb (Nat.eqb x g)) (cn_connects c))) in *.
  destruct (cn_shutdown c0) eqn:Hs; injection E as <- <-.
  - split; [exact V|]. split; [left; reflexivity|]. split; [intros H; exact H|intros (K & _); congruence].
  - split; [apply ci_close; exact V|]. split; [right; reflexivity|]. split; [intros H; apply gd_close in H; exact H|apply up_close].
Qed.

Lemma ci_now_connected c cur out g c' o : cinv c cur out -> In g (cn_connects c) ->
  cn_socket c = Some g -> cn_resolves c = 0%nat -> cn_connects c = [g] ->
  connect_handler (with_connects c (filter (fun x => negb (Nat.eqb x g)) (cn_connects c))) g true = (c', o) ->
  (cn_shutdown c = true /\ cinv c' cur out /\ o = [] /\ (goes_down c' -> goes_down c) /\ ~ upright c') \/
  (cinv c' g out /\ (cur < g)%nat /\ (goes_down c' -> goes_down c) /\ out <> None /\
   exists o', o = Established g :: o' /\ Forall neutral o').
Proof.
  intros V Hg Hso Hr Hc E. assert (V0 := ci_unconnect _ _ _ g V). unfold connect_handler in E. cbn [negb] in E.
  rewrite Hc in E, V0. cbn [filter] in E, V0. rewrite Nat.eqb_refl in E, V0. cbn [negb] in E, V0. cn.
  destruct (cn_shutdown c) eqn:Hs.
  - injection E as <- <-. left. split; [reflexivity|]. split; [exact V0|]. split; [reflexivity|]. split; [unfold goes_down; cn; tauto|].
    intros (K & _). cn. congruence.
  - right. destruct (ci_connects _ _ _ V g Hg) as [Hlt Hnx].
    destruct (ci_attempt _ _ _ V Hs) as [F H]; [right; rewrite Hc; discriminate|].
    destruct (ci_pending _ _ _ V Hs) as (D & Hout & Hbuf); [right; rewrite Hc; discriminate|].
    unfold send_buffer in E. cn. rewrite Hs, Hso in E. destruct (w_start (cn_writer c) true) as [w1 o1] eqn:Ew.
    injection E as <- <-.
    assert (L : wlive w1 out).
    { replace w1 with (fst (w_start (cn_writer c) true)) by (rewrite Ew; reflexivity). apply wl_start; [exact (ci_live _ _ _ V)|exact F|exact H]. }
    split; [|split; [exact Hlt|split; [|split; [exact Hout|]]]].
    + apply ci_begin. constructor; cn.
      * exact L.
      * intros x _ _. auto.
      * lia.
      * intros K. rewrite Hr in K. contradiction.
      * intros x [].
      * intros _ _. auto.
      * intros _ [K|K]; [rewrite Hr in K|]; contradiction.
      * intros _ [K|K]; [rewrite Hr in K|]; contradiction.
      * intros St _ _ _ _. replace w1 with (fst (w_start (cn_writer c) true)) by (rewrite Ew; reflexivity). apply start_waits. exact (Hbuf St).
    + rewrite gd_begin. unfold goes_down. cn. tauto.
    + exists (map Write o1). split; [reflexivity|]. apply Forall_forall. intros x Hx. apply in_map_iff in Hx. destruct Hx as (y & <- & Hy).
      destruct (start_outs (cn_writer c) true y) as (w & d & ->); [rewrite Ew; exact Hy|exact Logic.I].
Qed.

Lemma ci_read c cur out r x c' o : cinv c cur out -> conn_step c (NRead r x) = Ret (c', o) ->
  cinv c' cur out /\ (goes_down c' -> goes_down c) /\ (upright c' -> upright c) /\
  match x with
  | RData d => match reads_from c r with Some g => (cn_shutdown c = true /\ o = []) \/ o = [Received g d] | None => o = [] end
  | REof => match reads_from c r with Some g => o = [] \/ (o = [PeerClosed g] /\ ~ upright c') | None => o = [] end
  | RError => o = [] \/ (o = [Failed] /\ ~ upright c')
  end.
Proof.
  intros V E. cbn [conn_step] in E. unfold reads_from.
  destruct (find_read (cn_reads c) r) as [g|] eqn:Ef; [|injection E as <- <-; split; [exact V|split; [auto|split; [auto|destruct x; auto]]]].
  set (l := filter (fun x0 : nat * option nat => negb (Nat.eqb (fst x0) r)) (cn_reads c)) in *.
  destruct (possible g x) eqn:Ep; [|injection E as <- <-; split; [exact V|split; [auto|split; [auto|destruct x, g; auto; discriminate Ep]]]].
  injection E as E. unfold read_handler in E. apply (ci_reads _ _ _ l (cn_next_read c)) in V.
  assert (G : goes_down (with_reads c l (cn_next_read c)) -> goes_down c) by (unfold goes_down; cn; tauto).
  assert (U : upright (with_reads c l (cn_next_read c)) -> upright c) by (unfold upright; cn; tauto).
  assert (U' := up_close (with_reads c l (cn_next_read c))).
  cn. destruct (cn_shutdown c) eqn:Hs.
  - injection E as <- <-. split; [exact V|]. split; [exact G|]. split; [exact U|]. destruct x, g; auto.
  - destruct x as [d| |], g as [g|]; try discriminate Ep; injection E as <- <-.
    + split; [apply ci_begin; exact V|]. split; [rewrite gd_begin; exact G|]. split; [rewrite up_begin; exact U|]. auto.
    + split; [apply ci_close; exact V|]. split; [intros K; apply G, gd_close; exact K|]. split; [contradiction|]. auto.
    + split; [apply ci_close; exact V|]. split; [intros K; apply G, gd_close; exact K|]. split; [contradiction|]. auto.
    + split; [apply ci_close; exact V|]. split; [intros K; apply G, gd_close; exact K|]. split; [contradiction|]. auto.
Qed.

Lemma ci_written c cur out w ok c' o : cinv c cur out -> write_handler c w ok = (c', o) ->
  (strict = true -> ok = true -> forall x, find_op (wr_ops (cn_writer c)) w = Some x -> w_aborted x = false) ->
  cinv c' cur out /\ (goes_down c' -> goes_down c) /\ (upright c' -> upright c) /\
  (Forall neutral o \/ (o = [Write (WFailed w); Failed] /\ ~ upright c')).
Proof.
  assert (KD : forall x, In x (delete_op (wr_ops (cn_writer c)) w) -> In x (wr_ops (cn_writer c))) by (intros x Hx; apply filter_In in Hx; apply Hx).
  intros V E Hok. unfold write_handler in E. destruct (w_complete (cn_writer c) w ok) as [[w1 o1]|] eqn:Ew;
    [|injection E as <- <-; split; [exact V|split; [auto|split; [auto|left; constructor]]]].
  destruct (cn_shutdown c) eqn:Hs.
  { injection E as <- <-. split; [|split; [unfold goes_down; cn; tauto|split; [unfold upright; cn; tauto|left; constructor]]].
    destruct V as [V1 V2 V3 V4 V5 V6 V7 V8 V9]. constructor; cn; try assumption.
    - apply wl_delete. exact V1.
    - intros o Ho. apply V2. apply KD. exact Ho.
    - intros K. congruence.
    - intros K. congruence.
    - intros _ K. congruence. }
  unfold w_complete in Ew. destruct (find_op (wr_ops (cn_writer c)) w) as [x|] eqn:Ef; [|discriminate Ew]. destruct ok.
  - destruct (w_taken x) eqn:Et; [|discriminate Ew]. injection Ew as <- <-. injection E as <- <-.
    split; [|split; [unfold goes_down; cn; tauto|split; [unfold upright; cn; tauto|left; repeat constructor]]].
    destruct V as [V1 V2 V3 V4 V5 V6 V7 V8 V9]. constructor; cn; cbn [wr_buffer wr_ops]; try assumption.
    + apply wl_done. exact V1.
    + intros o Ho. apply V2. apply KD. exact Ho.
    + intros K1 K2. split; [intros b o Eb|intros b Eb]; discriminate Eb.
    + intros K1 K2. destruct (V8 K1 K2) as (A & B & C). split; [intros o Ho; apply A; apply KD; exact Ho|]. split; [exact B|].
      intros St. exfalso. destruct (find_op_In _ _ _ Ef) as [Hx _]. assert (K := A _ Hx). rewrite (Hok St eq_refl _ eq_refl) in K. discriminate K.
    + intros St K1 K2 K3 K4. destruct (delete_waits (cn_writer c) w x (wl_ids _ _ V1) Ef ltac:(congruence) (V9 St K1 K2 K3 K4)) as (y & Y).
      exists y. exact Y.
  - injection Ew as <- <-. injection E as <- <-.
    assert (U := up_close (with_writer c (set_op (cn_writer c) (delete_op (wr_ops (cn_writer c)) w)))).
    split; [|split; [intros K; apply gd_close in K; unfold goes_down in *; cn; tauto|split; [contradiction|right; split; [reflexivity|exact U]]]].
    unfold conn_close. cn. rewrite Hs. destruct V as [V1 V2 V3 V4 V5 V6 V7 V8 V9]. constructor; cn; try assumption.
    + apply wl_delete. exact V1.
    + intros o Ho. apply V2. apply KD. exact Ho.
    + intros K1 K2. destruct (V7 K1 K2) as [F H]. split; [|exact H]. intros b o Eb Ho. apply (F b o); auto.
    + intros K1 K2. destruct (V8 K1 K2) as (A & B & C). split; [intros o Ho; apply A; apply KD; exact Ho|]. split; [exact B|exact C].
    + intros _ _ _ K. exfalso. apply K. apply in_or_app. right. left. reflexivity.
Qed.

Lemma ci_transfer c cur out w n c' o : cinv c cur out -> conn_step c (NTransfer w n) = Ret (c', o) -> takes_all (cn_writer c) w n ->
  (cinv c' cur out /\ o = [] /\ (goes_down c' -> goes_down c) /\ (upright c' -> upright c)) \/
  (exists d, out = Some d /\ o = [Write (WTook w d)] /\ cn_socket c = Some cur /\ cinv c' cur None /\ (goes_down c' -> goes_down c) /\ (upright c' -> upright c)).
Proof.
  intros V E T. cbn [conn_step] in E. destruct (w_transfer (cn_writer c) w n) as [[w1 o1]|] eqn:Ew; [|discriminate E].
  cbn [obind] in E. injection E as <- <-.
  destruct (wl_transfer _ _ _ _ _ _ (ci_live _ _ _ V) Ew T) as [[-> ->]|(x & Hx & Ha & -> & Ho & L & Hb & Hf & Hk)].
  - left. split; [|split; [reflexivity|split; [unfold goes_down; cn; tauto|unfold upright; cn; tauto]]].
    destruct V as [V1 V2 V3 V4 V5 V6 V7 V8 V9]. constructor; cn; assumption.
  - right. exists (snd (w_buf x)). destruct (ci_socket _ _ _ V x Hx Ha) as [Hso _].
    split; [exact Ho|]. split; [reflexivity|]. split; [exact Hso|]. split; [|split; [unfold goes_down; cn; tauto|unfold upright; cn; tauto]].
    destruct V as [V1 V2 V3 V4 V5 V6 V7 V8 V9]. constructor; cn; try assumption.
    + intros y Hy Hya. destruct (Hk y Hy) as (z & Hz & Ez & _). apply (V2 z Hz). rewrite <- Ez. exact Hya.
    + intros K1 K2. destruct (V7 K1 K2) as [F _]. contradiction.
    + intros K1 K2. destruct (V7 K1 K2) as [F _]. contradiction.
    + intros _ _ _ _ K. contradiction.
Qed.

(** ** What the channel does to the client's connection *)
Definition quiet_mark (m : mark) : Prop := match m with ConnOut o => neutral o | _ => True end.

Lemma quiet_outs l o : In o (conn_outs l) -> Forall quiet_mark l -> neutral o.
Proof.
  intros H. apply in_flat_map in H. destruct H as (m & Hm & H). intros F. rewrite Forall_forall in F. specialize (F m Hm).
  destruct m; cbn in H; try contradiction. destruct H as [<-|[]]. exact F.
Qed.

Lemma ci_to_conn os : forall c cur out xs c' l, cinv c cur out -> to_conn c os xs = Ret (c', l) ->
  cinv c' cur (latest out os) /\ channel_outs l = os /\ Forall quiet_mark l /\ (goes_down c' -> goes_down c \/ In TcpShutdown os) /\
  (upright c' -> upright c).
Proof.
  assert (K : forall o, Forall neutral o -> Forall quiet_mark (map ConnOut o)).
  { intros o H. rewrite Forall_map. exact H. }
  assert (K2 : forall o l, channel_outs (map ConnOut o ++ l) = channel_outs l).
  { intros o l. induction o as [|x o IH]; [reflexivity|exact IH]. }
  induction os as [|o os IH]; intros c cur out xs c' l V E; cbn [to_conn] in E.
  - injection E as <- <-. split; [exact V|]. split; [reflexivity|]. split; [constructor|]. split; auto.
  - assert (Skip : forall c0 xs0, c0 = c -> to_conn c0 os xs0 = Ret (c', tl l) -> l = ChannelOut o :: tl l -> latest out [o] = out ->
      cinv c' cur (latest out (o :: os)) /\ channel_outs l = o :: os /\ Forall quiet_mark l /\ (goes_down c' -> goes_down c \/ In TcpShutdown (o :: os)) /\
      (upright c' -> upright c)).
    { intros c0 xs0 -> E0 El Eo. destruct (IH _ _ _ _ _ _ V E0) as (H1 & H2 & H3 & H4 & H5).
      change (latest out (o :: os)) with (latest (latest out [o]) os). rewrite Eo.
      split; [exact H1|]. split; [rewrite El; cbn [channel_outs flat_map app]; fold (channel_outs (tl l)); rewrite H2; reflexivity|].
      split; [rewrite El; constructor; [exact Logic.I|exact H3]|].
      split; [|exact H5]. intros G. destruct (H4 G) as [G'|G']; [left; exact G'|right; right; exact G']. }
    destruct o as [i k|i u t v|i t d|i r|].
    + destruct (to_conn c os xs) as [[c1 l1]|] eqn:E1; [|discriminate E]. cbn [obind] in E. injection E as <- <-.
      apply (Skip c xs eq_refl E1 eq_refl eq_refl).
    + destruct (conn_step c (NSend (frame_data v) (next_setup xs))) as [[c1 o1]|] eqn:E1; [|discriminate E]. cbn [obind] in E.
      destruct (to_conn c1 os (tl xs)) as [[c2 l2]|] eqn:E2; [|discriminate E]. cbn [obind] in E. injection E as <- <-.
      cbn [conn_step] in E1. injection E1 as E1. destruct (ci_send _ _ _ _ _ _ _ V E1) as (V1 & N1 & S1 & Q1 & U1).
      destruct (IH _ _ _ _ _ _ V1 E2) as (H1 & H2 & H3 & H4 & H5).
      split; [exact H1|]. split; [cbn [channel_outs flat_map app]; fold (channel_outs (map ConnOut o1 ++ l2)); rewrite K2, H2; reflexivity|].
      split; [constructor; [exact Logic.I|]; constructor; [exact Logic.I|]; apply Forall_app; split; [apply K; exact N1|exact H3]|].
      split; [|intros K0; apply U1, H5; exact K0]. intros G. destruct (H4 G) as [G'|G']; [left; unfold goes_down in *; rewrite S1, Q1 in G'; exact G'|right; right; exact G'].
    + destruct (to_conn c os xs) as [[c1 l1]|] eqn:E1; [|discriminate E]. cbn [obind] in E. injection E as <- <-.
      apply (Skip c xs eq_refl E1 eq_refl eq_refl).
    + destruct (to_conn c os xs) as [[c1 l1]|] eqn:E1; [|discriminate E]. cbn [obind] in E. injection E as <- <-.
      apply (Skip c xs eq_refl E1 eq_refl eq_refl).
    + cbn [conn_step obind] in E.
      destruct (to_conn (with_nqueue c (cn_queue c ++ [NDoShutdown])) os xs) as [[c2 l2]|] eqn:E2; [|discriminate E].
      cbn [obind] in E. injection E as <- <-.
      destruct (IH _ _ _ _ _ _ (ci_queue _ _ _ (cn_queue c ++ [NDoShutdown]) (fun H => in_or_app _ _ _ (or_introl H)) V) E2) as (H1 & H2 & H3 & H4 & H5).
      split; [exact H1|]. split; [cbn [map app channel_outs flat_map]; fold (channel_outs l2); rewrite H2; reflexivity|].
      split; [constructor; [exact Logic.I|]; constructor; [exact Logic.I|]; exact H3|].
      split; [intros _; right; left; reflexivity|]. intros K0. apply H5 in K0. unfold upright in *. cn. rewrite in_app_iff in K0. tauto.
Qed.

End Conn.

(** ** The connections of the server *)
Definition vinv (v : sconn) (out : option (list N)) : Prop :=
  vn_shutdown v = false /\ ~ In VDoShutdown (vn_queue v) /\ wlive (vn_writer v) out /\
  (vn_open v = true -> ~ In VDoClose (vn_queue v) -> vn_connected v = true /\ (out <> None -> wwaits (vn_writer v))).

Ltac vn := cbn [with_vwriter with_vconnected with_vreads with_vqueue vn_shutdown vn_connected vn_open vn_writer vn_reads vn_queue vn_next_read] in *.

Definition vneutral (o : voutput) : Prop := match o with VReceived _ | VFailed | VWrite (WTook _ _) => False | _ => True end.

Lemma vi_close v out : vinv v out -> vinv (v_close v) out.
Proof.
  intros (H1 & H2 & H3 & H4). unfold v_close. rewrite H1. split; [exact H1|]. vn. split; [|split; [exact H3|]].
  - rewrite in_app_iff. intros [K|[K|[]]]; [exact (H2 K)|discriminate K].
  - intros K1 K2. apply H4; [exact K1|]. intros K. apply K2. apply in_or_app. left. exact K.
Qed.

Lemma vi_begin v out : vinv v out -> vinv (v_begin_read v) out.
Proof. intros V. unfold v_begin_read. destruct (vn_shutdown v); [exact V|]. destruct (vn_connected v) eqn:E; [|exact V]. unfold vinv in *. vn. rewrite E in *. exact V. Qed.

Lemma vi_run v out v' o : vinv v out -> vconn_step v VRun = Ret (v', o) -> vinv v' out /\ Forall vneutral o.
Proof.
  intros (H1 & H2 & H3 & H4) E. cbn [vconn_step] in E. destruct (vn_queue v) as [|[|] q] eqn:Eq.
  - injection E as <- <-. split; [split; [exact H1|split; [rewrite Eq; exact H2|split; [exact H3|rewrite Eq; exact H4]]]|constructor].
  - injection E as E. unfold v_do_close in E. vn. rewrite H1 in E.
    assert (Q : ~ In VDoShutdown q) by (intros K; apply H2; right; exact K).
    destruct (vn_open v) eqn:Eo; injection E as <- <-.
    + split; [|repeat constructor]. split; [reflexivity|]. split; [exact Q|]. split; [exact (wl_abort _ _ _ H3)|]. intros K. discriminate K.
    + split; [|constructor]. split; [exact H1|]. split; [exact Q|]. split; [exact H3|]. vn. intros K. congruence.
  - exfalso. apply H2. left. reflexivity.
Qed.

Lemma vi_send v out data v' o : vinv v out -> v_send v data = (v', o) -> vinv v' (Some data) /\ Forall vneutral o.
Proof.
  intros (H1 & H2 & H3 & H4) E. unfold v_send, v_send_buffer in E. vn. rewrite H1 in E.
  assert (L := wl_replace _ _ data H3). destruct (vn_connected v) eqn:Ecn.
  - destruct (w_start (w_replace (vn_writer v) data) (vn_open v)) as [w1 o1] eqn:Ew. injection E as <- <-. split.
    + split; [exact H1|]. split; [exact H2|]. vn. split.
      * replace w1 with (fst (w_start (w_replace (vn_writer v) data) (vn_open v))) by (rewrite Ew; reflexivity).
        apply wl_start; [exact L|exact (wf_replace _ _ _ H3)|apply wh_replace].
      * intros K _. split; [exact Ecn|]. intros _. rewrite K in Ew.
        replace w1 with (fst (w_start (w_replace (vn_writer v) data) true)) by (rewrite Ew; reflexivity). apply start_waits. discriminate.
    + apply Forall_forall. intros x Hx. apply in_map_iff in Hx. destruct Hx as (y & <- & Hy).
      destruct (start_outs (w_replace (vn_writer v) data) (vn_open v) y) as (w & d & ->); [rewrite Ew; exact Hy|exact Logic.I].
  - injection E as <- <-. split; [|constructor]. split; [exact H1|]. split; [exact H2|]. split; [exact L|]. vn.
    intros K1 K2. destruct (H4 K1 K2) as [K _]. congruence.
Qed.

Lemma vi_start k v o : v_start (with_vqueue sconn_init (repeat VDoClose k)) = (v, o) -> vinv v None /\ o = [].
Proof.
  intros E. cbn in E. injection E as <- <-. split; [|reflexivity]. split; [reflexivity|]. split; [|split; [apply wl_init|]].
  - cbn. intros K. apply repeat_spec in K. discriminate K.
  - intros _ _. split; [reflexivity|]. intros K. contradiction.
Qed.

Lemma vi_read v out r x v' o : vinv v out -> vconn_step v (VRead r x) = Ret (v', o) ->
  vinv v' out /\
  match x with
  | RData d => match find_vread (vn_reads v) r with Some true => o = [VReceived d] | _ => o = [] end
  | _ => o = [] \/ o = [VFailed; VRemoved]
  end.
Proof.
  intros V E. cbn [vconn_step] in E.
  destruct (find_vread (vn_reads v) r) as [g|] eqn:Ef; [|injection E as <- <-; split; [exact V|destruct x; auto]].
  destruct (g || match x with RError => true | _ => false end) eqn:Eg;
    [|injection E as <- <-; split; [exact V|destruct x; auto; destruct g; [discriminate Eg|reflexivity]]].
  injection E as E. unfold v_read_handler in E. vn. destruct V as (H1 & H2 & H3 & H4). rewrite H1 in E.
  set (v0 := with_vreads v (filter (fun x0 : nat * bool => negb (Nat.eqb (fst x0) r)) (vn_reads v)) (vn_next_read v)) in *.
  assert (V0 : vinv v0 out) by (split; [exact H1|split; [exact H2|split; [exact H3|exact H4]]]).
  destruct x as [d| |]; injection E as <- <-.
  - split; [apply vi_begin; exact V0|]. rewrite orb_false_r in Eg. rewrite Eg. reflexivity.
  - split; [apply vi_close; exact V0|]. auto.
  - split; [apply vi_close; exact V0|]. auto.
Qed.

Lemma vi_written v out w ok v' o : vinv v out -> v_write_handler v w ok = (v', o) ->
  vinv v' out /\ (o = [] \/ o = [VWrite (WDone w); VWriteDone] \/ o = [VWrite (WFailed w); VFailed; VRemoved]).
Proof.
  intros (H1 & H2 & H3 & H4) E. unfold v_write_handler in E. destruct (w_complete (vn_writer v) w ok) as [[w1 o1]|] eqn:Ew;
    [|injection E as <- <-; split; [split; [exact H1|split; [exact H2|split; [exact H3|exact H4]]]|auto]].
  rewrite H1 in E. unfold w_complete in Ew. destruct (find_op (wr_ops (vn_writer v)) w) as [x|] eqn:Ef; [|discriminate Ew]. destruct ok.
  - destruct (w_taken x) eqn:Et; [|discriminate Ew]. injection Ew as <- <-. injection E as <- <-. split; [|auto].
    split; [exact H1|]. split; [exact H2|]. vn. split; [apply wl_done; exact H3|].
    intros K1 K2. destruct (H4 K1 K2) as [K3 K4]. split; [exact K3|]. intros K5.
    destruct (delete_waits (vn_writer v) w x (wl_ids _ _ H3) Ef ltac:(congruence) (K4 K5)) as (y & Y). exists y. exact Y.
  - injection Ew as <- <-. injection E as <- <-. split; [|auto]. unfold v_close. vn. rewrite H1.
    split; [exact H1|]. vn. split; [|split; [apply wl_delete; exact H3|]].
    + rewrite in_app_iff. intros [K|[K|[]]]; [exact (H2 K)|discriminate K].
    + intros _ K. exfalso. apply K. apply in_or_app. right. left. reflexivity.
Qed.

Lemma vi_transfer v out w n v' o : vinv v out -> vconn_step v (VTransfer w n) = Ret (v', o) -> takes_all (vn_writer v) w n ->
  (vinv v' out /\ o = []) \/ (exists d, out = Some d /\ o = [VWrite (WTook w d)] /\ vinv v' None).
Proof.
  intros (H1 & H2 & H3 & H4) E T. cbn [vconn_step] in E. destruct (w_transfer (vn_writer v) w n) as [[w1 o1]|] eqn:Ew; [|discriminate E].
  cbn [obind] in E. injection E as <- <-.
  destruct (wl_transfer _ _ _ _ _ _ H3 Ew T) as [[-> ->]|(x & Hx & Ha & -> & Ho & L & _)].
  - left. split; [|reflexivity]. split; [exact H1|]. split; [exact H2|]. split; [exact H3|exact H4].
  - right. exists (snd (w_buf x)). split; [exact Ho|]. split; [reflexivity|]. split; [exact H1|]. split; [exact H2|]. split; [exact L|].
    vn. intros K1 K2. split; [apply H4; assumption|]. intros K. contradiction.
Qed.
