(** Proofs about AsyncWrite.v. *)
From Verif Require Import Prelude AsyncWrite ClientConn ServerConn Mbap SpecMbap SpecConn.
From Coq Require Import Lia.

(** What the connections do to their writer. *)
Inductive wstep (P : writer -> nat -> nat -> Prop) : writer -> list woutput -> writer -> Prop :=
| WS_replace c d : wstep P c [] (w_replace c d)
| WS_start c b c' o : w_start c b = (c', o) -> wstep P c o c'
| WS_transfer c w n c' o : P c w n -> w_transfer c w n = Ret (c', o) -> wstep P c o c'
| WS_complete c w ok c' o : w_complete c w ok = Some (c', o) -> wstep P c o c'
| WS_forget c w : wstep P c [] (set_op c (delete_op (wr_ops c) w))
| WS_abort c : wstep P c [] (w_abort c).

Inductive wsteps (P : writer -> nat -> nat -> Prop) : writer -> list woutput -> writer -> Prop :=
| WS_refl c : wsteps P c [] c
| WS_snoc c o c' o' c'' : wsteps P c o c' -> wstep P c' o' c'' -> wsteps P c (o ++ o') c''.

Lemma wsteps_one : forall P c o c', wstep P c o c' -> wsteps P c o c'.
Proof. intros P c o c' H. exact (WS_snoc P c [] c o c' (WS_refl P c) H). Qed.

Lemma wsteps_trans : forall P c o c' o' c'', wsteps P c o c' -> wsteps P c' o' c'' -> wsteps P c (o ++ o') c''.
Proof.
  intros P c o c' o' c'' H K. induction K as [|c1 o1 c2 o2 c3 K IH S]; [rewrite app_nil_r; exact H|].
  rewrite app_assoc. eapply WS_snoc; eauto.
Qed.

Lemma find_op_In : forall l w o, find_op l w = Some o -> In o l /\ w_id o = w.
Proof.
  induction l as [|x l IH]; cbn; intros w o H; [discriminate|].
  destruct (Nat.eqb_spec (w_id x) w) as [E|E].
  - injection H as <-. auto.
  - destruct (IH _ _ H). auto.
Qed.

Lemma delete_op_In : forall l w o, In o (delete_op l w) -> In o l /\ w_id o <> w.
Proof.
  intros l w o H. apply filter_In in H as [H E]. split; [exact H|].
  apply Bool.negb_true_iff, Nat.eqb_neq in E. exact E.
Qed.

Lemma started_app : forall a b, started (a ++ b) = started a ++ started b.
Proof. intros. apply flat_map_app. Qed.
Lemma took_app : forall a b, took (a ++ b) = took a ++ took b.
Proof. intros. apply flat_map_app. Qed.
Lemma writes_app : forall a b, writes (a ++ b) = writes a ++ writes b.
Proof. intros. apply flat_map_app. Qed.
Lemma vwrites_app : forall a b, vwrites (a ++ b) = vwrites a ++ vwrites b.
Proof. intros. apply flat_map_app. Qed.
Lemma writes_map : forall o, writes (map Write o) = o.
Proof. induction o as [|x o IH]; [reflexivity|]. cbn. f_equal. exact IH. Qed.
Lemma vwrites_map : forall o, vwrites (map VWrite o) = o.
Proof. induction o as [|x o IH]; [reflexivity|]. cbn. f_equal. exact IH. Qed.

(** Splitting at an element of an appended list. *)
Lemma split_app : forall (A : Type) (a : list A) x b o o', o ++ o' = a ++ x :: b ->
  (exists b', o = a ++ x :: b' /\ b = b' ++ o') \/ (exists a', o' = a' ++ x :: b /\ a = o ++ a').
Proof.
  intros A a. induction a as [|y a IH]; intros x b o o' E.
  - destruct o as [|z o]; cbn in E.
    + right. exists []. split; [exact E|reflexivity].
    + injection E as -> E. left. exists o. split; [reflexivity|auto].
  - destruct o as [|z o]; cbn in E.
    + right. exists (y :: a). split; [exact E|reflexivity].
    + injection E as -> E. apply IH in E. destruct E as [(b' & -> & ->) | (a' & -> & ->)].
      * left. exists b'. auto.
      * right. exists a'. auto.
Qed.

Record winv (c : writer) (os : list woutput) : Prop := {
  wi_ids : NoDup (map w_id (wr_ops c));
  wi_started : forall o, In o (wr_ops c) -> In (w_id o, snd (w_buf o)) (started os);
  wi_fresh : forall w, In w (map fst (started os)) -> (w < wr_next_op c)%nat;
  wi_taken : forall o n, In o (wr_ops c) -> w_taken o = Some n -> (1 <= n)%nat /\ (n <= List.length (snd (w_buf o)))%nat /\
               In (w_id o, firstn n (snd (w_buf o))) (took os);
  wi_untaken : forall o, In o (wr_ops c) -> w_taken o = None -> ~ In (w_id o) (map fst (took os));
  wi_sound : sound_writes os
}.

Lemma winv_init : winv writer_init [].
Proof.
  constructor; cbn; try (intros; contradiction); [constructor|].
  repeat split; cbn; try constructor; intros; try contradiction.
  destruct a; discriminate.
Qed.

Lemma sound_quiet : forall os o, sound_writes os -> started o = [] -> took o = [] ->
  (forall w, ~ In (WDone w) o) -> sound_writes (os ++ o).
Proof.
  intros os o (D & T & N1 & N2) S K W. unfold sound_writes. rewrite started_app, took_app, S, K, !app_nil_r.
  split; [|split; [exact T|split; assumption]].
  intros a w b E. apply split_app in E as [(b' & E & _) | (a' & E & _)].
  - eapply D; eauto.
  - exfalso. apply (W w). rewrite E. apply in_elt.
Qed.

Lemma NoDup_snoc : forall (A : Type) (l : list A) x, NoDup l -> ~ In x l -> NoDup (l ++ [x]).
Proof.
  intros A l x N H. apply NoDup_rev in N. rewrite <- (rev_involutive (l ++ [x])). apply NoDup_rev.
  rewrite rev_app_distr. cbn. constructor; [|exact N]. rewrite <- in_rev. exact H.
Qed.

Lemma NoDup_filter_map : forall (l : list wop) f, NoDup (map w_id l) -> NoDup (map w_id (filter f l)).
Proof.
  induction l as [|x l IH]; intros f N; cbn; [constructor|].
  inversion N as [|y l' H N']; subst. destruct (f x); [|auto]. cbn. constructor; [|auto].
  intro K. apply H. apply in_map_iff in K as (y & E & K). apply filter_In in K as [K _].
  rewrite <- E. apply in_map, K.
Qed.

Lemma started_nodup : forall os w d d', NoDup (map fst (started os)) -> In (w, d) (started os) -> In (w, d') (started os) -> d = d'.
Proof.
  intros os w d d'. induction (started os) as [|[v x] l IH]; cbn; intros N H K; [contradiction|].
  inversion N as [|v' l' F N']; subst.
  destruct H as [H|H], K as [K|K]; try (congruence).
  - injection H as -> ->. exfalso. apply F. change w with (fst (w, d')). apply in_map, K.
  - injection K as -> ->. exfalso. apply F. change w with (fst (w, d)). apply in_map, H.
  - auto.
Qed.

Lemma winv_step : forall P c o c' os, winv c os -> wstep P c o c' -> winv c' (os ++ o).
Proof.
  intros P c o c' os I S. destruct I as [I1 I2 I3 I4 I5 I6].
  destruct S as [c d|c b c' o E|c w n c' o _ E|c w ok c' o E|c w|c].
  - rewrite app_nil_r. constructor; cbn; auto.
  - unfold w_start in E. destruct (wr_buffer c) as [[bi bd]|] eqn:B.
    + injection E as <- <-. cbn [snd].
      assert (F : ~ In (wr_next_op c) (map fst (started os))) by (intro K; apply I3 in K; lia).
      assert (F' : ~ In (wr_next_op c) (map fst (took os))).
      { intro K. apply in_map_iff in K as ([w x] & EK & K). cbn in EK. subst w.
        destruct I6 as (_ & T & _). destruct (T _ _ K) as (d & y & H & _). apply F.
        change (wr_next_op c) with (fst (wr_next_op c, d)). apply in_map, H. }
      constructor; cbn [wr_ops wr_next_op].
      * rewrite map_app. cbn. apply NoDup_snoc; [exact I1|]. intro K. apply in_map_iff in K as (x & EK & K).
        apply F. rewrite <- EK. change (w_id x) with (fst (w_id x, snd (w_buf x))). apply in_map, I2, K.
      * intros x H. rewrite started_app. apply in_or_app. apply in_app_or in H as [H|[H|[]]]; [left; auto|].
        subst x. right. cbn. auto.
      * intros w H. rewrite started_app, map_app in H. apply in_app_or in H as [H|[H|[]]].
        -- specialize (I3 _ H). lia.
        -- cbn in H. lia.
      * intros x n H T. rewrite took_app. cbn. rewrite app_nil_r.
        apply in_app_or in H as [H|[H|[]]]; [eauto|]. subst x. discriminate T.
      * intros x H T. rewrite took_app. cbn. rewrite app_nil_r.
        apply in_app_or in H as [H|[H|[]]]; [eauto|]. subst x. exact F'.
      * destruct I6 as (D & T & N1 & N2). unfold sound_writes. rewrite started_app, took_app. cbn [started took flat_map app].
        rewrite app_nil_r. split; [|split; [|split]].
        -- intros a w bb E. apply split_app in E as [(b' & E & _) | (a' & E & _)]; [eapply D; eauto|].
           destruct a' as [|q [|q' a']]; discriminate E.
        -- intros w x H. destruct (T _ _ H) as (d & y & H1 & H2). exists d, y. split; [apply in_or_app; auto|exact H2].
        -- rewrite map_app. apply NoDup_snoc; assumption.
        -- exact N2.
    + injection E as <- <-. rewrite app_nil_r. constructor; assumption.
  - unfold w_transfer in E. destruct (find_op (wr_ops c) w) as [x|] eqn:F.
    2:{ injection E as <- <-. rewrite app_nil_r. constructor; assumption. }
    apply find_op_In in F as [F FI].
    destruct (w_aborted x || _ || _ || _) eqn:G.
    { injection E as <- <-. rewrite app_nil_r. constructor; assumption. }
    apply Bool.orb_false_iff in G as [G G4]. apply Bool.orb_false_iff in G as [G G3]. apply Bool.orb_false_iff in G as [G1 G2].
    apply Nat.eqb_neq in G3. apply Nat.ltb_ge in G4.
    destruct (match wr_buffer c with Some _ => _ | None => _ end); [|discriminate E].
    injection E as <- <-.
    assert (FT : ~ In w (map fst (took os))).
    { subst w. apply I5; [exact F|]. destruct (w_taken x); [discriminate G2|reflexivity]. }
    set (f := fun y => if Nat.eqb (w_id y) w then {| w_id := w_id y; w_buf := w_buf y; w_taken := Some n; w_aborted := w_aborted y |} else y).
    assert (Fid : forall y, w_id (f y) = w_id y /\ w_buf (f y) = w_buf y).
    { intro y. unfold f. destruct (Nat.eqb (w_id y) w); split; reflexivity. }
    assert (UQ : forall y, In y (wr_ops c) -> w_id y = w -> y = x).
    { intros y H EY. clear -I1 F FI H EY. induction (wr_ops c) as [|z l IH]; [contradiction|].
      cbn in I1. inversion I1 as [|q l' H1 H2]; subst. destruct F as [->|F], H as [->|H].
      - reflexivity.
      - exfalso. apply H1. rewrite <- EY. apply in_map, H.
      - exfalso. apply H1. rewrite EY. apply in_map, F.
      - auto. }
    constructor; cbn [wr_ops set_op wr_next_op]; rewrite ?started_app, ?took_app; cbn [started took flat_map app]; rewrite ?app_nil_r.
    + rewrite map_map, (map_ext _ w_id); [exact I1|]. intro y. apply Fid.
    + intros y H. apply in_map_iff in H as (z & <- & H). destruct (Fid z) as [Ez Ez']. fold (f z). rewrite Ez, Ez'. auto.
    + exact I3.
    + intros y m H T. apply in_map_iff in H as (z & <- & H). fold (f z) in T |- *. destruct (Fid z) as [Ez Ez']. rewrite Ez, Ez'.
      unfold f in T. destruct (Nat.eqb_spec (w_id z) w) as [Ew|Ew].
      * cbn in T. injection T as <-. rewrite (UQ z H Ew). repeat split; try lia. apply in_or_app. right. rewrite FI. left. reflexivity.
      * destruct (I4 _ _ H T) as (? & ? & ?). repeat split; try assumption. apply in_or_app. auto.
    + intros y H T. apply in_map_iff in H as (z & <- & H). fold (f z) in T |- *. destruct (Fid z) as [Ez Ez']. rewrite Ez.
      unfold f in T. destruct (Nat.eqb_spec (w_id z) w) as [Ew|Ew]; [discriminate T|].
      rewrite map_app. intro K. apply in_app_or in K as [K|[K|[]]]; [exact (I5 _ H T K)|cbn in K; congruence].
    + destruct I6 as (D & T & N1 & N2). unfold sound_writes. rewrite started_app, took_app. cbn [started took flat_map app]. rewrite app_nil_r.
      split; [|split; [|split]].
      * intros a v bb E. apply split_app in E as [(b' & E & _) | (a' & E & _)]; [eapply D; eauto|].
        destruct a' as [|q [|q' a']]; discriminate E.
      * intros v y H. apply in_app_or in H as [H|[H|[]]]; [apply T, H|]. injection H as <- <-.
        exists (snd (w_buf x)), (skipn n (snd (w_buf x))). split; [|symmetry; apply firstn_skipn].
        rewrite <- FI. apply I2, F.
      * exact N1.
      * rewrite map_app. apply NoDup_snoc; assumption.
  - unfold w_complete in E. destruct (find_op (wr_ops c) w) as [x|] eqn:F; [|discriminate E].
    apply find_op_In in F as [F FI].
    destruct ok.
    + destruct (w_taken x) as [n|] eqn:T; [|discriminate E]. injection E as <- <-.
      destruct (I4 _ _ F T) as (L1 & L2 & K).
      constructor; cbn [wr_ops wr_next_op]; rewrite ?started_app, ?took_app; cbn [started took flat_map app]; rewrite ?app_nil_r.
      * apply NoDup_filter_map, I1.
      * intros y H. apply delete_op_In in H as [H _]. auto.
      * exact I3.
      * intros y m H. apply delete_op_In in H as [H _]. eauto.
      * intros y H. apply delete_op_In in H as [H _]. eauto.
      * destruct I6 as (D & TT & N1 & N2). unfold sound_writes. rewrite started_app, took_app. cbn [started took flat_map app]. rewrite !app_nil_r.
        split; [|split; [exact TT|split; assumption]].
        intros a v bb E. apply split_app in E as [(b' & E & _) | (a' & E & Ea)]; [eapply D; eauto|].
        destruct a' as [|q a']; [|destruct a'; discriminate E]. injection E as <- <-. rewrite app_nil_r in Ea. subst a.
        exists (snd (w_buf x)), (firstn n (snd (w_buf x))), (skipn n (snd (w_buf x))).
        rewrite <- FI. repeat split; [apply I2, F|exact K|symmetry; apply firstn_skipn|].
        intro Z. apply (f_equal (@List.length N)) in Z. rewrite firstn_length in Z. cbn in Z. lia.
    + injection E as <- <-.
      constructor; cbn [wr_ops set_op wr_next_op]; rewrite ?started_app, ?took_app; cbn [started took flat_map app]; rewrite ?app_nil_r.
      * apply NoDup_filter_map, I1.
      * intros y H. apply delete_op_In in H as [H _]. auto.
      * exact I3.
      * intros y m H. apply delete_op_In in H as [H _]. eauto.
      * intros y H. apply delete_op_In in H as [H _]. eauto.
      * apply sound_quiet; auto. intros v [K|[]]. discriminate K.
  - rewrite app_nil_r. constructor; cbn [wr_ops set_op wr_next_op].
    + apply NoDup_filter_map, I1.
    + intros y H. apply delete_op_In in H as [H _]. auto.
    + exact I3.
    + intros y m H. apply delete_op_In in H as [H _]. eauto.
    + intros y H. apply delete_op_In in H as [H _]. eauto.
    + exact I6.
  - rewrite app_nil_r. constructor; cbn [wr_ops set_op w_abort wr_next_op].
    + rewrite map_map. cbn. exact I1.
    + intros y H. apply in_map_iff in H as (z & <- & H). cbn. auto.
    + exact I3.
    + intros y m H. apply in_map_iff in H as (z & <- & H). cbn. eauto.
    + intros y H. apply in_map_iff in H as (z & <- & H). cbn. eauto.
    + exact I6.
Qed.

Lemma winv_steps : forall P c o c' os, winv c os -> wsteps P c o c' -> winv c' (os ++ o).
Proof.
  intros P c o c' os I S. revert os I. induction S as [|c o c' o' c'' S IH K]; intros os I; [rewrite app_nil_r; exact I|].
  rewrite app_assoc. eapply winv_step; [apply IH, I|exact K].
Qed.

(** ** The transport takes everything *)
Record full (c : writer) (os : list woutput) : Prop := {
  fu_inv : winv c os;
  fu_ops : forall o n, In o (wr_ops c) -> w_taken o = Some n -> n = List.length (snd (w_buf o));
  fu_complete : complete_writes os
}.

Lemma complete_quiet : forall os o, complete_writes os -> (forall w, ~ In (WDone w) o) -> complete_writes (os ++ o).
Proof.
  intros os o C W a w b E. apply split_app in E as [(b' & E & _) | (a' & E & _)]; [eapply C; eauto|].
  exfalso. apply (W w). rewrite E. apply in_elt.
Qed.

Lemma full_step : forall c o c' os, full c os -> wstep takes_all c o c' -> full c' (os ++ o).
Proof.
  intros c o c' os [I F C] S. assert (I' := winv_step _ _ _ _ _ I S). constructor; [exact I'| |]; clear I'.
  - destruct S as [c d|c b c' o E|c w n c' o A E|c w ok c' o E|c w|c].
    + exact F.
    + unfold w_start in E. destruct (wr_buffer c) as [[bi bd]|]; injection E as <- <-; [|exact F].
      cbn [wr_ops]. intros x n H T. apply in_app_or in H as [H|[H|[]]]; [eauto|]. subst x. discriminate T.
    + unfold w_transfer in E. destruct (find_op (wr_ops c) w) as [x|] eqn:K.
      2:{ injection E as <- <-. exact F. }
      destruct (w_aborted x || _ || _ || _); [injection E as <- <-; exact F|].
      destruct (match wr_buffer c with Some _ => _ | None => _ end); [|discriminate E].
      injection E as <- <-. cbn [set_op wr_ops]. assert (KA := A _ K). apply find_op_In in K as [K KI].
      intros y m H T. apply in_map_iff in H as (z & EZ & H).
      destruct (Nat.eqb_spec (w_id z) w) as [Ew|Ew].
      * subst y. cbn in T |- *. injection T as <-. rewrite KA. f_equal. f_equal.
        assert (z = x); [|subst; reflexivity]. assert (I1 := wi_ids _ _ I). clear -I1 K KI H Ew.
        induction (wr_ops c) as [|q l IH]; [contradiction|]. cbn in I1. inversion I1 as [|q' l' H1 H2]; subst.
        destruct K as [->|K], H as [->|H]; auto.
        -- exfalso. apply H1. rewrite <- Ew. apply in_map, H.
        -- exfalso. apply H1. rewrite Ew. apply in_map, K.
      * subst z. eauto.
    + unfold w_complete in E. destruct (find_op (wr_ops c) w) as [x|]; [|discriminate E].
      destruct ok; [destruct (w_taken x); [|discriminate E]|]; injection E as <- <-; cbn [set_op wr_ops];
        intros y m H; apply delete_op_In in H as [H _]; eauto.
    + cbn [set_op wr_ops]. intros y m H. apply delete_op_In in H as [H _]. eauto.
    + cbn [set_op w_abort wr_ops]. intros y m H. apply in_map_iff in H as (z & <- & H). cbn. eauto.
  - destruct S as [c d|c b c' o E|c w n c' o A E|c w ok c' o E|c w|c]; try (rewrite app_nil_r; exact C).
    + apply complete_quiet; [exact C|]. unfold w_start in E. destruct (wr_buffer c); injection E as <- <-; intros v K; cbn in K;
        [destruct K as [K|[]]; discriminate K|contradiction].
    + apply complete_quiet; [exact C|]. unfold w_transfer in E. destruct (find_op (wr_ops c) w) as [x|];
        [|injection E as <- <-; intros v []].
      destruct (w_aborted x || _ || _ || _); [injection E as <- <-; intros v []|].
      destruct (match wr_buffer c with Some _ => _ | None => _ end); [|discriminate E].
      injection E as <- <-. intros v [K|[]]. discriminate K.
    + unfold w_complete in E. destruct (find_op (wr_ops c) w) as [x|] eqn:K; [|discriminate E].
      apply find_op_In in K as [K KI]. destruct ok.
      * destruct (w_taken x) as [n|] eqn:T; [|discriminate E]. injection E as <- <-.
        intros a v b E. apply split_app in E as [(b' & E & _) | (a' & E & Ea)]; [eapply C; eauto|].
        destruct a' as [|q a']; [|destruct a'; discriminate E]. injection E as <- <-. rewrite app_nil_r in Ea. subst a.
        exists (snd (w_buf x)). rewrite <- KI. split; [apply (wi_started _ _ I), K|].
        destruct (wi_taken _ _ I _ _ K T) as (_ & _ & Z). rewrite (F _ _ K T), firstn_all in Z. exact Z.
      * injection E as <- <-. apply complete_quiet; [exact C|]. intros v [Q|[]]. discriminate Q.
Qed.

Lemma full_steps : forall c o c' os, full c os -> wsteps takes_all c o c' -> full c' (os ++ o).
Proof.
  intros c o c' os I S. revert os I. induction S as [|c o c' o' c'' S IH K]; intros os I; [rewrite app_nil_r; exact I|].
  rewrite app_assoc. eapply full_step; [apply IH, I|exact K].
Qed.

Lemma full_init : full writer_init [].
Proof.
  constructor; [exact winv_init| |].
  - cbn. intros o n [].
  - intros a w b E. destruct a; discriminate E.
Qed.

(** ** One write at a time *)
Definition calm (c : writer) : Prop :=
  wr_ops c = [] \/ exists o, wr_ops c = [o] /\ wr_buffer c = Some (w_buf o).

Lemma calm_replace : forall c d, wr_ops c = [] -> wr_ops (w_replace c d) = [].
Proof. auto. Qed.

Lemma calm_start : forall c b, wr_ops c = [] -> calm (fst (w_start c b)).
Proof.
  intros c b E. unfold w_start. destruct (wr_buffer c) as [x|] eqn:B; cbn [fst].
  - right. cbn [wr_ops]. rewrite E. cbn. eexists. split; [reflexivity|]. reflexivity.
  - left. exact E.
Qed.

Lemma calm_transfer : forall c w n, calm c -> exists c' o, w_transfer c w n = Ret (c', o) /\ calm c'.
Proof.
  intros c w n [E|(x & E & B)]; unfold w_transfer; rewrite E; cbn [find_op].
  - do 2 eexists. split; [reflexivity|left; exact E].
  - destruct (Nat.eqb (w_id x) w) eqn:W.
    2:{ do 2 eexists. split; [reflexivity|]. right. exists x. auto. }
    destruct (w_aborted x || _ || _ || _). { do 2 eexists. split; [reflexivity|]. right. exists x. auto. }
    rewrite B, Nat.eqb_refl. do 2 eexists. split; [reflexivity|]. right. cbn [map set_op wr_ops wr_buffer]. rewrite W.
    eexists. split; [reflexivity|]. cbn. exact B.
Qed.

Lemma calm_forget : forall c w, calm c -> calm (set_op c (delete_op (wr_ops c) w)).
Proof.
  intros c w [E|(x & E & B)]; unfold calm, set_op, delete_op; cbn [wr_ops wr_buffer]; rewrite E; cbn [filter].
  - left. reflexivity.
  - destruct (negb _); [right; exists x; auto|left; reflexivity].
Qed.

Lemma calm_complete : forall c w ok c' o, calm c -> w_complete c w ok = Some (c', o) -> calm c'.
Proof.
  intros c w ok c' o C E. unfold w_complete in E.
  destruct (find_op (wr_ops c) w) as [x|] eqn:F; [|discriminate E].
  destruct ok.
  - destruct (w_taken x); [|discriminate E]. injection E as <- <-. left. cbn [wr_ops].
    destruct C as [C|(y & C & B)]; rewrite C in F |- *; cbn in F |- *; [reflexivity|].
    destruct (Nat.eqb (w_id y) w); [reflexivity|discriminate F].
  - injection E as <- <-. apply calm_forget, C.
Qed.

Lemma calm_abort : forall c, calm c -> calm (w_abort c).
Proof.
  intros c [E|(x & E & B)]; unfold calm, w_abort, set_op; cbn [wr_ops wr_buffer]; rewrite E; cbn [map].
  - left. reflexivity.
  - right. eexists. split; [reflexivity|exact B].
Qed.
