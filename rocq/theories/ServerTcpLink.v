(** ServerTcp.v: the acceptor's view of the connections is right. *)
From Verif Require Import Prelude Ser4 Messages Mbap SpecPdu SpecMbap Server SpecServer Listener SpecListener AsyncWrite ServerConn SpecConn ServerTcp SpecServerTcp.
From Verif Require Import ServerFacts ServerLemmas ListenerFacts WriteFacts ConnFacts ServerConnFacts ServerConnMore ServerTcpTrack.
From Coq Require Import Lia.

(** ** The acceptor *)
Definition removals (c : nat) (os : list aoutput) : nat :=
  List.length (filter (fun o => match o with Removed d => Nat.eqb d c | _ => false end) os).
Definition copies (c : nat) (l : list nat) : nat := List.length (filter (fun d => Nat.eqb d c) l).
Definition all_dropped (os : list aoutput) : nat := List.length (filter (fun o => match o with ShutDown => true | _ => false end) os).
Definition dropped (c : nat) (l : list nat) (os : list aoutput) : nat := (removals c os + all_dropped os * copies c l)%nat.
Definition closed (c : nat) (os : list aoutput) : nat :=
  List.length (filter (fun o => match o with Closed d => Nat.eqb d c | _ => false end) os).
Definition serving (c : nat) (os : list aoutput) : bool := existsb (fun o => match o with Serving d => Nat.eqb d c | _ => false end) os.

Lemma closes_app c a b : closes c (a ++ b) = (closes c a + closes c b)%nat.
Proof. unfold closes. rewrite filter_app, app_length. reflexivity. Qed.
Lemma removals_app c a b : removals c (a ++ b) = (removals c a + removals c b)%nat.
Proof. unfold removals. rewrite filter_app, app_length. reflexivity. Qed.
Lemma all_dropped_app a b : all_dropped (a ++ b) = (all_dropped a + all_dropped b)%nat.
Proof. unfold all_dropped. rewrite filter_app, app_length. reflexivity. Qed.
Lemma dropped_app c l a b : dropped c l (a ++ b) = (dropped c l a + dropped c l b)%nat.
Proof. unfold dropped. rewrite removals_app, all_dropped_app. lia. Qed.
Lemma closed_app c a b : closed c (a ++ b) = (closed c a + closed c b)%nat.
Proof. unfold closed. rewrite filter_app, app_length. reflexivity. Qed.
Lemma closes_map c l : closes c (map Close l) = copies c l.
Proof. induction l as [|d l IH]; [reflexivity|]. unfold closes, copies in *. cbn [map filter]. destruct (Nat.eqb d c); cbn [List.length]; lia. Qed.

(** Whether the next closure is the closing of [c]. *)
Definition closing (l : aserver) (e : aevent) (c : nat) : bool :=
  match e, as_queue l with ARun, Close d :: _ => Nat.eqb d c | _, _ => false end.
Definition failing (l : aserver) (e : aevent) (c : nat) : bool :=
  match e with AFail d => Nat.eqb d c && member c (as_active l) | _ => false end.

Definition b2n (b : bool) : nat := if b then 1%nat else 0%nat.

(** What a step of the acceptor means for its queue and for connection [c]. *)
Record effect (l : aserver) (e : aevent) (l' : aserver) (os : list aoutput) : Prop := {
  ef_queue : exists q, as_queue l' = match e with ARun => tl (as_queue l) | _ => as_queue l end ++ q;
  ef_closes : forall c, (closes c (as_queue l') + b2n (closing l e c) = closes c (as_queue l) + dropped c (as_list l) os + b2n (failing l e c))%nat;
  ef_active : forall c, member c (as_active l') = member c (as_active l) || serving c os;
  ef_open : forall c, member c (as_open l') = (member c (as_open l) && negb (closing l e c)) || serving c os;
  ef_closed : forall c, closed c os = b2n (closing l e c && member c (as_open l));
  ef_serving : (forall c, serving c os = false) \/
    exists c pre, os = pre ++ [Serving c] /\ e = AAccept c true /\ member c (as_pending l) = true /\ forall d, serving d pre = false
}.

Lemma remove_effect l c l' o : remove_connection l c = (l', o) ->
  exists q, as_queue l' = as_queue l ++ q /\ (forall d, closes d q = dropped d (as_list l) o) /\ as_active l' = as_active l /\ as_open l' = as_open l /\
    as_shutdown l' = as_shutdown l /\ (forall d, serving d o = false /\ closed d o = 0%nat) /\ as_pending l' = as_pending l /\ as_next l' = as_next l.
Proof.
  intros E. unfold remove_connection in E. destruct (member c (as_list l)); injection E as <- <-.
  - exists [Close c]. split; [reflexivity|]. split; [|repeat split].
    intros d. unfold closes, dropped, removals, all_dropped. cbn [filter]. destruct (Nat.eqb c d); reflexivity.
  - exists []. split; [rewrite app_nil_r; reflexivity|]. repeat split.
Qed.

Lemma member_app c a b : member c (a ++ b) = member c a || member c b.
Proof. apply existsb_app. Qed.
Lemma member_delete c d l : member c (delete d l) = member c l && negb (Nat.eqb d c).
Proof.
  unfold member, delete. induction l as [|x l IH]; [reflexivity|]. cbn [filter existsb]. destruct (Nat.eqb_spec x d) as [->|NE]; cbn [negb existsb].
  - rewrite IH. rewrite (Nat.eqb_sym d c). destruct (Nat.eqb c d); cbn; [rewrite Bool.andb_false_r; reflexivity|]. rewrite !Bool.andb_true_r. reflexivity.
  - rewrite IH. destruct (Nat.eqb_spec c x) as [->|NE2]; cbn; [|reflexivity].
    destruct (Nat.eqb_spec d x); [congruence|]. reflexivity.
Qed.

Lemma step_effect l e l' os : aserver_step l e = Ret (l', os) -> effect l e l' os.
Proof.
  assert (Q0 : forall (q : list aclosure), exists q', q = q ++ q') by (intro q; exists []; rewrite app_nil_r; reflexivity).
  assert (N : forall e, match e with ARun => False | AFail _ => False | _ => True end -> effect l e l []).
  { intros e0 NE. split; intros; destruct e0; try destruct NE; try apply Q0; cbn [closing failing b2n]; unfold dropped; cbn; rewrite ?Bool.andb_true_r, ?Bool.orb_false_r; try lia; try reflexivity; try (left; reflexivity). }
  intros E. destruct e as [| | |c ok|c]; cbn [aserver_step] in E.
  - injection E as <- <-. unfold start_accept. destruct (as_shutdown l); [apply N; exact Logic.I|].
    split; cbn [apost as_queue as_active as_open closing failing b2n]; [exists [StartAccept]; reflexivity| | | | |left; reflexivity]; intros; rewrite ?closes_app; cbn; rewrite ?Bool.andb_true_r, ?Bool.orb_false_r; try reflexivity; lia.
  - injection E as <- <-.
    split; cbn [apost as_queue as_active as_open closing failing b2n]; [exists [Shutdown]; reflexivity| | | | |left; reflexivity]; intros; rewrite ?closes_app; cbn; rewrite ?Bool.andb_true_r, ?Bool.orb_false_r; try reflexivity; lia.
  - destruct (as_queue l) as [|a q] eqn:Q.
    { injection E as <- <-. split; unfold closing; rewrite ?Q; cbn [tl failing b2n]; [exists []; reflexivity| | | | |left; reflexivity]; intros; cbn; rewrite ?Bool.andb_true_r, ?Bool.orb_false_r; reflexivity. }
    injection E as E. destruct a as [| |c].
    + unfold do_accept in E. cbn [as_shutdown] in E. destruct (as_shutdown l); injection E as <- <-;
        (split; unfold closing; rewrite ?Q; cbn [tl failing b2n as_queue as_active as_open]; [apply Q0| | | | |left; reflexivity]; intros; cbn; rewrite ?Bool.andb_true_r, ?Bool.orb_false_r; try reflexivity).
      * unfold closes. cbn [filter]. cbn. lia.
      * unfold closes. cbn [filter]. cbn. lia.
    + unfold do_shutdown in E. injection E as <- <-.
      split; unfold closing; rewrite ?Q; cbn [tl failing b2n as_queue as_active as_open apost as_list]; [eexists; reflexivity| | | | |left; reflexivity]; intros; rewrite ?closes_app, ?closes_map; cbn; rewrite ?Bool.andb_true_r, ?Bool.orb_false_r; try reflexivity.
      unfold closes, dropped, removals, all_dropped. cbn [filter List.length]. lia.
    + unfold do_close in E. cbn [as_open] in E. destruct (member c (as_open l)) eqn:M.
      * destruct (remove_connection _ c) as [l1 o1] eqn:R. injection E as <- <-. apply remove_effect in R as (q' & R1 & R2 & R3 & R4 & R5 & R6x & _); assert (R6 := fun d => proj1 (R6x d)).
        cbn [as_queue as_active as_open as_list] in *.
        split; unfold closing; rewrite ?Q; cbn [tl failing b2n]; [exists q'; exact R1| | | | |left; intro d; exact (R6 d)].
        -- intro d. rewrite R1, closes_app, R2. change (dropped d (as_list l) (Closed c :: o1)) with (dropped d (as_list l) o1).
           unfold closes at 2. cbn [filter]. destruct (Nat.eqb c d); cbn [List.length b2n]; unfold closes; lia.
        -- intro d. change (serving d (Closed c :: o1)) with (serving d o1). rewrite R3, R6, Bool.orb_false_r. reflexivity.
        -- intro d. change (serving d (Closed c :: o1)) with (serving d o1). rewrite R4, R6, Bool.orb_false_r. apply member_delete.
        -- intro d. unfold closed. cbn [filter]. pose proof (proj2 (R6x d)) as Z. unfold closed in Z.
           destruct (Nat.eqb_spec c d) as [<-|]; cbn [andb List.length]; [rewrite M, Z|rewrite Z]; reflexivity.
      * injection E as <- <-. split; unfold closing; rewrite ?Q; cbn [tl failing b2n as_queue as_active as_open]; [apply Q0| | | | |left; reflexivity].
        -- intro d. unfold closes at 2. cbn [filter]. destruct (Nat.eqb c d); cbn; unfold closes; lia.
        -- intro d. cbn. rewrite Bool.orb_false_r. reflexivity.
        -- intro d. cbn. rewrite Bool.orb_false_r. destruct (Nat.eqb_spec c d) as [<-|]; [rewrite M; reflexivity|rewrite Bool.andb_true_r; reflexivity].
        -- intro d. cbn. destruct (Nat.eqb_spec c d) as [<-|]; [rewrite M|]; reflexivity.
  - destruct (member c (as_pending l)) eqn:M; [|injection E as <- <-; apply N; exact Logic.I].
    unfold handle_accept in E. cbn [as_shutdown] in E. destruct (as_shutdown l) eqn:SH.
    { injection E as <- <-. split; cbn [closing failing b2n as_queue as_active as_open]; [apply Q0| | | | |left; reflexivity]; intros; cbn; rewrite ?Bool.andb_true_r, ?Bool.orb_false_r; try reflexivity; lia. }
    destruct ok; cbn [negb] in E.
    + ob E. injection E as <- <-. cbn [as_queue as_active as_open as_list as_shutdown as_max as_num] in *.
      assert (H : exists q', as_queue a = as_queue l ++ q' /\ (forall d, closes d q' = dropped d (as_list l) l0) /\ as_active a = as_active l /\ as_open a = as_open l ++ [c] /\
        as_shutdown a = false /\ (forall d, serving d l0 = false /\ closed d l0 = 0%nat)).
      { destruct (as_max l <? uint32 (as_num l + 1)).
        - destruct (as_list l) as [|d0 rest] eqn:LE; [discriminate|].
          injection F as F. apply remove_effect in F as (q' & R1 & R2 & R3 & R4 & R5 & R6 & _). cbn [as_queue as_active as_open as_list as_shutdown] in *.
          exists q'. rewrite <- ?LE in *. repeat split; auto; apply R6.
        - injection F as <- <-. exists []. cbn [as_queue as_active as_open as_list as_shutdown]. rewrite app_nil_r. repeat split; auto. }
      destruct H as (q' & R1 & R2 & R3 & R4 & R5 & R6x). assert (R6 := fun d => proj1 (R6x d)). unfold start_accept. cbn [as_shutdown]. rewrite R5.
      assert (SV : forall d, serving d (Accepted c :: l0 ++ [Serving c]) = Nat.eqb c d).
      { intro d. unfold serving. cbn [existsb]. rewrite existsb_app. fold (serving d l0). rewrite R6. cbn. apply Bool.orb_false_r. }
      assert (EQ : forall d, member d [c] = Nat.eqb c d) by (intro d; cbn; rewrite Bool.orb_false_r; apply Nat.eqb_sym).
      split; cbn [closing failing b2n as_queue as_active as_open apost].
      * exists (q' ++ [StartAccept]). rewrite R1, app_assoc. reflexivity.
      * intro d. rewrite R1, !closes_app, R2. change (Accepted c :: l0 ++ [Serving c]) with ([Accepted c] ++ l0 ++ [Serving c]).
        rewrite !dropped_app. cbn. lia.
      * intro d. rewrite SV, R3, member_app, EQ. reflexivity.
      * intro d. rewrite SV, R4, member_app, EQ, Bool.andb_true_r. reflexivity.
      * intro d. change (Accepted c :: l0 ++ [Serving c]) with ([Accepted c] ++ l0 ++ [Serving c]). rewrite !closed_app, (proj2 (R6x d)). reflexivity.
      * right. exists c, (Accepted c :: l0). split; [reflexivity|]. split; [reflexivity|]. split; [exact M|]. intro d. exact (R6 d).
    + destruct (remove_connection _ c) as [l1 o1] eqn:R. injection E as <- <-. apply remove_effect in R as (q' & R1 & R2 & R3 & R4 & R5 & R6x & _); assert (R6 := fun d => proj1 (R6x d)).
      cbn [as_queue as_active as_open as_list as_shutdown] in *.
      split; cbn [closing failing b2n]; [exists q'; exact R1| | | | |left; intro d; exact (R6 d)].
      * intro d. rewrite R1, closes_app, R2. change (dropped d (as_list l) (AcceptFailed c :: o1)) with (dropped d (as_list l) o1). lia.
      * intro d. change (serving d (AcceptFailed c :: o1)) with (serving d o1). rewrite R3, R6, Bool.orb_false_r. reflexivity.
      * intro d. change (serving d (AcceptFailed c :: o1)) with (serving d o1). rewrite R4, R6, Bool.orb_false_r, Bool.andb_true_r. reflexivity.
      * intro d. exact (proj2 (R6x d)).
  - injection E as E. destruct (member c (as_active l)) eqn:M.
    + unfold connection_error in E. apply remove_effect in E as (q' & R1 & R2 & R3 & R4 & R5 & R6x & _); assert (R6 := fun d => proj1 (R6x d)). cbn [apost as_queue as_active as_open as_list] in *.
      split; cbn [closing b2n]; [exists ([Close c] ++ q'); rewrite R1, app_assoc; reflexivity| | | | |left; exact R6].
      * intro d. rewrite R1, !closes_app, R2. cbn [failing]. unfold closes at 2. cbn [filter].
        destruct (Nat.eqb_spec c d) as [<-|]; cbn [andb List.length b2n]; [rewrite M|]; cbn [b2n]; lia.
      * intro d. rewrite R3, R6, Bool.orb_false_r. reflexivity.
      * intro d. rewrite R4, R6, Bool.orb_false_r, Bool.andb_true_r. reflexivity.
      * intro d. exact (proj2 (R6x d)).
    + injection E as <- <-. split; cbn [closing b2n]; [apply Q0| | | | |left; reflexivity].
      * intro d. cbn [failing]. destruct (Nat.eqb_spec c d) as [<-|]; cbn [andb]; [rewrite M|]; cbn; lia.
      * intro d. cbn. rewrite Bool.orb_false_r. reflexivity.
      * intro d. cbn. rewrite Bool.orb_false_r, Bool.andb_true_r. reflexivity.
      * intro d. reflexivity.
Qed.

(** Connections have distinct numbers. *)
Definition numbered (l : aserver) : Prop :=
  forall c, (member c (as_pending l) = true -> (c < as_next l)%nat /\ member c (as_active l) = false) /\ (member c (as_active l) = true -> (c < as_next l)%nat).

Lemma numbered_init max : numbered (aserver_init max).
Proof. intros c. split; discriminate. Qed.

Lemma numbered_step l e l' os : numbered l -> aserver_step l e = Ret (l', os) -> numbered l'.
Proof.
  intros H E. destruct e as [| | |c ok|c]; cbn [aserver_step] in E.
  - injection E as <- <-. unfold start_accept. destruct (as_shutdown l); exact H.
  - injection E as <- <-. exact H.
  - destruct (as_queue l) as [|a q]; [injection E as <- <-; exact H|]. injection E as E. destruct a as [| |c].
    + unfold do_accept in E. cbn [as_shutdown] in E. destruct (as_shutdown l); injection E as <- <-; [exact H|].
      intro d. cbn [as_pending as_active as_next]. rewrite member_app. cbn. rewrite Bool.orb_false_r. destruct (H d) as [H1 H2].
      split; [|intro K; specialize (H2 K); lia]. intro K. apply Bool.orb_true_iff in K as [K|K]; [destruct (H1 K); split; [lia|assumption]|].
      apply Nat.eqb_eq in K as ->. split; [lia|]. destruct (member (as_next l) (as_active l)) eqn:M; [|reflexivity]. specialize (H2 eq_refl). lia.
    + unfold do_shutdown in E. injection E as <- <-. exact H.
    + unfold do_close in E. cbn [as_open] in E. destruct (member c (as_open l)); [|injection E as <- <-; exact H].
      destruct (remove_connection _ c) as [l1 o1] eqn:R. injection E as <- <-. apply remove_effect in R as (q' & _ & _ & R3 & _ & _ & _ & R7 & R8).
      intro d. rewrite R3, R7, R8. exact (H d).
  - destruct (member c (as_pending l)) eqn:M; [|injection E as <- <-; exact H].
    unfold handle_accept in E. cbn [as_shutdown] in E. destruct (as_shutdown l).
    { injection E as <- <-. intro d. cbn [as_pending as_active as_next]. rewrite member_delete. destruct (H d) as [H1 H2]. split; [|exact H2].
      intro K. apply Bool.andb_true_iff in K as [K _]. exact (H1 K). }
    destruct ok; cbn [negb] in E.
    + ob E. injection E as <- <-.
      assert (R : as_pending a = delete c (as_pending l) /\ as_active a = as_active l /\ as_next a = as_next l).
      { destruct (_ <? _); [|injection F as <- <-; auto]. cbn [as_list] in F. destruct (as_list l); [discriminate|].
        injection F as F. apply remove_effect in F as (q' & _ & _ & R3 & _ & _ & _ & R7 & R8). auto. }
      destruct R as (R1 & R2 & R3).
      assert (G : numbered {| as_shutdown := as_shutdown a; as_num := as_num a; as_max := as_max a; as_list := as_list a; as_pending := as_pending a; as_open := as_open a;
        as_active := as_active a ++ [c]; as_next := as_next a; as_queue := as_queue a |}).
      { intro d. cbn [as_pending as_active as_next]. rewrite R1, R2, R3, member_delete, member_app. cbn. rewrite Bool.orb_false_r. destruct (H d) as [H1 H2]. split.
        - intro K. apply Bool.andb_true_iff in K as [K1 K2]. destruct (H1 K1) as [A B]. split; [exact A|]. rewrite B. cbn.
          rewrite Nat.eqb_sym. destruct (Nat.eqb c d); [discriminate|reflexivity].
        - intro K. apply Bool.orb_true_iff in K as [K|K]; [exact (H2 K)|]. apply Nat.eqb_eq in K as ->. exact (proj1 (proj1 (H c) M)). }
      unfold start_accept. cbn [as_shutdown]. destruct (as_shutdown a); exact G.
    + destruct (remove_connection _ c) as [l1 o1] eqn:R. injection E as <- <-. apply remove_effect in R as (q' & _ & _ & R3 & _ & _ & _ & R7 & R8).
      intro d. rewrite R3, R7, R8. cbn [as_pending as_active as_next]. rewrite member_delete. destruct (H d) as [H1 H2]. split; [|exact H2].
      intro K. apply Bool.andb_true_iff in K as [K _]. exact (H1 K).
  - injection E as E. destruct (member c (as_active l)); [|injection E as <- <-; exact H].
    unfold connection_error in E. apply remove_effect in E as (q' & _ & _ & R3 & _ & _ & _ & R7 & R8). intro d. rewrite R3, R7, R8. exact (H d).
Qed.
