(** Every step of the server in World.v is one of the steps of NetFacts.v. *)
From Verif Require Import Prelude Ser4 Messages Mbap Client Server Database System.
From Verif Require Import AsyncWrite ClientConn ClientTcp Listener ServerConn ServerTcp World.
From Verif Require Import SpecPdu SpecMbap SpecClient SpecServer SpecDb SpecConn SpecClientTcp SpecServerTcp SpecSystem SpecWorld.
From Verif Require Import SystemFacts SystemSteps NetFacts WorldConn WorldSim.

(** ** Which end of a connection is which *)
Lemma socket_in l c g : socket_of l c = Some g -> In (g, c) l.
Proof.
  induction l as [|[g' c'] l IH]; cbn [socket_of]; [discriminate|]. destruct (Nat.eqb c' c) eqn:E.
  - intros H. injection H as ->. apply Nat.eqb_eq in E. subst. left. reflexivity.
  - intros H. right. exact (IH H).
Qed.

Lemma in_socket l c g : In (g, c) l -> socket_of l c <> None.
Proof.
  induction l as [|[g' c'] l IH]; cbn [socket_of]; [intros []|]. destruct (Nat.eqb c' c) eqn:E; [discriminate|].
  intros [K|K]; [injection K as -> ->; rewrite Nat.eqb_refl in E; discriminate E|exact (IH K)].
Qed.

Lemma socket_app l c g c' : socket_of l c' <> None -> socket_of (l ++ [(g, c)]) c' = socket_of l c'.
Proof.
  induction l as [|[g' d] l IH]; cbn [app socket_of]; [contradiction|]. destruct (Nat.eqb d c'); [reflexivity|exact IH].
Qed.

Lemma socket_ne l c g c' : c' <> c -> socket_of (l ++ [(g, c)]) c' = socket_of l c'.
Proof.
  intros N. induction l as [|[g' d] l IH]; cbn [app socket_of].
  - replace (Nat.eqb c c') with false; [reflexivity|]. symmetry. apply Nat.eqb_neq. congruence.
  - destruct (Nat.eqb d c'); [reflexivity|exact IH].
Qed.

Lemma socket_new l c g : (forall g', ~ In (g', c) l) -> socket_of (l ++ [(g, c)]) c = Some g.
Proof.
  induction l as [|[g' d] l IH]; intros H; cbn [app socket_of]; [rewrite Nat.eqb_refl; reflexivity|].
  destruct (Nat.eqb d c) eqn:E; [apply Nat.eqb_eq in E; subst; exfalso; apply (H g'); left; reflexivity|].
  apply IH. intros g0 K. apply (H g0). right. exact K.
Qed.

(** ** What a step of the server does, apart from its channel *)
Lemma latest_to_app c x a b : latest_to c x (a ++ b) = latest_to c (latest_to c x a) b.
Proof. apply fold_left_app. Qed.

Lemma latest_to_quiet c x o : Forall quiet_output o -> latest_to c x o = x.
Proof.
  intros F. revert x. induction F as [|m o H _ IH]; intros x; [reflexivity|]. cbn [latest_to fold_left].
  destruct m; try contradiction H; apply IH.
Qed.

(** [mine]: the connections the client is at the other end of. *)
Section Hush.
Context (mine : nat -> Prop).

Definition conns_hold (s : tserver db) (f : nat -> option (list N)) : Prop :=
  forall c v, mine c -> us_conns s c = Some v -> vinv v (f c).

Record hush (s s' : tserver db) (m : list smark) (os : list output) : Prop := {
  hu_channel : us_channel s' = us_channel s;
  hu_user : us_user s' = us_user s;
  hu_dom : forall c, us_conns s' c = None <-> us_conns s c = None;
  hu_inv : forall f, conns_hold s f -> conns_hold s' (fun c => latest_to (N.of_nat c) (f c) os);
  hu_next : (as_next (us_listener s) <= as_next (us_listener s'))%nat;
  hu_pending : forall c, In c (as_pending (us_listener s')) ->
    In c (as_pending (us_listener s)) \/ (as_next (us_listener s) <= c < as_next (us_listener s'))%nat;
  hu_tasks : task_outs m = os
}.

Lemma hush_refl s m os : task_outs m = os -> Forall (fun o => match o with OSend _ _ => False | _ => True end) os -> hush s s m os.
Proof.
  intros H F. constructor; auto; [reflexivity|].
  intros f K c v M E. replace (latest_to (N.of_nat c) (f c) os) with (f c); [exact (K c v M E)|].
  clear -F. generalize (f c) as x. induction F as [|o os H _ IH]; intros x; [reflexivity|]. cbn [latest_to fold_left].
  destruct o; try contradiction H; apply IH.
Qed.

Lemma hush_trans s s1 s2 m1 m2 o1 o2 : hush s s1 m1 o1 -> hush s1 s2 m2 o2 -> hush s s2 (m1 ++ m2) (o1 ++ o2).
Proof.
  intros [A1 A2 A3 A4 A5 A6 A7] [B1 B2 B3 B4 B5 B6 B7]. constructor; try congruence.
  - intros c. rewrite B3. apply A3.
  - intros f K c v M E. rewrite latest_to_app. exact (B4 _ (A4 f K) c v M E).
  - lia.
  - intros c H. destruct (B6 c H) as [K|K]; [destruct (A6 c K) as [K'|K']; [left; exact K'|right; lia]|right; lia].
  - rewrite task_outs_app. congruence.
Qed.

Lemma hush_mark s s' x m os : hush s s' m os -> task_outs [x] = [] -> hush s s' (x :: m) os.
Proof.
  intros H E. apply (hush_trans s s s' [x] m [] os); [|exact H]. apply hush_refl; [exact E|constructor].
Qed.

Lemma hush_order s s' m os q : hush s s' m os -> hush s (with_order s' q) m os.
Proof. intros [A1 A2 A3 A4 A5 A6 A7]. constructor; auto. Qed.

Lemma hush_order' s s' m os q : hush (with_order s q) s' m os -> hush s s' m os.
Proof. intros [A1 A2 A3 A4 A5 A6 A7]. constructor; auto. Qed.

Lemma hush_conn s c v v' m : us_conns s c = Some v -> (mine c -> forall out, vinv v out -> vinv v' out) -> task_outs m = [] ->
  hush s (with_conn s c v') m [].
Proof.
  intros E H Hm. constructor; cbn [with_conn us_channel us_user us_conns us_listener]; auto.
  - intros d. destruct (Nat.eqb d c) eqn:Ed; [|reflexivity]. apply Nat.eqb_eq in Ed. subst. rewrite E. split; discriminate.
  - intros f K d w M Ew. cbn [latest_to fold_left]. cbn [with_conn us_conns] in Ew. destruct (Nat.eqb d c) eqn:Ed.
    + injection Ew as <-. apply Nat.eqb_eq in Ed. subst. apply (H M). exact (K c v M E).
    + exact (K d w M Ew).
Qed.

Lemma tasks_peer c e o : task_outs (PeerIn c e :: map (PeerOut c) o) = [].
Proof. cbn [task_outs flat_map app]. induction o as [|x o IH]; [reflexivity|exact IH]. Qed.

Lemma hush_peer s c e s' m : (forall v out v' o, vinv v out -> vconn_step v e = Ret (v', o) -> vinv v' out) ->
  peer_step s c e = Ret (s', m) -> hush s s' m [].
Proof.
  intros H E. unfold peer_step in E. destruct (us_conns s c) as [v|] eqn:Ec; [|injection E as <- <-; apply hush_refl; [reflexivity|constructor]].
  destruct (vconn_step v e) as [[v' o]|] eqn:Ev; [|discriminate E]. cbn [obind] in E. injection E as <- <-.
  apply (hush_conn s c v); [exact Ec| |apply tasks_peer]. intros _ out V. exact (H _ _ _ _ V Ev).
Qed.

Lemma hush_close s c s' m : peer_step s c VClose = Ret (s', m) -> hush s s' m [].
Proof.
  apply hush_peer. intros v out v' o V E. cbn [vconn_step] in E. injection E as <- <-. apply vi_close. exact V.
Qed.

Lemma hush_closes l : forall s s' m, close_conns s l = Ret (s', m) -> hush s s' m [].
Proof.
  induction l as [|c l IH]; intros s s' m E; cbn [close_conns] in E; [injection E as <- <-; apply hush_refl; [reflexivity|constructor]|].
  destruct (peer_step s c VClose) as [[s1 m1]|] eqn:E1; [|discriminate E]. cbn [obind] in E.
  destruct (close_conns s1 l) as [[s2 m2]|] eqn:E2; [|discriminate E]. cbn [obind] in E. injection E as <- <-.
  exact (hush_trans _ _ _ _ _ _ _ (hush_close _ _ _ _ E1) (IH _ _ _ E2)).
Qed.

Definition no_serving (o : aoutput) : Prop := match o with Serving _ => False | _ => True end.

(** ** The acceptor *)
Definition agrow (l l' : aserver) : Prop := (as_next l <= as_next l')%nat /\
  forall c, In c (as_pending l') -> In c (as_pending l) \/ (as_next l <= c < as_next l')%nat.

Lemma agrow_same l l' : as_next l' = as_next l -> as_pending l' = as_pending l -> agrow l l'.
Proof. intros H1 H2. unfold agrow. rewrite H1, H2. split; [lia|auto]. Qed.

Ltac ap := cbn [apost as_shutdown as_num as_max as_list as_pending as_open as_active as_next as_queue] in *.

Lemma remove_same l c l' o : remove_connection l c = (l', o) -> as_next l' = as_next l /\ as_pending l' = as_pending l /\ Forall no_serving o.
Proof.
  unfold remove_connection. destruct (member c (as_list l)); intros E; injection E as <- <-; ap; repeat split; repeat constructor.
Qed.

Lemma accept_step l c l' o : handle_accept l c true = Ret (l', o) -> as_next l' = as_next l /\ as_pending l' = as_pending l /\
  (o = [] \/ exists o1, o = Accepted c :: o1 ++ [Serving c] /\ Forall no_serving o1).
Proof.
  unfold handle_accept. destruct (as_shutdown l) eqn:Es; [intros E; injection E as <- <-; auto|]. cbn [negb]. ap.
  match goal with |- context [as_max l <? ?x] => destruct (as_max l <? x) end.
  - destruct (as_list l) as [|old rest]; [discriminate|].
    match goal with |- context [remove_connection ?a ?b] => destruct (remove_connection a b) as [l1 o1] eqn:Er end.
    cbn [obind]. apply remove_same in Er. ap. destruct Er as (H1 & H2 & H3). unfold start_accept. ap.
    destruct (as_shutdown l1); intros E; injection E as <- <-; ap; (split; [exact H1|]; split; [exact H2|]; right; exists o1; auto).
  - cbn [obind]. unfold start_accept. ap. intros E; injection E as <- <-; ap. split; [reflexivity|]. split; [reflexivity|].
    right. exists []. split; [reflexivity|constructor].
Qed.

Lemma acceptor_step l e l' o : match e with AAccept _ true => False | _ => True end -> aserver_step l e = Ret (l', o) ->
  agrow l l' /\ Forall no_serving o.
Proof.
  intros He E. destruct e as [| | |c ok|c]; cbn [aserver_step] in E.
  - injection E as <- <-. unfold start_accept. destruct (as_shutdown l); (split; [apply agrow_same; reflexivity|repeat constructor]).
  - injection E as <- <-. split; [apply agrow_same; reflexivity|constructor].
  - destruct (as_queue l) as [|a q]; [injection E as <- <-; split; [apply agrow_same; reflexivity|constructor]|].
    injection E as E. destruct a as [| |c].
    + unfold do_accept in E. ap. destruct (as_shutdown l); injection E as <- <-; [split; [apply agrow_same; reflexivity|constructor]|].
      split; [|repeat constructor]. unfold agrow. ap. split; [lia|]. intros c Hc. apply in_app_or in Hc. destruct Hc as [Hc|[<-|[]]]; [left; exact Hc|right; lia].
    + unfold Listener.do_shutdown in E. injection E as <- <-. split; [apply agrow_same; reflexivity|repeat constructor].
    + unfold Listener.do_close in E. ap. destruct (member c (as_open l)); [|injection E as <- <-; split; [apply agrow_same; reflexivity|constructor]].
      match type of E with context [remove_connection ?a ?b] => destruct (remove_connection a b) as [l1 o1] eqn:Er end.
      injection E as <- <-. apply remove_same in Er. ap. destruct Er as (H1 & H2 & H3).
      split; [apply agrow_same; assumption|constructor; [exact Logic.I|exact H3]].
  - destruct ok; [contradiction He|]. destruct (member c (as_pending l)); [|injection E as <- <-; split; [apply agrow_same; reflexivity|constructor]].
    unfold handle_accept in E. ap.
    assert (Hd : forall d, In d (delete c (as_pending l)) -> In d (as_pending l)) by (intros d Hd; apply filter_In in Hd; apply Hd).
    destruct (as_shutdown l); [injection E as <- <-; split; [unfold agrow; ap; split; [lia|intros d K; left; apply Hd; exact K]|constructor]|]. cbn [negb] in E.
    match type of E with context [remove_connection ?a ?b] => destruct (remove_connection a b) as [l1 o1] eqn:Er end.
    injection E as <- <-. apply remove_same in Er. ap. destruct Er as (H1 & H2 & H3).
    split; [|constructor; [exact Logic.I|exact H3]]. unfold agrow. rewrite H1, H2. split; [lia|]. intros d K. left. apply Hd. exact K.
  - destruct (member c (as_active l)); [|injection E as <- <-; split; [apply agrow_same; reflexivity|constructor]].
    unfold connection_error in E. destruct (remove_connection (apost l [Close c]) c) as [l1 o1] eqn:Er. injection E as <- <-.
    apply remove_same in Er. ap. destruct Er as (H1 & H2 & H3). split; [apply agrow_same; assumption|exact H3].
Qed.

Section Serve.
Context (pol : copy_policy).
Notation step := (userver_step db_session db_shutdown pol).

Lemma hush_listener s l q : agrow (us_listener s) l -> hush s (with_order (with_listener s l) q) [] [].
Proof. intros [H1 H2]. constructor; cbn [with_order with_listener us_channel us_user us_conns us_listener]; auto. reflexivity. Qed.

Lemma hush_acceptor l buf os : forall s s' m, Forall no_serving os ->
  listener_outputs db_session db_shutdown pol s l buf os = Ret (s', m) -> hush s s' m [].
Proof.
  induction os as [|o os IH]; intros s s' m F E; cbn [listener_outputs] in E; [injection E as <- <-; apply hush_refl; [reflexivity|constructor]|].
  inversion F as [|? ? F1 F2]; subst.
  assert (K : forall s1 m1, hush s s1 m1 [] ->
    (let! (s, m') := listener_outputs db_session db_shutdown pol s1 l buf os in Ret (s, ListenOut o :: m1 ++ m')) = Ret (s', m) -> hush s s' m []).
  { intros s1 m1 H E1. destruct (listener_outputs db_session db_shutdown pol s1 l buf os) as [[s2 m2]|] eqn:E2; [|discriminate E1].
    cbn [obind] in E1. injection E1 as <- <-. apply hush_mark; [|reflexivity]. exact (hush_trans _ _ _ _ _ _ _ H (IH _ _ _ F2 E2)). }
  destruct o as [|c|c|c|c|c|c|]; try contradiction F1; cbn [obind] in E.
  1-4: apply (K s []); [apply hush_refl; [reflexivity|constructor]|exact E].
  - destruct (peer_step s c VClose) as [[s1 m1]|] eqn:E1; [|discriminate E]. cbn [obind] in E. exact (K s1 m1 (hush_close _ _ _ _ E1) E).
  - apply (K s []); [apply hush_refl; [reflexivity|constructor]|exact E].
  - destruct (close_conns s l) as [[s1 m1]|] eqn:E1; [|discriminate E]. cbn [obind] in E. exact (K s1 m1 (hush_closes _ _ _ _ E1) E).
Qed.

Lemma hush_listens s e buf s' m : match e with AAccept _ true => False | _ => True end ->
  listener_turn db_session db_shutdown pol s e buf = Ret (s', m) -> hush s s' m [].
Proof.
  intros He E. unfold listener_turn in E. destruct (aserver_step (us_listener s) e) as [[l os]|] eqn:E1; [|discriminate E]. cbn [obind] in E.
  destruct (acceptor_step _ _ _ _ He E1) as [G F].
  match type of E with context [listener_outputs _ _ _ ?a ?b ?c ?d] => destruct (listener_outputs db_session db_shutdown pol a b c d) as [[s2 m2]|] eqn:E2 end; [|discriminate E].
  cbn [obind] in E. injection E as <- <-. apply hush_mark; [|reflexivity].
  exact (hush_trans _ _ _ _ _ _ _ (hush_listener _ _ _ G) (hush_acceptor _ _ _ _ _ _ F E2)).
Qed.

Lemma hush_sends os : forall s s' m, channel_outputs db_session db_shutdown pol s os = Ret (s', m) -> hush s s' m os.
Proof.
  induction os as [|o os IH]; intros s s' m E; cbn [channel_outputs] in E; [injection E as <- <-; apply hush_refl; [reflexivity|constructor]|].
  assert (K : forall s1 m1, hush s s1 (TaskOut o :: m1) [o] ->
    (let! (s, m') := channel_outputs db_session db_shutdown pol s1 os in Ret (s, TaskOut o :: m1 ++ m')) = Ret (s', m) -> hush s s' m (o :: os)).
  { intros s1 m1 H E1. destruct (channel_outputs db_session db_shutdown pol s1 os) as [[s2 m2]|] eqn:E2; [|discriminate E1].
    cbn [obind] in E1. injection E1 as <- <-. exact (hush_trans _ _ _ _ _ _ _ H (IH _ _ _ E2)). }
  assert (T : forall s1 m1, match o with OSend _ _ => False | _ => True end -> hush s s1 m1 [] -> hush s s1 (TaskOut o :: m1) [o]).
  { intros s1 m1 Ho H. change (hush s s1 ([TaskOut o] ++ m1) ([o] ++ [])). eapply hush_trans; [|exact H].
    apply hush_refl; [reflexivity|]. constructor; [exact Ho|constructor]. }
  assert (N0 : hush s s [] []) by (apply hush_refl; [reflexivity|constructor]).
  destruct o; cbn [obind] in E; try (apply (K s []); [apply T; [exact Logic.I|exact N0]|exact E]).
  - destruct (listener_turn db_session db_shutdown pol s AStart []) as [[s1 m1]|] eqn:E1; [|discriminate E]. cbn [obind] in E.
    exact (K s1 m1 (T _ _ Logic.I (hush_listens _ AStart _ _ _ Logic.I E1)) E).
  - destruct (listener_turn db_session db_shutdown pol s AShutdown []) as [[s1 m1]|] eqn:E1; [|discriminate E]. cbn [obind] in E.
    exact (K s1 m1 (T _ _ Logic.I (hush_listens _ AShutdown _ _ _ Logic.I E1)) E).
  - match type of E with context [peer_step s ?a ?b] => destruct (peer_step s a b) as [[s1 m1]|] eqn:E1 end; [|discriminate E]. cbn [obind] in E.
    apply (K s1 m1); [|exact E]. clear K T N0 E IH.
    unfold peer_step in E1. destruct (us_conns s (N.to_nat conn)) as [v|] eqn:Ec.
    + cbn [vconn_step obind] in E1. destruct (v_send v (response_data frame)) as [v' ov] eqn:Ev. injection E1 as <- <-.
      constructor; cbn [with_conn us_channel us_user us_conns us_listener]; auto.
      * intros d. destruct (Nat.eqb d (N.to_nat conn)) eqn:Ed; [|reflexivity]. apply Nat.eqb_eq in Ed. subst. rewrite Ec. split; discriminate.
      * intros f K d w M Ew. cbn [latest_to fold_left]. cbn [with_conn us_conns] in Ew. destruct (Nat.eqb d (N.to_nat conn)) eqn:Ed.
        -- injection Ew as <-. apply Nat.eqb_eq in Ed. subst d. rewrite N2Nat.id, N.eqb_refl.
           exact (proj1 (vi_send _ _ _ _ _ (K _ _ M Ec) Ev)).
        -- apply Nat.eqb_neq in Ed. replace (conn =? N.of_nat d) with false; [exact (K d w M Ew)|].
           symmetry. apply N.eqb_neq. intros ->. apply Ed. symmetry. apply Nat2N.id.
      * change (OSend conn frame :: task_outs (PeerIn (N.to_nat conn) (VSend (response_data frame)) :: map (PeerOut (N.to_nat conn)) ov) = [OSend conn frame]).
        rewrite tasks_peer. reflexivity.
    + injection E1 as <- <-. constructor; auto; [reflexivity|].
      intros f K d w M Ew. cbn [latest_to fold_left]. replace (conn =? N.of_nat d) with false; [exact (K d w M Ew)|].
      symmetry. apply N.eqb_neq. intros ->. rewrite Nat2N.id in Ec. congruence.
Qed.

Lemma hush_task s e s' m : task_turn db_session db_shutdown pol s e = Ret (s', m) ->
  exists ch w os, server_step db_session db_shutdown pol (us_channel s) (us_user s) e = Ret (ch, w, os) /\ hush (with_channel s ch w) s' m os.
Proof.
  intros E. unfold task_turn in E.
  destruct (server_step db_session db_shutdown pol (us_channel s) (us_user s) e) as [[[ch w] os]|] eqn:E1; [|discriminate E]. cbn [obind] in E.
  destruct (channel_outputs db_session db_shutdown pol (with_channel s ch w) os) as [[s1 m1]|] eqn:E2; [|discriminate E]. cbn [obind] in E.
  injection E as <- <-. exists ch, w, os. split; [reflexivity|]. apply hush_order. apply hush_mark; [|reflexivity].
  exact (hush_sends _ _ _ _ E2).
Qed.

Lemma hush_run s s' m : listener_run db_session db_shutdown pol s = Ret (s', m) -> hush s s' m [].
Proof.
  intros E. unfold listener_run in E. assert (K : listener_turn db_session db_shutdown pol s ARun [] = Ret (s', m) -> hush s s' m []).
  { apply hush_listens. exact Logic.I. }
  destruct (as_queue (us_listener s)) as [|[| |c] q]; try exact (K E).
  destruct (peer_step s c VRun) as [[s1 m1]|] eqn:E1; [|discriminate E]. cbn [obind] in E.
  destruct (listener_turn db_session db_shutdown pol s1 ARun []) as [[s2 m2]|] eqn:E2; [|discriminate E]. cbn [obind] in E. injection E as <- <-.
  apply (hush_trans s s1 s2 m1 m2 [] []).
  - eapply hush_peer; [|exact E1]. intros v out v' o V Ev. exact (proj1 (vi_run _ _ _ _ V Ev)).
  - exact (hush_listens _ ARun _ _ _ Logic.I E2).
Qed.
End Serve.
End Hush.
