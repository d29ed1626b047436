(** ServerTcp.v: the turns of the parts, and what they keep. *)
From Verif Require Import Prelude Ser4 Messages Mbap SpecPdu SpecMbap Server SpecServer Listener SpecListener AsyncWrite ServerConn SpecConn ServerTcp SpecServerTcp.
From Verif Require Import ServerFacts ServerLemmas ListenerFacts WriteFacts ConnFacts ServerConnFacts ServerConnMore ServerTcpTrack ServerTcpLink.
From Coq Require Import Lia.

(** ** Closing a connection *)
Definition addq (k : nat) (v : sconn) : sconn := with_vqueue v (vn_queue v ++ repeat VDoClose k).

Lemma addq_0 v : addq 0 v = v.
Proof. destruct v. unfold addq, with_vqueue. cbn. rewrite app_nil_r. reflexivity. Qed.
Lemma addq_add j k v : addq k (addq j v) = addq (j + k) v.
Proof. destruct v. unfold addq, with_vqueue. cbn. rewrite <- app_assoc, repeat_app. reflexivity. Qed.
Lemma close_addq v : vn_shutdown v = false -> vconn_step v VClose = Ret (addq 1 v, []).
Proof. intros SH. cbn [vconn_step]. unfold v_close. rewrite SH. reflexivity. Qed.
Lemma closes_run k : forall v, vn_shutdown v = false -> vconn_run v (repeat VClose k) = Ret (addq k v, []).
Proof.
  induction k as [|k IH]; intros v SH; [rewrite addq_0; reflexivity|]. cbn [repeat vconn_run].
  rewrite close_addq by exact SH. cbn [obind]. rewrite IH by exact SH. cbn [obind]. rewrite addq_add. reflexivity.
Qed.

(** ** The acceptor and the connections agree *)
Definition conn_ok (o : option sconn) (k : nat) (op act : bool) : Prop :=
  match o with
  | Some v => vn_shutdown v = false /\ vn_queue v = repeat VDoClose k /\ vn_open v = op /\ act = true
  | None => act = false /\ op = false
  end.

Lemma conn_ok_addq o k op act j : conn_ok o k op act -> conn_ok (option_map (addq j) o) (k + j) op act.
Proof.
  destruct o as [v|]; cbn; [|auto]. intros (A & B & C & D). split; [exact A|]. split; [|auto]. rewrite B, <- repeat_app. reflexivity.
Qed.

(** Events that a served connection can see. *)
Definition plain_event (e : vevent) : Prop := e <> VStart /\ e <> VShutdown.

(** From not accepted, to accepted, to started. *)
Definition grows (o o' : option sconn) (l : list vevent) : Prop :=
  match o, o' with
  | None, None => l = []
  | None, Some _ => exists k rest, l = repeat VClose k ++ VStart :: rest /\ Forall plain_event rest
  | Some _, Some _ => Forall plain_event l
  | Some _, None => False
  end.

Lemma grows_app a b c l1 l2 : grows a b l1 -> grows b c l2 -> grows a c (l1 ++ l2).
Proof.
  destruct a, b, c; cbn; intros A B; try contradiction; try (apply Forall_app; auto; fail).
  - destruct A as (k & rest & -> & F). exists k, (rest ++ l2). split; [rewrite <- app_assoc; reflexivity|]. apply Forall_app; auto.
  - subst l1. exact B.
  - subst. reflexivity.
Qed.

Lemma grows_same o o' : (o = None <-> o' = None) -> grows o o' [].
Proof. intros H. destruct o, o'; cbn; auto; [destruct H as [_ H]; discriminate (H eq_refl)|destruct H as [H _]; discriminate (H eq_refl)]. Qed.

Section Turns.
Context {W : Type}.
Context (on_request : N -> W -> request -> W * expected response * list api).
Context (on_shutdown : N -> W -> W * list api).
Context (pol : copy_policy).
Implicit Types (h : tserver W) (m : list smark).

Notation peer_step := (@peer_step W).
Notation close_conns := (@close_conns W).
Notation serve := (serve on_request on_shutdown pol).
Notation listener_outputs := (listener_outputs on_request on_shutdown pol).
Notation listener_turn := (listener_turn on_request on_shutdown pol).
Notation channel_outputs := (channel_outputs on_request on_shutdown pol).
Notation task_turn := (task_turn on_request on_shutdown pol).
Notation peer_outputs := (peer_outputs on_request on_shutdown pol).
Notation peer_turn := (peer_turn on_request on_shutdown pol).
Notation listener_run := (listener_run on_request on_shutdown pol).
Notation userver_step := (userver_step on_request on_shutdown pol).
Notation userver_run := (userver_run on_request on_shutdown pol).
Notation srun := (server_run on_request on_shutdown pol).
Notation sstep := (server_step on_request on_shutdown pol).
Notation tracks_task := (tracks_task on_request on_shutdown pol).

Definition alive h : Prop := forall d v, us_conns h d = Some v -> vn_shutdown v = false.

Definition linked h : Prop := forall c,
  conn_ok (us_conns h c) (closes c (as_queue (us_listener h))) (member c (as_open (us_listener h))) (member c (as_active (us_listener h))).

(** Before the acceptor hears of it, the connection has done its part of [e]. *)
Definition linked_pre h (e : aevent) : Prop := forall c,
  conn_ok (us_conns h c) (closes c (as_queue (us_listener h)) + b2n (failing (us_listener h) e c) - b2n (closing (us_listener h) e c))
    (member c (as_open (us_listener h)) && negb (closing (us_listener h) e c)) (member c (as_active (us_listener h))).

Lemma linked_linked_pre h e : match e with ARun | AFail _ => False | _ => True end -> linked h -> linked_pre h e.
Proof.
  intros NE L c. specialize (L c). assert (A : failing (us_listener h) e c = false) by (destruct e; cbn in *; tauto).
  assert (B : closing (us_listener h) e c = false) by (destruct e; cbn in *; tauto). rewrite A, B. cbn [b2n negb].
  rewrite Nat.add_0_r, Nat.sub_0_r, Bool.andb_true_r. exact L.
Qed.

Lemma linked_pre_alive h e : linked_pre h e -> alive h.
Proof. intros L d v E. specialize (L d). rewrite E in L. exact (proj1 L). Qed.
Lemma linked_alive h : linked h -> alive h.
Proof. intros L d v E. specialize (L d). rewrite E in L. exact (proj1 L). Qed.

Lemma closing_closes l e c : (b2n (closing l e c) <= closes c (as_queue l))%nat.
Proof.
  unfold closing. destruct e; cbn; try lia. destruct (as_queue l) as [|[| |d] q]; cbn; try lia. unfold closes. cbn [filter].
  destruct (Nat.eqb d c); cbn; lia.
Qed.

(** ** What a turn does *)
Record turn h m h' : Prop := {
  tr_task : tracks_task h m h';
  tr_listen : tracks_listen h m h';
  tr_peer : forall d, tracks_peer d h m h';
  tr_grows : forall d, grows (us_conns h d) (us_conns h' d) (peer_ins d m)
}.

Lemma turn_nil h h' : us_channel h' = us_channel h -> us_user h' = us_user h -> us_listener h' = us_listener h -> (forall d, us_conns h' d = us_conns h d) -> turn h [] h'.
Proof.
  intros A B C D. split; [apply tt_same; auto|apply tl_same; auto|intro d; apply tp_same; auto|]. intro d. rewrite D. apply grows_same. tauto.
Qed.
Lemma turn_app h m h1 m1 h2 : turn h m h1 -> turn h1 m1 h2 -> turn h (m ++ m1) h2.
Proof.
  intros [A1 A2 A3 A4] [B1 B2 B3 B4]. split; [eapply tt_app; eauto|eapply tl_app; eauto|intro d; eapply tp_app; eauto|].
  intro d. rewrite peer_ins_app. eapply grows_app; eauto.
Qed.

(** ** The acceptor's turns *)
Lemma close_conns_total l : forall h, alive h -> exists h' m, close_conns h l = Ret (h', m) /\ only_conns h h' /\ Forall only_peer m /\
  forall d, us_conns h' d = option_map (addq (copies d l)) (us_conns h d) /\ peer_outs d m = [] /\
    peer_ins d m = match us_conns h d with Some _ => repeat VClose (copies d l) | None => [] end.
Proof.
  induction l as [|c l IH]; intros h AL.
  - exists h, []. split; [reflexivity|]. split; [repeat split|]. split; [constructor|]. intro d. split.
    + destruct (us_conns h d) as [v|]; [|reflexivity]. cbn. unfold copies. cbn. rewrite addq_0. reflexivity.
    + split; [reflexivity|]. destruct (us_conns h d); reflexivity.
  - cbn [ServerTcp.close_conns]. unfold ServerTcp.peer_step. destruct (us_conns h c) as [v|] eqn:C.
    + pose proof (AL c v C) as SH. rewrite close_addq by exact SH. cbn [obind map].
      assert (AL' : alive (with_conn h c (addq 1 v))).
      { intros d v' E. rewrite conns_set in E. destruct (Nat.eqb_spec d c); [injection E as <-; exact SH|exact (AL d v' E)]. }
      destruct (IH _ AL') as (h' & m & E & O & P & K). rewrite E. cbn [obind]. do 2 eexists. split; [reflexivity|].
      split; [exact O|]. split; [constructor; [exact Logic.I|exact P]|]. intro d. specialize (K d). destruct K as (K1 & K2 & K3).
      rewrite conns_set in K1, K3. unfold copies. cbn [filter]. rewrite (Nat.eqb_sym c d). destruct (Nat.eqb_spec d c) as [EQ|NE].
      * subst d. rewrite C. cbn [option_map]. split; [rewrite K1; cbn [option_map]; rewrite addq_add; reflexivity|]. cbn [app peer_outs peer_ins flat_map].
        split; [exact K2|]. rewrite Nat.eqb_refl. cbn [app List.length repeat]. f_equal. exact K3.
      * split; [exact K1|]. cbn [app peer_outs peer_ins flat_map]. split; [exact K2|]. destruct (Nat.eqb_spec c d); [congruence|]. exact K3.
    + cbn [obind]. destruct (IH _ AL) as (h' & m & E & O & P & K). rewrite E. cbn [obind app]. do 2 eexists. split; [reflexivity|]. split; [exact O|]. split; [exact P|].
      intro d. destruct (K d) as (K1 & K2 & K3). split; [|split; [exact K2|]].
      * destruct (Nat.eq_dec d c) as [->|NE]; [rewrite K1, C; reflexivity|]. rewrite K1. unfold copies. cbn [filter]. destruct (Nat.eqb_spec c d); [congruence|reflexivity].
      * destruct (Nat.eq_dec d c) as [->|NE]; [rewrite K3, C; reflexivity|]. rewrite K3. unfold copies. cbn [filter]. destruct (Nat.eqb_spec c d); [congruence|reflexivity].
Qed.

Lemma lo_plain l buf : forall os h, alive h -> (forall c, serving c os = false) -> exists h' m, listener_outputs h l buf os = Ret (h', m) /\
  only_conns h h' /\ listen_ins m = [] /\ listen_outs m = os /\ Forall no_task m /\
  forall d, us_conns h' d = option_map (addq (dropped d l os)) (us_conns h d) /\ peer_outs d m = [] /\
    peer_ins d m = match us_conns h d with Some _ => repeat VClose (dropped d l os) | None => [] end.
Proof.
  induction os as [|o os IH]; intros h AL NS.
  - exists h, []. split; [reflexivity|]. split; [repeat split|]. split; [reflexivity|]. split; [reflexivity|]. split; [constructor|]. intro d.
    split; [destruct (us_conns h d) as [v|]; [cbn; rewrite addq_0|]; reflexivity|]. split; [reflexivity|]. destruct (us_conns h d); reflexivity.
  - cbn [ServerTcp.listener_outputs].
    assert (NS1 : forall c, o <> Serving c).
    { intros c ->. specialize (NS c). cbn in NS. rewrite Nat.eqb_refl in NS. discriminate. }
    assert (NS2 : forall c, serving c os = false).
    { intro c. specialize (NS c). unfold serving in *. cbn [existsb] in NS. apply Bool.orb_false_iff in NS. exact (proj2 NS). }
    assert (ST : exists h1 m1, match o with Removed c => peer_step h c VClose | ShutDown => close_conns h l | Serving c => serve h c buf | _ => Ret (h, []) end = Ret (h1, m1) /\
      only_conns h h1 /\ Forall only_peer m1 /\ forall d, us_conns h1 d = option_map (addq (dropped d l [o])) (us_conns h d) /\ peer_outs d m1 = [] /\
      peer_ins d m1 = match us_conns h d with Some _ => repeat VClose (dropped d l [o]) | None => [] end).
    { destruct o as [|c|c|c|c|c|c|]; try (exfalso; exact (NS1 c eq_refl));
      try (exists h, []; split; [reflexivity|]; split; [repeat split|]; split; [constructor|]; intro d; unfold dropped; cbn;
           split; [destruct (us_conns h d) as [v|]; [cbn; rewrite addq_0|]; reflexivity|]; split; [reflexivity|]; destruct (us_conns h d); reflexivity).
      - destruct (close_conns_total [c] h AL) as (h1 & m1 & E & O & P & K). cbn [ServerTcp.close_conns] in E.
        destruct (peer_step h c VClose) as [[h2 m2]|]; cbn [obind] in E; [|discriminate]. injection E as <- <-. rewrite app_nil_r in *.
        exists h2, m2. split; [reflexivity|]. split; [exact O|]. split; [exact P|]. intro d. destruct (K d) as (K1 & K2 & K3).
        assert (D : dropped d l [Removed c] = copies d [c]).
        { unfold dropped, removals, all_dropped, copies. cbn [filter]. destruct (Nat.eqb c d); cbn; lia. }
        rewrite D. auto.
      - destruct (close_conns_total l h AL) as (h1 & m1 & E & O & P & K). exists h1, m1. split; [exact E|]. split; [exact O|]. split; [exact P|].
        intro d. replace (dropped d l [ShutDown]) with (copies d l) by (unfold dropped; cbn; lia). exact (K d). }
    destruct ST as (h1 & m1 & -> & O1 & P1 & K1). cbn [obind].
    assert (AL1 : alive h1).
    { intros d v E. destruct (K1 d) as (A & _ & _). rewrite A in E. destruct (us_conns h d) as [v0|] eqn:C; [|discriminate]. cbn in E. injection E as <-. exact (AL d v0 C). }
    destruct (IH h1 AL1 NS2) as (h2 & m2 & -> & O2 & L1 & L2 & P2 & K2). cbn [obind]. do 2 eexists. split; [reflexivity|].
    split; [eapply only_conns_trans; eauto|].
    assert (NL : listen_ins m1 = [] /\ listen_outs m1 = []) by (apply no_listen_ins, only_peer_no_listen, P1). destruct NL as [NL1 NL2].
    split; [|split; [|split]].
    + change (ListenOut o :: m1 ++ m2) with ([ListenOut o] ++ m1 ++ m2). rewrite !listen_ins_app, NL1, L1. reflexivity.
    + change (ListenOut o :: m1 ++ m2) with ([ListenOut o] ++ m1 ++ m2). rewrite !listen_outs_app, NL2, L2. reflexivity.
    + constructor; [exact Logic.I|]. apply Forall_app. split; [apply only_peer_no_task, P1|exact P2].
    + intro d. destruct (K1 d) as (A1 & A2 & A3), (K2 d) as (B1 & B2 & B3).
      change (ListenOut o :: m1 ++ m2) with ([ListenOut o] ++ m1 ++ m2). rewrite !peer_outs_app, !peer_ins_app, A2, B2, A3, B3.
      change (o :: os) with ([o] ++ os). rewrite dropped_app. split; [|split; [reflexivity|]].
      * rewrite B1, A1. destruct (us_conns h d) as [v|]; [|reflexivity]. cbn [option_map]. rewrite addq_add. reflexivity.
      * rewrite A1. destruct (us_conns h d) as [v|]; [|reflexivity]. cbn [option_map]. rewrite repeat_app. reflexivity.
Qed.

Lemma lo_app l buf b : forall a h h1 m1, listener_outputs h l buf a = Ret (h1, m1) ->
  listener_outputs h l buf (a ++ b) = obind (listener_outputs h1 l buf b) (fun x => let '(h2, m2) := x in Ret (h2, m1 ++ m2)).
Proof.
  induction a as [|o a IH]; intros h h1 m1 E; cbn [ServerTcp.listener_outputs app] in *.
  - injection E as <- <-. destruct (listener_outputs h l buf b) as [[? ?]|]; reflexivity.
  - ob E. ob E. cbn [obind]. injection E as <- <-. rewrite (IH _ _ _ F0). destruct (listener_outputs _ l buf b) as [[? ?]|]; cbn [obind]; [|reflexivity].
    cbn [app]. rewrite <- app_assoc. reflexivity.
Qed.

Definition waiting (e : aevent) (l : aserver) : list aclosure := match e with ARun => tl (as_queue l) | _ => as_queue l end.

(** What the acceptor's turn [e] does, whose step has outcome [l'] and [os]. *)
Record listen_turn h (e : aevent) (buf : list N) (l' : aserver) (os : list aoutput) h' m : Prop := {
  lt_turn : turn h m h';
  lt_linked : linked h';
  lt_state : us_listener h' = l';
  lt_ins : listen_ins m = [e];
  lt_outs : listen_outs m = os;
  lt_task_outs : task_outs m = [];
  lt_peer_outs : forall d, peer_outs d m = [];
  lt_order : exists q, as_queue l' = waiting e (us_listener h) ++ q /\ us_order h' = us_order h ++ repeat ListenTurn (List.length q);
  lt_user : us_user h' = us_user h;
  lt_kind :
    (forall c, serving c os = false) /\ task_ins m = [] /\ us_channel h' = us_channel h /\
      (forall d, us_conns h' d = option_map (addq (dropped d (as_list (us_listener h)) os)) (us_conns h d)) /\
      (forall d, peer_ins d m = match us_conns h d with Some _ => repeat VClose (dropped d (as_list (us_listener h)) os) | None => [] end) \/
    exists c pre, e = AAccept c true /\ os = pre ++ [Serving c] /\ (forall d, serving d pre = false) /\ us_conns h c = None /\ task_ins m = [EAccept (N.of_nat c) buf] /\
      us_channel h' = set_conn (us_channel h) (N.of_nat c) (Some (mbap_new buf)) /\
      us_conns h' c <> None /\ (exists k, peer_ins c m = repeat VClose k ++ [VStart]) /\
      (forall d, d <> c -> exists k, peer_ins d m = repeat VClose k /\ us_conns h' d = option_map (addq k) (us_conns h d))
}.

Lemma repeat_plain k : Forall plain_event (repeat VClose k).
Proof. apply Forall_forall. intros x I. apply repeat_spec in I as ->. split; discriminate. Qed.

Lemma listener_turn_spec h e buf l' os : numbered (us_listener h) -> linked_pre h e -> aserver_step (us_listener h) e = Ret (l', os) ->
  exists h' m, listener_turn h e buf = Ret (h', m) /\ listen_turn h e buf l' os h' m.
Proof.
  intros NU LP ST. pose proof (step_effect _ _ _ _ ST) as [[q EQ] EC EA EO ECL ES]. pose proof (linked_pre_alive _ _ LP) as AL.
  unfold ServerTcp.listener_turn. rewrite ST. cbn [obind].
  set (rm := match e with ARun => 1%nat | _ => 0%nat end).
  assert (OR : us_order h ++ more ListenTurn (List.length (as_queue (us_listener h)) - rm) (List.length (as_queue l')) = us_order h ++ repeat ListenTurn (List.length q)).
  { f_equal. unfold more. f_equal. rewrite EQ, app_length. unfold rm. destruct e; try lia. destruct (as_queue (us_listener h)); cbn; lia. }
  rewrite OR. set (h0 := with_order (with_listener h l') (us_order h ++ repeat ListenTurn (List.length q))).
  assert (AL0 : alive h0) by exact AL.
  assert (TL : aserver_run (us_listener h) [e] = Ret (l', os)) by (apply arun_one, ST).
  destruct ES as [NS|(c & pre & EO1 & -> & PE & NS)].
  - destruct (lo_plain (as_list (us_listener h)) buf os h0 AL0 NS) as (h' & m & -> & (O1 & O2 & O3 & O4) & L1 & L2 & NT & K). cbn [obind].
    exists h', (ListenIn e :: m). split; [reflexivity|].
    destruct (no_task_ins m NT) as [NT1 NT2].
    split.
    + split.
      * unfold ServerTcpTrack.tracks_task. change (task_ins (ListenIn e :: m)) with (task_ins m). change (task_outs (ListenIn e :: m)) with (task_outs m). rewrite NT1, NT2, O1, O2. reflexivity.
      * unfold tracks_listen. change (listen_ins (ListenIn e :: m)) with (e :: listen_ins m). change (listen_outs (ListenIn e :: m)) with (listen_outs m). rewrite L1, L2, O3. exact TL.
      * intro d. destruct (K d) as (K1 & K2 & K3). unfold tracks_peer, conn_of. change (peer_ins d (ListenIn e :: m)) with (peer_ins d m). change (peer_outs d (ListenIn e :: m)) with (peer_outs d m).
        rewrite K1, K2, K3. change (us_conns h0 d) with (us_conns h d). destruct (us_conns h d) as [v|] eqn:C; [|reflexivity]. cbn [option_map]. apply closes_run, (AL d v C).
      * intro d. destruct (K d) as (K1 & K2 & K3). change (peer_ins d (ListenIn e :: m)) with (peer_ins d m). rewrite K1, K3. change (us_conns h0 d) with (us_conns h d).
        destruct (us_conns h d) as [v|]; cbn; [apply repeat_plain|reflexivity].
    + intro d. destruct (K d) as (K1 & _ & _). rewrite K1, O3. change (us_conns h0 d) with (us_conns h d). change (us_listener h0) with l'.
      specialize (LP d). specialize (EC d). rewrite EA, EO, NS, !Bool.orb_false_r. pose proof (closing_closes (us_listener h) e d).
      replace (closes d (as_queue l')) with (closes d (as_queue (us_listener h)) + b2n (failing (us_listener h) e d) - b2n (closing (us_listener h) e d) + dropped d (as_list (us_listener h)) os)%nat by lia.
      apply conn_ok_addq, LP.
    + exact O3.
    + change (listen_ins (ListenIn e :: m)) with (e :: listen_ins m). rewrite L1. reflexivity.
    + exact L2.
    + exact NT2.
    + intro d. exact (proj1 (proj2 (K d))).
    + exists q. split; [exact EQ|]. exact O4.
    + exact O2.
    + left. split; [exact NS|]. split; [exact NT1|]. split; [exact O1|]. split; [intro d; exact (proj1 (K d))|intro d; exact (proj2 (proj2 (K d)))].
  - subst os. destruct (lo_plain (as_list (us_listener h)) buf pre h0 AL0 NS) as (h1 & m1 & E1 & (O1 & O2 & O3 & O4) & L1 & L2 & NT & K).
    rewrite (lo_app _ _ _ _ _ _ _ E1). cbn [ServerTcp.listener_outputs].
    assert (NC : us_conns h c = None).
    { destruct (us_conns h c) as [v|] eqn:C; [|reflexivity]. pose proof (LP c) as P. rewrite C in P. cbn in P. destruct P as (_ & _ & _ & P).
      destruct (proj1 (NU c) PE) as [_ Q]. congruence. }
    assert (NC1 : us_conns h1 c = None) by (rewrite (proj1 (K c)); change (us_conns h0 c) with (us_conns h c); rewrite NC; reflexivity).
    assert (SV : exists h2 m2, serve h1 c buf = Ret (h2, m2)).
    { unfold ServerTcp.serve. cbn [server_step obind]. destruct (v_start _) as [v ov]. eauto. }
    destruct SV as (h2 & m2 & SV). rewrite SV. cbn [obind app].
    pose proof (serve_track _ _ _ _ _ _ _ _ NC1 SV) as (S1 & S2 & S3 & S4 & S5).
    pose proof (serve_spec _ _ _ _ _ _ _ _ SV) as (ch & v & o & SS & VS & SE & SM). cbv zeta in *.
    cbn [server_step] in SS. assert (CH : ch = set_conn (us_channel h1) (N.of_nat c) (Some (mbap_new buf))) by congruence. clear SS.
    assert (VSE : v = vmk false true true writer_init [(0%nat, true)] (repeat VDoClose (closes c (as_queue (us_listener h1)))) 1 /\ o = []).
    { unfold v_start in VS. cbn in VS. injection VS as <- <-. split; reflexivity. }
    destruct VSE as [VE ->]. cbn [map] in SM. 
    rewrite app_nil_r. set (m := ListenIn (AAccept c true) :: m1 ++ ListenOut (Serving c) :: m2).
    exists h2, m. split; [reflexivity|].
    destruct (no_task_ins m1 NT) as [NT1 NT2]. destruct (no_listen_ins m2 S3) as [NL1 NL2].
    assert (PM : forall d, peer_ins d m2 = (if Nat.eqb d c then repeat VClose (closes c (as_queue (us_listener h1))) ++ [VStart] else []) /\ peer_outs d m2 = []).
    { intro d. rewrite SM. split.
      - change (peer_ins d (TaskIn ?e :: ?l)) with (peer_ins d l). destruct (Nat.eqb_spec d c) as [->|NE].
        + rewrite peer_ins_app, peer_ins_repeat. cbn [peer_ins flat_map app]. rewrite Nat.eqb_refl. reflexivity.
        + refine (proj1 (other_peer_ins c d _ (not_eq_sym NE) _)). apply Forall_app. split; [apply peer_mark_repeat|constructor; [reflexivity|constructor]].
      - change (peer_outs d (TaskIn ?e :: ?l)) with (peer_outs d l). destruct (Nat.eq_dec d c) as [->|NE].
        + rewrite peer_outs_app, peer_outs_repeat. reflexivity.
        + refine (proj2 (other_peer_ins c d _ (not_eq_sym NE) _)). apply Forall_app. split; [apply peer_mark_repeat|constructor; [reflexivity|constructor]]. }
    assert (TI : task_ins m2 = [EAccept (N.of_nat c) buf] /\ task_outs m2 = []).
    { rewrite SM. change (task_ins (TaskIn ?e :: ?l)) with (e :: task_ins l). change (task_outs (TaskIn ?e :: ?l)) with (task_outs l).
      destruct (no_task_ins (repeat (PeerIn c VClose) (closes c (as_queue (us_listener h1))) ++ [PeerIn c VStart])) as [A B]; [|rewrite A, B; split; reflexivity].
      apply only_peer_no_task, (peer_mark_only c), Forall_app. split; [apply peer_mark_repeat|constructor; [reflexivity|constructor]]. }
    assert (MTI : task_ins m = [EAccept (N.of_nat c) buf]).
    { unfold m. change (task_ins (ListenIn ?e :: ?l)) with (task_ins l). rewrite task_ins_app. change (task_ins (ListenOut ?e :: ?l)) with (task_ins l). rewrite NT1. exact (proj1 TI). }
    assert (MTO : task_outs m = []).
    { unfold m. change (task_outs (ListenIn ?e :: ?l)) with (task_outs l). rewrite task_outs_app. change (task_outs (ListenOut ?e :: ?l)) with (task_outs l). rewrite NT2. exact (proj2 TI). }
    assert (MLI : listen_ins m = [AAccept c true]).
    { unfold m. change (listen_ins (ListenIn ?e :: ?l)) with (e :: listen_ins l). rewrite listen_ins_app. change (listen_ins (ListenOut ?e :: ?l)) with (listen_ins l). rewrite L1, NL1. reflexivity. }
    assert (MLO : listen_outs m = pre ++ [Serving c]).
    { unfold m. change (listen_outs (ListenIn ?e :: ?l)) with (listen_outs l). rewrite listen_outs_app. change (listen_outs (ListenOut ?e :: ?l)) with (e :: listen_outs l). rewrite L2, NL2. reflexivity. }
    assert (MPI : forall d, peer_ins d m = peer_ins d m1 ++ peer_ins d m2).
    { intro d. unfold m. change (peer_ins d (ListenIn ?e :: ?l)) with (peer_ins d l). rewrite peer_ins_app. reflexivity. }
    assert (MPO : forall d, peer_outs d m = peer_outs d m1 ++ peer_outs d m2).
    { intro d. unfold m. change (peer_outs d (ListenIn ?e :: ?l)) with (peer_outs d l). rewrite peer_outs_app. reflexivity. }
    assert (LE : us_listener h2 = l') by (rewrite S1, O3; reflexivity).
    assert (CE : forall d, us_conns h2 d = if Nat.eqb d c then Some v else us_conns h1 d) by (intro d; rewrite SE, conns_set; reflexivity).
    split.
    + split.
      * unfold ServerTcpTrack.tracks_task. rewrite MTI, MTO. unfold ServerTcpTrack.tracks_task in S4. rewrite (proj1 TI), (proj2 TI), O1, O2 in S4. exact S4.
      * unfold tracks_listen. rewrite MLI, MLO, LE. exact TL.
      * intro d. unfold tracks_peer. rewrite MPI, MPO. eapply vrun_app; [|exact (S5 d)].
        destruct (K d) as (K1 & K2 & K3). rewrite K2, K3. unfold conn_of. rewrite K1. change (us_conns h0 d) with (us_conns h d).
        destruct (us_conns h d) as [v0|] eqn:C; [|reflexivity]. cbn [option_map]. apply closes_run, (AL d v0 C).
      * intro d. rewrite MPI. destruct (K d) as (K1 & K2 & K3). eapply (grows_app _ (us_conns h1 d)).
        -- rewrite K1, K3. change (us_conns h0 d) with (us_conns h d). destruct (us_conns h d) as [v0|]; cbn; [apply repeat_plain|reflexivity].
        -- rewrite (proj1 (PM d)), CE. destruct (Nat.eqb_spec d c) as [->|NE]; [|apply grows_same; tauto].
           rewrite NC1. cbn. eexists _, []. split; [reflexivity|constructor].
    + intro d. rewrite LE, CE. specialize (EC d). rewrite EA, EO. cbn [closing negb] in *. rewrite Bool.andb_true_r.
      assert (SVD : serving d (pre ++ [Serving c]) = Nat.eqb d c).
      { unfold serving. rewrite existsb_app. fold (serving d pre). rewrite NS. cbn. rewrite Bool.orb_false_r. apply Nat.eqb_sym. }
      rewrite SVD. destruct (Nat.eqb_spec d c) as [->|NE].
      * rewrite VE. cbn. rewrite O3, !Bool.orb_true_r. change (us_listener h0) with l'. repeat split; reflexivity.
      * rewrite (proj1 (K d)), !Bool.orb_false_r. change (us_conns h0 d) with (us_conns h d). specialize (LP d). cbn [closing failing b2n negb] in LP, EC.
        rewrite Nat.add_0_r, Nat.sub_0_r, Bool.andb_true_r in LP. rewrite dropped_app in EC. change (dropped d (as_list (us_listener h)) [Serving c]) with 0%nat in EC.
        replace (closes d (as_queue l')) with (closes d (as_queue (us_listener h)) + dropped d (as_list (us_listener h)) pre)%nat by lia.
        apply conn_ok_addq, LP.
    + exact LE.
    + exact MLI.
    + exact MLO.
    + exact MTO.
    + intro d. rewrite MPO, (proj1 (proj2 (K d))), (proj2 (PM d)). reflexivity.
    + exists q. split; [exact EQ|]. rewrite S2. exact O4.
    + rewrite SE. cbn. exact O2.
    + right. exists c, pre. split; [reflexivity|]. split; [reflexivity|]. split; [exact NS|]. split; [exact NC|].
      split; [exact MTI|]. split; [rewrite SE; cbn; rewrite CH, O1; reflexivity|].
      split; [rewrite CE, Nat.eqb_refl; discriminate|]. split.
      * rewrite MPI, (proj1 (PM c)), (proj2 (proj2 (K c))). change (us_conns h0 c) with (us_conns h c). rewrite NC, Nat.eqb_refl. eexists. reflexivity.
      * intros d NE. rewrite MPI, (proj1 (PM d)), (proj2 (proj2 (K d))), CE, (proj1 (K d)). change (us_conns h0 d) with (us_conns h d).
        destruct (Nat.eqb_spec d c); [congruence|]. rewrite app_nil_r. destruct (us_conns h d); [eexists; split; reflexivity|exists 0%nat; split; reflexivity].
Qed.

(** ** The channel's turns *)
Definition told_acceptor (os : list output) : list aevent :=
  flat_map (fun o => match o with OListen => [AStart] | OStopListening => [AShutdown] | _ => [] end) os.
Definition told_conn (c : nat) (os : list output) : list vevent :=
  flat_map (fun o => match o with OSend d f => if Nat.eqb (N.to_nat d) c then [VSend (response_data f)] else [] | _ => [] end) os.

Definition is_write (o : voutput) : Prop := match o with VWrite _ => True | _ => False end.

Lemma send_step v d v' o : vconn_step v (VSend d) = Ret (v', o) ->
  vn_shutdown v' = vn_shutdown v /\ vn_queue v' = vn_queue v /\ vn_open v' = vn_open v /\ Forall is_write o.
Proof.
  intros E. apply vstep_trans in E. inversion E; subst; cbn; repeat split; try apply Forall_nil.
  apply Forall_map, Forall_forall. intros; exact Logic.I.
Qed.

Lemma send_total v d : exists v' o, vconn_step v (VSend d) = Ret (v', o).
Proof. cbn [vconn_step]. destruct (v_send v d) as [v' o]. eauto. Qed.

Record chan_turn h (os : list output) h' m : Prop := {
  ct_listen : tracks_listen h m h';
  ct_peer : forall d, tracks_peer d h m h';
  ct_grows : forall d, grows (us_conns h d) (us_conns h' d) (peer_ins d m);
  ct_linked : linked h';
  ct_numbered : numbered (us_listener h');
  ct_channel : us_channel h' = us_channel h;
  ct_user : us_user h' = us_user h;
  ct_task_ins : task_ins m = [];
  ct_task_outs : task_outs m = os;
  ct_listen_ins : listen_ins m = told_acceptor os;
  ct_listen_outs : Forall (fun o => o = Listening) (listen_outs m);
  ct_peer_ins : forall d, peer_ins d m = match us_conns h d with Some _ => told_conn d os | None => [] end;
  ct_peer_outs : forall d, Forall is_write (peer_outs d m);
  ct_order : exists q, as_queue (us_listener h') = as_queue (us_listener h) ++ q /\ us_order h' = us_order h ++ repeat ListenTurn (List.length q)
}.

Lemma grows_none o o' : grows o o' [] -> (o' = None <-> o = None).
Proof.
  destruct o, o'; cbn; intros G; try tauto.
  - split; intro; discriminate.
  - destruct G as (k & rest & G & _). destruct k; discriminate.
Qed.

Lemma grows_some o o' l : ~ In VStart l -> grows o o' l -> (o' = None <-> o = None).
Proof.
  destruct o, o'; cbn; intros N G; try tauto.
  - split; intro; discriminate.
  - destruct G as (k & rest & -> & _). exfalso. apply N, in_app_iff. right. left. reflexivity.
Qed.

(** One output of the channel. *)
Lemma channel_output h o : linked h -> numbered (us_listener h) ->
  exists h' m, match o with
               | OListen => listener_turn h AStart []
               | OStopListening => listener_turn h AShutdown []
               | OSend c f => peer_step h (N.to_nat c) (VSend (response_data f))
               | _ => Ret (h, [])
               end = Ret (h', m) /\ chan_turn h [o] h' (TaskOut o :: m).
Proof.
  intros L NU.
  assert (LT : forall e, (e = AStart /\ o = OListen) \/ (e = AShutdown /\ o = OStopListening) -> exists h' m, listener_turn h e [] = Ret (h', m) /\ chan_turn h [o] h' (TaskOut o :: m)).
  { intros e HE. assert (NE : match e with ARun | AFail _ => False | _ => True end) by (destruct HE as [[-> _]|[-> _]]; exact Logic.I).
    assert (ST : exists l' os, aserver_step (us_listener h) e = Ret (l', os) /\ Forall (fun x => x = Listening) os).
    { destruct HE as [[-> _]|[-> _]]; cbn [aserver_step]; do 2 eexists; (split; [reflexivity|]); [destruct (as_shutdown _); repeat constructor|constructor]. }
    destruct ST as (l' & os & ST & LO).
    destruct (listener_turn_spec h e [] l' os NU (linked_linked_pre h e NE L) ST) as (h' & m & E & K). exists h', m. split; [exact E|].
    destruct K as [[T1 T2 T3 T4] K2 K3 K4 K5 K6 K7 (q & K8 & K8') K9 K10].
    destruct K10 as [(_ & K11 & K12 & K13 & K14)|(c & pre & X & _)]; [|destruct HE as [[-> _]|[-> _]]; discriminate].
    assert (DZ : forall d, dropped d (as_list (us_listener h)) os = 0%nat).
    { intro d. unfold dropped, removals, all_dropped. clear - LO. induction LO as [|x os -> _ IH]; [reflexivity|]. cbn [filter]. exact IH. }
    assert (PI : forall d, peer_ins d m = []) by (intro d; rewrite K14, DZ; destruct (us_conns h d); reflexivity).
    split; auto.
    - rewrite K3. eapply numbered_step; eauto.
    - change (task_outs (TaskOut o :: m)) with (o :: task_outs m). rewrite K6. reflexivity.
    - change (listen_ins (TaskOut o :: m)) with (listen_ins m). rewrite K4. destruct HE as [[-> ->]|[-> ->]]; reflexivity.
    - change (listen_outs (TaskOut o :: m)) with (listen_outs m). rewrite K5. exact LO.
    - intro d. change (peer_ins d (TaskOut o :: m)) with (peer_ins d m). rewrite PI. destruct (us_conns h d); [|reflexivity]. destruct HE as [[-> ->]|[-> ->]]; reflexivity.
    - intro d. change (peer_outs d (TaskOut o :: m)) with (peer_outs d m). rewrite K7. constructor.
    - exists q. rewrite K3, K8, K8'. destruct HE as [[-> ->]|[-> ->]]; split; reflexivity. }
  assert (NO : told_acceptor [o] = [] -> (forall d, told_conn d [o] = []) -> chan_turn h [o] h [TaskOut o]).
  { intros A B. split; try reflexivity; auto; try (intro d; apply grows_same; tauto); try constructor.
    - intro d. rewrite B. destruct (us_conns h d); reflexivity.
    - exists []. split; [rewrite app_nil_r; reflexivity|]. cbn. rewrite app_nil_r. reflexivity. }
  destruct o as [| |x r|x|c f].
  - apply LT. auto.
  - apply LT. auto.
  - exists h, []. split; [reflexivity|]. apply NO; reflexivity.
  - exists h, []. split; [reflexivity|]. apply NO; reflexivity.
  - unfold ServerTcp.peer_step. set (c' := N.to_nat c). destruct (us_conns h c') as [v|] eqn:C.
    + destruct (send_total v (response_data f)) as (v' & ov & E). rewrite E. cbn [obind]. do 2 eexists. split; [reflexivity|].
      assert (PS : peer_step h c' (VSend (response_data f)) = Ret (with_conn h c' v', PeerIn c' (VSend (response_data f)) :: map (PeerOut c') ov)).
      { unfold ServerTcp.peer_step. rewrite C, E. reflexivity. }
      pose proof (peer_step_spec _ _ _ _ _ PS) as (_ & PM & _ & _).
      pose proof (send_step _ _ _ _ E) as (S1 & S2 & S3 & S4).
      set (m := PeerIn c' (VSend (response_data f)) :: map (PeerOut c') ov) in *.
      assert (PI : forall d, peer_ins d m = if Nat.eqb c' d then [VSend (response_data f)] else []).
      { intro d. destruct (Nat.eqb_spec c' d) as [EQ|NE]; [subst d|exact (proj1 (other_peer_ins _ _ _ NE PM))].
        unfold m. cbn [peer_ins flat_map]. rewrite Nat.eqb_refl. cbn [app]. f_equal. apply peer_ins_map. }
      destruct (no_listen_ins m (only_peer_no_listen _ (peer_mark_only _ _ PM))) as [NL1 NL2].
      destruct (no_task_ins m (only_peer_no_task _ (peer_mark_only _ _ PM))) as [NT1 NT2].
      split; try reflexivity; auto.
      * apply tl_same; [reflexivity|]. constructor; [exact Logic.I|apply (only_peer_no_listen _ (peer_mark_only _ _ PM))].
      * intro d. exact (peer_step_track _ _ _ _ _ d PS).
      * intro d. change (peer_ins d (TaskOut (OSend c f) :: m)) with (peer_ins d m). rewrite PI, conns_set, (Nat.eqb_sym d c').
        destruct (Nat.eqb_spec c' d) as [<-|NE]; [rewrite C; cbn; repeat constructor; discriminate|apply grows_same; tauto].
      * intro d. rewrite conns_set. specialize (L d). change (us_listener (with_conn h c' v')) with (us_listener h).
        destruct (Nat.eqb_spec d c') as [->|NE]; [|exact L]. rewrite C in L. cbn in *. rewrite S1, S2, S3. exact L.
      * change (task_outs (TaskOut (OSend c f) :: m)) with (OSend c f :: task_outs m). rewrite NT2. reflexivity.
      * change (listen_outs (TaskOut (OSend c f) :: m)) with (listen_outs m). rewrite NL2. constructor.
      * intro d. change (peer_ins d (TaskOut (OSend c f) :: m)) with (peer_ins d m). rewrite PI. unfold told_conn. cbn [flat_map]. fold c'.
        destruct (Nat.eqb_spec c' d) as [<-|NE]; [rewrite C; reflexivity|destruct (us_conns h d); reflexivity].
      * intro d. change (peer_outs d (TaskOut (OSend c f) :: m)) with (peer_outs d m). destruct (Nat.eq_dec c' d) as [<-|NE].
        -- unfold m. change (peer_outs c' (PeerIn c' (VSend (response_data f)) :: ?l)) with (peer_outs c' l). rewrite peer_outs_map. exact S4.
        -- rewrite (proj2 (other_peer_ins _ _ _ NE PM)). constructor.
      * exists []. split; [rewrite app_nil_r; reflexivity|]. cbn. rewrite app_nil_r. reflexivity.
    + exists h, []. split; [reflexivity|].
      split; try reflexivity; auto; try (intro d; apply grows_same; tauto); try constructor.
      * intro d. unfold told_conn. cbn [flat_map]. fold c'. destruct (Nat.eqb_spec c' d) as [<-|]; [rewrite C; reflexivity|destruct (us_conns h d); reflexivity].
      * exists []. split; [rewrite app_nil_r; reflexivity|]. cbn. rewrite app_nil_r. reflexivity.
Qed.

Lemma told_conn_plain c os : ~ In VStart (told_conn c os).
Proof. intros I. apply in_flat_map in I as (o & _ & I). destruct o; try destruct I. destruct (Nat.eqb _ _); [destruct I as [X|[]]; discriminate|destruct I]. Qed.

Lemma channel_outputs_spec : forall os h, linked h -> numbered (us_listener h) ->
  exists h' m, channel_outputs h os = Ret (h', m) /\ chan_turn h os h' m.
Proof.
  induction os as [|o os IH]; intros h L NU; cbn [ServerTcp.channel_outputs].
  - exists h, []. split; [reflexivity|]. split; try reflexivity; auto; try (intro d; apply grows_same; tauto); try constructor.
    + intro d. destruct (us_conns h d); reflexivity.
    + exists []. split; [rewrite app_nil_r; reflexivity|]. cbn. rewrite app_nil_r. reflexivity.
  - destruct (channel_output h o L NU) as (h1 & m1 & -> & A). cbn [obind].
    destruct A as [A1 A2 A3 A4 A5 A6 A7 A8 A9 A10 A11 A12 A13 (q1 & A14 & A15)].
    destruct (IH h1 A4 A5) as (h2 & m2 & -> & [B1 B2 B3 B4 B5 B6 B7 B8 B9 B10 B11 B12 B13 (q2 & B14 & B15)]). cbn [obind].
    do 2 eexists. split; [reflexivity|]. change (TaskOut o :: m1 ++ m2) with ((TaskOut o :: m1) ++ m2).
    split.
    + eapply tl_app; eauto.
    + intro d. eapply tp_app; eauto.
    + intro d. rewrite peer_ins_app. eapply grows_app; eauto.
    + exact B4.
    + exact B5.
    + congruence.
    + congruence.
    + rewrite task_ins_app, A8, B8. reflexivity.
    + rewrite task_outs_app, A9, B9. reflexivity.
    + rewrite listen_ins_app, A10, B10. unfold told_acceptor. rewrite <- flat_map_app. reflexivity.
    + rewrite listen_outs_app. apply Forall_app. auto.
    + intro d. rewrite peer_ins_app, A12, B12. specialize (A3 d). rewrite A12 in A3.
      assert (N : us_conns h1 d = None <-> us_conns h d = None).
      { destruct (us_conns h d) as [v|] eqn:C.
        - cbn in A3. destruct (us_conns h1 d); [split; discriminate|destruct A3].
        - apply grows_none in A3. exact A3. }
      destruct (us_conns h d) as [v|], (us_conns h1 d) as [v1|]; try (destruct N as [N1 N2]; discriminate (N1 eq_refl) || discriminate (N2 eq_refl)); [|reflexivity].
      unfold told_conn. rewrite <- flat_map_app. reflexivity.
    + intro d. rewrite peer_outs_app. apply Forall_app. auto.
    + exists (q1 ++ q2). split; [rewrite B14, A14, app_assoc; reflexivity|]. rewrite B15, A15, app_length, repeat_app, app_assoc. reflexivity.
Qed.

(** *** The channel's step *)
Definition frame_output (c : N) (o : output) : Prop := match o with OConsult _ _ => True | OSend d _ => d = c | _ => False end.
Definition task_output (o : output) : Prop := match o with OListen | OStopListening | OSessionShutdown _ => True | _ => False end.

Lemma on_messages_outputs c ms : forall s w s' w' os, on_messages on_request s w c ms = Ret (s', w', os) -> Forall (frame_output c) os.
Proof.
  induction ms as [|x ms IH]; intros s w s' w' os E; cbn [on_messages] in E; [injection E as <- <- <-; constructor|].
  ob E. ob E. injection E as <- <- <-. apply Forall_app. split; [|eapply IH; eauto].
  unfold on_mbap in F. destruct (sv_shutdown s); [injection F as <- <- <-; constructor|].
  destruct (find_session _ _) as [y|]; [|injection F as <- <- <-; constructor].
  destruct (size (mb_data x) <? 1); [injection F as <- <- <-; constructor|].
  unfold rd8 in F. destruct (read_u8 (mb_data x)) as [[fc v]|]; [|discriminate].
  destruct (request_parser fc) as [p|]; [|injection F as <- <- <-; repeat constructor].
  unfold process_message in F. destruct (p (mb_data x)) as [[r|e]|]; [| |discriminate]; cbn [obind] in F.
  - destruct (on_request y w r) as [[w2 a] calls]. destruct a as [resp|[]]; injection F as <- <- <-; repeat constructor.
  - destruct e; injection F as <- <- <-; repeat constructor.
Qed.

Definition unrun (e : event) (s : server) : list task := match e with ERun => tl (sv_queue s) | _ => sv_queue s end.

Record chan_effect (s : server) (e : event) (s' : server) (os : list output) : Prop := {
  ce_queue : exists q, sv_queue s' = unrun e s ++ q;
  ce_outputs : match e with ERun => Forall task_output os | EReceive c _ => Forall (frame_output c) os | _ => os = [] end;
  ce_conns : forall c, sv_conns s' c = None <-> sv_conns s c = None /\ accepts c e = false
}.

Lemma sstep_effect s w e s' w' os : sstep s w e = Ret (s', w', os) -> chan_effect s e s' os.
Proof.
  intros E. destruct e as [a| |c buf|c d|c]; cbn [server_step] in E.
  - injection E as <- <- <-. destruct (api_call_sbq s a) as (_ & _ & _ & Q & q & Q'). split; [exists q; exact Q'|reflexivity|]. intro c. rewrite Q. cbn. tauto.
  - destruct (sv_queue s) as [|t q] eqn:Q.
    { injection E as <- <- <-. split; [exists []; unfold unrun; rewrite Q; reflexivity|constructor|]. intro c. cbn. tauto. }
    assert (R : run_task on_shutdown (set_queue s q) w t = (s', w', os)) by congruence. clear E.
    pose proof (run_task_conns on_shutdown (set_queue s q) w t) as C. rewrite R in C.
    split; [| |intro c; rewrite C; cbn; tauto].
    + unfold unrun. rewrite Q. cbn [tl]. destruct t; cbn [run_task set_queue sv_shutdown sv_started sv_sessions sv_queue sv_conns] in R.
      * destruct (sv_shutdown s); injection R as <- <- <-; exists []; cbn; rewrite app_nil_r; reflexivity.
      * match type of R with context[shutdown_sessions on_shutdown ?a ?b ?l] =>
          destruct (shutdown_sessions_spec on_shutdown l a b) as (s1 & w1 & E1 & _ & _ & _ & _ & q1 & E2) end.
        rewrite E1 in R. injection R as <- <- <-. exists q1. exact E2.
      * destruct (sv_shutdown s); injection R as <- <- <-; exists []; cbn; rewrite app_nil_r; reflexivity.
    + destruct t; cbn [run_task set_queue sv_shutdown sv_started sv_sessions sv_queue sv_conns] in R.
      * destruct (sv_shutdown s); injection R as <- <- <-; repeat constructor.
      * match type of R with context[shutdown_sessions on_shutdown ?a ?b ?l] =>
          destruct (shutdown_sessions_spec on_shutdown l a b) as (s1 & w1 & E1 & _) end.
        rewrite E1 in R. injection R as <- <- <-. apply Forall_app. split; [destruct (sv_started s); repeat constructor|].
        apply Forall_map, Forall_forall. intros; exact Logic.I.
      * destruct (sv_shutdown s); injection R as <- <- <-; repeat constructor.
  - injection E as <- <- <-. split; [exists []; cbn; rewrite app_nil_r; reflexivity|reflexivity|].
    intro d. cbn. rewrite (N.eqb_sym c d). destruct (d =? c); [split; [discriminate|intros [_ X]; discriminate]|tauto].
  - destruct (sv_conns s c) as [p|] eqn:C.
    2:{ injection E as <- <- <-. split; [exists []; cbn; rewrite app_nil_r; reflexivity|constructor|]. intro x. cbn. tauto. }
    ob E. pose proof (on_messages_outputs _ _ _ _ _ _ _ E) as O.
    destruct (on_messages_sbq _ _ _ _ _ _ _ _ E) as ((_ & _ & _ & Q & q & Q') & _ & _).
    split; [exists q; exact Q'|exact O|]. intro x. rewrite Q. cbn. destruct (N.eqb_spec x c) as [->|]; [rewrite C; split; [discriminate|intros [X _]; discriminate]|tauto].
  - destruct (sv_conns s c) as [p|] eqn:C; injection E as <- <- <-;
      (split; [exists []; cbn; rewrite app_nil_r; reflexivity|reflexivity|]); intro x; cbn; [|tauto].
    destruct (N.eqb_spec x c) as [->|]; [rewrite C; split; [discriminate|intros [X _]; discriminate]|tauto].
Qed.

Record task_done h (e : event) (ch : server) (w : W) (os : list output) h' m : Prop := {
  td_turn : turn h m h';
  td_linked : linked h';
  td_numbered : numbered (us_listener h');
  td_channel : us_channel h' = ch;
  td_user : us_user h' = w;
  td_task_ins : task_ins m = [e];
  td_task_outs : task_outs m = os;
  td_listen_ins : listen_ins m = told_acceptor os;
  td_listen_outs : Forall (fun o => o = Listening) (listen_outs m);
  td_peer_ins : forall d, peer_ins d m = match us_conns h d with Some _ => told_conn d os | None => [] end;
  td_peer_outs : forall d, Forall is_write (peer_outs d m);
  td_conns : forall d, us_conns h' d = None <-> us_conns h d = None;
  td_order : exists q q', as_queue (us_listener h') = as_queue (us_listener h) ++ q /\ sv_queue ch = unrun e (us_channel h) ++ q' /\
    us_order h' = us_order h ++ repeat ListenTurn (List.length q) ++ repeat TaskTurn (List.length q')
}.

Lemma more_tasks s e s' q' : sv_queue s' = unrun e s ++ q' ->
  more TaskTurn (List.length (sv_queue s) - match e with ERun => 1 | _ => 0 end) (List.length (sv_queue s')) = repeat TaskTurn (List.length q').
Proof. intros ->. unfold more. f_equal. rewrite app_length. unfold unrun. destruct e; try lia. destruct (sv_queue s); cbn; lia. Qed.

Lemma task_turn_spec h e ch w os : linked h -> numbered (us_listener h) -> sstep (us_channel h) (us_user h) e = Ret (ch, w, os) ->
  exists h' m, task_turn h e = Ret (h', m) /\ task_done h e ch w os h' m.
Proof.
  intros L NU ST. pose proof (sstep_effect _ _ _ _ _ _ ST) as [[q' CQ] _ _].
  unfold ServerTcp.task_turn. rewrite ST. cbn [obind].
  destruct (channel_outputs_spec os (with_channel h ch w) L NU) as (h1 & m1 & -> & [A1 A2 A3 A4 A5 A6 A7 A8 A9 A10 A11 A12 A13 (q1 & A14 & A15)]). cbn [obind].
  do 2 eexists. split; [reflexivity|]. rewrite (more_tasks _ _ _ _ CQ).
  split; auto.
  - split; auto.
    unfold ServerTcpTrack.tracks_task. change (task_ins (TaskIn e :: m1)) with (e :: task_ins m1). change (task_outs (TaskIn e :: m1)) with (task_outs m1).
    rewrite A8, A9. cbn [with_order us_channel us_user]. rewrite A6, A7. apply srun_one, ST.
  - change (task_ins (TaskIn e :: m1)) with (e :: task_ins m1). rewrite A8. reflexivity.
  - intro d. assert (NS : ~ In VStart (peer_ins d m1)).
    { intro I. rewrite A12 in I. change (us_conns (with_channel h ch w) d) with (us_conns h d) in I. destruct (us_conns h d); [exact (told_conn_plain d os I)|exact I]. }
    exact (grows_some _ _ _ NS (A3 d)).
  - exists q1, q'. split; [exact A14|]. split; [exact CQ|]. cbn [with_order us_order]. rewrite A15, <- app_assoc. reflexivity.
Qed.

(** A turn without outputs. *)
Lemma silent_turn h e ch w : sstep (us_channel h) (us_user h) e = Ret (ch, w, []) ->
  exists q', sv_queue ch = unrun e (us_channel h) ++ q' /\
    task_turn h e = Ret (with_order (with_channel h ch w) (us_order h ++ repeat TaskTurn (List.length q')), [TaskIn e]).
Proof.
  intros ST. pose proof (sstep_effect _ _ _ _ _ _ ST) as [[q' CQ] _ _]. exists q'. split; [exact CQ|].
  unfold ServerTcp.task_turn. rewrite ST. cbn [obind ServerTcp.channel_outputs]. rewrite (more_tasks _ _ _ _ CQ). reflexivity.
Qed.
End Turns.
