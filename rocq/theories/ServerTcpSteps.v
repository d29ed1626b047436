(** ServerTcp.v: every step keeps the parts connected. *)
From Verif Require Import Prelude Ser4 Messages Mbap SpecPdu SpecMbap Server SpecServer Listener SpecListener AsyncWrite ServerConn SpecConn ServerTcp SpecServerTcp.
From Verif Require Import ServerFacts ServerLemmas ListenerFacts WriteFacts ConnFacts ServerConnFacts ServerConnMore ServerTcpTrack ServerTcpLink ServerTcpTurns.
From Coq Require Import Lia.

Lemma times_app {A} (p : A -> bool) a b : times p (a ++ b) = (times p a + times p b)%nat.
Proof. unfold times. rewrite filter_app, app_length. reflexivity. Qed.
Lemma times_none {A} (p : A -> bool) l : Forall (fun x => p x = false) l -> times p l = 0%nat.
Proof. unfold times. induction 1 as [|x l H _ IH]; [reflexivity|]. cbn. rewrite H. exact IH. Qed.

Lemma of_nat_eqb a b : (N.of_nat a =? N.of_nat b) = Nat.eqb a b.
Proof. destruct (Nat.eqb_spec a b) as [->|NE]; [apply N.eqb_refl|]. apply N.eqb_neq. lia. Qed.
Lemma to_nat_eqb a b : Nat.eqb (N.to_nat a) b = (a =? N.of_nat b).
Proof. destruct (Nat.eqb_spec (N.to_nat a) b) as [<-|NE]; symmetry; [apply N.eqb_eq; lia|apply N.eqb_neq; lia]. Qed.

(** ** Wiring *)
Lemma wired_nil : wired [].
Proof. split; [reflexivity|]. intro c. repeat split. Qed.

Lemma wired_app a b : wired a -> wired b -> wired (a ++ b).
Proof.
  intros [A1 A2] [B1 B2]. split.
  - rewrite listen_ins_app, task_outs_app, filter_app, A1, B1. unfold acceptor_calls. symmetry. apply flat_map_app.
  - intro c. destruct (A2 c) as (A3 & A4 & A5 & A6 & A7 & A8), (B2 c) as (B3 & B4 & B5 & B6 & B7 & B8).
    rewrite peer_ins_app, peer_outs_app, listen_ins_app, listen_outs_app, task_ins_app, task_outs_app, !times_app.
    repeat split; try lia.
    + unfold sent_to, sends_on in *. rewrite !flat_map_app, map_app, A3, B3. reflexivity.
    + unfold heard, ops_on in *. rewrite !flat_map_app, A4, B4. reflexivity.
Qed.

Lemma told_sent c os : told_conn c os = map VSend (map response_data (sends_on (N.of_nat c) os)).
Proof.
  induction os as [|o os IH]; [reflexivity|]. unfold told_conn, sends_on in *. cbn [flat_map]. rewrite !map_app, <- IH. f_equal.
  destruct o as [| | | |d f]; try reflexivity. rewrite to_nat_eqb. destruct (d =? N.of_nat c); reflexivity.
Qed.
Lemma sent_map l : sent_to (map VSend l) = l.
Proof. induction l as [|d l IH]; [reflexivity|]. cbn. f_equal. exact IH. Qed.
Lemma vsend_vstart l : times is_vstart (map VSend l) = 0%nat.
Proof. apply times_none, Forall_map, Forall_forall. reflexivity. Qed.
Lemma closes_vstart k : times is_vstart (repeat VClose k) = 0%nat.
Proof. apply times_none, Forall_forall. intros x I. apply repeat_spec in I as ->. reflexivity. Qed.
Lemma closes_sent k : sent_to (repeat VClose k) = [].
Proof. induction k; [reflexivity|]. exact IHk. Qed.
Lemma writes_heard os : Forall is_write os -> heard os = [] /\ times is_vfailed os = 0%nat /\ times is_vclosed os = 0%nat.
Proof. induction 1 as [|o os H _ (A & B & C)]; [repeat split|]. destruct o; try destruct H. cbn. auto. Qed.
Lemma serving_times c os : serving c os = false -> times (is_serving c) os = 0%nat.
Proof.
  intros H. apply times_none, Forall_forall. intros o I. unfold serving in H. destruct (is_serving c o) eqn:E; [|reflexivity].
  assert (X : existsb (fun o => match o with Serving d => Nat.eqb d c | _ => false end) os = true) by (apply existsb_exists; exists o; split; [exact I|exact E]). congruence.
Qed.
Lemma closed_times c os : closed c os = times (is_closed c) os.
Proof. reflexivity. Qed.

(** ** What a completion handler of a connection does *)
Definition quiet_output (o : voutput) : Prop := match o with VWrite _ | VWriteDone => True | _ => False end.
Definition completion (e : vevent) : Prop := match e with VRead _ _ | VTransfer _ _ | VWritten _ _ => True | _ => False end.

Lemma quiet_map o : Forall quiet_output (map VWrite o).
Proof. apply Forall_map, Forall_forall. intros; exact Logic.I. Qed.

Lemma completion_shape v e v' os : vconn_step v e = Ret (v', os) -> completion e -> vn_shutdown v = false ->
  vn_shutdown v' = false /\ vn_open v' = vn_open v /\
  (vn_queue v' = vn_queue v /\ Forall quiet_output os \/
   vn_queue v' = vn_queue v /\ (exists r d, e = VRead r (RData d) /\ os = [VReceived d]) \/
   vn_queue v' = vn_queue v ++ [VDoClose] /\ exists pre, Forall quiet_output pre /\ os = pre ++ [VFailed; VRemoved]).
Proof.
  intros E CE SH. apply vstep_trans in E. inversion E; subst; try destruct CE; cbn in SH; try discriminate SH; cbn.
  - split; [exact SH|]. split; [reflexivity|]. left. split; [reflexivity|constructor].
  - split; [reflexivity|]. split; [reflexivity|]. right. left. split; [reflexivity|]. eauto.
  - split; [reflexivity|]. split; [reflexivity|]. right. left. split; [reflexivity|]. eauto.
  - split; [reflexivity|]. split; [reflexivity|]. right. right. split; [reflexivity|]. exists []. split; [constructor|reflexivity].
  - split; [exact SH|]. split; [reflexivity|]. left. split; [reflexivity|apply quiet_map].
  - split; [reflexivity|]. split; [reflexivity|]. left. split; [reflexivity|repeat constructor].
  - split; [reflexivity|]. split; [reflexivity|]. right. right. split; [reflexivity|]. exists [VWrite (WFailed w)]. split; [repeat constructor|reflexivity].
Qed.

Lemma quiet_heard os : Forall quiet_output os -> heard os = [] /\ times is_vfailed os = 0%nat /\ times is_vclosed os = 0%nat.
Proof. induction 1 as [|o os H _ (A & B & C)]; [repeat split|]. destruct o; try destruct H; cbn; auto. Qed.

Lemma completion_plain e : completion e -> plain_event e /\ sent_to [e] = [] /\ times is_vstart [e] = 0%nat.
Proof. destruct e; cbn; intros H; try destruct H; repeat split; discriminate. Qed.

Definition is_listen_turn (t : sturn) : bool := match t with ListenTurn => true | TaskTurn => false end.
Definition is_task_turn (t : sturn) : bool := match t with ListenTurn => false | TaskTurn => true end.

Lemma turns_repeat (p : sturn -> bool) t k : times p (repeat t k) = if p t then k else 0%nat.
Proof.
  unfold times. induction k as [|k IH]; [destruct (p t); reflexivity|]. cbn [repeat filter]. destruct (p t) eqn:E; cbn [List.length]; [f_equal|]; exact IH.
Qed.

Section Steps.
Context {W : Type}.
Context (on_request : N -> W -> request -> W * expected response * list api).
Context (on_shutdown : N -> W -> W * list api).
Context (pol : copy_policy).
Implicit Types (h : tserver W) (m : list smark).

Notation peer_step := (@peer_step W).
Notation listener_turn := (listener_turn on_request on_shutdown pol).
Notation task_turn := (task_turn on_request on_shutdown pol).
Notation peer_outputs := (peer_outputs on_request on_shutdown pol).
Notation peer_turn := (peer_turn on_request on_shutdown pol).
Notation listener_run := (listener_run on_request on_shutdown pol).
Notation userver_step := (userver_step on_request on_shutdown pol).
Notation userver_run := (userver_run on_request on_shutdown pol).
Notation sstep := (server_step on_request on_shutdown pol).
Notation turn := (turn on_request on_shutdown pol).
Notation task_done := (task_done on_request on_shutdown pol).
Notation listen_turn := (listen_turn on_request on_shutdown pol).

Definition ordered h : Prop :=
  times is_listen_turn (us_order h) = List.length (as_queue (us_listener h)) /\ times is_task_turn (us_order h) = List.length (sv_queue (us_channel h)).

(** The channel has a parser for the connections that were accepted. *)
Definition registered h : Prop := forall c, sv_conns (us_channel h) (N.of_nat c) = None <-> us_conns h c = None.

Record uinv h : Prop := { ui_linked : linked h; ui_numbered : numbered (us_listener h); ui_ordered : ordered h; ui_registered : registered h }.

Lemma uinv_init max w : uinv (tserver_init max w).
Proof.
  split; [|apply numbered_init|split; reflexivity|].
  - intro c. split; reflexivity.
  - intro c. cbn. tauto.
Qed.

Lemma task_turn_inv h e h' m : linked h -> numbered (us_listener h) -> task_turn h e = Ret (h', m) ->
  exists ch w os, sstep (us_channel h) (us_user h) e = Ret (ch, w, os) /\ task_done h e ch w os h' m.
Proof.
  intros L NU E. destruct (sstep (us_channel h) (us_user h) e) as [[[ch w] os]|] eqn:ST.
  - destruct (task_turn_spec on_request on_shutdown pol h e ch w os L NU ST) as (h1 & m1 & E1 & D).
    assert (X : Ret (h', m) = Ret (h1, m1)) by congruence. injection X as -> ->. exists ch, w, os. auto.
  - exfalso. unfold ServerTcp.task_turn in E. rewrite ST in E. discriminate.
Qed.

Lemma listener_turn_inv h e buf h' m : linked_pre h e -> numbered (us_listener h) -> listener_turn h e buf = Ret (h', m) ->
  exists l' os, aserver_step (us_listener h) e = Ret (l', os) /\ listen_turn h e buf l' os h' m.
Proof.
  intros L NU E. destruct (aserver_step (us_listener h) e) as [[l' os]|] eqn:ST.
  - destruct (listener_turn_spec on_request on_shutdown pol h e buf l' os NU L ST) as (h1 & m1 & E1 & D).
    assert (X : Ret (h', m) = Ret (h1, m1)) by congruence. injection X as -> ->. exists l', os. auto.
  - exfalso. unfold ServerTcp.listener_turn in E. rewrite ST in E. discriminate.
Qed.

Lemma registered_task h e ch w os h' m : sstep (us_channel h) (us_user h) e = Ret (ch, w, os) -> task_done h e ch w os h' m ->
  (forall c, accepts c e = false) -> registered h -> registered h'.
Proof.
  intros ST D NA R c. pose proof (sstep_effect _ _ _ _ _ _ _ _ _ ST) as [_ _ CC]. rewrite (td_channel _ _ _ _ _ _ _ _ _ _ D), CC, (td_conns _ _ _ _ _ _ _ _ _ _ D), (R c).
  specialize (NA (N.of_nat c)). tauto.
Qed.

(** The closure that runs was taken from the order. *)
Definition ordered_pre h (e : event) : Prop :=
  times is_listen_turn (us_order h) = List.length (as_queue (us_listener h)) /\ times is_task_turn (us_order h) = List.length (unrun e (us_channel h)).

Lemma ordered_task h e ch w os h' m : task_done h e ch w os h' m -> ordered_pre h e -> ordered h'.
Proof.
  intros D [O1 O2]. destruct (td_order _ _ _ _ _ _ _ _ _ _ D) as (q & q' & A & B & C). unfold ordered. rewrite C, !times_app, !turns_repeat.
  rewrite (td_channel _ _ _ _ _ _ _ _ _ _ D), A, B, !app_length. cbn [is_listen_turn is_task_turn]. lia.
Qed.

Lemma told_acceptor_calls os : filter is_call (told_acceptor os) = acceptor_calls os.
Proof. induction os as [|o os IH]; [reflexivity|]. unfold told_acceptor, acceptor_calls in *. cbn [flat_map]. rewrite filter_app, IH. destruct o; reflexivity. Qed.

Lemma told_acceptor_afail c os : times (is_afail c) (told_acceptor os) = 0%nat.
Proof. apply times_none, Forall_forall. intros x I. apply in_flat_map in I as (o & _ & I). destruct o; try destruct I as [<-|[]]; try destruct I; reflexivity. Qed.

(** The wiring of a channel's turn; what it hears is in [pre]. *)
Lemma wired_task h e ch w os h' m pre : task_done h e ch w os h' m ->
  (forall c, us_conns h c = None -> sends_on (N.of_nat c) os = []) -> (forall c, accepts c e = false) ->
  task_ins pre = [] -> task_outs pre = [] -> listen_ins pre = [] -> listen_outs pre = [] ->
  (forall c, sent_to (peer_ins c pre) = [] /\ times is_vstart (peer_ins c pre) = 0%nat /\ heard (peer_outs c pre) = ops_on (N.of_nat c) [e] /\
     times is_vfailed (peer_outs c pre) = 0%nat /\ times is_vclosed (peer_outs c pre) = 0%nat) -> wired (pre ++ m).
Proof.
  intros D NS NA P1 P2 P3 P4 PP. destruct D as [_ _ _ _ _ D1 D2 D3 D4 D5 D6 _ _]. unfold wired.
  rewrite listen_ins_app, listen_outs_app, task_outs_app, task_ins_app, P1, P2, P3, P4, D1, D2, D3. cbn [app]. split; [apply told_acceptor_calls|].
  intro c. destruct (PP c) as (Q1 & Q2 & Q3 & Q4 & Q5). rewrite peer_ins_app, peer_outs_app, !times_app.
  destruct (writes_heard _ (D6 c)) as (R1 & R2 & R3).
  assert (L0 : forall p, p Listening = false -> times p (listen_outs m) = 0%nat).
  { intros p HP. apply times_none. eapply Forall_impl; [|exact D4]. cbn. intros o ->. exact HP. }
  rewrite !L0 by reflexivity. rewrite R2, R3, Q4, Q5, told_acceptor_afail, Q2.
  assert (AC : times (accepts (N.of_nat c)) [e] = 0%nat) by (apply times_none; constructor; [apply NA|constructor]).
  rewrite AC. unfold sent_to, heard in *. rewrite !flat_map_app, Q1, Q3, R1, app_nil_r. cbn [app].
  assert (PI : peer_ins c m = told_conn c os).
  { rewrite D5. destruct (us_conns h c) eqn:C; [reflexivity|]. rewrite told_sent, (NS c C). reflexivity. }
  rewrite PI, told_sent. fold (sent_to (map VSend (map response_data (sends_on (N.of_nat c) os)))). rewrite sent_map, vsend_vstart. repeat split.
Qed.

(** ** Turns of the acceptor *)
Lemma registered_listen h e buf l' os h' m : listen_turn h e buf l' os h' m -> registered h -> registered h'.
Proof.
  intros D R c. destruct (lt_kind _ _ _ _ _ _ _ _ _ _ D) as [(_ & _ & A & B & _)|(d & pre & -> & _ & _ & NC & _ & A & B & _ & C)].
  - rewrite A, B, (R c). destruct (us_conns h c); cbn; [split; discriminate|tauto].
  - rewrite A. cbn [set_conn sv_conns]. rewrite of_nat_eqb. destruct (Nat.eqb_spec c d) as [->|NE]; [split; [discriminate|contradiction]|].
    destruct (C c NE) as (k & _ & ->). rewrite (R c). destruct (us_conns h c); cbn; [split; discriminate|tauto].
Qed.

Definition ordered_lpre h (e : aevent) : Prop :=
  times is_listen_turn (us_order h) = List.length (waiting e (us_listener h)) /\ times is_task_turn (us_order h) = List.length (sv_queue (us_channel h)).

Lemma ordered_listen h e buf l' os h' m : listen_turn h e buf l' os h' m -> ordered_lpre h e -> ordered h'.
Proof.
  intros D [O1 O2]. destruct (lt_order _ _ _ _ _ _ _ _ _ _ D) as (q & A & B). unfold ordered. rewrite B, !times_app, !turns_repeat, (lt_state _ _ _ _ _ _ _ _ _ _ D), A, app_length.
  cbn [is_listen_turn is_task_turn]. split; [lia|].
  assert (Q : sv_queue (us_channel h') = sv_queue (us_channel h)).
  { destruct (lt_kind _ _ _ _ _ _ _ _ _ _ D) as [(_ & _ & -> & _)|(d & pre & _ & _ & _ & _ & _ & -> & _)]; reflexivity. }
  rewrite Q. lia.
Qed.

(** [pre] is what the connection does first. *)
Lemma wired_listen h e buf l' os h' m pre : listen_turn h e buf l' os h' m -> is_call e = false ->
  task_outs pre = [] -> listen_ins pre = [] -> listen_outs pre = [] -> (forall c, times (accepts (N.of_nat c)) (task_ins pre) = 0%nat) ->
  (forall c, sent_to (peer_ins c pre) = [] /\ times is_vstart (peer_ins c pre) = 0%nat /\ heard (peer_outs c pre) = ops_on (N.of_nat c) (task_ins pre) /\
     times is_vfailed (peer_outs c pre) = times (is_afail c) [e] /\ times is_vclosed (peer_outs c pre) = times (is_closed c) os) -> wired (pre ++ m).
Proof.
  intros D NE P2 P3 P4 P5 PP. destruct D as [_ _ _ D1 D2 D3 D4 _ _ D5]. unfold wired.
  rewrite listen_ins_app, listen_outs_app, task_outs_app, task_ins_app, P2, P3, P4, D1, D2, D3. cbn [app filter]. rewrite NE. split; [reflexivity|].
  intro c. destruct (PP c) as (Q1 & Q2 & Q3 & Q4 & Q5). rewrite peer_ins_app, peer_outs_app, !times_app, D4, Q2, Q4, Q5, P5.
  unfold sent_to, heard, ops_on, sends_on in *. rewrite !flat_map_app, Q1, Q3. cbn [app map flat_map times filter List.length]. rewrite app_nil_r.
  fold (sent_to (peer_ins c m)).
  assert (K : sent_to (peer_ins c m) = [] /\ flat_map (fun e => match e with EReceive c' d => if c' =? N.of_nat c then [Chunk d] else [] | EConnError c' => if c' =? N.of_nat c then [Reset] else [] | _ => [] end) (task_ins m) = [] /\
    times (is_serving c) os = times (accepts (N.of_nat c)) (task_ins m) /\ times (is_serving c) os = times is_vstart (peer_ins c m)).
  { destruct D5 as [(NS & A & _ & _ & B)|(d & pr & -> & -> & NS & NC & A & _ & _ & [k B] & C)].
    - rewrite A, B, (serving_times _ _ (NS c)). destruct (us_conns h c); [rewrite closes_vstart, closes_sent|]; repeat split.
    - rewrite A, times_app, (serving_times _ _ (NS c)). cbn [flat_map app]. unfold times at 1 2 3. cbn [filter is_serving accepts]. rewrite of_nat_eqb.
      destruct (Nat.eqb_spec d c) as [->|ND].
      + rewrite B, times_app, closes_vstart. unfold sent_to. rewrite flat_map_app. fold (sent_to (repeat VClose k)). rewrite closes_sent. repeat split.
      + destruct (C c (not_eq_sym ND)) as (k' & -> & _). rewrite closes_sent, closes_vstart. repeat split. }
  destruct K as (K1 & K2 & K3 & K4). rewrite K1, K2, <- K3, <- K4. cbn [List.length]. rewrite app_nil_r. repeat split; lia.
Qed.

(** ** The steps *)
Record step_done h m h' : Prop := { sd_inv : uinv h'; sd_turn : turn h m h'; sd_wired : wired m }.

Lemma turn_order h q m h' : turn (with_order h q) m h' -> turn h m h'.
Proof. intros [A B C D]. split; assumption. Qed.

Lemma no_frames e : match e with EApi _ | ERun | EAccept _ _ | EConnError _ => True | EReceive _ _ => False end ->
  forall s w s' w' os, sstep s w e = Ret (s', w', os) -> forall c, sends_on c os = [].
Proof.
  intros NE s w s' w' os ST c. pose proof (sstep_effect _ _ _ _ _ _ _ _ _ ST) as [_ O _].
  assert (F : Forall task_output os) by (destruct e; try destruct NE; try (subst os; constructor); exact O).
  clear - F. induction F as [|o os H _ IH]; [reflexivity|]. destruct o; try destruct H; exact IH.
Qed.

Lemma api_step h a h' m : uinv h -> task_turn h (EApi a) = Ret (h', m) -> step_done h m h'.
Proof.
  intros [L NU O R] E. destruct (task_turn_inv _ _ _ _ L NU E) as (ch & w & os & ST & D).
  split; [split|exact (td_turn _ _ _ _ _ _ _ _ _ _ D)|].
  - exact (td_linked _ _ _ _ _ _ _ _ _ _ D).
  - exact (td_numbered _ _ _ _ _ _ _ _ _ _ D).
  - eapply ordered_task; [exact D|]. exact O.
  - eapply registered_task; eauto.
  - apply (wired_task _ _ _ _ _ _ _ [] D); try reflexivity; [|repeat split].
    intros c _. exact (no_frames (EApi a) Logic.I _ _ _ _ _ ST (N.of_nat c)).
Qed.

Lemma task_step h q h' m : uinv h -> us_order h = TaskTurn :: q -> task_turn (with_order h q) ERun = Ret (h', m) -> step_done h m h'.
Proof.
  intros [L NU [O1 O2] R] OR E. destruct (task_turn_inv (with_order h q) _ _ _ L NU E) as (ch & w & os & ST & D).
  split; [split|exact (turn_order _ _ _ _ (td_turn _ _ _ _ _ _ _ _ _ _ D))|].
  - exact (td_linked _ _ _ _ _ _ _ _ _ _ D).
  - exact (td_numbered _ _ _ _ _ _ _ _ _ _ D).
  - eapply ordered_task; [exact D|]. rewrite OR in O1, O2. cbn in O1, O2. split; cbn; [exact O1|]. destruct (sv_queue (us_channel h)); [discriminate|]. cbn in *. unfold times. lia.
  - eapply (registered_task (with_order h q)); eauto.
  - apply (wired_task _ _ _ _ _ _ _ [] D); try reflexivity; [|repeat split].
    intros c _. exact (no_frames ERun Logic.I _ _ _ _ _ ST (N.of_nat c)).
Qed.

Lemma accept_step h c ok buf h' m : uinv h -> listener_turn h (AAccept c ok) buf = Ret (h', m) -> step_done h m h'.
Proof.
  intros [L NU O R] E. destruct (listener_turn_inv h (AAccept c ok) _ _ _ (linked_linked_pre h (AAccept c ok) Logic.I L) NU E) as (l' & os & ST & D).
  split; [split|exact (lt_turn _ _ _ _ _ _ _ _ _ _ D)|].
  - exact (lt_linked _ _ _ _ _ _ _ _ _ _ D).
  - rewrite (lt_state _ _ _ _ _ _ _ _ _ _ D). eapply numbered_step; eauto.
  - eapply ordered_listen; [exact D|]. exact O.
  - eapply registered_listen; eauto.
  - apply (wired_listen _ _ _ _ _ _ _ [] D); try reflexivity.
    intro d. repeat split. pose proof (step_effect _ _ _ _ ST) as [_ _ _ _ EC _]. specialize (EC d). cbn [closing andb b2n] in EC. rewrite <- closed_times, EC. reflexivity.
Qed.

Lemma peer_piece h c v e v' os : us_conns h c = Some v -> vconn_step v e = Ret (v', os) -> plain_event e ->
  turn h (PeerIn c e :: map (PeerOut c) os) (with_conn h c v').
Proof.
  intros C E P. assert (PS : peer_step h c e = Ret (with_conn h c v', PeerIn c e :: map (PeerOut c) os)) by (unfold ServerTcp.peer_step; rewrite C, E; reflexivity).
  pose proof (peer_step_spec _ _ _ _ _ PS) as (_ & PM & _ & _). split.
  - apply tt_same; [reflexivity|reflexivity|]. apply only_peer_no_task, (peer_mark_only c), PM.
  - apply tl_same; [reflexivity|]. apply only_peer_no_listen, (peer_mark_only c), PM.
  - intro d. exact (peer_step_track _ _ _ _ _ d PS).
  - intro d. rewrite conns_set. destruct (Nat.eqb_spec d c) as [->|NE].
    + rewrite C. cbn [grows peer_ins flat_map]. rewrite Nat.eqb_refl. cbn [app]. constructor; [exact P|].
      change (flat_map _ (map (PeerOut c) os)) with (peer_ins c (map (PeerOut c) os)). rewrite peer_ins_map. constructor.
    + rewrite (proj1 (other_peer_ins c d _ (not_eq_sym NE) PM)). apply grows_same. tauto.
Qed.

Lemma peer_views c d e os : peer_ins d (PeerIn c e :: map (PeerOut c) os) = (if Nat.eqb c d then [e] else []) /\
  peer_outs d (PeerIn c e :: map (PeerOut c) os) = (if Nat.eqb c d then os else []).
Proof.
  destruct (Nat.eqb_spec c d) as [<-|NE].
  - cbn [peer_ins peer_outs flat_map]. rewrite Nat.eqb_refl. split.
    + change (flat_map _ (map (PeerOut c) os)) with (peer_ins c (map (PeerOut c) os)). rewrite peer_ins_map. reflexivity.
    + change (flat_map _ (map (PeerOut c) os)) with (peer_outs c (map (PeerOut c) os)). apply peer_outs_map.
  - apply (other_peer_ins c); [exact NE|]. constructor; [reflexivity|apply peer_mark_map].
Qed.

Lemma linked_some h c v : linked h -> us_conns h c = Some v ->
  vn_shutdown v = false /\ vn_queue v = repeat VDoClose (closes c (as_queue (us_listener h))) /\ vn_open v = member c (as_open (us_listener h)) /\ member c (as_active (us_listener h)) = true.
Proof. intros L C. specialize (L c). rewrite C in L. exact L. Qed.

Lemma quiet_outputs c os h : Forall quiet_output os -> peer_outputs h c os = Ret (h, map (PeerOut c) os).
Proof. induction 1 as [|o os H _ IH]; [reflexivity|]. cbn [ServerTcp.peer_outputs]. destruct o; try destruct H; cbn [obind]; rewrite IH; reflexivity. Qed.

Lemma peer_outputs_app c b : forall a h, Forall quiet_output a ->
  peer_outputs h c (a ++ b) = obind (peer_outputs h c b) (fun x => let '(h', m) := x in Ret (h', map (PeerOut c) a ++ m)).
Proof.
  induction a as [|o a IH]; intros h F; cbn [ServerTcp.peer_outputs app map].
  - destruct (peer_outputs h c b) as [[? ?]|]; reflexivity.
  - apply Forall_cons_iff in F as [H F]. destruct o; try destruct H; cbn [obind]; rewrite (IH h F); destruct (peer_outputs h c b) as [[? ?]|]; reflexivity.
Qed.

Lemma peer_turn_step h c e h' m : uinv h -> completion e -> peer_turn h c e = Ret (h', m) -> step_done h m h'.
Proof.
  intros IV CE E. pose proof IV as [L NU O R]. unfold ServerTcp.peer_turn in E. destruct (us_conns h c) as [v|] eqn:C.
  2:{ injection E as <- <-. split; [exact IV|apply turn_nil; reflexivity|apply wired_nil]. }
  ob E. rename l into os, s into v'. ob E. injection E as <- <-. rename F into VS, F0 into PO.
  pose proof (linked_some h c v L C) as (K1 & K2 & K3 & K4). destruct (completion_plain e CE) as (P1 & P2 & P3).
  pose proof (peer_piece h c v e v' os C VS P1) as TP.
  destruct (completion_shape v e v' os VS CE K1) as (S1 & S2 & [[S3 S4]|[[S3 (r & d & -> & ->)]|[S3 (pre & S4 & ->)]]]).
  - (* only writes *)
    rewrite (quiet_outputs c os _ S4) in PO. injection PO as <- <-.
    assert (L1 : linked (with_conn h c v')).
    { intro d. rewrite conns_set. specialize (L d). change (us_listener (with_conn h c v')) with (us_listener h). destruct (Nat.eqb_spec d c) as [->|]; [|exact L].
      rewrite C in L. cbn in *. rewrite S1, S2, S3. tauto. }
    split; [split; [exact L1|exact NU|exact O|]|exact TP|].
    + intro d. rewrite conns_set. change (us_channel (with_conn h c v')) with (us_channel h). rewrite (R d). destruct (Nat.eqb_spec d c) as [->|]; [rewrite C; split; discriminate|tauto].
    + assert (PM : Forall (peer_mark c) (PeerIn c e :: map (PeerOut c) os)) by (constructor; [reflexivity|apply peer_mark_map]).
      destruct (no_listen_ins _ (only_peer_no_listen _ (peer_mark_only _ _ PM))) as [NL1 NL2].
      destruct (no_task_ins _ (only_peer_no_task _ (peer_mark_only _ _ PM))) as [NT1 NT2].
      unfold wired. rewrite NL1, NL2, NT1, NT2. split; [reflexivity|]. intro d. destruct (peer_views c d e os) as [-> ->].
      destruct (quiet_heard os S4) as (Q1 & Q2 & Q3). destruct (Nat.eqb c d); [rewrite P2, P3, Q1, Q2, Q3|]; repeat split.
  - (* data *)
    assert (L1 : linked (with_conn h c v')).
    { intro x. rewrite conns_set. specialize (L x). change (us_listener (with_conn h c v')) with (us_listener h). destruct (Nat.eqb_spec x c) as [->|]; [|exact L].
      rewrite C in L. cbn in *. rewrite S1, S2, S3. tauto. }
    cbn [ServerTcp.peer_outputs] in PO. ob PO. cbn [obind] in PO. injection PO as <- <-. rewrite app_nil_r.
    destruct (task_turn_inv (with_conn h c v') _ _ _ L1 NU F) as (ch & w & os & ST & D).
    change (PeerIn c (VRead r (RData d)) :: PeerOut c (VReceived d) :: ?x) with ((PeerIn c (VRead r (RData d)) :: map (PeerOut c) [VReceived d]) ++ x).
    split; [split|exact (turn_app _ _ _ _ _ _ _ _ TP (td_turn _ _ _ _ _ _ _ _ _ _ D))|].
    + exact (td_linked _ _ _ _ _ _ _ _ _ _ D).
    + exact (td_numbered _ _ _ _ _ _ _ _ _ _ D).
    + eapply ordered_task; [exact D|]. exact O.
    + eapply (registered_task (with_conn h c v')); [exact ST|exact D|reflexivity|].
      intro x. rewrite conns_set. change (us_channel (with_conn h c v')) with (us_channel h). rewrite (R x). destruct (Nat.eqb_spec x c) as [->|]; [rewrite C; split; discriminate|tauto].
    + apply (wired_task _ _ _ _ _ _ _ (PeerIn c (VRead r (RData d)) :: map (PeerOut c) [VReceived d]) D); try reflexivity.
      * intros x NX. rewrite conns_set in NX. destruct (Nat.eqb_spec x c) as [_|NE]; [discriminate|].
        pose proof (sstep_effect _ _ _ _ _ _ _ _ _ ST) as [_ OO _]. cbn in OO. clear - OO NE. induction OO as [|o os H _ IH]; [reflexivity|].
        destruct o; cbn in H; try contradiction; try exact IH. subst conn. cbn. rewrite of_nat_eqb. destruct (Nat.eqb_spec c x); [congruence|exact IH].
      * intro x. destruct (peer_views c x (VRead r (RData d)) [VReceived d]) as [-> ->]. cbn [ops_on flat_map]. rewrite of_nat_eqb. destruct (Nat.eqb c x); repeat split.
  - (* a failure *)
    rewrite (peer_outputs_app c _ pre _ S4) in PO. cbn [ServerTcp.peer_outputs] in PO. ob PO. injection PO as <- <-. ob F. ob F. injection F as <- <-.
    cbn [obind] in F1. ob F1. injection F1 as <- <-. rename F0 into FT, F into FL.
    assert (CS : exists ch, sstep (us_channel h) (us_user h) (EConnError (N.of_nat c)) = Ret (ch, us_user h, [])).
    { cbn [server_step]. destruct (sv_conns _ _); eexists; reflexivity. }
    destruct CS as (ch & CS). destruct (silent_turn on_request on_shutdown pol (with_conn h c v') _ _ _ CS) as (q' & CQ & ST).
    rewrite ST in FT. injection FT as <- <-. rewrite app_nil_r.
    set (h1 := with_order (with_channel (with_conn h c v') ch (us_user (with_conn h c v'))) (us_order (with_conn h c v') ++ repeat TaskTurn (List.length q'))) in *.
    assert (LP : linked_pre h1 (AFail c)).
    { intro d. change (us_listener h1) with (us_listener h). change (us_conns h1 d) with (us_conns (with_conn h c v') d). rewrite conns_set. specialize (L d).
      cbn [closing negb b2n failing]. rewrite Bool.andb_true_r, Nat.sub_0_r, (Nat.eqb_sym c d). destruct (Nat.eqb_spec d c) as [->|NE].
      - rewrite K4. cbn [andb b2n]. rewrite C in L. cbn in *. rewrite S1, S2, S3, K2. split; [reflexivity|]. split; [|tauto]. rewrite repeat_app. reflexivity.
      - cbn [andb b2n]. rewrite Nat.add_0_r. exact L. }
    destruct (listener_turn_inv h1 (AFail c) _ _ _ LP NU FL) as (l' & os & LS & D).
    set (pm := (PeerIn c e :: map (PeerOut c) pre) ++ [PeerOut c VFailed; TaskIn (EConnError (N.of_nat c)); PeerOut c VRemoved]).
    assert (ME : PeerIn c e :: map (PeerOut c) pre ++ PeerOut c VFailed :: [TaskIn (EConnError (N.of_nat c))] ++ PeerOut c VRemoved :: l0 = pm ++ l0).
    { unfold pm. cbn [app]. rewrite <- app_assoc. reflexivity. }
    rewrite ME.
    assert (PV : forall d, peer_ins d pm = (if Nat.eqb c d then [e] else []) /\ peer_outs d pm = (if Nat.eqb c d then pre ++ [VFailed; VRemoved] else [])).
    { intro d. unfold pm. rewrite peer_ins_app, peer_outs_app. destruct (peer_views c d e pre) as [-> ->]. cbn [peer_ins peer_outs flat_map].
      destruct (Nat.eqb c d); split; reflexivity. }
    assert (NV : listen_ins pm = [] /\ listen_outs pm = [] /\ task_ins pm = [EConnError (N.of_nat c)] /\ task_outs pm = []).
    { assert (PM : Forall (peer_mark c) (PeerIn c e :: map (PeerOut c) pre)) by (constructor; [reflexivity|apply peer_mark_map]).
      destruct (no_listen_ins _ (only_peer_no_listen _ (peer_mark_only _ _ PM))) as [NL1 NL2].
      destruct (no_task_ins _ (only_peer_no_task _ (peer_mark_only _ _ PM))) as [NT1 NT2].
      unfold pm. rewrite listen_ins_app, listen_outs_app, task_ins_app, task_outs_app, NL1, NL2, NT1, NT2. repeat split. }
    destruct NV as (NV1 & NV2 & NV3 & NV4).
    assert (T1 : turn h pm h1).
    { destruct TP as [_ _ TP3 TP4]. split.
      - unfold tracks_task. rewrite NV3, NV4. apply srun_one. exact CS.
      - unfold tracks_listen. rewrite NV1, NV2. reflexivity.
      - intro d. specialize (TP3 d). unfold tracks_peer in *. destruct (PV d) as [-> ->]. destruct (peer_views c d e (pre ++ [VFailed; VRemoved])) as [A B]. rewrite A, B in TP3. exact TP3.
      - intro d. specialize (TP4 d). destruct (PV d) as [-> _]. destruct (peer_views c d e (pre ++ [VFailed; VRemoved])) as [A B]. rewrite A in TP4. exact TP4. }
    split; [split|exact (turn_app _ _ _ _ _ _ _ _ T1 (lt_turn _ _ _ _ _ _ _ _ _ _ D))|].
    + exact (lt_linked _ _ _ _ _ _ _ _ _ _ D).
    + rewrite (lt_state _ _ _ _ _ _ _ _ _ _ D). eapply numbered_step; eauto.
    + eapply ordered_listen; [exact D|]. destruct O as [O1 O2]. split; cbn [h1 with_order us_order us_listener us_channel with_channel with_conn waiting]; rewrite times_app, turns_repeat; cbn [is_listen_turn is_task_turn].
      * rewrite O1. lia.
      * rewrite O2, CQ, app_length. reflexivity.
    + eapply registered_listen; [exact D|]. intro x. pose proof (sstep_effect _ _ _ _ _ _ _ _ _ CS) as [_ _ CC].
      change (us_channel h1) with ch. rewrite CC, (R x). change (us_conns h1 x) with (us_conns (with_conn h c v') x). rewrite conns_set. cbn [accepts].
      destruct (Nat.eqb_spec x c) as [->|]; [rewrite C; split; [intros [X _]; discriminate|discriminate]|tauto].
    + apply (wired_listen _ _ _ _ _ _ _ pm D); try assumption; [reflexivity| |].
      * intro x. rewrite NV3. reflexivity.
      * intro x. destruct (PV x) as [-> ->]. rewrite NV3. cbn [ops_on flat_map]. rewrite of_nat_eqb.
        pose proof (step_effect _ _ _ _ LS) as [_ _ _ _ EC _]. specialize (EC x). cbn [closing andb b2n] in EC. rewrite <- closed_times, EC.
        destruct (quiet_heard pre S4) as (Q1 & Q2 & Q3). unfold times at 3. cbn [filter is_afail].
        destruct (Nat.eqb c x); [|repeat split]. rewrite P2, P3, !times_app, Q2, Q3. unfold heard in *. rewrite flat_map_app, Q1. repeat split.
Qed.

Lemma close_shape v v' os q : vconn_step v VRun = Ret (v', os) -> vn_shutdown v = false -> vn_queue v = VDoClose :: q ->
  vn_shutdown v' = false /\ vn_queue v' = q /\ vn_open v' = false /\ os = if vn_open v then [VSocketClosed; VRemoved] else [].
Proof.
  intros E SH Q. cbn [vconn_step] in E. rewrite Q in E. unfold v_do_close in E. cbn [vn_shutdown with_vqueue] in E. rewrite SH in E.
  cbn [vn_open with_vconnected with_vqueue] in E. destruct (vn_open v) eqn:OP; injection E as <- <-; cbn; auto.
Qed.

Lemma listener_run_step h q h' m : uinv h -> us_order h = ListenTurn :: q -> listener_run (with_order h q) = Ret (h', m) -> step_done h m h'.
Proof.
  intros [L NU [O1 O2] R] OR E. rewrite OR in O1, O2. cbn in O1, O2. unfold ServerTcp.listener_run in E.
  change (us_listener (with_order h q)) with (us_listener h) in E.
  assert (LO : forall h1, us_order h1 = q -> us_listener h1 = us_listener h -> us_channel h1 = us_channel h -> ordered_lpre h1 ARun).
  { intros h1 A1 A2 A3. unfold ordered_lpre. rewrite A1, A2, A3. cbn [waiting]. unfold times. destruct (as_queue (us_listener h)); cbn in *; [discriminate|]. lia. }
  assert (PLAIN : (forall c, closing (us_listener h) ARun c = false) -> listener_turn (with_order h q) ARun [] = Ret (h', m) -> step_done h m h').
  { intros NC E1.
    assert (LP : linked_pre (with_order h q) ARun).
    { intro c. specialize (L c). change (us_listener (with_order h q)) with (us_listener h). rewrite NC. cbn [failing b2n negb]. rewrite Nat.add_0_r, Nat.sub_0_r, Bool.andb_true_r. exact L. }
    destruct (listener_turn_inv (with_order h q) ARun _ _ _ LP NU E1) as (l' & os & ST & D).
    split; [split|exact (turn_order _ _ _ _ (lt_turn _ _ _ _ _ _ _ _ _ _ D))|].
    - exact (lt_linked _ _ _ _ _ _ _ _ _ _ D).
    - rewrite (lt_state _ _ _ _ _ _ _ _ _ _ D). eapply numbered_step; eauto.
    - eapply ordered_listen; [exact D|]. apply LO; reflexivity.
    - eapply registered_listen; eauto.
    - apply (wired_listen _ _ _ _ _ _ _ [] D); try reflexivity.
      intro d. repeat split. pose proof (step_effect _ _ _ _ ST) as [_ _ _ _ EC _]. specialize (EC d). rewrite NC in EC. cbn [andb b2n] in EC. rewrite <- closed_times, EC. reflexivity. }
  destruct (as_queue (us_listener h)) as [|[| |c] aq] eqn:Q; try (apply PLAIN; [intro c; unfold closing; rewrite Q; reflexivity|exact E]).
  clear PLAIN. ob E. ob E. injection E as <- <-. rename F into PS, F0 into LT, t into h1, l0 into m1.
  match type of PS with _ = Ret (?a, ?b) => set (h1' := a) in *; set (m0 := b) in * end.
  pose proof (peer_step_spec _ _ _ _ _ PS) as ((A1 & A2 & A3 & A4) & PM & OT & KK).
  cbn [with_order us_channel us_user us_listener us_order us_conns] in A1, A2, A3, A4, OT, KK.
  pose proof (L c) as LC. rewrite Q in LC.
  assert (CC : closes c (Close c :: aq) = S (closes c aq)) by (unfold closes; cbn [filter]; rewrite Nat.eqb_refl; reflexivity).
  assert (LP : linked_pre h1' ARun).
  { intro d. rewrite A3. unfold closing, failing. rewrite Q. rewrite (Nat.eqb_sym c d). destruct (Nat.eqb_spec d c) as [->|NE].
    - destruct KK as [(B1 & B2 & _)|(v & v' & o & B1 & B2 & B3 & _)]; rewrite B1 in LC; rewrite B2; cbn [conn_ok b2n negb] in LC |- *.
      + rewrite Bool.andb_false_r. tauto.
      + destruct LC as (C1 & C2 & C3 & C4). rewrite CC in C2. cbn [repeat] in C2. destruct (close_shape _ _ _ _ B3 C1 C2) as (D1 & D2 & D3 & _).
        rewrite CC, Bool.andb_false_r. split; [exact D1|]. split; [|split; [exact D3|exact C4]]. rewrite D2. f_equal. lia.
    - rewrite (OT d NE). cbn [negb b2n]. rewrite Nat.add_0_r, Nat.sub_0_r, Bool.andb_true_r. specialize (L d). rewrite Q in L. exact L. }
  assert (NU1 : numbered (us_listener h1')) by (rewrite A3; exact NU).
  destruct (listener_turn_inv h1' ARun _ _ _ LP NU1 LT) as (l' & os & ST & D).
  assert (R1 : registered h1').
  { intro x. rewrite A1, (R x). destruct (Nat.eq_dec x c) as [->|NE]; [|rewrite (OT x NE); tauto].
    destruct KK as [(B1 & B2 & _)|(v & v' & o & B1 & B2 & _)]; rewrite B1, B2; [tauto|split; discriminate]. }
  assert (T1 : turn (with_order h q) m0 h1').
  { split.
    - apply tt_same; [exact A1|exact A2|]. apply only_peer_no_task, (peer_mark_only c), PM.
    - apply tl_same; [exact A3|]. apply only_peer_no_listen, (peer_mark_only c), PM.
    - intro d. exact (peer_step_track _ _ _ _ _ d PS).
    - intro d. destruct (Nat.eq_dec c d) as [<-|NE].
      + cbn [with_order us_conns]. destruct KK as [(B1 & B2 & ->)|(v & v' & o & B1 & B2 & _ & ->)]; rewrite B1, B2; [reflexivity|].
        rewrite (proj1 (peer_views c c VRun o)), Nat.eqb_refl. constructor; [split; discriminate|constructor].
      + rewrite (proj1 (other_peer_ins c d _ NE PM)). rewrite (OT d (not_eq_sym NE)). apply grows_same. tauto. }
  split; [split|exact (turn_order _ _ _ _ (turn_app _ _ _ _ _ _ _ _ T1 (lt_turn _ _ _ _ _ _ _ _ _ _ D)))|].
  - exact (lt_linked _ _ _ _ _ _ _ _ _ _ D).
  - rewrite (lt_state _ _ _ _ _ _ _ _ _ _ D). eapply numbered_step; eauto.
  - eapply ordered_listen; [exact D|]. apply LO; assumption.
  - eapply registered_listen; eauto.
  - destruct (no_listen_ins _ (only_peer_no_listen _ (peer_mark_only _ _ PM))) as [NL1 NL2].
    destruct (no_task_ins _ (only_peer_no_task _ (peer_mark_only _ _ PM))) as [NT1 NT2].
    apply (wired_listen _ _ _ _ _ _ _ m0 D); try assumption; try reflexivity.
    + intro x. rewrite NT1. reflexivity.
    + intro x. rewrite NT1. pose proof (step_effect _ _ _ _ ST) as [_ _ _ _ EC _]. specialize (EC x). rewrite A3 in EC. unfold closing in EC. rewrite Q in EC. rewrite <- closed_times, EC.
      destruct KK as [(B1 & B2 & ->)|(v & v' & o & B1 & B2 & B3 & ->)].
      * cbn [peer_ins peer_outs flat_map]. repeat split. destruct (Nat.eqb_spec c x) as [EX|NE]; [subst x|reflexivity]. rewrite B1 in LC. cbn in LC. destruct LC as [_ ->]. reflexivity.
      * destruct (peer_views c x VRun o) as [-> ->]. destruct (Nat.eqb_spec c x) as [EX|NE]; [subst x|repeat split].
        rewrite B1 in LC. cbn [conn_ok] in LC. destruct LC as (C1 & C2 & C3 & C4). rewrite CC in C2. cbn [repeat] in C2. destruct (close_shape _ _ _ _ B3 C1 C2) as (_ & _ & _ & ->).
        rewrite C3. destruct (member c (as_open (us_listener h))); repeat split.
Qed.

Lemma userver_step_done h e h' m : uinv h -> userver_step h e = Ret (h', m) -> step_done h m h'.
Proof.
  intros IV E. destruct e as [a| |c ok buf|c r x|c w n|c w ok]; cbn [ServerTcp.userver_step] in E.
  - eapply api_step; eauto.
  - destruct (us_order h) as [|[|] q] eqn:OR.
    + injection E as <- <-. split; [exact IV|apply turn_nil; reflexivity|apply wired_nil].
    + eapply task_step; eauto.
    + eapply listener_run_step; eauto.
  - eapply accept_step; eauto.
  - eapply peer_turn_step; eauto; exact Logic.I.
  - eapply peer_turn_step; eauto; exact Logic.I.
  - eapply peer_turn_step; eauto; exact Logic.I.
Qed.

Lemma userver_run_done es : forall h h' m, uinv h -> userver_run h es = Ret (h', m) -> step_done h m h'.
Proof.
  induction es as [|e es IH]; intros h h' m IV E; cbn [ServerTcp.userver_run] in E.
  - injection E as <- <-. split; [exact IV|apply turn_nil; reflexivity|apply wired_nil].
  - ob E. ob E. injection E as <- <-. destruct (userver_step_done _ _ _ _ IV F) as [A1 A2 A3]. destruct (IH _ _ _ A1 F0) as [B1 B2 B3].
    split; [exact B1|eapply turn_app; eauto|apply wired_app; assumption].
Qed.
End Steps.
