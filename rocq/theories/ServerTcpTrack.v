(** ServerTcp.v: each part does what it does on its own. *)
From Verif Require Import Prelude Ser4 Messages Mbap SpecPdu SpecMbap Server SpecServer Listener SpecListener AsyncWrite ServerConn SpecConn ServerTcp SpecServerTcp.
From Verif Require Import WriteFacts ConnFacts ServerConnFacts ServerConnMore.
From Coq Require Import Lia.

Ltac ob E :=
  match type of E with
  | obind ?x _ = Ret _ => let p := fresh "p" in let F := fresh "F" in
      destruct x as [p|] eqn:F; [cbn [obind] in E|discriminate E];
      repeat match goal with p : (_ * _)%type |- _ => destruct p end
  end.

(** ** Lists of marks *)
Lemma task_ins_app a b : task_ins (a ++ b) = task_ins a ++ task_ins b. Proof. apply flat_map_app. Qed.
Lemma task_outs_app a b : task_outs (a ++ b) = task_outs a ++ task_outs b. Proof. apply flat_map_app. Qed.
Lemma listen_ins_app a b : listen_ins (a ++ b) = listen_ins a ++ listen_ins b. Proof. apply flat_map_app. Qed.
Lemma listen_outs_app a b : listen_outs (a ++ b) = listen_outs a ++ listen_outs b. Proof. apply flat_map_app. Qed.
Lemma peer_ins_app c a b : peer_ins c (a ++ b) = peer_ins c a ++ peer_ins c b. Proof. apply flat_map_app. Qed.
Lemma peer_outs_app c a b : peer_outs c (a ++ b) = peer_outs c a ++ peer_outs c b. Proof. apply flat_map_app. Qed.

(** Marks of one kind only. *)
Definition peer_mark (c : nat) (x : smark) : Prop := match x with PeerIn d _ | PeerOut d _ => d = c | _ => False end.
Definition only_peer (x : smark) : Prop := match x with PeerIn _ _ | PeerOut _ _ => True | _ => False end.
Definition no_task (x : smark) : Prop := match x with TaskIn _ | TaskOut _ => False | _ => True end.
Definition no_listen (x : smark) : Prop := match x with ListenIn _ | ListenOut _ => False | _ => True end.
Definition not_peer (x : smark) : Prop := match x with PeerIn _ _ | PeerOut _ _ => False | _ => True end.

Lemma no_task_ins m : Forall no_task m -> task_ins m = [] /\ task_outs m = [].
Proof. induction 1 as [|x m H _ [A B]]; [split; reflexivity|]. destruct x; try destruct H; cbn; split; assumption. Qed.
Lemma no_listen_ins m : Forall no_listen m -> listen_ins m = [] /\ listen_outs m = [].
Proof. induction 1 as [|x m H _ [A B]]; [split; reflexivity|]. destruct x; try destruct H; cbn; split; assumption. Qed.
Lemma not_peer_ins c m : Forall not_peer m -> peer_ins c m = [] /\ peer_outs c m = [].
Proof. induction 1 as [|x m H _ [A B]]; [split; reflexivity|]. destruct x; try destruct H; cbn; split; assumption. Qed.
Lemma other_peer_ins c d m : c <> d -> Forall (peer_mark c) m -> peer_ins d m = [] /\ peer_outs d m = [].
Proof.
  intros NE. induction 1 as [|x m H _ [A B]]; [split; reflexivity|]. destruct x; try destruct H; cbn;
  (destruct (Nat.eqb_spec c0 d); [congruence|]); split; assumption.
Qed.
Lemma only_peer_no_task m : Forall only_peer m -> Forall no_task m.
Proof. apply Forall_impl. intros []; cbn; auto. Qed.
Lemma only_peer_no_listen m : Forall only_peer m -> Forall no_listen m.
Proof. apply Forall_impl. intros []; cbn; auto. Qed.
Lemma peer_mark_only c m : Forall (peer_mark c) m -> Forall only_peer m.
Proof. apply Forall_impl. intros []; cbn; auto. Qed.

Lemma peer_outs_map c os : peer_outs c (map (PeerOut c) os) = os.
Proof. induction os as [|o os IH]; [reflexivity|]. cbn. rewrite Nat.eqb_refl. cbn. f_equal. exact IH. Qed.
Lemma peer_ins_map c os : peer_ins c (map (PeerOut c) os) = [].
Proof. induction os as [|o os IH]; [reflexivity|]. exact IH. Qed.
Lemma peer_ins_repeat c e k : peer_ins c (repeat (PeerIn c e) k) = repeat e k.
Proof. induction k as [|k IH]; [reflexivity|]. cbn. rewrite Nat.eqb_refl. cbn. f_equal. exact IH. Qed.
Lemma peer_outs_repeat c e k : peer_outs c (repeat (PeerIn c e) k) = [].
Proof. induction k as [|k IH]; [reflexivity|]. exact IH. Qed.
Lemma peer_mark_map c os : Forall (peer_mark c) (map (PeerOut c) os).
Proof. apply Forall_map. apply Forall_forall. intros; reflexivity. Qed.
Lemma peer_mark_repeat c e k : Forall (peer_mark c) (repeat (PeerIn c e) k).
Proof. apply Forall_forall. intros x H. apply repeat_spec in H as ->. reflexivity. Qed.
Lemma no_task_outs_map c os : Forall no_task (map (PeerOut c) os).
Proof. apply Forall_map. apply Forall_forall. intros; exact Logic.I. Qed.

(** ** Runs of the parts *)
Lemma arun_app : forall a b s s1 o1 s2 o2, aserver_run s a = Ret (s1, o1) -> aserver_run s1 b = Ret (s2, o2) -> aserver_run s (a ++ b) = Ret (s2, o1 ++ o2).
Proof.
  induction a as [|e a IH]; intros b s s1 o1 s2 o2 A B; cbn [aserver_run app] in *; [injection A as <- <-; exact B|].
  ob A. ob A. cbn [obind]. injection A as <- <-. rewrite (IH _ _ _ _ _ _ F0 B). cbn [obind]. rewrite app_assoc. reflexivity.
Qed.

Lemma arun_one : forall s e s' o, aserver_step s e = Ret (s', o) -> aserver_run s [e] = Ret (s', o).
Proof. intros s e s' o E. cbn [aserver_run]. rewrite E. cbn [obind]. rewrite app_nil_r. reflexivity. Qed.

Lemma vrun_app : forall a b s s1 o1 s2 o2, vconn_run s a = Ret (s1, o1) -> vconn_run s1 b = Ret (s2, o2) -> vconn_run s (a ++ b) = Ret (s2, o1 ++ o2).
Proof.
  induction a as [|e a IH]; intros b s s1 o1 s2 o2 A B; cbn [vconn_run app] in *; [injection A as <- <-; exact B|].
  ob A. ob A. cbn [obind]. injection A as <- <-. rewrite (IH _ _ _ _ _ _ F0 B). cbn [obind]. rewrite app_assoc. reflexivity.
Qed.

Lemma vrun_one : forall s e s' o, vconn_step s e = Ret (s', o) -> vconn_run s [e] = Ret (s', o).
Proof. intros s e s' o E. cbn [vconn_run]. rewrite E. cbn [obind]. rewrite app_nil_r. reflexivity. Qed.

Section Track.
Context {W : Type}.
Context (on_request : N -> W -> request -> W * expected response * list api).
Context (on_shutdown : N -> W -> W * list api).
Context (pol : copy_policy).
Implicit Types (s : tserver W) (m : list smark).

Notation peer_step := (@peer_step W).
Notation close_conns := (@close_conns W).
Notation serve := (serve on_request on_shutdown pol).
Notation listener_outputs := (listener_outputs on_request on_shutdown pol).
Notation listener_turn := (listener_turn on_request on_shutdown pol).
Notation channel_outputs := (channel_outputs on_request on_shutdown pol).
Notation task_turn := (task_turn on_request on_shutdown pol).
Notation peer_outputs := (peer_outputs on_request on_shutdown pol).
Notation peer_turn := (peer_turn on_request on_shutdown pol).
Notation listener_run := (listener_run on_request on_shutdown pol).
Notation userver_step := (userver_step on_request on_shutdown pol).
Notation userver_run := (userver_run on_request on_shutdown pol).
Notation srun := (server_run on_request on_shutdown pol).
Notation sstep := (server_step on_request on_shutdown pol).

Lemma srun_app : forall a b h w h1 w1 o1 h2 w2 o2, srun h w a = Ret (h1, w1, o1) -> srun h1 w1 b = Ret (h2, w2, o2) -> srun h w (a ++ b) = Ret (h2, w2, o1 ++ o2).
Proof.
  induction a as [|e a IH]; intros b h w h1 w1 o1 h2 w2 o2 A B; cbn [server_run app] in *; [injection A as <- <- <-; exact B|].
  ob A. ob A. cbn [obind]. injection A as <- <- <-. rewrite (IH _ _ _ _ _ _ _ _ _ F0 B). cbn [obind]. rewrite app_assoc. reflexivity.
Qed.

Lemma srun_one : forall h w e h' w' o, sstep h w e = Ret (h', w', o) -> srun h w [e] = Ret (h', w', o).
Proof. intros h w e h' w' o E. cbn [server_run]. rewrite E. cbn [obind]. rewrite app_nil_r. reflexivity. Qed.

(** The state of connection [c]; before it is accepted, that of a new connection. *)
Definition conn_of s (c : nat) : sconn := match us_conns s c with Some v => v | None => sconn_init end.

Definition tracks_task s m s' : Prop := srun (us_channel s) (us_user s) (task_ins m) = Ret (us_channel s', us_user s', task_outs m).
Definition tracks_listen s m s' : Prop := aserver_run (us_listener s) (listen_ins m) = Ret (us_listener s', listen_outs m).
Definition tracks_peer (c : nat) s m s' : Prop := vconn_run (conn_of s c) (peer_ins c m) = Ret (conn_of s' c, peer_outs c m).

Lemma tt_app s m s1 m1 s2 : tracks_task s m s1 -> tracks_task s1 m1 s2 -> tracks_task s (m ++ m1) s2.
Proof. unfold tracks_task. rewrite task_ins_app, task_outs_app. apply srun_app. Qed.
Lemma tl_app s m s1 m1 s2 : tracks_listen s m s1 -> tracks_listen s1 m1 s2 -> tracks_listen s (m ++ m1) s2.
Proof. unfold tracks_listen. rewrite listen_ins_app, listen_outs_app. apply arun_app. Qed.
Lemma tp_app c s m s1 m1 s2 : tracks_peer c s m s1 -> tracks_peer c s1 m1 s2 -> tracks_peer c s (m ++ m1) s2.
Proof. unfold tracks_peer. rewrite peer_ins_app, peer_outs_app. apply vrun_app. Qed.

Lemma tt_same s m s' : us_channel s' = us_channel s -> us_user s' = us_user s -> Forall no_task m -> tracks_task s m s'.
Proof. intros A B F. unfold tracks_task. destruct (no_task_ins m F) as [-> ->]. rewrite A, B. reflexivity. Qed.
Lemma tl_same s m s' : us_listener s' = us_listener s -> Forall no_listen m -> tracks_listen s m s'.
Proof. intros A F. unfold tracks_listen. destruct (no_listen_ins m F) as [-> ->]. rewrite A. reflexivity. Qed.
Lemma tp_same c s m s' : us_conns s' c = us_conns s c -> peer_ins c m = [] -> peer_outs c m = [] -> tracks_peer c s m s'.
Proof. intros A B C. unfold tracks_peer, conn_of. rewrite A, B, C. reflexivity. Qed.

(** ** The connections *)
Lemma conns_set s c v d : us_conns (with_conn s c v) d = if Nat.eqb d c then Some v else us_conns s d.
Proof. reflexivity. Qed.

(** Only connections are concerned. *)
Definition only_conns s s' : Prop :=
  us_channel s' = us_channel s /\ us_user s' = us_user s /\ us_listener s' = us_listener s /\ us_order s' = us_order s.

Lemma only_conns_trans s s1 s2 : only_conns s s1 -> only_conns s1 s2 -> only_conns s s2.
Proof. intros (A & B & C & D) (A' & B' & C' & D'). unfold only_conns. rewrite A', B', C', D'. auto. Qed.

Lemma peer_step_spec s c e s' m : peer_step s c e = Ret (s', m) ->
  only_conns s s' /\ Forall (peer_mark c) m /\ (forall d, d <> c -> us_conns s' d = us_conns s d) /\
  ((us_conns s c = None /\ us_conns s' c = None /\ m = []) \/
   exists v v' o, us_conns s c = Some v /\ us_conns s' c = Some v' /\ vconn_step v e = Ret (v', o) /\ m = PeerIn c e :: map (PeerOut c) o).
Proof.
  intros E. unfold ServerTcp.peer_step in E. destruct (us_conns s c) as [v|] eqn:C.
  - ob E. injection E as <- <-. split; [repeat split|]. split; [constructor; [reflexivity|apply peer_mark_map]|]. split.
    + intros d NE. rewrite conns_set. destruct (Nat.eqb_spec d c); [congruence|reflexivity].
    + right. exists v, s0, l. split; [reflexivity|]. split; [rewrite conns_set, Nat.eqb_refl; reflexivity|]. auto.
  - injection E as <- <-. split; [repeat split|]. split; [constructor|]. split; [reflexivity|]. left. auto.
Qed.

Lemma peer_step_track s c e s' m d : peer_step s c e = Ret (s', m) -> tracks_peer d s m s'.
Proof.
  intros E. apply peer_step_spec in E as (_ & M & O & H). destruct (Nat.eq_dec d c) as [->|NE].
  - destruct H as [(A & B & ->)|(v & v' & o & A & B & S & ->)]; [apply tp_same; [congruence|reflexivity|reflexivity]|].
    unfold tracks_peer, conn_of. rewrite A, B. cbn [peer_ins peer_outs flat_map]. rewrite Nat.eqb_refl.
    change (flat_map _ (map (PeerOut c) o)) with (peer_ins c (map (PeerOut c) o)) at 1. rewrite peer_ins_map.
    change (flat_map _ (map (PeerOut c) o)) with (peer_outs c (map (PeerOut c) o)). rewrite peer_outs_map. apply vrun_one, S.
  - destruct (other_peer_ins c d m (not_eq_sym NE) M). apply tp_same; auto.
Qed.

Lemma close_conns_spec l : forall s s' m, close_conns s l = Ret (s', m) -> only_conns s s' /\ Forall only_peer m /\ forall d, tracks_peer d s m s'.
Proof.
  induction l as [|c l IH]; intros s s' m E; cbn [ServerTcp.close_conns] in E.
  - injection E as <- <-. split; [repeat split|]. split; [constructor|]. intro d. apply tp_same; reflexivity.
  - ob E. ob E. injection E as <- <-. destruct (IH _ _ _ F0) as (A & B & C). pose proof (peer_step_spec _ _ _ _ _ F) as (A' & B' & _ & _).
    split; [eapply only_conns_trans; eauto|]. split; [apply Forall_app; split; [eapply peer_mark_only, B'|exact B]|].
    intro d. eapply tp_app; [eapply peer_step_track, F|apply C].
Qed.

(** ** The acceptor *)
Lemma born_run k v o : v_start (with_vqueue sconn_init (repeat VDoClose k)) = (v, o) ->
  vconn_run sconn_init (repeat VClose k ++ [VStart]) = Ret (v, o).
Proof.
  intros E. assert (K : forall n j, vconn_run (with_vqueue sconn_init (repeat VDoClose n)) (repeat VClose j) = Ret (with_vqueue sconn_init (repeat VDoClose (n + j)), [])).
  { intros n j. revert n. induction j as [|j IH]; intros n; cbn [repeat vconn_run]; [rewrite Nat.add_0_r; reflexivity|].
    cbn [vconn_step obind v_close vn_shutdown with_vqueue sconn_init]. specialize (IH (S n)).
    assert (Q : vn_queue (with_vqueue sconn_init (repeat VDoClose n)) ++ [VDoClose] = repeat VDoClose (S n)).
    { cbn [vn_queue with_vqueue]. replace (S n) with (n + 1)%nat by lia. rewrite repeat_app. reflexivity. }
    unfold v_close. cbn [vn_shutdown with_vqueue sconn_init]. cbn [vn_queue with_vqueue] in Q |- *.
    change (vn_queue _) with (repeat VDoClose n) in *. unfold with_vqueue in *. cbn [vn_shutdown vn_connected vn_open vn_writer vn_reads vn_next_read sconn_init] in *.
    rewrite Q, IH. cbn [obind]. replace (S n + j)%nat with (n + S j)%nat by lia. reflexivity. }
  rewrite <- (app_nil_l o). eapply vrun_app; [exact (K 0%nat k)|]. apply vrun_one. cbn [vconn_step]. rewrite <- E. reflexivity.
Qed.

Lemma serve_spec s c buf s' m : serve s c buf = Ret (s', m) ->
  exists ch v o, let k := closes c (as_queue (us_listener s)) in
    sstep (us_channel s) (us_user s) (EAccept (N.of_nat c) buf) = Ret (ch, us_user s, []) /\
    v_start (with_vqueue sconn_init (repeat VDoClose k)) = (v, o) /\ s' = with_conn (with_channel s ch (us_user s)) c v /\
    m = TaskIn (EAccept (N.of_nat c) buf) :: repeat (PeerIn c VClose) k ++ PeerIn c VStart :: map (PeerOut c) o.
Proof.
  intros E. unfold ServerTcp.serve in E. cbn [server_step obind] in E.
  destruct (v_start _) as [v o] eqn:V. injection E as <- <-. exists (set_conn (us_channel s) (N.of_nat c) (Some (mbap_new buf))), v, o. cbv zeta.
  split; [reflexivity|]. split; [exact V|]. split; reflexivity.
Qed.

Lemma serve_track s c buf s' m : us_conns s c = None -> serve s c buf = Ret (s', m) ->
  us_listener s' = us_listener s /\ us_order s' = us_order s /\ Forall no_listen m /\ tracks_task s m s' /\ forall d, tracks_peer d s m s'.
Proof.
  intros NC E. apply serve_spec in E as (ch & v & o & S & V & -> & ->). cbv zeta in *. split; [reflexivity|]. split; [reflexivity|].
  assert (M : Forall (peer_mark c) (repeat (PeerIn c VClose) (closes c (as_queue (us_listener s))) ++ PeerIn c VStart :: map (PeerOut c) o)).
  { apply Forall_app. split; [apply peer_mark_repeat|]. constructor; [reflexivity|apply peer_mark_map]. }
  split; [constructor; [exact Logic.I|eapply only_peer_no_listen, peer_mark_only, M]|]. split.
  - unfold tracks_task. cbn [task_ins task_outs flat_map app].
    destruct (no_task_ins _ (only_peer_no_task _ (peer_mark_only _ _ M))) as [A B]. unfold task_ins, task_outs in A, B. rewrite A, B. apply srun_one, S.
  - intros d. unfold tracks_peer. destruct (Nat.eq_dec d c) as [->|NE].
    + unfold conn_of. rewrite NC, conns_set, Nat.eqb_refl. change (peer_ins c (TaskIn (EAccept (N.of_nat c) buf) :: ?l)) with (peer_ins c l).
      change (peer_outs c (TaskIn (EAccept (N.of_nat c) buf) :: ?l)) with (peer_outs c l).
      rewrite peer_ins_app, peer_outs_app, peer_ins_repeat, peer_outs_repeat. cbn [peer_ins peer_outs flat_map app]. rewrite Nat.eqb_refl.
      change (flat_map _ (map (PeerOut c) o)) with (peer_ins c (map (PeerOut c) o)) at 1. rewrite peer_ins_map.
      change (flat_map _ (map (PeerOut c) o)) with (peer_outs c (map (PeerOut c) o)). rewrite peer_outs_map. apply born_run, V.
    + change (peer_ins d (TaskIn (EAccept (N.of_nat c) buf) :: ?l)) with (peer_ins d l).
      change (peer_outs d (TaskIn (EAccept (N.of_nat c) buf) :: ?l)) with (peer_outs d l).
      destruct (other_peer_ins c d _ (not_eq_sym NE) M) as [-> ->]. unfold conn_of. rewrite conns_set.
      destruct (Nat.eqb_spec d c); [congruence|]. reflexivity.
Qed.
End Track.
