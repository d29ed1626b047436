(** Every step of World.v is one of the steps of NetFacts.v. *)
From Verif Require Import Prelude Ser4 Messages Mbap Client Server Database System.
From Verif Require Import AsyncWrite ClientConn ClientTcp Listener ServerConn ServerTcp World.
From Verif Require Import SpecPdu SpecMbap SpecClient SpecServer SpecDb SpecConn SpecClientTcp SpecServerTcp SpecSystem SpecWorld.
From Verif Require Import ClientShutdown SystemFacts SystemSteps NetFacts WorldConn.

(** ** Views *)
Lemma conn_outs_app a b : conn_outs (a ++ b) = conn_outs a ++ conn_outs b.
Proof. apply flat_map_app. Qed.
Lemma channel_outs_app a b : channel_outs (a ++ b) = channel_outs a ++ channel_outs b.
Proof. apply flat_map_app. Qed.
Lemma client_marks_app a b : client_marks (a ++ b) = client_marks a ++ client_marks b.
Proof. apply flat_map_app. Qed.
Lemma server_marks_app a b : server_marks (a ++ b) = server_marks a ++ server_marks b.
Proof. apply flat_map_app. Qed.
Lemma observed_app a b : observed (a ++ b) = observed a ++ observed b.
Proof. apply flat_map_app. Qed.
Lemma peer_outs_app c a b : peer_outs c (a ++ b) = peer_outs c a ++ peer_outs c b.
Proof. apply flat_map_app. Qed.
Lemma task_outs_app a b : task_outs (a ++ b) = task_outs a ++ task_outs b.
Proof. apply flat_map_app. Qed.
Lemma server_took_app a b : server_took (a ++ b) = server_took a ++ server_took b.
Proof. apply flat_map_app. Qed.

Lemma marks_wc l : client_marks (map WC l) = l.
Proof. induction l as [|m l IH]; [reflexivity|]. cbn. f_equal. exact IH. Qed.
Lemma marks_wc' l : server_marks (map WC l) = [].
Proof. induction l as [|m l IH]; [reflexivity|exact IH]. Qed.
Lemma marks_ws l : server_marks (map WS l) = l.
Proof. induction l as [|m l IH]; [reflexivity|]. cbn. f_equal. exact IH. Qed.
Lemma marks_ws' l : client_marks (map WS l) = [].
Proof. induction l as [|m l IH]; [reflexivity|exact IH]. Qed.
Lemma observed_wc l : observed (map WC l) = map YC (channel_outs l).
Proof. induction l as [|m l IH]; [reflexivity|]. destruct m; cbn; [exact IH|f_equal; exact IH|exact IH|exact IH]. Qed.
Lemma marks_wo l : server_marks (map WO l) = l.
Proof. induction l as [|m l IH]; [reflexivity|]. cbn. f_equal. exact IH. Qed.
Lemma marks_wo' l : client_marks (map WO l) = [].
Proof. induction l as [|m l IH]; [reflexivity|exact IH]. Qed.
Lemma observed_ws l : observed (map WS l) = map YS (task_outs l).
Proof. induction l as [|m l IH]; [reflexivity|]. destruct m; cbn; try exact IH. f_equal; exact IH. Qed.

(** With what others cause. *)
Lemma others_app a b x y : observed_with_others a x -> observed_with_others b y -> observed_with_others (a ++ b) (x ++ y).
Proof.
  intros (p & P1 & ->) (q & Q1 & ->). exists (p ++ q). split; [apply Forall2_app; assumption|symmetry; apply concat_app].
Qed.
Lemma others_none l : (forall m, ~ In (WO m) l) -> observed_with_others l (observed l).
Proof.
  induction l as [|m l IH]; intros H; [exists []; split; [constructor|reflexivity]|].
  destruct IH as (p & P1 & P2); [intros x K; apply (H x); right; exact K|].
  exists (observed [m] :: p). split; [|cbn [List.concat]; rewrite <- P2; apply (observed_app [m] l)].
  constructor; [|exact P1]. destruct m as [m|m|m|c r]; try reflexivity. destruct (H m). left. reflexivity.
Qed.
Lemma others_wc l : observed_with_others (map WC l) (map YC (channel_outs l)).
Proof. rewrite <- observed_wc. apply others_none. intros m K. apply in_map_iff in K. destruct K as (x & K & _). discriminate K. Qed.
Lemma others_ws l : observed_with_others (map WS l) (map YS (task_outs l)).
Proof. rewrite <- observed_ws. apply others_none. intros m K. apply in_map_iff in K. destruct K as (x & K & _). discriminate K. Qed.

Definition replays (os : list output) (ys : list youtput) : Prop :=
  exists parts, Forall2 (fun o p => shows (WO (TaskOut o)) p) os parts /\ ys = List.concat parts.

Lemma replays_app a b x y : replays a x -> replays b y -> replays (a ++ b) (x ++ y).
Proof.
  intros (p & P1 & ->) (q & Q1 & ->). exists (p ++ q). split; [apply Forall2_app; assumption|symmetry; apply concat_app].
Qed.
Lemma others_wo l : forall ys, replays (task_outs l) ys -> observed_with_others (map WO l) ys.
Proof.
  assert (K : forall m l ys, task_outs (m :: l) = task_outs l -> (shows (WO m) []) -> observed_with_others (map WO l) ys ->
    observed_with_others (map WO (m :: l)) ys).
  { intros m l0 ys _ S (p & P1 & P2). exists ([] :: p). split; [constructor; assumption|exact P2]. }
  induction l as [|m l IH]; intros ys H.
  - destruct H as (p & P1 & ->). inversion P1; subst. exists []. split; [constructor|reflexivity].
  - destruct m; try (apply K; [reflexivity|reflexivity|apply IH; exact H]).
    destruct H as (p & P1 & ->). cbn [task_outs flat_map app] in P1. inversion P1 as [|? q ? ps H1 H2]; subst.
    destruct (IH (List.concat ps)) as (p & P2 & P3); [exists ps; split; [exact H2|reflexivity]|].
    exists (q :: p). split; [constructor; assumption|]. cbn [List.concat]. congruence.
Qed.

(** ** The order of the client's connections *)
Fixpoint turn_state (cur : option nat) (os : list noutput) : option nat :=
  match os with
  | [] => cur
  | Established g :: os' => turn_state (Some g) os'
  | PeerClosed _ :: os' | Failed :: os' => turn_state None os'
  | _ :: os' => turn_state cur os'
  end.

Lemma in_turn_app a : forall cur b, in_turn cur (a ++ b) <-> in_turn cur a /\ in_turn (turn_state cur a) b.
Proof.
  induction a as [|o a IH]; intros cur b; [cbn; tauto|].
  destruct o; cbn [app in_turn turn_state]; rewrite IH; tauto.
Qed.

Lemma turn_state_app a : forall cur b, turn_state cur (a ++ b) = turn_state (turn_state cur a) b.
Proof. induction a as [|o a IH]; intros cur b; [reflexivity|]. destruct o; cbn [app turn_state]; apply IH. Qed.

Lemma turn_quiet l cur : Forall neutral l -> turn_state cur l = cur.
Proof. induction 1 as [|o l H _ IH]; [reflexivity|]. destruct o; try contradiction H; exact IH. Qed.

Lemma quiet_marks l : Forall quiet_mark l -> Forall neutral (conn_outs l).
Proof. intros H. apply Forall_forall. intros o Ho. exact (quiet_outs l o Ho H). Qed.

Definition untaken (m : mark) : Prop := match m with ConnOut (Write (WTook _ _)) => False | _ => True end.

Lemma took_none l : Forall untaken l -> client_took l = [].
Proof.
  induction 1 as [|m l H _ IH]; [reflexivity|]. cbn [client_took flat_map]. fold (client_took l). rewrite IH, app_nil_r.
  destruct m as [| | |o]; try reflexivity. destruct o as [| | |x| | | | |]; try reflexivity. destruct x; try reflexivity. contradiction H.
Qed.

Lemma quiet_untaken l : Forall quiet_mark l -> Forall untaken l.
Proof.
  apply Forall_impl. intros m. destruct m as [| | |o]; cbn; auto. destruct o as [| | |x| | | | |]; cbn; auto.
Qed.

Lemma pipe_add_nil p g x : pipe_add p g [] x = p x.
Proof. unfold pipe_add. destruct g as [g|]; [|reflexivity]. destruct (Nat.eqb x g); [apply app_nil_r|reflexivity]. Qed.
Lemma pipe_add_upd p g d x : pipe_add p (Some g) d x = upd p g (p g ++ d) x.
Proof. unfold pipe_add, upd. destruct (Nat.eqb x g) eqn:E; [|reflexivity]. apply Nat.eqb_eq in E. subst. reflexivity. Qed.
Lemma pipe_drop_0 p g x : pipe_drop p g 0 x = p x.
Proof. unfold pipe_drop. destruct g as [g|]; [|reflexivity]. destruct (Nat.eqb x g); reflexivity. Qed.
Lemma pipe_drop_upd p g n x : pipe_drop p (Some g) n x = upd p g (skipn n (p g)) x.
Proof. unfold pipe_drop, upd. destruct (Nat.eqb x g) eqn:E; [|reflexivity]. apply Nat.eqb_eq in E. subst. reflexivity. Qed.
Lemma pipe_drop_none p n x : pipe_drop p None n x = p x.
Proof. reflexivity. Qed.

Lemma starts_firstn d : forall l, starts_with l d = true -> firstn (List.length d) l = d.
Proof.
  induction d as [|x d IH]; intros l H; [destruct l; reflexivity|]. destruct l as [|y l]; [discriminate H|].
  cbn [starts_with] in H. apply andb_true_iff in H. destruct H as [H1 H2]. apply N.eqb_eq in H1. subst. cbn. f_equal. apply IH. exact H2.
Qed.

Section Sim.
Context {strict : bool}.
Context {W : Type}.
Local Notation cinv := (@WorldConn.cinv strict).
Context (handler : nat -> W -> expected (list N) -> W * list capi).
Context (pol : copy_policy).

Definition careful (w : world W) (e : wevent) : Prop :=
  match e with
  | WClient (TTransfer o n) => takes_all (cn_writer (tc_conn (wd_client w))) o n
  | WServer (UTransfer c o n) =>
      by_others w c = false -> forall v, us_conns (wd_server w) c = Some v -> takes_all (vn_writer v) o n
  | WClient (TConnected g true _) =>
      let c := tc_conn (wd_client w) in
      In g (cn_connects c) -> cn_socket c = Some g /\ cn_resolves c = 0%nat /\ cn_connects c = [g]
  | WClient (TWritten o true _) =>
      strict = true -> forall x, find_op (wr_ops (cn_writer (tc_conn (wd_client w)))) o = Some x -> w_aborted x = false
  | _ => True
  end.

Lemma careful_both w e : whole_frames w e -> one_attempt w e -> (strict = true -> timely_writes w e) -> careful w e.
Proof. intros A B D. destruct e as [[]|[]| |]; cbn in *; try exact Logic.I; try exact A; destruct ok; try exact Logic.I; [exact B|exact D]. Qed.

(** ** The client *)
Record cpart (t : tclient W) (n : net W) : Prop := {
  cp_channel : n_client n = tc_channel t;
  cp_user : n_user n = tc_user t;
  cp_conn : cinv (tc_conn t) (n_cur n) (n_out n);
  cp_down : goes_down (tc_conn t) -> cc_shutdown (n_client n) = true;
  cp_reading : upright (tc_conn t) -> n_reading n = true
}.

Definition turned (n : net W) : option nat := if n_reading n then Some (n_cur n) else None.

Definition same_server (n n' : net W) : Prop :=
  n_server n' = n_server n /\ n_db n' = n_db n /\ n_link n' = n_link n /\ n_sout n' = n_sout n /\ n_dead n' = n_dead n.

Lemma turn_parts t n order e xs t' l : cpart t n -> channel_turn handler pol t order e xs = Ret (t', l) ->
  exists s w o, client_step handler pol (n_client n) (n_user n) e = Ret (s, w, o) /\ channel_outs l = o /\ Forall quiet_mark l /\
    tc_channel t' = s /\ tc_user t' = w /\ cinv (tc_conn t') (n_cur n) (latest (n_out n) o) /\
    (goes_down (tc_conn t') -> cc_shutdown s = true) /\ (upright (tc_conn t') -> upright (tc_conn t)).
Proof.
  intros [P1 P2 P3 P4 P5] E. unfold channel_turn in E. rewrite <- P1, <- P2 in E.
  destruct (client_step handler pol (n_client n) (n_user n) e) as [[[s w] o]|] eqn:E1; [|discriminate E]. cbn [obind] in E.
  destruct (to_conn (tc_conn t) o xs) as [[c l1]|] eqn:E2; [|discriminate E]. cbn [obind] in E. injection E as <- <-.
  destruct (ci_to_conn _ _ _ _ _ _ _ P3 E2) as (H1 & H2 & H3 & H4 & H5).
  exists s, w, o. split; [reflexivity|]. split; [exact H2|]. split; [constructor; [exact Logic.I|exact H3]|].
  split; [reflexivity|]. split; [reflexivity|]. split; [exact H1|].
  split; [|exact H5]. intros G. eapply step_shutdown; [exact E1|]. destruct (H4 G) as [K|K]; [left; apply P4; exact K|right; exact K].
Qed.

(** The result of a turn of the client. *)
Definition client_done (n : net W) (tm : list mark) (t' : tclient W) (up down : nat -> list N) (l : list mark) : Prop :=
  exists n', nsteps handler pol n (map YC (channel_outs l)) n' /\ cpart t' n' /\
    turn_state None (conn_outs (tm ++ l)) = turned n' /\ (forall g, up g = n_up n' g) /\ (forall g, down g = n_down n' g) /\ same_server n n'.

Ltac ns := cbn [set_client set_server set_pipes set_conns set_cur n_client n_user n_server n_db n_cur n_reading n_out n_up n_down n_link n_sout n_dead] in *.

Lemma plain_turn t n tm order e xs t' l up down : cpart t n -> turn_state None (conn_outs tm) = turned n -> plain e ->
  channel_turn handler pol t order e xs = Ret (t', l) ->
  (forall g, up g = n_up n g) -> (forall g, down g = n_down n g) ->
  client_done n tm t' (pipe_add up (cn_socket (tc_conn t)) (client_took l)) down l.
Proof.
  intros P T He E Hu Hd. destruct (turn_parts _ _ _ _ _ _ _ P E) as (s & w & o & E1 & H1 & H2 & H3 & H4 & H5 & H6 & H7).
  exists (set_client n s w (n_reading n) (latest (n_out n) o)). rewrite H1.
  split; [apply nsteps_one; exact (N_client handler pol n e s w o He E1)|].
  split; [constructor; ns; auto; intros K; apply (cp_reading _ _ P); apply H7; exact K|]. split; [rewrite conn_outs_app, turn_state_app, (turn_quiet (conn_outs l)); [exact T|apply quiet_marks; exact H2]|].
  split; [|split; [exact Hd|repeat split; reflexivity]].
  intros g. rewrite (took_none l (quiet_untaken l H2)), pipe_add_nil. apply Hu.
Qed.

Lemma callbacks_neutral os : forall s msg xs, Forall neutral os -> callbacks handler pol s os msg xs = Ret (s, map ConnOut os).
Proof.
  induction os as [|o os IH]; intros s msg xs F; [reflexivity|]. inversion F as [|? ? H1 H2]; subst. cbn [callbacks].
  destruct o; try contradiction H1; cbn [obind]; rewrite (IH _ _ _ H2); reflexivity.
Qed.

Lemma neutral_channel os : channel_outs (map ConnOut os) = [].
Proof. induction os as [|o os IH]; [reflexivity|exact IH]. Qed.
Lemma neutral_conn os : conn_outs (map ConnOut os) = os.
Proof. induction os as [|o os IH]; [reflexivity|]. cbn. f_equal. exact IH. Qed.
Lemma neutral_untaken os : Forall neutral os -> Forall untaken (map ConnOut os).
Proof. intros H. apply quiet_untaken. rewrite Forall_map. exact H. Qed.

(** The connection changes, and tells the channel nothing. *)
Lemma silent_turn t n tm order e msg xs t' l c os up down : cpart t n -> turn_state None (conn_outs tm) = turned n ->
  conn_step (tc_conn t) e = Ret (c, os) -> Forall neutral os ->
  cinv c (n_cur n) (n_out n) -> (goes_down c -> goes_down (tc_conn t)) -> (upright c -> upright (tc_conn t)) ->
  conn_turn handler pol t order e msg xs = Ret (t', l) ->
  (forall g, up g = n_up n g) -> (forall g, down g = n_down n g) ->
  client_done n tm t' (pipe_add up (cn_socket (tc_conn t)) (client_took l)) down l.
Proof.
  intros [P1 P2 P3 P4 P5] T Ec F V G Up E Hu Hd. unfold conn_turn in E. rewrite Ec in E. cbn [obind] in E.
  rewrite callbacks_neutral in E by exact F. cbn [obind] in E. injection E as <- <-.
  exists n. cbn [channel_outs flat_map app]. fold (channel_outs (map ConnOut os)). rewrite neutral_channel. split; [constructor|].
  split; [constructor; cbn [tc_channel tc_user tc_conn]; auto|].
  split; [rewrite conn_outs_app, turn_state_app, T; cbn [conn_outs flat_map app]; fold (conn_outs (map ConnOut os)); rewrite neutral_conn; apply turn_quiet; exact F|].
  split; [|split; [exact Hd|repeat split; reflexivity]].
  intros g. rewrite took_none; [rewrite pipe_add_nil; apply Hu|]. constructor; [exact Logic.I|apply neutral_untaken; exact F].
Qed.

(** The connection fails. *)
Lemma failed_turn t n tm order e msg xs t' l c pre up down : cpart t n ->
  conn_step (tc_conn t) e = Ret (c, pre ++ [Failed]) -> Forall neutral pre ->
  cinv c (n_cur n) (n_out n) -> (goes_down c -> goes_down (tc_conn t)) -> ~ upright c ->
  conn_turn handler pol t order e msg xs = Ret (t', l) ->
  (forall g, up g = n_up n g) -> (forall g, down g = n_down n g) ->
  client_done n tm t' (pipe_add up (cn_socket (tc_conn t)) (client_took l)) down l.
Proof.
  intros [P1 P2 P3 P4 P5] Ec F V G Up E Hu Hd. unfold conn_turn in E. rewrite Ec in E. cbn [obind] in E.
  match type of E with context [callbacks _ _ ?s _ _ _] => set (t1 := s) in E end.
  assert (Q : cpart t1 n) by (constructor; cbn [t1 tc_channel tc_user tc_conn]; auto; contradiction).
  assert (K : exists l1, channel_turn handler pol t1 (tc_order t1) (CError msg) xs = Ret (t', l1) /\ l = ConnIn e :: map ConnOut pre ++ ConnOut Failed :: l1).
  { clear Ec V G Up Q. clearbody t1. revert l E. induction F as [|o pre H1 H2 IH]; intros l E.
    - cbn [app callbacks obind] in E. destruct (channel_turn handler pol t1 (tc_order t1) (CError msg) xs) as [[t2 l2]|] eqn:Et; [|discriminate E].
      cbn [obind] in E. injection E as <- <-. exists l2. rewrite app_nil_r. split; reflexivity.
    - cbn [app callbacks] in E. destruct o; try contradiction H1; cbn [obind] in E;
        (match type of E with context [callbacks _ _ ?s ?os ?m ?x] => destruct (callbacks handler pol s os m x) as [[t2 l2]|] eqn:Et end;
          [|discriminate E]; cbn [obind] in E; injection E as <- <-;
          destruct (IH (ConnIn e :: l2) eq_refl) as (l1 & K1 & K2); exists l1; split; [exact K1|];
          injection K2 as ->; reflexivity). }
  destruct K as (l1 & Et & ->). destruct (turn_parts _ _ _ _ _ _ _ Q Et) as (s & w & o & E1 & H1 & H2 & H3 & H4 & H5 & H6 & H7).
  assert (Hc : channel_outs (ConnIn e :: map ConnOut pre ++ ConnOut Failed :: l1) = o).
  { change (channel_outs (map ConnOut pre ++ [ConnOut Failed] ++ l1) = o). rewrite !channel_outs_app, neutral_channel. exact H1. }
  exists (set_client n s w false (latest (n_out n) o)). rewrite Hc.
  split; [apply nsteps_one; exact (N_error handler pol n msg s w o E1)|]. split; [constructor; ns; auto; intros K; apply H7 in K; contradiction|].
  split.
  { rewrite conn_outs_app, turn_state_app. change (turn_state (turn_state None (conn_outs tm)) (conn_outs (map ConnOut pre ++ [ConnOut Failed] ++ l1)) = None).
    rewrite !conn_outs_app, !turn_state_app. cbn [conn_outs flat_map app turn_state]. apply turn_quiet. apply quiet_marks. exact H2. }
  split; [|split; [exact Hd|repeat split; reflexivity]].
  intros g. rewrite took_none; [rewrite pipe_add_nil; apply Hu|]. constructor; [exact Logic.I|]. apply Forall_app. split; [apply neutral_untaken; exact F|].
  constructor; [exact Logic.I|apply quiet_untaken; exact H2].
Qed.

Lemma client_turn_sim (w : world W) n tm e t' l : cpart (wd_client w) n -> turn_state None (conn_outs tm) = turned n ->
  (forall g, wd_up w g = n_up n g) -> (forall g, wd_down w g = n_down n g) ->
  typed_wevent (WClient e) -> careful w (WClient e) ->
  match e with TRead r x _ _ => can_read (wd_down w) (reads_from (tc_conn (wd_client w)) r) x = true | _ => True end ->
  tcp_step handler pol (wd_client w) e = Ret (t', l) ->
  in_turn (turned n) (conn_outs l) ->
  client_done n tm t' (pipe_add (wd_up w) (cn_socket (tc_conn (wd_client w))) (client_took l))
    (match e with TRead r x _ _ => pipe_drop (wd_down w) (reads_from (tc_conn (wd_client w)) r) (read_length x) | _ => wd_down w end) l.
Proof.
  intros P T Hu Hd Ty Ca Hr E Ho. set (t := wd_client w) in *.
  destruct e as [a|xs|tm0|tm0 xs|ok msg|g ok msg|r x msg xs|o k|o ok msg]; cbn [tcp_step] in E.
  - eapply plain_turn; [exact P|exact T| |exact E|exact Hu|exact Hd]. exact Ty.
  - destruct (tc_order t) as [|[|] q] eqn:Eq.
    + injection E as <- <-. exists n. split; [constructor|]. split; [exact P|]. split; [rewrite app_nil_r; exact T|].
      split; [intros g; rewrite pipe_add_nil; apply Hu|]. split; [exact Hd|repeat split; reflexivity].
    + eapply plain_turn; [exact P|exact T| |exact E|exact Hu|exact Hd]. exact Logic.I.
    + destruct (cn_queue (tc_conn t)) as [|[|] q'] eqn:Enq.
      * eapply silent_turn; [exact P|exact T| | | | | |exact E|exact Hu|exact Hd].
        -- cbn [conn_step]. rewrite Enq. reflexivity.
        -- constructor.
        -- exact (cp_conn _ _ P).
        -- auto.
        -- auto.
      * destruct (ClientConn.do_close (with_nqueue (tc_conn t) q')) as [c os] eqn:Ec.
        destruct (ci_do_close _ _ _ _ _ _ (cp_conn _ _ P) Ec) as (V & F & G & Up).
        eapply silent_turn; [exact P|exact T| | | | | |exact E|exact Hu|exact Hd].
        -- cbn [conn_step]. rewrite Enq, Ec. reflexivity.
        -- exact F.
        -- exact V.
        -- intros K. destruct (G K) as [K'|K']; [left; exact K'|right; rewrite Enq; right; exact K'].
        -- contradiction.
      * destruct (ClientConn.do_shutdown (with_nqueue (tc_conn t) q')) as [c os] eqn:Ec.
        destruct (ci_do_shutdown _ _ _ _ _ _ (cp_conn _ _ P) Ec) as (V & Eo & Up).
        eapply silent_turn; [exact P|exact T| | | | | |exact E|exact Hu|exact Hd].
        -- cbn [conn_step]. rewrite Enq, Ec. reflexivity.
        -- rewrite Eo. constructor.
        -- exact V.
        -- intros _. right. rewrite Enq. left. reflexivity.
        -- contradiction.
  - eapply plain_turn; [exact P|exact T| |exact E|exact Hu|exact Hd]. exact Logic.I.
  - eapply plain_turn; [exact P|exact T| |exact E|exact Hu|exact Hd]. exact Logic.I.
  - destruct (cn_resolves (tc_conn t)) as [|m] eqn:Er.
    + eapply silent_turn; [exact P|exact T| | | | | |exact E|exact Hu|exact Hd].
      * cbn [conn_step]. rewrite Er. reflexivity.
      * constructor.
      * exact (cp_conn _ _ P).
      * auto.
      * auto.
    + destruct (resolve_handler (with_resolves (tc_conn t) m) ok) as [c os] eqn:Ec.
      destruct (ci_resolved _ _ _ _ _ _ _ (cp_conn _ _ P) Er Ec) as (V & [Eo|Eo] & G & Up).
      * eapply silent_turn; [exact P|exact T| | |exact V|exact G|contradiction|exact E|exact Hu|exact Hd].
        -- cbn [conn_step]. rewrite Er, Ec. reflexivity.
        -- rewrite Eo. constructor.
      * eapply (failed_turn t n tm _ _ _ _ _ _ c []); [exact P| |constructor|exact V|exact G|exact Up|exact E|exact Hu|exact Hd].
        cbn [conn_step app]. rewrite Er, Ec, Eo. reflexivity.
  - destruct (existsb (Nat.eqb g) (cn_connects (tc_conn t))) eqn:Eg.
    + assert (Hg : In g (cn_connects (tc_conn t))).
      { apply existsb_exists in Eg. destruct Eg as (y & Hy & Ey). apply Nat.eqb_eq in Ey. subst. exact Hy. }
      set (c0 := with_connects (tc_conn t) (filter (fun x => negb (Nat.eqb x g)) (cn_connects (tc_conn t)))) in *.
      destruct (connect_handler c0 g ok) as [c os] eqn:Ec.
      assert (Es : conn_step (tc_conn t) (NConnected g ok) = Ret (c, os)) by (cbn [conn_step]; rewrite Eg; fold c0; rewrite Ec; reflexivity).
      destruct ok.
      * cbn [careful] in Ca. destruct (Ca Hg) as (K1 & K2 & K3).
        destruct (ci_now_connected _ _ _ _ _ _ (cp_conn _ _ P) Hg K1 K2 K3 Ec) as [(_ & V & Eo & G & Up)|(V & Hlt & G & Hout & os' & Eo & F)].
        -- eapply silent_turn; [exact P|exact T|exact Es|rewrite Eo; constructor|exact V|exact G|first [exact Up|contradiction]|exact E|exact Hu|exact Hd].
        -- unfold conn_turn in E. rewrite Es in E. cbn [obind] in E. subst os.
           match type of E with context [callbacks _ _ ?s _ _ _] => set (t1 := s) in E end.
           cbn [callbacks obind] in E. rewrite callbacks_neutral in E by exact F. cbn [obind app] in E. injection E as <- <-.
           assert (Hread : n_reading n = false).
           { cbn [conn_outs flat_map app in_turn] in Ho. destruct Ho as [Ho _]. unfold turned in Ho. destruct (n_reading n); [discriminate Ho|reflexivity]. }
           exists (set_cur n g). cbn [channel_outs flat_map app]. fold (channel_outs (map ConnOut os')). rewrite neutral_channel.
           split; [apply nsteps_one; exact (N_connect handler pol n g Hread Hlt Hout)|].
           split; [constructor; ns; cbn [t1 tc_channel tc_user tc_conn]; [apply (cp_channel _ _ P)|apply (cp_user _ _ P)|exact V|intros K; apply (cp_down _ _ P); apply G; exact K|reflexivity]|].
           split.
           { rewrite conn_outs_app, turn_state_app. cbn [conn_outs flat_map app turn_state]. fold (conn_outs (map ConnOut os')). rewrite neutral_conn.
             rewrite turn_quiet by exact F. reflexivity. }
           split; [|split; [exact Hd|repeat split; reflexivity]].
           intros y. rewrite took_none; [rewrite pipe_add_nil; apply Hu|]. constructor; [exact Logic.I|]. constructor; [exact Logic.I|apply neutral_untaken; exact F].
      * destruct (ci_not_connected _ _ _ _ _ _ (cp_conn _ _ P) Ec) as (V & [Eo|Eo] & G & Up).
        -- eapply silent_turn; [exact P|exact T|exact Es|rewrite Eo; constructor|exact V|exact G|first [exact Up|contradiction]|exact E|exact Hu|exact Hd].
        -- eapply (failed_turn t n tm _ _ _ _ _ _ c []); [exact P| |constructor|exact V|exact G|exact Up|exact E|exact Hu|exact Hd].
           cbn [app]. rewrite Es, Eo. reflexivity.
    + eapply silent_turn; [exact P|exact T| | | | | |exact E|exact Hu|exact Hd].
      * cbn [conn_step]. rewrite Eg. reflexivity.
      * constructor.
      * exact (cp_conn _ _ P).
      * auto.
      * auto.
  - destruct (conn_step (tc_conn t) (NRead r x)) as [[c os]|] eqn:Es; [|unfold conn_turn in E; rewrite Es in E; discriminate E].
    destruct (ci_read _ _ _ _ _ _ _ (cp_conn _ _ P) Es) as (V & G & Up & Hx). destruct x as [d| |].
    + destruct (reads_from (tc_conn t) r) as [g|] eqn:Ef.
      * cbn [can_read] in Hr. assert (Hf : firstn (List.length d) (n_down n g) = d).
        { rewrite <- Hd. apply starts_firstn. destruct d; [discriminate Hr|exact Hr]. }
        destruct Hx as [[Hs Eo]|Eo].
        -- unfold conn_turn in E. rewrite Es, Eo in E. cbn [obind callbacks] in E. injection E as <- <-.
           exists (set_pipes n (n_up n) (upd (n_down n) g (skipn (List.length d) (n_down n g)))).
           split; [apply nsteps_one; apply (N_lose handler pol n g (List.length d)); right; right; apply (cp_down _ _ P); left; exact Hs|].
           split; [constructor; ns; cbn [tc_channel tc_user tc_conn]; [apply (cp_channel _ _ P)|apply (cp_user _ _ P)|exact V|intros K; apply (cp_down _ _ P); apply G; exact K|intros K; apply (cp_reading _ _ P); apply Up; exact K]|].
           split; [rewrite conn_outs_app, turn_state_app; exact T|].
           split; [intros y; cbn [client_took flat_map app]; rewrite pipe_add_nil; apply Hu|].
           split; [|repeat split; reflexivity]. intros y. ns. rewrite pipe_drop_upd. cbn [read_length]. unfold upd.
           destruct (Nat.eqb y g); rewrite Hd; reflexivity.
        -- unfold conn_turn in E. rewrite Es, Eo in E. cbn [obind callbacks] in E.
           match type of E with context [channel_turn _ _ ?s _ _ _] => set (t1 := s) in E end.
           destruct (channel_turn handler pol t1 (tc_order t1) (CReceive d) xs) as [[t2 l2]|] eqn:Et; [|discriminate E].
           cbn [obind] in E. injection E as <- <-. rewrite app_nil_r in *.
           assert (Q : cpart t1 n) by (constructor; cbn [t1 tc_channel tc_user tc_conn]; [apply (cp_channel _ _ P)|apply (cp_user _ _ P)|exact V|intros K; apply (cp_down _ _ P); apply G; exact K|intros K; apply (cp_reading _ _ P); apply Up; exact K]).
           destruct (turn_parts _ _ _ _ _ _ _ Q Et) as (s & u & o & E1 & H1 & H2 & H3 & H4 & H5 & H6 & H7).
           cbn [conn_outs flat_map app in_turn] in Ho. destruct Ho as [Hcur _].
           assert (Hread : n_reading n = true /\ n_cur n = g).
           { unfold turned in Hcur. destruct (n_reading n); [injection Hcur as ->; auto|discriminate Hcur]. }
           destruct Hread as [Hread <-].
           rewrite <- Hf in E1.
           exists (set_pipes (set_client n s u true (latest (n_out n) o)) (n_up n) (upd (n_down n) (n_cur n) (skipn (List.length d) (n_down n (n_cur n))))).
           cbn [channel_outs flat_map app]. fold (channel_outs l2). rewrite H1.
           split; [apply nsteps_one; exact (N_data handler pol n (List.length d) s u o Hread E1)|].
           split; [constructor; ns; auto|].
           split.
           { rewrite conn_outs_app, turn_state_app, T. cbn [conn_outs flat_map app turn_state]. fold (conn_outs l2).
             rewrite turn_quiet by (apply quiet_marks; exact H2). unfold turned. ns. rewrite Hread. reflexivity. }
           split; [intros y; rewrite took_none; [rewrite pipe_add_nil; apply Hu|]; constructor; [exact Logic.I|]; constructor; [exact Logic.I|apply quiet_untaken; exact H2]|].
           split; [|repeat split; reflexivity]. intros y. ns. rewrite pipe_drop_upd. cbn [read_length]. unfold upd.
           destruct (Nat.eqb y (n_cur n)); rewrite Hd; reflexivity.
      * cbn [can_read] in Hr. discriminate Hr.
    + assert (Hd' : forall g, pipe_drop (wd_down w) (reads_from (tc_conn t) r) (read_length REof) g = n_down n g).
      { intros g. cbn [read_length]. rewrite pipe_drop_0. apply Hd. }
      destruct (reads_from (tc_conn t) r) as [g|] eqn:Ef; [|discriminate Hr].
      destruct Hx as [Eo|[Eo Up']].
      * eapply silent_turn; [exact P|exact T|exact Es|rewrite Eo; constructor|exact V|exact G|first [exact Up|contradiction]|exact E|exact Hu|exact Hd'].
      * unfold conn_turn in E. rewrite Es, Eo in E. cbn [obind callbacks] in E. injection E as <- <-.
        cbn [conn_outs flat_map app in_turn] in Ho. destruct Ho as [Hcur _].
        assert (Hread : n_reading n = true /\ n_cur n = g).
        { unfold turned in Hcur. destruct (n_reading n); [injection Hcur as ->; auto|discriminate Hcur]. }
        destruct Hread as [Hread <-].
        exists (set_client n (n_client n) (n_user n) false (n_out n)).
        split; [apply nsteps_one; apply (N_stop handler pol n); rewrite <- Hd; cbn [can_read] in Hr; destruct (wd_down w (n_cur n)); [reflexivity|discriminate Hr]|].
        split; [constructor; ns; cbn [tc_channel tc_user tc_conn]; [apply (cp_channel _ _ P)|apply (cp_user _ _ P)|exact V|intros K; apply (cp_down _ _ P); apply G; exact K|intros K; contradiction]|].
        split; [rewrite conn_outs_app, turn_state_app; reflexivity|].
        split; [intros y; cbn [client_took flat_map app]; rewrite pipe_add_nil; apply Hu|].
        split; [exact Hd'|repeat split; reflexivity].
    + assert (Hd' : forall g, pipe_drop (wd_down w) (reads_from (tc_conn t) r) (read_length RError) g = n_down n g).
      { intros g. cbn [read_length]. rewrite pipe_drop_0. apply Hd. }
      destruct Hx as [Eo|[Eo Up']].
      * eapply silent_turn; [exact P|exact T|exact Es|rewrite Eo; constructor|exact V|exact G|first [exact Up|contradiction]|exact E|exact Hu|exact Hd'].
      * eapply (failed_turn t n tm _ _ _ _ _ _ c []); [exact P| |constructor|exact V|exact G|exact Up'|exact E|exact Hu|exact Hd'].
        cbn [app]. rewrite Es, Eo. reflexivity.
  - destruct (conn_step (tc_conn t) (NTransfer o k)) as [[c os]|] eqn:Es; [|unfold conn_turn in E; rewrite Es in E; discriminate E].
    destruct (ci_transfer _ _ _ _ _ _ _ (cp_conn _ _ P) Es Ca) as [(V & Eo & G & Up)|(d & Hout & Eo & Hso & V & G & Up)].
    + eapply silent_turn; [exact P|exact T|exact Es|rewrite Eo; constructor|exact V|exact G|first [exact Up|contradiction]|exact E|exact Hu|exact Hd].
    + unfold conn_turn in E. rewrite Es, Eo in E. cbn [obind callbacks] in E. injection E as <- <-.
      exists (set_client (set_pipes n (upd (n_up n) (n_cur n) (n_up n (n_cur n) ++ d)) (n_down n)) (n_client n) (n_user n) (n_reading n) None).
      split; [apply nsteps_one; exact (N_transmit handler pol n d Hout)|].
      split; [constructor; ns; cbn [tc_channel tc_user tc_conn]; [apply (cp_channel _ _ P)|apply (cp_user _ _ P)|exact V|intros K; apply (cp_down _ _ P); apply G; exact K|intros K; apply (cp_reading _ _ P); apply Up; exact K]|].
      split; [rewrite conn_outs_app, turn_state_app; exact T|].
      split; [|split; [exact Hd|repeat split; reflexivity]].
      intros y. ns. cbn [client_took flat_map app]. rewrite app_nil_r, Hso, pipe_add_upd. unfold upd. destruct (Nat.eqb y (n_cur n)); rewrite Hu; reflexivity.
  - destruct (write_handler (tc_conn t) o ok) as [c os] eqn:Ec.
    assert (Hok : strict = true -> ok = true -> forall x, find_op (wr_ops (cn_writer (tc_conn t))) o = Some x -> w_aborted x = false)
      by (intros K1 K2; subst ok; exact (Ca K1)).
    destruct (ci_written _ _ _ _ _ _ _ (cp_conn _ _ P) Ec Hok) as (V & G & Up & [F|[Eo Up']]).
    + eapply silent_turn; [exact P|exact T| |exact F|exact V|exact G|exact Up|exact E|exact Hu|exact Hd]. cbn [conn_step]. rewrite Ec. reflexivity.
    + eapply (failed_turn t n tm _ _ _ _ _ _ c [Write (WFailed o)]); [exact P| |repeat constructor|exact V|exact G|exact Up'|exact E|exact Hu|exact Hd].
      cbn [conn_step app]. rewrite Ec, Eo. reflexivity.
Qed.
End Sim.
