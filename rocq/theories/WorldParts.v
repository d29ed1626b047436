(** The two sides of the whole are those of ClientTcp.v and ServerTcp.v: the answers
    of the database are those of sessions that are told in advance what to answer. *)
From Verif Require Import Prelude Ser4 Messages Mbap Client Server Database System.
From Verif Require Import AsyncWrite ClientConn ClientTcp Listener ServerConn ServerTcp World.
From Verif Require Import SpecPdu SpecMbap SpecClient SpecServer SpecDb SpecConn SpecListener SpecClientTcp SpecServerTcp SpecSystem SpecWorld.
From Verif Require Import ParseReqFacts MbapFacts ServerFacts ServerLemmas DatabaseFacts DbLemmas SystemServe ServerConnFacts ServerConnMore.
From Verif Require Import ServerTcpTrack ServerTcpLink ServerTcpTurns ServerTcpSteps ServerTcpFacts ServerTcpTotal.
From Verif Require Import TcpOrder TcpLemmas TcpBehaviour.
From Coq Require Import Lia.

(** ** Sessions with prescribed answers *)
Definition fine (a : expected response) : Prop := match a with Value r => typed_response r | Error _ => True end.
Definition reply_value : Type := { a : expected response | fine a }.

Definition scripted (x : N) (l : list reply_value) (r : request) : list reply_value * expected response * list api :=
  match l with
  | [] => ([], unknown_address, [])
  | a :: l' =>
      (l', match proj1_sig a with
           | Value v => if response_code v =? spec_function_code r then Value v else unknown_address
           | Error e => Error e
           end, [])
  end.
Definition unscripted (x : N) (l : list reply_value) : list reply_value * list api := (l, []).

Lemma scripted_well_typed : well_typed scripted.
Proof.
  intros x w r w' resp calls. unfold scripted. destruct w as [|[a Ha] w]; [discriminate|]. cbn [proj1_sig].
  destruct a as [v|e]; [|discriminate]. destruct (N.eqb_spec (response_code v) (spec_function_code r)) as [E|E]; [|discriminate].
  intros K. injection K as <- <- <-. split; [exact Ha|exact E].
Qed.

Lemma scripted_not_start : sessions_do_not_start scripted unscripted.
Proof.
  split.
  - intros x w r w' a calls. unfold scripted. destruct w as [|b w]; intros K; injection K as _ _ <-; intros [].
  - intros x w w' calls K. injection K as _ <-. intros [].
Qed.

Lemma answers_code r resp : answers_shape r resp -> response_code resp = spec_function_code r.
Proof. destruct r, resp; cbn; intros H; try destruct H; reflexivity. Qed.

(** What the database answers can be prescribed. *)
Lemma db_scripted x d r : wf d -> legal_request r ->
  exists d' a l, db_session x d r = (d', a, []) /\ wf d' /\ forall rest, scripted x (l ++ rest) r = (rest, a, []).
Proof.
  intros Hw Hl. destruct (on_request_spec d r Hw (legal_typed _ Hl)) as (d' & v & E & Hw' & Hs).
  exists d', v. unfold db_session. rewrite E.
  assert (K : exists a : reply_value, proj1_sig a = v /\ match v with Value y => response_code y = spec_function_code r | _ => True end).
  { destruct (answer_shape _ _ _ _ Hw Hl Hs) as [(resp & -> & Ht & Ha)| ->].
    - exists (exist fine (Value resp) Ht). split; [reflexivity|]. apply answers_code, Ha.
    - exists (exist fine unknown_address Logic.I). split; [reflexivity|exact Logic.I]. }
  destruct K as (a & Ea & K). exists [a]. split; [reflexivity|]. split; [exact Hw'|].
  intros rest. unfold scripted. cbn [app]. rewrite Ea. destruct v as [y|e]; [|reflexivity]. rewrite (proj2 (N.eqb_eq _ _) K). reflexivity.
Qed.

(** ** The channel *)
Section Channel.
Context (pol : copy_policy).
Notation dstep := (server_step db_session db_shutdown pol).
Notation sstep := (server_step scripted unscripted pol).

Lemma mbap_scripted s d c m : wf d -> typed_message m ->
  exists s' d' os l, on_mbap db_session s d c m = Ret (s', d', os) /\ wf d' /\
    forall rest, on_mbap scripted s (l ++ rest) c m = Ret (s', rest, os).
Proof.
  intros Hw (Hu & Ht & Hb). unfold on_mbap. destruct (sv_shutdown s); [exists s, d, [], []; auto|].
  destruct (find_session (sv_sessions s) (mb_unit m)) as [x|]; [|exists s, d, [], []; auto].
  destruct (mb_data m) as [|fc rest0] eqn:Em; [exists s, d, [], []; auto|].
  replace (size (fc :: rest0) <? 1) with false by (symmetry; apply N.ltb_ge; unfold size; cbn [List.length]; lia). cbn [rd8 read_u8].
  destruct (request_parser fc) as [p|] eqn:Ep; [|do 3 eexists; exists []; auto].
  unfold process_message. rewrite Em.
  destruct (parse_outcomes fc _ p Ep Hb) as [(r & H1 & _ & _ & ->)|[[_ ->]| ->]]; cbn [obind];
    try (do 3 eexists; exists []; split; [reflexivity|]; split; [exact Hw|]; reflexivity).
  destruct (db_scripted x d r Hw H1) as (d' & a & l & -> & Hw' & Hl). cbn [api_calls fold_left].
  destruct a as [v|e].
  - do 3 eexists. exists l. split; [reflexivity|]. split; [exact Hw'|]. intros rest. rewrite Hl. reflexivity.
  - destruct e; do 3 eexists; exists l; (split; [reflexivity|]; split; [exact Hw'|]; intros rest; rewrite Hl; reflexivity).
Qed.

Lemma messages_scripted c ms : forall s d, wf d -> Forall typed_message ms ->
  exists s' d' os l, on_messages db_session s d c ms = Ret (s', d', os) /\ wf d' /\
    forall rest, on_messages scripted s (l ++ rest) c ms = Ret (s', rest, os).
Proof.
  induction ms as [|m ms IH]; intros s d Hw Hm; cbn [on_messages]; [exists s, d, [], []; auto|].
  apply Forall_cons_iff in Hm as [Hm Hms].
  destruct (mbap_scripted s d c m Hw Hm) as (s1 & d1 & o1 & l1 & -> & Hw1 & H1). cbn [obind].
  destruct (IH s1 d1 Hw1 Hms) as (s2 & d2 & o2 & l2 & -> & Hw2 & H2). cbn [obind].
  exists s2, d2, (o1 ++ o2), (l1 ++ l2). split; [reflexivity|]. split; [exact Hw2|]. intros rest.
  rewrite <- app_assoc, H1. cbn [obind]. rewrite H2. reflexivity.
Qed.

Lemma sessions_scripted l : forall s d (r : list reply_value), exists s' os,
  shutdown_sessions db_shutdown s d l = (s', d, os) /\ shutdown_sessions unscripted s r l = (s', r, os).
Proof.
  induction l as [|[u x] l IH]; intros s d r; cbn [shutdown_sessions]; [eauto|]. cbn [db_shutdown unscripted api_calls fold_left].
  destruct (IH s d r) as (s' & os & -> & ->). eauto.
Qed.

(** A step in which no frame is served. *)
Lemma step_unscripted s d e (r : list reply_value) : match e with EReceive _ _ => False | _ => True end ->
  exists s' os, dstep s d e = Ret (s', d, os) /\ sstep s r e = Ret (s', r, os).
Proof.
  intros K. destruct e as [a| |c buf|c x|c]; try destruct K; cbn [server_step]; eauto.
  - destruct (sv_queue s) as [|t q]; [eauto|]. destruct t as [| |u x]; cbn [run_task]; try (destruct (sv_shutdown _); eauto; fail).
    match goal with |- context [shutdown_sessions db_shutdown ?a ?b ?l] => destruct (sessions_scripted l a b r) as (s' & os & -> & ->) end. eauto.
  - destruct (sv_conns s c); eauto.
Qed.

Lemma step_scripted s d e : wf d -> conns_ok pol s -> typed_event e ->
  exists s' d' os l, dstep s d e = Ret (s', d', os) /\ wf d' /\ forall rest, sstep s (l ++ rest) e = Ret (s', rest, os).
Proof.
  intros Hw Hc He.
  assert (Q : match e with EReceive _ _ => False | _ => True end -> exists s' d' os l, dstep s d e = Ret (s', d', os) /\ wf d' /\
    forall rest, sstep s (l ++ rest) e = Ret (s', rest, os)).
  { intros K. destruct (step_unscripted s d e [] K) as (s' & os & E & _). exists s', d, os, [].
    split; [exact E|]. split; [exact Hw|]. intros rest. cbn [app]. destruct (step_unscripted s d e rest K) as (s2 & os2 & E2 & E3). congruence. }
  destruct e as [a| |c buf|c x|c]; try (apply Q; exact Logic.I).
  cbn [typed_event server_step] in *. destruct (sv_conns s c) as [p|] eqn:Ep; [|exists s, d, [], []; auto].
  destruct (Hc c p Ep) as (t & HR). destruct (parse_spec pol p t x HR He) as (p' & t' & items & ms & -> & Hty & _ & _ & Hm & _). cbn [obind].
  apply messages_scripted; [exact Hw|]. exact (matches_typed _ _ _ Hty Hm).
Qed.
End Channel.

(** ** The acceptor and the connections *)
Definition over (h : tserver db) (l : list reply_value) : tserver (list reply_value) :=
  {| us_channel := us_channel h; us_user := l; us_listener := us_listener h; us_conns := us_conns h; us_order := us_order h |}.

Notation dres := (outcome (tserver db * list smark)).
Notation sres := (outcome (tserver (list reply_value) * list smark)).

(** Nothing is asked. *)
Definition passes (d : db) (l : list reply_value) (f : dres) (g : sres) : Prop :=
  match f with Ret (h, m) => us_user h = d /\ g = Ret (over h l, m) | UB => g = UB end.

Lemma passes_ret d l h m : us_user h = d -> passes d l (Ret (h, m)) (Ret (over h l, m)).
Proof. intros H. split; [exact H|reflexivity]. Qed.

Lemma passes_bind d l f g F G : passes d l f g ->
  (forall h m, us_user h = d -> passes d l (F (h, m)) (G (over h l, m))) -> passes d l (obind f F) (obind g G).
Proof.
  intros H K. destruct f as [[h m]|]; cbn [passes] in H.
  - destruct H as [Hu ->]. cbn [obind]. apply K. exact Hu.
  - rewrite H. reflexivity.
Qed.

Lemma over_conn h l c v : with_conn (over h l) c v = over (with_conn h c v) l. Proof. reflexivity. Qed.

Section Steps.
Context (pol : copy_policy).

Lemma peer_step_passes d l h c e : us_user h = d -> passes d l (peer_step h c e) (peer_step (over h l) c e).
Proof.
  intros Hu. unfold peer_step. cbn [over us_conns]. destruct (us_conns h c) as [v|]; [|apply passes_ret; exact Hu].
  destruct (vconn_step v e) as [[v' o]|]; cbn [obind]; [|reflexivity]. apply (passes_ret d l (with_conn h c v')). exact Hu.
Qed.

Lemma close_conns_passes d l k : forall h, us_user h = d -> passes d l (close_conns h k) (close_conns (over h l) k).
Proof.
  induction k as [|c k IH]; intros h Hu; cbn [close_conns]; [apply passes_ret; exact Hu|].
  apply passes_bind; [apply peer_step_passes; exact Hu|]. intros h1 m1 Hu1. cbv beta iota.
  apply passes_bind; [apply IH; exact Hu1|]. intros h2 m2 Hu2. apply passes_ret. exact Hu2.
Qed.

Lemma serve_passes d l h c buf : us_user h = d ->
  passes d l (serve db_session db_shutdown pol h c buf) (serve scripted unscripted pol (over h l) c buf).
Proof.
  intros Hu. unfold serve. cbn [server_step obind over us_listener us_channel us_user].
  destruct (v_start _) as [v ov]. split; [exact Hu|reflexivity].
Qed.

Lemma listener_outputs_passes d l k buf os : forall h, us_user h = d ->
  passes d l (listener_outputs db_session db_shutdown pol h k buf os) (listener_outputs scripted unscripted pol (over h l) k buf os).
Proof.
  induction os as [|o os IH]; intros h Hu; cbn [listener_outputs]; [apply passes_ret; exact Hu|].
  apply passes_bind.
  - destruct o; try (apply passes_ret; exact Hu); auto using peer_step_passes, close_conns_passes, serve_passes.
  - intros h1 m1 Hu1. cbv beta iota. apply passes_bind; [apply IH; exact Hu1|]. intros h2 m2 Hu2. apply passes_ret. exact Hu2.
Qed.

Lemma listener_turn_passes d l h e buf : us_user h = d ->
  passes d l (listener_turn db_session db_shutdown pol h e buf) (listener_turn scripted unscripted pol (over h l) e buf).
Proof.
  intros Hu. unfold listener_turn. cbn [over us_listener us_order].
  destruct (aserver_step (us_listener h) e) as [[a os]|]; cbn [obind]; [|reflexivity].
  apply passes_bind.
  - match goal with |- passes _ _ (listener_outputs _ _ _ ?a ?b ?c ?e) _ => apply (listener_outputs_passes d l b c e a) end. exact Hu.
  - intros h2 m2 Hu2. apply passes_ret. exact Hu2.
Qed.

Lemma channel_outputs_passes d l os : forall h, us_user h = d ->
  passes d l (channel_outputs db_session db_shutdown pol h os) (channel_outputs scripted unscripted pol (over h l) os).
Proof.
  induction os as [|o os IH]; intros h Hu; cbn [channel_outputs]; [apply passes_ret; exact Hu|].
  apply passes_bind.
  - destruct o; try (apply passes_ret; exact Hu); auto using peer_step_passes, listener_turn_passes.
  - intros h1 m1 Hu1. cbv beta iota. apply passes_bind; [apply IH; exact Hu1|]. intros h2 m2 Hu2. apply passes_ret. exact Hu2.
Qed.

Lemma listener_run_passes d l h : us_user h = d ->
  passes d l (listener_run db_session db_shutdown pol h) (listener_run scripted unscripted pol (over h l)).
Proof.
  intros Hu. unfold listener_run. cbn [over us_listener].
  destruct (as_queue (us_listener h)) as [|[| |c] q]; auto using listener_turn_passes.
  apply passes_bind; [apply peer_step_passes; exact Hu|]. intros h1 m1 Hu1. cbv beta iota.
  apply passes_bind; [apply listener_turn_passes; exact Hu1|]. intros h2 m2 Hu2. apply passes_ret. exact Hu2.
Qed.

(** Something may be asked. *)
Definition tracked (f : dres) (g : list reply_value -> sres) : Prop :=
  exists l, match f with
            | Ret (h, m) => wf (us_user h) /\ forall rest, g (l ++ rest) = Ret (over h rest, m)
            | UB => forall rest, g (l ++ rest) = UB
            end.

Lemma passes_tracked d f g : wf d -> (forall l, passes d l f (g l)) -> tracked f g.
Proof.
  intros Hw H. exists []. destruct f as [[h m]|] eqn:E; cbn [passes] in H.
  - split; [rewrite (proj1 (H [])); exact Hw|]. intros rest. exact (proj2 (H rest)).
  - exact H.
Qed.

Lemma task_turn_tracked h e : wf (us_user h) -> conns_ok pol (us_channel h) -> typed_event e ->
  tracked (task_turn db_session db_shutdown pol h e) (fun l => task_turn scripted unscripted pol (over h l) e).
Proof.
  intros Hw Hc He. unfold task_turn. destruct (step_scripted pol (us_channel h) (us_user h) e Hw Hc He) as (ch & d & os & l & -> & Hw' & Hl).
  cbn [obind over us_channel us_user].
  assert (P := fun r => channel_outputs_passes d r os (with_channel h ch d) eq_refl). unfold passes in P. exists l.
  destruct (channel_outputs db_session db_shutdown pol (with_channel h ch d) os) as [[h2 m2]|] eqn:E; cbn [obind].
  - split; [cbn [with_order us_user]; rewrite (proj1 (P [])); exact Hw'|]. intros rest. rewrite Hl. cbn [obind].
    change (with_channel (over h (l ++ rest)) ch rest) with (over (with_channel h ch d) rest). rewrite (proj2 (P rest)). reflexivity.
  - intros rest. rewrite Hl. cbn [obind]. change (with_channel (over h (l ++ rest)) ch rest) with (over (with_channel h ch d) rest). rewrite P. reflexivity.
Qed.

Lemma task_turn_passes h e l : match e with EReceive _ _ => False | _ => True end ->
  passes (us_user h) l (task_turn db_session db_shutdown pol h e) (task_turn scripted unscripted pol (over h l) e).
Proof.
  intros K. unfold task_turn. destruct (step_unscripted pol (us_channel h) (us_user h) e l K) as (ch & os & -> & E).
  cbn [obind over us_channel us_user]. rewrite E. cbn [obind].
  apply passes_bind; [apply (channel_outputs_passes (us_user h) l os (with_channel h ch (us_user h)) eq_refl)|].
  intros h2 m2 Hu2. apply (passes_ret _ l (with_order h2 _)). exact Hu2.
Qed.

Lemma peer_outputs_passes d l c os : (forall x, ~ In (VReceived x) os) -> forall h, us_user h = d ->
  passes d l (peer_outputs db_session db_shutdown pol h c os) (peer_outputs scripted unscripted pol (over h l) c os).
Proof.
  induction os as [|o os IH]; intros N h Hu; cbn [peer_outputs]; [apply passes_ret; exact Hu|].
  apply passes_bind.
  - destruct o; try (apply passes_ret; exact Hu); auto using listener_turn_passes.
    + match goal with |- context [EReceive _ ?x] => destruct (N x); left; reflexivity end.
    + subst d. apply task_turn_passes. exact Logic.I.
  - intros h1 m1 Hu1. cbv beta iota. apply passes_bind; [apply IH; [|exact Hu1]|].
    + intros x K. apply (N x). right. exact K.
    + intros h2 m2 Hu2. apply passes_ret. exact Hu2.
Qed.

Lemma peer_turn_tracked h c e : wf (us_user h) -> conns_ok pol (us_channel h) -> alive h -> completion e -> typed_vevent e ->
  tracked (peer_turn db_session db_shutdown pol h c e) (fun l => peer_turn scripted unscripted pol (over h l) c e).
Proof.
  intros Hw Hc Ha Ce Te. unfold peer_turn. cbn [over us_conns]. destruct (us_conns h c) as [v|] eqn:C.
  2:{ exists []. split; [exact Hw|reflexivity]. }
  destruct (vconn_step v e) as [[v' os]|] eqn:E; cbn [obind]; [|exists []; reflexivity].
  assert (Q : (forall x, ~ In (VReceived x) os) \/ exists d, bytes d /\ os = [VReceived d]).
  { destruct (completion_shape _ _ _ _ E Ce (Ha c v C)) as (_ & _ & [[_ S]|[(_ & r & d & -> & ->)|(_ & pre & S & ->)]]).
    - left. intros x K. rewrite Forall_forall in S. exact (S _ K).
    - right. exists d. split; [exact Te|reflexivity].
    - left. intros x K. apply in_app_or in K as [K|[K|[K|[]]]]; try discriminate. rewrite Forall_forall in S. exact (S _ K). }
  destruct Q as [Q|(d & Hd & ->)].
  - apply (passes_tracked (us_user h)); [exact Hw|]. intros l. apply passes_bind.
    + apply (peer_outputs_passes (us_user h) l c os Q (with_conn h c v') eq_refl).
    + intros h2 m2 Hu2. apply passes_ret. exact Hu2.
  - cbn [peer_outputs]. destruct (task_turn_tracked (with_conn h c v') (EReceive (N.of_nat c) d) Hw Hc Hd) as (l & T).
    exists l. destruct (task_turn db_session db_shutdown pol (with_conn h c v') (EReceive (N.of_nat c) d)) as [[h2 m2]|]; cbn [obind].
    + destruct T as [T1 T2]. split; [exact T1|]. intros rest. rewrite over_conn, T2. reflexivity.
    + intros rest. rewrite over_conn, T. reflexivity.
Qed.

Lemma userver_step_tracked h e : wf (us_user h) -> conns_ok pol (us_channel h) -> alive h -> typed_uevent e ->
  tracked (userver_step db_session db_shutdown pol h e) (fun l => userver_step scripted unscripted pol (over h l) e).
Proof.
  intros Hw Hc Ha He. destruct e as [a| |c ok buf|c r x|c o n|c o ok]; cbn [userver_step].
  - apply (passes_tracked (us_user h)); [exact Hw|]. intros l. apply task_turn_passes. exact Logic.I.
  - cbn [over us_order]. destruct (us_order h) as [|[|] q].
    + exists []. split; [exact Hw|reflexivity].
    + apply (passes_tracked (us_user h)); [exact Hw|]. intros l. apply (task_turn_passes (with_order h q) ERun l Logic.I).
    + apply (passes_tracked (us_user h)); [exact Hw|]. intros l. apply (listener_run_passes (us_user h) l (with_order h q) eq_refl).
  - apply (passes_tracked (us_user h)); [exact Hw|]. intros l. apply listener_turn_passes. reflexivity.
  - apply peer_turn_tracked; auto. exact Logic.I.
  - apply peer_turn_tracked; auto; exact Logic.I.
  - apply peer_turn_tracked; auto; exact Logic.I.
Qed.
End Steps.

(** ** The whole *)
Lemma client_marks_wc (l : list mark) : client_marks (map WC l) = l.
Proof. induction l as [|m l IH]; [reflexivity|]. cbn. f_equal. exact IH. Qed.
Lemma server_marks_wc (l : list mark) : server_marks (map WC l) = [].
Proof. induction l as [|m l IH]; [reflexivity|]. exact IH. Qed.

Lemma server_mark_ws {W} (w : world W) e : server_mark w e = WS \/ server_mark w e = WO.
Proof. destruct e; auto. cbn [server_mark]. destruct (by_others w c); auto. Qed.
Lemma client_marks_server {W} (w : world W) e (l : list smark) : client_marks (map (server_mark w e) l) = [].
Proof. destruct (server_mark_ws w e) as [->| ->]; (induction l as [|m l IH]; [reflexivity|exact IH]). Qed.
Lemma server_marks_server {W} (w : world W) e (l : list smark) : server_marks (map (server_mark w e) l) = l.
Proof. destruct (server_mark_ws w e) as [->| ->]; (induction l as [|m l IH]; [reflexivity|cbn; f_equal; exact IH]). Qed.

(** The database is added to a new channel. *)
Definition add_all (units : list N) : list uevent := flat_map (fun u => [UApi (ApiAdd u 0); URun]) units.

Lemma add_run pol (max : N) (rest : list reply_value) units : forall sessions,
  userver_run scripted unscripted pol
    {| us_channel := {| sv_shutdown := false; sv_started := false; sv_sessions := sessions; sv_queue := []; sv_conns := fun _ => None |};
       us_user := rest; us_listener := aserver_init max; us_conns := fun _ => None; us_order := [] |} (add_all units)
  = Ret ({| us_channel := {| sv_shutdown := false; sv_started := false; sv_sessions := fold_left (fun l u => insert_session l u 0) units sessions;
                             sv_queue := []; sv_conns := fun _ => None |};
            us_user := rest; us_listener := aserver_init max; us_conns := fun _ => None; us_order := [] |}, adding units).
Proof.
  induction units as [|u units IH]; intros sessions; [reflexivity|].
  cbn [fold_left]. specialize (IH (insert_session sessions u 0)).
  change (add_all (u :: units)) with (UApi (ApiAdd u 0) :: URun :: add_all units).
  change (adding (u :: units)) with (TaskIn (EApi (ApiAdd u 0)) :: TaskIn ERun :: adding units).
  assert (K : forall s0, exists h1, userver_step scripted unscripted pol s0 (UApi (ApiAdd u 0)) = Ret (h1, [TaskIn (EApi (ApiAdd u 0))]) /\
    h1 = {| us_channel := api_call (us_channel s0) (ApiAdd u 0); us_user := us_user s0; us_listener := us_listener s0; us_conns := us_conns s0;
            us_order := us_order s0 ++ more TaskTurn (List.length (sv_queue (us_channel s0)) - 0) (List.length (sv_queue (api_call (us_channel s0) (ApiAdd u 0)))) |}).
  { intros s0. eexists. split; reflexivity. }
  cbn [userver_run]. match goal with |- context [userver_step scripted unscripted pol ?s0 (UApi _)] => destruct (K s0) as (h1 & E1 & ->) end.
  rewrite E1. cbn [obind]. match goal with |- context [userver_step scripted unscripted pol ?s0 URun] =>
    change (userver_step scripted unscripted pol s0 URun) with
    (Ret ({| us_channel := {| sv_shutdown := false; sv_started := false; sv_sessions := insert_session sessions u 0; sv_queue := []; sv_conns := fun _ => None |};
       us_user := rest; us_listener := aserver_init max; us_conns := fun _ => None; us_order := [] |}, [TaskIn ERun])) end.
  cbn [obind]. rewrite IH. reflexivity.
Qed.

Section World.
Context {W : Type}.
Context (handler : nat -> W -> expected (list N) -> W * list capi).
Context (pol : copy_policy).
Notation step := (world_step handler pol).
Notation run := (world_run handler pol).

Record sides (units : list N) (max : N) (buf : list N) (u : W) (es : list wevent) (w : world W) (l : list wmark) : Prop := {
  sd_wf : wf (us_user (wd_server w));
  sd_client : exists ces, Forall typed_tevent ces /\ tcp_run handler pol (tclient_init buf u) ces = Ret (wd_client w, client_marks l) /\
                forall e, In e ces -> In (WClient e) es;
  sd_server : exists script ses, Forall typed_uevent ses /\
                (forall rest, userver_run scripted unscripted pol (tserver_init max (script ++ rest)) ses = Ret (over (wd_server w) rest, adding units ++ server_marks l)) /\
                forall e, In e ses -> e = URun \/ (exists u, In u units /\ e = UApi (ApiAdd u 0)) \/ In (WServer e) es \/
                                      (exists g c buf, In (WAccept g c buf) es /\ e = UAccept c true buf)
}.

Lemma sides_init units max d buf u : Forall u8 units -> wf d -> sides units max buf u [] (world_init units max d buf u) [].
Proof.
  intros Hu Hw. constructor.
  - exact Hw.
  - exists []. split; [constructor|]. split; [reflexivity|]. intros e [].
  - exists [], (add_all units). split; [|split].
    + clear - Hu. induction Hu as [|x units Hx _ IH]; [constructor|]. repeat (constructor; [assumption || exact Logic.I|]). exact IH.
    + intros rest. cbn [app server_marks flat_map]. rewrite app_nil_r. exact (add_run pol max rest units []).
    + intros e He. apply in_flat_map in He as (x & Hx & [<-|[<-|[]]]); [|auto]. right. left. exists x. auto.
Qed.

(** What happens on one side. *)
Lemma sides_client units max buf u es w l e t m up down : sides units max buf u es w l -> typed_tevent e ->
  tcp_step handler pol (wd_client w) e = Ret (t, m) ->
  sides units max buf u (es ++ [WClient e])
    {| wd_client := t; wd_server := wd_server w; wd_links := wd_links w; wd_up := up; wd_down := down |} (l ++ map WC m).
Proof.
  intros [Hw (ces & C1 & C2 & C3) (script & ses & S1 & S2 & S3)] Ty E. constructor; cbn [wd_client wd_server].
  - exact Hw.
  - exists (ces ++ [e]). split; [apply Forall_app; auto|]. split.
    + rewrite run_app_tcp, C2. cbn [obind tcp_run]. rewrite E. cbn [obind]. unfold client_marks. rewrite flat_map_app. fold (client_marks (map WC m)).
      rewrite client_marks_wc, app_nil_r. reflexivity.
    + intros x Hx. apply in_or_app. apply in_app_or in Hx as [Hx|[<-|[]]]; [left; apply C3, Hx|right; left; reflexivity].
  - exists script, ses. split; [exact S1|]. split.
    + intros rest. unfold server_marks. rewrite flat_map_app. fold (server_marks (map WC m)). rewrite server_marks_wc, app_nil_r. apply S2.
    + intros x Hx. destruct (S3 x Hx) as [K|[K|[K|(g & c & b & K1 & K2)]]]; auto; right; right; [left|right; exists g, c, b; split; [|exact K2]]; apply in_or_app; auto.
Qed.

Lemma sides_history units max buf u es w l : sides units max buf u es w l ->
  conns_ok pol (us_channel (wd_server w)) /\ alive (wd_server w).
Proof.
  intros [Hw _ (script & ses & S1 & S2 & _)].
  assert (H : server_history scripted unscripted pol max (script ++ []) ses (over (wd_server w) []) (adding units ++ server_marks l)) by (split; [exact S1|apply S2]).
  split.
  - exact (history_conns_ok scripted unscripted pol scripted_well_typed _ _ _ _ _ H).
  - exact (linked_alive _ (ui_linked _ (sd_inv _ _ _ _ _ _ (history_done _ _ _ _ _ _ _ _ H)))).
Qed.

Lemma sides_server units max buf u es w (w1 : world W) l x e s m links up down : sides units max buf u es w l -> typed_uevent e ->
  userver_step db_session db_shutdown pol (wd_server w) e = Ret (s, m) ->
  (x = WServer e \/ exists g c b, x = WAccept g c b /\ e = UAccept c true b) ->
  sides units max buf u (es ++ [x])
    {| wd_client := wd_client w; wd_server := s; wd_links := links; wd_up := up; wd_down := down |} (l ++ map (server_mark w1 e) m).
Proof.
  intros H Ty E Hx. destruct (sides_history _ _ _ _ _ _ _ H) as [Hc Ha]. destruct H as [Hw (ces & C1 & C2 & C3) (script & ses & S1 & S2 & S3)].
  destruct (userver_step_tracked pol (wd_server w) e Hw Hc Ha Ty) as (k & T). rewrite E in T. destruct T as [T1 T2].
  constructor; cbn [wd_client wd_server].
  - exact T1.
  - exists ces. split; [exact C1|]. split.
    + unfold client_marks. rewrite flat_map_app. fold (client_marks (map (server_mark w1 e) m)). rewrite client_marks_server, app_nil_r. exact C2.
    + intros y Hy. apply in_or_app. left. apply C3, Hy.
  - exists (script ++ k), (ses ++ [e]). split; [apply Forall_app; auto|]. split.
    + intros rest. rewrite urun_app, <- app_assoc, S2. cbn [obind userver_run]. rewrite T2. cbn [obind].
      unfold server_marks. rewrite flat_map_app. fold (server_marks (map (server_mark w1 e) m)). rewrite server_marks_server, app_nil_r, app_assoc. reflexivity.
    + intros y Hy. apply in_app_or in Hy as [Hy|[<-|[]]].
      * destruct (S3 y Hy) as [K|[K|[K|(g & c & b & K1 & K2)]]]; auto; right; right; [left|right; exists g, c, b; split; [|exact K2]]; apply in_or_app; auto.
      * right. right. destruct Hx as [->|(g & c & b & -> & ->)]; [left|right; exists g, c, b; split; [|reflexivity]]; apply in_or_app; right; left; reflexivity.
Qed.

Lemma sides_skip units max buf u es w l x : sides units max buf u es w l -> sides units max buf u (es ++ [x]) w (l ++ []).
Proof.
  intros [Hw (ces & C1 & C2 & C3) (script & ses & S1 & S2 & S3)]. rewrite app_nil_r. constructor; [exact Hw| |].
  - exists ces. split; [exact C1|]. split; [exact C2|]. intros y Hy. apply in_or_app. left. apply C3, Hy.
  - exists script, ses. split; [exact S1|]. split; [exact S2|].
    intros y Hy. destruct (S3 y Hy) as [K|[K|[K|(g & c & b & K1 & K2)]]]; auto; right; right; [left|right; exists g, c, b; split; [|exact K2]]; apply in_or_app; auto.
Qed.

Lemma typed_client e : typed_wevent (WClient e) -> typed_tevent e.
Proof. destruct e; cbn; auto. Qed.

Lemma sides_step units max buf u es w l e w' m : sides units max buf u es w l -> typed_wevent e -> step w e = Ret (w', m) ->
  sides units max buf u (es ++ [e]) w' (l ++ m).
Proof.
  intros H Ty E.
  assert (Skip : Ret (w, []) = Ret (w', m) -> sides units max buf u (es ++ [e]) w' (l ++ m)).
  { intros K. injection K as <- <-. apply sides_skip, H. }
  assert (Client : forall x, e = WClient x -> client_turn handler pol w x = Ret (w', m) -> sides units max buf u (es ++ [e]) w' (l ++ m)).
  { intros x -> K. unfold client_turn in K. destruct (tcp_step handler pol (wd_client w) x) as [[t k]|] eqn:Et; [|discriminate K].
    cbn [obind] in K. injection K as <- <-. eapply sides_client; [exact H|exact (typed_client _ Ty)|exact Et]. }
  assert (Server : forall x w0, wd_client w0 = wd_client w -> wd_server w0 = wd_server w -> typed_uevent x ->
    (e = WServer x \/ exists g c b, e = WAccept g c b /\ x = UAccept c true b) -> server_turn pol w0 x = Ret (w', m) -> sides units max buf u (es ++ [e]) w' (l ++ m)).
  { intros x w0 E1 E2 Tx Hx K. unfold server_turn in K. rewrite E1, E2 in K. destruct (userver_step db_session db_shutdown pol (wd_server w) x) as [[s k]|] eqn:Es; [|discriminate K].
    cbn [obind] in K. injection K as <- <-. eapply sides_server; [exact H|exact Tx|exact Es|exact Hx]. }
  destruct e as [x|x|g c b|c]; cbn [world_step] in E.
  - destruct x as [a|xs|t|t xs|ok msg|g ok msg|r x msg xs|o k|o ok msg]; try (eapply Client; [reflexivity|exact E]).
    destruct (can_read _ _ _); [|exact (Skip E)]. eapply Client; [reflexivity|exact E].
  - destruct x as [a| |c ok b|c r x|c o k|c o ok]; try (eapply Server; [reflexivity|reflexivity|exact Ty|left; reflexivity|exact E]).
    + destruct (_ || _); [|exact (Skip E)]. eapply Server; [reflexivity|reflexivity|exact Ty|left; reflexivity|exact E].
  - destruct (_ && _); [|exact (Skip E)]. eapply Server; [| | |right; exists g, c, b; split; reflexivity|exact E]; [reflexivity|reflexivity|exact Ty].
  - destruct (call_body_spec (us_user (wd_server w)) c (sd_wf _ _ _ _ _ _ _ H) Ty) as (d & r & R & Hw' & _). rewrite R in E. cbn [obind] in E. injection E as <- <-.
    destruct H as [Hw (ces & C1 & C2 & C3) (script & ses & S1 & S2 & S3)]. constructor; cbn [wd_client wd_server].
    + exact Hw'.
    + exists ces. split; [exact C1|]. split.
      * unfold client_marks. rewrite flat_map_app. cbn [flat_map]. rewrite app_nil_r. exact C2.
      * intros y Hy. apply in_or_app. left. apply C3, Hy.
    + exists script, ses. split; [exact S1|]. split.
      * intros rest. unfold server_marks. rewrite flat_map_app. cbn [flat_map]. rewrite app_nil_r. apply S2.
      * intros y Hy. destruct (S3 y Hy) as [K|[K|[K|(g & cc & b & K1 & K2)]]]; auto; right; right; [left|right; exists g, cc, b; split; [|exact K2]]; apply in_or_app; auto.
Qed.

Lemma sides_run units max buf u es : forall es0 w l w' m, sides units max buf u es0 w l -> Forall typed_wevent es -> run w es = Ret (w', m) ->
  sides units max buf u (es0 ++ es) w' (l ++ m).
Proof.
  induction es as [|e es IH]; intros es0 w l w' m H T E; cbn [world_run] in E.
  - injection E as <- <-. rewrite !app_nil_r. exact H.
  - apply Forall_cons_iff in T as [T1 T2]. destruct (step w e) as [[w1 m1]|] eqn:E1; [|discriminate E]. cbn [obind] in E.
    destruct (run w1 es) as [[w2 m2]|] eqn:E2; [|discriminate E]. cbn [obind] in E. injection E as <- <-.
    pose proof (IH _ _ _ _ _ (sides_step _ _ _ _ _ _ _ _ _ _ H T1 E1) T2 E2) as K. rewrite <- !app_assoc in K. exact K.
Qed.

Lemma history_sides units max d buf u es w l : Forall u8 units -> reachable_db d -> Forall typed_wevent es ->
  run (world_init units max d buf u) es = Ret (w, l) -> sides units max buf u es w l.
Proof.
  intros Hu Hd T E. exact (sides_run _ _ _ _ es [] _ [] _ _ (sides_init units max d buf u Hu (reachable_wf _ Hd)) T E).
Qed.
End World.

Section Theorems.
Context {W : Type}.
Context (handler : nat -> W -> expected (list N) -> W * list capi).
Context (pol : copy_policy).

Theorem world_client units d w0 es w l : Forall u8 units -> world_history handler pol units d w0 es w l -> client_side handler pol es w l.
Proof.
  intros Hu ((max & buf & u & Hb & ->) & Hd & T & _ & E).
  destruct (sd_client _ _ _ _ _ _ _ _ _ (history_sides handler pol units max d buf u es w l Hu Hd T E)) as (ces & C1 & C2 & C3).
  exists ces. split; [|exact C3]. exists buf, u. auto.
Qed.

Lemma over_same (s : tserver db) r : same_server s (over s r).
Proof. repeat split. Qed.

Theorem world_server units d w0 es w l : Forall u8 units -> world_history handler pol units d w0 es w l ->
  server_side pol units (as_max (us_listener (wd_server w0))) es w l.
Proof.
  intros Hu ((max & buf & u & Hb & ->) & Hd & T & _ & E).
  destruct (sd_server _ _ _ _ _ _ _ _ _ (history_sides handler pol units max d buf u es w l Hu Hd T E)) as (script & ses & S1 & S2 & S3).
  exists (list reply_value), scripted, unscripted, (script ++ []), ses, (over (wd_server w) []).
  split; [exact scripted_well_typed|]. split; [exact scripted_not_start|]. split; [split; [exact S1|apply S2]|]. split; [apply over_same|exact S3].
Qed.

(** Why a step can be undefined. *)
Lemma step_ub w e : world_step handler pol w e = UB -> wf (us_user (wd_server w)) -> typed_wevent e ->
  (exists x, e = WClient x /\ tcp_step handler pol (wd_client w) x = UB) \/
  (exists x, (e = WServer x \/ exists g c b, e = WAccept g c b /\ x = UAccept c true b) /\ typed_uevent x /\
     userver_step db_session db_shutdown pol (wd_server w) x = UB).
Proof.
  intros E Hw Ty.
  assert (Client : forall x, e = WClient x -> client_turn handler pol w x = UB -> exists x, e = WClient x /\ tcp_step handler pol (wd_client w) x = UB).
  { intros x -> K. exists x. split; [reflexivity|]. unfold client_turn in K. destruct (tcp_step handler pol (wd_client w) x) as [[t k]|]; [discriminate K|reflexivity]. }
  assert (Server : forall x (w0 : world W), wd_server w0 = wd_server w -> typed_uevent x -> (e = WServer x \/ exists g c b, e = WAccept g c b /\ x = UAccept c true b) ->
    server_turn pol w0 x = UB -> exists x, (e = WServer x \/ exists g c b, e = WAccept g c b /\ x = UAccept c true b) /\ typed_uevent x /\
     userver_step db_session db_shutdown pol (wd_server w) x = UB).
  { intros x w0 E2 Tx Hx K. exists x. split; [exact Hx|]. split; [exact Tx|]. unfold server_turn in K. rewrite E2 in K.
    destruct (userver_step db_session db_shutdown pol (wd_server w) x) as [[t k]|]; [discriminate K|reflexivity]. }
  destruct e as [x|x|g c b|c]; cbn [world_step] in E.
  - left. destruct x as [a|xs|t|t xs|ok msg|g ok msg|r x msg xs|o k|o ok msg]; try (eapply Client; [reflexivity|exact E]).
    destruct (can_read _ _ _); [|discriminate E]. eapply Client; [reflexivity|exact E].
  - right. destruct x as [a| |c ok b|c r x|c o k|c o ok]; try (eapply Server; [reflexivity|exact Ty|left; reflexivity|exact E]).
    + destruct (_ || _); [|discriminate E]. eapply Server; [reflexivity|exact Ty|left; reflexivity|exact E].
  - right. destruct (_ && _); [|discriminate E]. eapply Server; [| |right; exists g, c, b; split; reflexivity|exact E]; [reflexivity|exact Ty].
  - destruct (call_body_spec (us_user (wd_server w)) c Hw Ty) as (d & r & R & _). rewrite R in E. discriminate E.
Qed.

Theorem world_undefined units d w0 es w l e : Forall u8 units -> world_history handler pol units d w0 es w l -> typed_wevent e ->
  world_step handler pol w e = UB -> buffer_freed w e \/ accept_undefined w e.
Proof.
  intros Hu H Ty E. destruct (world_client _ _ _ _ _ _ Hu H) as (ces & Hc & _).
  destruct H as ((max & buf & u & Hb & ->) & Hd & T & _ & R).
  pose proof (history_sides handler pol units max d buf u es w l Hu Hd T R) as S.
  destruct (step_ub w e E (sd_wf _ _ _ _ _ _ _ _ _ S) Ty) as [(x & -> & K)|(x & Hx & Tx & K)].
  - left. destruct (undefined_source handler pol _ _ _ _ Hc (typed_client _ Ty) K) as (o & n & -> & Z). exact Z.
  - destruct (sides_history _ _ _ _ _ _ _ _ _ S) as [Co Al].
    destruct (userver_step_tracked pol (wd_server w) x (sd_wf _ _ _ _ _ _ _ _ _ S) Co Al Tx) as (k & Z). rewrite K in Z.
    destruct (sd_server _ _ _ _ _ _ _ _ _ S) as (script & ses & S1 & S2 & _).
    assert (Hs : server_history scripted unscripted pol max (script ++ k ++ []) ses (over (wd_server w) (k ++ [])) (adding units ++ server_marks l)) by (split; [exact S1|apply S2]).
    destruct (undefined_causes scripted unscripted pol scripted_well_typed _ _ _ _ _ x Hs Tx (Z [])) as [(c & ok & b & -> & A)|(c & o & n & v & -> & A & B)].
    + right. destruct Hx as [->|(g & c' & b' & -> & X)]; [exact A|]. injection X as <- -> <-. exact A.
    + left. destruct Hx as [->|(g & c' & b' & _ & X)]; [|discriminate X]. exists v. auto.
Qed.

Theorem world_defined units d w0 es w l e : Forall u8 units -> world_history handler pol units d w0 es w l -> typed_wevent e ->
  always writes_settled cconn_init (conn_ins (client_marks l)) ->
  (forall c, valways vwrites_settled sconn_init (peer_ins c (server_marks l))) ->
  (starts_of (listen_ins (server_marks l)) <= 1)%nat -> as_max (us_listener (wd_server w0)) < 2 ^ 32 - 1 ->
  exists w' m, world_step handler pol w e = Ret (w', m).
Proof.
  intros Hu H Ty A1 A2 A3 A4. destruct (world_step handler pol w e) as [[w' m]|] eqn:E; [eauto|]. exfalso.
  destruct (world_client _ _ _ _ _ _ Hu H) as (ces & Hc & _).
  destruct H as ((max & buf & u & Hb & ->) & Hd & T & _ & R).
  pose proof (history_sides handler pol units max d buf u es w l Hu Hd T R) as S.
  destruct (step_ub w e E (sd_wf _ _ _ _ _ _ _ _ _ S) Ty) as [(x & -> & K)|(x & Hx & Tx & K)].
  - destruct (settled_defined handler pol _ _ _ _ Hc (typed_client _ Ty) A1) as (s' & l' & Z). congruence.
  - destruct (sides_history _ _ _ _ _ _ _ _ _ S) as [Co Al].
    destruct (userver_step_tracked pol (wd_server w) x (sd_wf _ _ _ _ _ _ _ _ _ S) Co Al Tx) as (k & Z). rewrite K in Z.
    destruct (sd_server _ _ _ _ _ _ _ _ _ S) as (script & ses & S1 & S2 & _).
    assert (Hs : server_history scripted unscripted pol max (script ++ k ++ []) ses (over (wd_server w) (k ++ [])) (adding units ++ server_marks l)) by (split; [exact S1|apply S2]).
    assert (L : listen_ins (adding units) = [] /\ forall c, peer_ins c (adding units) = []).
    { clear. split; [|intros c]; induction units as [|y units IH]; try reflexivity; exact IH. }
    destruct L as [L1 L2].
    destruct (server_defined scripted unscripted pol scripted_well_typed _ _ _ _ _ x Hs Tx) as (h' & m' & X).
    + rewrite listen_ins_app, L1. exact A3.
    + exact A4.
    + intros c. rewrite peer_ins_app, L2. apply A2.
    + rewrite (Z []) in X. discriminate.
Qed.
End Theorems.
