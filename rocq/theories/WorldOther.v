(** What others send to the server is, for the network of NetFacts.v, a change of their
    connection and calls on the database. *)
From Verif Require Import Prelude Ser4 Messages Mbap Client Server Database System.
From Verif Require Import AsyncWrite ClientConn ClientTcp Listener ServerConn ServerTcp World.
From Verif Require Import SpecPdu SpecMbap SpecClient SpecServer SpecDb SpecConn SpecClientTcp SpecServerTcp SpecSystem SpecWorld.
From Verif Require Import ParseReqFacts MbapFacts ServerFacts DatabaseFacts DbLemmas SystemServe SystemFacts SystemSteps NetFacts WorldConn WorldSim.
From Coq Require Import Lia.

(** All responses go to connection [c]. *)
Definition only_to (c : N) (o : output) : Prop := match o with OSend c' _ => c' = c | _ => True end.

Lemma latest_other c c' os : Forall (only_to c) os -> c' <> c -> forall x, latest_to c' x os = x.
Proof.
  intros F N. induction F as [|o os H _ IH]; intros x; [reflexivity|]. cbn [latest_to fold_left].
  destruct o; try apply IH. cbn in H. subst. replace (c =? c') with false by (symmetry; apply N.eqb_neq; congruence). apply IH.
Qed.

Section Other.
Context {W : Type}.
Context (handler : nat -> W -> expected (list N) -> W * list capi).
Context (pol : copy_policy).

Lemma set_server_id (n : net W) : set_server n (n_server n) (n_db n) = n.
Proof. destruct n. reflexivity. Qed.

(** The calls on the database behind [os]. *)
Definition replay (n : net W) (d : db) (os : list output) : Prop :=
  exists ys, replays os ys /\ nsteps handler pol n ys (set_server n (n_server n) d).

Lemma replay_nil n os : Forall (fun o => match o with OConsult _ _ => False | _ => True end) os -> replay n (n_db n) os.
Proof.
  intros F. exists []. split; [|rewrite set_server_id; constructor]. exists (map (fun _ => []) os).
  induction F as [|o os H _ [IH1 IH2]]; [split; [constructor|reflexivity]|]. split; [|exact IH2].
  constructor; [|exact IH1]. destruct o; try contradiction H; reflexivity.
Qed.

Lemma replay_app n d d' os os' : replay n d os -> replay (set_server n (n_server n) d) d' os' -> replay n d' (os ++ os').
Proof.
  intros (y & R & N) (y' & R' & N'). exists (y ++ y'). split; [apply replays_app; assumption|exact (nsteps_app _ _ _ _ _ _ _ N N')].
Qed.

Lemma replay_ask n d x r v : legal_request r -> run (Database.on_request r) (n_db n) = Ret (d, v) -> replay n d [OConsult x r].
Proof.
  intros Hl E. exists [YD (CRequest r) (RResponse v)]. split.
  - exists [[YD (CRequest r) (RResponse v)]]. split; [constructor; [exists v; reflexivity|constructor]|reflexivity].
  - apply nsteps_one. apply N_local; [apply legal_typed; exact Hl|]. cbn [call_body]. rewrite run_bind, E. reflexivity.
Qed.

Lemma other_mbap n c m s' d' os : wf (n_db n) -> typed_message m -> on_mbap db_session (n_server n) (n_db n) c m = Ret (s', d', os) ->
  s' = n_server n /\ wf d' /\ Forall (only_to c) os /\ replay n d' os.
Proof.
  intros Hw (Hu & Ht & Hb) E.
  assert (Q : forall os', Ret (n_server n, n_db n, os') = Ret (s', d', os) -> Forall (only_to c) os' ->
    Forall (fun o => match o with OConsult _ _ => False | _ => True end) os' -> s' = n_server n /\ wf d' /\ Forall (only_to c) os /\ replay n d' os).
  { intros os' K F1 F2. injection K as <- <- <-. split; [reflexivity|]. split; [exact Hw|]. split; [exact F1|]. apply replay_nil. exact F2. }
  unfold on_mbap in E. destruct (sv_shutdown (n_server n)); [apply (Q [] E); constructor|].
  destruct (find_session (sv_sessions (n_server n)) (mb_unit m)) as [x|]; [|apply (Q [] E); constructor].
  destruct (mb_data m) as [|fc rest0] eqn:Em; [apply (Q [] E); constructor|].
  replace (size (fc :: rest0) <? 1) with false in E by (symmetry; apply N.ltb_ge; unfold size; cbn [List.length]; lia). cbn [rd8 read_u8] in E.
  destruct (request_parser fc) as [p|] eqn:Ep; [|apply (Q _ E); repeat constructor].
  unfold process_message in E. rewrite Em in E.
  destruct (parse_outcomes fc _ p Ep Hb) as [(r & H1 & _ & _ & K)|[[_ K]|K]]; rewrite K in E; cbn [obind] in E;
    try (apply (Q _ E); repeat constructor; fail).
  unfold db_session in E. destruct (on_request_spec (n_db n) r Hw (legal_typed _ H1)) as (d1 & v & Er & Hw' & _). rewrite Er in E.
  cbn [api_calls fold_left] in E.
  assert (A : forall os', Ret (n_server n, d1, OConsult x r :: os') = Ret (s', d', os) -> Forall (only_to c) os' ->
    Forall (fun o => match o with OConsult _ _ => False | _ => True end) os' -> s' = n_server n /\ wf d' /\ Forall (only_to c) os /\ replay n d' os).
  { intros os' Z F1 F2. injection Z as <- <- <-. split; [reflexivity|]. split; [exact Hw'|]. split; [constructor; [exact Logic.I|exact F1]|].
    apply (replay_app n d1 d1 [OConsult x r] os'); [exact (replay_ask n d1 x r v H1 Er)|]. apply (replay_nil (set_server n (n_server n) d1)). exact F2. }
  destruct v as [v|e]; [apply (A _ E); repeat constructor|]. destruct e; apply (A _ E); repeat constructor.
Qed.

Lemma other_messages c ms : forall n s' d' os, wf (n_db n) -> Forall typed_message ms ->
  on_messages db_session (n_server n) (n_db n) c ms = Ret (s', d', os) ->
  s' = n_server n /\ Forall (only_to c) os /\ replay n d' os.
Proof.
  induction ms as [|m ms IH]; intros n s' d' os Hw Hm E; cbn [on_messages] in E.
  - injection E as <- <- <-. split; [reflexivity|]. split; [constructor|]. apply replay_nil. constructor.
  - apply Forall_cons_iff in Hm as [Hm Hms].
    destruct (on_mbap db_session (n_server n) (n_db n) c m) as [[[s1 d1] o1]|] eqn:E1; [|discriminate E]. cbn [obind] in E.
    destruct (other_mbap n c m s1 d1 o1 Hw Hm E1) as (-> & Hw1 & F1 & R1).
    destruct (on_messages db_session (n_server n) d1 c ms) as [[[s2 d2] o2]|] eqn:E2; [|discriminate E]. cbn [obind] in E. injection E as <- <- <-.
    destruct (IH (set_server n (n_server n) d1) s2 d2 o2 Hw1 Hms E2) as (-> & F2 & R2).
    split; [reflexivity|]. split; [apply Forall_app; auto|]. exact (replay_app n d1 d2 o1 o2 R1 R2).
Qed.

Lemma other_receive n c x s' d' os : wf (n_db n) -> conns_ok pol (n_server n) -> bytes x -> (forall g, n_link n g <> Some c) ->
  server_step db_session db_shutdown pol (n_server n) (n_db n) (EReceive c x) = Ret (s', d', os) ->
  Forall (only_to c) os /\ exists ys, replays os ys /\ nsteps handler pol n ys (set_server n s' d').
Proof.
  intros Hw Hc Hb Hl E. cbn [server_step] in E. destruct (sv_conns (n_server n) c) as [p|] eqn:Ep.
  2:{ injection E as <- <- <-. split; [constructor|]. exists []. split; [exists []; split; [constructor|reflexivity]|].
      rewrite set_server_id. constructor. }
  destruct (Hc c p Ep) as (t & HR). destruct (parse_spec pol p t x HR Hb) as (p' & t' & items & ms & Pp & Hty & _ & _ & Hm & _).
  rewrite Pp in E. cbn [obind] in E.
  set (n1 := set_server n (set_conn (n_server n) c (Some p')) (n_db n)).
  destruct (other_messages c ms n1 s' d' os Hw (matches_typed _ _ _ Hty Hm) E) as (-> & F & ys & R & N).
  split; [exact F|]. exists ys. split; [exact R|]. change ys with ([] ++ ys). eapply NS_cons; [apply (N_other handler pol n c (Some p') Hl)|exact N].
Qed.
End Other.
