(** The server over its acceptor and its connections: which steps are defined, and that
    the strand runs out of work. *)
From Verif Require Import Prelude Ser4 Messages Mbap SpecPdu SpecMbap Server SpecServer Listener SpecListener AsyncWrite ServerConn SpecConn ServerTcp SpecServerTcp.
From Verif Require Import MbapFacts ServerFacts ServerLemmas ListenerFacts ListenerLemmas WriteFacts ConnFacts ServerConnFacts ServerConnMore.
From Verif Require Import ServerTcpTrack ServerTcpLink ServerTcpTurns ServerTcpSteps ServerTcpFacts.
From Coq Require Import Lia.

Section Total.
Context {W : Type}.
Context (on_request : N -> W -> request -> W * expected response * list api).
Context (on_shutdown : N -> W -> W * list api).
Context (pol : copy_policy).
Implicit Types (h : tserver W) (m : list smark).

Notation peer_step := (@peer_step W).
Notation listener_outputs := (listener_outputs on_request on_shutdown pol).
Notation listener_turn := (listener_turn on_request on_shutdown pol).
Notation channel_outputs := (channel_outputs on_request on_shutdown pol).
Notation task_turn := (task_turn on_request on_shutdown pol).
Notation peer_outputs := (peer_outputs on_request on_shutdown pol).
Notation peer_turn := (peer_turn on_request on_shutdown pol).
Notation listener_run := (listener_run on_request on_shutdown pol).
Notation userver_step := (userver_step on_request on_shutdown pol).
Notation userver_run := (userver_run on_request on_shutdown pol).
Notation sstep := (server_step on_request on_shutdown pol).
Notation server_history := (server_history on_request on_shutdown).

(** ** Steps that are defined *)
Lemma alive_set h c v : alive h -> vn_shutdown v = false -> alive (with_conn h c v).
Proof. intros AL SH d v' E. rewrite conns_set in E. destruct (Nat.eqb d c); [injection E as <-; exact SH|exact (AL d v' E)]. Qed.

Lemma close_total h c : alive h -> exists h' m, peer_step h c VClose = Ret (h', m) /\ alive h'.
Proof.
  intros AL. unfold ServerTcp.peer_step. destruct (us_conns h c) as [v|] eqn:C; [|eauto]. rewrite (close_addq v (AL c v C)). cbn [obind].
  do 2 eexists. split; [reflexivity|]. apply alive_set; [exact AL|exact (AL c v C)].
Qed.

Lemma vsend_total h c d : alive h -> exists h' m, peer_step h c (VSend d) = Ret (h', m) /\ alive h'.
Proof.
  intros AL. unfold ServerTcp.peer_step. destruct (us_conns h c) as [v|] eqn:C; [|eauto]. destruct (send_total v d) as (v' & o & E). rewrite E. cbn [obind].
  do 2 eexists. split; [reflexivity|]. apply alive_set; [exact AL|]. rewrite (proj1 (send_step _ _ _ _ E)). exact (AL c v C).
Qed.

Lemma close_all_total l : forall h, alive h -> exists h' m, close_conns h l = Ret (h', m) /\ alive h'.
Proof.
  induction l as [|c l IH]; intros h AL; cbn [close_conns]; [eauto|]. destruct (close_total h c AL) as (h1 & m1 & -> & A1). cbn [obind].
  destruct (IH h1 A1) as (h2 & m2 & -> & A2). cbn [obind]. eauto.
Qed.

Lemma serve_total h c buf : alive h -> exists h' m, serve on_request on_shutdown pol h c buf = Ret (h', m) /\ alive h'.
Proof.
  intros AL. unfold serve. cbn [server_step obind]. destruct (v_start _) as [v ov] eqn:V. do 2 eexists. split; [reflexivity|]. apply alive_set; [exact AL|].
  unfold v_start in V. cbn in V. injection V as <- _. reflexivity.
Qed.

Lemma listener_outputs_total l buf os : forall h, alive h -> exists h' m, listener_outputs h l buf os = Ret (h', m) /\ alive h'.
Proof.
  induction os as [|o os IH]; intros h AL; cbn [ServerTcp.listener_outputs]; [eauto|].
  assert (X : exists h' m, match o with Removed c => peer_step h c VClose | ShutDown => close_conns h l | Serving c => serve on_request on_shutdown pol h c buf | _ => Ret (h, []) end = Ret (h', m) /\ alive h').
  { destruct o; eauto using close_total, close_all_total, serve_total. }
  destruct X as (h1 & m1 & -> & A1). cbn [obind]. destruct (IH h1 A1) as (h2 & m2 & -> & A2). cbn [obind]. eauto.
Qed.

Lemma listener_turn_total h e buf l' os : alive h -> aserver_step (us_listener h) e = Ret (l', os) -> exists h' m, listener_turn h e buf = Ret (h', m) /\ alive h'.
Proof.
  intros AL E. unfold ServerTcp.listener_turn. rewrite E. cbn [obind].
  match goal with |- context[ServerTcp.listener_outputs _ _ _ ?a ?b ?c ?d] => destruct (listener_outputs_total b c d a AL) as (h1 & m1 & -> & A1) end.
  cbn [obind]. eauto.
Qed.

Lemma channel_outputs_total os : forall h, alive h -> exists h' m, channel_outputs h os = Ret (h', m) /\ alive h'.
Proof.
  induction os as [|o os IH]; intros h AL; cbn [ServerTcp.channel_outputs]; [eauto|].
  assert (X : exists h' m, match o with OListen => listener_turn h AStart [] | OStopListening => listener_turn h AShutdown []
    | OSend c f => peer_step h (N.to_nat c) (VSend (response_data f)) | _ => Ret (h, []) end = Ret (h', m) /\ alive h').
  { destruct o; eauto using vsend_total; eapply listener_turn_total; try exact AL; reflexivity. }
  destruct X as (h1 & m1 & -> & A1). cbn [obind]. destruct (IH h1 A1) as (h2 & m2 & -> & A2). cbn [obind]. eauto.
Qed.

Lemma task_turn_total h e ch w os : alive h -> sstep (us_channel h) (us_user h) e = Ret (ch, w, os) -> exists h' m, task_turn h e = Ret (h', m) /\ alive h'.
Proof.
  intros AL E. unfold ServerTcp.task_turn. rewrite E. cbn [obind]. destruct (channel_outputs_total os (with_channel h ch w) AL) as (h1 & m1 & -> & A1). cbn [obind]. eauto.
Qed.

Lemma listener_run_total h : linked h -> exists h' m, listener_run h = Ret (h', m).
Proof.
  intros L. unfold ServerTcp.listener_run.
  assert (A : forall h', alive h' -> us_listener h' = us_listener h -> exists h2 m, listener_turn h' ARun [] = Ret (h2, m)).
  { intros h' AL E. assert (X : exists l' os, aserver_step (us_listener h') ARun = Ret (l', os)).
    { cbn [aserver_step]. destruct (as_queue _) as [|a q]; [eauto|]. match goal with |- context[Ret ?x] => destruct x as [l' os] end. eauto. }
    destruct X as (l' & os & X). destruct (listener_turn_total h' ARun [] l' os AL X) as (h2 & m2 & Y & _). eauto. }
  pose proof (linked_alive _ L) as AL.
  destruct (as_queue (us_listener h)) as [|[| |c] q] eqn:Q; try (apply A; [exact AL|reflexivity]).
  unfold ServerTcp.peer_step. destruct (us_conns h c) as [v|] eqn:C; cbn [obind].
  - destruct (linked_some h c v L C) as (K1 & K2 & _). rewrite Q in K2. cbn [closes filter] in K2. unfold closes in K2. cbn [filter] in K2. rewrite Nat.eqb_refl in K2. cbn [List.length repeat] in K2.
    destruct (vconn_step v VRun) as [[v' o]|] eqn:S; cbn [obind].
    + destruct (close_shape _ _ _ _ S K1 K2) as (S1 & _). destruct (A (with_conn h c v')) as (h2 & m2 & ->); [apply alive_set; assumption|reflexivity|]. cbn [obind]. eauto.
    + exfalso. cbn [vconn_step] in S. rewrite K2 in S. discriminate.
  - destruct (A h AL eq_refl) as (h2 & m2 & ->). cbn [obind]. eauto.
Qed.

Lemma fail_total h c : alive h -> exists h' m, listener_turn h (AFail c) [] = Ret (h', m) /\ alive h'.
Proof.
  intros AL. assert (X : exists l' os, aserver_step (us_listener h) (AFail c) = Ret (l', os)).
  { cbn [aserver_step]. match goal with |- context[Ret ?x] => destruct x as [l' os] end. eauto. }
  destruct X as (l' & os & X). eapply listener_turn_total; eauto.
Qed.

Lemma error_total h c : alive h -> exists h' m, task_turn h (EConnError c) = Ret (h', m) /\ alive h'.
Proof.
  intros AL. assert (X : exists ch w os, sstep (us_channel h) (us_user h) (EConnError c) = Ret (ch, w, os)).
  { cbn [server_step]. destruct (sv_conns _ _); eauto. }
  destruct X as (ch & w & os & X). eapply task_turn_total; eauto.
Qed.

Lemma peer_turn_total (Hwt : well_typed on_request) h c e : linked h -> conns_ok pol (us_channel h) -> completion e -> typed_vevent e ->
  (forall v, us_conns h c = Some v -> vconn_step v e <> UB) -> exists h' m, peer_turn h c e = Ret (h', m).
Proof.
  intros L CO CE T NU. unfold ServerTcp.peer_turn. destruct (us_conns h c) as [v|] eqn:C; [|eauto]. destruct (vconn_step v e) as [[v' os]|] eqn:S; [|destruct (NU v eq_refl S)].
  cbn [obind]. pose proof (linked_alive _ L) as AL. destruct (completion_shape _ _ _ _ S CE (AL c v C)) as (S1 & _ & SH).
  pose proof (alive_set h c v' AL S1) as A1. pose proof (typed_vstep _ _ _ _ S T) as TO.
  destruct SH as [[_ SH]|[(_ & r & d & -> & ->)|(_ & pre & SH & ->)]].
  - rewrite (quiet_outputs _ _ _ c os _ SH). cbn [obind]. eauto.
  - inversion_clear TO as [|? ? TO1 _]. destruct (step_spec on_request on_shutdown Hwt pol (us_channel h) (us_user h) (EReceive (N.of_nat c) d) CO TO1) as (ch & w & os & vs & E & _).
    destruct (task_turn_total (with_conn h c v') (EReceive (N.of_nat c) d) ch w os A1 E) as (h2 & m2 & E2 & _). cbn [ServerTcp.peer_outputs]. rewrite E2. cbn [obind]. eauto.
  - rewrite (peer_outputs_app _ _ _ c _ pre _ SH). cbn [ServerTcp.peer_outputs].
    destruct (error_total _ (N.of_nat c) A1) as (h2 & m2 & -> & A2). cbn [obind]. destruct (fail_total h2 c A2) as (h3 & m3 & -> & _). cbn [obind]. eauto.
Qed.

Lemma vconn_ub v e : completion e -> vconn_step v e = UB -> exists w n, e = VTransfer w n.
Proof.
  intros CE E. destruct e as [| | | | |r x|w n|w ok]; try destruct CE; eauto; cbn [vconn_step] in E; try discriminate E.
  destruct (find_vread _ _); [destruct (_ || _)|]; discriminate E.
Qed.

Lemma ustep_total (Hwt : well_typed on_request) h e : uinv h -> conns_ok pol (us_channel h) -> typed_uevent e ->
  (forall c ok buf, e = UAccept c ok buf -> aserver_step (us_listener h) (AAccept c ok) <> UB) ->
  (forall c w n v, e = UTransfer c w n -> us_conns h c = Some v -> vconn_step v (VTransfer w n) <> UB) ->
  exists h' m, userver_step h e = Ret (h', m).
Proof.
  intros U CO T NA NT. destruct U as [L NU OR RG].
  assert (TASK : forall h0 x, alive h0 -> us_channel h0 = us_channel h -> us_user h0 = us_user h -> typed_event x -> exists h' m, task_turn h0 x = Ret (h', m)).
  { intros h0 x AL E1 E2 Tx. destruct (step_spec on_request on_shutdown Hwt pol (us_channel h) (us_user h) x CO Tx) as (ch & w & os & vs & E & _).
    rewrite <- E1, <- E2 in E. destruct (task_turn_total h0 x ch w os AL E) as (h2 & m2 & E3 & _). eauto. }
  destruct e as [a| |c ok buf|c r x|c w n|c w ok]; cbn [ServerTcp.userver_step].
  - apply TASK; auto using linked_alive.
  - destruct (us_order h) as [|[|] q]; [eauto| |].
    + apply TASK; auto; try exact Logic.I. exact (linked_alive _ L).
    + apply listener_run_total. exact L.
  - destruct (aserver_step (us_listener h) (AAccept c ok)) as [[l' os]|] eqn:E; [|destruct (NA c ok buf eq_refl E)].
    destruct (listener_turn_total h (AAccept c ok) buf l' os (linked_alive _ L) E) as (h2 & m2 & X & _). eauto.
  - apply peer_turn_total; auto; try exact Logic.I. intros v _ X. destruct (vconn_ub v _ (Logic.I : completion (VRead r x)) X) as (w' & n' & Y). discriminate.
  - apply peer_turn_total; auto; try exact Logic.I. intros v C. eapply NT; eauto.
  - apply peer_turn_total; auto; try exact Logic.I. intros v _ X. destruct (vconn_ub v _ (Logic.I : completion (VWritten w ok)) X) as (w' & n' & Y). discriminate.
Qed.

Lemma history_conns_ok (Hwt : well_typed on_request) max w0 es h m : server_history pol max w0 es h m -> conns_ok pol (us_channel h).
Proof.
  intros H. destruct (server_parts _ _ _ _ _ _ _ _ H) as (T & R & _).
  destruct (run_spec on_request on_shutdown Hwt pol (task_ins m) server_init w0 (init_ok pol) T) as (s2 & w2 & os2 & vs & E2 & C & _).
  rewrite R in E2. injection E2 as X _ _. rewrite X. exact C.
Qed.

(** Undefined behaviour has two causes. *)
Theorem undefined_causes (Hwt : well_typed on_request) max w0 es h m e : server_history pol max w0 es h m -> typed_uevent e -> userver_step h e = UB ->
  (exists c ok buf, e = UAccept c ok buf /\ aserver_step (us_listener h) (AAccept c ok) = UB) \/
  (exists c w n v, e = UTransfer c w n /\ us_conns h c = Some v /\ vconn_step v (VTransfer w n) = UB).
Proof.
  intros H T E. pose proof (sd_inv _ _ _ _ _ _ (history_done _ _ _ _ _ _ _ _ H)) as U. pose proof (history_conns_ok Hwt _ _ _ _ _ H) as CO.
  destruct e as [a| |c ok buf|c r x|c w n|c w ok].
  - destruct (ustep_total Hwt h (UApi a) U CO T) as (h' & m' & X); [discriminate|discriminate|congruence].
  - destruct (ustep_total Hwt h URun U CO T) as (h' & m' & X); [discriminate|discriminate|congruence].
  - left. exists c, ok, buf. split; [reflexivity|]. destruct (aserver_step (us_listener h) (AAccept c ok)) eqn:A; [|reflexivity].
    destruct (ustep_total Hwt h (UAccept c ok buf) U CO T) as (h' & m' & X); [|discriminate|congruence]. intros c' ok' buf' Y. injection Y as <- <- <-. congruence.
  - destruct (ustep_total Hwt h (URead c r x) U CO T) as (h' & m' & X); [discriminate|discriminate|congruence].
  - right. destruct (us_conns h c) as [v|] eqn:C.
    + destruct (vconn_step v (VTransfer w n)) eqn:S; [|eauto 8].
      destruct (ustep_total Hwt h (UTransfer c w n) U CO T) as (h' & m' & X); [discriminate| |congruence]. intros c' w' n' v' Y C'. injection Y as <- <- <-. congruence.
    + destruct (ustep_total Hwt h (UTransfer c w n) U CO T) as (h' & m' & X); [discriminate| |congruence]. intros c' w' n' v' Y C'. injection Y as <- <- <-. congruence.
  - destruct (ustep_total Hwt h (UWritten c w ok) U CO T) as (h' & m' & X); [discriminate|discriminate|congruence].
Qed.

(** Neither happens to a server that is started once and whose clients wait for the answer. *)
Theorem server_defined (Hwt : well_typed on_request) max w0 es h m e : server_history pol max w0 es h m -> typed_uevent e ->
  (starts_of (listen_ins m) <= 1)%nat -> max < 2 ^ 32 - 1 -> (forall c, valways vwrites_settled sconn_init (peer_ins c m)) ->
  exists h' m', userver_step h e = Ret (h', m').
Proof.
  intros H T ST MX VW. destruct (userver_step h e) as [[h' m']|] eqn:E; [eauto|]. exfalso. destruct (server_parts _ _ _ _ _ _ _ _ H) as (_ & _ & RL & RP).
  destruct (undefined_causes Hwt _ _ _ _ _ _ H T E) as [(c & ok & buf & -> & A)|(c & w & n & v & -> & C & A)].
  - assert (ST' : (starts_of (listen_ins m ++ [AAccept c ok]) <= 1)%nat) by (rewrite starts_app; lia).
    destruct (no_ub max MX _ ST') as (s & os & X). unfold serves in *. rewrite ListenerFacts.arun_app, RL in X. cbn [obind aserver_run] in X. rewrite A in X. discriminate.
  - destruct (RP c) as [R _]. rewrite C in R.
    assert (X : forall es s s' os e, valways vwrites_settled s es -> vconn_run s es = Ret (s', os) -> match e with VSend _ | VStart => False | _ => True end -> valways vwrites_settled s (es ++ [e])).
    { clear. induction es as [|x es IH]; intros s s' os e V R NE; cbn [app valways] in *; [destruct e; try destruct NE; split; auto; exact Logic.I|].
      destruct V as [V1 V2]. split; [exact V1|]. intros s1 o1 S. apply vrun_cons in R as (s2 & o2 & o3 & S2 & R & ->).
      rewrite S in S2. injection S2 as <- <-. eapply IH; eauto. }
    destruct (server_buffers_alive _ (X _ _ _ _ (VTransfer w n) (VW c) R Logic.I)) as (s & os & Y).
    assert (Z : forall a s s1 o1 e, vconn_run s a = Ret (s1, o1) -> vconn_step s1 e = UB -> vconn_run s (a ++ [e]) = UB).
    { clear. induction a as [|x a IH]; intros s s1 o1 e A B; cbn [vconn_run app] in *; [injection A as <- <-; rewrite B; reflexivity|].
      ob A. ob A. cbn [obind]. injection A as <- <-. rewrite (IH _ _ _ _ F0 B). reflexivity. }
    rewrite (Z _ _ _ _ _ R A) in Y. discriminate.
Qed.

(** ** The strand runs out of work *)
Definition aweight (a : aclosure) : nat := match a with StartAccept => 3 | Shutdown | Close _ => 1 end.
Definition tweight (t : task) : nat := match t with TaskStart => 4 | TaskShutdown => 2 | TaskAdd _ _ => 1 end.
Definition total {A : Type} (f : A -> nat) (l : list A) : nat := list_sum (map f l).
Definition lwork (l : aserver) : nat := (total aweight (as_queue l) + 2 * List.length (as_list l))%nat.
Definition swork h : nat := (lwork (us_listener h) + total tweight (sv_queue (us_channel h)))%nat.

Lemma total_app {A} (f : A -> nat) a b : total f (a ++ b) = (total f a + total f b)%nat.
Proof. unfold total. rewrite map_app. apply list_sum_app. Qed.
Lemma total_cons {A} (f : A -> nat) x a : total f (x :: a) = (f x + total f a)%nat.
Proof. reflexivity. Qed.
Lemma total_closes l : total aweight (map Close l) = List.length l.
Proof. induction l as [|c l IH]; [reflexivity|]. cbn [map]. rewrite total_cons, IH. reflexivity. Qed.

Lemma delete_length c l : member c l = true -> (List.length (delete c l) < List.length l)%nat.
Proof.
  unfold member, delete. induction l as [|d l IH]; [discriminate|]. cbn [existsb filter]. rewrite (Nat.eqb_sym c d).
  destruct (Nat.eqb d c) eqn:E; cbn [orb negb List.length]; [intros _|intros X; specialize (IH X); lia].
  clear. induction l as [|x l IH]; cbn; [lia|]. destruct (negb (Nat.eqb x c)); cbn in *; lia.
Qed.

Lemma lwork_run l l' os : as_queue l <> [] -> aserver_step l ARun = Ret (l', os) -> (lwork l' < lwork l)%nat.
Proof.
  intros NE E. cbn [aserver_step] in E. destruct (as_queue l) as [|a q] eqn:Q; [congruence|]. unfold lwork. rewrite Q, total_cons. destruct a as [| |c].
  - unfold do_accept in E. cbn in E. destruct (as_shutdown l); injection E as <- <-; cbn [as_queue as_list aweight]; rewrite ?app_length; cbn [List.length]; lia.
  - injection E as <- <-. cbn [apost as_queue as_list aweight List.length]. rewrite total_app, total_closes. lia.
  - unfold do_close, remove_connection in E. cbn [as_open as_list] in E. destruct (member c (as_open l)); [destruct (member c (as_list l)) eqn:M|]; injection E as <- <-;
      cbn [apost as_queue as_list aweight]; rewrite ?total_app; try lia.
    apply delete_length in M. change (total aweight [Close c]) with 1%nat. lia.
Qed.

Lemma listener_run_listener h h' m : linked h -> numbered (us_listener h) -> listener_run h = Ret (h', m) ->
  us_channel h' = us_channel h /\ exists os, aserver_step (us_listener h) ARun = Ret (us_listener h', os).
Proof.
  intros L NU E.
  assert (LT : forall h0 h' m, listener_turn h0 ARun [] = Ret (h', m) -> us_channel h' = us_channel h0 /\ exists os, aserver_step (us_listener h0) ARun = Ret (us_listener h', os)).
  { clear. intros h0 h' m E. unfold ServerTcp.listener_turn in E. ob E. ob E. injection E as <- <-.
    pose proof (step_effect _ _ _ _ F) as EF. destruct (ef_serving _ _ _ _ EF) as [NS|(c & pre & _ & X & _)]; [|discriminate].
    assert (O : forall os hh l buf h2 m2, (forall c, serving c os = false) -> listener_outputs hh l buf os = Ret (h2, m2) -> us_channel h2 = us_channel hh /\ us_listener h2 = us_listener hh).
    { clear. induction os as [|o os IH]; intros hh l buf h2 m2 NS E; cbn [ServerTcp.listener_outputs] in E; [injection E as <- <-; auto|]. ob E. ob E. injection E as <- <-.
      assert (NS2 : forall c, serving c os = false). { intro c. specialize (NS c). unfold serving in *. cbn [existsb] in NS. apply Bool.orb_false_iff in NS. exact (proj2 NS). }
      destruct (IH _ _ _ _ _ NS2 F0) as [A B]. rewrite A, B.
      assert (CC : forall l h0 h1 m1, close_conns h0 l = Ret (h1, m1) -> us_channel h1 = us_channel h0 /\ us_listener h1 = us_listener h0).
      { clear. induction l as [|c l IH]; intros h0 h1 m1 E; cbn [close_conns] in E; [injection E as <- <-; auto|]. ob E. ob E. injection E as <- <-.
        destruct (IH _ _ _ F0) as [A B]. rewrite A, B. apply peer_step_spec in F as ((A1 & _ & A3 & _) & _). auto. }
      destruct o as [|c|c|c|c|c|c|]; try (injection F as <- <-; auto; fail).
      - specialize (NS c). cbn in NS. rewrite Nat.eqb_refl in NS. discriminate.
      - apply peer_step_spec in F as ((A1 & _ & A3 & _) & _). auto.
      - eapply CC; eauto. }
    destruct (O _ _ _ _ _ _ NS F0) as [A B]. split; [exact A|]. rewrite B. eexists. reflexivity. }
  unfold ServerTcp.listener_run in E. destruct (as_queue (us_listener h)) as [|[| |c] q]; try (eapply LT; eauto; fail).
  ob E. ob E. injection E as <- <-. apply LT in F0 as [A B]. apply peer_step_spec in F as ((A1 & _ & A3 & _) & _). rewrite A, A1. split; [reflexivity|]. rewrite A3 in B. exact B.
Qed.

Lemma repeat_urun n : Forall typed_uevent (repeat URun n).
Proof. apply Forall_forall. intros x I. apply repeat_spec in I as ->. exact Logic.I. Qed.

Lemma run_cons h e es h1 m1 h2 m2 : userver_step h e = Ret (h1, m1) -> userver_run h1 es = Ret (h2, m2) -> userver_run h (e :: es) = Ret (h2, m1 ++ m2).
Proof. intros A B. cbn [ServerTcp.userver_run]. rewrite A. cbn [obind]. rewrite B. reflexivity. Qed.

(** A run of a closure makes progress. *)
Lemma urun_progress h : uinv h -> reg_ok (us_channel h) -> us_order h <> [] ->
  exists h' m, userver_step h URun = Ret (h', m) /\ uinv h' /\ reg_ok (us_channel h') /\
    (sv_shutdown (us_channel h') = sv_shutdown (us_channel h) /\ (swork h' < swork h)%nat \/ sv_shutdown (us_channel h) = false /\ sv_shutdown (us_channel h') = true).
Proof.
  intros U RO NE. pose proof U as [L NU [O1 O2] RG]. cbn [ServerTcp.userver_step]. destruct (us_order h) as [|[|] q] eqn:OR; [congruence| |].
  - cbn in O1, O2. assert (QE : exists t tq, sv_queue (us_channel h) = t :: tq) by (destruct (sv_queue (us_channel h)); [discriminate|eauto]). destruct QE as (t & tq & QE).
    assert (S : exists ch w os, sstep (us_channel h) (us_user h) ERun = Ret (ch, w, os)).
    { cbn [server_step]. rewrite QE. destruct (run_task _ _ _ _) as [[ch w] os]. eauto. }
    destruct S as (ch & w & os & S). destruct (task_turn_spec on_request on_shutdown pol (with_order h q) ERun ch w os L NU S) as (h' & m & E & D).
    exists h', m. split; [exact E|]. split; [exact (sd_inv _ _ _ _ _ _ (task_step _ _ _ _ _ _ _ U OR E))|].
    pose proof (tr_listen _ _ _ _ _ _ (td_turn _ _ _ _ _ _ _ _ _ _ D)) as TL. unfold tracks_listen in TL. rewrite (td_listen_ins _ _ _ _ _ _ _ _ _ _ D) in TL.
    change (us_listener (with_order h q)) with (us_listener h) in TL. rewrite (td_channel _ _ _ _ _ _ _ _ _ _ D).
    split; [exact (proj1 (step_cases on_request on_shutdown _ _ _ _ _ _ _ RO S))|].
    unfold swork. rewrite (td_channel _ _ _ _ _ _ _ _ _ _ D), QE, total_cons. cbn [server_step] in S. rewrite QE in S.
    assert (R : run_task on_shutdown (set_queue (us_channel h) tq) (us_user h) t = (ch, w, os)) by (change (us_user (with_order h q)) with (us_user h) in S; congruence). clear S.
    assert (ST : forall a l l' o, match a with AStart | AShutdown => True | _ => False end -> aserver_run l [a] = Ret (l', o) -> (lwork l' <= lwork l + (match a with AStart => 3 | _ => 1 end))%nat).
    { clear. intros a l l' o K E. cbn [aserver_run] in E. ob E. injection E as <- <-. destruct a; try destruct K; cbn [aserver_step] in F; unfold start_accept in F; try destruct (as_shutdown l); injection F as <- <-; unfold lwork;
        cbn [apost as_queue as_list]; rewrite ?total_app; change (total aweight [StartAccept]) with 3%nat; change (total aweight [Shutdown]) with 1%nat; lia. }
    destruct t as [| |u x]; cbn [run_task set_queue sv_shutdown sv_started sv_sessions sv_queue sv_conns] in R; cbn [tweight].
    + destruct (sv_shutdown (us_channel h)) eqn:SH; injection R as <- <- <-; cbn [told_acceptor flat_map app] in TL; left; cbn [sv_shutdown sv_queue set_queue]; (split; [try assumption; reflexivity|]).
      * cbn [aserver_run] in TL. injection TL as <- _. lia.
      * apply ST in TL; [|exact Logic.I]. lia.
    + match type of R with context[shutdown_sessions on_shutdown ?a ?b ?l] => destruct (shutdown_sessions_spec on_shutdown l a b) as (s1 & w1 & E1 & Q1 & _ & _ & _ & q1 & E2) end.
      rewrite E1 in R. injection R as <- <- <-. cbn [sv_shutdown sv_queue set_queue]. rewrite Q1. cbn [sv_shutdown]. destruct (sv_shutdown (us_channel h)) eqn:SH; [left|right; auto].
      split; [reflexivity|]. destruct (proj2 RO SH) as [S1 S2]. rewrite S1, S2 in TL. rewrite S2 in E1. cbn [shutdown_sessions] in E1. injection E1 as <- <-.
      cbn [map app told_acceptor flat_map aserver_run] in TL. injection TL as <- _. cbn [sv_queue]. lia.
    + destruct (sv_shutdown (us_channel h)) eqn:SH; injection R as <- <- <-; cbn [told_acceptor flat_map aserver_run] in TL; injection TL as <- _; left; cbn [sv_shutdown sv_queue set_queue];
        (split; [try assumption; reflexivity|lia]).
  - cbn in O1, O2. destruct (listener_run_total (with_order h q) L) as (h' & m & E). exists h', m. split; [exact E|].
    pose proof (sd_inv _ _ _ _ _ _ (listener_run_step _ _ _ _ _ _ _ U OR E)) as U'. split; [exact U'|].
    destruct (listener_run_listener (with_order h q) _ _ L NU E) as [A (os & B)]. change (us_channel (with_order h q)) with (us_channel h) in A. change (us_listener (with_order h q)) with (us_listener h) in B.
    rewrite A. split; [exact RO|]. left. split; [reflexivity|]. unfold swork. rewrite A. apply lwork_run in B; [lia|]. destruct (as_queue (us_listener h)); [discriminate|discriminate].
Qed.

Lemma drain_within k : forall n h, uinv h -> reg_ok (us_channel h) -> (swork h < n)%nat -> (sv_shutdown (us_channel h) = false -> k = 1%nat) -> (k <= 1)%nat ->
  exists r h' m, userver_run h (repeat URun r) = Ret (h', m) /\ us_order h' = [].
Proof.
  induction k as [k IHk] using lt_wf_ind. induction n as [|n IHn]; intros h U RO LT K K1; [lia|].
  destruct (us_order h) eqn:OR; [exists 0%nat, h, []; split; [reflexivity|exact OR]|].
  destruct (urun_progress h U RO) as (h1 & m1 & E & U1 & R1 & P); [congruence|].
  assert (G : exists r h' m, userver_run h1 (repeat URun r) = Ret (h', m) /\ us_order h' = []).
  { destruct P as [[P1 P2]|[P1 P2]].
    - apply IHn; auto; [lia|]. rewrite P1. exact K.
    - apply (IHk 0%nat) with (n := Datatypes.S (swork h1)); auto; [rewrite (K P1); lia|rewrite P2; discriminate]. }
  destruct G as (r & h' & m & X & Y). exists (Datatypes.S r), h', (m1 ++ m). split; [|exact Y]. cbn [repeat]. eapply run_cons; eauto.
Qed.

Theorem strand_drains max w0 es h m : server_history pol max w0 es h m ->
  exists n h' m', server_history pol max w0 (es ++ repeat URun n) h' (m ++ m') /\ us_order h' = [].
Proof.
  intros H. pose proof (sd_inv _ _ _ _ _ _ (history_done _ _ _ _ _ _ _ _ H)) as U. destruct (server_parts _ _ _ _ _ _ _ _ H) as (_ & R & _).
  pose proof (run_reg_ok _ _ _ _ _ _ _ _ _ reg_ok_init R) as RO.
  destruct (drain_within 1 (Datatypes.S (swork h)) h U RO) as (n & h' & m' & X & Y); [lia|auto|lia|].
  exists n, h', m'. split; [|exact Y]. eapply history_extend; eauto using repeat_urun.
Qed.
End Total.
