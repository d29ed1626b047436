(** Proofs about frames that a server receives twice. *)
From Verif Require Import Prelude Ser4 Messages Mbap SpecPdu SpecMbap BitFacts CodecLemmas ParseReqFacts MbapFacts MbapLemmas Database SpecDb DatabaseFacts DbLemmas System.
From Verif Require Import Server SpecServer ServerFacts SpecAlone AloneFacts SpecChunks ChunksFacts Client SpecStray StrayFacts StrayServer SpecRepeat RepeatFacts RepeatParser.

Section Server.
Context {W : Type}.
Context (P : W -> Prop).
Context (on_request : N -> W -> request -> W * expected response * list api).
Context (on_shutdown : N -> W -> W * list api).
Context (Hr : repeatable P on_request on_shutdown).
Context (pol : copy_policy).
Notation run := (server_run on_request on_shutdown pol).

Lemma parsed_typed fc p data r : request_parser fc = Some p -> bytes data -> p data = Ret (Value r) -> typed_call (CRequest r).
Proof.
  intros Ep Hb E. destruct (parse_outcomes fc data p Ep Hb) as [(q & H1 & H2 & H3 & H4)|[[H4 H5]|H4]]; [|congruence|congruence].
  rewrite E in H4. injection H4 as <-. destruct H1 as [T Q]. split; [exact T|]. destruct r; try exact Logic.I; cbn [quantity_in_range] in Q; lia.
Qed.

(** The same message twice. *)
Lemma mbap_twice s w c m s1 w1 o : P w -> typed_message m -> on_mbap on_request s w c m = Ret (s1, w1, o) ->
  s1 = s /\ P w1 /\ on_mbap on_request s w1 c m = Ret (s, w1, o).
Proof.
  intros Hw (_ & _ & Hb). unfold on_mbap. destruct (sv_shutdown s); [intros [= <- <- <-]; auto|].
  destruct (find_session _ _) as [x|]; [|intros [= <- <- <-]; auto].
  destruct (mb_data m) as [|fc rest] eqn:Em; [intros [= <- <- <-]; auto|].
  destruct (size (fc :: rest) <? 1); [intros [= <- <- <-]; auto|]. cbn [rd8 read_u8].
  destruct (request_parser fc) as [p|] eqn:Ep; [|intros [= <- <- <-]; auto]. unfold process_message. rewrite Em.
  destruct (p (fc :: rest)) as [[r|e]|] eqn:E; cbn [obind]; [| |discriminate].
  - destruct (on_request x w r) as [[w' v] l] eqn:Ea.
    destruct (proj1 Hr x w r w' v l Hw (parsed_typed _ _ _ _ Ep Hb E) Ea) as (A & -> & B).
    destruct v as [v|e]; [|destruct e]; intros [= <- <- <-]; rewrite B; cbn [api_calls fold_left]; auto.
  - destruct e; intros [= <- <- <-]; auto.
Qed.

Lemma messages_keep c ms : forall s w s1 w1 o, P w -> Forall typed_message ms -> on_messages on_request s w c ms = Ret (s1, w1, o) -> P w1.
Proof.
  induction ms as [|m ms IH]; intros s w s1 w1 o Hw T E; [injection E as <- <- <-; exact Hw|]. cbn [on_messages] in E. apply Forall_cons_iff in T. destruct T as [Tm T].
  destruct (on_mbap on_request s w c m) as [[[s2 w2] o2]|] eqn:Em; [|discriminate]. cbn [obind] in E.
  destruct (on_messages on_request s2 w2 c ms) as [[[s3 w3] o3]|] eqn:E3; [|discriminate]. injection E as <- <- <-.
  destruct (mbap_twice _ _ _ _ _ _ _ Hw Tm Em) as (_ & Hw2 & _). exact (IH _ _ _ _ _ Hw2 T E3).
Qed.

Lemma shutdown_keep l : forall s w s1 w1 o, P w -> shutdown_sessions on_shutdown s w l = (s1, w1, o) -> P w1.
Proof.
  induction l as [|[u x] l IH]; intros s w s1 w1 o Hw E; [injection E as <- <- <-; exact Hw|]. cbn [shutdown_sessions] in E.
  destruct (on_shutdown x w) as [w2 calls] eqn:Ex. destruct (shutdown_sessions on_shutdown (api_calls s calls) w2 l) as [[s3 w3] o3] eqn:E3. injection E as <- <- <-.
  exact (IH _ _ _ _ _ (proj2 Hr _ _ _ _ Hw Ex) E3).
Qed.

Lemma step_keeps s w e s1 w1 o : conns_ok pol s -> P w -> typed_event e -> server_step on_request on_shutdown pol s w e = Ret (s1, w1, o) -> conns_ok pol s1 /\ P w1.
Proof.
  intros Hc Hw Te E. destruct e as [a| |c buf|c d|c]; cbn [server_step typed_event] in *.
  - injection E as <- <- <-. split; [|exact Hw]. intros c p H. apply (Hc c p). destruct a; cbn [api_call] in H; try exact H; destruct (sv_shutdown s); exact H.
  - destruct (sv_queue s) as [|t q]; [injection E as <- <- <-; auto|]. assert (Q := run_task_conns on_shutdown (set_queue s q) w t).
    destruct (run_task on_shutdown (set_queue s q) w t) as [[s2 w2] o2] eqn:Er. injection E as <- <- <-. split; [intros c p; rewrite Q; apply Hc|].
    destruct t; cbn [run_task] in Er; try (destruct (sv_shutdown (set_queue s q)); injection Er as <- <- <-; exact Hw).
    match type of Er with context[shutdown_sessions on_shutdown ?a ?b ?l] => destruct (shutdown_sessions on_shutdown a b l) as [[s3 w3] o3] eqn:E3 end.
    injection Er as <- <- <-. exact (shutdown_keep _ _ _ _ _ _ Hw E3).
  - injection E as <- <- <-. split; [|exact Hw]. intros c' p. cbn [set_conn sv_conns]. destruct (c' =? c); [|apply Hc].
    intros [= <-]. exists []. apply R_new. exact Te.
  - destruct (sv_conns s c) as [p|] eqn:Ec; [|injection E as <- <- <-; auto]. destruct (Hc c p Ec) as (t & HR).
    destruct (parse_spec pol p t d HR Te) as (p' & t' & items & ms & Ep & Hty & _ & HR' & Hm & _). rewrite Ep in E. cbn [obind] in E.
    split; [|exact (messages_keep c ms _ _ _ _ _ Hw (matches_typed _ _ _ Hty Hm) E)].
    destruct (messages_conns on_request (sv_conns s) _ _ _ _ _ _ _ E) as [_ K]. intros c' q. rewrite K. cbn [set_conn sv_conns].
    destruct (c' =? c); [|apply Hc]. intros [= <-]. eauto.
  - destruct (sv_conns s c) as [p|] eqn:Ec; injection E as <- <- <-; [|auto]. split; [|exact Hw]. intros c' q. cbn [set_conn sv_conns].
    destruct (c' =? c); [|apply Hc]. intros [= <-]. exists []. destruct (Hc c p Ec) as (t & HR). apply R_reset. exact (proj1 HR).
Qed.

Lemma run_keeps es : forall s w s1 w1 o, conns_ok pol s -> P w -> Forall typed_event es -> run s w es = Ret (s1, w1, o) -> P w1.
Proof.
  induction es as [|e es IH]; intros s w s1 w1 o Hc Hw T E; [injection E as <- <- <-; exact Hw|]. cbn [server_run] in E. apply Forall_cons_iff in T. destruct T as [Te T].
  destruct (server_step on_request on_shutdown pol s w e) as [[[s2 w2] o2]|] eqn:E2; [|discriminate]. cbn [obind] in E.
  destruct (run s2 w2 es) as [[[s3 w3] o3]|] eqn:E3; [|discriminate]. injection E as <- <- <-.
  destruct (step_keeps _ _ _ _ _ _ Hc Hw Te E2) as [Hc2 Hw2]. exact (IH _ _ _ _ _ Hc2 Hw2 T E3).
Qed.

(** What the parsers have yet to deal with. *)
Definition tracked (g : N -> list N) (s : server) : Prop :=
  forall c p, sv_conns s c = Some p -> exists is u, Forall typed_item is /\ g c = flat_map item_bytes is ++ u /\ R pol p u.

Lemma step_tracked g s w e s1 w1 o : tracked g s -> typed_event e -> server_step on_request on_shutdown pol s w e = Ret (s1, w1, o) ->
  tracked (fun c => arrived c (g c) [e]) s1.
Proof.
  intros Hc Te E. destruct e as [a| |c buf|c d|c]; cbn [server_step typed_event arrived] in *.
  - injection E as <- <- <-. intros c p H. apply (Hc c p). destruct a; cbn [api_call] in H; try exact H; destruct (sv_shutdown s); exact H.
  - destruct (sv_queue s) as [|t q]; [injection E as <- <- <-; auto|]. assert (Q := run_task_conns on_shutdown (set_queue s q) w t).
    destruct (run_task on_shutdown (set_queue s q) w t) as [[s2 w2] o2] eqn:Er. injection E as <- <- <-. intros c p; rewrite Q; apply Hc.
  - injection E as <- <- <-. intros c' p. cbn [set_conn sv_conns]. destruct (c' =? c); [|apply Hc].
    intros [= <-]. exists [], []. split; [constructor|]. split; [reflexivity|]. apply R_new. exact Te.
  - destruct (sv_conns s c) as [p|] eqn:Ec.
    + destruct (Hc c p Ec) as (is & t & Hi & Hg & HR).
      destruct (parse_spec pol p t d HR Te) as (p' & t' & items & ms & Ep & Hty & Ht & HR' & Hm & _). rewrite Ep in E. cbn [obind] in E.
      destruct (messages_conns on_request (sv_conns s) _ _ _ _ _ _ _ E) as [_ K]. intros c' q. rewrite K. cbn [set_conn sv_conns].
      destruct (N.eqb_spec c' c) as [->|]; [|apply Hc]. intros [= <-]. exists (is ++ items), t'. split; [apply Forall_app; auto|]. split; [|exact HR'].
      rewrite Hg, flat_map_app, <- !app_assoc, Ht. reflexivity.
    + injection E as <- <- <-. intros c' q H. destruct (N.eqb_spec c' c) as [->|]; [congruence|]. exact (Hc c' q H).
  - destruct (sv_conns s c) as [p|] eqn:Ec; injection E as <- <- <-; intros c' q; [cbn [set_conn sv_conns]|]; destruct (N.eqb_spec c' c) as [->|]; try apply Hc; [|congruence].
    intros [= <-]. exists [], []. split; [constructor|]. split; [reflexivity|]. destruct (Hc c p Ec) as (is & t & _ & _ & HR). apply R_reset. exact (proj1 HR).
Qed.

Lemma run_tracked es : forall g s w s1 w1 o, tracked g s -> Forall typed_event es -> run s w es = Ret (s1, w1, o) -> tracked (fun c => arrived c (g c) es) s1.
Proof.
  induction es as [|e es IH]; intros g s w s1 w1 o Hc T E; [injection E as <- <- <-; exact Hc|]. cbn [server_run] in E. apply Forall_cons_iff in T. destruct T as [Te T].
  destruct (server_step on_request on_shutdown pol s w e) as [[[s2 w2] o2]|] eqn:E2; [|discriminate]. cbn [obind] in E.
  destruct (run s2 w2 es) as [[[s3 w3] o3]|] eqn:E3; [|discriminate]. injection E as <- <- <-.
  assert (K := IH _ _ _ _ _ _ (step_tracked _ _ _ _ _ _ _ Hc Te E2) T E3). intros c p H. destruct (K c p H) as (is & u & K1 & K2 & K3).
  exists is, u. split; [exact K1|]. split; [|exact K3]. rewrite <- K2. exact (arrived_app c [e] (g c) es).
Qed.

(** Servers with the same parsers. *)
Definition alike (s t : server) : Prop := t = with_conns s (sv_conns t) /\ forall c, sv_conns s c = sv_conns t c.

Lemma step_alike s t w e s1 w1 o : alike s t -> server_step on_request on_shutdown pol s w e = Ret (s1, w1, o) ->
  exists t1, server_step on_request on_shutdown pol t w e = Ret (t1, w1, o) /\ alike s1 t1.
Proof.
  intros [Ht Hs] E. destruct e as [a| |c buf|c d|c]; cbn [server_step] in *.
  - injection E as <- <- <-. exists (api_call t a). split; [reflexivity|].
    assert (Q : forall s, sv_conns (api_call s a) = sv_conns s) by (intros u; destruct (api_call_sbq u a) as (_ & _ & _ & Q & _); exact Q).
    split; [rewrite Ht at 1; rewrite api_call_with, Q; reflexivity|]. intros c. rewrite !Q. apply Hs.
  - assert (Eq : sv_queue t = sv_queue s) by (rewrite Ht; reflexivity). rewrite Eq.
    destruct (sv_queue s) as [|k q]; [injection E as <- <- <-; exists t; repeat split; auto|].
    destruct (run_task on_shutdown (set_queue s q) w k) as [[s2 w2] o2] eqn:E1. injection E as <- <- <-.
    destruct (run_task_with on_shutdown eq (stop_eq on_shutdown) _ (sv_conns t) _ w _ _ _ _ eq_refl E1) as (v1 & E2 & <- & K).
    replace (set_queue t q) with (with_conns (set_queue s q) (sv_conns t)) by (rewrite Ht; reflexivity).
    exists (with_conns s2 (sv_conns t)). rewrite E2. split; [reflexivity|]. split; [reflexivity|]. intros c. rewrite K. apply Hs.
  - injection E as <- <- <-. eexists. split; [reflexivity|]. split; [rewrite Ht at 1; reflexivity|]. intros c'. cbn [set_conn sv_conns]. destruct (c' =? c); [reflexivity|apply Hs].
  - rewrite <- Hs. destruct (sv_conns s c) as [p|]; [|injection E as <- <- <-; exists t; repeat split; auto].
    destruct (mbap_parse pol p d) as [[p' ms]|]; [|discriminate E]. cbn [obind] in *.
    set (f := fun y => if y =? c then Some p' else sv_conns t y).
    replace (set_conn t c (Some p')) with (with_conns (set_conn s c (Some p')) f) by (rewrite Ht; reflexivity).
    destruct (messages_conns on_request f _ _ _ _ _ _ _ E) as [E2 K]. exists (with_conns s1 f). split; [exact E2|]. split; [reflexivity|].
    intros y. rewrite K. cbn [set_conn with_conns sv_conns]. unfold f. destruct (y =? c); [reflexivity|apply Hs].
  - rewrite <- Hs. destruct (sv_conns s c) as [p|]; injection E as <- <- <-; [|exists t; repeat split; auto].
    eexists. split; [reflexivity|]. split; [rewrite Ht at 1; reflexivity|]. intros c'. cbn [set_conn sv_conns]. destruct (c' =? c); [reflexivity|apply Hs].
Qed.

Lemma run_alike es : forall s t w s1 w1 o, alike s t -> run s w es = Ret (s1, w1, o) -> exists t1, run t w es = Ret (t1, w1, o) /\ alike s1 t1.
Proof.
  induction es as [|e es IH]; intros s t w s1 w1 o Ha E; [injection E as <- <- <-; exists t; auto|]. cbn [server_run] in *.
  destruct (server_step on_request on_shutdown pol s w e) as [[[s2 w2] o2]|] eqn:E2; [|discriminate]. cbn [obind] in E.
  destruct (run s2 w2 es) as [[[s3 w3] o3]|] eqn:E3; [|discriminate]. injection E as <- <- <-.
  destruct (step_alike _ _ _ _ _ _ _ Ha E2) as (t2 & F2 & A2). rewrite F2. cbn [obind]. destruct (IH _ _ _ _ _ _ A2 E3) as (t3 & F3 & A3). rewrite F3. exists t3. auto.
Qed.

Lemma step_defined g s w e : tracked g s -> typed_event e -> exists s1 w1 o, server_step on_request on_shutdown pol s w e = Ret (s1, w1, o).
Proof.
  intros Hc Te. destruct e as [a| |c buf|c d|c]; cbn [server_step].
  - eauto.
  - destruct (sv_queue s) as [|t q]; [eauto|]. destruct (run_task on_shutdown (set_queue s q) w t) as [[s2 w2] o2]. eauto.
  - eauto.
  - destruct (sv_conns s c) as [p|] eqn:Ec; [|eauto]. destruct (Hc c p Ec) as (_ & t & _ & _ & HR).
    destruct (parse_spec pol p t d HR Te) as (p' & t' & items & ms & -> & _). cbn [obind]. apply messages_defined.
  - destruct (sv_conns s c); eauto.
Qed.

Lemma run_defined es : forall g s w, tracked g s -> Forall typed_event es -> exists s1 w1 o, run s w es = Ret (s1, w1, o).
Proof.
  induction es as [|e es IH]; intros g s w Hc T; [cbn; eauto|]. apply Forall_cons_iff in T. destruct T as [Te T].
  destruct (step_defined g s w e Hc Te) as (s1 & w1 & o & E). cbn [server_run]. rewrite E. cbn [obind].
  destruct (IH _ s1 w1 (step_tracked _ _ _ _ _ _ _ Hc Te E) T) as (s2 & w2 & o2 & ->). cbn [obind]. eauto.
Qed.

Theorem twice_as_once w a c d its x b s0 w0 o0 : P w -> Forall typed_event (a ++ EReceive c d :: b) -> whole (arrived c [] a) its ->
  run server_init w a = Ret (s0, w0, o0) -> whole d [x] ->
  exists s1 w1 o s t w2 o2, run s0 w0 [EReceive c d] = Ret (s1, w1, o) /\
    run server_init w (a ++ EReceive c d :: b) = Ret (s, w2, o0 ++ o ++ o2) /\
    run server_init w (a ++ EReceive c d :: EReceive c d :: b) = Ret (t, w2, o0 ++ o ++ o ++ o2) /\
    but_parsers s t /\ forall y, sv_conns s y = sv_conns t y.
Proof.
  intros Pw Ty Hg E0 Hw. apply Forall_app in Ty. destruct Ty as [Ta Tb]. apply Forall_cons_iff in Tb. destruct Tb as [Td Tb].
  assert (I0 : forall g, tracked g server_init) by (intros g y p H; discriminate H). assert (K0 := run_tracked a _ _ _ _ _ _ (I0 (fun _ => [])) Ta E0). cbn beta in K0.
  assert (Pw0 : P w0) by (apply (run_keeps a server_init w s0 w0 o0); auto; intros y p H; discriminate H).
  assert (Tx : typed_item x /\ d = item_bytes x) by (destruct Hw as [W1 W2]; apply Forall_cons_iff in W1; cbn [flat_map] in W2; rewrite app_nil_r in W2; tauto).
  destruct Tx as [Tx Ed].
  assert (K : exists q1 q2 w1 o, server_step on_request on_shutdown pol s0 w0 (EReceive c d) = Ret (q1, w1, o) /\
      server_step on_request on_shutdown pol q1 w1 (EReceive c d) = Ret (q2, w1, o) /\ alike q1 q2).
  { cbn [server_step]. destruct (sv_conns s0 c) as [p|] eqn:Ec; [|exists s0, s0, w0, []; rewrite Ec; split; [reflexivity|]; split; [reflexivity|]; split; [destruct s0; reflexivity|reflexivity]].
    destruct (K0 c p Ec) as (is & u & Hi & Eu & HR). destruct Hg as [G1 G2]. rewrite G2, <- (app_nil_r (flat_map item_bytes its)) in Eu.
    assert (B : exists r, between r p).
    { apply (R_between pol p u HR). destruct (settled_incomplete its [] (or_introl (eq_refl : size (@nil N) < 7)) G1 is u Hi Eu (R_tail _ _ _ HR)) as [(i & -> & Hb & -> & _)|[-> ->]]; [|auto].
      right. exists i. apply Forall_app in G1. destruct G1 as [_ G1]. apply Forall_cons_iff in G1. tauto. }
    destruct B as [r B]. destruct (parsed_twice pol p x r B Tx) as (p' & ms & ms' & Ep & Ep' & Hms). destruct (parsed_between pol p x r B Tx) as (ms2 & Ep2 & Hms2).
    rewrite Ep in Ep2. injection Ep2 as _ <-. assert (L := heard_one pol x r). rewrite <- Hms2 in L.
    assert (Tm : Forall typed_message (filter heard ms)).
    { rewrite Ed in Td. destruct (parse_spec pol p u (item_bytes x) HR Td) as (p3 & u3 & items & ms3 & Ep3 & Hty & _ & _ & Hm & _). rewrite Ep in Ep3. injection Ep3 as <- <-.
      assert (T := matches_typed _ _ _ Hty Hm). rewrite Forall_forall in *. intros m Hin. apply filter_In in Hin. apply T. tauto. }
    rewrite Ed, Ep. cbn [obind]. rewrite messages_heard. set (q1 := set_conn s0 c (Some p')). set (q2 := set_conn q1 c (Some p')).
    assert (C1 : sv_conns q1 c = Some p') by (unfold q1; cbn [set_conn sv_conns]; rewrite N.eqb_refl; reflexivity).
    assert (A : alike q1 q2) by (split; [reflexivity|]; intros y; unfold q2; cbn [set_conn sv_conns]; destruct (N.eqb_spec y c) as [->|]; [exact C1|reflexivity]).
    assert (M : exists w1 o, on_messages on_request q1 w0 c (filter heard ms) = Ret (q1, w1, o) /\ on_messages on_request q1 w1 c (filter heard ms) = Ret (q1, w1, o)).
    { destruct (filter heard ms) as [|m [|m' l]]; [exists w0, []; split; reflexivity| |cbn in L; lia]. apply Forall_cons_iff in Tm. destruct Tm as [Tm _].
      destruct (messages_defined on_request c [m] q1 w0) as (s2 & w2 & o2 & Em). assert (Em2 := Em). cbn [on_messages] in Em.
      destruct (on_mbap on_request q1 w0 c m) as [[[s3 w3] o3]|] eqn:Eb; [|discriminate]. cbn [obind] in Em. rewrite app_nil_r in Em. injection Em as -> -> ->.
      destruct (mbap_twice _ _ _ _ _ _ _ Pw0 Tm Eb) as (-> & _ & Eb2). exists w2, o2. split; [exact Em2|]. cbn [on_messages]. rewrite Eb2. cbn [obind]. rewrite app_nil_r. reflexivity. }
    destruct M as (w1 & o & M1 & M2). exists q1, q2, w1, o. split; [exact M1|]. split; [|exact A]. rewrite C1, Ep'. cbn [obind]. rewrite messages_heard, Hms. fold q2.
    exact (proj1 (messages_conns on_request (sv_conns q2) _ _ _ _ _ _ _ M2)). }
  destruct K as (q1 & q2 & w1 & o & K1 & K2 & A).
  assert (Ok1 := step_tracked _ _ _ _ _ _ _ K0 Td K1).
  destruct (run_defined b _ q1 w1 Ok1 Tb) as (s & w2 & o2 & Eb). destruct (run_alike b _ _ _ _ _ _ A Eb) as (t & Eb2 & [A1 A2]).
  exists q1, w1, o, s, t, w2, o2. rewrite (runs_app on_request on_shutdown pol a _ _ _ _ _ _ E0), (runs_app on_request on_shutdown pol a _ _ _ _ _ _ E0).
  cbn [server_run]. rewrite K1. cbn [obind]. rewrite K2. cbn [obind]. rewrite Eb, Eb2. cbn [obind]. rewrite app_nil_r. split; [reflexivity|]. split; [reflexivity|]. split; [reflexivity|].
  split; [|exact A2]. rewrite A1. repeat split; cbn [with_conns sv_conns]; rewrite A2; auto.
Qed.
End Server.

(** ** The database *)
Lemma db_repeatable : repeatable reachable_db db_session db_shutdown.
Proof.
  split; [|intros x w w' l H [= <- <-]; exact H]. intros x d r d' v l Hd T E. unfold db_session in *.
  destruct (run_request d r (reachable_wf _ Hd) T) as (e & y & Er & We & _).
  assert (Er' : run (Database.on_request r) d = Ret (e, y)).
  { cbn [call_body] in Er. rewrite run_bind in Er. destruct (run (Database.on_request r) d) as [[e' y']|]; [|discriminate]. cbn [obind run] in Er. congruence. }
  rewrite Er' in E. injection E as <- <- <-. split; [exact (RD_call _ _ _ _ Hd T Er)|]. split; [reflexivity|].
  assert (H := again_at_once d r e (RResponse y) Hd T). cbn [run_calls] in H. rewrite Er in H. cbn [obind] in H. specialize (H eq_refl).
  destruct (run (call_body (CRequest r)) e) as [[e2 y2]|] eqn:E2; [|discriminate]. cbn [obind] in H. injection H as -> ->.
  cbn [call_body] in E2. rewrite run_bind in E2. destruct (run (Database.on_request r) e) as [[e' y']|]; [|discriminate]. cbn [obind run] in E2. injection E2 as -> ->. reflexivity.
Qed.
