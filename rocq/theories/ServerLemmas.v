(** Lemmas behind PropsServer.v. *)
From Verif Require Import Prelude Ser4 Messages Mbap Tac SpecPdu SpecMbap BitFacts BuildFacts ParseReqFacts ParseRespFacts CodecLemmas MbapFacts MbapLemmas Server SpecServer FrameFacts ServerFacts.

Section Lemmas.
Context {W : Type}.
Context (on_request : N -> W -> request -> W * expected response * list api).
Context (on_shutdown : N -> W -> W * list api).

Notation run := (server_run on_request on_shutdown).
Notation step := (server_step on_request on_shutdown).

Lemma run_app_events pol es1 : forall s w es2,
  run pol s w (es1 ++ es2) =
  let! (s1, w1, o1) := run pol s w es1 in
  let! (s2, w2, o2) := run pol s1 w1 es2 in Ret (s2, w2, o1 ++ o2).
Proof.
  induction es1 as [|e es1 IH]; intros s w es2; cbn [app server_run].
  - cbn [obind]. destruct (run pol s w es2) as [[[s2 w2] o2]|]; reflexivity.
  - destruct (step pol s w e) as [[[s1 w1] o1]|]; cbn [obind]; [|reflexivity].
    rewrite IH. destruct (run pol s1 w1 es1) as [[[s2 w2] o2]|]; cbn [obind]; [|reflexivity].
    destruct (run pol s2 w2 es2) as [[[s3 w3] o3]|]; cbn [obind]; [|reflexivity].
    rewrite app_assoc. reflexivity.
Qed.

(** ** C27 *)
Lemma ops_chunks c es :
  Forall (fun e => match e with EConnError c' => c' =? c = false | _ => True end) es ->
  exists chunks, ops_on c es = map Chunk chunks.
Proof.
  induction 1 as [|e es He _ (chunks & IH)]; [exists []; reflexivity|].
  unfold ops_on in *. cbn [flat_map]. rewrite IH.
  destruct e as [a| |c' b|c' d|c']; try (exists chunks; reflexivity).
  - destruct (c' =? c); [exists (d :: chunks)|exists chunks]; reflexivity.
  - rewrite He. exists chunks. reflexivity.
Qed.

Lemma ops_bytes c es chunks :
  Forall typed_event es -> ops_on c es = map Chunk chunks -> Forall bytes chunks.
Proof.
  intros He E. apply Forall_forall. intros d Hd.
  assert (Hin : In (Chunk d) (ops_on c es)) by (rewrite E; apply in_map; exact Hd).
  unfold ops_on in Hin. apply in_flat_map in Hin. destruct Hin as (e & Hine & Hin).
  rewrite Forall_forall in He. specialize (He e Hine).
  destruct e as [a| |c' b|c' d'|c']; cbn in Hin; try contradiction.
  - destruct (c' =? c); [|contradiction]. destruct Hin as [Hin|[]]. injection Hin as <-. exact He.
  - destruct (c' =? c); [|contradiction]. destruct Hin as [Hin|[]]. discriminate.
Qed.

Lemma stream_in_order (Hwt : well_typed on_request) pol w es1 c buf es2 chunks items tail :
  Forall typed_event es1 -> good_buf buf -> Forall typed_event es2 -> same_connection c es2 ->
  ops_on c es2 = map Chunk chunks -> framed (List.concat chunks) items tail ->
  exists s1 w1 o1 s2 w2 o2 vs,
    run pol server_init w (es1 ++ [EAccept c buf]) = Ret (s1, w1, o1) /\
    run pol s1 w1 es2 = Ret (s2, w2, o2) /\
    filter by_frame o2 = List.concat (map caused vs) /\
    StronglySorted le (map at_event vs) /\
    Forall (fun v => in_history on_request on_shutdown pol s1 w1 es2 v /\ answered_once v) vs /\
    Forall2 got (filter deliverable (settled items tail)) (map frame_in (filter (on_conn c) vs)).
Proof.
  intros H1 Hg H2 Hsc Eo Hf.
  assert (H1' : Forall typed_event (es1 ++ [EAccept c buf])).
  { apply Forall_app. split; [exact H1|]. repeat constructor; apply Hg. }
  destruct (run_spec on_request on_shutdown Hwt pol es1 server_init w (init_ok pol) H1)
    as (s0 & w0 & o0 & _ & E0 & C0 & _).
  set (s1 := set_conn s0 c (Some (mbap_new buf))).
  assert (E1 : run pol server_init w (es1 ++ [EAccept c buf]) = Ret (s1, w0, o0)).
  { rewrite run_app_events, E0. cbn [obind server_run server_step]. rewrite app_nil_r. reflexivity. }
  assert (C1 : conns_ok pol s1).
  { intros c' p. cbn [s1 set_conn sv_conns]. destruct (c' =? c); [|apply C0].
    intros X. injection X as <-. exists []. apply R_new, Hg. }
  destruct (run_spec on_request on_shutdown Hwt pol es2 s1 w0 C1 H2)
    as (s2 & w2 & o2 & vs & E2 & C2 & B2 & S2 & I2 & M2).
  destruct (M2 c (mbap_new buf)) as (p' & Em & _); [|exact Hsc|].
  { cbn [s1 set_conn sv_conns]. rewrite N.eqb_refl. reflexivity. }
  rewrite Eo in Em.
  destruct (delivery_settled pol _ chunks items tail (R_new pol buf Hg) (ops_bytes _ _ _ H2 Eo) Hf)
    as (st' & outs & Ed & _ & Hm).
  rewrite Ed in Em. injection Em as _ Em.
  exists s1, w0, o0, s2, w2, o2, vs. split; [exact E1|]. split; [exact E2|]. split; [exact B2|].
  split; [exact S2|]. split.
  - eapply Forall_impl; [|exact I2]. intros v Hv. split; [exact Hv|].
    exact (history_answered_once _ _ Hwt _ _ _ _ _ Hv).
  - rewrite <- Em. eapply Forall2_impl; [|exact Hm]. intros a b. apply matches_got.
Qed.

Lemma serves_all_app reg c ms ms' : forall w w1 w2 os os',
  serves_all on_request reg c ms w w1 os -> serves_all on_request reg c ms' w1 w2 os' ->
  serves_all on_request reg c (ms ++ ms') w w2 (os ++ os').
Proof.
  induction ms as [|m ms IH]; intros w w1 w2 os os' H1 H2.
  - remember [] as l eqn:El. destruct H1; [exact H2|discriminate].
  - remember (m :: ms) as l eqn:El. destruct H1 as [|m' ms0 w wa wb oa ob H1 H1']; [discriminate|].
    injection El as -> ->. cbn [app]. rewrite <- app_assoc. econstructor; [exact H1|].
    eapply IH; eassumption.
Qed.

Lemma pipeline_chunks (Hwt : well_typed on_request) pol c chunks : forall s w p t,
  sv_conns s c = Some p -> R pol p t -> Forall bytes chunks -> sv_shutdown s = false ->
  exists p' ms s' w' os,
    mbap_run pol p (map Chunk chunks) = Ret (p', ms) /\
    run pol s w (map (EReceive c) chunks) = Ret (s', w', os) /\
    serves_all on_request (registry s) c ms w w' os /\
    sv_shutdown s' = false /\ sv_sessions s' = sv_sessions s /\ sv_conns s' c = Some p'.
Proof.
  induction chunks as [|d chunks IH]; intros s w p t Hp HR Hb Hs; cbn [map mbap_run server_run].
  { exists p, [], s, w, []. repeat split; auto. constructor. }
  apply Forall_cons_iff in Hb. destruct Hb as [Hd Hb]. cbn [server_step]. rewrite Hp.
  destruct (parse_spec pol p t d HR Hd) as (p1 & t1 & items & ms & E & Hty & _ & HR1 & Hm & _).
  rewrite E. cbn [obind].
  assert (Htm := matches_typed _ _ _ Hty Hm).
  destruct (on_messages_spec on_request on_shutdown Hwt c ms (set_conn s c (Some p1)) w Htm)
    as (s1 & w1 & o1 & bl & -> & Q & _ & _ & _ & _ & U).
  cbn [obind]. cbn [set_conn sv_shutdown] in U. specialize (U Hs).
  destruct Q as (Q1 & _ & Q3 & Q4 & _). cbn [set_conn sv_shutdown sv_sessions sv_conns] in Q1, Q3, Q4.
  assert (Hp1 : sv_conns s1 c = Some p1) by (rewrite Q4, N.eqb_refl; reflexivity).
  rewrite Hs in Q1.
  destruct (IH s1 w1 p1 t1 Hp1 HR1 Hb Q1) as (p2 & ms2 & s2 & w2 & o2 & -> & -> & S2 & D2 & N2 & P2).
  cbn [obind]. exists p2, (ms ++ ms2), s2, w2, (o1 ++ o2). repeat split; auto; [|congruence].
  unfold registry in *. cbn [set_conn sv_sessions] in U. rewrite Q3 in S2.
  eapply serves_all_app; eassumption.
Qed.

Lemma pipeline (Hwt : well_typed on_request) pol w es s0 w0 o0 c buf frames chunks tail :
  Forall typed_event es -> run pol server_init w es = Ret (s0, w0, o0) -> sv_shutdown s0 = false ->
  good_buf buf -> Forall frame_ok frames -> Forall bytes chunks ->
  List.concat chunks = flat_map (fun '(tx, unit, pdu) => frame_bytes tx unit pdu) frames ++ tail ->
  incomplete tail ->
  exists s1 w1 os, run pol s0 w0 (EAccept c buf :: map (EReceive c) chunks) = Ret (s1, w1, os) /\
    serves_all on_request (registry s0) c (map frame_message frames) w0 w1 os.
Proof.
  intros He E Hs Hg Hf Hb Ec Hi. cbn [server_run server_step obind].
  destruct (pipeline_chunks Hwt pol c chunks (set_conn s0 c (Some (mbap_new buf))) w0 (mbap_new buf) [])
    as (p' & ms & s1 & w1 & os & Em & Er & S & _); auto.
  { cbn [set_conn sv_conns]. rewrite N.eqb_refl. reflexivity. }
  { apply R_new, Hg. }
  destruct (frames_round_trip pol buf frames chunks tail Hg Hf Hb Ec Hi) as (st' & Ef).
  rewrite Ef in Em. injection Em as _ <-.
  rewrite Er. cbn [obind app]. exists s1, w1, os. split; [reflexivity|exact S].
Qed.

(** ** Registered sessions *)
Definition reg_ok (s : server) : Prop :=
  NoDup (map fst (sv_sessions s)) /\
  (sv_shutdown s = true -> sv_started s = false /\ sv_sessions s = []).

Lemma find_none l u : find_session l u = None <-> ~ In u (map fst l).
Proof.
  induction l as [|[u' x] l IH]; cbn [find_session map fst In]; [tauto|].
  destruct (N.eqb_spec u' u) as [->|Hne]; [|rewrite IH; tauto].
  split; [discriminate|tauto].
Qed.

Lemma find_in l u x : NoDup (map fst l) -> (find_session l u = Some x <-> In (u, x) l).
Proof.
  induction l as [|[u' x'] l IH]; cbn [find_session map fst In]; intros Hn.
  - split; [discriminate|tauto].
  - apply NoDup_cons_iff in Hn. destruct Hn as [Hn Hl]. destruct (N.eqb_spec u' u) as [->|Hne].
    + split; [intros E; injection E as ->; auto|]. intros [E|Hin]; [congruence|].
      destruct Hn. apply in_map_iff. exists (u, x). auto.
    + rewrite IH by exact Hl. split; [auto|]. intros [E|Hin]; [congruence|exact Hin].
Qed.

Lemma find_app l l' u :
  find_session (l ++ l') u = match find_session l u with Some x => Some x | None => find_session l' u end.
Proof.
  induction l as [|[u' x'] l IH]; cbn [app find_session]; [reflexivity|].
  destruct (u' =? u); [reflexivity|exact IH].
Qed.

Lemma insert_nodup l u x : NoDup (map fst l) -> NoDup (map fst (insert_session l u x)).
Proof.
  intros H. unfold insert_session. destruct (find_session l u) eqn:E; [exact H|].
  apply find_none in E. rewrite map_app. cbn [map fst].
  apply NoDup_rev in H. rewrite <- (rev_involutive (map fst l ++ [u])). apply NoDup_rev.
  rewrite rev_app_distr. cbn [rev app]. constructor; [|exact H]. rewrite <- in_rev. exact E.
Qed.

Lemma on_messages_sbq c ms : forall s w s' w' os,
  on_messages on_request s w c ms = Ret (s', w', os) ->
  same_but_queue s s' /\ session_shutdowns os = [] /\ (sv_shutdown s = true -> os = []).
Proof.
  induction ms as [|m ms IH]; intros s w s' w' os E; cbn [on_messages] in E.
  { injection E as <- <- <-. split; [apply sbq_refl|auto]. }
  destruct (on_mbap on_request s w c m) as [[[s1 w1] o1]|] eqn:E1; [|discriminate]. cbn [obind] in E.
  destruct (on_messages on_request s1 w1 c ms) as [[[s2 w2] o2]|] eqn:E2; [|discriminate].
  cbn [obind] in E. injection E as <- <- <-.
  destruct (IH s1 w1 s2 w2 o2 E2) as (Q2 & N2 & D2).
  assert (H1 : same_but_queue s s1 /\ session_shutdowns o1 = [] /\ (sv_shutdown s = true -> o1 = [])).
  { unfold on_mbap in E1. destruct (sv_shutdown s) eqn:Ed.
    { injection E1 as <- <- <-. split; [apply sbq_refl|auto]. }
    destruct (find_session _ _) as [x|]; [|injection E1 as <- <- <-; split; [apply sbq_refl|auto]].
    destruct (size (mb_data m) <? 1); [injection E1 as <- <- <-; split; [apply sbq_refl|auto]|].
    unfold rd8 in E1. destruct (read_u8 (mb_data m)) as [[fc v]|]; [|discriminate].
    destruct (request_parser fc) as [p|].
    2:{ injection E1 as <- <- <-. split; [apply sbq_refl|split; [reflexivity|congruence]]. }
    unfold process_message in E1. destruct (p (mb_data m)) as [[r|e]|]; [| |discriminate]; cbn [obind] in E1.
    - destruct (on_request x w r) as [[w0 a] calls].
      destruct a as [resp|[]]; injection E1 as <- <- <-;
        (split; [apply api_calls_sbq|split; [reflexivity|congruence]]).
    - destruct e; injection E1 as <- <- <-; (split; [apply sbq_refl|split; [reflexivity|congruence]]). }
  destruct H1 as (Q1 & N1 & D1).
  split; [exact (sbq_trans _ _ _ Q1 Q2)|]. split.
  - unfold session_shutdowns in *. rewrite flat_map_app, N1, N2. reflexivity.
  - intros Hd. rewrite (D1 Hd), D2; [reflexivity|]. destruct Q1 as (Q1 & _). congruence.
Qed.

Lemma shutdowns_of l : session_shutdowns (map (fun x : N * N => OSessionShutdown (snd x)) l) = map snd l.
Proof. induction l as [|x l IH]; [reflexivity|]. unfold session_shutdowns in *. cbn [map flat_map app]. rewrite IH. reflexivity. Qed.

(** The effect of one event on what matters for shutdown. *)
Lemma step_cases pol s w e s' w' os :
  reg_ok s -> step pol s w e = Ret (s', w', os) ->
  reg_ok s' /\
  (sv_shutdown s = true -> sv_shutdown s' = true /\ os = []) /\
  (sv_shutdown s = false ->
     (sv_shutdown s' = false /\ session_shutdowns os = [] /\
      (forall u x, registry s u = Some x -> registry s' u = Some x)) \/
     (e = ERun /\ hd_error (sv_queue s) = Some TaskShutdown /\ sv_shutdown s' = true /\
      session_shutdowns os = map snd (sv_sessions s))).
Proof.
  intros [Hn Hd] E.
  assert (Hsame : same_but_queue s s' -> reg_ok s').
  { intros (A & B & C & _). split; [rewrite C; exact Hn|]. rewrite A, B, C. exact Hd. }
  assert (Hkeep : same_but_queue s s' -> forall u x, registry s u = Some x -> registry s' u = Some x).
  { intros (_ & _ & C & _). unfold registry. rewrite C. auto. }
  assert (Hgen : same_but_queue s s' -> session_shutdowns os = [] -> (sv_shutdown s = true -> os = []) ->
    reg_ok s' /\
    (sv_shutdown s = true -> sv_shutdown s' = true /\ os = []) /\
    (sv_shutdown s = false ->
     (sv_shutdown s' = false /\ session_shutdowns os = [] /\
      (forall u x, registry s u = Some x -> registry s' u = Some x)) \/
     (e = ERun /\ hd_error (sv_queue s) = Some TaskShutdown /\ sv_shutdown s' = true /\
      session_shutdowns os = map snd (sv_sessions s)))).
  { intros Q N1 D1. split; [auto|]. assert (Q0 := Q). destruct Q0 as (A & _). split.
    - intros H. split; [congruence|auto].
    - intros H. left. split; [congruence|auto]. }
  destruct e as [a| |c buf|c d|c]; cbn [server_step] in E.
  - injection E as <- <- <-. apply Hgen; auto. apply api_call_sbq.
  - destruct (sv_queue s) as [|t q] eqn:Eq.
    { injection E as <- <- <-. apply Hgen; auto. apply sbq_refl. }
    destruct t as [| |u x]; cbn [run_task set_queue sv_shutdown sv_started sv_sessions sv_queue sv_conns] in E.
    + destruct (sv_shutdown s) eqn:Ed; injection E as <- <- <-; cbn [sv_shutdown sv_sessions sv_started].
      * split; [|split; [auto|congruence]]. split; cbn [sv_shutdown sv_sessions sv_started]; auto.
      * split; [|split; [congruence|]]. { split; cbn [sv_shutdown sv_sessions sv_started]; [auto|congruence]. }
        intros _. left. auto.
    + match type of E with context[shutdown_sessions on_shutdown ?a ?b ?l] =>
        destruct (shutdown_sessions_spec on_shutdown l a b) as (s1 & w1 & E1 & Q) end.
      destruct Q as (A & B & C & D & _). rewrite E1 in E. injection E as <- <- <-.
      cbn [set_queue sv_shutdown sv_started sv_sessions sv_queue sv_conns] in *.
      split; [split; cbn [sv_shutdown sv_sessions sv_started]; [constructor|auto]|]. split.
      * intros H. split; [exact A|]. destruct (Hd H) as [H1 H2]. rewrite H1, H2. reflexivity.
      * intros _. right. repeat split; [exact A|]. unfold session_shutdowns. rewrite flat_map_app.
        fold (session_shutdowns (map (fun x : N * N => OSessionShutdown (snd x)) (sv_sessions s))).
        rewrite shutdowns_of. destruct (sv_started s); reflexivity.
    + destruct (sv_shutdown s) eqn:Ed; injection E as <- <- <-; cbn [sv_shutdown sv_sessions sv_started].
      * split; [|split; [auto|congruence]]. split; cbn [sv_shutdown sv_sessions sv_started]; auto.
      * split; [|split; [congruence|]].
        { split; cbn [sv_shutdown sv_sessions sv_started]; [apply insert_nodup, Hn|congruence]. }
        intros _. left. split; [reflexivity|]. split; [reflexivity|].
        intros u' x' H. unfold registry in *. cbn [sv_sessions]. unfold insert_session.
        destruct (find_session (sv_sessions s) u); [exact H|]. rewrite find_app, H. reflexivity.
  - injection E as <- <- <-. split; [split; auto|]. split; [auto|]. intros H. left. auto.
  - destruct (sv_conns s c) as [p|].
    2:{ injection E as <- <- <-. apply Hgen; auto. apply sbq_refl. }
    destruct (mbap_parse pol p d) as [[p' ms]|]; [|discriminate]. cbn [obind] in E.
    destruct (on_messages_sbq _ _ _ _ _ _ _ E) as ((A & B & C & _) & N1 & D1).
    cbn [set_conn sv_shutdown sv_started sv_sessions] in *.
    split. { split; [rewrite C; exact Hn|]. rewrite A, B, C. exact Hd. }
    split; [intros H; split; [congruence|auto]|]. intros H. left. split; [congruence|]. split; [exact N1|].
    unfold registry. rewrite C. auto.
  - destruct (sv_conns s c) as [p|]; injection E as <- <- <-.
    + split; [split; auto|]. split; [auto|]. intros H. left. auto.
    + apply Hgen; auto. apply sbq_refl.
Qed.

Lemma reg_ok_init : reg_ok server_init.
Proof. split; [constructor|discriminate]. Qed.

Lemma run_reg_ok pol es : forall s w s' w' os,
  reg_ok s -> run pol s w es = Ret (s', w', os) -> reg_ok s'.
Proof.
  induction es as [|e es IH]; intros s w s' w' os Hr E; cbn [server_run] in E.
  { injection E as <- <- <-. exact Hr. }
  destruct (step pol s w e) as [[[s1 w1] o1]|] eqn:E1; [|discriminate]. cbn [obind] in E.
  destruct (run pol s1 w1 es) as [[[s2 w2] o2]|] eqn:E2; [|discriminate]. injection E as <- <- <-.
  apply (IH s1 w1 s2 w2 o2); [|exact E2]. apply (step_cases _ _ _ _ _ _ _ Hr E1).
Qed.

Lemma silent_after pol es : forall s w s' w' os,
  reg_ok s -> sv_shutdown s = true -> run pol s w es = Ret (s', w', os) -> sv_shutdown s' = true /\ os = [].
Proof.
  induction es as [|e es IH]; intros s w s' w' os Hr Hs E; cbn [server_run] in E.
  { injection E as <- <- <-. auto. }
  destruct (step pol s w e) as [[[s1 w1] o1]|] eqn:E1; [|discriminate]. cbn [obind] in E.
  destruct (run pol s1 w1 es) as [[[s2 w2] o2]|] eqn:E2; [|discriminate]. injection E as <- <- <-.
  destruct (step_cases _ _ _ _ _ _ _ Hr E1) as (Hr1 & H1 & _). destruct (H1 Hs) as [Hs1 ->].
  destruct (IH s1 w1 s2 w2 o2 Hr1 Hs1 E2) as [H2 ->]. auto.
Qed.

Lemma silence_after_shutdown pol w es1 s1 w1 o1 es2 s2 w2 o2 :
  run pol server_init w es1 = Ret (s1, w1, o1) -> sv_shutdown s1 = true ->
  run pol s1 w1 es2 = Ret (s2, w2, o2) -> sv_shutdown s2 = true /\ o2 = [].
Proof. intros E1 Hs E2. exact (silent_after _ _ _ _ _ _ _ (run_reg_ok _ _ _ _ _ _ _ reg_ok_init E1) Hs E2). Qed.

Lemma shutdowns_run pol es : forall s w s' w' os,
  reg_ok s -> sv_shutdown s = false -> run pol s w es = Ret (s', w', os) ->
  (sv_shutdown s' = false /\ session_shutdowns os = []) \/
  (sv_shutdown s' = true /\ exists es1 es2 s1 w1 o1, es = es1 ++ ERun :: es2 /\
     run pol s w es1 = Ret (s1, w1, o1) /\ sv_shutdown s1 = false /\
     hd_error (sv_queue s1) = Some TaskShutdown /\
     session_shutdowns os = map snd (sv_sessions s1)).
Proof.
  induction es as [|e es IH]; intros s w s' w' os Hr Hs E; cbn [server_run] in E.
  { injection E as <- <- <-. auto. }
  destruct (step pol s w e) as [[[s1 w1] o1]|] eqn:E1; [|discriminate]. cbn [obind] in E.
  destruct (run pol s1 w1 es) as [[[s2 w2] o2]|] eqn:E2; [|discriminate]. injection E as <- <- <-.
  destruct (step_cases _ _ _ _ _ _ _ Hr E1) as (Hr1 & _ & H1). unfold session_shutdowns. rewrite flat_map_app.
  fold (session_shutdowns o1). fold (session_shutdowns o2).
  destruct (H1 Hs) as [(Hs1 & N1 & _)|(-> & Hq & Hs1 & N1)].
  - rewrite N1. cbn [app]. destruct (IH s1 w1 s2 w2 o2 Hr1 Hs1 E2)
      as [H|(H & a & b & s3 & w3 & o3 & -> & E3 & H3)]; [left; exact H|right].
    split; [exact H|]. exists (e :: a), b, s3, w3, (o1 ++ o3). cbn [app server_run]. rewrite E1. cbn [obind].
    rewrite E3. cbn [obind]. auto.
  - destruct (silent_after _ _ _ _ _ _ _ Hr1 Hs1 E2) as [H2 ->]. right. split; [exact H2|].
    exists [], es, s, w, []. cbn [app server_run session_shutdowns flat_map]. rewrite app_nil_r. auto.
Qed.

Lemma registered_shut_down pol w es s' w' os :
  run pol server_init w es = Ret (s', w', os) ->
  (sv_shutdown s' = false -> session_shutdowns os = []) /\
  (sv_shutdown s' = true -> exists es1 es2 s1 w1 o1 reg,
     es = es1 ++ ERun :: es2 /\ run pol server_init w es1 = Ret (s1, w1, o1) /\
     sv_shutdown s1 = false /\ hd_error (sv_queue s1) = Some TaskShutdown /\
     NoDup (map fst reg) /\ (forall u x, In (u, x) reg <-> registry s1 u = Some x) /\
     session_shutdowns os = map snd reg).
Proof.
  intros E. destruct (shutdowns_run _ _ _ _ _ _ _ reg_ok_init eq_refl E)
    as [[H1 H2]|(H1 & es1 & es2 & s1 & w1 & o1 & E1 & E2 & H3 & H4 & H5)].
  - split; [auto|congruence].
  - split; [congruence|]. intros _. exists es1, es2, s1, w1, o1, (sv_sessions s1).
    destruct (run_reg_ok _ _ _ _ _ _ _ reg_ok_init E2) as [Hn _].
    repeat split; auto; intros; apply find_in; assumption.
Qed.

Lemma step_queue pol s w e s' w' os i t :
  step pol s w e = Ret (s', w', os) -> nth_error (sv_queue s) i = Some t ->
  (is_run e = false /\ nth_error (sv_queue s') i = Some t) \/
  (is_run e = true /\
   match i with O => t = TaskShutdown -> sv_shutdown s' = true
           | S j => nth_error (sv_queue s') j = Some t end).
Proof.
  intros E Hi.
  assert (Happ : forall (q l : list task) j x, nth_error q j = Some x -> nth_error (q ++ l) j = Some x).
  { intros q l j x H. rewrite nth_error_app1; [exact H|]. apply nth_error_Some. congruence. }
  destruct e as [a| |c buf|c d|c]; cbn [server_step is_run] in *.
  - left. split; [reflexivity|]. injection E as <- <- <-. destruct (api_call_sbq s a) as (_ & _ & _ & _ & q & ->). auto.
  - right. split; [reflexivity|]. destruct (sv_queue s) as [|t0 q] eqn:Eq; [destruct i; discriminate|].
    destruct i as [|j]; cbn [nth_error] in Hi.
    + intros ->. injection Hi as ->. injection E as E. cbn [run_task] in E.
      match type of E with context[shutdown_sessions on_shutdown ?a ?b ?l] =>
        destruct (shutdown_sessions_spec on_shutdown l a b) as (s1 & w1 & E1 & Q) end.
      rewrite E1 in E. injection E as <- <- <-. cbn [sv_shutdown]. apply Q.
    + injection E as E. destruct t0 as [| |u x]; cbn [run_task] in E.
      * destruct (sv_shutdown (set_queue s q)); injection E as <- <- <-; exact Hi.
      * match type of E with context[shutdown_sessions on_shutdown ?a ?b ?l] =>
          destruct (shutdown_sessions_spec on_shutdown l a b) as (s1 & w1 & E1 & Q) end.
        rewrite E1 in E. injection E as <- <- <-. cbn [sv_queue].
        destruct Q as (_ & _ & _ & _ & q' & ->). cbn [sv_queue set_queue]. auto.
      * destruct (sv_shutdown (set_queue s q)); injection E as <- <- <-; exact Hi.
  - left. split; [reflexivity|]. injection E as <- <- <-. exact Hi.
  - left. split; [reflexivity|]. destruct (sv_conns s c) as [p|]; [|injection E as <- <- <-; exact Hi].
    destruct (mbap_parse pol p d) as [[p' ms]|]; [|discriminate]. cbn [obind] in E.
    destruct (on_messages_sbq _ _ _ _ _ _ _ E) as ((_ & _ & _ & _ & q & ->) & _). cbn [set_conn sv_queue]. auto.
  - left. split; [reflexivity|]. destruct (sv_conns s c) as [p|]; injection E as <- <- <-; exact Hi.
Qed.

Lemma queued_shutdown pol es : forall s w s' w' os i,
  reg_ok s -> run pol s w es = Ret (s', w', os) ->
  nth_error (sv_queue s) i = Some TaskShutdown \/ sv_shutdown s = true ->
  (i < List.length (filter is_run es))%nat -> sv_shutdown s' = true.
Proof.
  induction es as [|e es IH]; intros s w s' w' os i Hr E Hi Hl; cbn [server_run] in E.
  { cbn in Hl. lia. }
  destruct (step pol s w e) as [[[s1 w1] o1]|] eqn:E1; [|discriminate]. cbn [obind] in E.
  destruct (run pol s1 w1 es) as [[[s2 w2] o2]|] eqn:E2; [|discriminate]. injection E as <- <- <-.
  assert (Hr1 := proj1 (step_cases _ _ _ _ _ _ _ Hr E1)).
  assert (Hdone : sv_shutdown s1 = true -> sv_shutdown s2 = true).
  { intros H. apply (silent_after _ _ _ _ _ _ _ Hr1 H E2). }
  destruct Hi as [Hi|Hi].
  2:{ apply Hdone. apply (step_cases _ _ _ _ _ _ _ Hr E1). exact Hi. }
  cbn [filter] in Hl.
  destruct (step_queue _ _ _ _ _ _ _ _ _ E1 Hi) as [[He H]|[He H]]; rewrite He in Hl.
  - exact (IH s1 w1 s2 w2 o2 i Hr1 E2 (or_introl H) Hl).
  - destruct i as [|j]; [apply Hdone, H; reflexivity|]. cbn [List.length] in Hl.
    apply (IH s1 w1 s2 w2 o2 j Hr1 E2 (or_introl H)). lia.
Qed.

Lemma shutdown_takes_effect pol w es1 s1 w1 o1 es2 s2 w2 o2 :
  run pol server_init w (es1 ++ [EApi ApiShutdown]) = Ret (s1, w1, o1) ->
  run pol s1 w1 es2 = Ret (s2, w2, o2) ->
  (List.length (sv_queue s1) <= List.length (filter is_run es2))%nat ->
  sv_shutdown s2 = true.
Proof.
  intros E1 E2 Hl. rewrite run_app_events in E1.
  destruct (run pol server_init w es1) as [[[s0 w0] o0]|] eqn:E0; [|discriminate]. cbn [obind server_run server_step] in E1.
  injection E1 as <- <- <-.
  cbn [api_call] in *. cbn [set_queue sv_queue] in Hl. rewrite app_length in Hl. cbn [List.length] in Hl.
  eapply (queued_shutdown pol es2 _ _ _ _ _ (List.length (sv_queue s0))); [|exact E2| |lia].
  - assert (H := run_reg_ok _ _ _ _ _ _ _ reg_ok_init E0). exact H.
  - left. cbn [set_queue sv_queue]. rewrite nth_error_app2, Nat.sub_diag by lia. reflexivity.
Qed.

(** ** C28 *)
Lemma first_session_kept pol w es1 s1 w1 o1 es2 s2 w2 o2 u x :
  run pol server_init w es1 = Ret (s1, w1, o1) -> registry s1 u = Some x ->
  run pol s1 w1 es2 = Ret (s2, w2, o2) -> registry s2 u = Some x \/ sv_shutdown s2 = true.
Proof.
  intros E1 Hx E2. assert (Hr := run_reg_ok _ _ _ _ _ _ _ reg_ok_init E1). clear E1 o1 w es1.
  revert s1 w1 o2 Hr Hx E2. induction es2 as [|e es IH]; intros s1 w1 o2 Hr Hx E; cbn [server_run] in E.
  { injection E as <- <- <-. auto. }
  destruct (step pol s1 w1 e) as [[[s3 w3] o3]|] eqn:E3; [|discriminate]. cbn [obind] in E.
  destruct (run pol s3 w3 es) as [[[s4 w4] o4]|] eqn:E4; [|discriminate]. injection E as -> -> _.
  destruct (step_cases _ _ _ _ _ _ _ Hr E3) as (Hr3 & _ & H1).
  destruct (sv_shutdown s1) eqn:Hs.
  { destruct Hr as [_ Hr]. destruct (Hr Hs) as [_ Hr']. unfold registry in Hx. rewrite Hr' in Hx. discriminate. }
  destruct (H1 eq_refl) as [(_ & _ & K)|(_ & _ & Hs3 & _)].
  - exact (IH s3 w3 o4 Hr3 (K _ _ Hx) E4).
  - right. exact (proj1 (silent_after _ _ _ _ _ _ _ Hr3 Hs3 E4)).
Qed.

Lemma first_add_wins pol s w u x q :
  sv_shutdown s = false -> sv_queue s = TaskAdd u x :: q -> 
  exists s', step pol s w ERun = Ret (s', w, []) /\ sv_shutdown s' = false /\ sv_queue s' = q /\
    registry s' u = Some (match registry s u with Some y => y | None => x end) /\
    forall v, v <> u -> registry s' v = registry s v.
Proof.
  intros Hs Hq. cbn [server_step]. rewrite Hq. cbn [run_task set_queue sv_shutdown]. rewrite Hs.
  eexists. split; [reflexivity|]. cbn [sv_shutdown sv_queue]. split; [reflexivity|]. split; [reflexivity|].
  unfold registry, insert_session. cbn [sv_sessions set_queue].
  destruct (find_session (sv_sessions s) u) as [y|] eqn:E; [auto|]. split.
  - rewrite find_app, E. cbn. rewrite N.eqb_refl. reflexivity.
  - intros v Hv. rewrite find_app. cbn. rewrite (proj2 (N.eqb_neq u v)) by auto.
    destruct (find_session (sv_sessions s) v); reflexivity.
Qed.

(** ** C30 *)
Lemma in_by_frame os o : In o os -> by_frame o = true -> In o (filter by_frame os).
Proof. intros H1 H2. apply filter_In. auto. Qed.

Lemma sent_in_service os vs c view :
  filter by_frame os = List.concat (map caused vs) -> In (OSend c view) os ->
  exists v, In v vs /\ In (OSend c view) (caused v).
Proof.
  intros E H. apply in_by_frame in H; [|reflexivity]. rewrite E in H.
  apply in_concat in H. destruct H as (l & Hl & H). apply in_map_iff in Hl. destruct Hl as (v & <- & Hv). eauto.
Qed.

(** Any frame sent in any history. *)
Lemma sent_frames (Hwt : well_typed on_request) pol w es s' w' os c view :
  Forall typed_event es -> run pol server_init w es = Ret (s', w', os) -> In (OSend c view) os ->
  (exists tx unit len code, headed tx unit len code view /\ 2 <= len <= 254) /\
  ((exists bs, bytes bs /\ view = map Some bs) \/
   (exists x r w1 w2 resp calls bs, on_request x w1 r = (w2, Value resp, calls) /\
      register_response resp = true /\ ~ response_fits resp /\
      bytes bs /\ view = map Some bs ++ [None])).
Proof.
  intros He E Hin.
  destruct (run_spec on_request on_shutdown Hwt pol es server_init w (init_ok pol) He)
    as (s2 & w2 & os2 & vs & E2 & _ & B & _ & I & _).
  rewrite E in E2. injection E2 as <- <- <-.
  destruct (sent_in_service _ _ _ _ B Hin) as (v & Hv & Hs). rewrite Forall_forall in I. specialize (I v Hv).
  split.
  - destruct (history_answered_once on_request on_shutdown Hwt _ _ _ _ _ I)
      as [[_ H]|(fc & rest & pre & vw & len & code & _ & Ec & Hp & Hh & Hl & _)]; [destruct (H _ _ Hs)|].
    rewrite Ec in Hs. apply in_app_or in Hs. destruct Hs as [Hs|[Hs|[]]]; [destruct (Hp _ _ Hs)|].
    injection Hs as _ <-. eauto 10.
  - destruct I as (sk & wk & ok & _ & _ & (Tu & Tt & Tb) & wa & wb & [Hd Hsv]).
    destruct (sv_shutdown sk). { destruct Hd as [_ Hd]; [reflexivity|]. rewrite Hd in Hs. destruct Hs. }
    assert (Hexc : forall fc t, u8 fc -> exists bs, bytes bs /\
      exception_view (mb_tx (frame_in v)) (mb_unit (frame_in v)) fc t = map Some bs).
    { intros fc t Hfc. eexists. split; [|reflexivity].
      apply Forall_app; split; [apply be16_bytes; exact Tt|].
      apply Forall_app; split; [apply be16_bytes; vm_compute; reflexivity|].
      apply Forall_app; split; [apply be16_bytes; vm_compute; reflexivity|].
      apply Forall_app; split; [repeat constructor; exact Tu|].
      repeat constructor; [unfold u8; lia|apply exception_value_u8]. }
    destruct (Hsv eq_refl) as [H|fc rest t H Ef|x r wn a calls o H Ha Hr].
    + destruct Hs.
    + destruct Hs as [Hs|[]]. injection Hs as _ <-. left. apply Hexc. rewrite Ef in Tb. inversion Tb; assumption.
    + destruct Hs as [Hs|Hs]; [discriminate|].
      destruct a as [resp|e]; cbn [reply] in Hr.
      * destruct Hr as (vw & [Hf Hl] & ->). destruct Hs as [Hs|[]]. injection Hs as _ ->.
        destruct (Hwt _ _ _ _ _ _ Ha) as [Ht _].
        destruct (fits_dec resp) as [F|F].
        -- left. destruct (Hf F) as (pdu & Hp & ->). eexists. split; [|reflexivity].
           assert (Ep : pdu = enc_response resp) by (apply (response_pdu_unique resp); [exact Hp|apply enc_response_pdu]).
           subst pdu. assert (Hpb := enc_response_bytes resp Ht F).
           assert (Hlen := enc_response_length resp). assert (Hbd := response_length_bound resp F).
           apply Forall_app; split; [apply be16_bytes; exact Tt|].
           apply Forall_app; split; [apply be16_bytes; vm_compute; reflexivity|].
           apply Forall_app; split; [apply be16_bytes; unfold u16, announced, frame; cbn [i_body]; lia|].
           apply Forall_app; split; [repeat constructor; exact Tu|exact Hpb].
        -- destruct (Hl F) as (_ & bs & Hbs & ->). destruct (register_response resp) eqn:Er.
           ++ right. exists x, r, wa, wn, resp, calls, bs. auto 10.
           ++ left. exists bs. rewrite app_nil_r. auto.
      * destruct e; try (subst o; destruct Hs; fail).
        subst o. destruct Hs as [Hs|[]]. injection Hs as _ <-. left. apply Hexc.
        destruct r; unfold u8; cbn; lia.
Qed.
End Lemmas.

(** ** Concrete sessions for examples and counterexamples *)

(** Counts its calls; answers every read of registers with [n] registers, every other
    request with exception 01. *)
Definition demo (n : nat) (x : N) (w : nat) (r : request) : nat * expected response * list api :=
  (S w, match r with
        | ReadHoldingRegisters _ _ => Value (HoldingRegistersRead (repeat (0, 7) n))
        | _ => Error (EModbus IllegalFunction)
        end, []).

Definition demo_shutdown (x : N) (w : nat) : nat * list api := (w, []).

Lemma demo_typed n : well_typed (demo n).
Proof.
  intros x w r w' resp calls E. unfold demo in E. destruct r; try discriminate.
  injection E as <- <- <-. split; [|reflexivity]. cbn [typed_response].
  split; apply Forall_forall; intros y Hy; apply in_map_iff in Hy; destruct Hy as (z & <- & Hz);
    apply repeat_spec in Hz; subst z; vm_compute; reflexivity.
Qed.

Definition read_frame (tx unit : N) : list N := frame_bytes tx unit [3; 0; 0; 0; 1].

(** Two sessions are added for unit 5; the first one is consulted. *)
Lemma replace_refuted : exists es s w os,
  Forall typed_event es /\
  es = [EApi (ApiAdd 5 1); ERun; EApi (ApiAdd 5 2); ERun; EAccept 9 (repeat 0 260); EReceive 9 (read_frame 1 5)] /\
  server_run (demo 1) demo_shutdown Truncate server_init 0%nat es = Ret (s, w, os) /\
  filter by_frame os =
    [OConsult 1 (ReadHoldingRegisters 0 1);
     OSend 9 (map Some (frame_bytes 1 5 [3; 2; 0; 7]))].
Proof.
  do 4 eexists. split; [|split; [reflexivity|split; [vm_compute; reflexivity|vm_compute; reflexivity]]].
  repeat constructor.
Qed.

(** One session object for two units is shut down twice. *)
Lemma shared_session : exists s w os,
  server_run (demo 1) demo_shutdown Truncate server_init 0%nat
    [EApi (ApiAdd 5 1); ERun; EApi (ApiAdd 6 1); ERun; EApi ApiShutdown; ERun] = Ret (s, w, os) /\
  session_shutdowns os = [1; 1].
Proof. do 3 eexists. split; vm_compute; reflexivity. Qed.

(** A session that returns 126 registers. *)
Lemma unwritten_refuted : exists es s w os view,
  Forall typed_event es /\ well_typed (demo 126) /\
  server_run (demo 126) demo_shutdown Truncate server_init 0%nat es = Ret (s, w, os) /\
  In (OSend 9 view) os /\ List.length view = 260%nat /\ nth_error view 259 = Some None.
Proof.
  exists [EApi (ApiAdd 5 1); ERun; EAccept 9 (repeat 0 260); EReceive 9 (read_frame 1 5)].
  do 4 eexists. split; [repeat constructor|]. split; [apply demo_typed|].
  split; [vm_compute; reflexivity|]. split; [right; left; reflexivity|]. split; reflexivity.
Qed.

Lemma written_partial {W} (on_request : N -> W -> request -> W * expected response * list api) on_shutdown
    pol w es s' w' os c view :
  well_typed on_request ->
  (forall x w1 r w2 resp calls, on_request x w1 r = (w2, Value resp, calls) ->
     response_fits resp \/ register_response resp = false) ->
  Forall typed_event es -> server_run on_request on_shutdown pol server_init w es = Ret (s', w', os) ->
  In (OSend c view) os -> exists bs, bytes bs /\ view = map Some bs.
Proof.
  intros Hwt Hfit He E Hin.
  destruct (sent_frames on_request on_shutdown Hwt pol w es s' w' os c view He E Hin) as [_ [H|H]]; [exact H|].
  destruct H as (x & r & w1 & w2 & resp & calls & bs & Ha & Hr & Hf & _).
  destruct (Hfit _ _ _ _ _ _ Ha); [contradiction|congruence].
Qed.

Lemma sent_header {W} (on_request : N -> W -> request -> W * expected response * list api) on_shutdown
    pol w es s' w' os c view :
  well_typed on_request -> Forall typed_event es ->
  server_run on_request on_shutdown pol server_init w es = Ret (s', w', os) ->
  In (OSend c view) os ->
  exists tx unit len code, headed tx unit len code view /\ 2 <= len <= 254 /\
    (forall i, (i < List.length view - 1)%nat -> exists b, nth_error view i = Some (Some b)).
Proof.
  intros Hwt He E Hin.
  destruct (sent_frames on_request on_shutdown Hwt pol w es s' w' os c view He E Hin)
    as [(tx & unit & len & code & Hh & Hl) H].
  exists tx, unit, len, code. split; [exact Hh|]. split; [exact Hl|].
  assert (Hb : exists bs l, view = map Some bs ++ l /\ (List.length l <= 1)%nat).
  { destruct H as [(bs & _ & ->)|(x & r & w1 & w2 & resp & calls & bs & _ & _ & _ & _ & ->)];
      [exists bs, []; rewrite app_nil_r|exists bs, [None]]; auto. }
  destruct Hb as (bs & l & -> & Hl1). intros i Hi. rewrite app_length, map_length in Hi.
  rewrite nth_error_app1 by (rewrite map_length; lia). rewrite nth_error_map.
  destruct (nth_error bs i) as [b|] eqn:Eb; [exists b; reflexivity|].
  apply nth_error_None in Eb. lia.
Qed.

Lemma decision_table registry unit pdu : bytes pdu ->
  exists a, decision registry unit pdu a /\ forall b, decision registry unit pdu b -> b = a.
Proof.
  intros Hb. destruct (decision_total registry unit pdu Hb) as (a & Ha). exists a. split; [exact Ha|].
  intros b H. exact (decision_fun registry unit pdu b a Hb H Ha).
Qed.
