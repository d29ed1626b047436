(** The properties of the example server. *)
From Verif Require Import Prelude Ser4 Messages Mbap Tac SpecPdu SpecMbap MbapFacts MbapLemmas BuildFacts
  Server SpecServer ServerFacts ServerLemmas Database SpecDb DatabaseFacts DbLemmas System SystemServe ExampleServer SpecExample ExampleFacts.

Lemma run_snoc_example pol es e : forall x x' os x'' o,
  example_run pol x es = Ret (x', os) -> example_step pol x' e = Ret (x'', o) -> example_run pol x (es ++ [e]) = Ret (x'', os ++ o).
Proof.
  induction es as [|f es IH]; intros x x' os x'' o E Es; cbn [app example_run] in *.
  - injection E as <- <-. rewrite Es. cbn [obind app]. rewrite app_nil_r. reflexivity.
  - destruct (example_step pol x f) as [[x1 o1]|]; [|discriminate]. cbn [obind] in *.
    destruct (example_run pol x1 es) as [[x2 o2]|] eqn:E2; [|discriminate]. cbn [obind] in E. injection E as -> <-.
    rewrite (IH _ _ _ _ _ E2 Es). cbn [obind]. rewrite app_assoc. reflexivity.
Qed.

Definition tasks (es : list xevent) : nat := List.length (filter is_task es).

Lemma run_example pol es : forall x, sound pol x -> Forall typed_xevent es ->
  exists x' os, example_run pol x es = Ret (x', os) /\ sound pol x' /\
    x_over x' = x_over x || existsb is_quit es /\
    (x_over x = false -> sv_started (x_server x') = sv_started (x_server x) || started_by os) /\
    (x_over x = true -> x' = x /\ os = []) /\
    (x_over x' = false -> List.length (sv_queue (x_server x')) = (List.length (sv_queue (x_server x)) - tasks es)%nat).
Proof.
  induction es as [|e es IH]; intros x Hs He; cbn [example_run].
  { exists x, []. split; [reflexivity|]. split; [exact Hs|]. cbn [existsb started_by]. rewrite !orb_false_r.
    repeat split; auto. unfold tasks. cbn. lia. }
  apply Forall_cons_iff in He. destruct He as [He Hes].
  destruct (example_step_spec pol x e Hs He) as (x1 & o1 & -> & Hs1 & D1 & U1). cbn [obind].
  destruct (IH x1 Hs1 Hes) as (x2 & o2 & -> & Hs2 & Ov & St & Dn & Qu). cbn [obind].
  exists x2, (o1 ++ o2). split; [reflexivity|]. split; [exact Hs2|].
  destruct (x_over x) eqn:Eo.
  - destruct (D1 eq_refl) as [-> ->]. destruct (Dn Eo) as [-> ->]. cbn [orb]. split; [exact Eo|].
    split; [discriminate|]. split; [auto|]. rewrite Eo. discriminate.
  - destruct (U1 eq_refl) as (V1 & V2 & V3 & _). rewrite V1 in *. cbn [existsb].
    split; [rewrite Ov; reflexivity|]. split.
    + intros _. unfold started_by in *. rewrite existsb_app, orb_assoc, <- V2.
      destruct (is_quit e); [|apply St; reflexivity]. destruct (Dn eq_refl) as [-> ->]. cbn. rewrite orb_false_r. reflexivity.
    + split; [discriminate|]. intros Eo2. rewrite (Qu Eo2), V3. unfold tasks. cbn [filter].
      destruct (is_task e); cbn [List.length]; lia.
Qed.

Lemma history_sound pol es x os : example_history pol es x os ->
  sound pol x /\ x_over x = existsb is_quit es /\ sv_started (x_server x) = started_by os /\
  (x_over x = false -> List.length (sv_queue (x_server x)) = (3 - tasks es)%nat).
Proof.
  intros (x0 & E0 & Ht & E). destruct (sound_init pol) as (y & E1 & Hs & Ho & _ & Hst & Hq).
  rewrite E0 in E1. injection E1 as <-.
  destruct (run_example pol es x0 Hs Ht) as (x' & os' & E' & Hs' & Ov & St & _ & Qu). rewrite E in E'. injection E' as <- <-.
  rewrite Ho in Ov. rewrite Hst in St. rewrite Hq in Qu. cbn in Qu. split; [exact Hs'|]. split; [exact Ov|].
  split; [apply St; exact Ho|exact Qu].
Qed.

Lemma example_defined pol es : Forall typed_xevent es -> exists x os, example_history pol es x os.
Proof.
  intros Ht. destruct (sound_init pol) as (x0 & E0 & Hs & _).
  destruct (run_example pol es x0 Hs Ht) as (x & os & E & _). exists x, os, x0. auto.
Qed.

Lemma example_data pol es x os : example_history pol es x os -> exists F, holds (x_db x) F /\ hundred F.
Proof.
  intros H. destruct (history_sound _ _ _ _ H) as (((_ & Hh) & _) & _). exists (contents (x_db x)).
  split; [apply holds_contents|exact Hh].
Qed.

Lemma example_initial pol : exists x, example_history pol [] x [] /\ holds (x_db x) initial_values.
Proof.
  destruct (sound_init pol) as (x0 & E0 & _ & _ & Hc & _). exists x0. split; [exists x0; auto|].
  intros t a out. rewrite (holds_contents (x_db x0) t a out), Hc, initial_contents. reflexivity.
Qed.

Lemma example_end pol es x os : example_history pol es x os -> existsb is_quit es = false ->
  example_step pol x XEnd = UB.
Proof.
  intros H Hq. destruct (history_sound _ _ _ _ H) as (_ & Ho & _). unfold example_step. rewrite Ho, Hq. reflexivity.
Qed.

Lemma started_in os : started_by os = true <-> In OListen os.
Proof.
  unfold started_by. rewrite existsb_exists. split.
  - intros (o & Hi & Ho). destruct o; try discriminate. exact Hi.
  - intros Hi. exists OListen. auto.
Qed.

Lemma example_listens pol es x os : example_history pol es x os -> existsb is_quit es = false ->
  (3 <= List.length (filter is_task es))%nat -> In OListen os.
Proof.
  intros H Hq Ht. destruct (history_sound _ _ _ _ H) as ((_ & _ & Hp & _) & Ho & Hst & Hl).
  apply started_in. rewrite <- Hst. rewrite Hq in Ho. specialize (Hl Ho). unfold tasks in Hl.
  destruct Hp as [(P & _)|(_ & _ & [(Q & _)|[(Q & _)|(Q & _)]])]; [exact P|..]; rewrite Q in Hl; cbn [List.length] in Hl; lia.
Qed.

Lemma example_quit pol es1 es2 x os x' os' : example_history pol es1 x os -> existsb is_quit es1 = true ->
  example_run pol x es2 = Ret (x', os') -> x' = x /\ os' = [].
Proof.
  intros H Hq E. destruct (history_sound _ _ _ _ H) as (_ & Ho & _). rewrite Hq in Ho. clear H Hq.
  revert x x' os' Ho E. induction es2 as [|e es2 IH]; intros x x' os' Ho E; cbn [example_run] in E.
  - injection E as <- <-. auto.
  - unfold example_step in E. rewrite Ho in E. cbn [obind] in E.
    destruct (example_run pol x es2) as [[x2 o2]|] eqn:E2; [|discriminate]. cbn [obind] in E. injection E as <- <-.
    destruct (IH x x2 o2 Ho E2) as [-> ->]. auto.
Qed.

(** ** Traces *)
Lemma trace_app F F1 hs : example_trace F hs F1 -> forall hs' F2, example_trace F1 hs' F2 -> example_trace F (hs ++ hs') F2.
Proof.
  induction 1 as [F F1 U|F F0 hs F1 Hf _ IH|F c m os F0 hs F1 Hs _ IH]; intros hs' F2 H2; cbn [app].
  - destruct H2 as [F1 F2 U2|F1 F3 hs F2 Hf Hr|F1 c m os F3 hs F2 Hs Hr].
    + constructor. intros t a. rewrite U2. apply U.
    + apply (trace_flip _ F3); [|exact Hr]. destruct Hf as (b & Eb & [[A B] C]). exists b. split; [rewrite <- U; exact Eb|].
      split; [split; [exact A|]|].
      * intros a Ha. rewrite (B a Ha). apply U.
      * intros t Ht a. rewrite (C t Ht). apply U.
    + apply (trace_serve _ _ _ _ F3); [exact (serves_pre _ _ _ _ _ _ U Hs)|exact Hr].
  - apply (trace_flip _ F0); auto.
  - apply (trace_serve _ _ _ _ F0); auto.
Qed.

Lemma trace_serves c F ms F' os : example_serves_all c F ms F' os ->
  exists hs, example_trace F hs F' /\ os = flat_map happening_outputs hs /\ flips hs = 0%nat /\
    (forall c', frames_of c' hs = if c' =? c then ms else []).
Proof.
  induction 1 as [F F' U|F m F1 ms F2 os os' Hs _ (hs & T & -> & Hf & Hm)].
  - exists []. split; [constructor; exact U|]. repeat split; auto. intros c'. destruct (c' =? c); reflexivity.
  - exists (Serve c m os :: hs). split; [apply (trace_serve _ _ _ _ F1); assumption|]. split; [reflexivity|].
    split; [exact Hf|]. intros c'. unfold frames_of in *. cbn [flat_map]. rewrite Hm, (N.eqb_sym c c').
    destruct (c' =? c); reflexivity.
Qed.

Lemma flips_app a b : flips (a ++ b) = (flips a + flips b)%nat.
Proof. unfold flips. rewrite filter_app, app_length. reflexivity. Qed.

Lemma frames_app c a b : frames_of c (a ++ b) = frames_of c a ++ frames_of c b.
Proof. apply flat_map_app. Qed.

Lemma ops_cons c e es : ops_on c (e :: es) = ops_on c [e] ++ ops_on c es.
Proof. unfold ops_on. cbn [flat_map]. rewrite app_nil_r. reflexivity. Qed.

Lemma run_trace pol es : forall x, sound pol x -> x_over x = false -> sv_started (x_server x) = true ->
  Forall typed_xevent es -> existsb is_quit es = false ->
  exists x' os hs, example_run pol x es = Ret (x', os) /\ sound pol x' /\
    example_trace (contents (x_db x)) hs (contents (x_db x')) /\ os = flat_map happening_outputs hs /\
    flips hs = List.length (filter is_flip es) /\
    (forall c p, sv_conns (x_server x) c = Some p -> Forall (fun e => accepts c e = false) (channel_events es) ->
       exists p', mbap_run pol p (ops_on c (channel_events es)) = Ret (p', frames_of c hs)).
Proof.
  induction es as [|e es IH]; intros x Hs Ho Hst Ht Hq; cbn [example_run].
  { exists x, [], []. split; [reflexivity|]. split; [exact Hs|]. split; [constructor; apply unchanged_refl|].
    repeat split; auto. intros c p _ _. exists p. reflexivity. }
  apply Forall_cons_iff in Ht. destruct Ht as [He Hes]. cbn [existsb] in Hq. apply orb_false_iff in Hq. destruct Hq as [Hq Hqs].
  destruct (example_step_spec pol x e Hs He) as (x1 & o1 & E1 & Hs1 & _ & U1). specialize (U1 Ho).
  destruct U1 as (V1 & V2 & _ & V4). rewrite Hq in V1. rewrite Hst in V2. cbn [orb] in V2.
  destruct (IH x1 Hs1 V1 V2 Hes Hqs) as (x2 & o2 & hs2 & E2 & Hs2 & T2 & -> & Fl2 & Fr2).
  assert (C1 := fun c => step_conns pol x e x1 o1 c E1 Ho).
  rewrite E1. cbn [obind]. rewrite E2. cbn [obind].
  assert (main : exists hs1, example_trace (contents (x_db x)) hs1 (contents (x_db x1)) /\ o1 = flat_map happening_outputs hs1 /\
    flips hs1 = (if is_flip e then 1 else 0)%nat /\
    forall c p, sv_conns (x_server x) c = Some p -> Forall (fun e => accepts c e = false) (channel_events [e]) ->
      exists p', mbap_run pol p (ops_on c (channel_events [e])) = Ret (p', frames_of c hs1) /\ sv_conns (x_server x1) c = Some p').
  { assert (quiet : x_db x1 = x_db x -> o1 = [] -> (forall c p, sv_conns (x_server x) c = Some p ->
        Forall (fun e => accepts c e = false) (channel_events [e]) ->
        exists p', mbap_run pol p (ops_on c (channel_events [e])) = Ret (p', []) /\ sv_conns (x_server x1) c = Some p') ->
        is_flip e = false -> exists hs1, example_trace (contents (x_db x)) hs1 (contents (x_db x1)) /\ o1 = flat_map happening_outputs hs1 /\
    flips hs1 = (if is_flip e then 1 else 0)%nat /\
    forall c p, sv_conns (x_server x) c = Some p -> Forall (fun e => accepts c e = false) (channel_events [e]) ->
      exists p', mbap_run pol p (ops_on c (channel_events [e])) = Ret (p', frames_of c hs1) /\ sv_conns (x_server x1) c = Some p').
    { intros D -> H Hf. exists []. rewrite D, Hf. split; [constructor; apply unchanged_refl|]. auto. }
    destruct e as [e|cmd|]; [destruct e as [a| |c' buf|c' data|c']| |destruct He].
    - destruct V4 as [D O]. apply quiet; auto. intros c p Hp _. exists p. split; [reflexivity|]. rewrite (C1 c). exact Hp.
    - destruct V4 as [D O]. destruct Hs as (_ & _ & [(_ & Q & _)|(Q & _)] & _); [|congruence]. rewrite Q in O.
      apply quiet; auto. intros c p Hp _. exists p. split; [reflexivity|]. rewrite (C1 c). exact Hp.
    - destruct V4 as [D O]. apply quiet; auto. intros c p Hp Ha. exists p. split; [reflexivity|].
      apply Forall_cons_iff in Ha. destruct Ha as [Ha _]. cbn [accepts] in Ha. rewrite (C1 c); [exact Hp|]. intros ->. rewrite N.eqb_refl in Ha. discriminate.
    - destruct V4 as (ms & S & P). destruct (trace_serves _ _ _ _ _ S) as (hs & T & O & Hf & Hm). exists hs.
      split; [exact T|]. split; [exact O|]. split; [exact Hf|]. intros c p Hp _. cbn [channel_events flat_map app ops_on].
      rewrite Hm. destruct (N.eqb_spec c' c) as [->|Hne].
      + rewrite Hp in P. destruct P as (p' & P1 & P2). exists p'. cbn [app mbap_run]. rewrite P1. cbn [obind].
        rewrite N.eqb_refl, app_nil_r. auto.
      + rewrite (proj2 (N.eqb_neq c c')) by congruence. exists p. split; [reflexivity|]. rewrite (C1 c) by congruence. exact Hp.
    - destruct V4 as [D O]. apply quiet; auto. intros c p Hp _. specialize (C1 c). cbn [conn_step] in C1.
      cbn [channel_events flat_map app ops_on]. destruct (N.eqb_spec c' c) as [->|Hne].
      + rewrite N.eqb_refl, Hp in C1. exists (mbap_reset p). cbn [app mbap_run]. split; [reflexivity|exact C1].
      + rewrite (proj2 (N.eqb_neq c c')) in C1 by congruence. exists p. split; [reflexivity|]. rewrite C1. exact Hp.
    - assert (K : forall c p, sv_conns (x_server x) c = Some p -> sv_conns (x_server x1) c = Some p)
        by (intros c p Hp; rewrite (C1 c); exact Hp).
      destruct (N.eqb_spec cmd 102) as [->|Hne].
      + destruct V4 as [Fl ->]. exists [Flip]. split; [apply (trace_flip _ (contents (x_db x1))); [exact Fl|constructor; apply unchanged_refl]|].
        repeat split. intros c p Hp _. exists p. split; [reflexivity|auto].
      + assert (V5 : x_db x1 = x_db x /\ o1 = []).
        { destruct cmd as [|q]; [exact V4|]. do 7 (destruct q as [q|q|]; [| |first [exact V4|exfalso; apply Hne; reflexivity]]); exact V4. }
        destruct V5 as [D O]. apply quiet; auto.
        * intros c p Hp _. exists p. split; [reflexivity|auto].
        * cbn [is_flip]. apply N.eqb_neq. exact Hne. }
  destruct main as (hs1 & T1 & -> & Fl1 & Fr1).
  exists x2, (flat_map happening_outputs hs1 ++ flat_map happening_outputs hs2), (hs1 ++ hs2).
  split; [reflexivity|]. split; [exact Hs2|]. split; [exact (trace_app _ _ _ T1 _ _ T2)|]. split; [rewrite flat_map_app; reflexivity|].
  split.
  { rewrite flips_app, Fl1, Fl2. cbn [filter]. destruct (is_flip e); reflexivity. }
  intros c p Hp Ha.
  assert (Hce : channel_events (e :: es) = channel_events [e] ++ channel_events es)
    by (unfold channel_events; cbn [flat_map]; rewrite app_nil_r; reflexivity).
  rewrite Hce in Ha |- *. apply Forall_app in Ha. destruct Ha as [Ha1 Ha2].
  destruct (Fr1 c p Hp Ha1) as (p1 & R1 & Hp1). destruct (Fr2 c p1 Hp1 Ha2) as (p2 & R2).
  exists p2. replace (ops_on c (channel_events [e] ++ channel_events es)) with (ops_on c (channel_events [e]) ++ ops_on c (channel_events es))
    by (unfold ops_on; rewrite flat_map_app; reflexivity).
  rewrite MbapLemmas.run_app, R1. cbn [obind]. rewrite R2. cbn [obind]. rewrite frames_app. reflexivity.
Qed.

Lemma example_served pol es1 x os c buf es2 chunks frames tail :
  example_history pol es1 x os -> In OListen os -> existsb is_quit (es1 ++ es2) = false ->
  good_buf buf -> Forall typed_xevent es2 -> same_connection c (channel_events es2) ->
  ops_on c (channel_events es2) = map Chunk chunks ->
  Forall frame_ok frames ->
  List.concat chunks = flat_map (fun '(tx, unit, pdu) => frame_bytes tx unit pdu) frames ++ tail -> incomplete tail ->
  exists x' os' hs F F', example_run pol x (XServer (EAccept c buf) :: es2) = Ret (x', os') /\
    holds (x_db x) F /\ holds (x_db x') F' /\ example_trace F hs F' /\
    os' = flat_map happening_outputs hs /\ flips hs = List.length (filter is_flip es2) /\
    frames_of c hs = map frame_message frames.
Proof.
  intros H Hi Hq Hg Ht Hsc Hops Hf Hc Htl. destruct (history_sound _ _ _ _ H) as (Hs & Ho & Hst & _).
  rewrite existsb_app in Hq. apply orb_false_iff in Hq. destruct Hq as [Hq1 Hq2]. rewrite Hq1 in Ho.
  apply started_in in Hi. rewrite Hi in Hst.
  destruct (run_trace pol [XServer (EAccept c buf)] x Hs Ho Hst) as (x1 & o1 & h1 & E1 & Hs1 & T1 & -> & Fl1 & _).
  { constructor; [exact Hg|constructor]. } { reflexivity. }
  assert (E1' := E1). cbn [example_run] in E1'. unfold example_step in E1'. rewrite Ho, Hst in E1'. cbn [obind] in E1'. injection E1' as E1x E1o.
  destruct (run_trace pol es2 x1 Hs1) as (x2 & o2 & h2 & E2 & _ & T2 & -> & Fl2 & Fr2).
  { rewrite <- E1x. reflexivity. } { rewrite <- E1x. exact Hst. } { exact Ht. } { exact Hq2. }
  destruct (Fr2 c (mbap_new buf)) as (p' & Rn).
  { rewrite <- E1x. cbn [x_server set_conn sv_conns]. rewrite N.eqb_refl. reflexivity. } { exact Hsc. }
  rewrite Hops in Rn.
  assert (Hb : Forall bytes chunks).
  { apply (ops_bytes c (channel_events es2)); [|exact Hops]. clear - Ht. apply Forall_forall. intros e He.
    unfold channel_events in He. apply in_flat_map in He. destruct He as (y & Hy & He). rewrite Forall_forall in Ht. specialize (Ht y Hy).
    destruct y as [e'|cmd|]; cbn in He; try contradiction. destruct He as [<-|[]]. exact Ht. }
  destruct (frames_round_trip pol buf frames chunks tail Hg Hf Hb Hc Htl) as (st' & Ef). rewrite Ef in Rn. injection Rn as _ Hfr.
  exists x2, (flat_map happening_outputs h2), h2, (contents (x_db x)), (contents (x_db x2)).
  split.
  { cbn [example_run] in E1 |- *. unfold example_step at 1. rewrite Ho, Hst. cbn [obind]. rewrite E1x, E2. reflexivity. }
  split; [apply holds_contents|]. split; [apply holds_contents|]. split; [|auto].
  rewrite <- E1x in T2. exact T2.
Qed.

(** ** Single requests *)
Lemma chunks_events c chunks :
  channel_events (map (fun d => XServer (EReceive c d)) chunks) = map (EReceive c) chunks.
Proof. induction chunks as [|d l IH]; [reflexivity|]. unfold channel_events in *. cbn [map flat_map app]. rewrite IH. reflexivity. Qed.

Lemma ops_receive c chunks : ops_on c (map (EReceive c) chunks) = map Chunk chunks.
Proof.
  induction chunks as [|d l IH]; [reflexivity|]. unfold ops_on in *. cbn [map flat_map]. rewrite N.eqb_refl. cbn [app]. rewrite IH. reflexivity.
Qed.

(** Only connection [c] receives data. *)
Lemma run_serves pol c chunks : forall x, sound pol x -> x_over x = false -> Forall bytes chunks ->
  forall p, sv_conns (x_server x) c = Some p ->
  exists x' os ms p', example_run pol x (map (fun d => XServer (EReceive c d)) chunks) = Ret (x', os) /\
    sound pol x' /\ example_serves_all c (contents (x_db x)) ms (contents (x_db x')) os /\
    mbap_run pol p (map Chunk chunks) = Ret (p', ms).
Proof.
  induction chunks as [|d chunks IH]; intros x Hs Ho Hb p Hp; cbn [map example_run].
  { exists x, [], [], p. split; [reflexivity|]. split; [exact Hs|]. split; [constructor; apply unchanged_refl|reflexivity]. }
  apply Forall_cons_iff in Hb. destruct Hb as [Hd Hb].
  destruct (example_step_spec pol x (XServer (EReceive c d)) Hs Hd) as (x1 & o1 & E1 & Hs1 & _ & U1).
  destruct (U1 Ho) as (V1 & _ & _ & ms & S1 & P). rewrite Hp in P. destruct P as (p1 & P1 & Hp1).
  destruct (IH x1 Hs1 V1 Hb p1 Hp1) as (x2 & o2 & ms2 & p2 & E2 & Hs2 & S2 & P2).
  rewrite E1. cbn [obind]. rewrite E2. cbn [obind]. exists x2, (o1 ++ o2), (ms ++ ms2), p2.
  split; [reflexivity|]. split; [exact Hs2|]. split.
  - clear - S1 S2. induction S1 as [F F' U|F m F1 ms F' oa ob Hs Hr IH]; cbn [app].
    + destruct S2 as [F' F2 U2|F' m F3 ms2 F2 oa ob Hs Hr]; [constructor; intros t a; rewrite U2; apply U|].
      econstructor; [exact (serves_pre _ _ _ _ _ _ U Hs)|exact Hr].
    + rewrite <- app_assoc. econstructor; [exact Hs|]. apply IH. exact S2.
  - cbn [mbap_run]. rewrite P1. cbn [obind]. rewrite P2. reflexivity.
Qed.

Lemma one_frame pol es x os c buf chunks tx u pdu :
  example_history pol es x os -> In OListen os -> existsb is_quit es = false ->
  good_buf buf -> frame_ok (tx, u, pdu) -> List.concat chunks = frame_bytes tx u pdu ->
  exists x' os' F', example_run pol x (XServer (EAccept c buf) :: map (fun d => XServer (EReceive c d)) chunks) = Ret (x', os') /\
    holds (x_db x') F' /\ example_serves (contents (x_db x)) c {| mb_unit := u; mb_tx := tx; mb_data := pdu |} F' os'.
Proof.
  intros H Hi Hq Hg Hf Hc. destruct (history_sound _ _ _ _ H) as (Hs & Ho & Hst & _). rewrite Hq in Ho.
  apply started_in in Hi. rewrite Hi in Hst. clear H.
  assert (Hb : Forall bytes chunks).
  { assert (B : bytes (List.concat chunks)) by (rewrite Hc; exact (fb_bytes (tx, u, pdu) Hf)). clear - B.
    induction chunks as [|d l IH]; constructor; cbn [List.concat] in B; apply bytes_app in B; destruct B; auto. }
  destruct (example_step_spec pol x (XServer (EAccept c buf)) Hs Hg) as (x1 & o1 & E1 & Hs1 & _ & U1).
  destruct (U1 Ho) as (V1 & _ & _ & D & ->).
  assert (E1' := E1). unfold example_step in E1'. rewrite Ho, Hst in E1'. injection E1' as E1'.
  destruct (run_serves pol c chunks x1 Hs1 V1 Hb (mbap_new buf)) as (x2 & o2 & ms & p2 & E2 & Hs2 & S2 & P2).
  { rewrite <- E1'. cbn [x_server set_conn sv_conns]. rewrite N.eqb_refl. reflexivity. }
  assert (Hfs : Forall frame_ok [(tx, u, pdu)]) by (constructor; [exact Hf|constructor]).
  destruct (frames_round_trip pol buf [(tx, u, pdu)] chunks [] Hg Hfs Hb) as (st' & Ef).
  { cbn [flat_map app]. rewrite app_nil_r, app_nil_r. exact Hc. } { left. unfold size. cbn. lia. }
  rewrite Ef in P2. injection P2 as _ <-. cbn [example_run]. rewrite E1. cbn [obind]. rewrite E2. cbn [obind app].
  rewrite D in S2. inversion S2 as [|G m' G1 ms' G2 oa ob Hs' Hn]; subst. inversion Hn as [G G' U3|]; subst. rewrite app_nil_r.
  exists x2, oa, G1. split; [reflexivity|]. split; [|exact Hs'].
  intros t a out. rewrite (holds_contents (x_db x2) t a out), (U3 t a). reflexivity.
Qed.

Lemma holds_same d F G : holds d F -> unchanged F G -> holds d G.
Proof. intros H U t a out. rewrite (H t a out), (U t a). reflexivity. Qed.

Lemma coils_view tx u vs : vs = [(16, true)] -> forall view, response_view tx u (CoilsRead vs) view ->
  view = map Some (frame_bytes tx u [1; 1; 1]).
Proof.
  intros -> view [H _]. destruct H as (pdu & Hp & ->).
  { cbn [response_fits]. unfold size. cbn. lia. }
  f_equal. f_equal. unfold response_pdu in Hp.
  apply (response_pdu_unique (CoilsRead [(16, true)])); [exact Hp|].
  change [1; 1; 1] with (enc_response (CoilsRead [(16, true)])). apply enc_response_pdu.
Qed.

Lemma serves_ask F c tx u pdu r F' os x :
  example_serves F c {| mb_unit := u; mb_tx := tx; mb_data := pdu |} F' os -> example_units u = Some x ->
  bytes pdu -> legal_request r -> request_pdu_any_padding r pdu ->
  exists v os', os = OConsult x r :: os' /\ example_answers F x r F' v /\ reply c tx u (spec_function_code r) v os'.
Proof.
  intros S Ex Hb Hl Hp.
  assert (D : decision example_units u pdu (Ask x r)) by (apply answerable; assumption).
  remember {| mb_unit := u; mb_tx := tx; mb_data := pdu |} as m eqn:Em.
  destruct S as [F' D' U'|fc rest t F' D' E U'|y q F' v os D' A Y]; rewrite Em in D'; cbn [mb_unit mb_data] in D';
    assert (K := decision_fun _ _ _ _ _ Hb D D'); try discriminate.
  injection K as <- <-. subst m. exists v, os. auto.
Qed.


Lemma unit_one pol es x os c buf chunks tx pdu r :
  example_history pol es x os -> In OListen os -> existsb is_quit es = false ->
  good_buf buf -> frame_ok (tx, 1, pdu) -> List.concat chunks = frame_bytes tx 1 pdu ->
  legal_request r -> request_pdu_any_padding r pdu ->
  exists x', example_run pol x (XServer (EAccept c buf) :: receives c chunks) =
      Ret (x', [OConsult 1 r; OSend c (map Some (frame_bytes tx 1
                  (if spec_function_code r =? 1 then [1; 1; 1] else [spec_function_code r + 128; 1])))]) /\
    forall F, holds (x_db x) F -> holds (x_db x') F.
Proof.
  intros H Hi Hq Hg Hf Hc Hl Hp.
  destruct (one_frame pol es x os c buf chunks tx 1 pdu H Hi Hq Hg Hf Hc) as (x' & os' & F' & E & HF & S).
  assert (Hb : bytes pdu) by (destruct Hf as (_ & _ & Hb & _); exact Hb).
  destruct (serves_ask _ _ _ _ _ r _ _ 1 S eq_refl Hb Hl Hp) as (v & o & -> & A & Y).
  assert (K : unchanged (contents (x_db x)) F' ->
    o = [OSend c (map Some (frame_bytes tx 1 (if spec_function_code r =? 1 then [1; 1; 1] else [spec_function_code r + 128; 1])))] ->
    exists x', example_run pol x (XServer (EAccept c buf) :: receives c chunks) =
      Ret (x', [OConsult 1 r; OSend c (map Some (frame_bytes tx 1
                  (if spec_function_code r =? 1 then [1; 1; 1] else [spec_function_code r + 128; 1])))]) /\
      forall F, holds (x_db x) F -> holds (x_db x') F).
  { intros U ->. exists x'. split; [exact E|]. intros G HG. apply (holds_same _ F'); [exact HF|].
    intros t a. rewrite (U t a). symmetry. exact (holds_unchanged _ _ HG t a). }
  inversion A as [s q F1 U E1 E2 E3 E4|r' F1 U Hn E1 E2 E3 E4|r' F1 v' Hr E1 E2 E3 E4]; subst.
  - apply K; [exact U|]. destruct Y as (view & Hv & ->). rewrite (coils_view tx 1 _ eq_refl view Hv). reflexivity.
  - apply K; [exact U|]. cbn [reply] in Y. rewrite Y. unfold exception_view.
    rewrite (proj2 (N.eqb_neq _ _) Hn). replace (spec_function_code r mod 128) with (spec_function_code r); [reflexivity|].
    symmetry. apply N.mod_small. destruct r; cbn [spec_function_code]; lia.
Qed.

Lemma unit_two pol es x os c buf chunks tx pdu r :
  example_history pol es x os -> In OListen os -> existsb is_quit es = false ->
  good_buf buf -> frame_ok (tx, 2, pdu) -> List.concat chunks = frame_bytes tx 2 pdu ->
  legal_request r -> request_pdu_any_padding r pdu ->
  exists x' os' F F' v, example_run pol x (XServer (EAccept c buf) :: receives c chunks) = Ret (x', OConsult 2 r :: os') /\
    holds (x_db x) F /\ holds (x_db x') F' /\ request_spec F r F' v /\ reply c tx 2 (spec_function_code r) v os'.
Proof.
  intros H Hi Hq Hg Hf Hc Hl Hp.
  destruct (one_frame pol es x os c buf chunks tx 2 pdu H Hi Hq Hg Hf Hc) as (x' & os' & F' & E & HF & S).
  assert (Hb : bytes pdu) by (destruct Hf as (_ & _ & Hb & _); exact Hb).
  destruct (serves_ask _ _ _ _ _ r _ _ 2 S eq_refl Hb Hl Hp) as (v & o & -> & A & Y).
  exists x', o, (contents (x_db x)), F', v. split; [exact E|]. split; [apply holds_contents|]. split; [exact HF|].
  split; [|exact Y]. inversion A; subst; assumption.
Qed.

Lemma other_units pol es x os c buf chunks tx u pdu :
  example_history pol es x os -> In OListen os -> existsb is_quit es = false ->
  good_buf buf -> frame_ok (tx, u, pdu) -> List.concat chunks = frame_bytes tx u pdu -> u <> 1 -> u <> 2 ->
  exists x', example_run pol x (XServer (EAccept c buf) :: receives c chunks) = Ret (x', []) /\
    forall F, holds (x_db x) F -> holds (x_db x') F.
Proof.
  intros H Hi Hq Hg Hf Hc H1 H2.
  destruct (one_frame pol es x os c buf chunks tx u pdu H Hi Hq Hg Hf Hc) as (x' & os' & F' & E & HF & S).
  assert (Hb : bytes pdu) by (destruct Hf as (_ & _ & Hb & _); exact Hb).
  assert (Hn : example_units u = None).
  { unfold example_units. rewrite (proj2 (N.eqb_neq _ _) H1), (proj2 (N.eqb_neq _ _) H2). reflexivity. }
  assert (D : decision example_units u pdu Silent) by (apply unknown_unit; exact Hn).
  remember {| mb_unit := u; mb_tx := tx; mb_data := pdu |} as m eqn:Em.
  destruct S as [F' D' U'|fc rest t F' D' E' U'|y q F' v os' D' A Y]; rewrite Em in D'; cbn [mb_unit mb_data] in D';
    assert (K := decision_fun _ _ _ _ _ Hb D D'); try discriminate.
  exists x'. split; [exact E|]. intros G HG. apply (holds_same _ F'); [exact HF|].
  intros t a. rewrite (U' t a). symmetry. exact (holds_unchanged _ _ HG t a).
Qed.

(** ** Commands *)
Lemma command_flip pol es x os F : example_history pol es x os -> existsb is_quit es = false -> holds (x_db x) F ->
  exists x' F', example_step pol x (XCommand 102) = Ret (x', []) /\ holds (x_db x') F' /\ flipped F F'.
Proof.
  intros H Hq HF. destruct (history_sound _ _ _ _ H) as (Hs & Ho & _). rewrite Hq in Ho.
  destruct (example_step_spec pol x (XCommand 102) Hs) as (x1 & o1 & E1 & _ & _ & U1); [cbn; unfold u8; lia|].
  destruct (U1 Ho) as (_ & _ & _ & (b & Eb & [[A B] C]) & ->). exists x1, (contents (x_db x1)).
  split; [exact E1|]. split; [apply holds_contents|]. assert (U := holds_unchanged _ _ HF).
  exists b. split; [rewrite <- (U Coils 0); exact Eb|]. split; [split; [exact A|]|].
  - intros a Ha. rewrite (B a Ha). apply U.
  - intros t Ht a. rewrite (C t Ht a). apply U.
Qed.

Lemma command_other pol es x os c F : example_history pol es x os -> c <> 102 -> u8 c -> holds (x_db x) F ->
  exists x', example_step pol x (XCommand c) = Ret (x', []) /\ holds (x_db x') F.
Proof.
  intros H Hc Hu HF. unfold example_step. rewrite (proj2 (N.eqb_neq _ _) Hc).
  destruct (x_over x); [exists x; auto|]. destruct (c =? 113); eexists; split; try reflexivity; exact HF.
Qed.
