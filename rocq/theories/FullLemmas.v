(** Proofs about Full.v. *)
From Verif Require Import Prelude Ser4 Messages Mbap Client Server Database System.
From Verif Require Import AsyncWrite ClientConn ClientTcp Listener ServerConn ServerTcp World.
From Verif Require Import Scheduled SessionCall Session Full.
From Verif Require Import SpecPdu SpecMbap SpecClient SpecServer SpecDb SpecConn SpecClientTcp SpecServerTcp SpecSystem SpecSession SpecWorld SpecFull.
From Verif Require Import ClientLemmas CodecLemmas TcpWire SessionLift SessionLemmas SessionTold WorldParts WorldLemmas WorldRest FullSim FullParts.
From Verif Require WriteFacts SystemFacts SystemServe SystemLemmas.
From Coq Require Import Lia.

(** ** Observations *)
Lemma in_sessions o l : (forall c, o <> Channel c) -> In o (session_outputs l) <-> In (FK o) l.
Proof.
  intros N. unfold session_outputs. rewrite in_flat_map. split.
  - intros (m & Hm & H). destruct m as [x|[[]| | |]]; try contradiction; destruct H as [<-|[]]; [exact Hm|]. exfalso. exact (N _ eq_refl).
  - intros H. exists (FK o). split; [exact H|]. left. reflexivity.
Qed.

Lemma in_shows o l : In o (channel_shows l) <-> In (WC (ChannelOut o)) l.
Proof.
  unfold channel_shows. rewrite in_flat_map. split.
  - intros (m & Hm & H). destruct m as [[]| | |]; try contradiction. destruct H as [<-|[]]. exact Hm.
  - intros H. eexists. split; [exact H|]. left. reflexivity.
Qed.

Lemma in_observed o l : In (YC o) (observed l) <-> In (WC (ChannelOut o)) l.
Proof.
  unfold observed. rewrite in_flat_map. split.
  - intros (m & Hm & H). destruct m as [[]|[]|m|c r]; try contradiction; destruct H as [E|[]]; try discriminate E. injection E as <-. exact Hm.
  - intros H. eexists. split; [exact H|]. left. reflexivity.
Qed.

Lemma shows_channel m os o : shows m os -> In (YC o) os <-> m = WC (ChannelOut o).
Proof.
  intros H. destruct m as [[]|[]|[| | | | |]|c r]; cbn in H; subst; cbn;
    try (split; [intros [E|[]]; discriminate E|intros E; discriminate E]); try (split; [intros []|intros E; discriminate E]).
  - split; [intros [E|[]]; injection E as <-; reflexivity|intros E; injection E as <-; left; reflexivity].
  - destruct o0; subst; cbn; try (split; [intros []|intros E; discriminate E]). destruct H as (v & ->). split; [intros [E|[]]; discriminate E|intros E; discriminate E].
Qed.

Lemma in_with_others l os o : observed_with_others l os -> In (YC o) os <-> In (WC (ChannelOut o)) l.
Proof.
  intros (parts & F & ->). induction F as [|m p l parts H F IH]; [reflexivity|]. cbn [List.concat]. rewrite in_app_iff, IH, (shows_channel _ _ o H). cbn [In]. tauto.
Qed.

Lemma with_others_split a b os : observed_with_others (a ++ b) os -> exists x y, os = x ++ y /\ observed_with_others a x /\ observed_with_others b y.
Proof.
  intros (parts & F & ->). apply Forall2_app_inv_l in F as (p & q & F1 & F2 & ->). exists (List.concat p), (List.concat q).
  split; [apply concat_app|]. split; eexists; eauto.
Qed.

Section Lemmas.
Context {W : Type}.
Context (user : users W).
Context (pol : copy_policy).
Notation full_history := (full_history user pol).
Notation forderly := (forderly user pol).
Notation scripts := (list (list scall)).

(** ** Histories *)
Lemma init_good units max d buf u : typed_sessions (wd_user (full_init units max d buf (u : W))) /\
  ks_log (wd_user (full_init units max d buf u)) = [] /\ clean false (wd_user (full_init units max d buf u)).
Proof. split; [split; [constructor|split; constructor]|]. split; [reflexivity|]. repeat split. Qed.

Lemma history_parts units d w0 es w l : full_history units d w0 es w l -> typed_sessions (wd_user w) /\ run_parts user pol w0 es w l.
Proof.
  intros ((max & buf & u & Hb & ->) & Hd & T & Hu & R). destruct (init_good units max d buf u) as (A & B & _).
  destruct (full_run_parts user pol Hu es _ _ _ A B T R) as (C & _ & D). auto.
Qed.

Theorem full_sessions units d w0 es w l : full_history units d w0 es w l ->
  exists kes, stack_history user pol kes (stack_of w) (session_outputs l) /\ stack_only kes = session_only es /\
    channel_only kes = filter not_api (channel_ins (client_marks (world_marks l))).
Proof.
  intros H. destruct (history_parts _ _ _ _ _ _ H) as (_ & _ & kes & A1 & A2 & A3 & A4). exists kes. split; [|auto].
  destruct H as ((max & buf & u & Hb & ->) & _). exists buf, u. auto.
Qed.

Lemma full_world units d w0 es w l : full_history units d w0 es w l -> exists (b0 b : scripts) wes,
  world_history calls_scripted pol units d (with_wd_user w0 b0) wes (with_wd_user w b) (world_marks l) /\
  (forall e, In e wes -> (exists a, e = WClient (TApi a)) \/ In (FWorld e) es) /\
  (forall Q1 Q2, carries Q1 Q2 -> falways user pol Q1 w0 es -> walways calls_scripted pol Q2 (with_wd_user w0 b0) wes).
Proof.
  intros H. destruct (history_parts _ _ _ _ _ _ H) as (_ & (wes & sc & A1 & A2 & A3 & A4) & _). exists (sc ++ []), [], wes.
  destruct H as ((max & buf & u & Hb & ->) & Hd & _). split; [|split; [exact A2|intros Q1 Q2; apply A4]].
  split; [exists max, buf, (sc ++ []); auto|]. split; [exact Hd|]. split; [exact A1|]. split; [exact calls_scripted_session|apply A3].
Qed.

Lemma carries_whole : carries (whole_frames (W := sessions W)) (whole_frames (W := scripts)).
Proof. split; [|intros w a; exact Logic.I]. intros w b e H. exact H. Qed.
Lemma carries_attempt : carries (one_attempt (W := sessions W)) (one_attempt (W := scripts)).
Proof. split; [|intros w a; exact Logic.I]. intros w b e H. exact H. Qed.
Lemma carries_timely : carries (timely_writes (W := sessions W)) (timely_writes (W := scripts)).
Proof. split; [|intros w a; exact Logic.I]. intros w b e H. exact H. Qed.

Lemma orderly_world w0 es l (b0 : scripts) wes : (forall e, In e wes -> (exists a, e = WClient (TApi a)) \/ In (FWorld e) es) ->
  (forall Q1 Q2, carries Q1 Q2 -> falways user pol Q1 w0 es -> walways calls_scripted pol Q2 (with_wd_user w0 b0) wes) ->
  forderly w0 es l -> orderly calls_scripted pol (with_wd_user w0 b0) wes (world_marks l).
Proof.
  intros A1 A2 (O1 & O2 & O3 & O4). split; [exact (A2 _ _ carries_whole O1)|]. split; [exact (A2 _ _ carries_attempt O2)|]. split; [exact O3|].
  intros g c buf H. destruct (A1 _ H) as [(a & E)|K]; [discriminate E|]. exact (O4 _ _ _ K).
Qed.

Theorem full_network units d w0 es w l : full_history units d w0 es w l ->
  exists (A : Type) (handler : nat -> A -> expected (list N) -> A * list capi) w0' wes w',
    world_history handler pol units d w0' wes w' (world_marks l) /\ same_world w0 w0' /\ same_world w w' /\
    (forall e, In e wes -> (exists a, e = WClient (TApi a)) \/ In (FWorld e) es) /\
    (forderly w0 es l -> orderly handler pol w0' wes (world_marks l)) /\
    (falways user pol timely_writes w0 es -> walways handler pol timely_writes w0' wes).
Proof.
  intros H. destruct (full_world _ _ _ _ _ _ H) as (b0 & b & wes & A1 & A2 & A3). exists scripts, calls_scripted, (with_wd_user w0 b0), wes, (with_wd_user w b).
  split; [exact A1|]. split; [reflexivity|]. split; [reflexivity|]. split; [exact A2|]. split; [|exact (A3 _ _ carries_timely)].
  apply orderly_world; assumption.
Qed.

(** ** When something is told *)
Lemma run_snoc es : forall w w1 l1 e w2 l2, full_run user pol w es = Ret (w1, l1) -> full_step user pol w1 e = Ret (w2, l2) ->
  full_run user pol w (es ++ [e]) = Ret (w2, l1 ++ l2).
Proof.
  induction es as [|x es IH]; intros w w1 l1 e w2 l2; cbn [full_run app].
  - intros E E2. injection E as <- <-. rewrite E2. cbn [obind]. rewrite app_nil_r. reflexivity.
  - destruct (full_step user pol w x) as [[w3 l3]|]; cbn [obind]; [|discriminate].
    destruct (full_run user pol w3 es) as [[w4 l4]|] eqn:R; cbn [obind]; [|discriminate]. intros E E2. injection E as <- <-.
    rewrite (IH _ _ _ _ _ _ R E2). cbn [obind]. rewrite app_assoc. reflexivity.
Qed.

Lemma marks_split es : forall w w' l a m b, full_run user pol w es = Ret (w', l) -> l = a ++ m :: b ->
  exists es1 e es2 w1 l1 w2 le a' b', es = es1 ++ e :: es2 /\ full_run user pol w es1 = Ret (w1, l1) /\ full_step user pol w1 e = Ret (w2, le) /\
    le = a' ++ m :: b' /\ a = l1 ++ a' /\ exists l2, b = b' ++ l2.
Proof.
  induction es as [|x es IH]; intros w w' l a m b; cbn [full_run].
  - intros E K. injection E as <- <-. destruct a; discriminate K.
  - destruct (full_step user pol w x) as [[w3 l3]|] eqn:S; cbn [obind]; [|discriminate].
    destruct (full_run user pol w3 es) as [[w4 l4]|] eqn:R; cbn [obind]; [|discriminate]. intros E. injection E as <- <-. intros K.
    apply WriteFacts.split_app in K as [(b' & K & ->)|(a' & K & ->)].
    + exists [], x, es, w, [], w3, l3, a, b'. repeat split; auto. eauto.
    + destruct (IH _ _ _ _ _ _ R K) as (es1 & e & es2 & w1 & l1 & w2 & le & a2 & b2 & -> & K1 & K2 & K3 & -> & K4).
      exists (x :: es1), e, es2, w1, (l3 ++ l1), w2, le, a2, b2. split; [reflexivity|]. split; [cbn [full_run]; rewrite S; cbn [obind]; rewrite K1; reflexivity|].
      split; [exact K2|]. split; [exact K3|]. split; [apply app_assoc|exact K4].
Qed.

Lemma shape_split x : forall k a m b, map FW x ++ map FK k = a ++ FK m :: b -> world_marks a = x.
Proof.
  induction x as [|y x IH]; intros k a m b E.
  - cbn [map app] in E. revert k E. induction a as [|z a IHa]; intros k E; [reflexivity|]. destruct k as [|o k]; [discriminate E|].
    cbn [map app] in E. injection E as <- E. exact (IHa _ E).
  - destruct a as [|z a]; cbn [map app] in E; [discriminate E|]. injection E as <- E. cbn. f_equal. exact (IH _ _ _ _ E).
Qed.

Lemma run_clean es : forall w w' l b, typed_user user -> Forall typed_fevent es -> typed_sessions (wd_user w) -> ks_log (wd_user w) = [] -> clean b (wd_user w) ->
  full_run user pol w es = Ret (w', l) -> (exists b', clean b' (wd_user w')) /\ of_channel (session_outputs l) = channel_shows (world_marks l).
Proof.
  induction es as [|e es IH]; intros w w' l b Hu F T L C; cbn [full_run].
  - intros E. injection E as <- <-. split; [eauto|reflexivity].
  - destruct (full_step user pol w e) as [[w3 l3]|] eqn:S; cbn [obind]; [|discriminate].
    destruct (full_run user pol w3 es) as [[w4 l4]|] eqn:R; cbn [obind]; [|discriminate]. intros E. injection E as <- <-.
    inversion F as [|? ? Fe Fs]; subst. destruct (full_step_parts user pol Hu _ _ _ _ T L Fe S) as (T1 & L1 & _).
    destruct (full_step_shape user pol Hu _ _ _ _ _ T C S) as ((b1 & C1) & Sh). destruct (IH _ _ _ _ Hu Fs T1 L1 C1 R) as (C2 & Sh2). split; [exact C2|].
    rewrite session_outputs_app, world_marks_app, channel_shows_app, <- Sh2, <- (shape_channel _ Sh). apply flat_map_app.
Qed.

Lemma history_channel units d w0 es w l : full_history units d w0 es w l -> of_channel (session_outputs l) = channel_shows (world_marks l).
Proof.
  intros ((max & buf & u & Hb & ->) & Hd & T & Hu & R). destruct (init_good units max d buf u) as (A & B & C). eapply run_clean; eauto.
Qed.

Lemma known_typed z i r : typed_sessions (W := W) z -> known z i r -> typed_request r.
Proof.
  intros (_ & A & B) [K|(p & K & <-)].
  - exact (nth_forall _ _ _ _ B K).
  - rewrite Forall_forall in A. exact (A _ K).
Qed.

Lemma made_of l s i r : made_for (session_outputs l) s i r <-> request_of l s i r.
Proof.
  destruct s as [i'|j n]; cbn [made_for request_of].
  - split; (intros (-> & x & t & H); split; [reflexivity|]; exists x, t; apply in_sessions; [discriminate|exact H]).
  - split; (intros (H0 & x & t & f & H); split; [apply in_sessions; [discriminate|exact H0]|]; exists x, t, f; apply in_sessions; [discriminate|exact H]).
Qed.

Lemma request_more a b s i r : request_of a s i r -> request_of (a ++ b) s i r.
Proof.
  destruct s as [i'|j n]; cbn [request_of].
  - intros (-> & x & t & H). split; [reflexivity|]. exists x, t. apply in_or_app. auto.
  - intros (H0 & x & t & f & H). split; [apply in_or_app; auto|]. exists x, t, f. apply in_or_app. auto.
Qed.

Lemma told_before units d w0 es w l a m b s v : full_history units d w0 es w l -> l = a ++ FK m :: b -> In (s, v) (tellings [m]) ->
  exists i y r u t, In (WC (ChannelOut (Completed i y))) (world_marks a) /\ session_result r y = Ret v /\
    In (WC (ChannelOut (Called i (session_call u r t)))) (world_marks a) /\ typed_request r /\ request_of l s i r.
Proof.
  intros (Hi & Hd & T & Hu & R) El Ht.
  destruct (marks_split _ _ _ _ _ _ _ R El) as (es1 & e & es2 & w1 & l1 & w2 & le & a' & b' & -> & R1 & S & Ele & -> & l2 & ->).
  assert (H : full_history units d w0 (es1 ++ [e]) w2 (l1 ++ le)).
  { split; [exact Hi|]. split; [exact Hd|]. split; [|split; [exact Hu|eapply run_snoc; eauto]].
    apply Forall_app in T as [T1 T2]. inversion T2; subst. apply Forall_app. auto. }
  assert (Wm : world_marks (l1 ++ le) = world_marks (l1 ++ a')).
  { rewrite !world_marks_app. f_equal. destruct Hi as (max & buf & u & Hb & ->). destruct (init_good units max d buf u) as (A & B & C).
    assert (T1 : Forall typed_fevent es1) by (apply Forall_app in T; apply T).
    destruct (full_run_parts user pol Hu _ _ _ _ A B T1 R1) as (A1 & _). destruct (run_clean _ _ _ _ _ Hu T1 A B C R1) as ((b1 & C1) & _).
    destruct (full_step_shape user pol Hu _ _ _ _ _ A1 C1 S) as (_ & x & k & E & _). rewrite Ele in E. symmetry in E. rewrite (shape_split _ _ _ _ _ E), Ele, <- E.
    rewrite world_marks_app, world_marks_world, world_marks_sessions, app_nil_r. reflexivity. }
  destruct (full_sessions _ _ _ _ _ _ H) as (kes & K & _). destruct (history_parts _ _ _ _ _ _ H) as (Tz & _). pose proof (history_channel _ _ _ _ _ _ H) as Ch.
  destruct (telling_source user pol _ _ _ s v K) as (i & y & r & u & t & K1 & K2 & K3 & K4 & K5).
  { rewrite Ele, !session_outputs_app. unfold tellings. rewrite !flat_map_app. apply in_or_app. right. apply in_or_app. right.
    change (FK m :: b') with ([FK m] ++ b'). rewrite session_outputs_app, flat_map_app. apply in_or_app. left. exact Ht. }
  apply in_channel in K1, K3. rewrite Ch, Wm in K1, K3. apply in_shows in K1, K3. exists i, y, r, u, t. split; [exact K1|]. split; [exact K2|]. split; [exact K3|].
  split; [exact (known_typed _ _ _ Tz K4)|]. apply made_of in K5. rewrite El. change ((l1 ++ a') ++ FK m :: b' ++ l2) with ((l1 ++ a') ++ (FK m :: b') ++ l2).
  rewrite app_assoc, <- (app_assoc l1), <- Ele. apply request_more. exact K5.
Qed.

Theorem end_to_end_more units d F0 w0 es w l : Forall u8 units -> full_history units d w0 es w l -> forderly w0 es l -> holds d F0 ->
  exists os log F, observed_with_others (world_marks l) os /\ holds (us_user (wd_server w)) F /\ accesses os log /\
    calls_spec F0 (map x_call log) (map x_result log) F /\ NoDup (executed log) /\
    (few_calls (world_marks l) -> forall a i x b, os = a ++ YC (Completed i (Value x)) :: b ->
       exists u r t n v, In (YC (Called i (session_call u r t))) a /\ legal_request r /\
         nth_error log n = Some {| x_call := CRequest r; x_result := RResponse v; x_by := Some i |} /\
         (n < List.length (db_calls a))%nat /\ session_result r (Value x) = Ret v) /\
    (few_calls (world_marks l) -> forall a m b s v, l = a ++ FK m :: b -> In (s, v) (tellings [m]) ->
       exists i r before after, os = before ++ after /\ observed_with_others (world_marks a) before /\
         request_of l s i r /\ outcome_of es l log (List.length (db_calls before)) i r v).
Proof.
  intros Un H O Hh. destruct (full_world _ _ _ _ _ _ H) as (b0 & b1 & wes & A1 & A2 & A3). pose proof (orderly_world _ _ _ _ _ A2 A3 O) as Ow.
  destruct (over_the_network _ _ _ _ _ _ _ _ _ Un A1 Ow Hh) as (os & log & F & B1 & B2 & B3 & B4 & B5 & B6). exists os, log, F.
  split; [exact B1|]. split; [exact B2|]. split; [exact B3|]. split; [exact B4|]. split; [exact B5|]. split; [exact B6|]. intros Few a m b s v El Ht.
  destruct (told_before _ _ _ _ _ _ _ _ _ _ _ H El Ht) as (i & y & r & u & t & K1 & K2 & K3 & K4 & K5).
  assert (Em : world_marks l = world_marks a ++ world_marks b) by (rewrite El, world_marks_app; reflexivity).
  assert (B1' := B1). rewrite Em in B1'. destruct (with_others_split _ _ _ B1') as (before & after & Eo & Ob & _).
  exists i, r, before, after. split; [exact Eo|]. split; [exact Ob|]. split; [exact K5|].
  assert (Hc : forall o, In (WC (ChannelOut o)) (world_marks a) -> In (YC o) (observed (world_marks l))).
  { intros o Ho. apply in_observed. rewrite Em. apply in_or_app. auto. }
  destruct (network_outcomes calls_scripted pol _ _ _ _ _ _ Un A1 i u r t y K4 (Hc _ K3) (Hc _ K1)) as [[L ->]|[L [(x & ->)|[(-> & t1 & xs & Tf)|[(msg & ->) Fl]]]]].
  - left. split; [exact L|]. cbn in K2. injection K2 as <-. reflexivity.
  - right. split; [exact L|]. left.
    apply (in_with_others _ _ _ Ob) in K1. apply in_split in K1 as (p & q & Ep).
    destruct (B6 Few p i x (q ++ after)) as (u' & r' & t' & n & v' & D1 & D2 & D3 & D4 & D5); [rewrite Eo, Ep, <- app_assoc; reflexivity|].
    assert (r' = r); [|subst r'].
    { assert (In (WC (ChannelOut (Called i (session_call u' r' t')))) (world_marks l)).
      { apply (in_with_others _ _ _ B1). rewrite Eo, Ep. apply in_or_app. left. apply in_or_app. left. exact D1. }
      destruct (world_client _ _ _ _ _ _ _ _ Un A1) as (ces & Hcl & _). apply channel_view in Hcl.
      assert (Cq : forall c, In (WC (ChannelOut (Called i c))) (world_marks l) -> In (Called i c) (channel_outs (client_marks (world_marks l)))).
      { intros c Hq. unfold channel_outs. apply in_flat_map. exists (ChannelOut (Called i c)). split; [|left; reflexivity].
        unfold client_marks. apply in_flat_map. eexists. split; [exact Hq|left; reflexivity]. }
      assert (E := ClientLemmas.call_unique _ _ _ _ _ _ _ _ _ Hcl (Cq _ H0) (Cq _ (proj1 (in_observed _ _) (Hc _ K3)))).
      injection E as _ E _. exact (SystemLemmas.message_injective _ _ D2 L E). }
    rewrite D5 in K2. injection K2 as <-. exists n. split; [|exact D3].
    rewrite Ep, SystemFacts.db_calls_app, app_length. lia.
  - right. split; [exact L|]. cbn in K2. injection K2 as <-. right. left. split; [reflexivity|]. exists t1, xs.
    destruct (A2 _ Tf) as [(c & E)|Tf']; [discriminate E|exact Tf'].
  - right. split; [exact L|]. cbn in K2. injection K2 as <-. right. right. split; [eauto|exact Fl].
Qed.

Theorem end_to_end units d F0 w0 es w l : Forall u8 units -> full_history units d w0 es w l -> forderly w0 es l -> holds d F0 ->
  exists os log F, observed_with_others (world_marks l) os /\ holds (us_user (wd_server w)) F /\ accesses os log /\
    calls_spec F0 (map x_call log) (map x_result log) F /\ NoDup (executed log) /\
    (few_calls (world_marks l) -> forall a m b s v, l = a ++ FK m :: b -> In (s, v) (tellings [m]) ->
       exists i r before after, os = before ++ after /\ observed_with_others (world_marks a) before /\
         request_of l s i r /\ outcome_of es l log (List.length (db_calls before)) i r v).
Proof.
  intros Un H O Hh. destruct (end_to_end_more _ _ _ _ _ _ _ Un H O Hh) as (os & log & F & B1 & B2 & B3 & B4 & B5 & _ & B7). exists os, log, F. auto 6.
Qed.

(** ** At rest *)
Lemma in_channel_world units d w0 es w l o : full_history units d w0 es w l -> In (Channel o) (session_outputs l) <-> In (YC o) (observed (world_marks l)).
Proof.
  intros H. rewrite in_observed, <- in_shows, <- (history_channel _ _ _ _ _ _ H). symmetry. apply in_channel.
Qed.

Theorem rest_told units d w0 es w l : Forall u8 units -> full_history units d w0 es w l -> forderly w0 es l -> falways user pol timely_writes w0 es ->
  at_rest w (world_marks l) -> not_shut_down w -> sessions_only units l -> each_answered l.
Proof.
  intros Un H O Tw Re Sh So. destruct (full_world _ _ _ _ _ _ H) as (b0 & b1 & wes & A1 & A2 & A3). pose proof (orderly_world _ _ _ _ _ A2 A3 O) as Ow.
  destruct (full_sessions _ _ _ _ _ _ H) as (kes & K & _). pose proof (fun o => in_channel_world _ _ _ _ _ _ o H) as Ch.
  assert (Co : calls_only units (observed (world_marks l))).
  { intros i k Hk. apply Ch in Hk. destruct (call_origin user _ _ _ _ _ _ K Hk) as (x & u & t & r & t' & Ho & (<- & _) & _).
    apply in_sessions in Ho; [|discriminate]. exact (So _ _ _ Ho). }
  pose proof (rest_completed calls_scripted pol _ _ _ _ _ _ Un A1 Ow (A3 _ _ carries_timely Tw) Re Sh Co) as Each.
  assert (Done : forall s i r, request_of l s i r -> exists y, In (Channel (Completed i y)) (session_outputs l)).
  { intros s i r M. apply made_of in M. destruct (made_call user pol _ _ _ _ _ _ K M) as (_ & x & u & t & c & _ & _ & _ & Hc).
    apply Ch in Hc. destruct (Each _ _ Hc) as (y & Hy). exists y. apply Ch. exact Hy. }
  split.
  - intros i x r t Hi. destruct (Done (Once i) i r) as (y & Hy); [split; [reflexivity|eauto]|].
    destruct (answered_when_completed user _ _ _ _ _ _ _ _ _ K (proj2 (in_sessions (Issued i x r t) l ltac:(discriminate)) Hi) Hy) as (v & Hv & _).
    exists v. apply in_sessions; [discriminate|exact Hv].
  - intros i j n Hi. assert (Hi' := proj2 (in_sessions (Repeated i j n) l ltac:(discriminate)) Hi).
    assert (Sc : exists x r t f, In (Scheduled j x r t f) (session_outputs l)).
    { destruct (repeated_scheduled user pol _ _ _ _ _ _ K Hi') as (x & r & t & f & Hs). eauto. }
    destruct Sc as (x & r & t & f & Hs). apply in_sessions in Hs; [|discriminate].
    destruct (Done (Polling j n) i r) as (y & Hy); [split; [exact Hi|eauto]|].
    destruct (poll_answered user _ _ _ _ _ _ _ _ K Hi' Hy) as (v & Hv). exists v. apply in_sessions; [discriminate|exact Hv].
Qed.
End Lemmas.
