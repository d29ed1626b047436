(** Proofs that servers do not notice frames that are for nobody. *)
From Verif Require Import Prelude Ser4 Messages Mbap SpecPdu ParseReqFacts SpecMbap BitFacts CodecLemmas MbapFacts MbapLemmas Server SpecServer ServerFacts SpecAlone AloneFacts SpecChunks ChunksFacts Client SpecStray StrayFacts.

Section Parser.
Context (pol : copy_policy).

Lemma rests_whole p g items : inv pol p g -> whole g items -> exists is h, Forall typed_item is /\ g = flat_map item_bytes is ++ h /\
  inv pol p h /\ forall buf, good_buf buf -> inv pol (mbap_new buf) h.
Proof.
  intros (Hg & Hx & is & u & Hi & E & HR) Hw. assert (F := framed_whole _ _ Hw). destruct F as (F1 & F2 & F3). assert (E' := E). rewrite F2 in E'.
  destruct (settled_incomplete items [] F3 F1 is u Hi E' (R_tail _ _ _ HR)) as [(i & -> & Hb & -> & _)|[-> ->]].
  - exists is, (item_bytes i). split; [exact Hi|]. split; [exact E|]. apply Forall_app in F1. destruct F1 as [_ F1].
    assert (Hbi : bytes (item_bytes i)) by (rewrite E in Hg; apply bytes_app in Hg; tauto).
    assert (Hxi : exactly pol (item_bytes i)).
    { right. intros I T F. assert (W : whole (item_bytes i) [i]) by (split; [exact F1|cbn; rewrite app_nil_r; reflexivity]).
      destruct (framed_unique _ _ _ _ _ F (framed_whole _ _ W)) as [-> _]. constructor; [|constructor]. intros K. unfold long, body_of in K. rewrite Hb in K. vm_compute in K. discriminate K. }
    split.
    + split; [exact Hbi|]. split; [exact Hxi|]. exists [], (item_bytes i). auto.
    + intros buf B. split; [exact Hbi|]. split; [exact Hxi|]. exists [i], []. split; [exact F1|]. split; [cbn; rewrite !app_nil_r; reflexivity|]. apply R_new. exact B.
  - exists items, []. split; [exact F1|]. split; [exact F2|]. split; [|intros; apply inv_new; assumption].
    split; [constructor|]. split; [apply exactly_nil|]. exists [], []. auto.
Qed.

Lemma short_prefix is h g : Forall typed_item is -> g = flat_map item_bytes is ++ h -> short_so_far g -> short_so_far h.
Proof. intros A -> H. apply (short_after (flat_map item_bytes is) h is); [split; auto|exact H]. Qed.

Lemma ashort_after es : forall (g g' : N -> list N), (forall x, exists is, Forall typed_item is /\ g x = flat_map item_bytes is ++ g' x) ->
  all_short_from g es -> all_short_from g' es.
Proof.
  induction es as [|e es IH]; intros g g' H K; [exact Logic.I|].
  assert (P : forall c v v', (exists is, Forall typed_item is /\ v = flat_map item_bytes is ++ v') ->
    forall x, exists is, Forall typed_item is /\ put g c v x = flat_map item_bytes is ++ put g' c v' x).
  { intros c v v' Hv x. unfold put. destruct (x =? c); [exact Hv|apply H]. }
  assert (Z : exists is, Forall typed_item is /\ [] = flat_map item_bytes is ++ @nil N) by (exists []; auto).
  destruct e as [a| |c buf|c d|c]; cbn [all_short_from] in *.
  - exact (IH _ _ H K).
  - exact (IH _ _ H K).
  - exact (IH _ _ (P c _ _ Z) K).
  - destruct (H c) as (is & A & B). destruct K as [K1 K2]. assert (B' : g c ++ d = flat_map item_bytes is ++ g' c ++ d) by (rewrite B, app_assoc; reflexivity).
    split; [exact (short_prefix _ _ _ A B' K1)|]. exact (IH _ _ (P c _ _ (ex_intro _ is (conj A B'))) K2).
  - exact (IH _ _ (P c _ _ Z) K).
Qed.

Lemma short_join is h : Forall typed_item is -> no_long is -> bytes h -> short_so_far h -> short_so_far (flat_map item_bytes is ++ h).
Proof.
  intros A L Hb H I T F. destruct (framed_total h Hb) as (I' & T' & F').
  assert (K : framed (flat_map item_bytes is ++ h) (is ++ I') T').
  { destruct F' as (F1 & F2 & F3). split; [apply Forall_app; auto|]. split; [rewrite F2, flat_map_app, app_assoc; reflexivity|exact F3]. }
  destruct (framed_unique _ _ _ _ _ F K) as [-> _]. apply Forall_app. split; [exact L|exact (H _ _ F')].
Qed.

Lemma ashort_before es : forall (g g' : N -> list N), Forall typed_event es -> (forall x, bytes (g' x)) ->
  (forall x, exists is, Forall typed_item is /\ no_long is /\ g x = flat_map item_bytes is ++ g' x) ->
  all_short_from g' es -> all_short_from g es.
Proof.
  induction es as [|e es IH]; intros g g' T Hb H K; [exact Logic.I|]. apply Forall_cons_iff in T. destruct T as [Te T].
  assert (P : forall c v v', (exists is, Forall typed_item is /\ no_long is /\ v = flat_map item_bytes is ++ v') ->
    forall x, exists is, Forall typed_item is /\ no_long is /\ put g c v x = flat_map item_bytes is ++ put g' c v' x).
  { intros c v v' Hv x. unfold put. destruct (x =? c); [exact Hv|apply H]. }
  assert (Q : forall c v, bytes v -> forall x, bytes (put g' c v x)) by (intros c v Hv x; unfold put; destruct (x =? c); [exact Hv|apply Hb]).
  assert (Z : exists is, Forall typed_item is /\ no_long is /\ [] = flat_map item_bytes is ++ @nil N) by (exists []; repeat split; constructor).
  destruct e as [a| |c buf|c d|c]; cbn [all_short_from typed_event] in *.
  - exact (IH _ _ T Hb H K).
  - exact (IH _ _ T Hb H K).
  - exact (IH _ _ T (Q c [] (Forall_nil _)) (P c _ _ Z) K).
  - destruct (H c) as (is & A & L & B). destruct K as [K1 K2]. assert (B' : g c ++ d = flat_map item_bytes is ++ g' c ++ d) by (rewrite B, app_assoc; reflexivity).
    assert (Hd : bytes (g' c ++ d)) by (apply bytes_app; auto).
    split; [rewrite B'; apply short_join; assumption|]. exact (IH _ _ T (Q c _ Hd) (P c _ _ (ex_intro _ is (conj A (conj L B')))) K2).
  - exact (IH _ _ T (Q c [] (Forall_nil _)) (P c _ _ Z) K).
Qed.
End Parser.

Lemma arrived_bytes es x : forall g, bytes g -> Forall typed_event es -> bytes (arrived x g es).
Proof.
  induction es as [|e es IH]; intros g Hg T; [exact Hg|]. apply Forall_cons_iff in T. destruct T as [Te T].
  destruct e as [a| |c buf|c d|c]; cbn [arrived typed_event] in *; apply IH; try assumption; destruct (x =? c); auto; try constructor.
  apply bytes_app. auto.
Qed.

Section Server.
Context {W : Type}.
Context (on_request : N -> W -> request -> W * expected response * list api).
Context (on_shutdown : N -> W -> W * list api).
Context (pol : copy_policy).
Notation run := (server_run on_request on_shutdown pol).

(** With a new parser. *)
Definition fresh (s : server) (c : N) : server := set_conn s c (Some (mbap_new (repeat 0 260))).

Lemma good_zeros : good_buf (repeat 0 260).
Proof. split; [reflexivity|]. apply Forall_forall. intros x H. apply repeat_spec in H. subst x. reflexivity. Qed.

(** A server that has received whole frames on a connection behaves like one with a new
    connection. *)
Lemma renewed g s s' c p items b w : sim pol everywhere g s s' -> sv_conns s c = Some p -> whole (g c) items -> Forall typed_event b ->
  pol = Truncate \/ all_short_from g b ->
  forall r, r = with_conns s (sv_conns r) -> (exists buf, good_buf buf /\ sv_conns r c = Some (mbap_new buf)) -> (forall x, x <> c -> sv_conns r x = sv_conns s' x) ->
  exists s1 r1 w1 o1, run s w b = Ret (s1, w1, o1) /\ run r w b = Ret (r1, w1, o1) /\ but_parsers s1 r1.
Proof.
  intros [Hs1 Hs2] Ec Hw Tb Hx r Hr (buf & B & Hc) Ho.
  assert (Hp : inv pol p (g c)) by (specialize (Hs2 c Logic.I); rewrite Ec in Hs2; destruct (sv_conns s' c); tauto).
  destruct (rests_whole _ _ _ _ Hp Hw) as (is & h & A1 & A2 & A3 & A4).
  assert (S : sim pol everywhere (put g c h) s r).
  { split; [exact Hr|]. intros x _. unfold put. destruct (N.eqb_spec x c) as [->|n]; [rewrite Ec, Hc; auto|]. rewrite (Ho x n). exact (Hs2 x Logic.I). }
  assert (X : pol = Truncate \/ all_short_from (put g c h) b).
  { destruct Hx as [Hx|Hx]; [auto|right]. refine (ashort_after b g _ _ Hx). intros x. unfold put. destruct (N.eqb_spec x c) as [->|]; [eauto|exists []; auto]. }
  destruct (rechunked_sim on_request on_shutdown pol b b (rechunked_refl b) _ s r w S Tb Tb X) as (s1 & r1 & w1 & o1 & E1 & E2 & S1).
  exists s1, r1, w1, o1. split; [exact E1|]. split; [exact E2|]. exact (sim_but _ _ _ _ S1).
Qed.

Lemma nobody_ignored c ms : forall s w, (forall m, In m ms -> bytes (mb_data m) /\ decision (registry s) (mb_unit m) (mb_data m) Silent) ->
  on_messages on_request s w c ms = Ret (s, w, []).
Proof.
  induction ms as [|m ms IH]; intros s w H; [reflexivity|]. cbn [on_messages].
  assert (E : on_mbap on_request s w c m = Ret (s, w, [])).
  { unfold on_mbap. destruct (sv_shutdown s); [reflexivity|]. destruct (H m (or_introl eq_refl)) as [Hb D]. unfold registry in D.
    inversion D as [E|E| | |x fc rest E1 E2 E3 E4 E5 E6|]; subst.
    - rewrite E. reflexivity.
    - rewrite E. destruct (find_session _ _); reflexivity.
    - rewrite E1, E2. destruct (size (fc :: rest) <? 1); [reflexivity|]. cbn [rd8 read_u8].
      destruct (proj2 (request_parser_supported fc) E3) as (p & Ep). rewrite Ep. unfold process_message.
      rewrite (proj2 (parse_malformed_iff fc p (mb_data m) Ep Hb)); [reflexivity|]. split; [exact E4|]. intros r L _. exact (E5 r L). }
  rewrite E. cbn [obind]. rewrite IH; [reflexivity|]. intros m' Hm. apply H. right. exact Hm.
Qed.

Lemma but_trans s t r : but_parsers s r -> but_parsers t r -> but_parsers s t.
Proof.
  intros (A1 & A2 & A3 & A4 & A5) (B1 & B2 & B3 & B4 & B5). repeat split; try congruence; intros H.
  - apply B5, A5, H.
  - apply A5, B5, H.
Qed.

Theorem nobody_unnoticed w a c d its items b s0 w0 o0 : Forall typed_event (a ++ EReceive c d :: b) ->
  pol = Truncate \/ all_short (a ++ EReceive c d :: b) -> whole (arrived c [] a) its ->
  run server_init w a = Ret (s0, w0, o0) -> whole d items -> for_nobody (registry s0) items ->
  exists s t w1 o, run server_init w (a ++ EReceive c d :: b) = Ret (s, w1, o) /\ run server_init w (a ++ b) = Ret (t, w1, o) /\ but_parsers s t.
Proof.
  intros Ty Hx Hg E0 Hw Hn. assert (Ty' := Ty). apply Forall_app in Ty. destruct Ty as [Ta Tb]. apply Forall_cons_iff in Tb. destruct Tb as [Td Tb].
  assert (X : pol = Truncate \/ all_short_from (fun _ => []) (a ++ EReceive c d :: b)) by (destruct Hx as [Hx|Hx]; [auto|right; apply short_from; exact Hx]).
  assert (Xa : pol = Truncate \/ all_short_from (fun _ => []) a).
  { destruct Hx as [Hx|Hx]; [auto|right]. apply short_from. intros x es1 es2 ->. apply (Hx x es1 (es2 ++ EReceive c d :: b)). rewrite <- app_assoc. reflexivity. }
  destruct (rechunked_sim on_request on_shutdown pol a a (rechunked_refl a) _ _ _ w (sim_init pol (fun _ => [])) Ta Ta Xa) as (s1 & t1 & w1 & o1 & E1 & E2 & S1).
  rewrite E0 in E1, E2. injection E1 as <- <- <-. injection E2 as <-. set (g := fun x => arrived x [] a) in *.
  assert (X1 : pol = Truncate \/ all_short_from g (EReceive c d :: b)) by (destruct X as [X|X]; [auto|right; exact (short_split _ _ _ X)]).
  assert (Whole : whole (g c ++ d) (its ++ items)).
  { destruct Hg as [G1 G2], Hw as [W1 W2]. split; [apply Forall_app; auto|]. unfold g. rewrite G2, W2, flat_map_app. reflexivity. }
  assert (X2 : pol = Truncate \/ all_short_from (put g c (g c ++ d)) b) by (destruct X1 as [X1|[_ X1]]; [auto|right; exact X1]).
  assert (X3 : pol = Truncate \/ all_short_from (put g c []) b).
  { destruct X2 as [X2|X2]; [auto|right]. refine (ashort_after b _ _ _ X2). intros x. unfold put. destruct (N.eqb_spec x c) as [->|]; [|exists []; auto].
    exists (its ++ items). destruct Whole as [W1 W2]. rewrite app_nil_r. auto. }
  rewrite (runs_app on_request on_shutdown pol a _ _ _ _ _ _ E0), (runs_app on_request on_shutdown pol a _ _ _ _ _ _ E0). cbn [server_run].
  destruct (sv_conns s0 c) as [p|] eqn:Ec.
  - assert (Hp : inv pol p (g c)) by (destruct S1 as [_ S1]; specialize (S1 c Logic.I); rewrite Ec in S1; tauto).
    assert (Hx2 : exactly pol (g c ++ d)) by (destruct X1 as [X1|[X1 _]]; [left|right]; exact X1).
    assert (F := framed_whole _ _ Hg). assert (F' := framed_whole _ _ Whole).
    destruct (parse_chunk pol p (g c) d its [] items [] Hp Td Hx2 F F') as (p' & ms & Ep & Hp' & Hms).
    assert (E3 : server_step on_request on_shutdown pol s0 w0 (EReceive c d) = Ret (set_conn s0 c (Some p'), w0, [])).
    { cbn [server_step]. rewrite Ec, Ep. cbn [obind]. rewrite messages_heard, Hms. apply nobody_ignored. intros m Hm.
      apply in_map_iff in Hm. destruct Hm as (x & <- & Hx3). apply filter_In in Hx3. destruct Hx3 as [Hx3 Hw3]. apply andb_prop in Hw3. destruct Hw3 as [D1 _].
      split; [|exact (Hn x Hx3 D1)]. destruct Hw as [W1 _]. rewrite Forall_forall in W1. destruct (W1 x Hx3) as (_ & _ & _ & D & _). apply bytes_firstn. exact D. }
    assert (S2 : sim pol everywhere (put g c (g c ++ d)) (set_conn s0 c (Some p')) (set_conn s0 c (Some p'))).
    { split; [reflexivity|]. intros x _. cbn [set_conn sv_conns]. unfold put. destruct (x =? c); [auto|]. exact (proj2 S1 x Logic.I). }
    assert (C1 : sv_conns (set_conn s0 c (Some p')) c = Some p') by (cbn [set_conn sv_conns]; rewrite N.eqb_refl; reflexivity).
    assert (C2 : sv_conns (fresh s0 c) c = Some (mbap_new (repeat 0 260))) by (cbn [fresh set_conn sv_conns]; rewrite N.eqb_refl; reflexivity).
    assert (Wc : whole (put g c (g c ++ d) c) (its ++ items)) by (unfold put; rewrite N.eqb_refl; exact Whole).
    destruct (renewed _ _ _ c p' (its ++ items) b w0 S2 C1 Wc Tb X2 (fresh s0 c) eq_refl (ex_intro _ _ (conj good_zeros C2))) as (s2 & r2 & w2 & o2 & R1 & R2 & R3).
    { intros x Hxc. cbn [fresh set_conn sv_conns]. destruct (N.eqb_spec x c); [contradiction|reflexivity]. }
    assert (X4 : pol = Truncate \/ all_short_from g b).
    { destruct Hp as (_ & Hxp & _). destruct Hxp as [Hxp|Hxp]; [auto|]. destruct X3 as [X3|X3]; [auto|right]. refine (ashort_before b g _ Tb _ _ X3).
      - intros x. unfold put. destruct (x =? c); [constructor|]. exact (arrived_bytes a x [] (Forall_nil _) Ta).
      - intros x. unfold put. destruct (N.eqb_spec x c) as [->|]; [|exists []; repeat split; constructor].
        exists its. rewrite app_nil_r. split; [exact (proj1 Hg)|]. split; [exact (Hxp _ _ F)|exact (proj2 Hg)]. }
    destruct (renewed g s0 s0 c p its b w0 S1 Ec Hg Tb X4 (fresh s0 c) eq_refl (ex_intro _ _ (conj good_zeros C2))) as (t2 & r3 & w3 & o3 & Q1 & Q2 & Q3).
    { intros x Hxc. cbn [fresh set_conn sv_conns]. destruct (N.eqb_spec x c); [contradiction|reflexivity]. }
    rewrite R2 in Q2. injection Q2 as <- <- <-. rewrite E3. cbn [obind]. rewrite R1, Q1. cbn [obind app].
    do 4 eexists. split; [reflexivity|]. split; [reflexivity|]. exact (but_trans _ _ _ R3 Q3).
  - assert (E3 : server_step on_request on_shutdown pol s0 w0 (EReceive c d) = Ret (s0, w0, [])) by (cbn [server_step]; rewrite Ec; reflexivity).
    assert (S2 : sim pol everywhere (put g c []) s0 s0).
    { split; [exact (proj1 S1)|]. intros x _. unfold put. destruct (N.eqb_spec x c) as [->|]; [rewrite Ec; exact Logic.I|]. exact (proj2 S1 x Logic.I). }
    destruct (rechunked_sim on_request on_shutdown pol b b (rechunked_refl b) _ _ _ w0 S2 Tb Tb X3) as (s2 & t2 & w2 & o2 & R1 & R2 & R3).
    rewrite R1 in R2. injection R2 as <-.
    rewrite E3. cbn [obind]. rewrite R1. cbn [obind app]. do 4 eexists. split; [reflexivity|]. split; [reflexivity|]. exact (sim_but _ _ _ _ R3).
Qed.
End Server.
