(** Proofs that a server does not notice in which pieces the bytes arrive. *)
From Verif Require Import Prelude Ser4 Messages Mbap SpecPdu ParseReqFacts SpecMbap BitFacts CodecLemmas MbapFacts MbapLemmas Server SpecServer ServerFacts SpecAlone AloneFacts SpecChunks.

(** ** The parser *)
Section Parser.
Context (pol : copy_policy).

Definition exactly (g : list N) : Prop := pol = Truncate \/ short_so_far g.

Definition inv (p : pstate) (g : list N) : Prop :=
  bytes g /\ exactly g /\ exists is u, Forall typed_item is /\ g = flat_map item_bytes is ++ u /\ R pol p u.

(** Items of which the server takes notice. *)
Definition worth (i : item) : bool := deliverable i && negb (size (body_of i) <? 1).
Definition heard (m : mbap_message) : bool := negb (size (mb_data m) <? 1).

Lemma worth_settled g I T is u p : framed g I T -> Forall typed_item is -> g = flat_map item_bytes is ++ u -> R pol p u ->
  filter worth is = filter worth I /\ incl is I.
Proof.
  intros (F1 & F2 & F3) Hi E HR. rewrite F2 in E.
  destruct (settled_incomplete I T F3 F1 is u Hi E (R_tail _ _ _ HR)) as [(i & -> & Hb & -> & ->)|[-> ->]].
  - split; [|apply incl_appl, incl_refl]. rewrite filter_app. cbn [filter]. unfold worth at 3, body_of. rewrite Hb. rewrite Bool.andb_false_r, app_nil_r. reflexivity.
  - split; [reflexivity|apply incl_refl].
Qed.

Lemma framed_app g I T d n T' : framed g I T -> framed (T ++ d) n T' -> framed (g ++ d) (I ++ n) T'.
Proof.
  intros (A1 & A2 & A3) (B1 & B2 & B3). split; [apply Forall_app; auto|]. split; [|exact B3].
  rewrite A2, <- app_assoc, B2, flat_map_app, app_assoc. reflexivity.
Qed.

Lemma framed_more g I T d I' T' : bytes g -> bytes d -> framed g I T -> framed (g ++ d) I' T' -> exists n, I' = I ++ n.
Proof.
  intros Hg Hd F F'. destruct (framed_total (T ++ d)) as (n & t & Fn).
  { apply bytes_app. split; [|exact Hd]. destruct F as (_ & E & _). rewrite E in Hg. apply bytes_app in Hg. tauto. }
  assert (K := framed_app _ _ _ _ _ _ F Fn). destruct (framed_unique _ _ _ _ _ F' K) as [-> _]. eauto.
Qed.

Lemma exactly_prefix g d : bytes g -> bytes d -> exactly (g ++ d) -> exactly g.
Proof.
  intros Hg Hd [H|H]; [left; exact H|right]. intros I T F. destruct (framed_total (g ++ d)) as (I' & T' & F'); [apply bytes_app; auto|].
  destruct (framed_more _ _ _ _ _ _ Hg Hd F F') as (n & ->). specialize (H _ _ F'). unfold no_long in H. apply Forall_app in H. tauto.
Qed.

Lemma heard_worth is : filter heard (map truncated_message (filter deliverable is)) = map truncated_message (filter worth is).
Proof.
  induction is as [|i is IH]; [reflexivity|]. cbn [filter]. unfold worth. destruct (deliverable i); cbn [andb]; [|exact IH].
  cbn [map filter]. unfold heard at 1. cbn [truncated_message mb_data]. fold (worth i).
  assert (K : (size (firstn 253 (body_of i)) <? 1) = (size (body_of i) <? 1)).
  { destruct (body_of i) as [|x l]; [reflexivity|]. change (firstn 253 (x :: l)) with (x :: firstn 252 l). rewrite !size_cons.
    transitivity false; [|symmetry]; apply N.ltb_ge; lia. }
  rewrite K.
  destruct (negb (size (body_of i) <? 1)); cbn [map]; [f_equal|]; exact IH.
Qed.

Lemma parse_chunk p g d I T n T' : inv p g -> bytes d -> exactly (g ++ d) -> framed g I T -> framed (g ++ d) (I ++ n) T' ->
  exists p' ms, mbap_parse pol p d = Ret (p', ms) /\ inv p' (g ++ d) /\ filter heard ms = map truncated_message (filter worth n).
Proof.
  intros (Hg & Hx & is & u & Hi & E & HR) Hd Hx' F F'.
  destruct (parse_spec pol p u d HR Hd) as (p' & u' & i2 & ms & Ep & Ht & Ed & HR' & Hm & _).
  assert (K : g ++ d = flat_map item_bytes (is ++ i2) ++ u') by (rewrite E, <- app_assoc, Ed, flat_map_app, app_assoc; reflexivity).
  assert (Hi2 : Forall typed_item (is ++ i2)) by (apply Forall_app; auto).
  exists p', ms. split; [exact Ep|]. split.
  { split; [apply bytes_app; auto|]. split; [exact Hx'|]. exists (is ++ i2), u'. auto. }
  destruct (worth_settled _ _ _ _ _ _ F Hi E HR) as [W1 _]. destruct (worth_settled _ _ _ _ _ _ F' Hi2 K HR') as [W2 W3].
  rewrite !filter_app, W1 in W2. apply app_inv_head in W2. rewrite <- W2, <- heard_worth. f_equal.
  assert (L : Forall (fun i => pol = Truncate \/ ~ long i) (filter deliverable i2)).
  { apply Forall_forall. intros i H. apply filter_In in H. destruct H as [H _]. destruct Hx' as [Hx'|Hx']; [auto|right].
    specialize (Hx' _ _ F'). unfold no_long in Hx'. rewrite Forall_forall in Hx'. apply Hx', W3, in_or_app. auto. }
  clear - Hm L. induction Hm as [|i m is ms Him _ IH]; [reflexivity|]. apply Forall_cons_iff in L. destruct L as [L1 L2].
  cbn [map]. rewrite <- (IH L2). f_equal. destruct m as [mu mt md]. destruct Him as (M1 & M2 & M3 & M4 & M5 & _). cbn [mb_unit mb_tx mb_data] in *.
  unfold truncated_message. rewrite M1, M2. f_equal. destruct L1 as [L1|L1]; [exact (M5 L1)|]. rewrite (M3 L1). symmetry. apply firstn_all2.
  unfold long, size in L1. lia.
Qed.

Lemma inv_new buf : good_buf buf -> inv (mbap_new buf) [].
Proof.
  intros H. split; [constructor|]. split.
  - right. intros I T (F1 & F2 & F3). symmetry in F2. apply app_eq_nil in F2. destruct F2 as [F2 _]. destruct I as [|i I]; [constructor|]. discriminate F2.
  - exists [], []. split; [constructor|]. split; [reflexivity|]. apply R_new. exact H.
Qed.

Lemma inv_reset p g : inv p g -> inv (mbap_reset p) [].
Proof.
  intros (_ & _ & is & u & _ & _ & (H & _)).
  change (mbap_reset p) with (mbap_new (p_buf p)). apply inv_new. exact H.
Qed.
End Parser.

Section Server.
Context {W : Type}.
Context (on_request : N -> W -> request -> W * expected response * list api).
Context (on_shutdown : N -> W -> W * list api).
Context (pol : copy_policy).

Lemma seen_eq x r : seen on_request eq x r.
Proof. intros w v w' a calls <- E. eauto. Qed.

Lemma messages_conns f c ms s w s1 w1 o1 : on_messages on_request s w c ms = Ret (s1, w1, o1) ->
  on_messages on_request (with_conns s f) w c ms = Ret (with_conns s1 f, w1, o1) /\ sv_conns s1 = sv_conns s.
Proof.
  intros E. destruct (on_messages_with on_request eq f c ms s w w s1 w1 o1 eq_refl E) as (v & E1 & <- & K); [intros; apply seen_eq|]. auto.
Qed.

Lemma messages_defined c ms : forall s w, exists s' w' os, on_messages on_request s w c ms = Ret (s', w', os).
Proof.
  induction ms as [|m ms IH]; intros s w; [cbn; eauto|]. cbn [on_messages].
  assert (E : exists s' w' os, on_mbap on_request s w c m = Ret (s', w', os)).
  { unfold on_mbap. destruct (sv_shutdown s); [eauto|]. destruct (find_session _ _) as [x|]; [|eauto].
    destruct (mb_data m) as [|fc rest] eqn:Em; [exists s, w, []; reflexivity|].
    destruct (size (fc :: rest) <? 1); [eauto|]. cbn [rd8 read_u8].
    destruct (request_parser fc) as [p|] eqn:Ep; [|eauto]. unfold process_message. rewrite Em.
    destruct (p (fc :: rest)) as [[r|e]|] eqn:E; cbn [obind]; [| |destruct (parse_no_ub _ _ _ Ep E)].
    - destruct (on_request x w r) as [[w' [v|e]] l]; [eauto|]. destruct e; eauto.
    - destruct e; eauto. }
  destruct E as (s1 & w1 & o1 & ->). cbn [obind]. destruct (IH s1 w1) as (s2 & w2 & o2 & ->). cbn [obind]. eauto.
Qed.

Lemma messages_heard c ms : forall s w, on_messages on_request s w c ms = on_messages on_request s w c (filter heard ms).
Proof.
  induction ms as [|m ms IH]; intros s w; [reflexivity|]. cbn [on_messages filter]. destruct (heard m) eqn:H; cbn [on_messages].
  - destruct (on_mbap on_request s w c m) as [[[s1 w1] o1]|]; cbn [obind]; [|reflexivity]. rewrite IH. reflexivity.
  - assert (E : on_mbap on_request s w c m = Ret (s, w, [])).
    { unfold on_mbap, heard in *. apply Bool.negb_false_iff in H. rewrite H. destruct (sv_shutdown s); [reflexivity|]. destruct (find_session _ _); reflexivity. }
    rewrite E. cbn [obind]. rewrite IH. destruct (on_messages on_request s w c (filter heard ms)) as [[[s2 w2] o2]|]; reflexivity.
Qed.

Lemma messages_split c a b : forall s w s2 w2 o, on_messages on_request s w c (a ++ b) = Ret (s2, w2, o) ->
  exists s1 w1 o1 o2, on_messages on_request s w c a = Ret (s1, w1, o1) /\ on_messages on_request s1 w1 c b = Ret (s2, w2, o2) /\ o = o1 ++ o2.
Proof.
  induction a as [|m a IH]; intros s w s2 w2 o; cbn [app on_messages].
  - intros E. exists s, w, [], o. auto.
  - destruct (on_mbap on_request s w c m) as [[[s1 w1] o1]|]; cbn [obind]; [|discriminate].
    destruct (on_messages on_request s1 w1 c (a ++ b)) as [[[s3 w3] o3]|] eqn:E3; cbn [obind]; [|discriminate]. intros [= <- <- <-].
    destruct (IH _ _ _ _ _ E3) as (s4 & w4 & o4 & o5 & E4 & E5 & ->). exists s4, w4, (o1 ++ o4), o5. rewrite E4. cbn [obind]. rewrite app_assoc. auto.
Qed.

Notation step := (server_step on_request on_shutdown pol).
Notation run := (server_run on_request on_shutdown pol).

Lemma runs_app es1 : forall es2 s w s1 w1 o1, run s w es1 = Ret (s1, w1, o1) ->
  run s w (es1 ++ es2) = obind (run s1 w1 es2) (fun '(s2, w2, o2) => Ret (s2, w2, o1 ++ o2)).
Proof.
  induction es1 as [|e es1 IH]; intros es2 s w s1 w1 o1; cbn [app server_run].
  - intros [= <- <- <-]. destruct (run s w es2) as [[[? ?] ?]|]; reflexivity.
  - destruct (step s w e) as [[[s2 w2] o2]|]; cbn [obind]; [|discriminate].
    destruct (run s2 w2 es1) as [[[s3 w3] o3]|] eqn:E3; cbn [obind]; [|discriminate]. intros [= <- <- <-].
    rewrite (IH es2 _ _ _ _ _ E3). destruct (run s3 w3 es2) as [[[? ?] ?]|]; cbn [obind]; [|reflexivity]. rewrite app_assoc. reflexivity.
Qed.

Lemma chunks_run c ds : forall p g I T n T', inv pol p g -> Forall bytes ds -> exactly pol (g ++ List.concat ds) -> framed g I T ->
  framed (g ++ List.concat ds) (I ++ n) T' ->
  exists p', inv pol p' (g ++ List.concat ds) /\ forall s w s1 w1 o1, sv_conns s c = Some p ->
    on_messages on_request s w c (map truncated_message (filter worth n)) = Ret (s1, w1, o1) ->
    exists f, run s w (map (EReceive c) ds) = Ret (with_conns s1 f, w1, o1) /\ forall x, f x = if x =? c then Some p' else sv_conns s x.
Proof.
  induction ds as [|d ds IH]; intros p g I T n T' Hp Hds Hx F F'; cbn [List.concat map] in *.
  - rewrite app_nil_r in *. exists p. split; [exact Hp|]. intros s w s1 w1 o1 Ec E.
    destruct (framed_unique _ _ _ _ _ F F') as [K _]. rewrite <- (app_nil_r I) in K at 1. apply app_inv_head in K. subst n.
    cbn [filter map on_messages] in E. injection E as <- <- <-. exists (sv_conns s). split; [destruct s; reflexivity|].
    intros x. destruct (N.eqb_spec x c) as [->|]; [exact Ec|reflexivity].
  - apply Forall_cons_iff in Hds. destruct Hds as [Hd Hds]. assert (Hcc := concat_bytes _ Hds). rewrite app_assoc in *.
    assert (Hg : bytes g) by exact (proj1 Hp). assert (Hgd : bytes (g ++ d)) by (apply bytes_app; auto).
    assert (Hx1 := exactly_prefix _ _ _ Hgd Hcc Hx).
    destruct (framed_total (g ++ d) Hgd) as (I1 & T1 & F1). destruct (framed_more _ _ _ _ _ _ Hg Hd F F1) as (n1 & ->).
    destruct (framed_more _ _ _ _ _ _ Hgd Hcc F1 F') as (n2 & K). rewrite <- app_assoc in K. apply app_inv_head in K. subst n.
    destruct (parse_chunk _ _ _ _ _ _ _ _ Hp Hd Hx1 F F1) as (p1 & ms & E1 & Hp1 & Hms).
    destruct (IH p1 (g ++ d) (I ++ n1) T1 n2 T' Hp1 Hds Hx F1) as (p2 & Hp2 & H2); [rewrite <- (app_assoc I); exact F'|].
    exists p2. split; [exact Hp2|]. intros s w s2 w2 o Ec E. rewrite filter_app, map_app in E.
    destruct (messages_split _ _ _ _ _ _ _ _ E) as (s1 & w1 & o1 & o2 & E2 & E3 & ->).
    cbn [server_run server_step]. rewrite Ec, E1. cbn [obind]. rewrite messages_heard, Hms.
    change (set_conn s c (Some p1)) with (with_conns s (fun x => if x =? c then Some p1 else sv_conns s x)).
    destruct (messages_conns (fun x => if x =? c then Some p1 else sv_conns s x) _ _ _ _ _ _ _ E2) as [-> K]. cbn [obind].
    destruct (messages_conns (fun x => if x =? c then Some p1 else sv_conns s x) _ _ _ _ _ _ _ E3) as [E4 _].
    assert (E5 : sv_conns (with_conns s1 (fun x => if x =? c then Some p1 else sv_conns s x)) c = Some p1) by (cbn [with_conns sv_conns]; rewrite N.eqb_refl; reflexivity).
    destruct (H2 _ _ _ _ _ E5 E4) as (f & -> & Hf).
    cbn [obind]. exists f. split; [reflexivity|]. intros x. rewrite Hf. cbn [with_conns sv_conns]. destruct (x =? c); reflexivity.
Qed.

Lemma gone_run c ds : forall s w, sv_conns s c = None -> run s w (map (EReceive c) ds) = Ret (s, w, []).
Proof.
  induction ds as [|d ds IH]; intros s w E; [reflexivity|]. cbn [map server_run server_step]. rewrite E. cbn [obind]. rewrite IH by exact E. reflexivity.
Qed.

(** ** Histories *)

(** The same, but the parsers of the connections outside of [P] are not compared. *)
Definition sim (P : N -> Prop) (g : N -> list N) (s t : server) : Prop :=
  t = with_conns s (sv_conns t) /\ forall c, P c ->
  match sv_conns s c, sv_conns t c with
  | Some p, Some q => inv pol p (g c) /\ inv pol q (g c)
  | None, None => True
  | _, _ => False
  end.

Definition put (g : N -> list N) (c : N) (v : list N) : N -> list N := fun x => if x =? c then v else g x.

Fixpoint all_short_from (g : N -> list N) (es : list event) : Prop :=
  match es with
  | [] => True
  | EAccept c _ :: es | EConnError c :: es => all_short_from (put g c []) es
  | EReceive c d :: es => short_so_far (g c ++ d) /\ all_short_from (put g c (g c ++ d)) es
  | (EApi _ | ERun) :: es => all_short_from g es
  end.

Lemma put_if (g : N -> list N) c v x : (if x =? c then v else g x) = put g c v x.
Proof. reflexivity. Qed.

Lemma short_from es : forall g, (forall c es1 es2, es = es1 ++ es2 -> short_so_far (arrived c (g c) es1)) -> all_short_from g es.
Proof.
  induction es as [|e es IH]; intros g H; [exact Logic.I|]. destruct e as [a| |c buf|c d|c]; cbn [all_short_from].
  - apply IH. intros c es1 es2 ->. exact (H c (EApi a :: es1) es2 eq_refl).
  - apply IH. intros c es1 es2 ->. exact (H c (ERun :: es1) es2 eq_refl).
  - apply IH. intros x es1 es2 ->. exact (H x (EAccept c buf :: es1) es2 eq_refl).
  - split.
    + assert (K := H c [EReceive c d] es eq_refl). cbn [arrived] in K. rewrite N.eqb_refl in K. exact K.
    + apply IH. intros x es1 es2 ->. assert (K := H x (EReceive c d :: es1) es2 eq_refl). cbn [arrived] in K. unfold put.
      destruct (N.eqb_spec x c) as [Ex|]; [rewrite Ex in K; rewrite Ex|]; exact K.
  - apply IH. intros x es1 es2 ->. exact (H x (EConnError c :: es1) es2 eq_refl).
Qed.

Lemma short_ext es : forall g g', (forall x, g' x = g x) -> all_short_from g es -> all_short_from g' es.
Proof.
  induction es as [|e es IH]; intros g g' H; [auto|].
  assert (K : forall c v, forall x, put g' c v x = put g c v x) by (intros c v x; unfold put; destruct (x =? c); auto).
  destruct e as [a| |c buf|c d|c]; cbn [all_short_from]; try (apply IH; auto; fail).
  rewrite H. intros [A B]. split; [exact A|]. exact (IH _ _ (K _ _) B).
Qed.

Lemma arrived_app x es1 : forall g es2, arrived x g (es1 ++ es2) = arrived x (arrived x g es1) es2.
Proof. induction es1 as [|e es1 IH]; intros g es2; [reflexivity|]. cbn [app]. destruct e; cbn [arrived]; apply IH. Qed.

Lemma arrived_chunks x c ds : forall g, arrived x g (map (EReceive c) ds) = if x =? c then g ++ List.concat ds else g.
Proof.
  induction ds as [|d ds IH]; intros g; cbn [map arrived List.concat]; [rewrite app_nil_r; destruct (x =? c); reflexivity|].
  rewrite IH. destruct (x =? c); [rewrite app_assoc|]; reflexivity.
Qed.

Lemma short_split es1 : forall g es2, all_short_from g (es1 ++ es2) -> all_short_from (fun x => arrived x (g x) es1) es2.
Proof.
  induction es1 as [|e es1 IH]; intros g es2; cbn [app]; [intros H; apply (short_ext _ g); auto|].
  destruct e as [a| |c buf|c d|c]; cbn [all_short_from arrived]; [| | |intros [_ H]|]; try intros H; apply IH in H; try exact H.
  - refine (short_ext _ _ _ _ H). intros x. cbn beta. unfold put. destruct (N.eqb_spec x c) as [->|]; reflexivity.
Qed.

Lemma exactly_all c ds : forall (g : N -> list N) es, pol = Truncate \/ all_short_from g (map (EReceive c) ds ++ es) ->
  exactly pol (g c) -> exactly pol (g c ++ List.concat ds).
Proof.
  induction ds as [|d ds IH]; intros g es H; cbn [map app List.concat].
  - rewrite app_nil_r. auto.
  - destruct H as [H|H]; [left; exact H|]. cbn [map app all_short_from] in H. destruct H as [H1 H2]. intros _.
    assert (K := IH (put g c (g c ++ d)) es (or_intror H2)). unfold put in K. rewrite N.eqb_refl, <- app_assoc in K. apply K. right. exact H1.
Qed.

Lemma sim_ext P g g' s t : (forall x, g' x = g x) -> sim P g s t -> sim P g' s t.
Proof. intros H [A B]. split; [exact A|]. intros c. rewrite H. apply B. Qed.

Lemma receive_sim (P : N -> Prop) c ds ds' g s t w : P c -> List.concat ds = List.concat ds' -> sim P g s t -> Forall bytes ds -> Forall bytes ds' ->
  (exactly pol (g c) -> exactly pol (g c ++ List.concat ds)) ->
  exists s1 t1 w1 o1, run s w (map (EReceive c) ds) = Ret (s1, w1, o1) /\ run t w (map (EReceive c) ds') = Ret (t1, w1, o1) /\ sim P (put g c (g c ++ List.concat ds)) s1 t1.
Proof.
  intros HP Hc [Ht Hs] Hd Hd' Hx. assert (Hsc := Hs c HP).
  destruct (sv_conns s c) as [p|] eqn:Ep; destruct (sv_conns t c) as [q|] eqn:Eq; try contradiction.
  2:{ exists s, t, w, []. rewrite !gone_run by assumption. split; [reflexivity|]. split; [reflexivity|]. split; [exact Ht|]. intros x Px. unfold put.
      destruct (N.eqb_spec x c) as [->|]; [rewrite Ep, Eq; exact Logic.I|apply Hs; exact Px]. }
  destruct Hsc as [Hp Hq]. assert (Hg : bytes (g c)) by exact (proj1 Hp). assert (Hx1 := Hx (proj1 (proj2 Hp))). assert (Hcc := concat_bytes _ Hd).
  destruct (framed_total (g c) Hg) as (I & T & F). destruct (framed_total (g c ++ List.concat ds)) as (I' & T' & F'); [apply bytes_app; auto|].
  destruct (framed_more _ _ _ _ _ _ Hg Hcc F F') as (n & ->).
  destruct (chunks_run c ds p (g c) I T n T' Hp Hd Hx1 F F') as (p' & Hp' & Rp).
  rewrite Hc in F', Hx1. destruct (chunks_run c ds' q (g c) I T n T' Hq Hd' Hx1 F F') as (q' & Hq' & Rq).
  destruct (messages_defined c (map truncated_message (filter worth n)) s w) as (s1 & w1 & o1 & E1).
  destruct (Rp s w s1 w1 o1 Ep E1) as (f & Ef & Hf).
  destruct (messages_conns (sv_conns t) _ _ _ _ _ _ _ E1) as [E2 _]. rewrite <- Ht in E2.
  destruct (Rq t w _ w1 o1 Eq E2) as (f' & Ef' & Hf').
  do 4 eexists. split; [exact Ef|]. split; [exact Ef'|]. split; [reflexivity|]. intros x Px. cbn [with_conns sv_conns]. rewrite Hf, Hf'. unfold put.
  destruct (x =? c); [rewrite Hc in *; auto|apply Hs; exact Px].
Qed.

Lemma stop_eq (x : N) (w v w' : W) (calls : list api) : w = v -> on_shutdown x w = (w', calls) -> exists v', on_shutdown x v = (v', calls) /\ w' = v'.
Proof. intros <- E. eauto. Qed.

Lemma accept_sim P c buf buf' g s t w : good_buf buf -> good_buf buf' -> sim P g s t ->
  exists s1 t1, step s w (EAccept c buf) = Ret (s1, w, []) /\ step t w (EAccept c buf') = Ret (t1, w, []) /\ sim P (put g c []) s1 t1.
Proof.
  intros B1 B2 [Ht Hs]. cbn [server_step]. do 2 eexists. split; [reflexivity|]. split; [reflexivity|]. split.
  - rewrite Ht. reflexivity.
  - intros x Px. cbn [set_conn sv_conns]. unfold put. destruct (x =? c); [split; apply inv_new; assumption|apply Hs; exact Px].
Qed.

Definition within (P : N -> Prop) (e : event) : Prop :=
  match e with EAccept c _ | EReceive c _ | EConnError c => P c | EApi _ | ERun => True end.

Lemma step_sim P e g s t w : sim P g s t -> within P e -> typed_event e -> pol = Truncate \/ all_short_from g [e] ->
  exists s1 t1 w1 o1, step s w e = Ret (s1, w1, o1) /\ step t w e = Ret (t1, w1, o1) /\ sim P (fun x => arrived x (g x) [e]) s1 t1.
Proof.
  intros Hs HP Te Hx. destruct e as [a| |c buf|c d|c]; cbn [within] in HP.
  - destruct Hs as [Ht Hs]. exists (api_call s a), (api_call t a), w, []. split; [reflexivity|]. split; [reflexivity|].
    assert (Q : forall s, sv_conns (api_call s a) = sv_conns s) by (intros u; destruct (api_call_sbq u a) as (_ & _ & _ & Q & _); exact Q).
    split; [rewrite Ht at 1; rewrite api_call_with, Q; reflexivity|]. intros c. rewrite !Q. apply Hs.
  - destruct Hs as [Ht Hs]. cbn [server_step]. assert (Eq : sv_queue t = sv_queue s) by (rewrite Ht; reflexivity). rewrite Eq.
    destruct (sv_queue s) as [|k q]; [exists s, t, w, []; repeat split; auto|].
    destruct (run_task on_shutdown (set_queue s q) w k) as [[s1 w1] o1] eqn:E1.
    destruct (run_task_with on_shutdown eq stop_eq _ (sv_conns t) _ w _ _ _ _ eq_refl E1) as (v1 & E2 & <- & K).
    replace (set_queue t q) with (with_conns (set_queue s q) (sv_conns t)) by (rewrite Ht; reflexivity).
    exists s1, (with_conns s1 (sv_conns t)), w1, o1. rewrite E2. split; [reflexivity|]. split; [reflexivity|].
    split; [reflexivity|]. intros c. rewrite K. apply Hs.
  - destruct (accept_sim P c buf buf g s t w Te Te Hs) as (s1 & t1 & E1 & E2 & Hs1). exists s1, t1, w, []. auto.
  - change [EReceive c d] with (map (EReceive c) [d] ++ []) in Hx. assert (Td : Forall bytes [d]) by (constructor; [exact Te|constructor]).
    destruct (receive_sim P c [d] [d] g s t w HP eq_refl Hs Td Td (exactly_all _ _ _ _ Hx)) as (s1 & t1 & w1 & o1 & E1 & E2 & Hs1).
    cbn [map server_run] in E1, E2.
    destruct (step s w (EReceive c d)) as [[[s2 w2] o2]|] eqn:E3; [|discriminate E1]. cbn [obind] in E1. rewrite app_nil_r in E1. injection E1 as <- <- <-.
    destruct (step t w (EReceive c d)) as [[[t2 w3] o3]|] eqn:E4; [|discriminate E2]. cbn [obind] in E2. rewrite app_nil_r in E2. injection E2 as <- <- <-.
    exists s2, t2, w3, o3. split; [reflexivity|]. split; [reflexivity|]. refine (sim_ext _ _ _ _ _ _ Hs1).
    intros x. cbn [arrived List.concat]. unfold put. rewrite app_nil_r. destruct (N.eqb_spec x c) as [->|]; reflexivity.
  - destruct Hs as [Ht Hs]. cbn [server_step arrived]. assert (Hsc := Hs c HP).
    destruct (sv_conns s c) as [p|] eqn:Ep; destruct (sv_conns t c) as [q|] eqn:Eq; try contradiction.
    + do 4 eexists. split; [reflexivity|]. split; [reflexivity|]. split; [rewrite Ht; reflexivity|].
      intros x Px. cbn [set_conn sv_conns]. destruct (x =? c); [|apply Hs; exact Px]. destruct Hsc as [A B]. split; eapply inv_reset; eassumption.
    + exists s, t, w, []. split; [reflexivity|]. split; [reflexivity|]. split; [exact Ht|].
      intros x Px. destruct (N.eqb_spec x c) as [->|]; [rewrite Ep, Eq; exact Logic.I|apply Hs; exact Px].
Qed.

Definition everywhere (c : N) : Prop := True.

Lemma rechunked_sim es es' : rechunked es es' -> forall g s t w, sim everywhere g s t -> Forall typed_event es -> Forall typed_event es' ->
  pol = Truncate \/ all_short_from g es ->
  exists s1 t1 w1 o1, run s w es = Ret (s1, w1, o1) /\ run t w es' = Ret (t1, w1, o1) /\ sim everywhere (fun x => arrived x (g x) es) s1 t1.
Proof.
  assert (Hmap : forall c ds es, Forall typed_event (map (EReceive c) ds ++ es) -> Forall bytes ds /\ Forall typed_event es).
  { intros c ds es0 H. apply Forall_app in H. destruct H as [H1 H2]. split; [|exact H2]. clear - H1. induction ds as [|d ds IH]; constructor; cbn [map] in H1; apply Forall_cons_iff in H1; tauto. }
  induction 1 as [|c ds ds' es es' Hc H IH|c buf buf' es es' H IH|e es es' H IH]; intros g s t w Hs T1 T2 Hx.
  - exists s, t, w, []. auto.
  - apply Hmap in T1, T2. destruct T1 as [T1 T3], T2 as [T2 T4].
    destruct (receive_sim everywhere c ds ds' g s t w Logic.I Hc Hs T1 T2 (exactly_all _ _ _ _ Hx)) as (s1 & t1 & w1 & o1 & E1 & E2 & Hs1).
    assert (G : forall x, arrived x (g x) (map (EReceive c) ds) = put g c (g c ++ List.concat ds) x).
    { intros x. rewrite arrived_chunks. unfold put. destruct (N.eqb_spec x c) as [->|]; reflexivity. }
    apply (sim_ext _ _ _ _ _ G) in Hs1.
    destruct (IH _ s1 t1 w1 Hs1 T3 T4) as (s2 & t2 & w2 & o2 & E3 & E4 & Hs2); [destruct Hx as [Hx|Hx]; [auto|right; exact (short_split _ _ _ Hx)]|].
    exists s2, t2, w2, (o1 ++ o2). rewrite (runs_app _ _ _ _ _ _ _ E1), (runs_app _ _ _ _ _ _ _ E2), E3, E4. split; [reflexivity|]. split; [reflexivity|].
    refine (sim_ext _ _ _ _ _ _ Hs2). intros x. apply arrived_app.
  - apply Forall_cons_iff in T1, T2. destruct T1 as [T1 T3], T2 as [T2 T4].
    destruct (accept_sim everywhere c buf buf' g s t w T1 T2 Hs) as (s1 & t1 & E1 & E2 & Hs1).
    destruct (IH _ s1 t1 w Hs1 T3 T4 Hx) as (s2 & t2 & w2 & o2 & E3 & E4 & Hs2).
    exists s2, t2, w2, o2. cbn [server_run]. rewrite E1, E2. cbn [obind]. rewrite E3, E4. auto.
  - apply Forall_cons_iff in T1, T2. destruct T1 as [T1 T3], T2 as [T2 T4].
    destruct (step_sim everywhere e g s t w Hs) as (s1 & t1 & w1 & o1 & E1 & E2 & Hs1); [destruct e; exact Logic.I|exact T1| |].
    { destruct Hx as [Hx|Hx]; [auto|right]. destruct e; cbn [all_short_from] in *; tauto. }
    destruct (IH _ s1 t1 w1 Hs1 T3 T4) as (s2 & t2 & w2 & o2 & E3 & E4 & Hs2).
    { destruct Hx as [Hx|Hx]; [auto|right]. exact (short_split [e] _ _ Hx). }
    exists s2, t2, w2, (o1 ++ o2). cbn [server_run]. rewrite E1, E2. cbn [obind]. rewrite E3, E4. split; [reflexivity|]. split; [reflexivity|].
    refine (sim_ext _ _ _ _ _ _ Hs2). intros x. exact (arrived_app x [e] (g x) es).
Qed.

Lemma sim_but g s t : sim everywhere g s t -> but_parsers s t.
Proof.
  intros [Ht Hs]. rewrite Ht. repeat split; cbn [with_conns sv_conns] in *.
  all: specialize (Hs c Logic.I); destruct (sv_conns s c), (sv_conns t c); intros; congruence || contradiction.
Qed.

Lemma sim_init g : sim everywhere g server_init server_init.
Proof. split; [reflexivity|]. intros c _. exact Logic.I. Qed.

Theorem pieces_unnoticed w es es' : rechunked es es' -> Forall typed_event es -> Forall typed_event es' ->
  pol = Truncate \/ all_short es ->
  exists s t w1 o, run server_init w es = Ret (s, w1, o) /\ run server_init w es' = Ret (t, w1, o) /\ but_parsers s t.
Proof.
  intros H T1 T2 Hx.
  destruct (rechunked_sim es es' H (fun _ => []) server_init server_init w (sim_init _) T1 T2) as (s & t & w1 & o & E1 & E2 & Hs).
  { destruct Hx as [Hx|Hx]; [auto|right]. apply short_from. exact Hx. }
  exists s, t, w1, o. split; [exact E1|]. split; [exact E2|]. exact (sim_but _ _ _ Hs).
Qed.

(** ** Pieces that complete nothing *)
Lemma rechunked_refl es : rechunked es es.
Proof. induction es; constructor; assumption. Qed.

Lemma step_elsewhere c e s w s1 w1 o1 : elsewhere c e -> step s w e = Ret (s1, w1, o1) -> sv_conns s1 c = sv_conns s c.
Proof.
  intros He. destruct e as [a| |c' buf|c' d|c']; cbn [server_step elsewhere] in *.
  - intros [= <- <- <-]. destruct (api_call_sbq s a) as (_ & _ & _ & Q & _). rewrite Q. reflexivity.
  - destruct (sv_queue s) as [|k q]; [intros [= <- <- <-]; reflexivity|]. destruct (run_task on_shutdown (set_queue s q) w k) as [[s2 w2] o2] eqn:E1.
    intros [= <- <- <-]. destruct (run_task_with on_shutdown eq stop_eq _ (sv_conns s) _ w _ _ _ _ eq_refl E1) as (v1 & _ & _ & K). rewrite K. reflexivity.
  - intros [= <- <- <-]. cbn [set_conn sv_conns]. apply not_eq_sym, N.eqb_neq in He. rewrite He. reflexivity.
  - destruct (sv_conns s c'); [|intros [= <- <- <-]; reflexivity]. destruct (mbap_parse pol p d) as [[p' ms]|]; cbn [obind]; [|discriminate]. intros E.
    destruct (messages_conns (sv_conns s) _ _ _ _ _ _ _ E) as [_ K]. rewrite K. cbn [set_conn sv_conns]. apply not_eq_sym, N.eqb_neq in He. rewrite He. reflexivity.
  - destruct (sv_conns s c'); intros [= <- <- <-]; [|reflexivity]. cbn [set_conn sv_conns]. apply not_eq_sym, N.eqb_neq in He. rewrite He. reflexivity.
Qed.

Lemma silent_chunk c d g p : inv pol p g -> bytes d -> exactly pol (g ++ d) -> completes_nothing g d ->
  exists p', inv pol p' (g ++ d) /\ forall s w, sv_conns s c = Some p ->
    exists f, step s w (EReceive c d) = Ret (with_conns s f, w, []) /\ forall x, f x = if x =? c then Some p' else sv_conns s x.
Proof.
  intros Hp Hd Hx Hn. destruct (framed_total g (proj1 Hp)) as (I & T & F). destruct (Hn I T F) as (T' & F').
  destruct (parse_chunk pol p g d I T [] T' Hp Hd Hx F) as (p' & ms & E & Hp' & Hm); [rewrite app_nil_r; exact F'|].
  exists p'. split; [exact Hp'|]. intros s w Ec. cbn [server_step]. rewrite Ec, E. cbn [obind]. rewrite messages_heard, Hm. cbn [filter map on_messages].
  exists (fun x => if x =? c then Some p' else sv_conns s x). split; reflexivity.
Qed.

Lemma with_with s f f' : with_conns (with_conns s f) f' = with_conns s f'.
Proof. reflexivity. Qed.

Lemma swap_sim c d e g s t w : sim everywhere g s t -> bytes d -> typed_event e -> elsewhere c e -> completes_nothing (g c) d ->
  pol = Truncate \/ all_short_from g [EReceive c d; e] ->
  exists s1 t1 w1 o1, run s w [EReceive c d; e] = Ret (s1, w1, o1) /\ run t w [e; EReceive c d] = Ret (t1, w1, o1) /\
    sim everywhere (fun x => arrived x (g x) [EReceive c d; e]) s1 t1.
Proof.
  intros [Ht Hs] Hd Te He Hn Hx. assert (Hsc := Hs c Logic.I).
  assert (G : forall x, arrived x (g x) [EReceive c d; e] = put (fun x => arrived x (g x) [e]) c (g c ++ d) x).
  { intros x. change [EReceive c d; e] with ([EReceive c d] ++ [e]). rewrite arrived_app. cbn [arrived]. unfold put. destruct (N.eqb_spec x c) as [->|]; [|reflexivity].
    destruct e as [?| |c' ?|c' ?|c']; cbn [arrived elsewhere] in *; try reflexivity; apply not_eq_sym, N.eqb_neq in He; rewrite He; reflexivity. }
  assert (X : pol = Truncate \/ all_short_from g [e]).
  { destruct Hx as [Hx|Hx]; [auto|right]. cbn [all_short_from] in Hx. destruct Hx as [_ Hx].
    destruct e as [?| |c' ?|c' d'|c']; cbn [all_short_from elsewhere] in *; auto. unfold put in Hx at 1. apply N.eqb_neq in He. rewrite He in Hx. exact Hx. }
  assert (Hw : within (fun x => x <> c) e) by (destruct e; exact He).
  destruct (sv_conns s c) as [p|] eqn:Ep; destruct (sv_conns t c) as [q|] eqn:Eq; try contradiction.
  - destruct Hsc as [Hp Hq].
    assert (Hx1 : exactly pol (g c ++ d)) by (destruct Hx as [Hx|[Hx _]]; [left|right]; exact Hx).
    destruct (silent_chunk c d (g c) p Hp Hd Hx1 Hn) as (p' & Hp' & Rp). destruct (silent_chunk c d (g c) q Hq Hd Hx1 Hn) as (q' & Hq' & Rq).
    destruct (Rp s w Ep) as (f & Ef & Hf). cbn [server_run]. rewrite Ef. cbn [obind].
    assert (S1 : sim (fun x => x <> c) g (with_conns s f) t).
    { split; [rewrite with_with; exact Ht|]. intros x Px. cbn [with_conns sv_conns]. rewrite Hf. apply N.eqb_neq in Px. rewrite Px. exact (Hs x Logic.I). }
    destruct (step_sim _ e g _ _ w S1 Hw Te X) as (s1 & t1 & w1 & o1 & E1 & E2 & [Ht1 S2]). rewrite E1, E2. cbn [obind].
    assert (K1 := step_elsewhere c e _ _ _ _ _ He E1). assert (K2 := step_elsewhere c e _ _ _ _ _ He E2).
    cbn [with_conns sv_conns] in K1. rewrite Hf, N.eqb_refl in K1. rewrite Eq in K2.
    destruct (Rq t1 w1 K2) as (f' & Ef' & Hf'). rewrite Ef'. cbn [obind]. rewrite !app_nil_r.
    do 4 eexists. split; [reflexivity|]. split; [reflexivity|]. apply (sim_ext _ _ _ _ _ G). split; [rewrite Ht1; reflexivity|].
    intros x _. cbn [with_conns sv_conns]. rewrite Hf'. unfold put. destruct (N.eqb_spec x c) as [->|N]; [rewrite K1; auto|exact (S2 x N)].
  - assert (S1 : sim (fun x => x <> c) g s t) by (split; [exact Ht|intros x _; exact (Hs x Logic.I)]).
    destruct (step_sim _ e g _ _ w S1 Hw Te X) as (s1 & t1 & w1 & o1 & E1 & E2 & [Ht1 S2]).
    assert (K1 := step_elsewhere c e _ _ _ _ _ He E1). assert (K2 := step_elsewhere c e _ _ _ _ _ He E2). rewrite Ep in K1. rewrite Eq in K2.
    exists s1, t1, w1, o1. cbn [server_run]. rewrite E2. cbn [obind].
    replace (step s w (EReceive c d)) with (Ret (s, w, @nil output)) by (cbn [server_step]; rewrite Ep; reflexivity). cbn [obind]. rewrite E1. cbn [obind].
    replace (step t1 w1 (EReceive c d)) with (Ret (t1, w1, @nil output)) by (cbn [server_step]; rewrite K2; reflexivity). cbn [obind]. rewrite !app_nil_r.
    split; [reflexivity|]. split; [reflexivity|]. apply (sim_ext _ _ _ _ _ G). split; [exact Ht1|].
    intros x _. unfold put. destruct (N.eqb_spec x c) as [->|N]; [rewrite K1, K2; exact Logic.I|exact (S2 x N)].
Qed.

Theorem postponed_unnoticed w a c d e b : Forall typed_event (a ++ EReceive c d :: e :: b) -> elsewhere c e -> completes_nothing (arrived c [] a) d ->
  pol = Truncate \/ all_short (a ++ EReceive c d :: e :: b) ->
  exists s t w1 o, run server_init w (a ++ EReceive c d :: e :: b) = Ret (s, w1, o) /\ run server_init w (a ++ e :: EReceive c d :: b) = Ret (t, w1, o) /\ but_parsers s t.
Proof.
  intros Ty He Hn Hx. apply Forall_app in Ty. destruct Ty as [Ta Tb]. apply Forall_cons_iff in Tb. destruct Tb as [Td Tb]. apply Forall_cons_iff in Tb. destruct Tb as [Te Tb].
  assert (X : pol = Truncate \/ all_short_from (fun _ => []) (a ++ [EReceive c d; e] ++ b)) by (destruct Hx as [Hx|Hx]; [auto|right; apply short_from; exact Hx]).
  assert (Xa : pol = Truncate \/ all_short_from (fun _ => []) a).
  { destruct Hx as [Hx|Hx]; [auto|right]. apply short_from. intros x es1 es2 ->. apply (Hx x es1 (es2 ++ EReceive c d :: e :: b)). rewrite <- app_assoc. reflexivity. }
  destruct (rechunked_sim a a (rechunked_refl a) _ server_init server_init w (sim_init (fun _ => [])) Ta Ta Xa) as (s1 & t1 & w1 & o1 & E1 & E2 & S1).
  assert (X1 : pol = Truncate \/ all_short_from (fun x => arrived x [] a) ([EReceive c d; e] ++ b)) by (destruct X as [X|X]; [auto|right; exact (short_split _ _ _ X)]).
  destruct (swap_sim c d e _ s1 t1 w1 S1 Td Te He Hn) as (s2 & t2 & w2 & o2 & E3 & E4 & S2).
  { destruct X1 as [X1|X1]; [auto|right]. cbn [app all_short_from] in X1 |- *. destruct X1 as [A B]. split; [exact A|]. destruct e; cbn [all_short_from] in *; tauto. }
  destruct (rechunked_sim b b (rechunked_refl b) _ s2 t2 w2 S2 Tb Tb) as (s3 & t3 & w3 & o3 & E5 & E6 & S3).
  { destruct X1 as [X1|X1]; [auto|right; exact (short_split _ _ _ X1)]. }
  change (a ++ EReceive c d :: e :: b) with (a ++ [EReceive c d; e] ++ b). change (a ++ e :: EReceive c d :: b) with (a ++ [e; EReceive c d] ++ b).
  rewrite (runs_app a _ _ _ _ _ _ E1), (runs_app a _ _ _ _ _ _ E2), (runs_app _ b _ _ _ _ _ E3), (runs_app _ b _ _ _ _ _ E4), E5, E6. cbn [obind].
  exists s3, t3, w3, (o1 ++ o2 ++ o3). split; [reflexivity|]. split; [reflexivity|]. exact (sim_but _ _ _ S3).
Qed.
End Server.
