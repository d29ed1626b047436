(** Proofs about the server channel. *)
From Verif Require Import Prelude Ser4 Messages Mbap Tac SpecPdu SpecMbap BitFacts BuildFacts ParseReqFacts CodecLemmas MbapFacts MbapLemmas Server SpecServer FrameFacts.

(** ** The decision table *)
Lemma pdu_head r bs : request_pdu_any_padding r bs -> exists rest, bs = spec_function_code r :: rest.
Proof. destruct r; cbn; try (intros ->; eexists; reflexivity). intros (d & _ & ->). eexists; reflexivity. Qed.

Lemma illegal_head fc bs : illegal_value_pdu fc bs -> supported fc /\ exists rest, bs = fc :: rest.
Proof.
  unfold illegal_value_pdu, supported. cbn [In].
  intros [(H & s & q & _ & _ & _ & ->)|[(H & s & q & _ & _ & _ & ->)|[(-> & a & v & _ & _ & _ & _ & ->)
    |[(-> & s & q & c & d & _ & _ & _ & _ & ->)|(-> & s & q & c & d & _ & _ & _ & _ & ->)]]]];
    (split; [tauto|eexists; reflexivity]).
Qed.

Lemma supported_code r : supported (spec_function_code r).
Proof. destruct r; unfold supported; cbn; tauto. Qed.

Lemma illegal_not_legal fc pdu r :
  bytes pdu -> illegal_value_pdu fc pdu -> legal_request r -> ~ request_pdu_any_padding r pdu.
Proof.
  intros Hb Hi Hl Hp. destruct (illegal_head _ _ Hi) as (Hs & rest & E).
  destruct (pdu_head _ _ Hp) as (rest' & E'). rewrite E' in E. injection E as Ef _.
  apply request_parser_supported in Hs. destruct Hs as (p & Hs).
  destruct (request_classification fc p pdu Hs Hb) as (Hv & Hill & _).
  apply Hill in Hi. assert (Hr : p pdu = Ret (Value r)) by (apply Hv; auto).
  rewrite Hr in Hi. discriminate.
Qed.

Ltac heads := repeat match goal with
  | H : illegal_value_pdu ?f ?p |- _ =>
      lazymatch goal with
      | K : supported f, K' : p = f :: _ |- _ => fail
      | _ => destruct (illegal_head f p H) as (? & ? & ?)
      end
  | H : request_pdu_any_padding ?r ?p |- _ =>
      lazymatch goal with
      | K : p = spec_function_code r :: _ |- _ => fail
      | _ => pose proof (supported_code r); destruct (pdu_head _ _ H) as (? & ?)
      end
  end.

Lemma decision_fun registry unit pdu a b :
  bytes pdu -> decision registry unit pdu a -> decision registry unit pdu b -> a = b.
Proof.
  intros Hb Ha Hc.
  destruct Ha as [Ha|Ha|x fc rest Ha1 Ha2 Ha3|x fc Ha1 Ha2 Ha3|x fc rest Ha1 Ha2 Ha3 Ha4 Ha5|x r Ha1 Ha2 Ha3];
  destruct Hc as [Hc|Hc|x' fc' rest' Hc1 Hc2 Hc3|x' fc' Hc1 Hc2 Hc3|x' fc' rest' Hc1 Hc2 Hc3 Hc4 Hc5|x' r' Hc1 Hc2 Hc3];
  try reflexivity; try congruence.
  all: heads.
  all: try congruence.
  all: repeat match goal with H : ?p = ?a :: _, H' : ?p = ?b :: _ |- _ =>
         assert (a = b) by congruence; rewrite H in H'; injection H' as ? ?; clear H end.
  all: subst; try contradiction.
  all: try (exfalso; match goal with H : forall r, _ -> ~ _, H' : request_pdu_any_padding ?r _ |- _ =>
         apply (H r); assumption end).
  - destruct (illegal_not_legal _ _ _ Hb Ha3 Hc2 Hc3).
  - destruct (illegal_not_legal _ _ _ Hb Hc3 Ha2 Ha3).
  - rewrite (request_pdu_injective r r' pdu) by assumption. congruence.
Qed.

Lemma decision_total registry unit pdu : bytes pdu -> exists a, decision registry unit pdu a.
Proof.
  intros Hb. destruct (registry unit) as [x|] eqn:Er; [|eauto using decision].
  destruct pdu as [|fc rest]; [eauto using decision|].
  destruct (request_parser fc) as [p|] eqn:Ep.
  - assert (Hs : supported fc) by (apply request_parser_supported; eauto).
    destruct (parse_outcomes fc _ p Ep Hb) as [(r & H1 & H2 & H3 & H4)|[[H4 _]|H4]].
    + eauto using decision.
    + eauto using decision.
    + apply (parse_malformed_iff fc p _ Ep Hb) in H4. destruct H4 as [H4 H5].
      exists Silent. apply (malformed _ _ _ x fc rest); auto.
      intros r Hl Hp. destruct (pdu_head _ _ Hp) as (rest' & E). injection E as E _. symmetry in E.
      exact (H5 r Hl E Hp).
  - exists (Refuse IllegalFunction). apply (unsupported_function _ _ _ x fc rest); auto.
    intros Hs. apply request_parser_supported in Hs. destruct Hs. congruence.
Qed.

(** ** API calls only append to the queue *)
Lemma sbq_refl s : same_but_queue s s.
Proof. repeat split. exists []. symmetry. apply app_nil_r. Qed.

Lemma sbq_trans a b c : same_but_queue a b -> same_but_queue b c -> same_but_queue a c.
Proof.
  intros (A1 & A2 & A3 & A4 & q & A5) (B1 & B2 & B3 & B4 & q' & B5).
  repeat split; try congruence. exists (q ++ q'). rewrite B5, A5, app_assoc. reflexivity.
Qed.

Lemma api_call_sbq s a : same_but_queue s (api_call s a).
Proof.
  destruct a; cbn [api_call]; try (destruct (sv_shutdown s); [apply sbq_refl|]);
    (split; [reflexivity|split; [reflexivity|split; [reflexivity|split; [reflexivity|]]]]);
    eexists; reflexivity.
Qed.

Lemma api_calls_sbq l : forall s, same_but_queue s (api_calls s l).
Proof.
  induction l as [|a l IH]; intros s; [apply sbq_refl|]. unfold api_calls in *. cbn [fold_left].
  exact (sbq_trans _ _ _ (api_call_sbq s a) (IH _)).
Qed.

Section Facts.
Context {W : Type}.
Context (on_request : N -> W -> request -> W * expected response * list api).
Context (on_shutdown : N -> W -> W * list api).
Context (Hwt : well_typed on_request).

Lemma on_mbap_spec s w c m :
  typed_message m ->
  exists s' w' os, on_mbap on_request s w c m = Ret (s', w', os) /\
    same_but_queue s s' /\ served on_request s c m w w' os.
Proof.
  intros (Hu & Ht & Hb). unfold on_mbap.
  destruct (sv_shutdown s) eqn:Ed.
  { exists s, w, []. split; [reflexivity|]. split; [apply sbq_refl|]. split; [auto|congruence]. }
  assert (Hsv : forall w' os, serves on_request (registry s) c m w w' os -> served on_request s c m w w' os).
  { intros w' os H. split; [congruence|auto]. }
  unfold registry in Hsv.
  destruct (find_session (sv_sessions s) (mb_unit m)) as [x|] eqn:Ex.
  2:{ exists s, w, []. split; [reflexivity|]. split; [apply sbq_refl|]. apply Hsv.
      apply serve_silent, unknown_unit. exact Ex. }
  destruct (mb_data m) as [|fc rest] eqn:Em.
  { exists s, w, []. split; [reflexivity|]. split; [apply sbq_refl|]. apply Hsv.
    apply serve_silent, empty_pdu. exact Em. }
  replace (size (fc :: rest) <? 1) with false by (rewrite size_cons; lia).
  cbn [rd8 read_u8]. assert (Hfc : u8 fc) by (inversion Hb; assumption).
  unfold send_message.
  destruct (request_parser fc) as [p|] eqn:Ep.
  - assert (Hs : supported fc) by (apply request_parser_supported; eauto).
    unfold process_message. rewrite Em.
    destruct (parse_outcomes fc _ p Ep Hb) as [(r & H1 & H2 & H3 & H4)|[[H4 H5]|H4]].
    + rewrite H4. cbn [obind].
      destruct (on_request x w r) as [[w' a] calls] eqn:Ea.
      assert (Hdec : decision (find_session (sv_sessions s)) (mb_unit m) (mb_data m) (Ask x r)).
      { apply answerable; rewrite ?Em; assumption. }
      assert (Hk : forall os, reply c (mb_tx m) (mb_unit m) fc a os ->
        exists s' w'' os', Ret (api_calls s calls, w', OConsult x r :: os) = Ret (s', w'', os') /\
          same_but_queue s s' /\ served on_request s c m w w'' os').
      { intros os Ho. do 3 eexists. split; [reflexivity|]. split; [apply api_calls_sbq|].
        apply Hsv. apply serve_ask with (answer := a) (calls := calls); [exact Hdec|exact Ea|].
        rewrite H2. exact Ho. }
      destruct a as [resp|e].
      * apply Hk. cbn [reply]. eexists. split; [|reflexivity].
        apply response_view_build; [exact Ht|exact Hu|]. apply (Hwt _ _ _ _ _ _ Ea).
      * unfold send_message. destruct e; try (apply Hk; reflexivity).
        apply Hk. cbn [reply]. rewrite exception_view_build by assumption. reflexivity.
    + rewrite H5. cbn [obind]. unfold send_message. do 3 eexists. split; [reflexivity|]. split; [apply sbq_refl|].
      apply Hsv. rewrite exception_view_build by assumption.
      apply serve_refuse with (rest := rest); [|exact Em].
      apply (illegal_value _ _ _ x fc); rewrite ?Em; assumption.
    + rewrite H4. cbn [obind]. exists s, w, []. split; [reflexivity|]. split; [apply sbq_refl|].
      apply Hsv. apply serve_silent. rewrite Em.
      apply (parse_malformed_iff fc p _ Ep Hb) in H4. destruct H4 as [H4 H5].
      apply (malformed _ _ _ x fc rest); auto.
      intros r Hl Hp. destruct (pdu_head _ _ Hp) as (rest' & E). injection E as E _. symmetry in E.
      exact (H5 r Hl E Hp).
  - do 3 eexists. split; [reflexivity|]. split; [apply sbq_refl|].
    apply Hsv. rewrite exception_view_build by assumption.
    apply serve_refuse with (rest := rest); [|exact Em].
    apply (unsupported_function _ _ _ x fc rest); rewrite ?Em; auto.
    intros Hs. apply request_parser_supported in Hs. destruct Hs. congruence.
Qed.

Lemma served_sbq s s' c m w w' os : same_but_queue s s' -> served on_request s' c m w w' os -> served on_request s c m w w' os.
Proof. intros (A & _ & B & _) [H1 H2]. unfold served, registry in *. rewrite A, B in *. auto. Qed.

Lemma served_by_frame s c m w w' os : served on_request s c m w w' os -> filter by_frame os = os.
Proof.
  intros [H1 H2]. destruct (sv_shutdown s); [destruct H1 as [_ ->]; auto|].
  destruct (H2 eq_refl) as [| |x r w1 a calls os Hd Ha Hr]; try reflexivity.
  destruct a as [resp|[]]; cbn [reply] in Hr; try (destruct Hr as (v & _ & ->)); subst; reflexivity.
Qed.

Lemma on_messages_spec c ms : forall s w, Forall typed_message ms ->
  exists s' w' os blocks, on_messages on_request s w c ms = Ret (s', w', os) /\
    same_but_queue s s' /\ map fst blocks = ms /\ os = List.concat (map snd blocks) /\
    Forall (fun b => exists w1 w2, served on_request s c (fst b) w1 w2 (snd b)) blocks /\
    (sv_shutdown s = true -> w' = w /\ os = []) /\
    (sv_shutdown s = false -> serves_all on_request (registry s) c ms w w' os).
Proof.
  induction ms as [|m ms IH]; intros s w Hm; cbn [on_messages].
  { exists s, w, [], []. split; [reflexivity|]. split; [apply sbq_refl|].
    repeat split; auto. intros _. constructor. }
  apply Forall_cons_iff in Hm. destruct Hm as [Hm Hms].
  destruct (on_mbap_spec s w c m Hm) as (s1 & w1 & o1 & -> & Q1 & S1). cbn [obind].
  destruct (IH s1 w1 Hms) as (s2 & w2 & o2 & bl & -> & Q2 & F2 & C2 & S2 & D2 & U2). cbn [obind].
  exists s2, w2, (o1 ++ o2), ((m, o1) :: bl). split; [reflexivity|].
  split; [exact (sbq_trans _ _ _ Q1 Q2)|]. cbn [map fst snd List.concat].
  split; [rewrite F2; reflexivity|]. split; [rewrite C2; reflexivity|].
  split; [|split].
  - constructor; [cbn; eauto|]. eapply Forall_impl; [|exact S2]. intros b (x & y & Hb).
    exists x, y. exact (served_sbq _ _ _ _ _ _ _ Q1 Hb).
  - intros Hd. destruct S1 as [S1 _]. destruct (S1 Hd) as [-> ->].
    destruct Q1 as (Q1 & _). rewrite Hd in Q1. destruct (D2 Q1) as [-> ->]. auto.
  - intros Hd. destruct Q1 as (Q1 & _ & Q1' & _). rewrite Hd in Q1. specialize (U2 Q1).
    unfold registry in *. rewrite Q1' in U2.
    econstructor; [exact (proj2 S1 Hd)|exact U2].
Qed.

(** ** Runs *)
Definition conns_ok (pol : copy_policy) (s : server) : Prop :=
  forall c p, sv_conns s c = Some p -> exists t, R pol p t.

Lemma matches_typed pol items ms :
  Forall typed_item items -> Forall2 (matches pol) (filter deliverable items) ms -> Forall typed_message ms.
Proof.
  intros Hi H.
  assert (Hf : Forall typed_item (filter deliverable items)).
  { apply Forall_forall. intros i Hin. apply filter_In in Hin. rewrite Forall_forall in Hi. apply Hi, Hin. }
  clear Hi. induction H as [|i m is ms Hm _ IH]; constructor.
  - apply Forall_cons_iff in Hf. destruct Hf as [(T1 & _ & T3 & _) _].
    destruct Hm as (A & B & _ & _ & _ & C). unfold typed_message. rewrite A, B. auto.
  - apply IH. apply Forall_cons_iff in Hf. tauto.
Qed.

Lemma shutdown_sessions_spec l : forall s w,
  exists s' w', shutdown_sessions on_shutdown s w l = (s', w', map (fun x => OSessionShutdown (snd x)) l) /\
    same_but_queue s s'.
Proof.
  induction l as [|[u x] l IH]; intros s w; cbn [shutdown_sessions map snd].
  { exists s, w. split; [reflexivity|apply sbq_refl]. }
  destruct (on_shutdown x w) as [w1 calls].
  destruct (IH (api_calls s calls) w1) as (s2 & w2 & -> & Q).
  exists s2, w2. split; [reflexivity|]. exact (sbq_trans _ _ _ (api_calls_sbq _ _) Q).
Qed.

Lemma run_task_conns s w t : let '(s', _, _) := run_task on_shutdown s w t in sv_conns s' = sv_conns s.
Proof.
  destruct t; cbn [run_task]; try (destruct (sv_shutdown s); reflexivity).
  match goal with |- context[shutdown_sessions on_shutdown ?a ?b ?l] =>
    destruct (shutdown_sessions_spec l a b) as (s' & w' & -> & (_ & _ & _ & Q & _)) end.
  exact Q.
Qed.

Lemma run_task_outputs s w t : filter by_frame (snd (run_task on_shutdown s w t)) = [].
Proof.
  destruct t; cbn [run_task]; try (destruct (sv_shutdown s); reflexivity).
  match goal with |- context[shutdown_sessions on_shutdown ?a ?b ?l] =>
    destruct (shutdown_sessions_spec l a b) as (s' & w' & -> & _) end.
  cbn [snd]. rewrite filter_app.
  assert (H : forall l : list (N * N), filter by_frame (map (fun x => OSessionShutdown (snd x)) l) = []).
  { induction l; [reflexivity|exact IHl]. }
  rewrite H, app_nil_r. destruct (sv_started s); reflexivity.
Qed.

Definition svc (k : nat) (c : N) (b : mbap_message * list output) : service :=
  {| at_event := k; at_conn := c; frame_in := fst b; caused := snd b |}.

Definition later (v : service) : service :=
  {| at_event := S (at_event v); at_conn := at_conn v; frame_in := frame_in v; caused := caused v |}.

Lemma step_spec pol s w e :
  conns_ok pol s -> typed_event e ->
  exists s' w' os vs, server_step on_request on_shutdown pol s w e = Ret (s', w', os) /\
    conns_ok pol s' /\
    filter by_frame os = List.concat (map caused vs) /\
    Forall (fun v => at_event v = 0%nat) vs /\
    Forall (in_history on_request on_shutdown pol s w [e]) vs /\
    (forall c p, sv_conns s c = Some p -> accepts c e = false ->
       exists p', mbap_run pol p (ops_on c [e]) = Ret (p', map frame_in (filter (on_conn c) vs)) /\
         sv_conns s' c = Some p').
Proof.
  intros Hc He. destruct e as [a| |c buf|c d|c]; cbn [server_step].
  - exists (api_call s a), w, [], []. split; [reflexivity|].
    assert (Q := api_call_sbq s a). destruct Q as (_ & _ & _ & Q & _).
    split; [unfold conns_ok; rewrite Q; exact Hc|]. repeat split; auto.
    intros c p Hp _. exists p. cbn. rewrite Q. auto.
  - destruct (sv_queue s) as [|t q].
    { exists s, w, [], []. repeat split; auto. intros c p Hp _. exists p. cbn. auto. }
    pose proof (run_task_conns (set_queue s q) w t) as Q.
    pose proof (run_task_outputs (set_queue s q) w t) as O.
    destruct (run_task on_shutdown (set_queue s q) w t) as [[s' w'] os].
    cbn [set_queue sv_conns snd] in Q, O.
    exists s', w', os, []. split; [reflexivity|]. split; [unfold conns_ok; rewrite Q; exact Hc|].
    repeat split; auto. intros c p Hp _. exists p. cbn. rewrite Q. auto.
  - exists (set_conn s c (Some (mbap_new buf))), w, [], []. split; [reflexivity|]. split.
    + intros c' p. cbn [set_conn sv_conns]. destruct (c' =? c); [|apply Hc].
      intros E. injection E as <-. exists []. apply R_new. exact He.
    + repeat split; auto. intros c' p Hp Ha. cbn [accepts] in Ha. rewrite N.eqb_sym in Ha.
      exists p. cbn [set_conn sv_conns]. rewrite Ha. cbn. auto.
  - cbn [typed_event] in He. destruct (sv_conns s c) as [p|] eqn:Ep.
    2:{ exists s, w, [], []. repeat split; auto. intros c' p Hp _. exists p.
        unfold ops_on. cbn [flat_map]. destruct (N.eqb_spec c c'); [congruence|]. cbn. auto. }
    destruct (Hc c p Ep) as (t & HR).
    destruct (parse_spec pol p t d HR He) as (p' & t' & items & ms & E & Hty & _ & HR' & Hm & _).
    rewrite E. cbn [obind].
    assert (Htm := matches_typed _ _ _ Hty Hm).
    destruct (on_messages_spec c ms (set_conn s c (Some p')) w Htm)
      as (s' & w' & os & bl & -> & Q & F & C & S & _ & _).
    exists s', w', os, (map (svc 0 c) bl). split; [reflexivity|].
    destruct Q as (_ & _ & _ & Q & _). cbn [set_conn sv_conns] in Q.
    split; [|split; [|split; [|split]]].
    + intros c' q. rewrite Q. destruct (c' =? c); [|apply Hc]. intros X. injection X as <-. eauto.
    + rewrite C, map_map. cbn [svc caused]. clear - S.
      induction bl as [|b bl IH]; [reflexivity|]. cbn [map List.concat]. rewrite filter_app.
      apply Forall_cons_iff in S. destruct S as [(w1 & w2 & Hb) S].
      rewrite (served_by_frame _ _ _ _ _ _ Hb), IH by exact S. reflexivity.
    + apply Forall_forall. intros v Hv. apply in_map_iff in Hv. destruct Hv as (b & <- & _). reflexivity.
    + apply Forall_forall. intros v Hv. apply in_map_iff in Hv. destruct Hv as (b & <- & Hb).
      cbn [svc at_event]. exists s, w, []. cbn [svc at_event at_conn frame_in caused firstn server_run nth_error].
      split; [reflexivity|]. split; [eauto|]. split.
      * rewrite Forall_forall in Htm. apply Htm. rewrite <- F. apply in_map. exact Hb.
      * rewrite Forall_forall in S. destruct (S b Hb) as (w1 & w2 & H). exists w1, w2. exact H.
    + intros c' q Hq _. unfold ops_on. cbn [flat_map]. rewrite app_nil_r. rewrite Q. cbv beta.
      destruct (N.eqb_spec c c') as [<-|Hne].
      * rewrite Ep in Hq. injection Hq as <-. exists p'. cbn [mbap_run]. rewrite E. cbn [obind].
        rewrite N.eqb_refl. split; [|reflexivity].
        rewrite app_nil_r, <- F. do 2 f_equal. clear.
        induction bl as [|b bl IH]; [reflexivity|]. cbn [map filter svc on_conn at_conn].
        unfold on_conn at 1. cbn [svc at_conn]. rewrite N.eqb_refl. cbn [map frame_in svc]. rewrite IH. reflexivity.
      * exists q. rewrite (proj2 (N.eqb_neq c' c)) by auto. split; [|exact Hq]. cbn [mbap_run]. do 2 f_equal.
        clear - Hne. induction bl as [|b bl IH]; [reflexivity|]. cbn [map filter svc on_conn at_conn].
        unfold on_conn at 1. cbn [svc at_conn]. rewrite (proj2 (N.eqb_neq c c')) by auto. exact IH.
  - destruct (sv_conns s c) as [p|] eqn:Ep.
    2:{ exists s, w, [], []. repeat split; auto. intros c' p Hp _. exists p.
        unfold ops_on. cbn [flat_map]. destruct (N.eqb_spec c c'); [congruence|]. cbn. auto. }
    exists (set_conn s c (Some (mbap_reset p))), w, [], []. split; [reflexivity|]. split.
    + intros c' q. cbn [set_conn sv_conns]. destruct (c' =? c); [|apply Hc].
      intros X. injection X as <-. exists []. apply R_reset. destruct (Hc c p Ep) as (t & HR & _). exact HR.
    + repeat split; auto. intros c' q Hq _. unfold ops_on. cbn [flat_map set_conn sv_conns].
      destruct (N.eqb_spec c c') as [<-|Hne].
      * rewrite N.eqb_refl. exists (mbap_reset p). rewrite Ep in Hq. injection Hq as <-. cbn. auto.
      * exists q. rewrite (proj2 (N.eqb_neq c' c)) by auto. cbn. auto.
Qed.

Notation run := (server_run on_request on_shutdown).

Lemma in_history_cons pol s w e es s1 w1 o1 v :
  server_step on_request on_shutdown pol s w e = Ret (s1, w1, o1) ->
  in_history on_request on_shutdown pol s1 w1 es v -> in_history on_request on_shutdown pol s w (e :: es) (later v).
Proof.
  intros E (sk & wk & ok & H1 & H2 & H3 & H4). exists sk, wk, (o1 ++ ok).
  cbn [later at_event at_conn frame_in caused firstn nth_error server_run]. rewrite E. cbn [obind]. rewrite H1. auto.
Qed.

Lemma in_history_one pol s w e es v :
  at_event v = 0%nat -> in_history on_request on_shutdown pol s w [e] v -> in_history on_request on_shutdown pol s w (e :: es) v.
Proof. unfold in_history. intros ->. cbn [firstn nth_error]. auto. Qed.

Lemma caused_later vs : map caused (map later vs) = map caused vs.
Proof. rewrite map_map. reflexivity. Qed.

Lemma frames_later c vs : map frame_in (filter (on_conn c) (map later vs)) = map frame_in (filter (on_conn c) vs).
Proof.
  induction vs as [|v vs IH]; [reflexivity|]. cbn [map filter].
  change (on_conn c (later v)) with (on_conn c v). destruct (on_conn c v); [|exact IH].
  cbn [map later frame_in]. rewrite IH. reflexivity.
Qed.

Lemma sorted_zero_later vs1 vs2 :
  Forall (fun v => at_event v = 0%nat) vs1 -> StronglySorted le (map at_event vs2) ->
  StronglySorted le (map at_event (vs1 ++ map later vs2)).
Proof.
  intros H0 Hs. induction H0 as [|v vs1 Hv _ IH]; cbn [app map].
  - induction vs2 as [|v vs2 IH]; [constructor|]. cbn [map] in *.
    apply StronglySorted_inv in Hs. destruct Hs as [Hs Hf]. constructor; [apply IH, Hs|].
    apply Forall_forall. intros x Hx. rewrite map_map in Hx. apply in_map_iff in Hx. destruct Hx as (y & <- & Hy).
    cbn [later at_event]. rewrite Forall_forall in Hf. specialize (Hf (at_event y) (in_map _ _ _ Hy)). lia.
  - constructor; [exact IH|]. apply Forall_forall. intros x _. rewrite Hv. lia.
Qed.

Lemma run_spec pol es : forall s w,
  conns_ok pol s -> Forall typed_event es ->
  exists s' w' os vs, run pol s w es = Ret (s', w', os) /\
    conns_ok pol s' /\
    filter by_frame os = List.concat (map caused vs) /\
    StronglySorted le (map at_event vs) /\
    Forall (in_history on_request on_shutdown pol s w es) vs /\
    (forall c p, sv_conns s c = Some p -> same_connection c es ->
       exists p', mbap_run pol p (ops_on c es) = Ret (p', map frame_in (filter (on_conn c) vs)) /\
         sv_conns s' c = Some p').
Proof.
  induction es as [|e es IH]; intros s w Hc He; cbn [server_run].
  { exists s, w, [], []. repeat split; auto; [constructor|]. intros c p Hp _. exists p. auto. }
  apply Forall_cons_iff in He. destruct He as [He Hes].
  destruct (step_spec pol s w e Hc He) as (s1 & w1 & o1 & v1 & E & Hc1 & B1 & Z1 & I1 & M1).
  rewrite E. cbn [obind].
  destruct (IH s1 w1 Hc1 Hes) as (s2 & w2 & o2 & v2 & -> & Hc2 & B2 & S2 & I2 & M2). cbn [obind].
  exists s2, w2, (o1 ++ o2), (v1 ++ map later v2). split; [reflexivity|]. split; [exact Hc2|].
  split; [|split; [|split]].
  - rewrite filter_app, B1, B2, map_app, concat_app, caused_later. reflexivity.
  - apply sorted_zero_later; assumption.
  - apply Forall_app. split.
    + apply Forall_forall. intros v Hv. rewrite Forall_forall in Z1, I1.
      apply in_history_one; [apply Z1, Hv|apply I1, Hv].
    + apply Forall_forall. intros v Hv. apply in_map_iff in Hv. destruct Hv as (u & <- & Hu).
      rewrite Forall_forall in I2. exact (in_history_cons _ _ _ _ _ _ _ _ _ E (I2 u Hu)).
  - intros c p Hp Hsc. apply Forall_cons_iff in Hsc. destruct Hsc as [Ha Hsc].
    destruct (M1 c p Hp Ha) as (p1 & E1 & Hp1). destruct (M2 c p1 Hp1 Hsc) as (p2 & E2 & Hp2).
    exists p2. split; [|exact Hp2].
    replace (ops_on c (e :: es)) with (ops_on c [e] ++ ops_on c es)
      by (unfold ops_on; cbn [flat_map]; rewrite app_nil_r; reflexivity).
    rewrite run_app, E1. cbn [obind]. rewrite E2. cbn [obind].
    rewrite filter_app, map_app, frames_later. reflexivity.
Qed.

Lemma init_ok pol : conns_ok pol server_init.
Proof. intros c p H. discriminate. Qed.

(** ** C25 *)
Lemma sends_one c os : sends_on c [OSend c os] = [os].
Proof. cbn. rewrite N.eqb_refl. reflexivity. Qed.

Lemma headed_frame tx unit code rest :
  headed tx unit (2 + size rest) code (map Some (frame_bytes tx unit (code :: rest))).
Proof.
  exists (map Some rest). split.
  - rewrite <- map_app. unfold frame_bytes, item_bytes, frame, announced, body_of. cbn [i_tx i_proto i_unit i_body].
    rewrite size_cons. replace (1 + (1 + size rest)) with (2 + size rest) by lia. rewrite <- !app_assoc. reflexivity.
  - unfold size at 1. rewrite map_length. change (size (frame_bytes tx unit (code :: rest)) = 6 + (2 + size rest)).
    unfold frame_bytes. rewrite item_bytes_size. unfold body_of, frame. cbn [i_body]. rewrite size_cons. lia.
Qed.

Lemma response_headed tx unit resp view :
  typed_response resp -> response_view tx unit resp view ->
  exists len, headed tx unit len (response_code resp) view /\ 2 <= len <= 254.
Proof.
  intros Ht [Hf Hl]. destruct (fits_dec resp) as [F|F].
  - destruct (Hf F) as (pdu & Hp & ->).
    assert (E : pdu = enc_response resp) by (apply (response_pdu_unique resp); [exact Hp|apply enc_response_pdu]).
    assert (L := enc_response_length resp). assert (B := response_length_bound resp F).
    rewrite <- E in L. assert (H : exists rest, pdu = response_code resp :: rest).
    { rewrite E. destruct resp; cbn; eexists; reflexivity. }
    destruct H as (rest & H). subst pdu. rewrite H in *. exists (2 + size rest). split; [apply headed_frame|].
    rewrite size_cons in L. lia.
  - exists 254. split; [apply Hl, F|lia].
Qed.

Lemma no_sends_consult x r : forall c view, ~ In (OSend c view) [OConsult x r].
Proof. intros c view [H|[]]. discriminate. Qed.

Lemma history_answered_once pol s w es v :
  in_history on_request on_shutdown pol s w es v -> answered_once v.
Proof.
  intros (sk & wk & ok & _ & _ & _ & w1 & w2 & [Hd Hs]). unfold answered_once.
  destruct (sv_shutdown sk).
  { destruct Hd as [_ ->]; [reflexivity|]. left. split; [reflexivity|]. intros c view []. }
  destruct (Hs eq_refl) as [H|fc rest t H E|x r w' a calls os H Ha Hr].
  - left. split; [reflexivity|]. intros c view [].
  - right. exists fc, rest, [], (exception_view (mb_tx (frame_in v)) (mb_unit (frame_in v)) fc t), 3, (fc mod 128 + 128).
    split; [exact E|]. split; [reflexivity|]. split; [intros c view []|]. split; [|split; [lia|auto]].
    apply (headed_frame _ _ (fc mod 128 + 128) [exception_value t]).
  - assert (Hfc : exists rest, mb_data (frame_in v) = spec_function_code r :: rest).
    { remember (Ask x r) as rr eqn:Er. destruct H; try discriminate. injection Er as -> ->. apply pdu_head; assumption. }
    destruct Hfc as (rest & Hfc).
    assert (Hn : forall os, os = [] ->
      sends_on (at_conn v) (OConsult x r :: os) = [] /\ (forall c view, ~ In (OSend c view) (OConsult x r :: os)) \/ False).
    { intros o ->. left. split; [reflexivity|]. intros c view [X|[]]. discriminate. }
    destruct a as [resp|e]; cbn [reply] in Hr.
    + destruct Hr as (view & Hv & ->). right. destruct (Hwt _ _ _ _ _ _ Ha) as [Ht Hcode].
      destruct (response_headed _ _ _ _ Ht Hv) as (len & Hh & Hl).
      exists (spec_function_code r), rest, [OConsult x r], view, len, (response_code resp).
      split; [exact Hfc|]. split; [reflexivity|]. split; [apply no_sends_consult|]. split; [exact Hh|].
      split; [exact Hl|]. left. exact Hcode.
    + destruct e as [| |t| | |]; try (subst os; left; split; [reflexivity|intros c view [X|[]]; discriminate]).
      subst os. right. exists (spec_function_code r), rest, [OConsult x r].
      eexists _, 3, (spec_function_code r mod 128 + 128).
      split; [exact Hfc|]. split; [reflexivity|]. split; [apply no_sends_consult|].
      split; [|split; [lia|auto]].
      apply (headed_frame _ _ (spec_function_code r mod 128 + 128) [exception_value t]).
Qed.

Lemma every_history pol w es :
  Forall typed_event es ->
  exists s' w' os vs, run pol server_init w es = Ret (s', w', os) /\
    filter by_frame os = List.concat (map caused vs) /\
    StronglySorted le (map at_event vs) /\
    Forall (fun v => in_history on_request on_shutdown pol server_init w es v /\ answered_once v) vs.
Proof.
  intros He. destruct (run_spec pol es server_init w (init_ok pol) He)
    as (s' & w' & os & vs & E & _ & B & S & I & _).
  exists s', w', os, vs. repeat split; auto. eapply Forall_impl; [|exact I].
  intros v Hv. split; [exact Hv|]. exact (history_answered_once _ _ _ _ _ Hv).
Qed.
End Facts.
