(** Lemmas behind PropsSystem.v. *)
From Verif Require Import Prelude Ser4 Messages Mbap Client Server Database System.
From Verif Require Import SpecPdu SpecMbap SpecClient SpecServer SpecDb SpecSystem.
From Verif Require Import Tac BuildFacts CodecLemmas MbapFacts MbapLemmas FrameFacts DatabaseFacts DbLemmas.
From Verif Require Import ClientFacts ClientLemmas ClientTx ClientShutdown ClientResponses ClientOutcomes.
From Verif Require Import SystemServe SystemClient SystemFacts SystemSteps.

Section Lemmas.
Context {W : Type}.
Context (handler : nat -> W -> expected (list N) -> W * list capi).

(** ** All histories *)
Lemma insert_has l u x : find_session (insert_session l u x) u <> None.
Proof.
  unfold insert_session. destruct (find_session l u) eqn:E; [congruence|].
  induction l as [|[a b] l IH]; cbn [find_session app] in *.
  - rewrite N.eqb_refl. discriminate.
  - destruct (a =? u); [discriminate|auto].
Qed.

Lemma insert_all units : forall l u, In u units \/ find_session l u <> None ->
  find_session (fold_left (fun l u => insert_session l u 0) units l) u <> None.
Proof.
  induction units as [|v units IH]; intros l u H; cbn [fold_left].
  - destruct H as [[]|H]; exact H.
  - apply IH. destruct H as [[->|H]|H]; [right; apply insert_has|left; exact H|right; apply insert_keeps; exact H].
Qed.

Lemma good_init pol units d F0 buf sbuf w : good_buf buf -> good_buf sbuf -> reachable_db d -> holds d F0 ->
  good handler pol units F0 [] (system_init units d buf sbuf w) [].
Proof.
  intros Hb Hs Hr Hd. exists [], (fun _ => []), [], [].
  constructor; unfold system_init; cbn [y_client y_user y_server y_db y_conn y_up y_down client_outputs flat_map executed].
  - exists buf, w. split; [exact Hb|]. split; [constructor|reflexivity].
  - intros i k [].
  - intros c Hc. assert (c = 0) by lia. subst c. exists (mbap_new sbuf), [].
    split; [reflexivity|]. split; [apply R_new; exact Hs|reflexivity].
  - intros c Hc. split; [|auto]. cbn [set_conn sv_conns].
    replace (c =? 0) with false by (symmetry; apply N.eqb_neq; lia). reflexivity.
  - intros c q [].
  - intros c. constructor.
  - intros c c' q q' [].
  - constructor.
  - intros i [].
  - intros _. exists []. split; [apply R_new; exact Hb|reflexivity].
  - intros q pdu [].
  - constructor.
  - constructor.
  - apply reachable_wf. exact Hr.
  - constructor. apply holds_unchanged. exact Hd.
  - intros _ _ q [].
  - intros _ a i x b E. destruct a; discriminate E.
  - intros _ u Hu. apply insert_all. left. exact Hu.
  - intros _ _ p Hp. discriminate Hp.
  - intros e [].
Qed.

Lemma step_good pol units F0 es y os e : session_handler handler -> good handler pol units F0 es y os -> typed_yevent e ->
  exists y' o, system_step handler pol y e = Ret (y', o) /\ good handler pol units F0 (es ++ [e]) y' (os ++ o).
Proof.
  intros Hh G Ht. destruct e as [a| |t|t|a| |c|c n|n|msg buf]; cbn [system_step].
  - apply step_simple; try exact Hh; try exact G; try exact Logic.I; try discriminate; [|reflexivity].
    intros b E. injection E as <-. exact Ht.
  - apply step_simple; try exact Hh; try exact G; try exact Logic.I; discriminate.
  - apply step_simple; try exact Hh; try exact G; try exact Logic.I; discriminate.
  - apply step_simple; try exact Hh; try exact G; try exact Logic.I; try discriminate. reflexivity.
  - apply step_quiet; [exact G|exact Logic.I].
  - apply step_quiet; [exact G|exact Logic.I].
  - apply (step_local handler pol units F0 es y os c G Ht).
  - apply (step_up handler pol units F0 es y os c n G).
  - apply (step_down handler pol units F0 Hh es y os n G).
  - apply (step_break handler pol units F0 Hh es y os msg buf G Ht).
Qed.

Lemma system_good pol units F0 es2 : session_handler handler -> Forall typed_yevent es2 -> forall es y os,
  good handler pol units F0 es y os ->
  exists y' o, system_run handler pol y es2 = Ret (y', o) /\ good handler pol units F0 (es ++ es2) y' (os ++ o).
Proof.
  intros Hh Ht. induction Ht as [|e es2 He _ IH]; intros es y os G; cbn [system_run].
  - exists y, []. rewrite !app_nil_r. auto.
  - destruct (step_good _ _ _ _ _ _ _ Hh G He) as (y1 & o1 & E1 & G1). rewrite E1. cbn [obind].
    destruct (IH _ _ _ G1) as (y2 & o2 & E2 & G2). rewrite E2. cbn [obind].
    do 2 eexists. split; [reflexivity|]. rewrite <- !app_assoc in G2. exact G2.
Qed.

Lemma happens_good pol units d F0 es y os : happens handler pol units d es y os -> holds d F0 ->
  session_handler handler /\ good handler pol units F0 es y os.
Proof.
  intros (buf & sbuf & w & Hb & Hs & Hr & Ht & Hh & E) Hd. split; [exact Hh|].
  destruct (system_good pol units F0 es Hh Ht [] _ _ (good_init pol units d F0 buf sbuf w Hb Hs Hr Hd)) as (y' & o & E' & G).
  rewrite E in E'. injection E' as <- <-. exact G.
Qed.

(** The system survives every history. *)
Lemma system_total pol units d es buf sbuf w : good_buf buf -> good_buf sbuf -> reachable_db d ->
  session_handler handler -> Forall typed_yevent es ->
  exists y os, system_run handler pol (system_init units d buf sbuf w) es = Ret (y, os).
Proof.
  intros Hb Hs Hr Hh Ht.
  destruct (system_good pol units _ es Hh Ht [] _ _ (good_init pol units d _ buf sbuf w Hb Hs Hr (holds_contents d))) as (y & o & E & _).
  eauto.
Qed.

(** ** The database and the results *)
Lemma end_to_end pol units d F0 es y os : happens handler pol units d es y os -> holds d F0 ->
  exists log F, holds (y_db y) F /\ accesses os log /\
    calls_spec F0 (map x_call log) (map x_result log) F /\
    NoDup (executed log) /\
    (timely es os -> forall a i x b, os = a ++ YC (Completed i (Value x)) :: b ->
       exists u r t n v, In (YC (Called i (session_call u r t))) a /\ legal_request r /\
         nth_error log n = Some {| x_call := CRequest r; x_result := RResponse v; x_by := Some i |} /\
         (n < List.length (db_calls a))%nat /\ session_result r (Value x) = Ret v).
Proof.
  intros H Hd. destruct (happens_good _ _ _ _ _ _ _ H Hd) as (_ & ces & wait & pend & log & I).
  exists log, (contents (y_db y)). split; [apply holds_contents|].
  split; [apply (iv_log _ _ _ _ _ _ _ _ _ _ _ I)|]. split; [apply (iv_calls _ _ _ _ _ _ _ _ _ _ _ I)|].
  split; [apply (iv_once _ _ _ _ _ _ _ _ _ _ _ I)|].
  intros Ht a i x b E. destruct (iv_done _ _ _ _ _ _ _ _ _ _ _ I Ht _ _ _ _ E) as (q & n & v & Hq & Hw & [H1 H2] & H3).
  destruct Hw as ((_ & _ & Hl) & t & f & Hc & _). subst i. exists (q_unit q), (q_req q), t, n, v. auto 6.
Qed.

(** ** Every request to a registered unit is answered *)
Lemma all_answered pol units d es y os : happens handler pol units d es y os ->
  nothing_under_way y -> cc_shutdown (y_client y) = false -> sv_shutdown (y_server y) = false ->
  forall i u tx f, In (YC (Sent i u tx f)) os -> In u units -> exists r, In (YC (Completed i r)) os.
Proof.
  intros H [Hup Hdn] Hc Hs i u tx f Hi Hu.
  destruct (happens_good _ _ _ _ _ _ _ H (holds_contents d)) as (_ & ces & wait & pend & log & I).
  assert (Hw : wait (y_conn y) = []).
  { destruct (iv_up _ _ _ _ _ _ _ _ _ _ _ I (y_conn y)) as (p & t & _ & HR & E); [lia|].
    rewrite Hup, app_nil_r in E. apply map_eq_nil with (f := req_frame). apply (nothing_left pol p t); [exact HR| |exact E].
    rewrite Forall_forall. intros g Hg. apply in_map_iff in Hg. destruct Hg as (q & <- & Hq).
    apply req_frame_ok. apply (iv_wait _ _ _ _ _ _ _ _ _ _ _ I _ _ Hq). }
  assert (Hp : pend = []).
  { destruct (iv_down _ _ _ _ _ _ _ _ _ _ _ I Hc) as (t & HR & E). rewrite Hdn, app_nil_r in E.
    apply map_eq_nil with (f := ans_frame). apply (nothing_left pol _ t _ HR); [|exact E].
    exact (pend_ok handler pol units (contents d) es y os ces wait pend log I). }
  destruct (history_reached _ _ _ _ _ _ (iv_hist _ _ _ _ _ _ _ _ _ _ _ I)) as (C & _ & _).
  assert (Hi2 := proj2 (in_couts _ _) Hi). apply in_split in Hi2. destruct Hi2 as (a & b & E).
  destruct (co_wire _ _ C _ _ _ _ _ _ E) as [Hd|[_ [Hd|(p & Ep & Epi)]]].
  - apply in_completed in Hd. destruct Hd as (r & Hd). exists r. apply in_couts. rewrite E. apply in_or_app. right. right. exact Hd.
  - congruence.
  - exfalso. assert (Hsp := co_current _ _ C _ Ep). rewrite Epi in Hsp.
    assert (Hi2 := proj2 (in_couts _ _) Hi).
    assert (Es := sent_unique _ _ _ _ _ _ _ _ (co_sent_sorted _ _ C) Hi2 Hsp). injection Es as -> _ _.
    destruct (iv_lost _ _ _ _ _ _ _ _ _ _ _ I Hc Hs p Ep Hu) as (q & Hq & _).
    rewrite Hw, Hp in Hq. destruct Hq.
Qed.

(** ** Shutdown *)
Lemma client_open pol units d es y os : happens handler pol units d es y os -> no_shutdown_handler handler ->
  Forall kept_open es -> cc_shutdown (y_client y) = false.
Proof.
  intros H Hn Hk. destruct (happens_good _ _ _ _ _ _ _ H (holds_contents d)) as (_ & ces & wait & pend & log & I).
  apply (history_clear handler Hn pol ces _ (y_user y) (client_outputs os)); [|apply (iv_hist _ _ _ _ _ _ _ _ _ _ _ I)].
  intros Hi. destruct (iv_view _ _ _ _ _ _ _ _ _ _ _ I _ Hi) as (ye & Hy & V). cbn [view] in V. subst ye.
  rewrite Forall_forall in Hk. apply (proj1 (Hk _ Hy)). reflexivity.
Qed.

Lemma process_same s d x m c fc parse s' d' o :
  process_message db_session s d x m c fc parse = Ret (s', d', o) -> s' = s.
Proof.
  unfold process_message. destruct (parse (mb_data m)) as [[r|e]|]; cbn [obind]; [| |discriminate].
  - unfold db_session. destruct (run (Database.on_request r) d) as [[d1 a]|]; [|intros E; injection E as <- _ _; reflexivity].
    destruct a as [v|e]; [intros E; injection E as <- _ _; reflexivity|].
    destruct e; intros E; injection E as <- _ _; reflexivity.
  - destruct e; intros E; injection E as <- _ _; reflexivity.
Qed.

Lemma messages_same c ms : forall s d s' d' o, on_messages db_session s d c ms = Ret (s', d', o) -> s' = s.
Proof.
  induction ms as [|m ms IH]; intros s d s' d' o E; cbn [on_messages] in E; [injection E as <- _ _; reflexivity|].
  destruct (on_mbap db_session s d c m) as [[[s1 d1] o1]|] eqn:E1; cbn [obind] in E; [|discriminate].
  destruct (on_messages db_session s1 d1 c ms) as [[[s2 d2] o2]|] eqn:E2; cbn [obind] in E; [|discriminate].
  injection E as <- _ _. rewrite (IH _ _ _ _ _ E2). unfold on_mbap in E1.
  destruct (sv_shutdown s); [injection E1 as <- _ _; reflexivity|].
  destruct (find_session (sv_sessions s) (mb_unit m)); [|injection E1 as <- _ _; reflexivity].
  destruct (size (mb_data m) <? 1); [injection E1 as <- _ _; reflexivity|].
  unfold rd8 in E1. destruct (read_u8 (mb_data m)) as [[fc rest]|]; [|discriminate E1].
  destruct (request_parser fc); [exact (process_same _ _ _ _ _ _ _ _ _ _ E1)|injection E1 as <- _ _; reflexivity].
Qed.

Definition server_up (s : server) : Prop := sv_shutdown s = false /\ ~ In TaskShutdown (sv_queue s).

Lemma server_step_up pol s d e s' d' o : server_up s -> e <> EApi ApiShutdown ->
  server_step db_session db_shutdown pol s d e = Ret (s', d', o) -> server_up s'.
Proof.
  intros [H1 H2] Hn E. destruct e as [a| |c b|c data|c]; cbn [server_step] in E.
  - injection E as <- _ _. destruct a as [| |u x]; cbn [api_call]; [|congruence|]; rewrite H1; split; auto;
      cbn [set_queue sv_queue]; intros Hi; apply in_app_or in Hi; destruct Hi as [Hi|[Hi|[]]]; auto; discriminate Hi.
  - destruct (sv_queue s) as [|t q] eqn:Eq; [injection E as <- _ _; split; [exact H1|]; rewrite Eq; auto|].
    destruct t as [| |u x]; cbn [run_task set_queue sv_shutdown] in E.
    + rewrite H1 in E. injection E as <- _ _. split; [reflexivity || exact H1|]. intros Hi. apply H2. right. exact Hi.
    + exfalso. apply H2. left. reflexivity.
    + rewrite H1 in E. injection E as <- _ _. split; [reflexivity || exact H1|]. intros Hi. apply H2. right. exact Hi.
  - injection E as <- _ _. split; assumption.
  - destruct (sv_conns s c); [|injection E as <- _ _; split; assumption].
    destruct (mbap_parse pol p data) as [[p' ms]|]; cbn [obind] in E; [|discriminate].
    rewrite (messages_same _ _ _ _ _ _ _ E). split; assumption.
  - destruct (sv_conns s c); injection E as <- _ _; split; assumption.
Qed.

Lemma step_server_up pol y e y' o : server_up (y_server y) -> kept_open e ->
  system_step handler pol y e = Ret (y', o) -> server_up (y_server y').
Proof.
  assert (HC : forall (y : system W) e y' o, server_up (y_server y) -> on_client handler pol y e = Ret (y', o) -> server_up (y_server y')).
  { clear. intros y e y' o H E. unfold on_client in E.
    destruct (client_step handler pol (y_client y) (y_user y) e) as [[[s w] o1]|]; cbn [obind] in E; [|discriminate].
    injection E as <- _. exact H. }
  assert (HS : forall (y : system W) e y' o, server_up (y_server y) -> e <> EApi ApiShutdown -> on_server pol y e = Ret (y', o) -> server_up (y_server y')).
  { clear. intros y e y' o H Hn E. unfold on_server in E.
    destruct (server_step db_session db_shutdown pol (y_server y) (y_db y) e) as [[[s d] o1]|] eqn:E1; cbn [obind] in E; [|discriminate].
    injection E as <- _. exact (server_step_up _ _ _ _ _ _ _ H Hn E1). }
  intros H [_ Hk] E. destruct e as [a| |t|t|a| |c|c n|n|msg buf]; cbn [system_step] in E.
  - exact (HC _ _ _ _ H E).
  - exact (HC _ _ _ _ H E).
  - exact (HC _ _ _ _ H E).
  - exact (HC _ _ _ _ H E).
  - apply (HS _ _ _ _ H) in E; [exact E|]. intros Ea. injection Ea as ->. apply Hk. reflexivity.
  - apply (HS _ _ _ _ H) in E; [exact E|discriminate].
  - destruct (run (call_body c) (y_db y)) as [[d r]|]; cbn [obind] in E; [|discriminate]. injection E as <- _. exact H.
  - apply HS in E; [exact E|exact H|discriminate].
  - apply HC in E; [exact E|exact H].
  - destruct (on_client handler pol y (CError msg)) as [[y1 o1]|] eqn:E1; cbn [obind] in E; [|discriminate].
    apply (HC _ _ _ _ H) in E1.
    destruct (on_server pol y1 (EAccept (y_conn y1 + 1) buf)) as [[y2 o2]|] eqn:E2; cbn [obind] in E; [|discriminate].
    apply (HS _ _ _ _ E1) in E2; [|discriminate]. injection E as <- _. exact E2.
Qed.

Lemma server_open pol units d es y os : happens handler pol units d es y os ->
  Forall kept_open es -> sv_shutdown (y_server y) = false.
Proof.
  intros (buf & sbuf & w & _ & _ & _ & _ & _ & E) Hk.
  assert (H : server_up (y_server (system_init units d buf sbuf w))).
  { split; [reflexivity|]. intros []. }
  revert E H. generalize (system_init units d buf sbuf w). revert os. induction Hk as [|e es He _ IH]; intros os y0 E H; cbn [system_run] in E.
  - injection E as <- _. apply H.
  - destruct (system_step handler pol y0 e) as [[y1 o1]|] eqn:E1; cbn [obind] in E; [|discriminate].
    destruct (system_run handler pol y1 es) as [[y2 o2]|] eqn:E2; cbn [obind] in E; [|discriminate].
    injection E as <- _. apply (IH _ _ E2). exact (step_server_up _ _ _ _ _ H He E1).
Qed.

(** ** Where errors come from *)
Lemma connection_source pol es s w os e s' w' o i msg : history handler pol es s w os -> typed_cevent e ->
  client_step handler pol s w e = Ret (s', w', o) -> In (Completed i (Error (EConnection msg))) o -> e = CError msg.
Proof.
  intros H Ht E Hin. destruct (history_reached _ _ _ _ _ _ H) as (C & St & Tr).
  destruct e as [x| |chunk|m|x|x].
  - exfalso. cbn [client_step] in E. destruct x; cbn [capi_call] in E; injection E as <- <- <-; cbn in Hin; intuition discriminate.
  - exfalso. assert (X := step_rejects handler pol _ _ _ _ _ _ _ _ _ _ H E Hin). discriminate X; discriminate.
  - exfalso. cbn [client_step] in E. unfold on_receive in E. destruct (cc_shutdown s); [injection E as <- <- <-; destruct Hin|].
    destruct (mbap_parse pol (cc_parser s) chunk) as [[p ms]|]; cbn [obind] in E; [|discriminate]. injection E as E.
    destruct (on_responses_spec handler ms (with_parser s p) os w (core_parser _ _ _ C) St)
      as (s3 & w3 & o3 & E3 & _ & _ & _ & _ & _ & _ & Hsrc).
    rewrite E3 in E. injection E as <- <- <-. apply in_split in Hin. destruct Hin as (a & b & Eo).
    destruct (Hsrc _ _ _ _ Eo) as (m & _ & Hr & _). discriminate.
  - cbn [client_step] in E. injection E as E.
    destruct (on_error_spec handler s os w m C St) as (s3 & w3 & o3 & E3 & _ & _ & _ & _ & _ & Hd & He).
    rewrite E3 in E. injection E as <- <- <-. destruct (cc_shutdown s) eqn:Hs.
    + destruct (Hd eq_refl) as [_ ->]. destruct Hin.
    + destruct (He eq_refl) as (_ & _ & _ & _ & Hres & _). apply (in_results handler) in Hin.
      rewrite Hres in Hin. apply in_map_iff in Hin. destruct Hin as (p & Hp & _). injection Hp as _ ->. reflexivity.
  - exfalso. assert (X := step_rejects handler pol _ _ _ _ _ _ _ _ _ _ H E Hin). discriminate X; discriminate.
  - exfalso. cbn [client_step] in E. destruct (existsb (Nat.eqb x) (cc_expired s)); [|injection E as <- <- <-; destruct Hin]. injection E as E.
    destruct (on_timeout_spec handler s os w x C St) as (s3 & w3 & o3 & E3 & _ & _ & _ & _ & _ & _ & Hr & _).
    rewrite E3 in E. injection E as <- <- <-. destruct (Hr _ _ Hin). discriminate.
Qed.

Lemma some_error pol es : forall s w os i msg, history handler pol es s w os ->
  In (Completed i (Error (EConnection msg))) os -> In (CError msg) es.
Proof.
  induction es as [|e es IH] using rev_ind; intros s w os i msg H Hin.
  { destruct H as (buf & w0 & _ & _ & E). cbn in E. injection E as <- <- <-. destruct Hin. }
  apply history_split in H. destruct H as (s1 & w1 & os1 & o & H1 & E & -> & Ht).
  apply in_app_or in Hin. apply in_or_app. destruct Hin as [Hin|Hin].
  - left. exact (IH _ _ _ _ _ H1 Hin).
  - right. left. exact (connection_source _ _ _ _ _ _ _ _ _ _ _ H1 Ht E Hin).
Qed.

(** What a handler is told. *)
Lemma outcomes pol units d es y os : happens handler pol units d es y os ->
  forall i u r t x, typed_request r -> In (YC (Called i (session_call u r t))) os -> In (YC (Completed i x)) os ->
  (~ legal_request r /\ x = Error EMalformedRequest) \/
  (legal_request r /\
    ((exists b, x = Value b) \/
     (x = Error ETimeout /\ exists t, In (YFire t) es) \/
     exists msg buf, x = Error (EConnection msg) /\ In (YBreak msg buf) es)).
Proof.
  intros H i u r t x Hty Hc Hx.
  destruct (happens_good _ _ _ _ _ _ _ H (holds_contents d)) as (_ & ces & wait & pend & log & I).
  assert (Hh := iv_hist _ _ _ _ _ _ _ _ _ _ _ I). destruct (history_reached _ _ _ _ _ _ Hh) as (C & _ & _).
  apply in_couts in Hc. apply in_couts in Hx.
  destruct (co_results _ _ C _ _ Hx) as (k & Hk & Ho).
  rewrite (call_unique _ _ _ _ _ _ _ _ _ Hh Hk Hc) in Ho.
  destruct Ho as [[Hv ->]|[Hv Ho]].
  - left. split; [|reflexivity]. intros Hl. apply legal_valid in Hl. cbn [k_msg session_call] in Hv. congruence.
  - right. split.
    + apply valid_legal; [exact Hty|exact Hv].
    + destruct Ho as [Hb|[->|(m & ->)]]; [left; exact Hb| |].
      * right. left. split; [reflexivity|]. destruct (some_timeout _ _ _ _ _ _ _ Hh Hx) as (_ & t1 & _ & Hf).
        destruct (iv_view _ _ _ _ _ _ _ _ _ _ _ I _ Hf) as (ye & Hy & V). cbn [view] in V. subst ye. eauto.
      * right. right. apply some_error with (pol := pol) (es := ces) (s := y_client y) (w := y_user y) in Hx; [|exact Hh].
        destruct (iv_view _ _ _ _ _ _ _ _ _ _ _ I _ Hx) as (ye & Hy & b & ->). eauto.
Qed.

(** ** Undisturbed histories *)
Lemma undisturbed_open es : Forall undisturbed es -> Forall kept_open es.
Proof. apply Forall_impl. intros e H. apply H. Qed.

(** Every call is completed, valid ones with a response. *)
Lemma all_completed pol units d es y os : happens handler pol units d es y os -> no_shutdown_handler handler ->
  Forall kept_open es -> settled y -> (forall i k, In (YC (Called i k)) os -> In (k_unit k) units) ->
  forall i k, In (YC (Called i k)) os -> exists x, In (YC (Completed i x)) os.
Proof.
  intros H Hn Hk [Hq Hw] Hu i k Hi.
  assert (Hc := client_open _ _ _ _ _ _ H Hn Hk). assert (Hs := server_open _ _ _ _ _ _ H Hk).
  destruct (happens_good _ _ _ _ _ _ _ H (holds_contents d)) as (_ & ces & wait & pend & log & I).
  destruct (history_reached _ _ _ _ _ _ (iv_hist _ _ _ _ _ _ _ _ _ _ _ I)) as (C & St & _).
  assert (Hcur : cc_current (y_client y) = None).
  { destruct (cc_current (y_client y)) as [p|] eqn:Ep; [|reflexivity]. exfalso.
    assert (Hsp := co_current _ _ C _ Ep). apply in_couts in Hsp.
    destruct (co_service _ _ C p (or_introl Ep)) as (k' & Hk' & _ & Eu & _).
    assert (Hu' : In (pr_unit p) units) by (rewrite Eu; exact (Hu _ _ (proj1 (in_couts _ _) Hk'))).
    destruct (all_answered _ _ _ _ _ _ H Hw Hc Hs _ _ _ _ Hsp Hu') as (x & Hx).
    apply (co_gone _ _ C (pr_id p)).
    - apply in_completed. exists x. apply in_couts. exact Hx.
    - unfold live. rewrite Ep. left. reflexivity. }
  assert (Hi' : In i (completed_ids (client_outputs os) ++ live (y_client y))).
  { apply (co_all _ _ C Hc). apply in_couts in Hi.
    assert (Hx : In i (called_ids (client_outputs os))) by (apply in_called; eauto).
    rewrite (co_called _ _ C) in Hx. apply in_seq in Hx. lia. }
  apply in_app_or in Hi'. destruct Hi' as [Hi'|Hi'].
  - apply in_completed in Hi'. destruct Hi' as (x & Hx). exists x. apply in_couts. exact Hx.
  - exfalso. unfold live in Hi'. rewrite Hcur, (St Hcur), Hq in Hi'. destruct Hi'.
Qed.

Lemma undisturbed_value pol units d es y os : happens handler pol units d es y os -> no_shutdown_handler handler ->
  Forall undisturbed es -> settled y -> (forall i k, In (YC (Called i k)) os -> In (k_unit k) units) ->
  forall i u r t, In (YC (Called i (session_call u r t))) os -> legal_request r ->
  exists x, In (YC (Completed i (Value x))) os.
Proof.
  intros H Hn Hu Hs Hr i u r t Hi Hl.
  destruct (all_completed _ _ _ _ _ _ H Hn (undisturbed_open _ Hu) Hs Hr _ _ Hi) as (x & Hx).
  destruct (outcomes _ _ _ _ _ _ H _ _ _ _ _ (proj1 Hl) Hi Hx) as [[Hv _]|[_ [(b & ->)|[[-> (f & Hf)]|(msg & buf & -> & Hm)]]]].
  - contradiction.
  - eauto.
  - rewrite Forall_forall in Hu. destruct (Hu _ Hf) as (_ & X & _). destruct (X f eq_refl).
  - rewrite Forall_forall in Hu. destruct (Hu _ Hm) as (_ & _ & X). destruct (X msg buf eq_refl).
Qed.

(** ** A single request *)
Lemma accesses_by os log : accesses os log -> (forall c r, ~ In (YD c r) os) ->
  map Some (executed log) = map x_by log /\ incl (executed log) (called_ids (client_outputs os)).
Proof.
  induction 1 as [|os log o Ha IH Ho|os log c r Ha IH|os log i u r t tx f x v Ha IH Hc Hs]; intros Hn.
  - split; [reflexivity|]. intros x [].
  - destruct IH as [H1 H2]; [intros c r Hi; apply (Hn c r); apply in_or_app; left; exact Hi|]. split; [exact H1|].
    intros x Hx. rewrite couts_app, called_app. apply in_or_app. left. exact (H2 x Hx).
  - exfalso. apply (Hn c r). apply in_or_app. right. left. reflexivity.
  - destruct IH as [H1 H2]; [intros c r' Hi; apply (Hn c r'); apply in_or_app; left; exact Hi|]. split.
    + rewrite executed_app, !map_app, H1. reflexivity.
    + intros y Hy. rewrite couts_app, called_app. apply in_or_app. left. rewrite executed_app in Hy.
      apply in_app_or in Hy. destruct Hy as [Hy|[<-|[]]]; [exact (H2 _ Hy)|].
      apply in_called. eexists. apply in_couts. exact Hc.
Qed.

Lemma message_injective r r' : legal_request r -> legal_request r' -> request_message r = request_message r' -> r = r'.
Proof.
  intros Hl Hl' E.
  destruct (valid_round_trip r 260 (proj1 Hl) (legal_valid _ Hl)) as (p & H1 & H2); [lia|].
  destruct (valid_round_trip r' 260 (proj1 Hl') (legal_valid _ Hl')) as (p' & H3 & H4); [lia|].
  assert (Hb : enc_request r = enc_request r') by (rewrite <- !build_enc by assumption; rewrite E; reflexivity).
  destruct (enc_head r) as (x & Hx). destruct (enc_head r') as (x' & Hx').
  rewrite Hx, Hx' in Hb. injection Hb as Hf _. rewrite Hf in H1. rewrite H1 in H3. injection H3 as <-.
  rewrite E, H4 in H2. congruence.
Qed.

Lemma single_request pol units d F es y os u r t : happens handler pol units d es y os -> holds d F ->
  no_shutdown_handler handler -> Forall undisturbed es -> settled y ->
  called_ids (client_outputs os) = [0%nat] -> In (YC (Called 0 (session_call u r t))) os ->
  In u units -> legal_request r -> (forall c x, ~ In (YD c x) os) ->
  exists x v F', In (YC (Completed 0 (Value x))) os /\ session_result r (Value x) = Ret v /\
    holds (y_db y) F' /\ request_spec F r F' v.
Proof.
  intros H Hd Hn Hu Hs Hone Hcall Hunit Hl Hloc.
  assert (Huniq : forall i k, In (YC (Called i k)) os -> i = 0%nat /\ k = session_call u r t).
  { intros i k Hi. assert (Hi0 : i = 0%nat).
    { apply in_couts in Hi. assert (X : In i (called_ids (client_outputs os))) by (apply in_called; eauto).
      rewrite Hone in X. destruct X as [<-|[]]. reflexivity. }
    split; [exact Hi0|]. subst i.
    destruct (happens_good _ _ _ _ _ _ _ H (holds_contents d)) as (_ & ces & wait & pend & log & I).
    exact (call_unique _ _ _ _ _ _ _ _ _ (iv_hist _ _ _ _ _ _ _ _ _ _ _ I) (proj2 (in_couts _ _) Hi) (proj2 (in_couts _ _) Hcall)). }
  destruct (undisturbed_value _ _ _ _ _ _ H Hn Hu Hs) with (i := 0%nat) (u := u) (r := r) (t := t) as (x & Hx); auto.
  { intros i k Hi. destruct (Huniq _ _ Hi) as [_ ->]. exact Hunit. }
  destruct (end_to_end _ _ _ _ _ _ _ H Hd) as (log & F' & HF & Ha & Hsp & Hnd & Hres).
  assert (Ht : timely es os).
  { left. intros f Hf. rewrite Forall_forall in Hu. destruct (Hu _ Hf) as (_ & X & _). exact (X f eq_refl). }
  assert (Hx2 := Hx). apply in_split in Hx2. destruct Hx2 as (a & b & Eo).
  destruct (Hres Ht _ _ _ _ Eo) as (u2 & r2 & t2 & n & v & H1 & Hl2 & H2 & _ & H3).
  destruct (accesses_by _ _ Ha Hloc) as [Hby Hin]. rewrite Hone in Hin.
  assert (Hex : executed log = [0%nat]).
  { assert (In 0%nat (executed log)) by (apply in_executed; eexists; split; [exact (nth_error_In _ _ H2)|reflexivity]).
    destruct (executed log) as [|z [|z2 l]]; [contradiction| |].
    - f_equal. destruct (Hin z (or_introl eq_refl)) as [<-|[]]. reflexivity.
    - exfalso. inversion Hnd as [|z' l' N1 N2]. subst. apply N1. left.
      destruct (Hin z (or_introl eq_refl)) as [<-|[]].
      destruct (Hin z2 (or_intror (or_introl eq_refl))) as [<-|[]]. reflexivity. }
  rewrite Hex in Hby. destruct log as [|e [|e2 l]]; try discriminate Hby.
  destruct n as [|n]; [|destruct n; discriminate H2]. cbn [nth_error] in H2. injection H2 as ->.
  assert (Er : session_call u2 r2 t2 = session_call u r t).
  { apply (Huniq 0%nat). rewrite Eo. apply in_or_app. left. exact H1. }
  injection Er as _ Er _. apply message_injective in Er; [|exact Hl2|exact Hl]. subst r2.
  cbn [map x_call x_result] in Hsp. inversion Hsp as [|Fa c0 r0 Fb cs rs Fc Hcs Hrest E1 E2 E3 E4]. clear Hsp. subst.
  inversion Hrest as [Fx Fy Hun E1 E2 E3 E4|]. clear Hrest. subst. destruct Hcs as (v2 & Hrs & Ev). injection Ev as <-.
  exists x, v, Fb. split; [exact Hx|]. split; [exact H3|]. split; [|exact Hrs].
  intros tb ad out. rewrite (HF tb ad out). rewrite (Hun tb ad). reflexivity.
Qed.
End Lemmas.
