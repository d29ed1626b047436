(** Proofs about which events are logged, and about the log of a server channel. *)
From Verif Require Import Prelude Ser4 Messages Mbap SpecPdu SpecMbap BitFacts BuildFacts ParseReqFacts CodecLemmas MbapFacts Client SpecClient ClientFacts Server SpecServer
  ServerFacts Logs SpecLogs LogsFacts.

(** ** The client channel *)

Lemma check_lines s s' l : log_check_pending_requests s = (s', l) -> may_send (log_lines l) /\ (cc_shutdown s = true -> log_lines l = []) /\ cc_shutdown s' = cc_shutdown s.
Proof.
  unfold log_check_pending_requests, sending_line, check_pending_requests, may_send. destruct (cc_shutdown s) eqn:Ed; [intros [= <- <-]; auto|].
  destruct (cc_current s); [intros [= <- <-]; auto|]. destruct (cc_pending s) as [|p ps]; intros [= <- <-]; [auto|].
  split; [right; cbn; eauto 10|]. split; [discriminate|exact Ed].
Qed.

Lemma cancel_lines s s' l : log_cancel_current_request s = (s', l) -> may_send (log_lines l) /\ (cc_shutdown s = true -> log_lines l = []) /\ cc_shutdown s' = cc_shutdown s.
Proof.
  unfold log_cancel_current_request, may_send. destruct (cc_current s); [|intros [= <- <-]; auto]. intros E. exact (check_lines _ _ _ E).
Qed.

Section Client.
Context {W : Type}.
Context (handler : nat -> W -> expected (list N) -> W * list capi).

Lemma handler_down s w i r s' w' o : call_handler handler s w i r = (s', w', o) -> cc_shutdown s' = cc_shutdown s.
Proof.
  intros E. destruct (call_handler_spec handler s w i r) as (w1 & q & o1 & m & E1 & _). rewrite E1 in E. injection E as <- _ _. reflexivity.
Qed.

Lemma response_lines s w m s' w' l : cc_shutdown s = false -> log_on_response handler s w m = (s', w', l) ->
  cc_shutdown s' = false /\ exists x sends, log_lines l = x :: sends /\ about_frame m x /\ may_send sends.
Proof.
  intros Ed. unfold log_on_response. rewrite Ed. destruct (cc_current s) as [p|]; [|intros [= <- <- <-]; split; [exact Ed|]; exists LogNotWaiting, []; unfold about_frame, may_send; auto].
  destruct ((mb_tx m =? pr_tx p) && (mb_unit m =? pr_unit p)).
  - destruct (call_handler handler (cancel_timer s) w _ _) as [[s1 w1] o1] eqn:E1. apply handler_down in E1. cbn in E1.
    destruct (log_check_pending_requests (with_current s1 None)) as [s2 l2] eqn:E2. intros [= <- <- <-].
    apply check_lines in E2 as (A & B & C). split; [rewrite C; cbn; congruence|].
    exists (LogResponse (mb_unit m) (mb_tx m)), (log_lines l2). split; [|unfold about_frame; auto].
    cbn [log_lines flat_map app]. f_equal. fold (log_lines (map Seen o1 ++ l2)). rewrite lines_app, lines_map. reflexivity.
  - intros [= <- <- <-]. split; [exact Ed|]. exists (LogUnexpected (mb_unit m) (mb_tx m)), []. unfold about_frame, may_send. auto.
Qed.

Lemma about_on_frame m x : about_frame m x -> on_frame x = true.
Proof. intros [->|[->| ->]]; reflexivity. Qed.

Lemma may_send_off l : may_send l -> filter on_frame l = [] /\ forall x, In x l -> exists unit tx timeout n, x = LogSending unit tx timeout n.
Proof.
  intros [->|(u & t & d & n & ->)]; [split; [reflexivity|intros x []]|]. split; [reflexivity|]. intros x [<-|[]]. eauto.
Qed.

Lemma responses_lines ms : forall s w s' w' l, cc_shutdown s = false -> log_on_responses handler s w ms = (s', w', l) ->
  Forall2 about_frame ms (filter on_frame (log_lines l)) /\
  (forall x, In x (log_lines l) -> on_frame x = true \/ exists unit tx timeout n, x = LogSending unit tx timeout n).
Proof.
  induction ms as [|m ms IH]; intros s w s' w' l Ed; cbn [log_on_responses].
  - intros [= <- <- <-]. split; [constructor|intros x []].
  - destruct (log_on_response handler s w m) as [[s1 w1] l1] eqn:E1. destruct (log_on_responses handler s1 w1 ms) as [[s2 w2] l2] eqn:E2.
    intros [= <- <- <-]. destruct (response_lines _ _ _ _ _ _ Ed E1) as (Ed1 & x & sends & A & B & C).
    destruct (IH _ _ _ _ _ Ed1 E2) as (D1 & D2). destruct (may_send_off _ C) as (C1 & C2).
    rewrite lines_app, A. cbn [app filter]. rewrite filter_app, C1, (about_on_frame _ _ B). cbn [app]. split; [constructor; assumption|].
    intros y [<-|H]; [left; exact (about_on_frame _ _ B)|]. apply in_app_or in H as [H|H]; [right; exact (C2 y H)|exact (D2 y H)].
Qed.

Lemma fail_all_down msg ps : forall s w s' w' o, fail_all handler s w ps msg = (s', w', o) -> cc_shutdown s' = cc_shutdown s.
Proof.
  induction ps as [|p ps IH]; intros s w s' w' o; cbn [fail_all]; [intros [= <- <- <-]; reflexivity|].
  destruct (call_handler handler s w (pr_id p) _) as [[s1 w1] o1] eqn:E1. destruct (fail_all handler s1 w1 ps msg) as [[s2 w2] o2] eqn:E2.
  intros [= <- <- <-]. rewrite (IH _ _ _ _ _ E2). exact (handler_down _ _ _ _ _ _ _ E1).
Qed.

Lemma step_lines pol s w e s' w' l : log_client_step handler pol s w e = Ret (s', w', l) -> event_lines pol s e (log_lines l).
Proof.
  destruct e as [a| |data|msg|t|t]; cbn [log_client_step].
  - destruct (capi_call s a) as [s1 o1]. intros [= <- <- <-]. rewrite lines_map. constructor.
  - destruct (cc_queue s) as [|t q] eqn:Eq; [intros [= <- <- <-]; apply lines_run; [congruence|left; reflexivity|reflexivity]|].
    intros [= E]. destruct t as [i k|i|]; cbn [log_run_ctask] in E.
    + apply lines_run; [congruence| |].
      * destruct (cc_shutdown (with_queue s q (cc_calls s))); [injection E as <- <- <-; left; reflexivity|].
        destruct (log_check_pending_requests _) as [s1 l1] eqn:E1. injection E as <- <- <-. exact (proj1 (check_lines _ _ _ E1)).
      * intros Ed. replace (cc_shutdown (with_queue s q (cc_calls s))) with true in E by (symmetry; exact Ed). injection E as <- <- <-. reflexivity.
    + destruct (call_handler handler _ w i _) as [[s1 w1] o1]. injection E as <- <- <-. rewrite lines_map.
      apply lines_run; [congruence|left; reflexivity|reflexivity].
    + injection E as <- <- <-. exact (lines_stop pol s q Eq).
  - unfold log_on_receive. destruct (cc_shutdown s) eqn:Ed; [intros [= <- <- <-]; apply lines_down; [exact Ed|discriminate]|].
    destruct (mbap_parse pol (cc_parser s) data) as [[p ms]|] eqn:Ep; cbn [obind]; [|discriminate].
    destruct (log_on_responses handler (with_parser s p) w ms) as [[s1 w1] l1] eqn:E1. intros [= <- <- <-].
    destruct (responses_lines ms (with_parser s p) w _ _ _ Ed E1) as (A & B). cbn [log_lines flat_map app]. exact (lines_receive pol s data p ms _ Ed Ep A B).
  - intros [= E]. revert E. unfold log_on_error. destruct (cc_shutdown s) eqn:Ed; [intros [= <- <- <-]; apply lines_down; [exact Ed|discriminate]|].
    destruct (cancel_all_pending_requests handler _ w msg) as [[s1 w1] o1].
    destruct (cc_current s1) as [p|].
    + destruct (call_handler handler s1 w1 _ _) as [[s2 w2] o2]. destruct (log_cancel_current_request s2) as [s3 l3] eqn:E3. intros [= <- <- <-].
      cbn [log_lines flat_map app]. fold (log_lines (map Seen o1 ++ map Seen o2 ++ l3)). rewrite !lines_app, !lines_map. cbn [app].
      apply lines_error; [exact Ed|]. exact (proj1 (cancel_lines _ _ _ E3)).
    + intros [= <- <- <-]. cbn [log_lines flat_map app]. fold (log_lines (map Seen o1)). rewrite lines_map. apply lines_error; [exact Ed|left; reflexivity].
  - destruct (existsb (Nat.eqb t) (cc_armed s)); intros [= <- <- <-]; constructor.
  - destruct (existsb (Nat.eqb t) (cc_expired s)) eqn:Et.
    2:{ intros [= <- <- <-]. apply lines_no_timeout. right. left. intros H.
        assert (existsb (Nat.eqb t) (cc_expired s) = true) by (apply existsb_exists; exists t; split; [exact H|apply Nat.eqb_refl]). congruence. }
    apply existsb_exists in Et as (t' & Ht & Et). apply Nat.eqb_eq in Et. subst t'.
    intros [= E]. revert E. unfold log_on_timeout. cbn [with_timers cc_shutdown cc_current].
    destruct (cc_shutdown s) eqn:Ed; [intros [= <- <- <-]; apply lines_no_timeout; auto|].
    destruct (cc_current s) as [p|] eqn:Ec; [|intros [= <- <- <-]; apply lines_no_timeout; auto].
    destruct (call_handler handler _ w _ _) as [[s2 w2] o2]. destruct (log_cancel_current_request s2) as [s3 l3] eqn:E3. intros [= <- <- <-].
    cbn [log_lines flat_map app]. fold (log_lines (map Seen o2 ++ l3)). rewrite !lines_app, !lines_map. cbn [app].
    apply lines_timeout; try assumption. exact (proj1 (cancel_lines _ _ _ E3)).
Qed.

Lemma down_lines pol s e l : event_lines pol s e l -> cc_shutdown s = true -> Forall (eq LogShuttingDown) l.
Proof.
  intros E D. destruct E as [a|t|q Hq|l Hq Hm Hd|data p ms l Hs|msg l Hs|t p l Hs|t|e]; try congruence; try constructor; auto.
  rewrite (Hd D). constructor.
Qed.

Lemma step_stays pol s w e s' w' l : log_client_step handler pol s w e = Ret (s', w', l) -> cc_shutdown s = true -> cc_shutdown s' = true.
Proof.
  intros E D. destruct e as [a| |data|msg|t|t]; cbn [log_client_step] in E.
  - destruct a as [k|]; cbn in E; injection E as <- _ _; exact D.
  - destruct (cc_queue s) as [|t q]; [injection E as <- _ _; exact D|]. destruct t as [i k|i|]; cbn [log_run_ctask] in E.
    + replace (cc_shutdown (with_queue s q (cc_calls s))) with true in E by (symmetry; exact D). injection E as <- _ _. exact D.
    + destruct (call_handler handler _ w i _) as [[s1 w1] o1] eqn:E1. injection E as <- _ _. rewrite (handler_down _ _ _ _ _ _ _ E1). exact D.
    + injection E as <- _ _. reflexivity.
  - unfold log_on_receive in E. rewrite D in E. injection E as <- _ _. exact D.
  - unfold log_on_error in E. rewrite D in E. injection E as <- _ _. exact D.
  - destruct (existsb (Nat.eqb t) (cc_armed s)); injection E as <- _ _; exact D.
  - destruct (existsb (Nat.eqb t) (cc_expired s)); [|injection E as <- _ _; exact D].
    unfold log_on_timeout in E. cbn [with_timers cc_shutdown] in E. rewrite D in E. injection E as <- _ _. exact D.
Qed.

Lemma silent_log pol es : forall s w s' w' l, cc_shutdown s = true -> log_client_run handler pol s w es = Ret (s', w', l) ->
  Forall (eq LogShuttingDown) (log_lines l).
Proof.
  induction es as [|e es IH]; intros s w s' w' l D; cbn [log_client_run]; [intros [= <- <- <-]; constructor|].
  destruct (log_client_step handler pol s w e) as [[[s1 w1] l1]|] eqn:E1; cbn [obind]; [|discriminate].
  destruct (log_client_run handler pol s1 w1 es) as [[[s2 w2] l2]|] eqn:E2; cbn [obind]; [|discriminate]. intros [= <- <- <-].
  rewrite lines_app. apply Forall_app. split; [exact (down_lines _ _ _ _ (step_lines _ _ _ _ _ _ _ E1) D)|].
  exact (IH _ _ _ _ _ (step_stays _ _ _ _ _ _ _ E1 D) E2).
Qed.
End Client.

(** ** The server channel *)

Lemma shown_app a b : shown (a ++ b) = shown a ++ shown b.
Proof. apply flat_map_app. Qed.
Lemma notes_app a b : notes (a ++ b) = notes a ++ notes b.
Proof. apply flat_map_app. Qed.
Lemma shown_map o : shown (map Shown o) = o.
Proof. induction o as [|x o IH]; [reflexivity|]. cbn. f_equal. exact IH. Qed.
Lemma notes_map o : notes (map Shown o) = [].
Proof. induction o as [|x o IH]; [reflexivity|exact IH]. Qed.

Definition serase {W} (x : server * W * list sentry) : server * W * list output :=
  let '(s, w, l) := x in (s, w, shown l).

Section Server.
Context {W : Type}.
Context (on_request : N -> W -> request -> W * expected response * list api).
Context (on_shutdown : N -> W -> W * list api).

Lemma process_erase s w x m c fc p : process_message on_request s w x m c fc p = omap serase (log_process_message on_request s w x m c fc p).
Proof.
  unfold process_message, log_process_message. destruct (p (mb_data m)) as [[r|e]|]; cbn [obind]; [|destruct e; reflexivity|reflexivity].
  destruct (on_request x w r) as [[w1 [resp|e]] calls]; [reflexivity|]. destruct e; reflexivity.
Qed.

Lemma mbap_erase s w c m : on_mbap on_request s w c m = omap serase (log_on_mbap on_request s w c m).
Proof.
  unfold on_mbap, log_on_mbap. destruct (sv_shutdown s); [reflexivity|]. destruct (find_session (sv_sessions s) (mb_unit m)); [|reflexivity].
  destruct (size (mb_data m) <? 1); [reflexivity|]. unfold rd8. destruct (read_u8 (mb_data m)) as [[fc rest]|]; [|reflexivity].
  destruct (request_parser fc); [apply process_erase|reflexivity].
Qed.

Lemma messages_erase ms : forall s w c, on_messages on_request s w c ms = omap serase (log_on_messages on_request s w c ms).
Proof.
  induction ms as [|m ms IH]; intros s w c; [reflexivity|]. cbn [on_messages log_on_messages]. rewrite mbap_erase.
  destruct (log_on_mbap on_request s w c m) as [[[s1 w1] l1]|]; cbn [omap obind serase]; [|reflexivity]. rewrite IH.
  destruct (log_on_messages on_request s1 w1 c ms) as [[[s2 w2] l2]|]; cbn [omap obind serase]; [|reflexivity]. rewrite shown_app. reflexivity.
Qed.

Lemma sstep_erase pol s w e : server_step on_request on_shutdown pol s w e = omap serase (log_server_step on_request on_shutdown pol s w e).
Proof.
  destruct e as [a| |c buf|c data|c]; cbn [server_step log_server_step].
  - reflexivity.
  - destruct (sv_queue s) as [|t q]; [reflexivity|]. unfold log_run_task. destruct (run_task on_shutdown (set_queue s q) w t) as [[s1 w1] o1].
    cbn [omap serase]. rewrite shown_app, shown_map. destruct t; reflexivity.
  - reflexivity.
  - destruct (sv_conns s c); [|reflexivity]. destruct (mbap_parse pol p data) as [[p' ms]|]; cbn [obind]; [|reflexivity]. apply messages_erase.
  - destruct (sv_conns s c); reflexivity.
Qed.

Lemma srun_erase pol es : forall s w, server_run on_request on_shutdown pol s w es = omap serase (log_server_run on_request on_shutdown pol s w es).
Proof.
  induction es as [|e es IH]; intros s w; [reflexivity|]. cbn [server_run log_server_run]. rewrite sstep_erase.
  destruct (log_server_step on_request on_shutdown pol s w e) as [[[s1 w1] l1]|]; cbn [omap obind serase]; [|reflexivity]. rewrite IH.
  destruct (log_server_run on_request on_shutdown pol s1 w1 es) as [[[s2 w2] l2]|]; cbn [omap obind serase]; [|reflexivity]. rewrite shown_app. reflexivity.
Qed.

(** A frame leads to a warning, or a session is asked. *)
Lemma mbap_warning s w c m s' w' l : sv_shutdown s = false -> typed_message m -> log_on_mbap on_request s w c m = Ret (s', w', l) ->
  warning (registry s) (mb_unit m) (mb_data m) (notes l) /\ same_but_queue s s' /\
  (notes l = [] <-> exists x r, In (OConsult x r) (shown l)).
Proof.
  intros Ed (Hu & Ht & Hb). unfold log_on_mbap. rewrite Ed. unfold registry.
  assert (Y : forall fc t, In (OConsult fc t) [] -> False) by (intros ? ? []).
  destruct (find_session (sv_sessions s) (mb_unit m)) as [x|] eqn:Ex.
  2:{ intros [= <- <- <-]. split; [exact (warn_unknown _ _ _ Ex)|]. split; [apply sbq_refl|]. split; [discriminate|intros (? & ? & [])]. }
  destruct (mb_data m) as [|fc rest] eqn:Em.
  { intros [= <- <- <-]. split; [exact (warn_empty _ _ _ x Ex eq_refl)|]. split; [apply sbq_refl|]. split; [discriminate|intros (? & ? & [])]. }
  replace (size (fc :: rest) <? 1) with false by (rewrite size_cons; lia). cbn [rd8 read_u8].
  destruct (request_parser fc) as [p|] eqn:Ep.
  - assert (Hs : supported fc) by (apply request_parser_supported; eauto). unfold log_process_message. rewrite Em.
    destruct (parse_outcomes fc _ p Ep Hb) as [(r & H1 & H2 & H3 & H4)|[[H4 H5]|H4]].
    + rewrite H4. cbn [obind]. destruct (on_request x w r) as [[w1 a] calls].
      assert (Z : forall l0, notes l0 = [] -> shown l0 = OConsult x r :: tl (shown l0) ->
        warning (find_session (sv_sessions s)) (mb_unit m) (fc :: rest) (notes l0) /\ same_but_queue s (api_calls s calls) /\
        (notes l0 = [] <-> exists y r', In (OConsult y r') (shown l0))).
      { intros l0 Z1 Z2. rewrite Z1. split; [exact (warn_none _ _ _ x r Ex H1 H3)|]. split; [apply api_calls_sbq|].
        split; [intros _; exists x, r; rewrite Z2; left; reflexivity|reflexivity]. }
      destruct a as [resp|e]; [|destruct e]; intros [= <- <- <-]; apply Z; reflexivity.
    + rewrite H5. cbn [obind]. intros [= <- <- <-]. split.
      * apply (warn_invalid _ _ _ x fc rest Ex eq_refl Hs). intros r Hl. exact (illegal_not_legal fc _ r Hb H4 Hl).
      * split; [apply sbq_refl|]. split; [discriminate|intros (? & ? & [H|[]]); discriminate].
    + rewrite H4. cbn [obind]. intros [= <- <- <-]. split.
      * apply (warn_invalid _ _ _ x fc rest Ex eq_refl Hs). intros r Hl Hp.
        apply (parse_malformed_iff fc p _ Ep Hb) in H4. destruct H4 as [_ H5].
        destruct (pdu_head _ _ Hp) as (rest' & E). injection E as E _. symmetry in E. exact (H5 r Hl E Hp).
      * split; [apply sbq_refl|]. split; [discriminate|intros (? & ? & [])].
  - intros [= <- <- <-]. split.
    + apply (warn_unsupported _ _ _ x fc rest Ex eq_refl). intros Hs. apply request_parser_supported in Hs. destruct Hs. congruence.
    + split; [apply sbq_refl|]. split; [discriminate|intros (? & ? & [H|[]]); discriminate].
Qed.

Lemma messages_warnings ms : forall s w c s' w' l, sv_shutdown s = false -> Forall typed_message ms -> log_on_messages on_request s w c ms = Ret (s', w', l) ->
  exists wss, Forall2 (fun m ws => warning (registry s) (mb_unit m) (mb_data m) ws) ms wss /\ notes l = List.concat wss.
Proof.
  induction ms as [|m ms IH]; intros s w c s' w' l Ed Hm; cbn [log_on_messages].
  - intros [= <- <- <-]. exists []. split; [constructor|reflexivity].
  - inversion Hm as [|? ? Hm1 Hm2]; subst.
    destruct (log_on_mbap on_request s w c m) as [[[s1 w1] l1]|] eqn:E1; cbn [obind]; [|discriminate].
    destruct (log_on_messages on_request s1 w1 c ms) as [[[s2 w2] l2]|] eqn:E2; cbn [obind]; [|discriminate]. intros [= <- <- <-].
    destruct (mbap_warning _ _ _ _ _ _ _ Ed Hm1 E1) as (A & B & _). destruct B as (B1 & _ & B3 & _).
    destruct (IH _ _ _ _ _ _ (eq_trans B1 Ed) Hm2 E2) as (wss & C & D).
    unfold registry in *. rewrite B3 in C. exists (notes l1 :: wss). split; [constructor; assumption|]. rewrite notes_app, D. reflexivity.
Qed.

Lemma receive_warnings pol s w c data p p' ms s' w' l : sv_shutdown s = false -> sv_conns s c = Some p -> mbap_parse pol p data = Ret (p', ms) ->
  Forall typed_message ms -> log_server_step on_request on_shutdown pol s w (EReceive c data) = Ret (s', w', l) ->
  exists wss, Forall2 (fun m ws => warning (registry s) (mb_unit m) (mb_data m) ws) ms wss /\ notes l = List.concat wss.
Proof.
  intros Ed Ec Ep Hm. cbn [log_server_step]. rewrite Ec, Ep. cbn [obind]. intros E.
  exact (messages_warnings ms (set_conn s c (Some p')) w c s' w' l Ed Hm E).
Qed.

(** What is logged when nothing is received, or nothing is listened to any more. *)
Lemma messages_down ms : forall s w c, sv_shutdown s = true -> log_on_messages on_request s w c ms = Ret (s, w, []).
Proof.
  induction ms as [|m ms IH]; intros s w c D; cbn [log_on_messages]; [reflexivity|].
  unfold log_on_mbap. rewrite D. cbn [obind]. rewrite (IH s w c D). reflexivity.
Qed.

Lemma server_events pol s w e s' w' l : log_server_step on_request on_shutdown pol s w e = Ret (s', w', l) ->
  match e with
  | EReceive _ _ => sv_shutdown s = true -> notes l = []
  | ERun => match sv_queue s with
            | TaskShutdown :: _ => exists o, l = Noted InfoShuttingDown :: map Shown o
            | _ => notes l = []
            end
  | _ => notes l = []
  end.
Proof.
  destruct e as [a| |c buf|c data|c]; cbn [log_server_step].
  - intros [= <- <- <-]. reflexivity.
  - destruct (sv_queue s) as [|t q]; [intros [= <- <- <-]; reflexivity|]. unfold log_run_task.
    destruct (run_task on_shutdown (set_queue s q) w t) as [[s1 w1] o1]. intros [= <- <- <-].
    destruct t; cbn [app]; [apply notes_map|exists o1; reflexivity|apply notes_map].
  - intros [= <- <- <-]. reflexivity.
  - destruct (sv_conns s c); [|intros [= <- <- <-]; reflexivity]. destruct (mbap_parse pol p data) as [[p' ms]|]; cbn [obind]; [|discriminate].
    intros E D. rewrite messages_down in E by exact D. injection E as <- <- <-. reflexivity.
  - destruct (sv_conns s c); intros [= <- <- <-]; reflexivity.
Qed.

Lemma server_stays pol s w e s' w' l : sv_shutdown s = true -> log_server_step on_request on_shutdown pol s w e = Ret (s', w', l) -> sv_shutdown s' = true.
Proof.
  intros D. destruct e as [a| |c buf|c data|c]; cbn [log_server_step].
  - intros [= <- <- <-]. destruct (api_call_sbq s a) as (Q & _). rewrite <- D. exact Q.
  - destruct (sv_queue s) as [|t q]; [intros [= <- <- <-]; exact D|]. unfold log_run_task.
    destruct (run_task on_shutdown (set_queue s q) w t) as [[s1 w1] o1] eqn:E. intros [= <- <- <-].
    destruct t; unfold run_task in E; cbn [set_queue sv_shutdown] in E; rewrite ?D in E; [injection E as <- _ _; exact D| |injection E as <- _ _; exact D].
    match type of E with context[shutdown_sessions on_shutdown ?a ?b ?x] =>
      destruct (shutdown_sessions_spec on_shutdown x a b) as (s2 & w2 & E2 & Q & _) end.
    rewrite E2 in E. injection E as <- _ _. exact Q.
  - intros [= <- <- <-]. exact D.
  - destruct (sv_conns s c); [|intros [= <- <- <-]; exact D]. destruct (mbap_parse pol p data) as [[p' ms]|]; cbn [obind]; [|discriminate].
    intros E. rewrite messages_down in E by exact D. injection E as <- <- <-. exact D.
  - destruct (sv_conns s c); intros [= <- <- <-]; exact D.
Qed.

Lemma server_silent pol es : forall s w s' w' l, sv_shutdown s = true -> log_server_run on_request on_shutdown pol s w es = Ret (s', w', l) ->
  Forall (eq InfoShuttingDown) (notes l).
Proof.
  induction es as [|e es IH]; intros s w s' w' l D; cbn [log_server_run]; [intros [= <- <- <-]; constructor|].
  destruct (log_server_step on_request on_shutdown pol s w e) as [[[s1 w1] l1]|] eqn:E1; cbn [obind]; [|discriminate].
  destruct (log_server_run on_request on_shutdown pol s1 w1 es) as [[[s2 w2] l2]|] eqn:E2; cbn [obind]; [|discriminate]. intros [= <- <- <-].
  rewrite notes_app. apply Forall_app. split; [|exact (IH _ _ _ _ _ (server_stays _ _ _ _ _ _ _ D E1) E2)].
  pose proof (server_events _ _ _ _ _ _ _ E1) as H.
  assert (C : notes l1 = [] \/ exists o, l1 = Noted InfoShuttingDown :: map Shown o).
  { destruct e; auto. destruct (sv_queue s) as [|[] ?]; auto. }
  destruct C as [->|(o & ->)]; [constructor|]. change (notes (Noted InfoShuttingDown :: map Shown o)) with (InfoShuttingDown :: notes (map Shown o)).
  rewrite notes_map. repeat constructor.
Qed.
End Server.

(** One warning at most, and which one is determined. *)
Lemma warning_fun registry unit pdu a b : bytes pdu -> warning registry unit pdu a -> warning registry unit pdu b -> a = b.
Proof.
  intros Hb Ha Hc.
  destruct Ha as [Ha|x Ha Ha2|x fc rest Ha1 Ha2 Ha3|x fc rest Ha1 Ha2 Ha3 Ha4|x r Ha1 Ha2 Ha3];
  destruct Hc as [Hc|x' Hc Hc2|x' fc' rest' Hc1 Hc2 Hc3|x' fc' rest' Hc1 Hc2 Hc3 Hc4|x' r' Hc1 Hc2 Hc3]; try reflexivity; try congruence.
  - destruct (pdu_head _ _ Hc3) as (rest & E). congruence.
  - destruct (pdu_head _ _ Hc3) as (rest' & E). rewrite Ha2 in E. injection E as -> _. contradiction (Ha3 (supported_code r')).
  - contradiction (Ha4 r' Hc2 Hc3).
  - destruct (pdu_head _ _ Ha3) as (rest & E). congruence.
  - destruct (pdu_head _ _ Ha3) as (rest & E). rewrite Hc2 in E. injection E as -> _. contradiction (Hc3 (supported_code r)).
  - contradiction (Hc4 r Ha2 Ha3).
Qed.
