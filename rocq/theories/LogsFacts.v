(** Proofs about the log of a client channel. *)
From Verif Require Import Prelude Ser4 Messages Mbap SpecPdu SpecMbap Client SpecClient ClientFacts Server SpecServer Logs SpecLogs.

(** ** The log changes nothing *)

Lemma seen_app a b : seen (a ++ b) = seen a ++ seen b.
Proof. apply flat_map_app. Qed.
Lemma lines_app a b : log_lines (a ++ b) = log_lines a ++ log_lines b.
Proof. apply flat_map_app. Qed.
Lemma seen_map o : seen (map Seen o) = o.
Proof. induction o as [|x o IH]; [reflexivity|]. cbn. f_equal. exact IH. Qed.
Lemma lines_map o : log_lines (map Seen o) = [].
Proof. induction o as [|x o IH]; [reflexivity|exact IH]. Qed.

Definition erase {W} (x : client * W * list centry) : client * W * list coutput :=
  let '(s, w, l) := x in (s, w, seen l).

Lemma check_erase s : check_pending_requests s = let '(s', l) := log_check_pending_requests s in (s', seen l).
Proof.
  unfold log_check_pending_requests. destruct (check_pending_requests s) as [s' o].
  rewrite seen_app, seen_map. replace (seen (sending_line s)) with (@nil coutput); [reflexivity|].
  unfold sending_line. destruct (cc_shutdown s), (cc_current s), (cc_pending s); reflexivity.
Qed.

Lemma cancel_erase s : cancel_current_request s = let '(s', l) := log_cancel_current_request s in (s', seen l).
Proof.
  unfold cancel_current_request, log_cancel_current_request. destruct (cc_current s); [apply check_erase|reflexivity].
Qed.

Section Client.
Context {W : Type}.
Context (handler : nat -> W -> expected (list N) -> W * list capi).

Lemma error_erase s w msg : on_error handler s w msg = erase (log_on_error handler s w msg).
Proof.
  unfold on_error, log_on_error. destruct (cc_shutdown s); [reflexivity|].
  destruct (cancel_all_pending_requests handler _ w msg) as [[s1 w1] o1].
  destruct (cc_current s1); [|cbn [erase seen flat_map app]; fold (seen (map Seen o1)); rewrite seen_map; reflexivity].
  destruct (call_handler handler s1 w1 _ _) as [[s2 w2] o2]. rewrite cancel_erase. destruct (log_cancel_current_request s2) as [s3 l3].
  cbn [erase]. change (Logged LogError :: ?l) with ([Logged LogError] ++ l). rewrite !seen_app, !seen_map. reflexivity.
Qed.

Lemma response_erase s w m : on_response handler s w m = erase (log_on_response handler s w m).
Proof.
  unfold on_response, log_on_response. destruct (cc_shutdown s); [reflexivity|]. destruct (cc_current s) as [p|]; [|reflexivity].
  destruct ((mb_tx m =? pr_tx p) && (mb_unit m =? pr_unit p)); [|reflexivity].
  destruct (call_handler handler _ w _ _) as [[s2 w2] o2]. rewrite check_erase. destruct (log_check_pending_requests _) as [s3 l3].
  cbn [erase]. change (Logged ?x :: ?l) with ([Logged x] ++ l). rewrite !seen_app, !seen_map. reflexivity.
Qed.

Lemma responses_erase ms : forall s w, on_responses handler s w ms = erase (log_on_responses handler s w ms).
Proof.
  induction ms as [|m ms IH]; intros s w; [reflexivity|]. cbn [on_responses log_on_responses]. rewrite response_erase.
  destruct (log_on_response handler s w m) as [[s1 w1] l1]. cbn [erase]. rewrite IH.
  destruct (log_on_responses handler s1 w1 ms) as [[s2 w2] l2]. cbn [erase]. rewrite seen_app. reflexivity.
Qed.

Lemma timeout_erase s w : on_timeout handler s w = erase (log_on_timeout handler s w).
Proof.
  unfold on_timeout, log_on_timeout. destruct (cc_shutdown s); [reflexivity|]. destruct (cc_current s) as [p|]; [|reflexivity].
  destruct (call_handler handler _ w _ _) as [[s2 w2] o2]. rewrite cancel_erase. destruct (log_cancel_current_request s2) as [s3 l3].
  cbn [erase]. change (Logged ?x :: ?l) with ([Logged x] ++ l). rewrite !seen_app, !seen_map. reflexivity.
Qed.

Lemma task_erase s w t : run_ctask handler s w t = erase (log_run_ctask handler s w t).
Proof.
  destruct t as [i k|i|]; cbn [run_ctask log_run_ctask].
  - destruct (cc_shutdown s); [reflexivity|]. rewrite check_erase. destruct (log_check_pending_requests _). reflexivity.
  - destruct (call_handler handler s w i _) as [[s1 w1] o1]. cbn [erase]. rewrite seen_map. reflexivity.
  - reflexivity.
Qed.

Lemma step_erase pol s w e : client_step handler pol s w e = omap erase (log_client_step handler pol s w e).
Proof.
  destruct e as [a| |data|msg|t|t]; cbn [client_step log_client_step].
  - destruct (capi_call s a) as [s1 o1]. cbn. rewrite seen_map. reflexivity.
  - destruct (cc_queue s); [reflexivity|]. rewrite task_erase. reflexivity.
  - unfold on_receive, log_on_receive. destruct (cc_shutdown s); [reflexivity|].
    destruct (mbap_parse pol (cc_parser s) data) as [[p ms]|]; cbn [obind]; [|reflexivity].
    rewrite responses_erase. destruct (log_on_responses handler _ w ms) as [[s1 w1] l1]. reflexivity.
  - rewrite error_erase. reflexivity.
  - destruct (existsb (Nat.eqb t) (cc_armed s)); reflexivity.
  - destruct (existsb (Nat.eqb t) (cc_expired s)); [|reflexivity]. rewrite timeout_erase. reflexivity.
Qed.

Lemma run_erase pol es : forall s w, client_run handler pol s w es = omap erase (log_client_run handler pol s w es).
Proof.
  induction es as [|e es IH]; intros s w; [reflexivity|]. cbn [client_run log_client_run]. rewrite step_erase.
  destruct (log_client_step handler pol s w e) as [[[s1 w1] l1]|]; cbn [omap obind erase]; [|reflexivity]. rewrite IH.
  destruct (log_client_run handler pol s1 w1 es) as [[[s2 w2] l2]|]; cbn [omap obind erase]; [|reflexivity]. rewrite seen_app. reflexivity.
Qed.

(** ** What is logged is true *)

Definition owed (l : list centry) (p : prequest) : Prop :=
  exists k, In (Seen (Called (pr_id p) k)) l /\ pr_unit p = k_unit k /\ pr_msg p = k_msg k /\ pr_timeout p = k_timeout k.

Record knows (s : client) (l : list centry) : Prop := {
  kn_owed : forall p, in_service s p -> owed l p;
  kn_send : forall i k, In (DoSend i k) (cc_queue s) -> In (Seen (Called i k)) l;
  kn_reject : forall i, In (DoReject i) (cc_queue s) -> exists k, In (Seen (Called i k)) l /\ im_valid (k_msg k) = false;
  kn_sent : forall p, cc_current s = Some p -> exists v, In (Seen (Sent (pr_id p) (pr_unit p) (pr_tx p) v)) l
}.

Definition good (s : client) (l : list centry) : Prop := well_logged l /\ knows s l.

Lemma owed_more l l' p : owed l p -> owed (l ++ l') p.
Proof. intros (k & A & B). exists k. split; [apply in_or_app; auto|exact B]. Qed.

(** Only these parts of the state matter. *)
Lemma knows_less s s' l l' : knows s l ->
  (forall p, in_service s' p -> in_service s p) -> (forall p, cc_current s' = Some p -> cc_current s = Some p) ->
  incl (cc_queue s') (cc_queue s) -> knows s' (l ++ l').
Proof.
  intros [A B C D] H1 H2 H3. constructor.
  - intros p H. apply owed_more, A, H1, H.
  - intros i k H. apply in_or_app. left. apply B, H3, H.
  - intros i H. destruct (C i (H3 _ H)) as (k & K1 & K2). exists k. split; [apply in_or_app; auto|exact K2].
  - intros p H. destruct (D p (H2 p H)) as (v & K). exists v. apply in_or_app. auto.
Qed.

Lemma good_less s s' l : good s l ->
  (forall p, in_service s' p -> in_service s p) -> (forall p, cc_current s' = Some p -> cc_current s = Some p) ->
  incl (cc_queue s') (cc_queue s) -> good s' l.
Proof. intros [A B] H1 H2 H3. split; [exact A|]. rewrite <- (app_nil_r l). exact (knows_less s s' l [] B H1 H2 H3). Qed.

Lemma good_more s l l' : good s l -> entered l l' -> good s (l ++ l').
Proof.
  intros [A B] E. split; [exact (logged_more l l' A E)|]. apply (knows_less s s l l' B); auto. apply incl_refl.
Qed.

Lemma good_called o : Forall (fun x => exists i k, x = Called i k) o -> forall l, well_logged l -> well_logged (l ++ map Seen o).
Proof.
  induction 1 as [|x o (i & k & ->) _ IH]; intros l A; cbn [map]; [rewrite app_nil_r; exact A|].
  change (Seen (Called i k) :: map Seen o) with ([Seen (Called i k)] ++ map Seen o). rewrite app_assoc.
  apply IH, logged_more; [exact A|apply entered_call].
Qed.

Lemma good_posts s l q o m n : good s l -> posts (cc_shutdown s) n q o m -> good (with_queue s (cc_queue s ++ q) m) (l ++ map Seen o).
Proof.
  intros [A [B1 B2 B3 B4]] P. split; [exact (good_called o (ps_only _ _ _ _ _ P) l A)|]. constructor.
  - intros p H. apply owed_more, B1, H.
  - intros i k H. apply in_app_or in H as [H|H]; apply in_or_app; [left; exact (B2 i k H)|right].
    apply in_map. exact (proj1 (ps_send _ _ _ _ _ P i k H)).
  - intros i H. apply in_app_or in H as [H|H].
    + destruct (B3 i H) as (k & K1 & K2). exists k. split; [apply in_or_app; auto|exact K2].
    + destruct (ps_reject _ _ _ _ _ P i H) as (k & K1 & K2). exists k. split; [apply in_or_app; right; apply in_map, K1|exact K2].
  - intros p H. destruct (B4 p H) as (v & K). exists v. apply in_or_app. auto.
Qed.

(** A handler is called, as the log says: [pre] is the line, if any. *)
Lemma good_handler s l w i r pre s' w' o : good s l -> entered l (pre ++ [Seen (Completed i r)]) ->
  call_handler handler s w i r = (s', w', o) ->
  good s' (l ++ pre ++ map Seen o) /\ cc_current s' = cc_current s /\ cc_pending s' = cc_pending s /\ cc_shutdown s' = cc_shutdown s /\
  exists o', o = Completed i r :: o' /\ Forall (fun x => exists i k, x = Called i k) o'.
Proof.
  intros G E H. destruct (call_handler_spec handler s w i r) as (w1 & q & o1 & m & E1 & P). rewrite E1 in H. injection H as <- <- <-.
  assert (G1 := good_posts s _ q o1 m _ (good_more s l _ G E) P). rewrite <- !app_assoc in G1.
  split; [exact G1|]. split; [reflexivity|]. split; [reflexivity|]. split; [reflexivity|]. exists o1. split; [reflexivity|exact (ps_only _ _ _ _ _ P)].
Qed.

Lemma good_check s l s' l' : good s l -> log_check_pending_requests s = (s', l') -> good s' (l ++ l').
Proof.
  intros G. unfold log_check_pending_requests, sending_line, check_pending_requests. destruct (cc_shutdown s).
  { intros [= <- <-]. rewrite app_nil_r. exact G. }
  destruct (cc_current s) as [p|] eqn:Ec; [intros [= <- <-]; rewrite app_nil_r; exact G|].
  destruct (cc_pending s) as [|p ps] eqn:Ep; [intros [= <- <-]; rewrite app_nil_r; exact G|]. intros [= <- <-]. cbn [map app].
  destruct (kn_owed s l (proj2 G) p) as (k & K1 & K2 & K3 & K4); [right; rewrite Ep; left; reflexivity|].
  rewrite K2, K3, K4. destruct G as [A [B1 B2 B3 B4]].
  assert (E := entered_sent l (pr_id p) k (cc_next_timer s) (pr_tx p) K1). split; [exact (logged_more _ _ A E)|]. constructor.
  - intros p' [H|H]; apply owed_more, B1; cbn in H; [injection H as <-; right; rewrite Ep; left; reflexivity|right; rewrite Ep; right; exact H].
  - intros i k' H. apply in_or_app. left. exact (B2 i k' H).
  - intros i H. destruct (B3 i H) as (k' & K). exists k'. split; [apply in_or_app; left; apply K|apply K].
  - intros p' H. cbn in H. injection H as <-. eexists. apply in_or_app. right. rewrite K2. right. left. reflexivity.
Qed.

Lemma good_cancel s l s' l' : good s l -> log_cancel_current_request s = (s', l') -> good s' (l ++ l').
Proof.
  intros G. unfold log_cancel_current_request. destruct (cc_current s) as [p|] eqn:Ec; [|intros [= <- <-]; rewrite app_nil_r; exact G].
  apply good_check. apply (good_less s); [exact G| | |apply incl_refl].
  - intros p' [H|H]; [discriminate|right; exact H].
  - discriminate.
Qed.

Lemma good_response s l w m s' w' l' : good s l -> log_on_response handler s w m = (s', w', l') -> good s' (l ++ l').
Proof.
  intros G. unfold log_on_response. destruct (cc_shutdown s); [intros [= <- <- <-]; rewrite app_nil_r; exact G|].
  destruct (cc_current s) as [p|] eqn:Ec; [|intros [= <- <- <-]; exact (good_more s l _ G (entered_not_waiting l))].
  destruct ((mb_tx m =? pr_tx p) && (mb_unit m =? pr_unit p)) eqn:Em; [|intros [= <- <- <-]; exact (good_more s l _ G (entered_unexpected l _ _))].
  apply andb_true_iff in Em as [Et Eu]. apply N.eqb_eq in Et, Eu. rewrite Et, Eu.
  assert (G1 : good (cancel_timer s) l) by (apply (good_less s); auto; apply incl_refl).
  destruct (kn_sent s l (proj2 G) p Ec) as (v & K).
  destruct (call_handler handler (cancel_timer s) w (pr_id p) (Value (mb_data m))) as [[s1 w1] o1] eqn:E1.
  destruct (good_handler _ l w (pr_id p) _ [Logged (LogResponse (pr_unit p) (pr_tx p))] s1 w1 o1 G1 (entered_response l _ _ _ v _ K) E1) as (G2 & C2 & P2 & _).
  destruct (log_check_pending_requests (with_current s1 None)) as [s2 l2] eqn:E2. intros [= <- <- <-].
  assert (G3 : good (with_current s1 None) (l ++ [Logged (LogResponse (pr_unit p) (pr_tx p))] ++ map Seen o1)).
  { apply (good_less s1); [exact G2| | |apply incl_refl].
    - intros p' [H|H]; [discriminate|right; exact H].
    - discriminate. }
  assert (G4 := good_check _ _ _ _ G3 E2). rewrite <- !app_assoc in G4. exact G4.
Qed.

Lemma good_responses ms : forall s l w s' w' l', good s l -> log_on_responses handler s w ms = (s', w', l') -> good s' (l ++ l').
Proof.
  induction ms as [|m ms IH]; intros s l w s' w' l' G; cbn [log_on_responses].
  - intros [= <- <- <-]. rewrite app_nil_r. exact G.
  - destruct (log_on_response handler s w m) as [[s1 w1] l1] eqn:E1. destruct (log_on_responses handler s1 w1 ms) as [[s2 w2] l2] eqn:E2.
    intros [= <- <- <-]. rewrite app_assoc. exact (IH _ _ _ _ _ _ (good_response _ _ _ _ _ _ _ G E1) E2).
Qed.

Lemma good_timeout s l w s' w' l' : good s l -> log_on_timeout handler s w = (s', w', l') -> good s' (l ++ l').
Proof.
  intros G. unfold log_on_timeout. destruct (cc_shutdown s); [intros [= <- <- <-]; rewrite app_nil_r; exact G|].
  destruct (cc_current s) as [p|] eqn:Ec; [|intros [= <- <- <-]; rewrite app_nil_r; exact G].
  destruct (kn_sent s l (proj2 G) p Ec) as (v & K).
  destruct (call_handler handler s w (pr_id p) (Error ETimeout)) as [[s1 w1] o1] eqn:E1.
  destruct (good_handler _ l w (pr_id p) _ [Logged (LogTimeout (pr_unit p) (pr_tx p))] s1 w1 o1 G (entered_timeout l _ _ _ v K) E1) as (G2 & _).
  destruct (log_cancel_current_request s1) as [s2 l2] eqn:E2. intros [= <- <- <-].
  assert (G4 := good_cancel _ _ _ _ G2 E2). rewrite <- !app_assoc in G4. exact G4.
Qed.

Definition failing (msg : string) (o : coutput) : Prop :=
  (exists j k, o = Called j k) \/ (exists j, o = Completed j (Error (EConnection msg))).

Lemma called_failing msg o : Forall (fun x => exists i k, x = Called i k) o -> Forall (failing msg) o.
Proof. apply Forall_impl. intros x H. left. exact H. Qed.

Lemma good_fail_one s l0 os w i msg s' w' o : good s (l0 ++ Logged LogError :: map Seen os) -> Forall (failing msg) os ->
  call_handler handler s w i (Error (EConnection msg)) = (s', w', o) ->
  good s' (l0 ++ Logged LogError :: map Seen (os ++ o)) /\ Forall (failing msg) (os ++ o) /\
  cc_current s' = cc_current s /\ cc_pending s' = cc_pending s.
Proof.
  intros G F E.
  destruct (good_handler _ _ w i _ [] s' w' o G (entered_failed _ i msg l0 os eq_refl F) E) as (G1 & C & P & _ & o' & -> & Fo).
  rewrite map_app. rewrite <- app_assoc in G1. split; [exact G1|]. split; [|auto].
  apply Forall_app. split; [exact F|]. constructor; [right; eauto|exact (called_failing msg o' Fo)].
Qed.

Lemma good_fail_all msg ps : forall s l0 os w s' w' o, good s (l0 ++ Logged LogError :: map Seen os) -> Forall (failing msg) os ->
  fail_all handler s w ps msg = (s', w', o) ->
  good s' (l0 ++ Logged LogError :: map Seen (os ++ o)) /\ Forall (failing msg) (os ++ o) /\
  cc_current s' = cc_current s /\ cc_pending s' = cc_pending s.
Proof.
  induction ps as [|p ps IH]; intros s l0 os w s' w' o G F; cbn [fail_all].
  - intros [= <- <- <-]. rewrite app_nil_r. auto.
  - destruct (call_handler handler s w (pr_id p) (Error (EConnection msg))) as [[s1 w1] o1] eqn:E1.
    destruct (fail_all handler s1 w1 ps msg) as [[s2 w2] o2] eqn:E2. intros [= <- <- <-].
    destruct (good_fail_one _ _ _ _ _ _ _ _ _ G F E1) as (G1 & F1 & C1 & P1).
    destruct (IH _ _ _ _ _ _ _ G1 F1 E2) as (G2 & F2 & C2 & P2). rewrite app_assoc. split; [exact G2|]. split; [exact F2|]. split; congruence.
Qed.

Lemma good_error s l w msg s' w' l' : good s l -> log_on_error handler s w msg = (s', w', l') -> good s' (l ++ l').
Proof.
  intros G. unfold log_on_error. destruct (cc_shutdown s); [intros [= <- <- <-]; rewrite app_nil_r; exact G|].
  set (s0 := with_parser s (mbap_reset (cc_parser s))).
  assert (G0 : good s0 (l ++ Logged LogError :: map Seen [])).
  { apply (good_less s); auto; [exact (good_more s l _ G (entered_error l))|apply incl_refl]. }
  unfold cancel_all_pending_requests. destruct (fail_all handler s0 w (cc_pending s0) msg) as [[s1 w1] o1] eqn:E1.
  destruct (good_fail_all msg _ _ _ _ _ _ _ _ G0 (Forall_nil _) E1) as (G1 & F1 & C1 & P1). cbn [app] in G1, F1.
  assert (G1' : good (with_pending s1 []) (l ++ Logged LogError :: map Seen o1)).
  { apply (good_less s1); [exact G1| |auto|apply incl_refl]. intros p' [H|[]]. left. exact H. }
  destruct (cc_current (with_pending s1 [])) as [p|] eqn:Ec; [|intros [= <- <- <-]; exact G1'].
  destruct (call_handler handler (with_pending s1 []) w1 (pr_id p) (Error (EConnection msg))) as [[s2 w2] o2] eqn:E2.
  destruct (good_fail_one _ _ _ _ _ _ _ _ _ G1' F1 E2) as (G2 & _).
  destruct (log_cancel_current_request s2) as [s3 l3] eqn:E3. intros [= <- <- <-].
  assert (G4 := good_cancel _ _ _ _ G2 E3). rewrite map_app in G4. cbn [app] in G4. rewrite <- !app_assoc in G4. cbn [app] in G4.
  rewrite <- !app_assoc in G4. exact G4.
Qed.

Lemma good_task s l w t q s' w' l' : good s l -> cc_queue s = t :: q ->
  log_run_ctask handler (with_queue s q (cc_calls s)) w t = (s', w', l') -> good s' (l ++ l').
Proof.
  intros G Eq.
  assert (G0 : good (with_queue s q (cc_calls s)) l).
  { apply (good_less s); [exact G|auto|auto|]. rewrite Eq. cbn. apply incl_tl, incl_refl. }
  destruct t as [i k|i|]; cbn [log_run_ctask].
  - destruct (cc_shutdown (with_queue s q (cc_calls s))); [intros [= <- <- <-]; rewrite app_nil_r; exact G0|].
    destruct (log_check_pending_requests _) as [s1 l1] eqn:E1. intros [= <- <- <-]. refine (good_check _ _ _ _ _ E1).
    destruct G0 as [A [B1 B2 B3 B4]]. split; [exact A|]. constructor.
    + intros p [H|H]; [apply B1; left; exact H|]. cbn [with_next_tx with_pending cc_pending] in H. apply in_app_or in H as [H|[<-|[]]]; [apply B1; right; exact H|].
      exists k. cbn. split; [|auto]. apply (kn_send s l (proj2 G)). rewrite Eq. left. reflexivity.
    + exact B2.
    + exact B3.
    + exact B4.
  - destruct (kn_reject s l (proj2 G) i) as (k & K1 & K2); [rewrite Eq; left; reflexivity|].
    destruct (call_handler handler _ w i _) as [[s1 w1] o1] eqn:E1. intros [= <- <- <-].
    destruct (good_handler _ _ w i _ [] s1 w1 o1 G0 (entered_rejected l i k K1 K2) E1) as (G1 & _). exact G1.
  - intros [= <- <- <-]. apply good_more; [|apply entered_shutdown].
    apply (good_less (with_queue s q (cc_calls s))); [exact G0| | |apply incl_refl].
    + intros p [H|[]]. discriminate.
    + discriminate.
Qed.

Lemma good_step pol s l w e s' w' l' : good s l -> log_client_step handler pol s w e = Ret (s', w', l') -> good s' (l ++ l').
Proof.
  intros G. destruct e as [a| |data|msg|t|t]; cbn [log_client_step].
  - assert (C := capi_calls_spec s [a]). cbn [capi_calls] in C. destruct (capi_call s a) as [s1 o1].
    destruct C as (q & o & m & C & P). rewrite app_nil_r in C. injection C as -> ->. intros [= <- <- <-]. exact (good_posts s l q o m _ G P).
  - destruct (cc_queue s) as [|t q] eqn:Eq; [intros [= <- <- <-]; rewrite app_nil_r; exact G|]. intros [= E]. exact (good_task s l w t q _ _ _ G Eq E).
  - unfold log_on_receive. destruct (cc_shutdown s); [intros [= <- <- <-]; rewrite app_nil_r; exact G|].
    destruct (mbap_parse pol (cc_parser s) data) as [[p ms]|]; cbn [obind]; [|discriminate].
    destruct (log_on_responses handler (with_parser s p) w ms) as [[s1 w1] l1] eqn:E1. intros [= <- <- <-].
    assert (G1 : good (with_parser s p) (l ++ [Logged (LogReceived (size data))])).
    { apply (good_less s); auto; [exact (good_more s l _ G (entered_received l _))|apply incl_refl]. }
    assert (G2 := good_responses ms _ _ _ _ _ _ G1 E1). rewrite <- app_assoc in G2. exact G2.
  - intros [= E]. exact (good_error s l w msg _ _ _ G E).
  - destruct (existsb (Nat.eqb t) (cc_armed s)); intros [= <- <- <-]; rewrite app_nil_r; [|exact G]. apply (good_less s); auto. apply incl_refl.
  - destruct (existsb (Nat.eqb t) (cc_expired s)); [|intros [= <- <- <-]; rewrite app_nil_r; exact G]. intros [= E].
    refine (good_timeout _ l w _ _ _ _ E). apply (good_less s); auto. apply incl_refl.
Qed.

Lemma good_run pol es : forall s l w s' w' l', good s l -> log_client_run handler pol s w es = Ret (s', w', l') -> good s' (l ++ l').
Proof.
  induction es as [|e es IH]; intros s l w s' w' l' G; cbn [log_client_run].
  - intros [= <- <- <-]. rewrite app_nil_r. exact G.
  - destruct (log_client_step handler pol s w e) as [[[s1 w1] l1]|] eqn:E1; cbn [obind]; [|discriminate].
    destruct (log_client_run handler pol s1 w1 es) as [[[s2 w2] l2]|] eqn:E2; cbn [obind]; [|discriminate].
    intros [= <- <- <-]. rewrite app_assoc. exact (IH _ _ _ _ _ _ (good_step _ _ _ _ _ _ _ _ G E1) E2).
Qed.

Lemma client_well_logged pol es buf w s' w' l : log_client_run handler pol (client_init buf) w es = Ret (s', w', l) -> well_logged l.
Proof.
  intros E. assert (G : good (client_init buf) []).
  { split; [constructor|]. constructor; cbn; try (intros; contradiction); [|discriminate]. intros p [H|[]]. discriminate. }
  exact (proj1 (good_run pol es _ _ _ _ _ _ G E)).
Qed.
End Client.

(** ** What can be read off the log *)

Lemma said_app a b : said_sent (a ++ b) = said_sent a ++ said_sent b.
Proof. unfold said_sent. rewrite lines_app. apply flat_map_app. Qed.
Lemma really_app a b : really_sent (a ++ b) = really_sent a ++ really_sent b.
Proof. unfold really_sent. rewrite seen_app. apply flat_map_app. Qed.

Lemma log_accounts l : well_logged l ->
  said_sent l = really_sent l /\ said_answered l = really_answered l /\ said_timed_out l = really_timed_out l.
Proof.
  induction 1 as [|l l' _ (A & B & C) E]; [auto|]. rewrite said_app, really_app.
  unfold said_answered, really_answered, said_timed_out, really_timed_out in *. rewrite seen_app, lines_app, !filter_app, !app_length.
  rewrite A, B, C. destruct E; auto.
Qed.
