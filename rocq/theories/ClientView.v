(** The client channel as its handlers see it: the state of the handlers after a step
    depends on the completions in it only, and the channel cannot tell the handlers
    from a script. *)
From Verif Require Import Prelude Ser4 Messages Mbap SpecPdu SpecMbap Client SpecClient MbapFacts MbapLemmas BitFacts ClientFacts ClientLemmas ClientShutdown.
From Coq Require Import Lia.

(** A handler that makes prescribed calls. *)
Definition scripted (i : nat) (w : list (list capi)) (x : expected (list N)) : list (list capi) * list capi :=
  (tl w, hd [] w).

(** The requests among calls of the channel, and those seen by it. *)
Definition submits (c : list capi) : list call :=
  flat_map (fun a => match a with Submit k => [k] | Shutdown => [] end) c.
Definition calls_of (o : list coutput) : list call :=
  flat_map (fun x => match x with Called _ k => [k] | _ => [] end) o.

Lemma submits_app a b : submits (a ++ b) = submits a ++ submits b.
Proof. unfold submits. apply flat_map_app. Qed.

Lemma calls_of_app a b : calls_of (a ++ b) = calls_of a ++ calls_of b.
Proof. unfold calls_of. apply flat_map_app. Qed.

Lemma capi_calls_of l : forall s s' o, capi_calls s l = (s', o) -> calls_of o = submits l /\ results o = [].
Proof.
  induction l as [|a l IH]; intros s s' o; cbn [capi_calls]; [intros E; inversion E; split; reflexivity|].
  destruct (capi_call s a) as [s1 o1] eqn:E1. destruct (capi_calls s1 l) as [s2 o2] eqn:E2. intros E. inversion E; subst.
  specialize (IH _ _ _ E2). destruct IH as [IH1 IH2]. rewrite calls_of_app, results_app, IH1, IH2.
  destruct a; cbn in E1; inversion E1; subst; split; reflexivity.
Qed.

Section View.
Context {W : Type}.
Context (handler : nat -> W -> expected (list N) -> W * list capi).

(** The handlers called one after the other, and the calls each of them makes. *)
Fixpoint walk (w : W) (l : list (nat * expected (list N))) : W * list (list capi) :=
  match l with
  | [] => (w, [])
  | (i, x) :: l' =>
      let '(w, c) := handler i w x in
      let '(w, cs) := walk w l' in
      (w, c :: cs)
  end.

Lemma walk_app a : forall b w, walk w (a ++ b) =
  let '(w1, c1) := walk w a in let '(w2, c2) := walk w1 b in (w2, c1 ++ c2).
Proof.
  induction a as [|[i x] a IH]; intros b w; cbn [walk app].
  - destruct (walk w b); reflexivity.
  - destruct (handler i w x) as [w1 c]. rewrite IH. destruct (walk w1 a) as [w2 c2]. destruct (walk w2 b). reflexivity.
Qed.

(** [f] is the function applied to a script. *)
Definition seen (w w' : W) (s' : client) (o : list coutput)
    (f : list (list capi) -> client * list (list capi) * list coutput) : Prop :=
  exists script, walk w (results o) = (w', script) /\ calls_of o = submits (List.concat script) /\
    forall rest, f (script ++ rest) = (s', rest, o).

Lemma concat_app2 {A} (a b : list (list A)) : List.concat (a ++ b) = List.concat a ++ List.concat b.
Proof. apply concat_app. Qed.

(** Nothing but effects without handlers. *)
Lemma seen_none w s' o f : results o = [] -> calls_of o = [] -> (forall rest, f rest = (s', rest, o)) -> seen w w s' o f.
Proof. intros R C H. exists []. rewrite R, C. split; [reflexivity|]. split; [reflexivity|exact H]. Qed.

(** One after the other. *)
Lemma seen_app w w1 w2 s1 s2 o1 o2 f1 f2 f :
  seen w w1 s1 o1 f1 -> seen w1 w2 s2 o2 f2 ->
  (forall script rest, f1 script = (s1, rest, o1) -> forall rest', f2 rest = (s2, rest', o2) -> f script = (s2, rest', o1 ++ o2)) ->
  seen w w2 s2 (o1 ++ o2) f.
Proof.
  intros (c1 & A1 & B1 & C1) (c2 & A2 & B2 & C2) H. exists (c1 ++ c2).
  rewrite results_app, walk_app, A1, A2. split; [reflexivity|].
  rewrite calls_of_app, concat_app2, submits_app, B1, B2. split; [reflexivity|].
  intros rest. rewrite <- app_assoc. exact (H _ _ (C1 _) _ (C2 _)).
Qed.

(** Followed by effects without handlers. *)
Lemma seen_then w w1 s1 s2 o1 o2 f1 f :
  seen w w1 s1 o1 f1 -> results o2 = [] -> calls_of o2 = [] ->
  (forall script rest, f1 script = (s1, rest, o1) -> f script = (s2, rest, o1 ++ o2)) ->
  seen w w1 s2 (o1 ++ o2) f.
Proof.
  intros (c1 & A1 & B1 & C1) R C H. exists c1. rewrite results_app, R, app_nil_r, calls_of_app, C, app_nil_r.
  split; [exact A1|]. split; [exact B1|]. intros rest. apply H, C1.
Qed.

Lemma call_handler_seen s w i x s' w' o : call_handler handler s w i x = (s', w', o) ->
  seen w w' s' o (fun v => call_handler scripted s v i x).
Proof.
  unfold call_handler. destruct (handler i w x) as [w1 c] eqn:E. destruct (capi_calls s c) as [s1 o1] eqn:E1.
  intros H. inversion H; subst. destruct (capi_calls_of _ _ _ _ E1) as [A B].
  exists [c]. change (Completed i x :: o1) with ([Completed i x] ++ o1). rewrite results_app, B. cbn [app results flat_map].
  cbn [walk]. rewrite E. split; [reflexivity|]. split.
  - cbn [List.concat]. rewrite app_nil_r, <- A. reflexivity.
  - intros rest. unfold scripted. cbn [tl hd app]. rewrite E1. reflexivity.
Qed.

Lemma check_silent s s' o : check_pending_requests s = (s', o) -> results o = [] /\ calls_of o = [].
Proof.
  unfold check_pending_requests. destruct (cc_shutdown s); [intros E; inversion E; split; reflexivity|].
  destruct (cc_current s); [intros E; inversion E; split; reflexivity|].
  destruct (cc_pending s); intros E; inversion E; split; reflexivity.
Qed.

Lemma cancel_silent s s' o : cancel_current_request s = (s', o) -> results o = [] /\ calls_of o = [].
Proof.
  unfold cancel_current_request. destruct (cc_current s); [apply check_silent|]. intros E; inversion E; split; reflexivity.
Qed.

Lemma fail_all_seen msg l : forall s w s' w' o, fail_all handler s w l msg = (s', w', o) ->
  seen w w' s' o (fun v => fail_all scripted s v l msg).
Proof.
  induction l as [|p l IH]; intros s w s' w' o; cbn [fail_all].
  - intros E; inversion E; subst. apply seen_none; try reflexivity.
  - destruct (call_handler handler s w (pr_id p) (Error (EConnection msg))) as [[s1 w1] o1] eqn:E1.
    destruct (fail_all handler s1 w1 l msg) as [[s2 w2] o2] eqn:E2. intros E; inversion E; subst.
    eapply seen_app; [exact (call_handler_seen _ _ _ _ _ _ _ E1)|exact (IH _ _ _ _ _ E2)|].
    intros script rest H1 rest' H2. rewrite H1, H2. reflexivity.
Qed.

Lemma on_error_seen s w msg s' w' o : Client.on_error handler s w msg = (s', w', o) ->
  seen w w' s' o (fun v => Client.on_error scripted s v msg).
Proof.
  unfold Client.on_error. destruct (cc_shutdown s); [intros E; inversion E; subst; apply seen_none; reflexivity|].
  unfold cancel_all_pending_requests. set (s0 := with_parser s (mbap_reset (cc_parser s))).
  destruct (fail_all handler s0 w (cc_pending s0) msg) as [[s1 w1] o1] eqn:E1.
  apply fail_all_seen in E1.
  destruct (cc_current (with_pending s1 [])) as [p|] eqn:Ec.
  - destruct (call_handler handler (with_pending s1 []) w1 (pr_id p) (Error (EConnection msg))) as [[s2 w2] o2] eqn:E2.
    apply call_handler_seen in E2.
    destruct (cancel_current_request s2) as [s3 o3] eqn:E3. intros E; inversion E; subst.
    destruct (cancel_silent _ _ _ E3) as [R3 C3].
    eapply seen_app; [exact E1| |].
    + eapply (seen_then _ _ _ _ _ _ _ (fun v => let '(s, w, o') := call_handler scripted (with_pending s1 []) v (pr_id p) (Error (EConnection msg)) in
        let '(s, o'') := cancel_current_request s in (s, w, o' ++ o''))); [exact E2|exact R3|exact C3|].
      intros script rest H. rewrite H, E3. reflexivity.
    + intros script rest H1 rest' H2. cbv beta in H1, H2. rewrite H1, Ec.
      destruct (call_handler scripted (with_pending s1 []) rest (pr_id p) (Error (EConnection msg))) as [[s4 w4] o4].
      destruct (cancel_current_request s4) as [s5 o5]. inversion H2; subst. reflexivity.
  - intros E; inversion E; subst. destruct E1 as (c & A & B & C). exists c. split; [exact A|]. split; [exact B|].
    intros rest. rewrite C, Ec. reflexivity.
Qed.

Lemma on_response_seen s w m s' w' o : on_response handler s w m = (s', w', o) ->
  seen w w' s' o (fun v => on_response scripted s v m).
Proof.
  unfold on_response. destruct (cc_shutdown s); [intros E; inversion E; subst; apply seen_none; reflexivity|].
  destruct (cc_current s) as [p|]; [|intros E; inversion E; subst; apply seen_none; reflexivity].
  destruct ((mb_tx m =? pr_tx p) && (mb_unit m =? pr_unit p)); [|intros E; inversion E; subst; apply seen_none; reflexivity].
  destruct (call_handler handler (cancel_timer s) w (pr_id p) (Value (mb_data m))) as [[s1 w1] o1] eqn:E1.
  destruct (check_pending_requests (with_current s1 None)) as [s2 o2] eqn:E2. intros E; inversion E; subst.
  destruct (check_silent _ _ _ E2) as [R2 C2].
  eapply seen_then; [exact (call_handler_seen _ _ _ _ _ _ _ E1)|exact R2|exact C2|].
  intros script rest H. rewrite H, E2. reflexivity.
Qed.

Lemma on_responses_seen ms : forall s w s' w' o, on_responses handler s w ms = (s', w', o) ->
  seen w w' s' o (fun v => on_responses scripted s v ms).
Proof.
  induction ms as [|m ms IH]; intros s w s' w' o; cbn [on_responses].
  - intros E; inversion E; subst. apply seen_none; reflexivity.
  - destruct (on_response handler s w m) as [[s1 w1] o1] eqn:E1.
    destruct (on_responses handler s1 w1 ms) as [[s2 w2] o2] eqn:E2. intros E; inversion E; subst.
    eapply seen_app; [exact (on_response_seen _ _ _ _ _ _ E1)|exact (IH _ _ _ _ _ E2)|].
    intros script rest H1 rest' H2. rewrite H1, H2. reflexivity.
Qed.

Lemma on_timeout_seen s w s' w' o : on_timeout handler s w = (s', w', o) ->
  seen w w' s' o (fun v => on_timeout scripted s v).
Proof.
  unfold on_timeout. destruct (cc_shutdown s); [intros E; inversion E; subst; apply seen_none; reflexivity|].
  destruct (cc_current s) as [p|]; [|intros E; inversion E; subst; apply seen_none; reflexivity].
  destruct (call_handler handler s w (pr_id p) (Error ETimeout)) as [[s1 w1] o1] eqn:E1.
  destruct (cancel_current_request s1) as [s2 o2] eqn:E2. intros E; inversion E; subst.
  destruct (cancel_silent _ _ _ E2) as [R2 C2].
  eapply seen_then; [exact (call_handler_seen _ _ _ _ _ _ _ E1)|exact R2|exact C2|].
  intros script rest H. rewrite H, E2. reflexivity.
Qed.

Lemma run_ctask_seen s w t s' w' o : run_ctask handler s w t = (s', w', o) ->
  seen w w' s' o (fun v => run_ctask scripted s v t).
Proof.
  destruct t as [i k|i|]; cbn [run_ctask].
  - destruct (cc_shutdown s); [intros E; inversion E; subst; apply seen_none; reflexivity|].
    match goal with |- context [check_pending_requests ?x] => destruct (check_pending_requests x) as [s1 o1] eqn:E1 end.
    intros E; inversion E; subst. destruct (check_silent _ _ _ E1) as [R C]. apply seen_none; [exact R|exact C|reflexivity].
  - apply call_handler_seen.
  - intros E; inversion E; subst. apply seen_none; reflexivity.
Qed.

(** A step of the channel that is not an API call. *)
Lemma step_seen pol s w e s' w' o : client_step handler pol s w e = Ret (s', w', o) -> (forall a, e <> CApi a) ->
  exists script, walk w (results o) = (w', script) /\ calls_of o = submits (List.concat script) /\
    forall rest, client_step scripted pol s (script ++ rest) e = Ret (s', rest, o).
Proof.
  intros H Ha. destruct e as [a| |d|msg|t|t]; cbn [client_step] in *.
  - exfalso. exact (Ha a eq_refl).
  - destruct (cc_queue s) as [|t q]; [inversion H; subst; exists []; repeat split; reflexivity|].
    destruct (run_ctask handler (with_queue s q (cc_calls s)) w t) as [[s1 w1] o1] eqn:E. inversion H; subst.
    destruct (run_ctask_seen _ _ _ _ _ _ E) as (c & A & B & C). exists c. split; [exact A|]. split; [exact B|].
    intros rest. rewrite C. reflexivity.
  - unfold on_receive in *. destruct (cc_shutdown s); [inversion H; subst; exists []; repeat split; reflexivity|].
    destruct (mbap_parse pol (cc_parser s) d) as [[p ms]|]; cbn [obind] in *; [|discriminate].
    destruct (on_responses handler (with_parser s p) w ms) as [[s1 w1] o1] eqn:E. inversion H; subst.
    destruct (on_responses_seen _ _ _ _ _ _ E) as (c & A & B & C). exists c. split; [exact A|]. split; [exact B|].
    intros rest. rewrite C. reflexivity.
  - destruct (Client.on_error handler s w msg) as [[s1 w1] o1] eqn:E. inversion H; subst.
    destruct (on_error_seen _ _ _ _ _ _ E) as (c & A & B & C). exists c. split; [exact A|]. split; [exact B|].
    intros rest. rewrite C. reflexivity.
  - exists []. destruct (existsb (Nat.eqb t) (cc_armed s)); inversion H; subst; repeat split; reflexivity.
  - destruct (existsb (Nat.eqb t) (cc_expired s)); [|inversion H; subst; exists []; repeat split; reflexivity].
    match type of H with context [on_timeout handler ?x w] => destruct (on_timeout handler x w) as [[s1 w1] o1] eqn:E end.
    inversion H; subst. destruct (on_timeout_seen _ _ _ _ _ E) as (c & A & B & C).
    exists c. split; [exact A|]. split; [exact B|]. intros rest. rewrite C. reflexivity.
Qed.

(** ** Only requests that were submitted before are completed *)
Lemma incl_waiting s s' : cc_current s' = None -> cc_pending s' = cc_pending s -> incl (waiting s') (waiting s).
Proof. intros A B i. unfold waiting. rewrite A, B. cbn [curid app]. intros H. apply in_or_app. right. exact H. Qed.

Lemma on_response_completed s w m s' w' o : on_response handler s w m = (s', w', o) ->
  incl (completed_ids o) (waiting s) /\ incl (waiting s') (waiting s).
Proof.
  unfold on_response. destruct (cc_shutdown s); [intros E; inversion E; subst; split; [intros i []|apply incl_refl]|].
  destruct (cc_current s) as [p|] eqn:Ec; [|intros E; inversion E; subst; split; [intros i []|apply incl_refl]].
  destruct ((mb_tx m =? pr_tx p) && (mb_unit m =? pr_unit p)); [|intros E; inversion E; subst; split; [intros i []|apply incl_refl]].
  destruct (call_handler_spec handler (cancel_timer s) w (pr_id p) (Value (mb_data m))) as (w1 & q & o1 & n & -> & P).
  destruct (check_pending_requests (with_current (with_queue (cancel_timer s) (cc_queue (cancel_timer s) ++ q) n) None)) as [s2 o2] eqn:E2.
  intros E; inversion E; subst. destruct (check_silent _ _ _ E2) as [R2 _].
  assert (C2 : completed_ids o2 = []).
  { clear -R2. unfold completed_ids, results in *. induction o2 as [|x o2 IH]; [reflexivity|]. cbn in *.
    destruct x; cbn in *; try (apply IH; exact R2). discriminate. }
  split.
  - intros i Hi. destruct Hi as [<-|Hi]; [unfold waiting; rewrite Ec; left; reflexivity|].
    change (In i (completed_ids (o1 ++ o2))) in Hi. rewrite completed_app, C2, app_nil_r in Hi. rewrite (only_called_completed _ (ps_only _ _ _ _ _ P)) in Hi. destruct Hi.
  - pose proof (check_waiting (with_current (with_queue (cancel_timer s) (cc_queue (cancel_timer s) ++ q) n) None)) as Hw.
    rewrite E2 in Hw. cbn [fst] in Hw. rewrite Hw. apply incl_waiting; reflexivity.
Qed.

Lemma on_responses_completed ms : forall s w s' w' o, on_responses handler s w ms = (s', w', o) ->
  incl (completed_ids o) (waiting s).
Proof.
  induction ms as [|m ms IH]; intros s w s' w' o; cbn [on_responses].
  - intros E; inversion E; subst. intros i [].
  - destruct (on_response handler s w m) as [[s1 w1] o1] eqn:E1.
    destruct (on_responses handler s1 w1 ms) as [[s2 w2] o2] eqn:E2. intros E; inversion E; subst.
    destruct (on_response_completed _ _ _ _ _ _ E1) as [A B]. specialize (IH _ _ _ _ _ E2).
    rewrite completed_app. apply incl_app; [exact A|]. exact (incl_tran IH B).
Qed.

Lemma waiting_live s i : In i (waiting s) -> In i (live s).
Proof. unfold waiting, live. rewrite app_assoc. intros H. apply in_or_app. left. exact H. Qed.

Lemma completed_of_results o : completed_ids o = map fst (results o).
Proof. unfold completed_ids, results. induction o as [|x o IH]; [reflexivity|]. destruct x; cbn; rewrite ?IH; reflexivity. Qed.

Lemma step_completed pol s os w e bs s' w' o : core s os -> stable s -> tracked pol s bs -> typed_cevent e ->
  client_step handler pol s w e = Ret (s', w', o) -> incl (completed_ids o) (live s).
Proof.
  intros C S T He H. destruct e as [a| |d|msg|t|t]; cbn [client_step] in H.
  - destruct a; inversion H; subst; intros i [].
  - destruct (cc_queue s) as [|t q] eqn:Eq; [inversion H; subst; intros i []|].
    destruct (run_ctask_spec handler s os w t q C S Eq) as (s1 & w1 & o1 & E & _ & _ & _ & _ & _ & _ & D & _).
    rewrite E in H. inversion H; subst. intros i Hi. apply in_completed in Hi. destruct Hi as [r Hi].
    apply D in Hi. destruct Hi as [-> _]. unfold live. rewrite Eq. cbn. apply in_or_app. right. apply in_or_app. right. left. reflexivity.
  - unfold on_receive in H. destruct (cc_shutdown s); [inversion H; subst; intros i []|].
    destruct (mbap_parse pol (cc_parser s) d) as [[p ms]|]; cbn [obind] in H; [|discriminate].
    inversion H as [E]. intros i Hi. apply on_responses_completed in E. apply waiting_live, E, Hi.
  - destruct (on_error_spec handler s os w msg C S) as (s1 & w1 & o1 & E & _ & _ & _ & _ & _ & A & B).
    rewrite E in H. inversion H; subst. destruct (cc_shutdown s) eqn:Es.
    + destruct (A eq_refl) as [_ ->]. intros i [].
    + destruct (B eq_refl) as (_ & _ & _ & _ & R & _). rewrite completed_of_results, R.
      intros i Hi. rewrite map_map in Hi. cbn [failed fst] in Hi. rewrite map_app in Hi. apply waiting_live. unfold waiting.
      apply in_app_or in Hi. apply in_or_app. destruct Hi as [Hi|Hi]; [right; exact Hi|left].
      destruct (cc_current s); [exact Hi|destruct Hi].
  - destruct (existsb (Nat.eqb t) (cc_armed s)); inversion H; subst; intros i [].
  - destruct (existsb (Nat.eqb t) (cc_expired s)); [|inversion H; subst; intros i []].
    destruct (on_timeout_spec handler s os w t C S) as (s1 & w1 & o1 & E & _ & _ & _ & _ & _ & _ & D & _).
    rewrite E in H. inversion H; subst. intros i Hi. apply in_completed in Hi. destruct Hi as [r Hi].
    apply D in Hi. destruct Hi as [_ (p & Hp & <-)]. apply waiting_live. unfold waiting. rewrite Hp. left. reflexivity.
Qed.
End View.
