(** Proofs that a client does not notice in which pieces the bytes arrive. *)
From Verif Require Import Prelude Ser4 Messages Mbap SpecPdu SpecMbap BitFacts CodecLemmas MbapFacts MbapLemmas Client SpecClient SpecServer SpecChunks ChunksFacts SpecClientChunks.

(** ** The parser *)
Section Parser.
Context (pol : copy_policy).

Definition cinv (p : pstate) (g : list N) : Prop :=
  bytes g /\ exactly pol g /\ exists is u, Forall typed_item is /\ g = flat_map item_bytes is ++ u /\ R pol p u /\ ~ ends_with_empty is u.

Lemma settled_items g I T is u p : framed g I T -> Forall typed_item is -> g = flat_map item_bytes is ++ u -> R pol p u -> ~ ends_with_empty is u ->
  is = settled I T /\ incl is I.
Proof.
  intros (F1 & F2 & F3) Hi E HR Hn. rewrite F2 in E.
  destruct (settled_incomplete I T F3 F1 is u Hi E (R_tail _ _ _ HR)) as [(i & -> & Hb & -> & ->)|[-> ->]].
  - split; [|apply incl_appl, incl_refl]. unfold settled. rewrite rev_app_distr. cbn [rev app]. rewrite Hb, rev_involutive. reflexivity.
  - split; [symmetry; apply settled_eq; exact Hn|apply incl_refl].
Qed.

Lemma matched_items is ms : Forall2 (matches pol) is ms -> Forall (fun i => pol = Truncate \/ ~ long i) is -> ms = map truncated_message is.
Proof.
  intros Hm L. induction Hm as [|i m is ms Him _ IH]; [reflexivity|]. apply Forall_cons_iff in L. destruct L as [L1 L2].
  cbn [map]. rewrite <- (IH L2). f_equal. destruct m as [mu mt md]. destruct Him as (M1 & M2 & M3 & M4 & M5 & _). cbn [mb_unit mb_tx mb_data] in *.
  unfold truncated_message. rewrite M1, M2. f_equal. destruct L1 as [L1|L1]; [exact (M5 L1)|]. rewrite (M3 L1). symmetry. apply firstn_all2.
  unfold long, size in L1. lia.
Qed.

Lemma parse_chunks p q g ds ds' : cinv p g -> cinv q g -> Forall bytes ds -> Forall bytes ds' -> List.concat ds = List.concat ds' -> exactly pol (g ++ List.concat ds) ->
  exists p' q' ms, mbap_run pol p (map Chunk ds) = Ret (p', ms) /\ mbap_run pol q (map Chunk ds') = Ret (q', ms) /\
    cinv p' (g ++ List.concat ds) /\ cinv q' (g ++ List.concat ds).
Proof.
  intros (Hg & Hx & is & u & Hi & E & HR & Hn) (_ & _ & is' & u' & Hi' & E' & HR' & Hn') Hd Hd' Hc Hx1.
  destruct (run_chunks pol ds p u HR Hd) as (p1 & u1 & i1 & m1 & E1 & T1 & D1 & R1 & M1 & N1).
  destruct (run_chunks pol ds' q u' HR' Hd') as (q2 & u2 & i2 & m2 & E2 & T2 & D2 & R2 & M2 & N2).
  assert (Hcc := concat_bytes _ Hd). assert (Hb : bytes (g ++ List.concat ds)) by (apply bytes_app; auto).
  destruct (framed_total _ Hg) as (I & T & F). destruct (framed_total _ Hb) as (I' & T' & F').
  assert (Ei : is' = is) by (transitivity (settled I T); [|symmetry]; eapply settled_items; eassumption). subst is'.
  rewrite E in E'. apply app_inv_head in E'. subst u'.
  assert (Join : forall i v d, u ++ d = flat_map item_bytes i ++ v -> g ++ d = flat_map item_bytes (is ++ i) ++ v).
  { intros i v d K. rewrite E, <- app_assoc, K, flat_map_app, app_assoc. reflexivity. }
  assert (Ends : forall i v d, u ++ d = flat_map item_bytes i ++ v -> ~ ends_with_empty i v -> ~ ends_with_empty (is ++ i) v).
  { intros i v d K Hni He. destruct (ends_app _ _ _ He) as [[-> He1]|He2]; [|contradiction].
    apply Hn. destruct He1 as [-> He1]. cbn in K. apply app_eq_nil in K. destruct K as [-> _]. split; [reflexivity|exact He1]. }
  rewrite <- Hc in D2. assert (N1' := Ends _ _ _ D1 N1). assert (N2' := Ends _ _ _ D2 N2). apply Join in D1, D2.
  assert (A1 : Forall typed_item (is ++ i1)) by (apply Forall_app; auto). assert (A2 : Forall typed_item (is ++ i2)) by (apply Forall_app; auto).
  destruct (settled_items _ _ _ _ _ _ F' A1 D1 R1 N1') as [S1 L1]. destruct (settled_items _ _ _ _ _ _ F' A2 D2 R2 N2') as [S2 L2].
  assert (Ei : i2 = i1) by (apply (app_inv_head is); congruence). subst i2.
  assert (L : Forall (fun i => pol = Truncate \/ ~ long i) (filter deliverable i1)).
  { apply Forall_forall. intros i H. apply filter_In in H. destruct H as [H _]. destruct Hx1 as [Hx1|Hx1]; [auto|right].
    specialize (Hx1 _ _ F'). unfold no_long in Hx1. rewrite Forall_forall in Hx1. apply Hx1, L1, in_or_app. auto. }
  apply matched_items in M1; [|exact L]. apply matched_items in M2; [|exact L]. subst m1 m2.
  exists p1, q2, (map truncated_message (filter deliverable i1)). split; [exact E1|]. split; [exact E2|].
  split; (split; [exact Hb|]; split; [exact Hx1|]); [exists (is ++ i1), u1|exists (is ++ i1), u2]; auto.
Qed.

Lemma settled_length I T : (List.length (settled I T) <= List.length I)%nat.
Proof.
  unfold settled. destruct T; [|lia]. destruct (rev I) as [|i is] eqn:E; [lia|].
  assert (L : List.length I = S (List.length is)) by (rewrite <- (rev_length I), E; reflexivity).
  destruct (i_body i) as [[|]|]; rewrite ?rev_length; lia.
Qed.

Lemma parse_nothing p g d : cinv p g -> bytes d -> exactly pol (g ++ d) -> changes_nothing g d ->
  exists p', mbap_parse pol p d = Ret (p', []) /\ cinv p' (g ++ d).
Proof.
  intros (Hg & Hx & is & u & Hi & E & HR & Hn) Hd Hx1 [Hc Hne].
  destruct (parse_spec pol p u d HR Hd) as (p' & u1 & i1 & m1 & E1 & T1 & D1 & R1 & M1 & N1).
  destruct (framed_total g Hg) as (I & T & F). destruct (Hc I T F) as (T' & F').
  destruct (settled_items _ _ _ _ _ _ F Hi E HR Hn) as [S1 _]. rewrite (settled_eq _ _ (Hne _ _ F)) in S1. subst is.
  assert (D : g ++ d = flat_map item_bytes (I ++ i1) ++ u1) by (rewrite E, <- app_assoc, D1, flat_map_app, app_assoc; reflexivity).
  assert (N2 : ~ ends_with_empty (I ++ i1) u1).
  { intros He. destruct (ends_app _ _ _ He) as [[-> He1]|He2]; [|contradiction].
    apply Hn. destruct He1 as [-> He1]. cbn in D1. apply app_eq_nil in D1. destruct D1 as [-> _]. split; [reflexivity|exact He1]. }
  assert (A : Forall typed_item (I ++ i1)) by (apply Forall_app; auto).
  destruct (settled_items _ _ _ _ _ _ F' A D R1 N2) as [S2 _]. assert (L := settled_length I T'). rewrite <- S2, app_length in L.
  assert (i1 = []) by (destruct i1; [reflexivity|cbn in L; lia]). subst i1. inversion M1; subst m1.
  exists p'. split; [exact E1|]. split; [apply bytes_app; auto|]. split; [exact Hx1|]. exists (I ++ []), u1. auto.
Qed.

Lemma cinv_new buf : good_buf buf -> cinv (mbap_new buf) [].
Proof.
  intros H. destruct (inv_new pol buf H) as (A & B & _). split; [exact A|]. split; [exact B|]. exists [], []. split; [constructor|]. split; [reflexivity|].
  split; [apply R_new; exact H|]. apply ends_nil.
Qed.

Lemma cinv_reset p g : cinv p g -> cinv (mbap_reset p) [].
Proof.
  intros (_ & _ & is & u & _ & _ & (H & _) & _). change (mbap_reset p) with (mbap_new (p_buf p)). apply cinv_new. exact H.
Qed.
End Parser.

(** ** The channel does not look at the parser *)
Definition swap {W O} (p : pstate) (x : client * W * O) : client * W * O := let '(s, w, o) := x in (with_parser s p, w, o).
Definition swap1 {O} (p : pstate) (x : client * O) : client * O := let '(s, o) := x in (with_parser s p, o).

Lemma capi_call_parser s p a : capi_call (with_parser s p) a = swap1 p (capi_call s a).
Proof. destruct a; reflexivity. Qed.

Lemma capi_calls_parser p l : forall s, capi_calls (with_parser s p) l = swap1 p (capi_calls s l).
Proof.
  induction l as [|a l IH]; intros s; [reflexivity|]. cbn [capi_calls]. rewrite capi_call_parser. destruct (capi_call s a) as [s1 o1]. cbn [swap1].
  rewrite IH. destruct (capi_calls s1 l) as [s2 o2]. reflexivity.
Qed.

Lemma check_parser s p : check_pending_requests (with_parser s p) = swap1 p (check_pending_requests s).
Proof.
  unfold check_pending_requests. cbn [with_parser cc_shutdown cc_current cc_pending]. destruct (cc_shutdown s); [reflexivity|].
  destruct (cc_current s); [reflexivity|]. destruct (cc_pending s); reflexivity.
Qed.

Lemma cancel_parser s p : cancel_current_request (with_parser s p) = swap1 p (cancel_current_request s).
Proof.
  unfold cancel_current_request. cbn [with_parser cc_current]. destruct (cc_current s); [|reflexivity].
  exact (check_parser (cancel_timer (with_current s None)) p).
Qed.

Section Client.
Context {W : Type}.
Context (handler : nat -> W -> expected (list N) -> W * list capi).

Lemma handler_parser s p w i r : call_handler handler (with_parser s p) w i r = swap p (call_handler handler s w i r).
Proof.
  unfold call_handler. destruct (handler i w r) as [w1 calls]. rewrite capi_calls_parser. destruct (capi_calls s calls) as [s1 o1]. reflexivity.
Qed.

Lemma fail_parser p msg l : forall s w, fail_all handler (with_parser s p) w l msg = swap p (fail_all handler s w l msg).
Proof.
  induction l as [|x l IH]; intros s w; [reflexivity|]. cbn [fail_all]. rewrite handler_parser. destruct (call_handler handler s w _ _) as [[s1 w1] o1]. cbn [swap].
  rewrite IH. destruct (fail_all handler s1 w1 l msg) as [[s2 w2] o2]. reflexivity.
Qed.

Lemma response_parser s p w m : on_response handler (with_parser s p) w m = swap p (on_response handler s w m).
Proof.
  unfold on_response. cbn [with_parser cc_shutdown cc_current]. destruct (cc_shutdown s); [reflexivity|]. destruct (cc_current s) as [x|]; [|reflexivity].
  destruct (_ && _); [|reflexivity]. change (cancel_timer (with_parser s p)) with (with_parser (cancel_timer s) p). rewrite handler_parser.
  destruct (call_handler handler (cancel_timer s) w _ _) as [[s1 w1] o1]. cbn [swap].
  change (with_current (with_parser s1 p) None) with (with_parser (with_current s1 None) p). rewrite check_parser.
  destruct (check_pending_requests (with_current s1 None)) as [s2 o2]. reflexivity.
Qed.

Lemma responses_parser p ms : forall s w, on_responses handler (with_parser s p) w ms = swap p (on_responses handler s w ms).
Proof.
  induction ms as [|m ms IH]; intros s w; [reflexivity|]. cbn [on_responses]. rewrite response_parser. destruct (on_response handler s w m) as [[s1 w1] o1]. cbn [swap].
  rewrite IH. destruct (on_responses handler s1 w1 ms) as [[s2 w2] o2]. reflexivity.
Qed.

Lemma timeout_parser s p w : on_timeout handler (with_parser s p) w = swap p (on_timeout handler s w).
Proof.
  unfold on_timeout. cbn [with_parser cc_shutdown cc_current]. destruct (cc_shutdown s); [reflexivity|]. destruct (cc_current s) as [x|]; [|reflexivity].
  rewrite handler_parser. destruct (call_handler handler s w _ _) as [[s1 w1] o1]. cbn [swap]. rewrite cancel_parser.
  destruct (cancel_current_request s1) as [s2 o2]. reflexivity.
Qed.

Lemma ctask_parser s p w t : run_ctask handler (with_parser s p) w t = swap p (run_ctask handler s w t).
Proof.
  destruct t as [i k|i|]; cbn [run_ctask].
  - cbn [with_parser cc_shutdown]. destruct (cc_shutdown s); [reflexivity|].
    match goal with |- (let '(_, _) := check_pending_requests ?a in _) = swap p (let '(_, _) := check_pending_requests ?b in _) =>
      change a with (with_parser b p); rewrite check_parser; destruct (check_pending_requests b) end. reflexivity.
  - apply handler_parser.
  - reflexivity.
Qed.

Lemma error_parser s p w msg : cc_shutdown s = false -> on_error handler (with_parser s p) w msg = swap (mbap_reset p) (on_error handler s w msg).
Proof.
  intros D. unfold on_error, cancel_all_pending_requests. cbn [with_parser cc_shutdown cc_parser]. rewrite D.
  set (s1 := with_parser s (mbap_reset (cc_parser s))).
  change (with_parser (with_parser s p) (mbap_reset p)) with (with_parser s1 (mbap_reset p)). change (cc_pending (with_parser s1 (mbap_reset p))) with (cc_pending s1).
  rewrite fail_parser. destruct (fail_all handler s1 w (cc_pending s1) msg) as [[s2 w2] o2]. cbn [swap].
  change (with_pending (with_parser s2 (mbap_reset p)) []) with (with_parser (with_pending s2 []) (mbap_reset p)).
  change (cc_current (with_parser (with_pending s2 []) (mbap_reset p))) with (cc_current (with_pending s2 [])).
  destruct (cc_current (with_pending s2 [])) as [x|]; [|reflexivity].
  rewrite handler_parser. destruct (call_handler handler (with_pending s2 []) w2 _ _) as [[s3 w3] o3]. cbn [swap]. rewrite cancel_parser.
  destruct (cancel_current_request s3) as [s4 o4]. reflexivity.
Qed.

Context (pol : copy_policy).
Notation step := (client_step handler pol).
Notation run := (client_run handler pol).

(** Steps other than of the connection. *)
Definition connectionless (e : cevent) : bool := match e with CReceive _ | CError _ => false | _ => true end.

Lemma step_parser s p w e : connectionless e = true -> step (with_parser s p) w e = omap (swap p) (step s w e).
Proof.
  intros He. destruct e as [a| |d|msg|t|t]; try discriminate He; cbn [client_step].
  - rewrite capi_call_parser. destruct (capi_call s a). reflexivity.
  - cbn [with_parser cc_queue cc_calls]. destruct (cc_queue s) as [|t q]; [reflexivity|].
    exact (f_equal Ret (ctask_parser (with_queue s q (cc_calls s)) p w t)).
  - cbn [with_parser cc_armed]. destruct (existsb _ _); reflexivity.
  - cbn [with_parser cc_expired]. destruct (existsb _ _); [|reflexivity].
    exact (f_equal Ret (timeout_parser (with_timers s (cc_timer s) (cc_armed s) (filter (fun x => negb (Nat.eqb x t)) (cc_expired s)) (cc_next_timer s)) p w)).
Qed.

Lemma with_own s : with_parser s (cc_parser s) = s.
Proof. destruct s; reflexivity. Qed.

Lemma step_keeps s w e s1 w1 o1 : connectionless e = true -> step s w e = Ret (s1, w1, o1) -> cc_parser s1 = cc_parser s.
Proof.
  intros He E. assert (K := step_parser s (cc_parser s) w e He). rewrite with_own, E in K. cbn [omap swap] in K. injection K as K. rewrite K. reflexivity.
Qed.

Lemma responses_keep ms s w s1 w1 o1 : on_responses handler s w ms = (s1, w1, o1) -> cc_parser s1 = cc_parser s.
Proof.
  intros E. assert (K := responses_parser (cc_parser s) ms s w). rewrite with_own, E in K. cbn [swap] in K. injection K as K. rewrite K. reflexivity.
Qed.

Lemma calls_down l : forall s s' o, capi_calls s l = (s', o) -> cc_shutdown s' = cc_shutdown s.
Proof.
  induction l as [|a l IH]; intros s s' o; cbn [capi_calls]; [intros [= <- <-]; reflexivity|].
  destruct (capi_call s a) as [s1 o1] eqn:E1. destruct (capi_calls s1 l) as [s2 o2] eqn:E2. intros [= <- <-]. rewrite (IH _ _ _ E2).
  destruct a; injection E1 as <- <-; reflexivity.
Qed.

Lemma check_down s s' o : check_pending_requests s = (s', o) -> cc_shutdown s' = cc_shutdown s.
Proof.
  unfold check_pending_requests. destruct (cc_shutdown s) eqn:D; [intros [= <- <-]; exact D|]. destruct (cc_current s); [intros [= <- <-]; exact D|].
  destruct (cc_pending s); intros [= <- <-]; exact D.
Qed.

Lemma responses_down ms : forall s w s1 w1 o1, on_responses handler s w ms = (s1, w1, o1) -> cc_shutdown s1 = cc_shutdown s.
Proof.
  induction ms as [|m ms IH]; intros s w s2 w2 o2; cbn [on_responses]; [intros [= <- <- <-]; reflexivity|].
  destruct (on_response handler s w m) as [[s1 w1] o1] eqn:E1. destruct (on_responses handler s1 w1 ms) as [[s3 w3] o3] eqn:E3. intros [= <- <- <-].
  rewrite (IH _ _ _ _ _ E3). clear E3. unfold on_response in E1. destruct (cc_shutdown s) eqn:D; [injection E1 as <- _ _; exact D|].
  destruct (cc_current s); [|injection E1 as <- _ _; exact D]. destruct (_ && _); [|injection E1 as <- _ _; exact D].
  unfold call_handler in E1. destruct (handler _ _ _) as [w4 calls]. destruct (capi_calls (cancel_timer s) calls) as [s4 o4] eqn:E4.
  destruct (check_pending_requests (with_current s4 None)) as [s5 o5] eqn:E5. injection E1 as <- _ _.
  rewrite (check_down _ _ _ E5). rewrite <- D. exact (calls_down _ _ _ _ E4).
Qed.

Lemma responses_app a b : forall s w, on_responses handler s w (a ++ b) =
  let '(s, w, o) := on_responses handler s w a in let '(s, w, o') := on_responses handler s w b in (s, w, o ++ o').
Proof.
  induction a as [|m a IH]; intros s w; cbn [app on_responses]; [destruct (on_responses handler s w b) as [[? ?] ?]; reflexivity|].
  destruct (on_response handler s w m) as [[s1 w1] o1]. rewrite IH. destruct (on_responses handler s1 w1 a) as [[s2 w2] o2].
  destruct (on_responses handler s2 w2 b) as [[s3 w3] o3]. rewrite app_assoc. reflexivity.
Qed.

Lemma chunks_client ds : forall s w p ms s1 w1 o1, cc_shutdown s = false -> mbap_run pol (cc_parser s) (map Chunk ds) = Ret (p, ms) ->
  on_responses handler s w ms = (s1, w1, o1) -> run s w (map CReceive ds) = Ret (with_parser s1 p, w1, o1).
Proof.
  induction ds as [|d ds IH]; intros s w p ms s2 w2 o2 D; cbn [map mbap_run client_run].
  - intros [= <- <-] [= <- <- <-]. rewrite with_own. reflexivity.
  - destruct (mbap_parse pol (cc_parser s) d) as [[p1 m1]|] eqn:Ep; cbn [obind]; [|discriminate].
    destruct (mbap_run pol p1 (map Chunk ds)) as [[p2 m2]|] eqn:Er; cbn [obind]; [|discriminate]. intros [= <- <-]. rewrite responses_app.
    destruct (on_responses handler s w m1) as [[s1 w1] o1] eqn:E1. destruct (on_responses handler s1 w1 m2) as [[s3 w3] o3] eqn:E3. intros [= <- <- <-].
    cbn [client_step]. unfold on_receive. rewrite D, Ep. cbn [obind]. rewrite responses_parser, E1. cbn [swap obind].
    assert (D1 := responses_down _ _ _ _ _ _ E1). rewrite D in D1.
    assert (E4 : on_responses handler (with_parser s1 p1) w1 m2 = (with_parser s3 p1, w3, o3)) by (rewrite responses_parser, E3; reflexivity).
    rewrite (IH (with_parser s1 p1) w1 p2 m2 _ _ _ D1 Er E4). reflexivity.
Qed.

Lemma deaf_client ds : forall s w, cc_shutdown s = true -> run s w (map CReceive ds) = Ret (s, w, []).
Proof.
  induction ds as [|d ds IH]; intros s w D; [reflexivity|]. cbn [map client_run client_step]. unfold on_receive. rewrite D. cbn [obind]. rewrite IH by exact D. reflexivity.
Qed.

Lemma cruns_app es1 : forall es2 s w s1 w1 o1, run s w es1 = Ret (s1, w1, o1) ->
  run s w (es1 ++ es2) = obind (run s1 w1 es2) (fun '(s2, w2, o2) => Ret (s2, w2, o1 ++ o2)).
Proof.
  induction es1 as [|e es1 IH]; intros es2 s w s1 w1 o1; cbn [app client_run].
  - intros [= <- <- <-]. destruct (run s w es2) as [[[? ?] ?]|]; reflexivity.
  - destruct (step s w e) as [[[s2 w2] o2]|]; cbn [obind]; [|discriminate].
    destruct (run s2 w2 es1) as [[[s3 w3] o3]|] eqn:E3; cbn [obind]; [|discriminate]. intros [= <- <- <-].
    rewrite (IH es2 _ _ _ _ _ E3). destruct (run s3 w3 es2) as [[[? ?] ?]|]; cbn [obind]; [|reflexivity]. rewrite app_assoc. reflexivity.
Qed.

(** ** Histories *)
Definition csim (g : list N) (s t : client) : Prop :=
  t = with_parser s (cc_parser t) /\ (cc_shutdown s = true \/ cinv pol (cc_parser s) g /\ cinv pol (cc_parser t) g).

Fixpoint cshort_from (g : list N) (es : list cevent) : Prop :=
  match es with
  | [] => True
  | CReceive d :: es => short_so_far (g ++ d) /\ cshort_from (g ++ d) es
  | CError _ :: es => cshort_from [] es
  | _ :: es => cshort_from g es
  end.

Lemma cshort_of es : forall g, (forall es1 es2, es = es1 ++ es2 -> short_so_far (carrived g es1)) -> cshort_from g es.
Proof.
  induction es as [|e es IH]; intros g H; [exact Logic.I|].
  assert (K : cshort_from (carrived g [e]) es) by (apply IH; intros es1 es2 ->; assert (K := H (e :: es1) es2 eq_refl); destruct e; exact K).
  destruct e; try exact K. split; [exact (H [CReceive data] es eq_refl)|exact K].
Qed.

Lemma cexactly_all ds : forall g es, pol = Truncate \/ cshort_from g (map CReceive ds ++ es) ->
  (exactly pol g -> exactly pol (g ++ List.concat ds)) /\ (pol = Truncate \/ cshort_from (g ++ List.concat ds) es).
Proof.
  induction ds as [|d ds IH]; intros g es H; cbn [map app List.concat]; [rewrite app_nil_r; auto|].
  destruct H as [H|H]; [split; [intros _|]; left; exact H|]. cbn [map app cshort_from] in H. destruct H as [H1 H2].
  destruct (IH (g ++ d) es (or_intror H2)) as [A B]. rewrite app_assoc. split; [|exact B]. intros _. apply A. right. exact H1.
Qed.

Lemma creceive_sim ds ds' g s t w : List.concat ds = List.concat ds' -> csim g s t -> Forall bytes ds -> Forall bytes ds' ->
  (exactly pol g -> exactly pol (g ++ List.concat ds)) ->
  exists s1 t1 w1 o1, run s w (map CReceive ds) = Ret (s1, w1, o1) /\ run t w (map CReceive ds') = Ret (t1, w1, o1) /\ csim (g ++ List.concat ds) s1 t1.
Proof.
  intros Hc [Ht Hs] Hd Hd' Hx. destruct (cc_shutdown s) eqn:D.
  - assert (D' : cc_shutdown t = true) by (rewrite Ht; exact D). exists s, t, w, []. rewrite !deaf_client by assumption.
    split; [reflexivity|]. split; [reflexivity|]. split; [exact Ht|left; exact D].
  - destruct Hs as [Hs|[Hp Hq]]; [discriminate Hs|]. assert (D' : cc_shutdown t = false) by (rewrite Ht; exact D).
    destruct (parse_chunks pol _ _ g ds ds' Hp Hq Hd Hd' Hc (Hx (proj1 (proj2 Hp)))) as (p' & q' & ms & E1 & E2 & Hp' & Hq').
    destruct (on_responses handler s w ms) as [[s1 w1] o1] eqn:E.
    assert (E' : on_responses handler t w ms = (with_parser s1 (cc_parser t), w1, o1)) by (rewrite Ht at 1; rewrite responses_parser, E; reflexivity).
    do 4 eexists. split; [exact (chunks_client ds s w p' ms _ _ _ D E1 E)|]. split; [exact (chunks_client ds' t w q' ms _ _ _ D' E2 E')|].
    split; [reflexivity|]. right. auto.
Qed.

Lemma csim_step e g s t w : csim g s t -> typed_cevent e -> pol = Truncate \/ cshort_from g [e] ->
  exists s1 t1 w1 o1, step s w e = Ret (s1, w1, o1) /\ step t w e = Ret (t1, w1, o1) /\ csim (carrived g [e]) s1 t1.
Proof.
  intros Hs Te Hx. destruct (connectionless e) eqn:Ce.
  - destruct Hs as [Ht Hs]. assert (K := step_parser s (cc_parser t) w e Ce). rewrite <- Ht in K.
    assert (Tot : exists s1 w1 o1, step s w e = Ret (s1, w1, o1)).
    { destruct e as [a| |d|msg|i|i]; try discriminate Ce; cbn [client_step].
      - destruct (capi_call s a). eauto.
      - destruct (cc_queue s); [eauto|]. destruct (run_ctask handler _ w c) as [[? ?] ?]. eauto.
      - destruct (existsb _ _); eauto.
      - destruct (existsb _ _); [|eauto]. destruct (on_timeout handler _ w) as [[? ?] ?]. eauto. }
    destruct Tot as (s1 & w1 & o1 & E). rewrite E in K. cbn [omap swap] in K. exists s1, (with_parser s1 (cc_parser t)), w1, o1.
    split; [exact E|]. split; [exact K|]. split; [reflexivity|].
    assert (G : carrived g [e] = g) by (destruct e; try discriminate Ce; reflexivity). rewrite G, (step_keeps _ _ _ _ _ _ Ce E). cbn [with_parser cc_parser].
    destruct Hs as [D|Hs]; [left|right; exact Hs].
    destruct e as [a| |d|msg|i|i]; try discriminate Ce; cbn [client_step] in E.
    + destruct a; injection E as <- _ _; exact D.
    + destruct (cc_queue s) as [|k q]; [injection E as <- _ _; exact D|]. destruct k as [i k|i|]; cbn [run_ctask] in E.
      * change (cc_shutdown (with_queue s q (cc_calls s))) with (cc_shutdown s) in E. rewrite D in E. injection E as <- _ _. exact D.
      * unfold call_handler in E. destruct (handler _ _ _) as [w2 calls]. destruct (capi_calls (with_queue s q (cc_calls s)) calls) as [s2 o2] eqn:E2. injection E as <- _ _.
        rewrite (calls_down _ _ _ _ E2). exact D.
      * injection E as <- _ _. reflexivity.
    + destruct (existsb _ _); injection E as <- _ _; exact D.
    + destruct (existsb _ _); [|injection E as <- _ _; exact D]. unfold on_timeout in E. cbn [with_timers cc_shutdown] in E. rewrite D in E. injection E as <- _ _. exact D.
  - destruct e as [a| |d|msg|i|i]; try discriminate Ce.
    + change [CReceive d] with (map CReceive [d] ++ []) in Hx. destruct (cexactly_all _ _ _ Hx) as [X _]. assert (Td : Forall bytes [d]) by (constructor; [exact Te|constructor]).
      destruct (creceive_sim [d] [d] g s t w eq_refl Hs Td Td X) as (s1 & t1 & w1 & o1 & E1 & E2 & Hs1). cbn [map client_run] in E1, E2.
      destruct (step s w (CReceive d)) as [[[s2 w2] o2]|] eqn:E3; [|discriminate E1]. cbn [obind] in E1. rewrite app_nil_r in E1. injection E1 as <- <- <-.
      destruct (step t w (CReceive d)) as [[[t2 w3] o3]|] eqn:E4; [|discriminate E2]. cbn [obind] in E2. rewrite app_nil_r in E2. injection E2 as <- <- <-.
      exists s2, t2, w3, o3. split; [reflexivity|]. split; [reflexivity|]. cbn [List.concat] in Hs1. rewrite app_nil_r in Hs1. exact Hs1.
    + destruct Hs as [Ht Hs]. cbn [client_step carrived]. destruct (cc_shutdown s) eqn:D.
      * assert (D' : cc_shutdown t = true) by (rewrite Ht; exact D). unfold on_error. rewrite D, D'. exists s, t, w, []. split; [reflexivity|]. split; [reflexivity|].
        split; [exact Ht|left; exact D].
      * destruct Hs as [Hs|[Hp Hq]]; [discriminate Hs|]. assert (K := error_parser s (cc_parser t) w msg D). rewrite <- Ht in K. rewrite K.
        assert (K2 := error_parser s (cc_parser s) w msg D). rewrite with_own in K2.
        destruct (on_error handler s w msg) as [[s1 w1] o1]. cbn [swap] in K2 |- *. injection K2 as K2. do 4 eexists. split; [reflexivity|]. split; [reflexivity|].
        split; [reflexivity|]. right. rewrite K2. cbn [with_parser cc_parser]. split; eapply cinv_reset; eassumption.
Qed.

Lemma crechunked_sim es es' : crechunked es es' -> forall g s t w, csim g s t -> Forall typed_cevent es -> Forall typed_cevent es' ->
  pol = Truncate \/ cshort_from g es ->
  exists s1 t1 w1 o1, run s w es = Ret (s1, w1, o1) /\ run t w es' = Ret (t1, w1, o1) /\ csim (carrived g es) s1 t1.
Proof.
  assert (Hmap : forall ds es, Forall typed_cevent (map CReceive ds ++ es) -> Forall bytes ds /\ Forall typed_cevent es).
  { intros ds es0 H. apply Forall_app in H. destruct H as [H1 H2]. split; [|exact H2]. clear - H1. induction ds as [|d ds IH]; constructor; cbn [map] in H1; apply Forall_cons_iff in H1; tauto. }
  assert (Harr : forall ds es g, carrived g (map CReceive ds ++ es) = carrived (g ++ List.concat ds) es).
  { induction ds as [|d ds IH]; intros es0 g; cbn [map app carrived List.concat]; [rewrite app_nil_r; reflexivity|]. rewrite IH, app_assoc. reflexivity. }
  induction 1 as [|ds ds' es es' Hc H IH|e es es' H IH]; intros g s t w Hs T1 T2 Hx.
  - exists s, t, w, []. auto.
  - apply Hmap in T1, T2. destruct T1 as [T1 T3], T2 as [T2 T4]. destruct (cexactly_all _ _ _ Hx) as [X1 X2].
    destruct (creceive_sim ds ds' g s t w Hc Hs T1 T2 X1) as (s1 & t1 & w1 & o1 & E1 & E2 & Hs1).
    destruct (IH _ s1 t1 w1 Hs1 T3 T4 X2) as (s2 & t2 & w2 & o2 & E3 & E4 & Hs2).
    exists s2, t2, w2, (o1 ++ o2). rewrite (cruns_app _ _ _ _ _ _ _ E1), (cruns_app _ _ _ _ _ _ _ E2), E3, E4, Harr. auto.
  - apply Forall_cons_iff in T1, T2. destruct T1 as [T1 T3], T2 as [T2 T4].
    destruct (csim_step e g s t w Hs T1) as (s1 & t1 & w1 & o1 & E1 & E2 & Hs1).
    { destruct Hx as [Hx|Hx]; [auto|right]. destruct e; cbn [cshort_from] in *; tauto. }
    destruct (IH _ s1 t1 w1 Hs1 T3 T4) as (s2 & t2 & w2 & o2 & E3 & E4 & Hs2).
    { destruct Hx as [Hx|Hx]; [auto|right]. destruct e; cbn [cshort_from carrived] in *; tauto. }
    exists s2, t2, w2, (o1 ++ o2). cbn [client_run]. rewrite E1, E2. cbn [obind]. rewrite E3, E4. split; [reflexivity|]. split; [reflexivity|].
    destruct e; exact Hs2.
Qed.

Lemma csim_init buf buf' : good_buf buf -> good_buf buf' -> csim [] (client_init buf) (client_init buf').
Proof. intros A B. split; [reflexivity|]. right. split; apply cinv_new; assumption. Qed.

Theorem client_pieces_unnoticed buf buf' w es es' : good_buf buf -> good_buf buf' -> crechunked es es' -> Forall typed_cevent es -> Forall typed_cevent es' ->
  pol = Truncate \/ call_short es ->
  exists s t w1 o, run (client_init buf) w es = Ret (s, w1, o) /\ run (client_init buf') w es' = Ret (t, w1, o) /\ t = with_parser s (cc_parser t).
Proof.
  intros B1 B2 H T1 T2 Hx.
  destruct (crechunked_sim es es' H [] _ _ w (csim_init buf buf' B1 B2) T1 T2) as (s & t & w1 & o & E1 & E2 & [Hs _]).
  { destruct Hx as [Hx|Hx]; [auto|right]. apply cshort_of. exact Hx. }
  exists s, t, w1, o. auto.
Qed.

(** ** Pieces that change nothing *)
Lemma crechunked_refl es : crechunked es es.
Proof. induction es; constructor; assumption. Qed.

Lemma connectionless_total s w e : connectionless e = true -> exists s1 w1 o1, step s w e = Ret (s1, w1, o1).
Proof.
  intros Ce. destruct e as [a| |d|msg|i|i]; try discriminate Ce; cbn [client_step].
  - destruct (capi_call s a). eauto.
  - destruct (cc_queue s); [eauto|]. destruct (run_ctask handler _ w c) as [[? ?] ?]. eauto.
  - destruct (existsb _ _); eauto.
  - destruct (existsb _ _); [|eauto]. destruct (on_timeout handler _ w) as [[? ?] ?]. eauto.
Qed.

Lemma cswap_sim d e g s t w : csim g s t -> bytes d -> connectionless e = true -> changes_nothing g d -> (exactly pol g -> exactly pol (g ++ d)) ->
  exists s1 t1 w1 o1, run s w [CReceive d; e] = Ret (s1, w1, o1) /\ run t w [e; CReceive d] = Ret (t1, w1, o1) /\ csim (g ++ d) s1 t1.
Proof.
  intros [Ht Hs] Hd Ce Hn Hx. destruct (connectionless_total s w e Ce) as (s1 & w1 & o1 & E).
  assert (E2 : step t w e = Ret (with_parser s1 (cc_parser t), w1, o1)) by (rewrite Ht at 1; rewrite (step_parser _ _ _ _ Ce), E; reflexivity).
  assert (K1 := step_keeps _ _ _ _ _ _ Ce E).
  assert (Mono : cc_shutdown s = true -> cc_shutdown s1 = true).
  { intros D. assert (X : csim g s s) by (split; [symmetry; apply with_own|left; exact D]).
    destruct e as [a| |d0|msg|i|i]; try discriminate Ce; cbn [client_step] in E.
    + destruct a; injection E as <- _ _; exact D.
    + destruct (cc_queue s) as [|k q]; [injection E as <- _ _; exact D|]. destruct k as [i k|i|]; cbn [run_ctask] in E.
      * change (cc_shutdown (with_queue s q (cc_calls s))) with (cc_shutdown s) in E. rewrite D in E. injection E as <- _ _. exact D.
      * unfold call_handler in E. destruct (handler _ _ _) as [w2 calls]. destruct (capi_calls (with_queue s q (cc_calls s)) calls) as [s2 o2] eqn:E3. injection E as <- _ _.
        rewrite (calls_down _ _ _ _ E3). exact D.
      * injection E as <- _ _. reflexivity.
    + destruct (existsb _ _); injection E as <- _ _; exact D.
    + destruct (existsb _ _); [|injection E as <- _ _; exact D]. unfold on_timeout in E. cbn [with_timers cc_shutdown] in E. rewrite D in E. injection E as <- _ _. exact D. }
  destruct (cc_shutdown s) eqn:D.
  - specialize (Mono eq_refl). exists s1, (with_parser s1 (cc_parser t)), w1, o1. cbn [client_run]. rewrite E2. cbn [obind client_step]. unfold on_receive. rewrite D.
    change (cc_shutdown (with_parser s1 (cc_parser t))) with (cc_shutdown s1). rewrite Mono. cbn [obind]. rewrite E. cbn [obind]. rewrite !app_nil_r.
    split; [reflexivity|]. split; [reflexivity|]. split; [reflexivity|left; exact Mono].
  - destruct Hs as [Hs|[Hp Hq]]; [discriminate Hs|]. assert (Hx1 := Hx (proj1 (proj2 Hp))).
    destruct (parse_nothing _ _ _ _ Hp Hd Hx1 Hn) as (p' & Pp & Hp'). destruct (parse_nothing _ _ _ _ Hq Hd Hx1 Hn) as (q' & Pq & Hq').
    assert (E3 : step s w (CReceive d) = Ret (with_parser s p', w, [])) by (cbn [client_step]; unfold on_receive; rewrite D, Pp; reflexivity).
    assert (E4 : step (with_parser s p') w e = Ret (with_parser s1 p', w1, o1)) by (rewrite (step_parser _ _ _ _ Ce), E; reflexivity).
    cbn [client_run]. rewrite E2, E3. cbn [obind]. rewrite E4. cbn [obind].
    destruct (cc_shutdown s1) eqn:D1.
    + assert (E5 : step (with_parser s1 (cc_parser t)) w1 (CReceive d) = Ret (with_parser s1 (cc_parser t), w1, [])).
      { cbn [client_step]. unfold on_receive. change (cc_shutdown (with_parser s1 (cc_parser t))) with (cc_shutdown s1). rewrite D1. reflexivity. }
      rewrite E5. cbn [obind]. rewrite !app_nil_r. do 4 eexists. split; [reflexivity|]. split; [reflexivity|]. split; [reflexivity|left; exact D1].
    + assert (E5 : step (with_parser s1 (cc_parser t)) w1 (CReceive d) = Ret (with_parser s1 q', w1, [])).
      { cbn [client_step]. unfold on_receive. change (cc_shutdown (with_parser s1 (cc_parser t))) with (cc_shutdown s1). rewrite D1.
        change (cc_parser (with_parser s1 (cc_parser t))) with (cc_parser t). rewrite Pq. reflexivity. }
      rewrite E5. cbn [obind]. rewrite !app_nil_r. do 4 eexists. split; [reflexivity|]. split; [reflexivity|]. split; [reflexivity|right]. auto.
Qed.

Lemma carrived_app es1 : forall g es2, carrived g (es1 ++ es2) = carrived (carrived g es1) es2.
Proof. induction es1 as [|e es1 IH]; intros g es2; [reflexivity|]. destruct e; cbn [app carrived]; apply IH. Qed.

Lemma cshort_split es1 : forall g es2, cshort_from g (es1 ++ es2) -> cshort_from (carrived g es1) es2.
Proof. induction es1 as [|e es1 IH]; intros g es2; [auto|]. destruct e; cbn [app cshort_from carrived]; [apply IH|apply IH|intros [_ H]; apply IH; exact H|apply IH|apply IH|apply IH]. Qed.

Theorem client_postponed_unnoticed buf buf' w a d e b : good_buf buf -> good_buf buf' -> Forall typed_cevent (a ++ CReceive d :: e :: b) ->
  match e with CReceive _ | CError _ => False | _ => True end -> changes_nothing (carrived [] a) d -> pol = Truncate \/ call_short (a ++ CReceive d :: e :: b) ->
  exists s t w1 o, run (client_init buf) w (a ++ CReceive d :: e :: b) = Ret (s, w1, o) /\ run (client_init buf') w (a ++ e :: CReceive d :: b) = Ret (t, w1, o) /\
    t = with_parser s (cc_parser t).
Proof.
  intros B1 B2 Ty He Hn Hx. apply Forall_app in Ty. destruct Ty as [Ta Tb]. apply Forall_cons_iff in Tb. destruct Tb as [Td Tb]. apply Forall_cons_iff in Tb. destruct Tb as [Te Tb].
  assert (Ce : connectionless e = true) by (destruct e; try contradiction; reflexivity).
  assert (X : pol = Truncate \/ cshort_from [] (a ++ CReceive d :: e :: b)) by (destruct Hx as [Hx|Hx]; [auto|right; apply cshort_of; exact Hx]).
  assert (Xa : pol = Truncate \/ cshort_from [] a).
  { destruct Hx as [Hx|Hx]; [auto|right]. apply cshort_of. intros es1 es2 ->. apply (Hx es1 (es2 ++ CReceive d :: e :: b)). rewrite <- app_assoc. reflexivity. }
  destruct (crechunked_sim a a (crechunked_refl a) [] _ _ w (csim_init buf buf' B1 B2) Ta Ta Xa) as (s1 & t1 & w1 & o1 & E1 & E2 & S1).
  assert (X1 : pol = Truncate \/ cshort_from (carrived [] a) (CReceive d :: e :: b)) by (destruct X as [X|X]; [auto|right; exact (cshort_split _ _ _ X)]).
  destruct (cswap_sim d e _ s1 t1 w1 S1 Td Ce Hn) as (s2 & t2 & w2 & o2 & E3 & E4 & S2).
  { intros _. destruct X1 as [X1|[X1 _]]; [left|right]; exact X1. }
  destruct (crechunked_sim b b (crechunked_refl b) _ s2 t2 w2 S2 Tb Tb) as (s3 & t3 & w3 & o3 & E5 & E6 & S3).
  { destruct X1 as [X1|[_ X1]]; [auto|right]. destruct e; try contradiction; exact X1. }
  change (a ++ CReceive d :: e :: b) with (a ++ [CReceive d; e] ++ b). change (a ++ e :: CReceive d :: b) with (a ++ [e; CReceive d] ++ b).
  rewrite (cruns_app a _ _ _ _ _ _ E1), (cruns_app a _ _ _ _ _ _ E2), (cruns_app _ b _ _ _ _ _ E3), (cruns_app _ b _ _ _ _ _ E4), E5, E6. cbn [obind].
  exists s3, t3, w3, (o1 ++ o2 ++ o3). split; [reflexivity|]. split; [reflexivity|]. exact (proj1 S3).
Qed.
End Client.
