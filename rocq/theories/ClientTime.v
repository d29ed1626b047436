(** Proofs about the times at which requests of a client channel are completed. *)
From Verif Require Import Prelude Ser4 Messages Mbap SpecPdu SpecMbap Client SpecClient MbapFacts MbapLemmas BitFacts
  ClientFacts ClientLemmas ClientTx ClientShutdown ClientResponses ClientOutcomes SpecClientTime.
From Coq Require Import Lia.

(** ** What one step can add *)
Definition later (s : client) : list nat := map pr_id (cc_pending s) ++ qids (cc_queue s).

(** The timers that are started. *)
Definition armed_timers (os : list coutput) : list nat :=
  flat_map (fun o => match o with Armed _ t _ => [t] | _ => [] end) os.

Lemma armed_timers_app a b : armed_timers (a ++ b) = armed_timers a ++ armed_timers b.
Proof. apply flat_map_app. Qed.

Lemma in_armed_timers t os : In t (armed_timers os) <-> exists i d, In (Armed i t d) os.
Proof.
  unfold armed_timers. rewrite in_flat_map. split.
  - intros (o & H & Hi). destruct o; cbn in Hi; try tauto. destruct Hi as [<-|[]]. eauto.
  - intros (i & d & H). exists (Armed i t d). cbn. auto.
Qed.

Lemma only_called_timers o : Forall (fun x => exists i k, x = Called i k) o -> armed_timers o = [].
Proof. induction 1 as [|x o (i & k & ->) _ IH]; [reflexivity|exact IH]. Qed.

Record grown (s s' : client) (o : list coutput) : Prop := {
  gr_calls : (cc_calls s <= cc_calls s')%nat;
  gr_next : (cc_next_timer s <= cc_next_timer s')%nat;
  gr_queue : forall i, In i (qids (cc_queue s')) -> In i (qids (cc_queue s)) \/ (cc_calls s <= i)%nat;
  gr_later : forall i, In i (later s') -> In i (later s) \/ (cc_calls s <= i)%nat;
  gr_live : forall i, In i (live s') -> In i (live s) \/ (cc_calls s <= i)%nat;
  gr_timers : forall t, In t (cc_armed s' ++ cc_expired s') -> In t (cc_armed s ++ cc_expired s) \/ (cc_next_timer s <= t)%nat;
  gr_armed : forall i t d, In (Armed i t d) o -> (In i (later s) \/ (cc_calls s <= i)%nat) /\ (cc_next_timer s <= t)%nat;
  gr_below : forall i t d, In (Armed i t d) o -> (t < cc_next_timer s')%nat;
  gr_once : NoDup (armed_timers o);
  gr_done : forall i r, In (Completed i r) o -> In i (live s) \/ (cc_calls s <= i)%nat
}.

Lemma grown_trans s s1 s2 o o1 : grown s s1 o -> grown s1 s2 o1 -> grown s s2 (o ++ o1).
Proof.
  intros [A1 A2 A3 A4 A5 A6 A7 A9 A10 A8] [B1 B2 B3 B4 B5 B6 B7 B9 B10 B8]. constructor; [lia|lia| | | | | | | |].
  - intros i H. apply B3 in H. destruct H as [H|H]; [auto|right; lia].
  - intros i H. apply B4 in H. destruct H as [H|H]; [auto|right; lia].
  - intros i H. apply B5 in H. destruct H as [H|H]; [auto|right; lia].
  - intros i H. apply B6 in H. destruct H as [H|H]; [auto|right; lia].
  - intros i t d H. apply in_app_or in H. destruct H as [H|H]; [eauto|].
    apply B7 in H. destruct H as [[H|H] Ht]; (split; [|lia]); [auto|right; lia].
  - intros i t d H. apply in_app_or in H. destruct H as [H|H]; [apply A9 in H; lia|eauto].
  - rewrite armed_timers_app. revert A10 A9. generalize o. clear - B10 B7 A2. intros l. induction l as [|x l IH]; intros A10 A9; [exact B10|].
    assert (IH' : NoDup (armed_timers l) -> NoDup (armed_timers l ++ armed_timers o1)).
    { intros Hn. apply IH; [exact Hn|]. intros i t d Hi. apply (A9 i t d). right. exact Hi. }
    destruct x; cbn [armed_timers flat_map app] in *; try (apply IH'; exact A10).
    apply NoDup_cons_iff in A10. destruct A10 as [Hn A10]. constructor; [|apply IH'; exact A10].
    intros Hin. apply in_app_or in Hin. destruct Hin as [Hin|Hin]; [contradiction|].
    apply in_armed_timers in Hin. destruct Hin as (i' & d' & Hin). apply B7 in Hin.
    assert (Hlt := A9 i t timeout (or_introl eq_refl)). lia.
  - intros i r H. apply in_app_or in H. destruct H as [H|H]; [eauto|].
    apply B8 in H. destruct H as [H|H]; [auto|right; lia].
Qed.

Lemma grown_same s s' : cc_calls s' = cc_calls s -> cc_next_timer s' = cc_next_timer s ->
  incl (qids (cc_queue s')) (qids (cc_queue s)) -> incl (later s') (later s) -> incl (live s') (live s) ->
  incl (cc_armed s' ++ cc_expired s') (cc_armed s ++ cc_expired s) -> grown s s' [].
Proof.
  intros H1 H2 H3 H4 H5 H6. constructor; try lia; auto.
  - intros i t d [].
  - intros i t d [].
  - constructor.
  - intros i r [].
Qed.

Lemma grown_refl s : grown s s [].
Proof. apply grown_same; auto; apply incl_refl. Qed.

Lemma grown_post s q o m : posts (cc_shutdown s) (cc_calls s) q o m -> grown s (with_queue s (cc_queue s ++ q) m) o.
Proof.
  intros P.
  assert (Hq : forall i, In i (qids q) -> (cc_calls s <= i)%nat).
  { intros i Hi. destruct (cc_shutdown s).
    - rewrite (ps_down _ _ _ _ _ P eq_refl) in Hi. destruct Hi.
    - rewrite (ps_ids _ _ _ _ _ P eq_refl) in Hi. apply in_seq in Hi. lia. }
  assert (Ho := ps_only _ _ _ _ _ P).
  constructor; unfold live, later; proj.
  - apply (ps_le _ _ _ _ _ P).
  - lia.
  - intros i H. rewrite qids_app in H. apply in_app_or in H. destruct H; auto.
  - intros i H. rewrite qids_app, app_assoc in H. apply in_app_or in H. destruct H; auto.
  - intros i H. rewrite qids_app, !app_assoc in H. rewrite app_assoc. apply in_app_or in H. destruct H; auto.
  - auto.
  - intros i t d H. destruct (only_called_in _ _ Ho H) as (? & ? & ?). discriminate.
  - intros i t d H. destruct (only_called_in _ _ Ho H) as (? & ? & ?). discriminate.
  - rewrite (only_called_timers _ Ho). constructor.
  - intros i r H. destruct (only_called_in _ _ Ho H) as (? & ? & ?). discriminate.
Qed.

Lemma grown_check s s' o : check_pending_requests s = (s', o) -> grown s s' o.
Proof.
  intros E. unfold check_pending_requests in E.
  destruct (cc_shutdown s); [injection E as <- <-; apply grown_refl|].
  destruct (cc_current s) as [c|] eqn:Hc; [injection E as <- <-; apply grown_refl|].
  destruct (cc_pending s) as [|p ps] eqn:Hp; [injection E as <- <-; apply grown_refl|].
  injection E as <- <-. constructor; unfold live, later; proj; rewrite ?Hp, ?Hc; cbn [map curid app].
  - lia.
  - lia.
  - auto.
  - intros i H. left. right. exact H.
  - auto.
  - intros t H. rewrite <- app_assoc in H. apply in_app_or in H. destruct H as [H|[<-|H]]; [left|right; lia|left].
    + apply in_or_app; auto.
    + apply in_or_app; auto.
  - intros i t d [H|[H|[]]]; [discriminate|]. injection H as <- <- <-. split; [left; left; reflexivity|lia].
  - intros i t d [H|[H|[]]]; [discriminate|]. injection H as <- <- <-. lia.
  - cbn. constructor; [intros []|constructor].
  - intros i r [H|[H|[]]]; discriminate.
Qed.

Lemma grown_cancel_timer s : grown s (cancel_timer s) [].
Proof.
  apply grown_same; try reflexivity; try apply incl_refl.
  unfold cancel_timer; proj. destruct (cc_timer s); [|apply incl_refl].
  intros x H. apply in_app_or in H. apply in_or_app. destruct H as [H|H]; [left|auto].
  apply filter_In in H. tauto.
Qed.

Lemma grown_no_current s : grown s (with_current s None) [].
Proof.
  apply grown_same; try reflexivity; try apply incl_refl.
  unfold live; proj. cbn [curid app]. apply incl_appr, incl_refl.
Qed.

Lemma grown_cancel s s' o : cancel_current_request s = (s', o) -> grown s s' o.
Proof.
  unfold cancel_current_request. destruct (cc_current s); intros E; [|injection E as <- <-; apply grown_refl].
  apply (grown_trans s (with_current s None) s' [] o); [apply grown_no_current|].
  apply (grown_trans _ (cancel_timer (with_current s None)) s' [] o); [apply grown_cancel_timer|].
  apply grown_check. exact E.
Qed.

Section Grown.
Context {W : Type}.
Context (handler : nat -> W -> expected (list N) -> W * list capi).

Lemma grown_handler s w i r s' w' o : In i (live s) -> call_handler handler s w i r = (s', w', o) -> grown s s' o.
Proof.
  intros Hi E. destruct (call_handler_spec handler s w i r) as (w1 & q & o1 & m & E1 & P).
  rewrite E1 in E. injection E as <- <- <-. destruct (grown_post _ _ _ _ P) as [A1 A2 A3 A4 A5 A6 A7 A9 A10 A8].
  constructor; auto.
  - intros j t d [H|H]; [discriminate|eauto].
  - intros j t d [H|H]; [discriminate|eauto].
  - intros j r' [H|H]; [injection H as <- <-; auto|eauto].
Qed.

Lemma grown_fail msg l : forall s w s' w' o, incl (map pr_id l) (live s) ->
  fail_all handler s w l msg = (s', w', o) -> grown s s' o /\ cc_current s' = cc_current s /\ cc_pending s' = cc_pending s.
Proof.
  induction l as [|p l IH]; intros s w s' w' o Hl E; cbn [fail_all] in E.
  - injection E as <- <- <-. split; [apply grown_refl|auto].
  - destruct (call_handler handler s w (pr_id p) (Error (EConnection msg))) as [[s1 w1] o1] eqn:E1.
    assert (G := grown_handler _ _ _ _ _ _ _ (Hl _ (or_introl eq_refl)) E1).
    destruct (call_handler_spec handler s w (pr_id p) (Error (EConnection msg))) as (w2 & q & o2 & m & E2 & P).
    rewrite E2 in E1. injection E1 as <- <- <-.
    destruct (fail_all handler (with_queue s (cc_queue s ++ q) m) w2 l msg) as [[s3 w3] o3] eqn:E3.
    injection E as <- <- <-. apply IH in E3.
    + destruct E3 as (G3 & -> & ->). split; [|auto]. apply (grown_trans _ _ _ _ _ G G3).
    + intros i Hi. assert (H := Hl i (or_intror Hi)). unfold live in *. proj. rewrite qids_app, !in_app_iff in *. tauto.
Qed.

Lemma grown_error s w msg s' w' o : on_error handler s w msg = (s', w', o) -> grown s s' o.
Proof.
  unfold on_error. destruct (cc_shutdown s); intros E; [injection E as <- <- <-; apply grown_refl|].
  unfold cancel_all_pending_requests in E. proj.
  destruct (fail_all handler (with_parser s (mbap_reset (cc_parser s))) w (cc_pending s) msg) as [[s1 w1] o1] eqn:E1.
  apply grown_fail in E1.
  2:{ unfold live; proj. apply incl_appr, incl_appl, incl_refl. }
  destruct E1 as (G1 & Hc & Hp). proj.
  assert (G2 : grown s (with_pending s1 []) (o1 ++ [])).
  { apply (grown_trans s s1); [destruct G1; constructor; assumption|].
    apply grown_same; try reflexivity; unfold live, later; proj; cbn [map app].
    - apply incl_refl.
    - apply incl_appr, incl_refl.
    - apply incl_app; [apply incl_appl, incl_refl|apply incl_appr, incl_appr, incl_refl].
    - apply incl_refl. }
  rewrite app_nil_r in G2.
  destruct (cc_current s1) as [p|] eqn:Hcur.
  - destruct (call_handler handler (with_pending s1 []) w1 (pr_id p) (Error (EConnection msg))) as [[s3 w3] o3] eqn:E3.
    destruct (cancel_current_request s3) as [s4 o4] eqn:E4. injection E as <- <- <-.
    apply (grown_trans _ _ _ _ _ G2).
    apply (grown_trans (with_pending s1 []) s3 s4 o3 o4).
    + apply (grown_handler _ _ _ _ _ _ _) with (2 := E3). unfold live; proj. rewrite Hcur. left. reflexivity.
    + apply grown_cancel. exact E4.
  - injection E as <- <- <-. exact G2.
Qed.

Lemma grown_response s w m s' w' o : on_response handler s w m = (s', w', o) -> grown s s' o.
Proof.
  unfold on_response. destruct (cc_shutdown s); intros E; [injection E as <- <- <-; apply grown_refl|].
  destruct (cc_current s) as [p|] eqn:Hcur; [|injection E as <- <- <-; apply grown_refl].
  destruct (_ && _); [|injection E as <- <- <-; apply grown_refl].
  destruct (call_handler handler (cancel_timer s) w (pr_id p) (Value (mb_data m))) as [[s1 w1] o1] eqn:E1.
  destruct (check_pending_requests (with_current s1 None)) as [s2 o2] eqn:E2. injection E as <- <- <-.
  apply (grown_trans s (cancel_timer s) s2 [] (o1 ++ o2)); [apply grown_cancel_timer|].
  apply (grown_trans _ s1).
  - apply (grown_handler _ _ _ _ _ _ _) with (2 := E1). unfold live, cancel_timer; proj. rewrite Hcur. left. reflexivity.
  - apply (grown_trans s1 (with_current s1 None) s2 [] o2); [apply grown_no_current|]. apply grown_check. exact E2.
Qed.

Lemma grown_responses ms : forall s w s' w' o, on_responses handler s w ms = (s', w', o) -> grown s s' o.
Proof.
  induction ms as [|m ms IH]; intros s w s' w' o E; cbn [on_responses] in E.
  - injection E as <- <- <-. apply grown_refl.
  - destruct (on_response handler s w m) as [[s1 w1] o1] eqn:E1.
    destruct (on_responses handler s1 w1 ms) as [[s2 w2] o2] eqn:E2. injection E as <- <- <-.
    apply (grown_trans _ s1); [apply (grown_response _ _ _ _ _ _ E1)|apply (IH _ _ _ _ _ E2)].
Qed.

Lemma grown_timeout s w s' w' o : on_timeout handler s w = (s', w', o) -> grown s s' o.
Proof.
  unfold on_timeout. destruct (cc_shutdown s); intros E; [injection E as <- <- <-; apply grown_refl|].
  destruct (cc_current s) as [p|] eqn:Hcur; [|injection E as <- <- <-; apply grown_refl].
  destruct (call_handler handler s w (pr_id p) (Error ETimeout)) as [[s1 w1] o1] eqn:E1.
  destruct (cancel_current_request s1) as [s2 o2] eqn:E2. injection E as <- <- <-.
  apply (grown_trans _ s1).
  - apply (grown_handler _ _ _ _ _ _ _) with (2 := E1). unfold live. rewrite Hcur. left. reflexivity.
  - apply grown_cancel. exact E2.
Qed.

Lemma grown_task s w t q s' w' o : cc_queue s = t :: q ->
  run_ctask handler (with_queue s q (cc_calls s)) w t = (s', w', o) -> grown s s' o.
Proof.
  intros Hq E.
  assert (Hqs : qids (cc_queue s) = qid t ++ qids q) by (rewrite Hq; reflexivity).
  assert (G0 : grown s (with_queue s q (cc_calls s)) []).
  { apply grown_same; try reflexivity; unfold live, later; proj; rewrite ?Hqs.
    - apply incl_appr, incl_refl.
    - apply incl_app; [apply incl_appl, incl_refl|apply incl_appr, incl_appr, incl_refl].
    - apply incl_app; [apply incl_appl, incl_refl|].
      apply incl_appr, incl_app; [apply incl_appl, incl_refl|apply incl_appr, incl_appr, incl_refl].
    - apply incl_refl. }
  destruct t as [i k|i|]; cbn [run_ctask] in E; proj; cbn [qid app] in Hqs.
  - destruct (cc_shutdown s) eqn:Hs; [injection E as <- <- <-; exact G0|].
    match type of E with context [check_pending_requests ?x] => set (s1 := x) in * end.
    destruct (check_pending_requests s1) as [s2 o2] eqn:E2. injection E as <- <- <-.
    apply (grown_trans s s1 s2 [] o2); [|apply grown_check; exact E2].
    apply grown_same; try reflexivity; subst s1; unfold live, later; proj; rewrite ?Hqs, ?map_app; cbn [map pr_id].
    + intros j Hj. right. exact Hj.
    + rewrite <- app_assoc. apply incl_refl.
    + rewrite <- app_assoc. apply incl_refl.
    + apply incl_refl.
  - destruct (call_handler_spec handler (with_queue s q (cc_calls s)) w i (Error EMalformedRequest)) as (w1 & q1 & o1 & m & E1 & P).
    rewrite E1 in E. injection E as <- <- <-.
    destruct (grown_trans _ _ _ _ _ G0 (grown_post _ _ _ _ P)) as [A1 A2 A3 A4 A5 A6 A7 A9 A10 A8].
    constructor; auto.
    + intros j t d [H|H]; [discriminate|eauto].
    + intros j t d [H|H]; [discriminate|eauto].
    + intros j r' [H|H]; [injection H as <- <-|eauto]. left. unfold live. rewrite Hqs, !in_app_iff. cbn. auto.
  - injection E as <- <- <-.
    match goal with |- grown s ?x _ => assert (G : grown s x []) end.
    { apply (grown_trans s (with_queue s q (cc_calls s)) _ [] []); [exact G0|].
      match goal with |- grown _ (cancel_timer ?x) _ => apply (grown_trans _ x _ [] []); [|apply grown_cancel_timer] end.
      apply grown_same; try reflexivity; unfold live, later; proj; cbn [map curid app].
      - apply incl_refl.
      - apply incl_appr, incl_refl.
      - apply incl_appr, incl_appr, incl_refl.
      - apply incl_refl. }
    destruct G as [A1 A2 A3 A4 A5 A6 A7 A9 A10 A8]. constructor; auto.
    + intros j t d [H|[]]; discriminate.
    + intros j t d [H|[]]; discriminate.
    + intros j r [H|[]]; discriminate.
Qed.

Lemma grown_step pol s w e s' w' o : client_step handler pol s w e = Ret (s', w', o) -> grown s s' o.
Proof.
  intros E. destruct e as [a| |d|msg|x|x]; cbn [client_step] in E.
  - destruct (capi_calls_spec s [a]) as (q & o1 & m & E1 & P). cbn [capi_calls] in E1.
    destruct (capi_call s a) as [s1 o2]. rewrite app_nil_r in E1. injection E1 as -> ->. injection E as <- <- <-.
    apply grown_post. exact P.
  - destruct (cc_queue s) as [|t q] eqn:Hq; [injection E as <- <- <-; apply grown_refl|].
    injection E as E. apply (grown_task _ _ _ _ _ _ _ Hq E).
  - unfold on_receive in E. destruct (cc_shutdown s); [injection E as <- <- <-; apply grown_refl|].
    destruct (mbap_parse pol (cc_parser s) d) as [[p ms]|]; cbn [obind] in E; [|discriminate]. injection E as E.
    apply grown_responses in E. destruct E; constructor; assumption.
  - injection E as E. apply (grown_error _ _ _ _ _ _ E).
  - destruct (existsb (Nat.eqb x) (cc_armed s)) eqn:Hx; injection E as <- <- <-; [|apply grown_refl].
    apply grown_same; try reflexivity; try apply incl_refl. proj.
    apply existsb_exists in Hx. destruct Hx as (y & Hy & Hxy). apply Nat.eqb_eq in Hxy. subst y.
    intros t H. rewrite !in_app_iff in *. destruct H as [H|[H|[<-|[]]]]; auto.
    apply filter_In in H. tauto.
  - destruct (existsb (Nat.eqb x) (cc_expired s)); [|injection E as <- <- <-; apply grown_refl].
    injection E as E. apply grown_timeout in E.
    match type of E with grown ?x _ _ => apply (grown_trans s x s' [] o); [|exact E] end.
    apply grown_same; try reflexivity; try apply incl_refl. proj.
    intros t H. rewrite !in_app_iff in *. destruct H as [H|H]; auto. apply filter_In in H. tauto.
Qed.
End Grown.

(** ** Sums *)
Definition outstanding (a : list stamped) (n : nat) : list N :=
  flat_map (fun x => match snd x with
                     | Called j k =>
                         if im_valid (k_msg k) && negb (existsb (Nat.eqb j) (completed_ids (map snd a))) && Nat.ltb j n
                         then [k_timeout k] else []
                     | _ => []
                     end) a.

Definition delay (eps : N) (l : list N) : N := sum (map (fun d => d + eps) l).

Lemma delay_app eps l l' : delay eps (l ++ l') = delay eps l + delay eps l'.
Proof. unfold delay. induction l as [|x l IH]; cbn [app map sum]; [reflexivity|rewrite IH; lia]. Qed.

Lemma delay_flat eps {A} (f g : A -> list N) l :
  (forall x, delay eps (f x) <= delay eps (g x)) -> delay eps (flat_map f l) <= delay eps (flat_map g l).
Proof.
  intros H. induction l as [|x l IH]; cbn [flat_map]; [apply N.le_refl|]. rewrite !delay_app. specialize (H x). lia.
Qed.

Lemma delay_unanswered eps a n : delay eps (outstanding a n) <= delay eps (unanswered a).
Proof.
  apply delay_flat. intros [t x]; cbn [snd]. destruct x; try apply N.le_refl.
  destruct (im_valid (k_msg k) && _); cbn [andb]; [|apply N.le_refl].
  destruct (Nat.ltb i n); [apply N.le_refl|]. unfold delay; cbn; lia.
Qed.

(** The timeout of an unanswered request counts from its number on. *)
Lemma delay_next eps a j k c n m : In (c, Called j k) a -> im_valid (k_msg k) = true ->
  ~ In j (completed_ids (map snd a)) -> (n <= j)%nat -> (j < m)%nat ->
  delay eps (outstanding a n) + (k_timeout k + eps) <= delay eps (outstanding a m).
Proof.
  intros Hin Hv Hc Hn Hm. unfold outstanding.
  assert (Hx : existsb (Nat.eqb j) (completed_ids (map snd a)) = false).
  { destruct (existsb _ _) eqn:E; [|reflexivity]. apply existsb_exists in E. destruct E as (y & Hy & E).
    apply Nat.eqb_eq in E. subst y. contradiction. }
  revert Hx. generalize (completed_ids (map snd a)). intros cs Hx.
  assert (Hmono : forall l, delay eps (flat_map (fun x : stamped => match snd x with
                     | Called j k => if im_valid (k_msg k) && negb (existsb (Nat.eqb j) cs) && Nat.ltb j n then [k_timeout k] else []
                     | _ => [] end) l) <= delay eps (flat_map (fun x : stamped => match snd x with
                     | Called j k => if im_valid (k_msg k) && negb (existsb (Nat.eqb j) cs) && Nat.ltb j m then [k_timeout k] else []
                     | _ => [] end) l)).
  { intros l. apply delay_flat. intros [t x]; cbn [snd]. destruct x; try apply N.le_refl.
    destruct (im_valid (k_msg k0) && _); cbn [andb]; [|apply N.le_refl].
    destruct (Nat.ltb i n) eqn:E1, (Nat.ltb i m) eqn:E2; try apply N.le_refl; [|unfold delay; cbn; lia].
    apply Nat.ltb_lt in E1. apply Nat.ltb_ge in E2. lia. }
  apply in_split in Hin. destruct Hin as (l1 & l2 & ->). rewrite !flat_map_app. cbn [flat_map snd].
  rewrite Hv, Hx. cbn [negb andb].
  destruct (Nat.ltb j n) eqn:E1; [apply Nat.ltb_lt in E1; lia|].
  destruct (Nat.ltb j m) eqn:E2; [|apply Nat.ltb_ge in E2; lia].
  unfold stamped in *. rewrite !delay_app. assert (H1 := Hmono l1). assert (H2 := Hmono l2).
  change (delay eps [k_timeout k]) with (k_timeout k + eps + 0). change (delay eps []) with 0. lia.
Qed.

(** ** The invariant *)
Section Time.
Context {W : Type}.
Context (handler : nat -> W -> expected (list N) -> W * list capi).
Context (pol : copy_policy).

Record timely (eps now : N) (s : client) (os : list stamped) : Prop := {
  ti_stamp : forall x, In x os -> fst x <= now;
  ti_order : forall ci i k cj j k', In (ci, Called i k) os -> In (cj, Called j k') os -> (j <= i)%nat -> cj <= ci;
  ti_time : on_time eps now s os;
  ti_once : NoDup (armed_timers (map snd os));
  ti_due : forall t a i d, In t (cc_expired s) -> In (a, Armed i t d) os -> a + d <= now;
  ti_start : forall a c i k b, os = a ++ (c, Called i k) :: b -> forall aj j t d, In (aj, Armed j t d) os -> (j <= i)%nat ->
     aj <= c + eps + delay eps (outstanding a j);
  ti_done : forall a c i k b, os = a ++ (c, Called i k) :: b -> forall t r, In (t, Completed i r) os ->
     t <= if im_valid (k_msg k) then time_limit eps a c (k_timeout k) else c + eps
}.

Lemma in_stamped (os : list stamped) x : In x (map snd os) <-> exists t, In (t, x) os.
Proof.
  rewrite in_map_iff. split; [intros ([t y] & E & H); cbn in E; subst y; eauto|intros (t & H); exists (t, x); auto].
Qed.

Lemma snd_stamp (now : N) (o : list coutput) : map snd (map (pair now) o) = o.
Proof. rewrite map_map. apply map_id. Qed.

Lemma in_stamp (now : N) (o : list coutput) t x : In (t, x) (map (pair now) o) <-> t = now /\ In x o.
Proof.
  rewrite in_map_iff. split; [intros (y & E & H); injection E as <- <-; auto|intros (-> & H); exists x; auto].
Qed.

(** The call of a smaller number is observed before. *)
Lemma called_before os n a i k b : called_ids os = seq 0 n -> os = a ++ Called i k :: b ->
  called_ids a = seq 0 i /\ (i < n)%nat.
Proof.
  intros H ->. rewrite called_app in H. cbn [called_ids flat_map app] in H. fold (called_ids b) in H.
  assert (Hl : (List.length (called_ids a) < n)%nat).
  { apply (f_equal (@List.length nat)) in H. rewrite app_length, seq_length in H. cbn [List.length] in H. lia. }
  assert (Hn : nth_error (seq 0 n) (List.length (called_ids a)) = Some i).
  { rewrite <- H. rewrite nth_error_app2, Nat.sub_diag by lia. reflexivity. }
  assert (Hi : i = List.length (called_ids a)).
  { assert (H1 := nth_error_nth _ _ 0%nat Hn). rewrite seq_nth in H1 by lia. lia. }
  split; [|lia]. rewrite Hi.
  replace (seq 0 n) with (seq 0 (List.length (called_ids a)) ++ seq (0 + List.length (called_ids a)) (n - List.length (called_ids a))) in H.
  2:{ rewrite <- seq_app. f_equal. lia. }
  assert (H1 := f_equal (firstn (List.length (called_ids a))) H).
  rewrite firstn_app, firstn_all, Nat.sub_diag in H1. rewrite firstn_app, seq_length, Nat.sub_diag in H1.
  rewrite (firstn_all2 (n := List.length (called_ids a)) (seq 0 _)) in H1 by (rewrite seq_length; lia).
  change (firstn 0 (?x :: ?y)) with (@nil nat) in H1. rewrite !firstn_O, !app_nil_r in H1. exact H1.
Qed.

(** Earlier calls are observed earlier. *)
Lemma called_prefix s (os : list stamped) a c i k b j k' : core s (map snd os) -> os = a ++ (c, Called i k) :: b ->
  In (Called j k') (map snd os) -> (j < i)%nat -> exists cj, In (cj, Called j k') a.
Proof.
  intros C E Hj Hlt. apply in_stamped in Hj. destruct Hj as (cj & Hj). exists cj. rewrite E in Hj. apply in_app_or in Hj.
  destruct Hj as [Hj|Hj]; [exact Hj|exfalso].
  assert (Hcall := co_called _ _ C). rewrite E, map_app in Hcall. cbn [map snd] in Hcall.
  destruct (called_before _ _ _ _ _ _ Hcall eq_refl) as (Ha & _).
  assert (Hnd : NoDup (called_ids (map snd a ++ Called i k :: map snd b))) by (rewrite Hcall; apply seq_NoDup).
  rewrite called_app in Hnd. cbn [called_ids flat_map app] in Hnd.
  assert (Hin : In j (called_ids (map snd a))) by (rewrite Ha; apply in_seq; lia).
  apply in_split in Hin. destruct Hin as (l1 & l2 & Hin). rewrite Hin in Hnd.
  rewrite <- app_assoc in Hnd. cbn [app] in Hnd. apply NoDup_remove_2 in Hnd. apply Hnd.
  rewrite !in_app_iff. right. right. destruct Hj as [Hj|Hj]; [injection Hj as _ Hj _; lia|].
  right. fold (called_ids (map snd b)). apply in_called. exists k'. apply in_stamped. eauto.
Qed.

(** A request that is not completed, at [now]. *)
Lemma live_limit eps now s os : core s (map snd os) -> stable s -> timely eps now s os ->
  forall a c i k b, os = a ++ (c, Called i k) :: b -> In i (live s) ->
  now <= if im_valid (k_msg k) then time_limit eps a c (k_timeout k) else c + eps.
Proof.
  intros C St [T1 T2 [T3 T3'] T7 T4 T5 T6] a c i k b E Hi.
  assert (Hc : In (c, Called i k) os) by (rewrite E, in_app_iff; cbn; auto).
  unfold live in Hi. rewrite app_assoc in Hi. apply in_app_or in Hi. destruct Hi as [Hi|Hi].
  2:{ assert (H := T3 _ _ _ Hc Hi). destruct (im_valid (k_msg k)); [unfold time_limit; lia|exact H]. }
  assert (Hserv : exists p, in_service s p /\ pr_id p = i).
  { apply in_app_or in Hi. destruct Hi as [Hi|Hi].
    - destruct (cc_current s) as [p|] eqn:Hp; [|destruct Hi]. destruct Hi as [<-|[]]. exists p. split; [left; exact Hp|reflexivity].
    - apply in_map_iff in Hi. destruct Hi as (p & <- & Hp). exists p. split; [right; exact Hp|reflexivity]. }
  destruct Hserv as (p & Hp & Hpi). destruct (co_service _ _ C _ Hp) as (k' & Hk' & Hv & _ & _ & Ht).
  rewrite Hpi in Hk'. assert (k' = k).
  { apply (called_fun (map snd os) i); [rewrite (co_called _ _ C); apply seq_NoDup|exact Hk'|].
    apply in_stamped. eauto. }
  subst k'. rewrite Hv.
  assert (Hcur : exists p, cc_current s = Some p /\ (pr_id p <= i)%nat /\ (pr_id p = i -> pr_timeout p = k_timeout k)).
  { destruct (cc_current s) as [q|] eqn:Hq.
    - exists q. split; [reflexivity|]. apply in_app_or in Hi. destruct Hi as [[Hi|[]]|Hi].
      + split; [lia|]. intros _. destruct Hp as [Hp|Hp]; [congruence|]. exfalso.
        assert (Hl := co_live _ _ C). unfold live in Hl. rewrite Hq in Hl. apply sorted_app in Hl. destruct Hl as (_ & _ & Hl).
        assert (pr_id q < i)%nat; [|lia]. apply Hl; [left; reflexivity|]. apply in_or_app. left. apply in_map_iff. eauto.
      + assert (Hl := co_live _ _ C). unfold live in Hl. rewrite Hq in Hl. apply sorted_app in Hl. destruct Hl as (_ & _ & Hl).
        assert (pr_id q < i)%nat; [|split; lia]. apply Hl; [left; reflexivity|]. apply in_or_app. auto.
    - apply in_app_or in Hi. destruct Hi as [[]|Hi]. rewrite (St Hq) in Hi. destruct Hi. }
  destruct Hcur as (q & Hq & Hle & Hsame).
  destruct (co_timer _ _ C _ Hq) as (t & _ & Hta & Harm). apply in_stamped in Harm. destruct Harm as (aq & Harm).
  assert (H1 := T3' _ _ _ _ Harm Hta). assert (H2 := T5 _ _ _ _ _ E _ _ _ _ Harm Hle).
  unfold time_limit. fold (delay eps (unanswered a)).
  destruct (Nat.eq_dec (pr_id q) i) as [Hqi|Hqi].
  - rewrite (Hsame Hqi) in H1. assert (H3 := delay_unanswered eps a (pr_id q)). lia.
  - destruct (co_service _ _ C q (or_introl Hq)) as (kq & Hkq & Hvq & _ & _ & Htq).
    assert (Hka := called_prefix s os a c i k b (pr_id q) kq C E Hkq ltac:(lia)).
    destruct Hka as (cq & Hka).
    assert (Hnc : ~ In (pr_id q) (completed_ids (map snd a))).
    { intros Hx. apply (co_gone _ _ C (pr_id q)); [|unfold live; rewrite Hq; left; reflexivity].
      rewrite E, map_app, completed_app, in_app_iff. auto. }
    assert (H3 := delay_next eps a (pr_id q) kq cq (pr_id q) i Hka Hvq Hnc (le_n _) ltac:(lia)).
    assert (H4 := delay_unanswered eps a i). rewrite Htq in H1. lia.
Qed.

Lemma timely_step eps now s w os es e s' w' o : history handler pol es s w (map snd os) -> timely eps now s os ->
  typed_cevent e -> due now os e -> client_step handler pol s w e = Ret (s', w', o) ->
  timely eps now s' (os ++ map (pair now) o).
Proof.
  intros H T Ht Hdue E.
  destruct (history_reached _ _ _ _ _ _ H) as (C & St & Tr).
  destruct (step_core handler pol s (map snd os) w e _ C St Tr Ht) as (s2 & w2 & o2 & E2 & C' & St' & _).
  rewrite E in E2. injection E2 as <- <- <-.
  assert (G := grown_step _ _ _ _ _ _ _ _ E).
  assert (Hexp := step_expired handler pol _ _ _ _ _ _ _ _ C St Tr Ht E).
  assert (Hlive := live_limit eps now s os C St T).
  assert (Hlow : forall c i k, In (c, Called i k) os -> (i < cc_calls s)%nat).
  { intros c i k Hi. assert (Hx : In i (called_ids (map snd os))) by (apply in_called; exists k; apply in_stamped; eauto).
    rewrite (co_called _ _ C) in Hx. apply in_seq in Hx. lia. }
  assert (Hnew : forall i k, In (Called i k) o -> (cc_calls s <= i)%nat).
  { intros i k Hi. assert (Hcall := co_called _ _ C'). rewrite called_app, (co_called _ _ C) in Hcall.
    assert (Hx : In i (called_ids o)) by (apply in_called; eauto).
    destruct (Nat.le_gt_cases (cc_calls s) i) as [Hge|Hlt]; [exact Hge|exfalso].
    assert (Hnd : NoDup (seq 0 (cc_calls s) ++ called_ids o)) by (rewrite Hcall; apply seq_NoDup).
    apply in_split in Hx. destruct Hx as (l1 & l2 & Hx). rewrite Hx, app_assoc in Hnd. apply NoDup_remove_2 in Hnd.
    apply Hnd. rewrite !in_app_iff. left. left. apply in_seq. lia. }
  destruct T as [T1 T2 [T3 T3'] T7 T4 T5 T6]. constructor.
  - intros [t x] Hx. apply in_app_or in Hx. destruct Hx as [Hx|Hx]; [apply (T1 _ Hx)|].
    apply in_stamp in Hx. destruct Hx as [-> _]. apply N.le_refl.
  - intros ci i k cj j k' Hi Hj Hle. rewrite in_app_iff, in_stamp in Hi, Hj.
    destruct Hi as [Hi|[-> Hi]], Hj as [Hj|[-> Hj]].
    + eauto.
    + apply Hnew in Hj. apply Hlow in Hi. lia.
    + apply (T1 _ Hj).
    + apply N.le_refl.
  - split.
    + intros c i k Hi Hq. rewrite in_app_iff, in_stamp in Hi. destruct Hi as [Hi|[-> Hi]]; [|lia].
      apply (gr_queue _ _ _ G) in Hq. destruct Hq as [Hq|Hq]; [eauto|]. apply Hlow in Hi. lia.
    + intros a i t d Hi Hq. rewrite in_app_iff, in_stamp in Hi. destruct Hi as [Hi|[-> Hi]]; [|lia].
      apply (gr_timers _ _ _ G) in Hq. destruct Hq as [Hq|Hq]; [eauto|].
      assert (Hx : In (Armed i t d) (map snd os)) by (apply in_stamped; eauto). apply (co_armed_ids _ _ C) in Hx. lia.
  - rewrite map_app, snd_stamp, armed_timers_app.
    assert (Hb : forall i t d, In (Armed i t d) (map snd os) -> (t < cc_next_timer s)%nat) by (apply (co_armed_ids _ _ C)).
    revert T7 Hb. generalize (map snd os). clear - G. intros l T7 Hb.
    assert (Hd : forall t, In t (armed_timers l) -> ~ In t (armed_timers o)).
    { intros t H1 H2. apply in_armed_timers in H1, H2. destruct H1 as (i & d & H1), H2 as (j & d' & H2).
      apply Hb in H1. apply (gr_armed _ _ _ G) in H2. lia. }
    revert T7 Hd. generalize (armed_timers l). intros ts Hn Hd. induction ts as [|t ts IH]; [apply (gr_once _ _ _ G)|].
    apply NoDup_cons_iff in Hn. destruct Hn as [Hn1 Hn2]. cbn [app]. constructor.
    + rewrite in_app_iff. intros [Hi|Hi]; [contradiction|]. apply (Hd t); [left; reflexivity|exact Hi].
    + apply IH; [exact Hn2|]. intros u Hu. apply Hd. right. exact Hu.
  - intros t a i d Hx Hi. rewrite in_app_iff, in_stamp in Hi.
    assert (Hold : In t (cc_expired s) -> a + d <= now).
    { intros Hin. destruct Hi as [Hi|[-> Hi]]; [eauto|]. apply (gr_armed _ _ _ G) in Hi.
      assert (Hlt : (t < cc_next_timer s)%nat) by (apply (co_timer_ids _ _ C); apply in_or_app; auto). lia. }
    rewrite Hexp in Hx. destruct e as [x| |d0|msg|x|x]; auto.
    + destruct (existsb (Nat.eqb x) (cc_armed s)) eqn:Ex; [|auto].
      apply in_app_or in Hx. destruct Hx as [Hx|[<-|[]]]; [auto|].
      cbn [client_step] in E. rewrite Ex in E. injection E as _ _ <-. destruct Hi as [Hi|[_ []]].
      cbn [due] in Hdue. eauto.
    + destruct (existsb (Nat.eqb x) (cc_expired s)); [|auto]. apply filter_In in Hx. tauto.
  - intros a c i k b Eq aj j t d Hj Hle. apply split_at in Eq. rewrite in_app_iff, in_stamp in Hj.
    destruct Eq as [(b1 & Eq & ->)|(a2 & -> & Eq)].
    + destruct Hj as [Hj|[-> Hj]]; [eauto|].
      assert (Hc : In (c, Called i k) os) by (rewrite Eq, in_app_iff; cbn; auto).
      destruct (gr_armed _ _ _ G _ _ _ Hj) as ([Hjl|Hjl] & _); [|apply Hlow in Hc; lia].
      destruct (cc_current s) as [q|] eqn:Hq.
      * destruct (co_timer _ _ C _ Hq) as (tq & _ & Hta & Harm). apply in_stamped in Harm. destruct Harm as (aq & Harm).
        assert (Hlt : (pr_id q < j)%nat).
        { assert (Hl := co_live _ _ C). unfold live in Hl. rewrite Hq in Hl. apply sorted_app in Hl. destruct Hl as (_ & _ & Hl).
          apply Hl; [left; reflexivity|exact Hjl]. }
        assert (H1 := T3' _ _ _ _ Harm Hta). assert (H2 := T5 _ _ _ _ _ Eq _ _ _ _ Harm ltac:(lia)).
        destruct (co_service _ _ C q (or_introl Hq)) as (kq & Hkq & Hvq & _ & _ & Htq).
        destruct (called_prefix s os a c i k b1 (pr_id q) kq C Eq Hkq ltac:(lia)) as (cq & Hka).
        assert (Hnc : ~ In (pr_id q) (completed_ids (map snd a))).
        { intros Hx. apply (co_gone _ _ C (pr_id q)); [|unfold live; rewrite Hq; left; reflexivity].
          rewrite Eq, map_app, completed_app, in_app_iff. auto. }
        assert (H3 := delay_next eps a (pr_id q) kq cq (pr_id q) j Hka Hvq Hnc (le_n _) Hlt).
        rewrite Htq in H1. lia.
      * unfold later in Hjl. rewrite (St Hq) in Hjl. cbn [map app] in Hjl.
        assert (Hcj : exists cj k', In (cj, Called j k') os).
        { assert (Hx : (j < cc_calls s)%nat).
          { apply (co_below _ _ C). rewrite in_app_iff. right. unfold live. rewrite !in_app_iff. auto. }
          assert (Hy : In j (called_ids (map snd os))) by (rewrite (co_called _ _ C); apply in_seq; lia).
          apply in_called in Hy. destruct Hy as (k' & Hy). apply in_stamped in Hy. destruct Hy as (cj & Hy). eauto. }
        destruct Hcj as (cj & k' & Hcj). assert (H1 := T3 _ _ _ Hcj Hjl). assert (H2 := T2 _ _ _ _ _ _ Hc Hcj Hle). lia.
    + assert (c = now /\ In (Called i k) o) as [-> _].
      { apply in_stamp. rewrite Eq, in_app_iff. cbn. auto. }
      destruct Hj as [Hj|[-> _]]; [apply T1 in Hj; cbn [fst] in Hj; lia|lia].
  - intros a c i k b Eq t r Hr. apply split_at in Eq. rewrite in_app_iff, in_stamp in Hr.
    destruct Eq as [(b1 & Eq & ->)|(a2 & -> & Eq)].
    + destruct Hr as [Hr|[-> Hr]]; [eauto|].
      assert (Hc : In (c, Called i k) os) by (rewrite Eq, in_app_iff; cbn; auto).
      destruct (gr_done _ _ _ G _ _ Hr) as [Hjl|Hjl]; [eauto|apply Hlow in Hc; lia].
    + assert (c = now /\ In (Called i k) o) as [-> _].
      { apply in_stamp. rewrite Eq, in_app_iff. cbn. auto. }
      assert (Htn : t <= now) by (destruct Hr as [Hr|[-> _]]; [apply (T1 _ Hr)|apply N.le_refl]).
      destruct (im_valid (k_msg k)); unfold time_limit; lia.
Qed.

Lemma timed_inv prompt eps now s w os : timed_history handler pol prompt eps now s w os ->
  (exists es, history handler pol es s w (map snd os)) /\ timely eps now s os.
Proof.
  induction 1 as [buf w Hb|now s w os e s' w' o H ((es & IH) & T) Ht Hdue Hp E|now now' s w os H (IH & T) Hle Hon].
  - split; [exists [], buf, w; split; [exact Hb|]; split; [constructor|reflexivity]|].
    constructor; try (intros; contradiction).
    + split; intros; contradiction.
    + constructor.
  - split; [|apply (timely_step _ _ _ _ _ _ _ _ _ _ IH T Ht Hdue E)].
    exists (es ++ [e]). rewrite map_app, snd_stamp. destruct IH as (buf & w0 & Hb & Hty & Er).
    exists buf, w0. split; [exact Hb|]. split; [apply Forall_app; split; [exact Hty|constructor; [exact Ht|constructor]]|].
    rewrite run_snoc, Er. cbn [obind]. rewrite E. reflexivity.
  - split; [exact IH|]. destruct T as [T1 T2 T3 T7 T4 T5 T6]. constructor; auto.
    + intros x Hx. apply T1 in Hx. lia.
    + intros t a i d Hx Hi. assert (X := T4 _ _ _ _ Hx Hi). lia.
Qed.

(** A valid request is completed in time, an invalid one too. *)
Lemma completed_in_time prompt eps now s w os a c i k b : timed_history handler pol prompt eps now s w os ->
  os = a ++ (c, Called i k) :: b ->
  (forall t r, In (t, Completed i r) os -> c <= t <= if im_valid (k_msg k) then time_limit eps a c (k_timeout k) else c + eps) /\
  (~ In TcpShutdown (map snd os) -> ~ In i (completed_ids (map snd os)) ->
   now <= if im_valid (k_msg k) then time_limit eps a c (k_timeout k) else c + eps).
Proof.
  intros H E. destruct (timed_inv _ _ _ _ _ _ H) as ((es & Hh) & T). split.
  - intros t r Hr. split; [|apply (ti_done _ _ _ _ T _ _ _ _ _ E _ _ Hr)].
    assert (Hc : In (c, Called i k) os) by (rewrite E, in_app_iff; cbn; auto). clear E T Hh es a b.
    revert t r Hr k c Hc. induction H as [buf w Hb|now s w os e s' w' o H IH Ht Hdue Hp E|now now' s w os H IH Hle Hon]; intros t r Hr k c Hc.
    + destruct Hr.
    + destruct (timed_inv _ _ _ _ _ _ H) as ((es & Hh) & T). rewrite in_app_iff, in_stamp in Hr, Hc.
      destruct Hr as [Hr|[-> Hr]], Hc as [Hc|[-> Hc]].
      * eauto.
      * exfalso. destruct (history_reached _ _ _ _ _ _ Hh) as (C & St & Tr).
        assert (Hx : In i (completed_ids (map snd os))) by (apply in_completed; exists r; apply in_stamped; eauto).
        assert (Hlt : (i < cc_calls s)%nat) by (apply (co_below _ _ C); apply in_or_app; auto).
        destruct (step_core handler pol s (map snd os) w e _ C St Tr Ht) as (s2 & w2 & o2 & E2 & C' & _).
        rewrite E in E2. injection E2 as <- <- <-. assert (Hcall := co_called _ _ C').
        rewrite called_app, (co_called _ _ C) in Hcall.
        assert (Hnd : NoDup (seq 0 (cc_calls s) ++ called_ids o)) by (rewrite Hcall; apply seq_NoDup).
        assert (Hy : In i (called_ids o)) by (apply in_called; eauto).
        apply in_split in Hy. destruct Hy as (l1 & l2 & Hy). rewrite Hy, app_assoc in Hnd. apply NoDup_remove_2 in Hnd.
        apply Hnd. rewrite !in_app_iff. left. left. apply in_seq. lia.
      * apply (ti_stamp _ _ _ _ T _ Hc).
      * apply N.le_refl.
    + eauto.
  - intros Hn Hc. destruct (history_reached _ _ _ _ _ _ Hh) as (C & St & _).
    apply (live_limit _ _ _ _ C St T _ _ _ _ _ E).
    assert (Hx : In i (called_ids (map snd os))).
    { apply in_called. exists k. apply in_stamped. exists c. rewrite E, in_app_iff. cbn. auto. }
    rewrite (co_called _ _ C) in Hx. apply in_seq in Hx.
    assert (Hy := co_all _ _ C (not_down _ _ _ _ _ _ Hh Hn) i ltac:(lia)). apply in_app_or in Hy. tauto.
Qed.

(** With nothing else unanswered, the timeout of the request is all that is added. *)
Lemma alone_in_time prompt eps now s w os a c i k b : timed_history handler pol prompt eps now s w os ->
  os = a ++ (c, Called i k) :: b -> unanswered a = [] ->
  (forall t r, In (t, Completed i r) os -> c <= t <= c + k_timeout k + 2 * eps) /\
  (~ In TcpShutdown (map snd os) -> ~ In i (completed_ids (map snd os)) -> now <= c + k_timeout k + 2 * eps).
Proof.
  intros H E Hu. destruct (completed_in_time _ _ _ _ _ _ _ _ _ _ _ H E) as (H1 & H2).
  unfold time_limit in *. rewrite Hu in *. cbn [map sum] in *. split.
  - intros t r Hr. apply H1 in Hr. destruct (im_valid (k_msg k)); lia.
  - intros Hn Hc. assert (X := H2 Hn Hc). destruct (im_valid (k_msg k)); lia.
Qed.

(** ** Not too early *)
Definition at_most_one (s : client) : Prop :=
  cc_expired s = [] \/ exists t, cc_expired s = [t] /\ cc_timer s = Some t.

Lemma prompt_one eps now s w os : timed_history handler pol true eps now s w os -> at_most_one s.
Proof.
  induction 1 as [buf w Hb|now s w os e s' w' o H IH Ht Hdue Hp E|now now' s w os H IH Hle Hon]; [left; reflexivity| |exact IH].
  destruct (timed_inv _ _ _ _ _ _ H) as ((es & Hh) & T).
  destruct (history_reached _ _ _ _ _ _ Hh) as (C & St & Tr).
  assert (Hexp := step_expired handler pol _ _ _ _ _ _ _ _ C St Tr Ht E).
  destruct IH as [He|(t & He & Htm)].
  - rewrite He in Hexp. destruct e as [x| |d0|msg|x|x]; try (left; exact Hexp).
    destruct (existsb (Nat.eqb x) (cc_armed s)) eqn:Ex; [|left; exact Hexp].
    right. exists x. split; [exact Hexp|]. cbn [client_step] in E. rewrite Ex in E. injection E as <- _ _. proj.
    apply existsb_exists in Ex. destruct Ex as (y & Hy & Exy). apply Nat.eqb_eq in Exy. subst y.
    apply (co_armed _ _ C _ Hy).
  - destruct (Hp eq_refl) as (x & ->); [rewrite He; discriminate|]. rewrite He in Hexp.
    cbn [existsb orb filter] in Hexp. rewrite Bool.orb_false_r in Hexp.
    destruct (Nat.eqb x t) eqn:Ex.
    + apply Nat.eqb_eq in Ex. subst x. rewrite Nat.eqb_refl in Hexp. left. exact Hexp.
    + right. exists t. split; [exact Hexp|]. cbn [client_step] in E. rewrite He in E. cbn [existsb] in E. rewrite Ex in E.
      injection E as <- _ _. exact Htm.
Qed.

Lemma not_too_early eps now s w os i t : timed_history handler pol true eps now s w os ->
  In (t, Completed i (Error ETimeout)) os ->
  exists a tm k, In (Called i k) (map snd os) /\ In (a, Armed i tm (k_timeout k)) os /\ a + k_timeout k <= t.
Proof.
  induction 1 as [buf w Hb|now s w os e s' w' o H IH Ht Hdue Hp E|now now' s w os H IH Hle Hon]; intros Hin; [destruct Hin| |eauto].
  rewrite in_app_iff, in_stamp in Hin. destruct Hin as [Hin|[-> Hin]].
  - destruct (IH Hin) as (a & tm & k & H1 & H2 & H3). exists a, tm, k. rewrite map_app, !in_app_iff. auto.
  - destruct (timed_inv _ _ _ _ _ _ H) as ((es & Hh) & T).
    destruct (timeout_source _ _ _ _ _ _ _ _ _ _ _ Hh Ht E Hin) as (t & p & -> & Hx & Hcur & <-).
    destruct (history_reached _ _ _ _ _ _ Hh) as (C & St & Tr).
    destruct (prompt_one _ _ _ _ _ H) as [He|(t' & He & Htm)]; [rewrite He in Hx; destruct Hx|].
    rewrite He in Hx. destruct Hx as [->|[]].
    destruct (co_timer _ _ C _ Hcur) as (t' & Htm' & _ & Harm). rewrite Htm in Htm'. injection Htm' as <-.
    apply in_stamped in Harm. destruct Harm as (a & Harm).
    destruct (co_service _ _ C p (or_introl Hcur)) as (k & Hk & _ & _ & _ & Hto). rewrite Hto in Harm.
    exists a, t, k. rewrite map_app, !in_app_iff. split; [auto|]. split; [auto|].
    apply (ti_due _ _ _ _ T t a (pr_id p)); [rewrite He; left; reflexivity|exact Harm].
Qed.
End Time.

Lemma times_erased {W} (handler : nat -> W -> expected (list N) -> W * list capi) pol prompt eps now s w os :
  timed_history handler pol prompt eps now s w os -> exists es, history handler pol es s w (map snd os).
Proof. intros H. apply (timed_inv handler pol _ _ _ _ _ _ H). Qed.
