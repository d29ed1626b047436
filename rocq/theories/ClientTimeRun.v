(** In the histories with times, time can always pass. *)
From Verif Require Import Prelude Ser4 Messages Mbap SpecPdu SpecMbap Client SpecClient MbapFacts MbapLemmas BitFacts
  ClientFacts ClientLemmas ClientTx ClientShutdown ClientResponses ClientOutcomes SpecClientTime ClientTime.
From Coq Require Import Lia.

Section Run.
Context {W : Type}.
Context (handler : nat -> W -> expected (list N) -> W * list capi).
Context (pol : copy_policy).
Context (prompt : bool).
Context (eps : N).

Local Notation timed := (timed_history handler pol prompt eps).

(** One step that is allowed. *)
Lemma timed_step now s w os e : timed now s w os -> typed_cevent e -> due now os e ->
  (prompt = true -> cc_expired s <> [] -> exists t, e = CFire t) ->
  exists s' w' o, client_step handler pol s w e = Ret (s', w', o) /\ timed now s' w' (os ++ map (pair now) o).
Proof.
  intros H Ht Hd Hp. destruct (timed_inv _ _ _ _ _ _ _ _ H) as ((es & Hh) & _).
  destruct (history_reached _ _ _ _ _ _ Hh) as (C & St & Tr).
  destruct (step_core handler pol s _ w e _ C St Tr Ht) as (s' & w' & o & E & _).
  exists s', w', o. split; [exact E|]. apply (Happens _ _ _ _ _ _ _ _ _ _ _ _ H Ht Hd Hp E).
Qed.

Lemma stamp_now (now : N) (o : list coutput) : Forall (fun x : stamped => fst x = now) (map (pair now) o).
Proof. apply Forall_forall. intros [t x] H. apply in_stamp in H. apply H. Qed.

Lemma fire_all n : forall now s w os, (List.length (cc_expired s) <= n)%nat -> timed now s w os ->
  exists s' w' os', timed now s' w' (os ++ os') /\ cc_expired s' = [] /\ Forall (fun x => fst x = now) os'.
Proof.
  induction n as [|n IH]; intros now s w os Hn H.
  - exists s, w, []. rewrite app_nil_r. split; [exact H|]. split; [destruct (cc_expired s); [reflexivity|cbn in Hn; lia]|constructor].
  - destruct (cc_expired s) as [|t l] eqn:He.
    + exists s, w, []. rewrite app_nil_r. auto.
    + destruct (timed_step now s w os (CFire t) H I I ltac:(eauto)) as (s1 & w1 & o1 & E & H1).
      destruct (timed_inv _ _ _ _ _ _ _ _ H) as ((es & Hh) & _).
      destruct (history_reached _ _ _ _ _ _ Hh) as (C & St & Tr).
      assert (Hx := step_expired handler pol _ _ _ (CFire t) _ _ _ _ C St Tr I E). rewrite He in Hx.
      cbn [existsb filter] in Hx. rewrite Nat.eqb_refl in Hx. cbn [orb negb] in Hx.
      destruct (IH now s1 w1 (os ++ map (pair now) o1)) as (s2 & w2 & os2 & H2 & He2 & Hf2).
      { rewrite Hx. assert (X : forall f (m : list nat), (List.length (filter f m) <= List.length m)%nat).
        { intros f m. induction m as [|y m IHm]; cbn; [lia|]. destruct (f y); cbn; lia. }
        specialize (X (fun x => negb (Nat.eqb x t)) l). cbn in Hn. lia. }
      { exact H1. }
      exists s2, w2, (map (pair now) o1 ++ os2). rewrite app_assoc. split; [exact H2|]. split; [exact He2|].
      apply Forall_app. split; [apply stamp_now|exact Hf2].
Qed.

(** No timer is due, and no action waits. *)
Definition rested (now : N) (s : client) (os : list stamped) : Prop :=
  cc_expired s = [] /\ forall a i t d, In (a, Armed i t d) os -> In t (cc_armed s) -> a = now \/ now < a + d.

Definition dueb (now : N) (os : list stamped) (t : nat) : bool :=
  forallb (fun x => match snd x with Armed _ t' d => negb (Nat.eqb t' t) || (fst x + d <=? now) | _ => true end) os.

Lemma armed_unique (os : list stamped) t a i d a' i' d' : NoDup (armed_timers (map snd os)) ->
  In (a, Armed i t d) os -> In (a', Armed i' t d') os -> a = a' /\ i = i' /\ d = d'.
Proof.
  induction os as [|[c x] os IH]; intros Hn H H'; [destruct H|]. cbn [map snd] in Hn.
  assert (Htail : NoDup (armed_timers (map snd os))).
  { destruct x; cbn [armed_timers flat_map app] in Hn; try exact Hn. apply NoDup_cons_iff in Hn. apply Hn. }
  destruct H as [H|H], H' as [H'|H'].
  - rewrite H in H'. injection H' as <- <- <-. auto.
  - injection H as -> ->. cbn [armed_timers flat_map app] in Hn. apply NoDup_cons_iff in Hn. destruct Hn as [Hn _].
    exfalso. apply Hn. apply in_armed_timers. exists i', d'. apply in_stamped. eauto.
  - injection H' as -> ->. cbn [armed_timers flat_map app] in Hn. apply NoDup_cons_iff in Hn. destruct Hn as [Hn _].
    exfalso. apply Hn. apply in_armed_timers. exists i, d. apply in_stamped. eauto.
  - auto.
Qed.

Lemma rest now s w os : timed now s w os -> exists s' w' os', timed now s' w' (os ++ os') /\
  rested now s' (os ++ os') /\ Forall (fun x => fst x = now) os'.
Proof.
  intros H. destruct (fire_all _ now s w os (le_n _) H) as (s1 & w1 & os1 & H1 & He1 & Hf1).
  destruct (timed_inv _ _ _ _ _ _ _ _ H1) as ((es & Hh) & T).
  destruct (history_reached _ _ _ _ _ _ Hh) as (C & St & Tr).
  destruct (cc_armed s1) as [|t l] eqn:Ha.
  { exists s1, w1, os1. split; [exact H1|]. split; [|exact Hf1]. split; [exact He1|]. rewrite Ha. intros a i t d _ []. }
  assert (Hall : forall u, In u (cc_armed s1) -> u = t).
  { intros u Hu. assert (X := proj1 (co_armed _ _ C u Hu)).
    assert (Y := proj1 (co_armed _ _ C t ltac:(rewrite Ha; left; reflexivity))). congruence. }
  destruct (dueb now (os ++ os1) t) eqn:Ed.
  - assert (Hdue : due now (os ++ os1) (CExpire t)).
    { intros a i d Hi. unfold dueb in Ed. rewrite forallb_forall in Ed. apply Ed in Hi. cbn [snd fst] in Hi.
      rewrite Nat.eqb_refl in Hi. apply N.leb_le. exact Hi. }
    destruct (timed_step now s1 w1 _ (CExpire t) H1 I Hdue) as (s2 & w2 & o2 & E2 & H2).
    { rewrite He1. intros _ X. destruct (X eq_refl). }
    assert (Hex : existsb (Nat.eqb t) (cc_armed s1) = true) by (rewrite Ha; cbn [existsb]; rewrite Nat.eqb_refl; reflexivity).
    cbn [client_step] in E2. rewrite Hex, He1 in E2. injection E2 as E2 E2' E2''. subst w2 o2. cbn [map app] in H2. rewrite app_nil_r in H2.
    assert (Hnone : cc_armed s2 = []).
    { rewrite <- E2. proj. assert (X : forall m, (forall u, In u m -> u = t) -> filter (fun x => negb (Nat.eqb x t)) m = []).
      { induction m as [|y m IHm]; intros Hm; [reflexivity|]. cbn [filter]. rewrite (Hm y (or_introl eq_refl)), Nat.eqb_refl.
        cbn [negb]. apply IHm. intros u Hu. apply Hm. right. exact Hu. }
      apply X. exact Hall. }
    destruct (timed_step now s2 w1 _ (CFire t) H2 I I ltac:(eauto)) as (s3 & w3 & o3 & E3 & H3).
    assert (He2 : cc_expired s2 = [t]) by (rewrite <- E2; reflexivity).
    cbn [client_step] in E3. rewrite He2 in E3. cbn [existsb filter] in E3. rewrite Nat.eqb_refl, Hnone in E3. cbn [orb negb] in E3.
    injection E3 as E3. assert (G := grown_timeout _ _ _ _ _ _ E3).
    destruct (timed_inv _ _ _ _ _ _ _ _ H2) as ((es2 & Hh2) & T2).
    destruct (history_reached _ _ _ _ _ _ Hh2) as (C2 & St2 & Tr2).
    exists s3, w3, (os1 ++ map (pair now) o3). rewrite app_assoc. split; [exact H3|].
    split; [|apply Forall_app; split; [exact Hf1|apply stamp_now]]. split.
    + rewrite (step_expired handler pol s2 _ w1 (CFire t) _ s3 w3 o3 C2 St2 Tr2 I).
      * rewrite He2. cbn [existsb filter]. rewrite Nat.eqb_refl. reflexivity.
      * cbn [client_step]. rewrite He2. cbn [existsb filter]. rewrite Nat.eqb_refl, Hnone. cbn [orb negb]. rewrite E3. reflexivity.
    + intros a i u d Hi Hu. rewrite in_app_iff, in_stamp in Hi. destruct Hi as [Hi|[-> _]]; [|auto].
      destruct (gr_timers _ _ _ G u) as [[]|Hge]; [apply in_or_app; auto|]. proj.
      assert (Hlt : (u < cc_next_timer s2)%nat); [|cbn in Hge; lia].
      apply (co_armed_ids _ _ C2 i u d). apply in_stamped. eauto.
  - exists s1, w1, os1. split; [exact H1|]. split; [|exact Hf1]. split; [exact He1|].
    intros a i u d Hi Hu. apply Hall in Hu. subst u. right.
    destruct (N.lt_ge_cases now (a + d)) as [Hlt|Hge]; [exact Hlt|exfalso].
    assert (X : dueb now (os ++ os1) t = true); [|congruence].
    unfold dueb. apply forallb_forall. intros [a' x] Hx. cbn [snd fst]. destruct x as [| |i' t' d'| |]; try reflexivity.
    destruct (Nat.eqb_spec t' t) as [->|]; [|reflexivity]. cbn [negb orb].
    destruct (armed_unique _ _ _ _ _ _ _ _ (ti_once _ _ _ _ T) Hi Hx) as (<- & _ & <-). apply N.leb_le. exact Hge.
Qed.

(** Running the closures that are posted now. *)
Lemma run_adds s w t q s' w' o : run_ctask handler (with_queue s q (cc_calls s)) w t = (s', w', o) ->
  exists q', cc_queue s' = q ++ q' /\ forall i, In i (qids q') -> (cc_calls s <= i)%nat.
Proof.
  intros E. destruct t as [i k|i|]; cbn [run_ctask] in E; proj.
  - exists []. rewrite app_nil_r. split; [|intros i' []].
    destruct (cc_shutdown s) eqn:Hs; [injection E as <- _ _; reflexivity|].
    unfold check_pending_requests in E. proj. rewrite Hs in E.
    destruct (cc_current s); [injection E as <- _ _; reflexivity|].
    destruct (cc_pending s ++ _); injection E as <- _ _; reflexivity.
  - destruct (call_handler_spec handler (with_queue s q (cc_calls s)) w i (Error EMalformedRequest)) as (w1 & q1 & o1 & m & E1 & P).
    rewrite E1 in E. injection E as <- <- <-. exists q1. split; [reflexivity|]. proj. intros j Hj.
    destruct (cc_shutdown s).
    + rewrite (ps_down _ _ _ _ _ P eq_refl) in Hj. destruct Hj.
    + rewrite (ps_ids _ _ _ _ _ P eq_refl) in Hj. apply in_seq in Hj. lia.
  - injection E as <- <- <-. exists []. cbn. rewrite app_nil_r. split; [reflexivity|intros i []].
Qed.

Lemma run_all K now l1 : forall s w os l2, cc_queue s = l1 ++ l2 -> (forall i, In i (qids l2) -> (K <= i)%nat) -> (K <= cc_calls s)%nat ->
  timed now s w os -> rested now s os ->
  exists s' w' os', timed now s' w' (os ++ os') /\ rested now s' (os ++ os') /\
    (forall i, In i (qids (cc_queue s')) -> (K <= i)%nat) /\ Forall (fun x => fst x = now) os'.
Proof.
  induction l1 as [|t l1 IH]; intros s w os l2 Hq Hl HK H (He & Hr).
  - exists s, w, []. rewrite app_nil_r. split; [exact H|]. split; [split; assumption|]. split; [rewrite Hq; exact Hl|constructor].
  - destruct (timed_step now s w os CRun H I I) as (s1 & w1 & o1 & E1 & H1).
    { rewrite He. intros _ X. destruct (X eq_refl). }
    assert (G := grown_step _ _ _ _ _ _ _ _ E1).
    destruct (timed_inv _ _ _ _ _ _ _ _ H) as ((es & Hh) & T).
    destruct (history_reached _ _ _ _ _ _ Hh) as (C & St & Tr).
    assert (Hx := step_expired handler pol _ _ _ CRun _ _ _ _ C St Tr I E1). cbn in Hx. rewrite He in Hx.
    cbn [client_step] in E1. rewrite Hq in E1. cbn [app] in E1. injection E1 as E1.
    destruct (run_adds _ _ _ _ _ _ _ E1) as (q' & Hq' & Hn). rewrite <- app_assoc in Hq'.
    destruct (IH s1 w1 (os ++ map (pair now) o1) (l2 ++ q') Hq') as (s2 & w2 & os2 & H2 & Hr2 & Hk & Hf).
    + intros i Hi. rewrite qids_app in Hi. apply in_app_or in Hi. destruct Hi as [Hi|Hi]; [auto|apply Hn in Hi; lia].
    + assert (X := gr_calls _ _ _ G). lia.
    + exact H1.
    + split; [exact Hx|]. intros a i u d Hi Hu. rewrite in_app_iff, in_stamp in Hi. destruct Hi as [Hi|[-> _]]; [|auto].
      destruct (gr_timers _ _ _ G u) as [Hin|Hge]; [apply in_or_app; auto| |].
      * rewrite He, app_nil_r in Hin. eauto.
      * assert (Hlt : (u < cc_next_timer s)%nat); [|lia]. apply (co_armed_ids _ _ C i u d). apply in_stamped. eauto.
    + exists s2, w2, (map (pair now) o1 ++ os2). rewrite app_assoc. split; [exact H2|]. split; [exact Hr2|]. split; [exact Hk|].
      apply Forall_app. split; [apply stamp_now|exact Hf].
Qed.

Lemma time_passes now s w os : 0 < eps -> timed now s w os ->
  exists s' w' os', timed (now + 1) s' w' (os ++ os').
Proof.
  intros Heps H. destruct (rest now s w os H) as (s1 & w1 & os1 & H1 & Hr1 & Hf1).
  destruct (run_all (cc_calls s1) now (cc_queue s1) s1 w1 (os ++ os1) []) as (s2 & w2 & os2 & H2 & (He & Hr2) & Hk & Hf2); auto.
  { rewrite app_nil_r. reflexivity. }
  { intros i []. }
  destruct (timed_inv _ _ _ _ _ _ _ _ H1) as ((es & Hh) & T).
  destruct (history_reached _ _ _ _ _ _ Hh) as (C & St & Tr).
  exists s2, w2, (os1 ++ os2). rewrite app_assoc. apply (Passes _ _ _ _ now); [exact H2|lia|]. split.
  - intros c i k Hi Hq. apply Hk in Hq. apply in_app_or in Hi. destruct Hi as [Hi|Hi].
    + exfalso. assert (Hx : In i (called_ids (map snd (os ++ os1)))) by (apply in_called; exists k; apply in_stamped; eauto).
      rewrite (co_called _ _ C) in Hx. apply in_seq in Hx. lia.
    + rewrite Forall_forall in Hf2. apply Hf2 in Hi. cbn [fst] in Hi. lia.
  - intros a i t d Hi Hx. rewrite He, app_nil_r in Hx. destruct (Hr2 _ _ _ _ Hi Hx); lia.
Qed.

(** Up to any time. *)
Lemma time_goes_on now s w os : 0 < eps -> timed now s w os -> forall n,
  exists s' w' os', timed (now + N.of_nat n) s' w' (os ++ os').
Proof.
  intros Heps H n. induction n as [|n (s1 & w1 & os1 & H1)].
  - exists s, w, []. rewrite app_nil_r. replace (now + N.of_nat 0) with now by lia. exact H.
  - destruct (time_passes _ _ _ _ Heps H1) as (s2 & w2 & os2 & H2). exists s2, w2, (os1 ++ os2).
    rewrite app_assoc. replace (now + N.of_nat (S n)) with (now + N.of_nat n + 1) by lia. exact H2.
Qed.

Lemma time_reaches now s w os later : 0 < eps -> timed now s w os -> now <= later ->
  exists s' w' os', timed later s' w' (os ++ os').
Proof.
  intros Heps H Hle. destruct (time_goes_on _ _ _ _ Heps H (N.to_nat (later - now))) as (s' & w' & os' & H').
  exists s', w', os'. replace later with (now + N.of_nat (N.to_nat (later - now))) by lia. exact H'.
Qed.
End Run.
