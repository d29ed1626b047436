(** When scheduled requests are repeated, and when users are told something. *)
From Verif Require Import Prelude Ser4 Messages Mbap SpecPdu SpecMbap Client SpecClient ClientFacts ClientLemmas ClientView SpecClientTime ClientTime
  Scheduled SpecScheduled ScheduledFacts ScheduledLemmas SessionCall Session SpecSession SessionLift SessionFacts SessionPolls SessionInv SessionStop SessionMeant SessionLemmas SpecSessionTime SessionTime.
From Coq Require Import Lia.

Lemma in_kstamped (os : list kstamped) x : In x (map snd os) <-> exists t, In (t, x) os.
Proof.
  rewrite in_map_iff. split; [intros ([t y] & E & H); cbn in E; subst y; eauto|intros (t & H); exists (t, x); auto].
Qed.
Lemma snd_kstamp (now : N) (o : list koutput) : map snd (map (pair now) o) = o.
Proof. rewrite map_map. apply map_id. Qed.
Lemma in_kstamp (now : N) (o : list koutput) t x : In (t, x) (map (pair now) o) <-> t = now /\ In x o.
Proof.
  rewrite in_map_iff. split; [intros (y & E & H); injection E as <- <-; auto|intros (-> & H); exists x; auto].
Qed.
Lemma channel_stamps_app a b : channel_stamps (a ++ b) = channel_stamps a ++ channel_stamps b.
Proof. apply flat_map_app. Qed.
Lemma channel_stamps_channel now o : channel_stamps (map (pair now) (map Channel o)) = map (pair now) o.
Proof. unfold channel_stamps. induction o as [|x o IH]; [reflexivity|]. cbn. f_equal. exact IH. Qed.
Lemma channel_stamps_inner now l : inner l = l -> channel_stamps (map (pair now) l) = [].
Proof. intros <-. unfold inner, channel_stamps. induction l as [|x l IH]; [reflexivity|]. destruct x; cbn; exact IH. Qed.
Lemma channel_stamps_snd os : map snd (channel_stamps os) = of_channel (map snd os).
Proof. unfold channel_stamps, of_channel. induction os as [|[t x] os IH]; [reflexivity|]. destruct x; cbn; rewrite IH; reflexivity. Qed.
Lemma in_channel_stamps t x os : In (t, x) (channel_stamps os) <-> In (t, Channel x) os.
Proof.
  unfold channel_stamps. rewrite in_flat_map. split.
  - intros ([u y] & H & K). cbn [fst snd] in K. destruct y; try contradiction. destruct K as [K|[]]. injection K as <- <-. exact H.
  - intros H. exists (t, Channel x). split; [exact H|left; reflexivity].
Qed.

Section Timed.
Context {W : Type}.
Context (user : users W).
Context (pol : copy_policy).
Notation timed := (timed_sessions user pol).

Lemma erased eps now k ages os : timed eps now k ages os -> exists es, stack_history user pol es k (map snd os).
Proof.
  induction 1 as [buf w Hb|now k ages os e k' o H IH Ht Hd E|now now' k ages os H IH Hle Hon]; [|destruct IH as (es & IH)|exact IH].
  - exists [], buf, w. split; [exact Hb|]. split; [constructor|reflexivity].
  - exists (es ++ [e]). rewrite map_app, snd_kstamp. destruct IH as (buf & w0 & Hb & Hty & Er).
    exists buf, w0. split; [exact Hb|]. split; [apply Forall_app; split; [exact Hty|constructor; [exact Ht|constructor]]|].
    rewrite stack_run_snoc, Er. cbn [obind]. rewrite E. reflexivity.
Qed.

(** What a step is for the channel. *)
Lemma step_channel b k e k' o : clean b (st_rest k) -> stack_step user pol k e = Ret (k', o) ->
  exists o1 l, o = map Channel o1 ++ l /\ inner l = l /\
    ((exists c, capi_calls (st_channel k) c = (st_channel k', o1)) \/
     (exists e' script, e = KChannel e' /\ forall rest, client_step scripted pol (st_channel k) (script ++ rest) e' = Ret (st_channel k', rest, o1))).
Proof.
  intros C E.
  assert (Fin : forall (z : sessions W) c, clean b z -> Session.finish (st_channel k) (z, c) = Ret (k', o) ->
    exists o1 l, o = map Channel o1 ++ l /\ inner l = l /\
    ((exists c, capi_calls (st_channel k) c = (st_channel k', o1)) \/
     (exists e' script, e = KChannel e' /\ forall rest, client_step scripted pol (st_channel k) (script ++ rest) e' = Ret (st_channel k', rest, o1)))).
  { intros z c (Cl & _) F. unfold Session.finish in F. destruct (capi_calls (st_channel k) c) as [s o1] eqn:Ec. injection F as <- <-.
    exists o1, (ks_log z). split; [reflexivity|]. split; [exact Cl|]. left. exists c. exact Ec. }
  assert (Same : k = k' -> o = [] -> exists o1 l, o = map Channel o1 ++ l /\ inner l = l /\
    ((exists c, capi_calls (st_channel k) c = (st_channel k', o1)) \/
     (exists e' script, e = KChannel e' /\ forall rest, client_step scripted pol (st_channel k) (script ++ rest) e' = Ret (st_channel k', rest, o1)))).
  { intros <- ->. exists [], []. split; [reflexivity|]. split; [reflexivity|]. left. exists []. reflexivity. }
  destruct e as [a| |i t|i t|e]; cbn [stack_step] in E.
  - destruct (kapi_call (st_rest k) a) as [z c] eqn:K. apply (Fin z c); [exact (api_clean _ _ _ _ _ C K)|exact E].
  - destruct (ks_queue (st_rest k)) as [|c q] eqn:Q; [injection E as -> <-; apply Same; reflexivity|].
    destruct (run_kclosure (with_kqueue (st_rest k) q) c) as [z cs] eqn:K. apply (Fin z cs); [|exact E]. refine (closure_clean _ _ _ _ _ _ K). exact C.
  - destruct (poll_step (st_rest k) i (SExpire t)) as [z c] eqn:K. apply (Fin z c); [exact (poll_clean _ _ _ _ _ _ C K)|exact E].
  - destruct (poll_step (st_rest k) i (SFire t)) as [z c] eqn:K. apply (Fin z c); [exact (poll_clean _ _ _ _ _ _ C K)|exact E].
  - assert (St : (forall a, e <> CApi a) -> (let! (s, z, o) := client_step (on_completion user) pol (st_channel k) (st_rest k) e in
              let z := close_sessions z o in Ret ({| st_channel := s; st_rest := with_log z [] |}, map Channel o ++ ks_log z)) = Ret (k', o) ->
        exists o1 l, o = map Channel o1 ++ l /\ inner l = l /\
    ((exists c, capi_calls (st_channel k) c = (st_channel k', o1)) \/
     (exists e' script, KChannel e = KChannel e' /\ forall rest, client_step scripted pol (st_channel k) (script ++ rest) e' = Ret (st_channel k', rest, o1)))).
    { intros Na. destruct (client_step _ _ _ _ e) as [[[s z] o1]|] eqn:Cs; cbn [obind]; [|discriminate]. cbv zeta. intros X. injection X as <- <-.
      destruct (step_seen _ _ _ _ _ _ _ _ Cs Na) as (script & Wk & _ & R). exists o1, (ks_log (close_sessions z o1)). split; [reflexivity|].
      split; [apply (close_clean b), (walk_clean _ _ _ _ _ _ C Wk)|]. right. exists e, script. split; [reflexivity|exact R]. }
    destruct e; [injection E as -> <-; apply Same; reflexivity|apply St; [discriminate|exact E]..].
Qed.

Lemma api_steps eps now c : forall s w os s' o, timed_history scripted pol false eps now s w os -> capi_calls s c = (s', o) ->
  timed_history scripted pol false eps now s' w (os ++ map (pair now) o).
Proof.
  induction c as [|a c IH]; intros s w os s' o H; cbn [capi_calls]; [intros E; injection E as <- <-; rewrite app_nil_r; exact H|].
  destruct (capi_call s a) as [s1 o1] eqn:E1. destruct (capi_calls s1 c) as [s2 o2] eqn:E2. intros E. injection E as <- <-.
  rewrite map_app, app_assoc. apply (IH s1); [|exact E2]. apply (Happens _ _ _ _ now s w os (CApi a)); [exact H|exact Logic.I|exact Logic.I|discriminate|].
  cbn [client_step]. rewrite E1. reflexivity.
Qed.

Lemma projected eps now k ages os : timed eps now k ages os ->
  forall rest, timed_history scripted pol false eps now (st_channel k) rest (channel_stamps os).
Proof.
  induction 1 as [buf w Hb|now k ages os e k' o H IH Ht Hd E|now now' k ages os H IH Hle Hon]; intros rest.
  - apply Begins. exact Hb.
  - destruct (erased _ _ _ _ _ H) as (es & Hh). destruct (step_channel _ _ _ _ _ (clean_state _ _ _ _ _ Hh) E) as (o1 & l & -> & Hl & D).
    rewrite channel_stamps_app, map_app, channel_stamps_app, channel_stamps_channel, (channel_stamps_inner _ _ Hl), app_nil_r.
    destruct D as [(c & Ec)|(e' & script & -> & R)]; [exact (api_steps _ _ _ _ _ _ _ _ (IH rest) Ec)|].
    apply (Happens _ _ _ _ now (st_channel k) (script ++ rest) (channel_stamps os) e'); [apply IH|exact Ht|exact Hd|discriminate|apply R].
  - apply (Passes _ _ _ _ now); [apply IH|exact Hle|apply Hon].
Qed.

(** ** Order *)
Lemma stamped_past eps now k ages os x : timed eps now k ages os -> In x os -> fst x <= now.
Proof.
  intros H. induction H as [buf w Hb|now k ages os e k' o H IH Ht Hd E|now now' k ages os H IH Hle Hon]; intros Hx; [destruct Hx| |].
  - apply in_app_or in Hx as [Hx|Hx]; [exact (IH Hx)|]. destruct x as [t x]. apply in_kstamp in Hx as [-> _]. apply N.le_refl.
  - apply IH in Hx. lia.
Qed.

(** The step that shows something. *)
Lemma shown_by eps now k ages os : timed eps now k ages os -> forall a t x b, os = a ++ (t, x) :: b ->
  exists k1 ages1 os1 e k2 a2 b2 b3, timed eps t k1 ages1 os1 /\ typed_kevent e /\ kdue t os1 e /\ stack_step user pol k1 e = Ret (k2, a2 ++ x :: b2) /\
    timed eps t k2 (ages_after t e k2 ages1) (os1 ++ map (pair t) (a2 ++ x :: b2)) /\
    a = os1 ++ map (pair t) a2 /\ b = map (pair t) b2 ++ b3 /\ forall y, In y b3 -> t <= fst y.
Proof.
  induction 1 as [buf w Hb|now k ages os e k' o H IH Ht Hd E|now now' k ages os H IH Hle Hon]; intros a t x b Eq; [destruct a; discriminate Eq| |eauto].
  symmetry in Eq. apply split_two in Eq as [(b1 & Eq & ->)|(a2 & -> & Eq)].
  - destruct (IH _ _ _ _ Eq) as (k1 & ages1 & os1 & e1 & k2 & a2 & b2 & b3 & X1 & X2 & X3 & X4 & X5 & X6 & X7 & X8).
    exists k1, ages1, os1, e1, k2, a2, b2, (b3 ++ map (pair now) o). repeat (split; [assumption|]). split; [rewrite X7, app_assoc; reflexivity|].
    intros y Hy. apply in_app_or in Hy as [Hy|Hy]; [exact (X8 _ Hy)|]. destruct y as [u y]. apply in_kstamp in Hy as [-> _]. cbn [fst].
    apply (stamped_past _ _ _ _ _ (t, x) H). rewrite Eq. apply in_or_app. right. left. reflexivity.
  - apply map_eq_app in Eq as (l1 & l2 & -> & <- & Eq). destruct l2 as [|y l2]; [discriminate Eq|]. cbn [map] in Eq. injection Eq as -> -> <-.
    exists k, ages, os, e, k', l1, l2, []. repeat (split; [assumption|]). split; [exact (SHappens _ _ _ _ _ _ _ _ _ _ H Ht Hd E)|].
    split; [reflexivity|]. split; [symmetry; apply app_nil_r|]. intros y [].
Qed.

Lemma in_order eps now k ages os a t x b : timed eps now k ages os -> os = a ++ (t, x) :: b ->
  (forall y, In y a -> fst y <= t) /\ (forall y, In y b -> t <= fst y <= now).
Proof.
  intros H E. destruct (shown_by _ _ _ _ _ H _ _ _ _ E) as (k1 & ages1 & os1 & e1 & k2 & a2 & b2 & b3 & X1 & X2 & X3 & X4 & X5 & X6 & X7 & X8). split.
  - intros [u y] Hy. rewrite X6 in Hy. apply in_app_or in Hy as [Hy|Hy]; [apply (stamped_past _ _ _ _ _ _ X1 Hy)|]. apply in_kstamp in Hy as [-> _]. apply N.le_refl.
  - intros [u y] Hy. split; [|apply (stamped_past _ _ _ _ _ (u, y) H); rewrite E; apply in_or_app; right; right; exact Hy].
    rewrite X7 in Hy. apply in_app_or in Hy as [Hy|Hy]; [|exact (X8 _ Hy)]. apply in_kstamp in Hy as [-> _]. apply N.le_refl.
Qed.

(** ** Users are told at once *)
Lemma completed_origin es k os i y : stack_history user pol es k os -> In (Channel (Completed i y)) os ->
  exists o, In o os /\ call_ids [o] = [i] /\ ((exists x r t, o = Issued i x r t) \/ exists j n, o = Repeated i j n).
Proof.
  intros H Hc. destruct (channel_history _ _ _ _ _ H) as (ces & script & Hh & _). destruct (history_reached _ _ _ _ _ _ Hh) as (C & _).
  apply in_channel in Hc. assert (Hi : In i (completed_ids (of_channel os))) by (apply in_completed; eauto).
  assert (Hl : (i < cc_calls (st_channel k))%nat) by (apply (co_below _ _ C); apply in_or_app; auto).
  assert (Hd : In i (called_ids (of_channel os))) by (rewrite (co_called _ _ C); apply in_seq; lia).
  apply in_called in Hd as (c & Hd). apply in_channel in Hd. destruct (call_origin _ _ _ _ _ _ _ H Hd) as (x & u & d & r & t & _ & _ & [K|(j & n & f & K & _)]);
    eexists; (split; [exact K|]); split; [reflexivity|left; eauto|reflexivity|right; eauto].
Qed.

Lemma origin_unique es k os i a b : stack_history user pol es k os -> In a os -> In b os -> call_ids [a] = [i] -> call_ids [b] = [i] -> a = b.
Proof.
  intros H Ha Hb Ia Ib. destruct (sessions_inv _ _ _ _ _ H) as [[R _ _] _ _].
  assert (Nc : forall o, call_ids [o] = [i] -> forall c, o <> Channel c) by (intros o Ho c ->; discriminate Ho).
  apply (call_unique _ _ _ i _ _ R); auto; apply in_inner; split; auto.
Qed.

Lemma told_at_once eps now k ages os t i v : timed eps now k ages os -> In (t, Answered i v) os -> exists y, In (t, Channel (Completed i y)) os.
Proof.
  intros H. induction H as [buf w Hb|now k ages os e k' o H IH Ht Hd E|now now' k ages os H IH Hle Hon]; intros Hin; [destruct Hin| |exact (IH Hin)].
  apply in_app_or in Hin as [Hin|Hin]; [destruct (IH Hin) as (y & Hy); exists y; apply in_or_app; auto|]. apply in_kstamp in Hin as [-> Hin].
  destruct (erased _ _ _ _ _ H) as (es & Hh). destruct (erased _ _ _ _ _ (SHappens user pol eps now k ages os e k' o H Ht Hd E)) as (es' & Hh'). rewrite map_app, snd_kstamp in Hh'.
  destruct (answer_source _ _ _ _ _ _ _ Hh' (in_or_app _ _ _ (or_intror Hin))) as (x & r & tt & y & Hi & Hy & _).
  apply in_app_or in Hy as [Hy|Hy]; [|exists y; apply in_or_app; right; apply in_kstamp; auto]. exfalso.
  destruct (completed_origin _ _ _ _ _ Hh Hy) as (o0 & Ho & Io & D).
  assert (K := origin_unique _ _ _ i _ _ Hh' (in_or_app _ _ _ (or_introl Ho)) Hi Io eq_refl). subst o0.
  destruct (answered_when_completed _ _ _ _ _ _ _ _ _ _ Hh Ho Hy) as (v' & Hv & _).
  destruct (answered_once _ _ _ _ _ Hh') as [Hn _]. assert (Sp : answered_ids (map snd os ++ o) = answered_ids (map snd os) ++ answered_ids o) by apply flat_map_app. unfold kstamped in *. rewrite Sp in Hn. clear Sp.
  assert (K1 : In i (answered_ids (map snd os))) by (apply in_answered; eauto). assert (K2 : In i (answered_ids o)) by (apply in_answered; eauto).
  revert Hn K1 K2. generalize (answered_ids (map snd os)) (answered_ids o). clear. intros l1 l2 Hn K1 K2. apply in_split in K2 as (b1 & b2 & ->).
  rewrite app_assoc in Hn. apply NoDup_remove_2 in Hn. apply Hn. rewrite !in_app_iff. auto.
Qed.

Lemma poll_scheduled es k os j y : stack_history user pol es k os -> In (Polled j y) os -> exists x r t f, In (Scheduled j x r t f) os.
Proof.
  intros H Hin. destruct (sessions_inv _ _ _ _ _ H) as [[R Y A] _ _]. assert (Hin' : In (Polled j y) (inner os)) by (apply in_inner; split; [exact Hin|discriminate]).
  assert (Hj := dy_fresh _ _ _ Y _ _ Hin'). destruct (nth_error (ks_polls (st_rest k)) j) as [p|] eqn:Ep; [|apply nth_error_None in Ep; lia].
  destruct (rg_sched _ _ _ R _ _ Ep) as (t & f & s & Hs & _). apply in_inner in Hs as [Hs _]. eauto 6.
Qed.

Lemma poll_state es k os j x r t f : stack_history user pol es k os -> In (Scheduled j x r t f) os ->
  exists ses, schedule no_calls f ses (at_poll k j) tt (of_poll j os).
Proof.
  intros H Hj. destruct (sessions_inv _ _ _ _ _ H) as [[R Y A] _ _].
  assert (Hj' : In (Scheduled j x r t f) (inner os)) by (apply in_inner; split; [exact Hj|discriminate]). destruct (scheduled_poll _ _ _ _ _ _ _ _ R Hj') as (p & s & Ep & _).
  destruct (dy_sched _ _ _ Y _ _ _ _ _ _ Ep Hj') as (ses & Hs). rewrite of_poll_inner in Hs. exists ses. unfold at_poll, sched_at. rewrite Ep. exact Hs.
Qed.

(** The state of a scheduled request that does not exist. *)
Lemma poll_nothing es k os j : stack_history user pol es k os -> (forall x r t f, ~ In (Scheduled j x r t f) os) ->
  at_poll k j = sched_init 0 /\ forall y, ~ In (Polled j y) os.
Proof.
  intros H N. split; [|intros y Hy; destruct (poll_scheduled _ _ _ _ _ H Hy) as (x & r & t & f & K); exact (N _ _ _ _ K)].
  destruct (sessions_inv _ _ _ _ _ H) as [[R Y A] _ _]. unfold at_poll, sched_at. destruct (nth_error (ks_polls (st_rest k)) j) as [p|] eqn:Ep; [|reflexivity].
  destruct (rg_sched _ _ _ R _ _ Ep) as (t & f & s & Hs & _). apply in_inner in Hs as [Hs _]. destruct (N _ _ _ _ Hs).
Qed.

(** The timers of a scheduled request are numbered. *)
Lemma waits_below (R : Type) (handler : nat -> unit -> R -> unit * list sapi) f ses : forall s w os, schedule handler f ses s w os ->
  forall t g, In (Wait t g) os -> (t < sr_next_timer s)%nat.
Proof.
  induction ses as [|e ses IH] using rev_ind; intros s w os (w0 & E).
  - injection E as <- _ <-. intros t g [].
  - apply ScheduledFacts.run_snoc in E as (s1 & w1 & o1 & o2 & E1 & E2 & ->). intros t g Hin.
    assert (IH1 := fun K => IH s1 w1 o1 (ex_intro _ w0 E1) t g K). apply step_trans in E2. apply in_app_or in Hin as [Hin|Hin].
    + specialize (IH1 Hin). destruct E2; cbn in *; lia.
    + destruct E2; cbn in *; repeat destruct Hin as [Hin|Hin]; try discriminate Hin; try contradiction. injection Hin as <- <-. lia.
Qed.
Lemma waits_new (R : Type) (handler : nat -> unit -> R -> unit * list sapi) f ses : forall s w os, schedule handler f ses s w os ->
  forall a t g b t' g', os = a ++ Wait t g :: b -> In (Wait t' g') a -> (t' < t)%nat.
Proof.
  induction ses as [|e ses IH] using rev_ind; intros s w os (w0 & E).
  - injection E as <- _ <-. intros a t g b t' g' Eq. destruct a; discriminate Eq.
  - apply ScheduledFacts.run_snoc in E as (s1 & w1 & o1 & o2 & E1 & E2 & ->). intros a t g b t' g' Eq Hin. symmetry in Eq.
    assert (Hs : schedule handler f ses s1 w1 o1) by (exists w0; exact E1).
    apply split_two in Eq as [(b1 & Eq & ->)|(a2 & -> & Eq)]; [exact (IH _ _ _ Hs _ _ _ _ _ _ Eq Hin)|].
    assert (B := fun K => waits_below _ _ _ _ _ _ _ Hs t' g' K). apply step_trans in E2.
    assert (K : t = sr_next_timer s1 /\ forall u h, ~ In (Wait u h) a2).
    { clear -E2 Eq. destruct E2; cbn in *; repeat (destruct a2 as [|y a2]; [try discriminate Eq|cbn [app] in Eq; try discriminate Eq; injection Eq as <- Eq]); try discriminate Eq.
      injection Eq as <- <- <-. split; [reflexivity|]. intros u h [K|[]]. discriminate K. }
    destruct K as [-> K]. apply in_app_or in Hin as [Hin|Hin]; [exact (B Hin)|destruct (K _ _ Hin)].
Qed.

Lemma of_poll_app j a b : of_poll j (a ++ b) = of_poll j a ++ of_poll j b.
Proof. apply flat_map_app. Qed.
Lemma of_poll_this j y b : of_poll j (Polled j y :: b) = y :: of_poll j b.
Proof. unfold of_poll. cbn [flat_map]. rewrite Nat.eqb_refl. reflexivity. Qed.

Lemma wait_once es k os o j t f g : stack_history user pol es k (os ++ o) -> In (Polled j (Wait t f)) os -> In (Polled j (Wait t g)) o -> False.
Proof.
  intros H H1 H2. destruct (poll_scheduled _ _ _ _ _ H (in_or_app _ _ _ (or_introl H1))) as (x & r & tt & fr & Hs).
  destruct (poll_state _ _ _ _ _ _ _ _ H Hs) as (ses & S). rewrite of_poll_app in S. apply in_poll in H1, H2. apply in_split in H2 as (a & b & E). rewrite E, app_assoc in S.
  assert (K := waits_new _ _ _ _ _ _ _ S _ _ _ _ t f eq_refl (in_or_app _ _ _ (or_introl H1))). lia.
Qed.

Lemma live_timer es k os j t : stack_history user pol es k os -> In t (timers (at_poll k j)) -> exists g, In (Polled j (Wait t g)) os.
Proof.
  intros H Hin. destruct (in_dec Nat.eq_dec j (scheduled_ids os)) as [D|D].
  - unfold scheduled_ids in D. apply in_flat_map in D as (o & Ho & D). destruct o; try contradiction. destruct D as [-> |[]].
    destruct (poll_state _ _ _ _ _ _ _ _ H Ho) as (ses & S). apply schedule_inv in S. destruct (v_timers _ _ _ _ S t Hin) as (_ & g & G). exists g. apply in_poll. exact G.
  - destruct (poll_nothing _ _ _ j H) as [K _].
    { intros x r tt f K. apply D. unfold scheduled_ids. apply in_flat_map. eexists. split; [exact K|left; reflexivity]. }
    rewrite K in Hin. destruct Hin.
Qed.

Lemma outstanding_open es k os j n : stack_history user pol es k os -> In n (sr_outstanding (at_poll k j)) -> forall v, ~ In (Polled j (Response n v)) os.
Proof.
  intros H Hin v Hv. destruct (poll_scheduled _ _ _ _ _ H Hv) as (x & r & tt & f & Hs).
  destruct (poll_state _ _ _ _ _ _ _ _ H Hs) as (ses & S). apply schedule_inv in S. rewrite <- (v_open _ _ _ _ S) in Hin.
  unfold SpecScheduled.unanswered in Hin. apply filter_In in Hin as [_ Hin]. apply in_poll in Hv.
  assert (K : answered n (of_poll j os) = true) by (apply answered_in; eauto). rewrite K in Hin. discriminate Hin.
Qed.

Lemma log_empty es k os : stack_history user pol es k os -> ks_log (st_rest k) = [].
Proof. intros H. destruct (sessions_history _ _ _ _ _ H) as (buf & Hb & V). exact (vw_log _ _ _ _ _ _ V). Qed.

Lemma response_at_once eps now k ages os t j n v : timed eps now k ages os -> In (t, Polled j (Response n v)) os ->
  exists i y, In (Repeated i j n) (map snd os) /\ In (t, Channel (Completed i y)) os.
Proof.
  intros H. induction H as [buf w Hb|now k ages os e k' o H IH Ht Hd E|now now' k ages os H IH Hle Hon]; intros Hin; [destruct Hin| |exact (IH Hin)].
  rewrite map_app, snd_kstamp.
  apply in_app_or in Hin as [Hin|Hin]; [destruct (IH Hin) as (i & y & Hr & Hy); exists i, y; split; apply in_or_app; auto|]. apply in_kstamp in Hin as [-> Hin].
  destruct (erased _ _ _ _ _ H) as (es & Hh). destruct (erased _ _ _ _ _ (SHappens user pol eps now k ages os e k' o H Ht Hd E)) as (es' & Hh'). rewrite map_app, snd_kstamp in Hh'.
  assert (Hin' := in_or_app (map snd os) o _ (or_intror Hin)). destruct (poll_scheduled _ _ _ _ _ Hh' Hin') as (x & r & tt & f & Hs).
  destruct (poll_answer _ _ _ _ _ _ _ _ _ _ _ _ Hh' Hs Hin') as (i & y & Hr & Hy & _). exists i, y. split; [exact Hr|].
  apply in_app_or in Hy as [Hy|Hy]; [|apply in_or_app; right; apply in_kstamp; auto]. exfalso.
  destruct (completed_origin _ _ _ _ _ Hh Hy) as (o0 & Ho & Io & D).
  assert (K := origin_unique _ _ _ i _ _ Hh' (in_or_app _ _ _ (or_introl Ho)) Hr Io eq_refl). subst o0.
  destruct (poll_answered _ _ _ _ _ _ _ _ _ Hh Ho Hy) as (v' & Hv).
  exact (outstanding_open _ _ _ _ _ Hh (sp_response _ _ _ _ _ (step_stepped _ _ j _ _ _ _ (log_empty _ _ _ Hh) E) _ _ Hin) _ Hv).
Qed.

(** ** Timers of scheduled requests *)
Lemma waiting eps now k ages os j : timed eps now k ages os ->
  forall a t f, In (a, Polled j (Wait t f)) os -> In t (timers (at_poll k j)) -> now <= a + f + eps.
Proof.
  induction 1 as [buf w Hb|now k ages os e k' o H IH Ht Hd E|now now' k ages os H IH Hle Hon]; intros a t f Hin Hl; [destruct Hin| |].
  - destruct (erased _ _ _ _ _ H) as (es & Hh). destruct (erased _ _ _ _ _ (SHappens user pol eps now k ages os e k' o H Ht Hd E)) as (es' & Hh'). rewrite map_app, snd_kstamp in Hh'.
    assert (Sp := step_stepped _ _ j _ _ _ _ (log_empty _ _ _ Hh) E). apply in_app_or in Hin as [Hin|Hin]; [|apply in_kstamp in Hin as [-> _]; lia].
    destruct (sp_new _ _ _ _ _ Sp _ Hl) as [Hl'|(g & Hg)]; [exact (IH _ _ _ Hin Hl')|]. exfalso.
    refine (wait_once _ _ _ _ _ _ _ _ Hh' _ Hg). apply in_kstamped. eauto.
  - destruct Hon as (_ & _ & Hon). unfold at_poll, sched_at in Hl. destruct (nth_error (ks_polls (st_rest k)) j) as [p|] eqn:Ep; [|destruct Hl].
    exact (Hon _ _ _ _ _ Hin Ep Hl).
Qed.

Lemma expired_due eps now k ages os j : timed eps now k ages os ->
  forall a t f, In (a, Polled j (Wait t f)) os -> In t (sr_expired (at_poll k j)) -> a + f <= now.
Proof.
  induction 1 as [buf w Hb|now k ages os e k' o H IH Ht Hd E|now now' k ages os H IH Hle Hon]; intros a t f Hin Hl; [destruct Hin| |].
  - destruct (erased _ _ _ _ _ H) as (es & Hh). destruct (erased _ _ _ _ _ (SHappens user pol eps now k ages os e k' o H Ht Hd E)) as (es' & Hh'). rewrite map_app, snd_kstamp in Hh'.
    assert (Sp := step_stepped _ _ j _ _ _ _ (log_empty _ _ _ Hh) E). assert (Hl' := sp_expired _ _ _ _ _ Sp _ Hl).
    assert (K : In t (timers (at_poll k j))) by (destruct Hl' as [K|[_ K]]; apply in_or_app; auto).
    destruct (live_timer _ _ _ _ _ Hh K) as (g & Hg). apply in_app_or in Hin as [Hin|Hin].
    + destruct Hl' as [Hl'|[-> _]]; [exact (IH _ _ _ Hin Hl')|exact (Hd _ _ Hin)].
    + exfalso. apply in_kstamp in Hin as [_ Hin]. exact (wait_once _ _ _ _ _ _ _ _ Hh' Hg Hin).
  - assert (K := IH _ _ _ Hin Hl). lia.
Qed.

(** A timer that was started leads to a request, unless the polling is stopped. *)
Lemma timer_leads eps now k ages os j : timed eps now k ages os ->
  forall a c t f b, os = a ++ (c, Polled j (Wait t f)) :: b ->
  In t (timers (at_poll k j)) \/ (exists x n, In (x, Polled j (Request n)) b /\ c + f <= x <= c + f + eps) \/ exists x, In (x, Polled j Stopped) b.
Proof.
  induction 1 as [buf w Hb|now k ages os e k' o H IH Ht Hd E|now now' k ages os H IH Hle Hon]; intros a c t f b Eq; [destruct a; discriminate Eq| |eauto].
  destruct (erased _ _ _ _ _ H) as (es & Hh). assert (Sp := step_stepped _ _ j _ _ _ _ (log_empty _ _ _ Hh) E).
  symmetry in Eq. apply split_two in Eq as [(b1 & Eq & ->)|(a2 & -> & Eq)].
  - assert (Hw : In (c, Polled j (Wait t f)) os) by (rewrite Eq; apply in_or_app; right; left; reflexivity).
    destruct (IH _ _ _ _ _ Eq) as [Hl|[(x & n & Hr & Hx)|(x & Hs)]].
    + destruct (sp_old _ _ _ _ _ Sp _ Hl) as [K|[(-> & Hex & n & Hn)|K]]; [auto| |].
      * right. left. exists now, n. split; [apply in_or_app; right; apply in_kstamp; auto|]. split; [exact (expired_due _ _ _ _ _ _ H _ _ _ Hw Hex)|].
        exact (waiting _ _ _ _ _ _ H _ _ _ Hw Hl).
      * right. right. exists now. apply in_or_app. right. apply in_kstamp. auto.
    + right. left. exists x, n. split; [apply in_or_app; auto|exact Hx].
    + right. right. exists x. apply in_or_app. auto.
  - left. apply (sp_waits _ _ _ _ _ Sp t f). assert (K : In (c, Polled j (Wait t f)) (map (pair now) o)) by (rewrite Eq; apply in_or_app; right; left; reflexivity).
    apply in_kstamp in K. apply K.
Qed.

Theorem next_request eps now k ages os j a c t f b : timed eps now k ages os -> os = a ++ (c, Polled j (Wait t f)) :: b ->
  (exists x n, In (x, Polled j (Request n)) b /\ c + f <= x <= c + f + eps) \/ (exists x, In (x, Polled j Stopped) b) \/ now <= c + f + eps.
Proof.
  intros H E. destruct (timer_leads _ _ _ _ _ j H _ _ _ _ _ E) as [Hl|[K|K]]; [|auto..]. right. right.
  apply (waiting _ _ _ _ _ j H c t f); [rewrite E; apply in_or_app; right; left; reflexivity|exact Hl].
Qed.

(** Every request is the first after a start, or follows a timer. *)
Theorem request_not_early eps now k ages os j a x n b : timed eps now k ages os -> os = a ++ (x, Polled j (Request n)) :: b ->
  (exists a', a = a' ++ [(x, Polled j Started)]) \/ exists c t f, In (c, Polled j (Wait t f)) a /\ c + f <= x.
Proof.
  intros H E. destruct (shown_by _ _ _ _ _ H _ _ _ _ E) as (k1 & ages1 & os1 & e1 & k2 & a2 & b2 & b3 & X1 & X2 & X3 & X4 & X5 & X6 & X7 & X8).
  destruct (erased _ _ _ _ _ X1) as (es & Hh). assert (Sp := step_stepped _ _ j _ _ _ _ (log_empty _ _ _ Hh) X4).
  destruct (sp_request _ _ _ _ _ Sp _ _ _ eq_refl) as [(a' & ->)|(t & -> & Ht)].
  - left. exists (os1 ++ map (pair x) a'). rewrite X6, map_app, app_assoc. reflexivity.
  - right. destruct (live_timer _ _ _ j t Hh) as (f & Hf); [apply in_or_app; auto|]. apply in_kstamped in Hf as (c & Hf).
    exists c, t, f. split; [rewrite X6; apply in_or_app; auto|]. exact (expired_due _ _ _ _ _ _ X1 _ _ _ Hf Ht).
Qed.

(** ** When users are told *)
Lemma channel_split os a c i q b : os = a ++ (c, Channel (Called i q)) :: b -> channel_stamps os = channel_stamps a ++ (c, Called i q) :: channel_stamps b.
Proof. intros ->. rewrite channel_stamps_app. reflexivity. Qed.

Lemma limit_channel eps a c q : call_limit eps a c q = if im_valid (k_msg q) then time_limit eps (channel_stamps a) c (k_timeout q) else c + eps.
Proof. reflexivity. Qed.

Theorem told_in_time eps now k ages os a c i q b x r t : timed eps now k ages os -> os = a ++ (c, Channel (Called i q)) :: b ->
  In (Issued i x r t) (map snd os) ->
  (forall u v, In (u, Answered i v) os -> c <= u <= call_limit eps a c q) /\
  (~ In (Channel TcpShutdown) (map snd os) -> ~ In i (answered_ids (map snd os)) -> now <= call_limit eps a c q).
Proof.
  intros H E Hi. assert (P := projected _ _ _ _ _ H []). destruct (completed_in_time _ _ _ _ _ _ _ _ _ _ _ _ _ P (channel_split _ _ _ _ _ _ E)) as [C1 C2].
  destruct (erased _ _ _ _ _ H) as (es & Hh). rewrite channel_stamps_snd in C2. split.
  - intros u v Hv. destruct (told_at_once _ _ _ _ _ _ _ _ H Hv) as (y & Hy). apply in_channel_stamps in Hy. exact (C1 _ _ Hy).
  - intros Hs Ha. apply C2; [intros K; apply Hs, in_channel, K|]. intros K. apply Ha. apply in_completed in K as (y & K). apply in_channel in K.
    destruct (answered_when_completed _ _ _ _ _ _ _ _ _ _ Hh Hi K) as (v & Hv & _). apply in_answered. eauto.
Qed.

Theorem polled_in_time eps now k ages os a c i q b j n : timed eps now k ages os -> os = a ++ (c, Channel (Called i q)) :: b ->
  In (Repeated i j n) (map snd os) ->
  (forall u v, In (u, Polled j (Response n v)) os -> c <= u <= call_limit eps a c q) /\
  (~ In (Channel TcpShutdown) (map snd os) -> (forall v, ~ In (Polled j (Response n v)) (map snd os)) -> now <= call_limit eps a c q).
Proof.
  intros H E Hi. assert (P := projected _ _ _ _ _ H []). destruct (completed_in_time _ _ _ _ _ _ _ _ _ _ _ _ _ P (channel_split _ _ _ _ _ _ E)) as [C1 C2].
  destruct (erased _ _ _ _ _ H) as (es & Hh). rewrite channel_stamps_snd in C2. split.
  - intros u v Hv. destruct (response_at_once _ _ _ _ _ _ _ _ _ H Hv) as (i' & y & Hi' & Hy). assert (K := repeated_once _ _ _ _ _ _ _ _ _ Hh Hi Hi'). subst i'.
    apply in_channel_stamps in Hy. exact (C1 _ _ Hy).
  - intros Hs Ha. apply C2; [intros K; apply Hs, in_channel, K|]. intros K. apply in_completed in K as (y & K). apply in_channel in K.
    destruct (poll_answered _ _ _ _ _ _ _ _ _ Hh Hi K) as (v & Hv). exact (Ha _ Hv).
Qed.

(** ** The period of polling *)

(** A request and the call of the channel that it makes happen together. *)
Lemma called_with eps now k ages os i j n : timed eps now k ages os -> In (Repeated i j n) (map snd os) ->
  exists c q, In (c, Repeated i j n) os /\ In (c, Polled j (Request n)) os /\ In (c, Channel (Called i q)) os.
Proof.
  intros H. induction H as [buf w Hb|now k ages os e k' o H IH Ht Hd E|now now' k ages os H IH Hle Hon]; intros Hin; [destruct Hin| |exact (IH Hin)].
  rewrite map_app, snd_kstamp in Hin. destruct (in_dec Nat.eq_dec i (call_ids (map snd os))) as [D|D].
  - assert (Old : In (Repeated i j n) (map snd os)).
    { destruct (erased _ _ _ _ _ (SHappens user pol eps now k ages os e k' o H Ht Hd E)) as (es' & Hh'). rewrite map_app, snd_kstamp in Hh'.
      unfold call_ids in D. apply in_flat_map in D as (o0 & Ho & D). assert (Io : call_ids [o0] = [i]) by (destruct o0; cbn in *; try contradiction; destruct D as [-> |[]]; reflexivity).
      rewrite <- (origin_unique _ _ _ i _ _ Hh' (in_or_app _ _ _ (or_introl Ho)) Hin Io eq_refl). exact Ho. }
    destruct (IH Old) as (c & q & A & B & C). exists c, q. repeat split; apply in_or_app; auto.
  - destruct (erased _ _ _ _ _ H) as (es & Hh). destruct (erased _ _ _ _ _ (SHappens user pol eps now k ages os e k' o H Ht Hd E)) as (es' & Hh'). rewrite map_app, snd_kstamp in Hh'.
    apply in_app_or in Hin as [Hin|Hin]; [destruct (IH Hin) as (c & q & A & B & C); exists c, q; repeat split; apply in_or_app; auto|].
    assert (Hc : In i (called_ids (of_channel (map snd os ++ o)))) by (apply (called_issued _ _ _ _ _ _ Hh'); unfold call_ids; apply in_flat_map; exists (Repeated i j n); split; [apply in_or_app; auto|left; reflexivity]).
    apply in_called in Hc as (q & Hc). apply in_channel in Hc. apply in_app_or in Hc as [Hc|Hc].
    { exfalso. apply D. destruct (call_origin _ _ _ _ _ _ _ Hh Hc) as (x & u & d & r & t & _ & _ & [K|(j' & n' & f & K & _)]);
        unfold call_ids; apply in_flat_map; eexists; (split; [exact K|left; reflexivity]). }
    assert (Hr : In (Polled j (Request n)) (map snd os ++ o)) by (apply (repeated_requests _ _ _ _ _ _ _ Hh'); exists i; apply in_or_app; auto).
    apply in_app_or in Hr as [Hr|Hr].
    { exfalso. apply D. apply (repeated_requests _ _ _ _ _ _ _ Hh) in Hr as (i' & Hi').
      rewrite (repeated_once _ _ _ _ _ i i' j n Hh') in D; [|apply in_or_app; auto..]. exfalso. apply D.
      unfold call_ids. apply in_flat_map. eexists. split; [exact Hi'|left; reflexivity]. }
    exists now, q. repeat split; apply in_or_app; right; apply in_kstamp; auto.
Qed.

Lemma of_poll_cons j l y r : of_poll j l = y :: r -> exists l1 l2, l = l1 ++ Polled j y :: l2.
Proof.
  intros E. assert (K : In y (of_poll j l)) by (rewrite E; left; reflexivity). apply in_poll in K. apply in_split in K. exact K.
Qed.

Lemma response_waits eps now k ages os j x r tt f a t n v b : timed eps now k ages os -> os = a ++ (t, Polled j (Response n v)) :: b ->
  In (Scheduled j x r tt f) (map snd os) -> polling (of_poll j (map snd a)) = true ->
  exists b1 u b2, b = b1 ++ (t, Polled j (Wait u (frequency_of f (of_poll j (map snd a))))) :: b2.
Proof.
  intros H E Hs Hp. destruct (shown_by _ _ _ _ _ H _ _ _ _ E) as (k1 & ages1 & os1 & e1 & k2 & a2 & b2 & b3 & X1 & X2 & X3 & X4 & X5 & X6 & X7 & X8).
  destruct (erased _ _ _ _ _ X5) as (es & Hh). rewrite map_app, snd_kstamp in Hh.
  assert (Ea : map snd a = map snd os1 ++ a2) by (rewrite X6, map_app, snd_kstamp; reflexivity).
  assert (Hin : In (Polled j (Response n v)) (map snd os1 ++ a2 ++ Polled j (Response n v) :: b2)) by (rewrite !in_app_iff; cbn; auto).
  destruct (poll_scheduled _ _ _ _ _ Hh Hin) as (x' & r' & t' & f' & Hs').
  assert (Ef : f' = f).
  { destruct (erased _ _ _ _ _ H) as (es2 & Hh2). destruct (sessions_inv _ _ _ _ _ Hh2) as [[R _ _] _ _].
    assert (K1 : In (Scheduled j x r tt f) (inner (map snd os))) by (apply in_inner; split; [exact Hs|discriminate]).
    assert (K2 : In (Scheduled j x' r' t' f') (inner (map snd os))).
    { apply in_inner; split; [|discriminate]. rewrite E, X7, map_app. cbn [map snd]. rewrite map_app, snd_kstamp, Ea.
      rewrite !in_app_iff in Hs'. rewrite !in_app_iff. cbn [In] in *. rewrite in_app_iff. tauto. }
    destruct (scheduled_unique _ _ _ _ _ _ _ _ _ _ _ _ R K1 K2) as (_ & _ & _ & K). congruence. }
  subst f'. destruct (poll_state _ _ _ _ _ _ _ _ Hh Hs') as (ses & S). unfold kstamped in *. rewrite app_assoc, <- Ea, of_poll_app, of_poll_this in S.
  destruct (response_cut _ _ _ _ _ _ _ _ _ S Hp) as (u & b' & Eb). apply of_poll_cons in Eb as (l1 & l2 & ->).
  exists (map (pair t) l1), u, (map (pair t) l2 ++ b3). rewrite X7, map_app. cbn [map]. rewrite <- app_assoc. reflexivity.
Qed.

Lemma polling_goes_on (R : Type) (a b : list (soutput R)) : polling a = true -> ~ In Stopped b -> polling (a ++ b) = true.
Proof.
  unfold polling. rewrite fold_left_app. intros -> N. induction b as [|y b IH]; [reflexivity|]. cbn [fold_left].
  assert (K : (match y with Started => true | Stopped => false | _ => true end) = true) by (destruct y; try reflexivity; destruct N; left; reflexivity).
  rewrite K. apply IH. intros I. apply N. right. exact I.
Qed.

Lemma frequency_stays (R : Type) f (a : list (soutput R)) : (forall g, ~ In (Frequency g) a) -> frequency_of f a = f.
Proof.
  unfold frequency_of. intros N. induction a as [|y a IH]; [reflexivity|]. cbn [fold_left].
  assert (K : (match y with Frequency f' => f' | _ => f end) = f) by (destruct y as [| | | | |g]; try reflexivity; destruct (N g); left; reflexivity).
  rewrite K. apply IH. intros g I. apply (N g). right. exact I.
Qed.

Lemma request_order es k os j a n b m b1 b2 : stack_history user pol es k os -> os = a ++ Polled j (Request n) :: b -> b = b1 ++ Polled j (Request m) :: b2 -> (n < m)%nat.
Proof.
  intros H -> ->. destruct (poll_scheduled _ _ _ j (Request n) H) as (x & r & tt & f & Hs); [apply in_or_app; right; left; reflexivity|].
  destruct (poll_state _ _ _ _ _ _ _ _ H Hs) as (ses & S). apply schedule_inv in S. assert (K := v_requested _ _ _ _ S).
  rewrite of_poll_app, of_poll_this, of_poll_app, of_poll_this, requested_app in K. cbn [requested flat_map] in K.
  change (flat_map _ (of_poll j b1 ++ Request m :: of_poll j b2)) with (requested (of_poll j b1 ++ Request m :: of_poll j b2)) in K.
  rewrite requested_app in K. cbn [requested flat_map app] in K.
  revert K. generalize (requested (of_poll j a)) (requested (of_poll j b1)). intros l1 l2 K.
  assert (G : forall l i N0 p q, l ++ p :: q = seq i N0 -> (forall y, In y q -> (p < y)%nat)).
  { clear. induction l as [|z l IH]; intros i [|N0] p q E; try discriminate E; cbn in E; injection E as -> E; [|exact (IH _ _ _ _ E)].
    subst q. intros y Hy. apply in_seq in Hy. lia. }
  refine (G _ _ _ _ _ K m _). apply in_or_app. right. left. reflexivity.
Qed.

Theorem polling_period eps now k ages os j x r tt f a c n b i a' c' q b' : timed eps now k ages os ->
  os = a ++ (c, Polled j (Request n)) :: b -> In (Scheduled j x r tt f) (map snd os) ->
  polling (of_poll j (map snd a)) = true -> ~ In (Polled j Stopped) (map snd b) -> (forall g, ~ In (Polled j (Frequency g)) (map snd os)) ->
  ~ In (Channel TcpShutdown) (map snd os) ->
  In (Repeated i j n) (map snd os) -> os = a' ++ (c', Channel (Called i q)) :: b' ->
  now <= call_limit eps a' c' q + f + eps \/
  exists u v y m, In (u, Polled j (Response n v)) b /\ c <= u <= call_limit eps a' c' q /\
    In (y, Polled j (Request m)) b /\ (n < m)%nat /\ u + f <= y <= u + f + eps.
Proof.
  intros H E Hs Hp Nst Nf Nd Hr Ec. destruct (polled_in_time _ _ _ _ _ _ _ _ _ _ _ _ H Ec Hr) as [T1 T2].
  destruct (erased _ _ _ _ _ H) as (es & Hh). destruct (poll_state _ _ _ _ _ _ _ _ Hh Hs) as (ses & S).
  assert (Em : map snd os = map snd a ++ Polled j (Request n) :: map snd b) by (rewrite E, map_app; reflexivity).
  destruct (answered n (of_poll j (map snd os))) eqn:An.
  2: { left. assert (K : now <= call_limit eps a' c' q); [|lia]. apply T2; [exact Nd|]. intros v K. apply in_poll in K.
       assert (K' : answered n (of_poll j (map snd os)) = true) by (apply answered_in; eauto). congruence. }
  apply answered_in in An as (v & An). apply in_poll in An. rewrite Em in S. rewrite of_poll_app, of_poll_this in S. assert (Nb := not_answered_before _ _ _ _ _ _ _ _ S).
  rewrite Em in An. apply in_app_or in An as [An|[An|An]]; [|discriminate An|].
  { apply in_poll in An. assert (K' : answered n (of_poll j (map snd a)) = true) by (apply answered_in; eauto). congruence. }
  apply in_kstamped in An as (u & An). assert (Hu := T1 u v). rewrite E in Hu. specialize (Hu ltac:(apply in_or_app; right; right; exact An)).
  assert (Hcu : c <= u) by (apply (proj2 (in_order _ _ _ _ _ _ _ _ _ H E) _ An)).
  assert (An' := An). apply in_split in An' as (b1 & b2 & Eb). assert (E2 : os = (a ++ (c, Polled j (Request n)) :: b1) ++ (u, Polled j (Response n v)) :: b2) by (rewrite E, Eb, <- app_assoc; reflexivity).
  assert (Hp' : polling (of_poll j (map snd (a ++ (c, Polled j (Request n)) :: b1))) = true).
  { rewrite map_app, of_poll_app. apply polling_goes_on; [exact Hp|]. intros K. apply in_poll in K. destruct K as [K|K]; [discriminate K|].
    apply Nst. rewrite Eb, map_app. apply in_or_app. left. exact K. }
  destruct (response_waits _ _ _ _ _ _ _ _ _ _ _ _ _ _ _ H E2 Hs Hp') as (b3 & t & b4 & Eb2).
  rewrite frequency_stays in Eb2.
  2: { intros g K. apply in_poll in K. apply (Nf g). rewrite E2, map_app. apply in_or_app. left. exact K. }
  assert (E3 : os = ((a ++ (c, Polled j (Request n)) :: b1) ++ (u, Polled j (Response n v)) :: b3) ++ (u, Polled j (Wait t f)) :: b4) by (rewrite E2, Eb2, <- !app_assoc; reflexivity).
  destruct (next_request _ _ _ _ _ _ _ _ _ _ _ H E3) as [(y & m & Hy & Ly)|[(y & Hy)|K]].
  - right. exists u, v, y, m. split; [exact An|]. split; [split; [exact Hcu|apply Hu]|]. split; [rewrite Eb, Eb2; rewrite !in_app_iff; cbn; rewrite in_app_iff; cbn; tauto|]. split; [|exact Ly].
    assert (Hm : In (Polled j (Request m)) (map snd b)).
    { apply in_kstamped. exists y. rewrite Eb, Eb2, !in_app_iff. cbn. rewrite in_app_iff. cbn. tauto. }
    apply in_split in Hm as (l1 & l2 & Hm). exact (request_order _ _ _ _ _ _ _ _ _ _ Hh Em Hm).
  - exfalso. apply Nst. apply in_kstamped. exists y. rewrite Eb, Eb2, !in_app_iff. cbn. rewrite in_app_iff. cbn. tauto.
  - left. lia.
Qed.

(** ** Not more often *)
Lemma spaced eps now k ages os j : timed eps now k ages os -> (starts (of_poll j (map snd os)) <= 1)%nat ->
  forall c t f y m v, In t (timers (at_poll k j)) -> In (c, Polled j (Wait t f)) os -> In (y, Polled j (Response m v)) os -> y <= c.
Proof.
  intros H. induction H as [buf w Hb|now k ages os e k' o H IH Ht Hd E|now now' k ages os H IH Hle Hon]; intros St c t f y m v Hl Hw Hr; [destruct Hw| |eauto].
  destruct (erased _ _ _ _ _ H) as (es & Hh). assert (T' := SHappens user pol eps now k ages os e k' o H Ht Hd E). destruct (erased _ _ _ _ _ T') as (es' & Hh'). rewrite map_app, snd_kstamp in Hh'.
  assert (Sp := step_stepped _ _ j _ _ _ _ (log_empty _ _ _ Hh) E). rewrite map_app, snd_kstamp, of_poll_app, starts_app in St.
  assert (Hy := stamped_past _ _ _ _ _ _ T' Hr). cbn [fst] in Hy. apply in_app_or in Hw as [Hw|Hw]; [|apply in_kstamp in Hw as [-> _]; exact Hy].
  assert (Hl' : In t (timers (at_poll k j))).
  { destruct (sp_new _ _ _ _ _ Sp _ Hl) as [K|(g & Hg)]; [exact K|]. exfalso. refine (wait_once _ _ _ _ _ _ _ _ Hh' _ Hg). apply in_kstamped. eauto. }
  apply in_app_or in Hr as [Hr|Hr]; [refine (IH _ c t f y m v Hl' Hw Hr); unfold kstamped in *; lia|]. exfalso. apply in_kstamp in Hr as [-> Hr].
  assert (Ho := sp_response _ _ _ _ _ Sp _ _ Hr). assert (Hw' : In (Polled j (Wait t f)) (map snd os)) by (apply in_kstamped; eauto).
  destruct (poll_scheduled _ _ _ _ _ Hh Hw') as (x & r & tt & fr & Hs). destruct (poll_state _ _ _ _ _ _ _ _ Hh Hs) as (ses & S).
  apply schedule_inv in S. assert (L := v_load _ _ _ _ S). unfold load in L.
  assert (K1 : (1 <= List.length (sr_outstanding (at_poll k j)))%nat) by (destruct (sr_outstanding (at_poll k j)); [destruct Ho|cbn; lia]).
  assert (K2 : (1 <= List.length (timers (at_poll k j)))%nat) by (destruct (timers (at_poll k j)); [destruct Hl'|cbn; lia]).
  unfold timers in K2. rewrite app_length in K2. unfold kstamped in *. lia.
Qed.

Lemma response_started (R : Type) (handler : nat -> unit -> R -> unit * list sapi) f ses s w os i r : schedule handler f ses s w os -> In (Response i r) os -> (1 <= starts os)%nat.
Proof.
  intros H Hin. apply in_split in Hin as (a & b & ->). apply output_cut in H as (es1 & e & es2 & s1 & w1 & os1 & s2 & w2 & o1 & o2 & os2 & _ & H1 & _ & T & -> & _).
  apply schedule_inv in H1. assert (L := v_load _ _ _ _ H1). rewrite starts_app, starts_app.
  assert (K : In i (sr_outstanding s1)).
  { clear -T. remember (o1 ++ Response i r :: o2) as o eqn:Eo. assert (Hin : In (Response i r) o) by (rewrite Eo; apply in_or_app; right; left; reflexivity). clear Eo.
    destruct T; cbn in *; repeat destruct Hin as [Hin|Hin]; try discriminate Hin; try contradiction; injection Hin as <- _; assumption. }
  unfold load in L. destruct (sr_outstanding s1); [destruct K|cbn in L; lia].
Qed.

Theorem requests_spaced eps now k ages os j x r tt f a y n b u m v : timed eps now k ages os -> os = a ++ (y, Polled j (Request n)) :: b ->
  In (Scheduled j x r tt f) (map snd os) -> (forall g, ~ In (Polled j (Frequency g)) (map snd os)) ->
  (starts (of_poll j (map snd os)) <= 1)%nat -> In (u, Polled j (Response m v)) a -> u + f <= y.
Proof.
  intros H E Hs Nf St Hr. destruct (shown_by _ _ _ _ _ H _ _ _ _ E) as (k1 & ages1 & os1 & e1 & k2 & a2 & b2 & b3 & X1 & X2 & X3 & X4 & X5 & X6 & X7 & X8).
  destruct (erased _ _ _ _ _ X1) as (es & Hh). assert (Sp := step_stepped _ _ j _ _ _ _ (log_empty _ _ _ Hh) X4).
  destruct (erased _ _ _ _ _ H) as (es2 & Hh2). destruct (poll_state _ _ _ _ _ _ _ _ Hh2 Hs) as (ses & S).
  assert (Em : map snd os = map snd os1 ++ a2 ++ Polled j (Request n) :: map snd b) by (rewrite E, X6, !map_app, snd_kstamp, <- app_assoc; reflexivity).
  rewrite Em, of_poll_app, starts_app in St.
  destruct (sp_request _ _ _ _ _ Sp _ _ _ eq_refl) as [(a' & ->)|(t & -> & Ht)].
  - exfalso. destruct (erased _ _ _ _ _ X5) as (es3 & Hh3). rewrite map_app, snd_kstamp in Hh3.
    assert (Hin : In (Polled j (Response m v)) (map snd os1 ++ a')).
    { rewrite X6 in Hr. apply in_app_or in Hr as [Hr|Hr]; [apply in_or_app; left; apply in_kstamped; eauto|]. apply in_kstamp in Hr as [_ Hr].
      apply in_app_or in Hr as [Hr|[Hr|[]]]; [apply in_or_app; auto|discriminate Hr]. }
    rewrite Em in S. rewrite <- (app_assoc a'), of_poll_app, of_poll_app in S. cbn [app] in S. rewrite of_poll_this in S. rewrite app_assoc in S. apply started_cut in S as (s1 & s2 & s3 & w1 & _ & S & _).
    apply in_poll in Hin. rewrite of_poll_app in Hin. assert (K := response_started _ _ _ _ _ _ _ _ _ S Hin). rewrite starts_app in K.
    rewrite <- (app_assoc a'), of_poll_app, starts_app in St. cbn [app] in St. rewrite of_poll_this in St. cbn [starts filter List.length] in St. unfold starts in *. cbn [filter List.length] in St. lia.
  - destruct (live_timer _ _ _ j t Hh) as (g & Hg); [apply in_or_app; auto|]. assert (Hg' := Hg). apply in_kstamped in Hg as (c & Hg).
    assert (Hd := expired_due _ _ _ _ _ _ X1 _ _ _ Hg Ht).
    assert (Eg : g = f).
    { assert (K : In (Polled j (Wait t g)) (map snd os)) by (rewrite Em; apply in_or_app; auto). apply in_poll in K. apply in_split in K as (l1 & l2 & K). rewrite K in S.
      apply wait_cut in S as (_ & _ & _ & _ & -> & _). apply frequency_stays. intros h I. apply (Nf h). apply in_poll. rewrite K. apply in_or_app. auto. }
    subst g. assert (Hu : u <= c); [|lia].
    rewrite X6 in Hr. apply in_app_or in Hr as [Hr|Hr].
    + refine (spaced _ _ _ _ _ _ X1 _ c t f u m v _ Hg Hr); [lia|apply in_or_app; auto].
    + exfalso. apply in_kstamp in Hr as [_ Hr]. assert (Ho : In (Polled j (Response m v)) (a2 ++ Polled j (Request n) :: b2)) by (apply in_or_app; auto).
      apply (sp_response _ _ _ _ _ Sp) in Ho. assert (L : (load (at_poll k1 j) <= starts (of_poll j (map snd os1)))%nat).
      { destruct (poll_scheduled _ _ _ _ _ Hh Hg') as (x1 & r1 & t1 & f1 & Hs1). destruct (poll_state _ _ _ _ _ _ _ _ Hh Hs1) as (ses1 & S1). exact (v_load _ _ _ _ (schedule_inv _ _ _ _ _ _ S1)). }
      unfold load in L. destruct (sr_outstanding (at_poll k1 j)) as [|? ?]; [destruct Ho|]. destruct (sr_expired (at_poll k1 j)) as [|? ?]; [destruct Ht|]. cbn in L. lia.
Qed.

(** ** The first request *)
Lemma ages_length eps now k ages os : timed eps now k ages os -> List.length ages = List.length (ks_queue (st_rest k)).
Proof.
  induction 1 as [buf w Hb|now k ages os e k' o H IH Ht Hd E|now now' k ages os H IH Hle Hon]; [reflexivity| |exact IH].
  destruct (erased _ _ _ _ _ H) as (es & Hh). destruct (sp_queue _ _ _ _ _ (step_stepped _ _ 0%nat _ _ _ _ (log_empty _ _ _ Hh) E)) as (q & Q & _).
  unfold ages_after. rewrite app_length, repeat_length, Q, app_length. clear Q.
  destruct e; try lia. destruct ages, (ks_queue (st_rest k)); cbn in *; lia.
Qed.

Lemma ages_fresh eps now k ages os : timed eps now k ages os -> Forall (fun c => now <= c + eps) ages.
Proof.
  induction 1 as [buf w Hb|now k ages os e k' o H IH Ht Hd E|now now' k ages os H IH Hle Hon]; [constructor| |apply Hon].
  unfold ages_after. apply Forall_app. split.
  - destruct e; try exact IH. destruct ages; [constructor|]. inversion IH; assumption.
  - apply Forall_forall. intros c Hc. apply repeat_spec in Hc. subst c. lia.
Qed.

Lemma first_pending eps now k ages os j : timed eps now k ages os -> forall c x r t f, In (c, Scheduled j x r t f) os ->
  (exists y n, In (y, Polled j Started) os /\ In (y, Polled j (Request n)) os /\ c <= y <= c + eps) \/
  (starting (st_rest k) j /\ exists m c', nth_error (ks_queue (st_rest k)) m = Some (RunPoll j) /\ nth_error ages m = Some c' /\ c' <= c).
Proof.
  induction 1 as [buf w Hb|now k ages os e k' o H IH Ht Hd E|now now' k ages os H IH Hle Hon]; intros c x r t f Hin; [destruct Hin| |eauto].
  destruct (erased _ _ _ _ _ H) as (es & Hh). assert (Sp := step_stepped _ _ j _ _ _ _ (log_empty _ _ _ Hh) E). assert (Al := ages_length _ _ _ _ _ H).
  set (lq := match e with KRun => tl (ks_queue (st_rest k)) | _ => ks_queue (st_rest k) end) in *.
  set (la := match e with KRun => tl ages | _ => ages end).
  assert (Ll : List.length la = List.length lq) by (unfold la, lq; destruct e; try exact Al; destruct ages, (ks_queue (st_rest k)); cbn in *; lia).
  apply in_app_or in Hin as [Hin|Hin].
  - destruct (IH _ _ _ _ _ Hin) as [(y & n & A & B & C)|(Hst & m & c' & Q & A & Hc)].
    { left. exists y, n. split; [apply in_or_app; auto|]. split; [apply in_or_app; auto|exact C]. }
    destruct (sp_start _ _ _ _ _ Sp Hst) as [(S1 & n & S2)|(S1 & S2)].
    + left. exists now, n. split; [apply in_or_app; right; apply in_kstamp; auto|]. split; [apply in_or_app; right; apply in_kstamp; auto|].
      split; [apply (stamped_past _ _ _ _ _ _ H Hin)|]. assert (F := ages_fresh _ _ _ _ _ H). rewrite Forall_forall in F. apply nth_error_In in A. apply F in A. lia.
    + right. split; [exact S1|]. destruct (sp_queue _ _ _ _ _ Sp) as (q & Eq & _).
      assert (K : exists m', nth_error lq m' = Some (RunPoll j) /\ nth_error la m' = Some c').
      { unfold lq, la. destruct e; try (exists m; split; assumption). specialize (S2 eq_refl). destruct m as [|m].
        - destruct (ks_queue (st_rest k)); [discriminate Q|]. cbn in Q, S2. congruence.
        - exists m. destruct (ks_queue (st_rest k)); [discriminate Q|]. destruct ages; [discriminate A|]. split; assumption. }
      destruct K as (m' & K1 & K2). exists m', c'. fold lq in Eq. rewrite Eq. unfold ages_after. fold la.
      split; [rewrite nth_error_app1; [exact K1|apply nth_error_Some; congruence]|]. split; [rewrite nth_error_app1; [exact K2|apply nth_error_Some; congruence]|exact Hc].
  - right. apply in_kstamp in Hin as [-> Hin]. destruct (sp_scheduled _ _ _ _ _ Sp _ _ _ _ Hin) as (S1 & q & q' & Eq). split; [exact S1|].
    exists (List.length lq + List.length q)%nat, now. fold lq in Eq. rewrite Eq. unfold ages_after. fold la. rewrite Eq. split; [|split; [|apply N.le_refl]].
    + rewrite nth_error_app2 by lia. rewrite nth_error_app2 by lia. replace (_ - _ - _)%nat with 0%nat by lia. reflexivity.
    + rewrite nth_error_app2 by lia. rewrite !app_length. cbn [List.length].
      assert (G : forall n i, (i < n)%nat -> nth_error (repeat now n) i = Some now) by (clear; induction n as [|n IH]; intros [|i] L; try lia; [reflexivity|apply IH; lia]).
      apply G. lia.
Qed.

Theorem first_request eps now k ages os j c x r t f : timed eps now k ages os -> In (c, Scheduled j x r t f) os ->
  (exists y n, In (y, Polled j Started) os /\ In (y, Polled j (Request n)) os /\ c <= y <= c + eps) \/ now <= c + eps.
Proof.
  intros H Hin. destruct (first_pending _ _ _ _ _ _ H _ _ _ _ _ Hin) as [K|(_ & m & c' & _ & A & Hc)]; [auto|right].
  assert (F := ages_fresh _ _ _ _ _ H). rewrite Forall_forall in F. apply nth_error_In in A. apply F in A. lia.
Qed.

(** ** The methods of scheduled requests *)
Lemma pending_aged eps now k ages os j : timed eps now k ages os -> forall m, nth_error (ks_queue (st_rest k)) m = Some (RunPoll j) ->
  exists c' x, nth_error ages m = Some c' /\ In (c', x) os /\ concerns j x = true.
Proof.
  induction 1 as [buf w Hb|now k ages os e k' o H IH Ht Hd E|now now' k ages os H IH Hle Hon]; intros m Hm; [destruct m; discriminate Hm| |eauto].
  destruct (erased _ _ _ _ _ H) as (es & Hh). assert (Al := ages_length _ _ _ _ _ H).
  destruct (sp_queue _ _ _ _ _ (step_stepped _ _ j _ _ _ _ (log_empty _ _ _ Hh) E)) as (q & Eq & Cq).
  set (lq := match e with KRun => tl (ks_queue (st_rest k)) | _ => ks_queue (st_rest k) end) in *.
  set (la := match e with KRun => tl ages | _ => ages end).
  assert (Ll : List.length la = List.length lq) by (unfold la, lq; destruct e; try exact Al; destruct ages, (ks_queue (st_rest k)); cbn in *; lia).
  unfold ages_after. fold la. rewrite Eq in Hm |- *. destruct (Nat.lt_ge_cases m (List.length lq)) as [L|L].
  - rewrite nth_error_app1 in Hm by exact L. rewrite nth_error_app1 by lia.
    assert (K : exists m', nth_error (ks_queue (st_rest k)) m' = Some (RunPoll j) /\ nth_error la m = nth_error ages m').
    { unfold lq, la in *. destruct e; try (exists m; split; [exact Hm|reflexivity]). exists (S m).
      destruct (ks_queue (st_rest k)); [destruct m; discriminate Hm|]. destruct ages; [discriminate Al|]. split; [exact Hm|reflexivity]. }
    destruct K as (m' & K1 & K2). destruct (IH _ K1) as (c' & x & A & B & C). exists c', x. split; [congruence|]. split; [apply in_or_app; auto|exact C].
  - rewrite nth_error_app2 in Hm by exact L. assert (Hq := nth_error_In _ _ Hm). apply Cq in Hq. apply existsb_exists in Hq as (x & Hx & Cx).
    exists now, x. split; [|split; [apply in_or_app; right; apply in_kstamp; auto|exact Cx]].
    rewrite nth_error_app2 by lia. rewrite app_length.
    assert (G : forall n i, (i < n)%nat -> nth_error (repeat now n) i = Some now) by (clear; induction n as [|n IH]; intros [|i] L; try lia; [reflexivity|apply IH; lia]).
    apply G. assert (nth_error q (m - List.length lq) <> None) by congruence. apply nth_error_Some in H0. lia.
Qed.

Theorem methods_in_time eps now k ages os j c x r t f : timed eps now k ages os -> In (c, Scheduled j x r t f) os ->
  (forall y o, In (y, o) os -> concerns j o = true -> y + eps < now) ->
  (is_running k j, frequency k j) = meant j (map snd os).
Proof.
  intros H Hj Hy. destruct (erased _ _ _ _ _ H) as (es & Hh).
  destruct (mnt_history _ _ _ _ _ Hh) as (buf & Hb & V). destruct (vw_inv _ _ _ _ _ _ V) as [[[R _ _] _ S] M].
  destruct (scheduled_poll _ _ _ j x r t f R) as (p & s & Ep & _); [apply in_inner; split; [apply (in_map snd) in Hj; exact Hj|discriminate]|].
  rewrite <- meant_inner, <- (M j p Ep). unfold is_running, frequency. rewrite Ep. unfold sched_meant.
  assert (K := sp_turns _ _ S j). unfold pending_of in K. rewrite Ep in K.
  destruct (sr_queue (po_sched p)) as [|a q]; [reflexivity|exfalso].
  assert (Hin : In (RunPoll j) (ks_queue (st_rest k))).
  { revert K. generalize (ks_queue (st_rest k)). induction l as [|d l IH]; cbn; [discriminate|]. destruct d as [i|? ?|?]; try (intros K; right; apply IH; exact K).
    destruct (Nat.eqb_spec i j) as [->|Hi]; [auto|]. intros K. right. apply IH. exact K. }
  apply In_nth_error in Hin as (m & Hm). destruct (pending_aged _ _ _ _ _ _ H _ Hm) as (c' & y & A & B & C).
  specialize (Hy _ _ B C). assert (F := ages_fresh _ _ _ _ _ H). rewrite Forall_forall in F. apply nth_error_In in A. apply F in A. lia.
Qed.
End Timed.
