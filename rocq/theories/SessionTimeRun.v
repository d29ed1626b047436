(** In the timed histories of sessions, time can always pass. *)
From Verif Require Import Prelude Ser4 Messages Mbap SpecPdu SpecMbap Client SpecClient ClientFacts ClientLemmas ClientView SpecClientTime ClientTime ClientTimeRun
  Scheduled SpecScheduled ScheduledFacts ScheduledLemmas SessionCall Session SpecSession SessionLift SessionFacts SessionPolls SessionInv SessionStop SessionLemmas
  SpecSessionTime SessionTime SessionTimed.
From Coq Require Import Lia.

Section Run.
Context {W : Type}.
Context (user : users W).
Context (pol : copy_policy).
Context (eps : N).
Notation timed := (timed_sessions user pol eps).

(** Every event that is allowed happens. *)
Lemma goes now k ages os e : timed now k ages os -> typed_kevent e -> kdue now os e ->
  exists k' o, stack_step user pol k e = Ret (k', o) /\ timed now k' (ages_after now e k' ages) (os ++ map (pair now) o).
Proof.
  intros H Ht Hd. destruct (erased _ _ _ _ _ _ _ H) as (es & buf & w & Hb & Hty & Er).
  destruct (never_stuck user pol buf w (es ++ [e]) Hb) as (k' & os' & E & _); [apply Forall_app; split; [exact Hty|constructor; [exact Ht|constructor]]|].
  rewrite stack_run_snoc, Er in E. cbn [obind] in E. destruct (stack_step user pol k e) as [[k1 o]|] eqn:Es; [|discriminate E].
  exists k1, o. split; [reflexivity|]. exact (SHappens _ _ _ _ _ _ _ _ _ _ H Ht Hd Es).
Qed.

Lemma core_of now k ages os : timed now k ages os -> core (st_channel k) (of_channel (map snd os)).
Proof.
  intros H. destruct (erased _ _ _ _ _ _ _ H) as (es & Hh). destruct (channel_history _ _ _ _ _ Hh) as (ces & script & Hc & _).
  destruct (history_reached _ _ _ _ _ _ Hc) as (C & _). exact C.
Qed.

Lemma grows now k ages os e k' o : timed now k ages os -> stack_step user pol k e = Ret (k', o) -> grown (st_channel k) (st_channel k') (of_channel o).
Proof.
  intros H E. destruct (erased _ _ _ _ _ _ _ H) as (es & Hh). destruct (step_channel _ _ _ _ _ _ _ (clean_state _ _ _ _ _ Hh) E) as (o1 & l & -> & Hl & D).
  assert (Eo : of_channel (map Channel o1 ++ l) = o1).
  { rewrite of_channel_app, of_channel_channel, (of_channel_inner l Hl). apply app_nil_r. }
  rewrite Eo. destruct D as [(c & Ec)|(e' & script & -> & R)].
  - destruct (capi_calls_spec (st_channel k) c) as (q & o2 & m & E2 & P). rewrite E2 in Ec. injection Ec as <- <-. apply grown_post. exact P.
  - exact (grown_step _ _ _ _ _ _ _ _ (R [])).
Qed.

(** Nothing waits that is due, except for what is listed. *)
Record tidy (now : N) (l1 : list nat) (l2 : list (nat * nat)) (n : nat) (k : stack W) (ages : list N) (os : list kstamped) : Prop := {
  ty_channel : forall a i t d, In (a, Channel (Armed i t d)) os -> In t (cc_armed (st_channel k) ++ cc_expired (st_channel k)) -> In t l1 \/ a = now \/ now < a + d;
  ty_polls : forall j a t f, In (a, Polled j (Wait t f)) os -> In t (timers (at_poll k j)) -> In (j, t) l2 \/ a = now \/ now < a + f;
  ty_queue : Forall (eq now) (skipn n ages)
}.

Lemma tidy_step now l1 l2 n k ages os e k' o : timed now k ages os -> typed_kevent e -> kdue now os e -> stack_step user pol k e = Ret (k', o) ->
  tidy now l1 l2 (match e with KRun => S n | _ => n end) k ages os -> tidy now l1 l2 n k' (ages_after now e k' ages) (os ++ map (pair now) o).
Proof.
  intros H Ht Hd E [T1 T2 T3]. assert (C := core_of _ _ _ _ H). assert (G := grows _ _ _ _ _ _ _ H E). destruct (erased _ _ _ _ _ _ _ H) as (es & Hh).
  constructor.
  - intros a i t d Hin Hl. apply in_app_or in Hin as [Hin|Hin]; [|apply in_kstamp in Hin as [-> _]; auto].
    destruct (gr_timers _ _ _ G _ Hl) as [Hl'|Hl']; [exact (T1 _ _ _ _ Hin Hl')|]. exfalso.
    assert (K : (t < cc_next_timer (st_channel k))%nat); [|lia]. apply (co_armed_ids _ _ C i t d). apply in_channel. apply in_kstamped. eauto.
  - intros j a t f Hin Hl. apply in_app_or in Hin as [Hin|Hin]; [|apply in_kstamp in Hin as [-> _]; auto].
    destruct (erased _ _ _ _ _ _ _ (SHappens user pol eps now k ages os e k' o H Ht Hd E)) as (es' & Hh'). rewrite map_app, snd_kstamp in Hh'.
    destruct (sp_new _ _ _ _ _ (step_stepped _ _ j _ _ _ _ (log_empty _ _ _ _ _ Hh) E) _ Hl) as [Hl'|(g & Hg)]; [exact (T2 _ _ _ _ Hin Hl')|]. exfalso.
    refine (wait_once _ _ _ _ _ _ _ _ _ _ Hh' _ Hg). apply in_kstamped. eauto.
  - unfold ages_after. rewrite skipn_app. apply Forall_app. split.
    + destruct e; try exact T3. destruct ages as [|c ages]; [destruct n; constructor|exact T3].
    + apply Forall_forall. intros c Hc. assert (Hc' : In c (repeat now (List.length (ks_queue (st_rest k')) - List.length match e with KRun => tl ages | _ => ages end))).
      { rewrite <- (firstn_skipn (n - List.length match e with KRun => tl ages | _ => ages end)). apply in_or_app. right. exact Hc. }
      apply repeat_spec in Hc'. auto.
Qed.

(** ** The timers of the channel *)
Lemma armed_once now k ages os t a i d a' i' d' : timed now k ages os -> In (a, Channel (Armed i t d)) os -> In (a', Channel (Armed i' t d')) os -> a = a' /\ i = i' /\ d = d'.
Proof.
  intros H H1 H2. destruct (timed_inv _ _ _ _ _ _ _ _ (projected _ _ _ _ _ _ _ H [])) as (_ & T).
  apply in_channel_stamps in H1, H2. exact (armed_unique _ _ _ _ _ _ _ _ (ti_once _ _ _ _ T) H1 H2).
Qed.

(** A timer that is due expires, and its action is executed. *)
Lemma channel_timer now l1 l2 n k ages os t : timed now k ages os -> tidy now (t :: l1) l2 n k ages os -> kdue now os (KChannel (CExpire t)) ->
  (t < cc_next_timer (st_channel k))%nat ->
  exists k' ages' os', timed now k' ages' (os ++ os') /\ tidy now l1 l2 n k' ages' (os ++ os').
Proof.
  intros H T Hd Hn. destruct (goes _ _ _ _ (KChannel (CExpire t)) H I Hd) as (k1 & o1 & E1 & H1).
  assert (T1 := tidy_step _ _ _ n _ _ _ (KChannel (CExpire t)) _ _ H I Hd E1 T). assert (G1 := grows _ _ _ _ _ _ _ H E1).
  destruct (goes _ _ _ _ (KChannel (CFire t)) H1 I I) as (k2 & o2 & E2 & H2).
  assert (T2 := tidy_step _ _ _ n _ _ _ (KChannel (CFire t)) _ _ H1 I I E2 T1). rewrite <- app_assoc in H2, T2.
  exists k2. eexists. exists (map (pair now) o1 ++ map (pair now) o2). split; [exact H2|].
  assert (X : ~ In t (cc_armed (st_channel k2) ++ cc_expired (st_channel k2))).
  { assert (A1 : ~ In t (cc_armed (st_channel k1))).
    { cbn [stack_step client_step] in E1. destruct (existsb (Nat.eqb t) (cc_armed (st_channel k))) eqn:Ex; cbn [obind] in E1; injection E1 as <- _; cbn [st_channel].
      - unfold with_timers. cbn [cc_armed]. intros K. apply filter_In in K as [_ K]. rewrite Nat.eqb_refl in K. discriminate K.
      - intros K. assert (existsb (Nat.eqb t) (cc_armed (st_channel k)) = true) by (apply existsb_exists; exists t; rewrite Nat.eqb_refl; auto). congruence. }
    assert (Hn1 := gr_next _ _ _ G1). cbn [stack_step client_step] in E2. destruct (existsb (Nat.eqb t) (cc_expired (st_channel k1))) eqn:Ex; cbn [obind] in E2.
    - destruct (on_timeout _ _ _) as [[s3 z3] o3] eqn:Et. injection E2 as <- _. cbn [st_channel].
      intros K. apply (gr_timers _ _ _ (grown_timeout _ _ _ _ _ _ Et)) in K. unfold with_timers in K. cbn [cc_armed cc_expired cc_next_timer] in K.
      destruct K as [K|K]; [|lia]. apply in_app_or in K as [K|K]; [exact (A1 K)|]. apply filter_In in K as [_ K]. rewrite Nat.eqb_refl in K. discriminate K.
    - injection E2 as <- _. cbn [st_channel]. intros K. apply in_app_or in K as [K|K]; [exact (A1 K)|].
      assert (existsb (Nat.eqb t) (cc_expired (st_channel k1)) = true) by (apply existsb_exists; exists t; rewrite Nat.eqb_refl; auto). congruence. }
  constructor; [|exact (ty_polls _ _ _ _ _ _ _ T2)|exact (ty_queue _ _ _ _ _ _ _ T2)].
  intros a i t' d Hin Hl. destruct (ty_channel _ _ _ _ _ _ _ T2 _ _ _ _ Hin Hl) as [[<-|K]|K]; [destruct (X Hl)|auto|auto].
Qed.

Lemma channel_timers now l2 n l1 : forall k ages os, timed now k ages os -> tidy now l1 l2 n k ages os ->
  exists k' ages' os', timed now k' ages' (os ++ os') /\ tidy now [] l2 n k' ages' (os ++ os').
Proof.
  induction l1 as [|t l1 IH]; intros k ages os H T; [exists k, ages, []; rewrite app_nil_r; auto|].
  assert (D : (kdue now os (KChannel (CExpire t)) /\ (t < cc_next_timer (st_channel k))%nat) \/ tidy now l1 l2 n k ages os).
  { assert (C := core_of _ _ _ _ H).
    assert (Dc : (exists a i d, In (a, Channel (Armed i t d)) os) \/ (forall a i d, ~ In (a, Channel (Armed i t d)) os)).
    { clear. induction os as [|[a x] os IH]; [right; intros a i d []|]. destruct IH as [(a' & i & d & K)|K]; [left; exists a', i, d; right; exact K|].
      destruct x as [[ | |i t' d| | ]| | | | | | | ]; try (right; intros a' i' d' [X|X]; [discriminate X|exact (K _ _ _ X)]).
      destruct (Nat.eq_dec t' t) as [->|Ne]; [left; exists a, i, d; left; reflexivity|].
      right. intros a' i' d' [X|X]; [injection X as _ _ X _; exact (Ne X)|exact (K _ _ _ X)]. }
    destruct Dc as [(a & i & d & K)|K].
    - destruct (N.le_gt_cases (a + d) now) as [L|L].
      + left. split.
        * intros a' i' d' K'. apply in_channel_stamps in K'. destruct (armed_once _ _ _ _ _ _ _ _ _ _ _ H K K') as (<- & _ & <-). exact L.
        * apply (co_armed_ids _ _ C i t d). apply in_channel. apply in_kstamped. eauto.
      + right. constructor; [|exact (ty_polls _ _ _ _ _ _ _ T)|exact (ty_queue _ _ _ _ _ _ _ T)].
        intros a' i' t' d' Hin Hl. destruct (ty_channel _ _ _ _ _ _ _ T _ _ _ _ Hin Hl) as [[<-|X]|X]; [|auto|auto].
        destruct (armed_once _ _ _ _ _ _ _ _ _ _ _ H K Hin) as (<- & _ & <-). auto.
    - right. constructor; [|exact (ty_polls _ _ _ _ _ _ _ T)|exact (ty_queue _ _ _ _ _ _ _ T)].
      intros a' i' t' d' Hin Hl. destruct (ty_channel _ _ _ _ _ _ _ T _ _ _ _ Hin Hl) as [[<-|X]|X]; [|auto|auto]. destruct (K _ _ _ Hin). }
  destruct D as [(Hd & Hn)|T']; [|exact (IH _ _ _ H T')].
  destruct (channel_timer _ _ _ _ _ _ _ _ H T Hd Hn) as (k1 & ages1 & os1 & H1 & T1). destruct (IH _ _ _ H1 T1) as (k2 & ages2 & os2 & H2 & T2).
  exists k2, ages2, (os1 ++ os2). rewrite app_assoc. auto.
Qed.

(** ** The timers of scheduled requests *)
Lemma waits_once now k ages os j t a f a' f' : timed now k ages os -> In (a, Polled j (Wait t f)) os -> In (a', Polled j (Wait t f')) os -> a = a' /\ f = f'.
Proof.
  intros H H1 H2. destruct (erased _ _ _ _ _ _ _ H) as (es & Hh). apply in_split in H1 as (p & q & E). rewrite E in H2.
  assert (Hs : In (Polled j (Wait t f)) (map snd os)) by (rewrite E, map_app; apply in_or_app; right; left; reflexivity).
  destruct (poll_scheduled _ _ _ _ _ _ _ Hh Hs) as (x & r & tt & fr & Hsc). destruct (poll_state _ _ _ _ _ _ _ _ _ _ Hh Hsc) as (ses & S).
  assert (Eo : map snd os = map snd p ++ Polled j (Wait t f) :: map snd q) by (rewrite E, map_app; reflexivity).
  unfold kstamped in *. rewrite Eo, of_poll_app, of_poll_this in S. apply in_app_or in H2 as [H2|[H2|H2]].
  - exfalso. assert (K : In (Wait t f') (of_poll j (map snd p))) by (apply in_poll; apply (in_map snd) in H2; exact H2).
    assert (X := waits_new _ _ _ _ _ _ _ S _ _ _ _ _ _ eq_refl K). lia.
  - injection H2 as <- <-. auto.
  - exfalso. assert (K : In (Wait t f') (of_poll j (map snd q))) by (apply in_poll; apply (in_map snd) in H2; exact H2).
    apply in_split in K as (q1 & q2 & K). rewrite K in S.
    assert (Es : of_poll j (map snd p) ++ Wait t f :: q1 ++ Wait t f' :: q2 = (of_poll j (map snd p) ++ Wait t f :: q1) ++ Wait t f' :: q2) by (rewrite <- app_assoc; reflexivity).
    rewrite Es in S. assert (In (Wait t f) (of_poll j (map snd p) ++ Wait t f :: q1)) as K' by (apply in_or_app; right; left; reflexivity).
    assert (X := waits_new _ _ _ _ _ _ _ S _ _ _ _ _ _ eq_refl K'). lia.
Qed.

Lemma poll_expires k j t k' o : stack_step user pol k (KExpire j t) = Ret (k', o) -> ~ In t (sr_armed (at_poll k' j)).
Proof.
  cbn [stack_step]. destruct (poll_step (st_rest k) j (SExpire t)) as [z c] eqn:E. cbn [finish]. destruct (capi_calls _ _) as [s' o']. intros X. injection X as <- _.
  unfold at_poll. cbn [st_rest]. change (sched_at (with_log z []) j) with (sched_at z j). destruct (nth_error (ks_polls (st_rest k)) j) as [p|] eqn:P.
  - destruct (poll_step_at _ _ _ _ _ _ P E) as (s & o1 & l & S & _ & _ & A & _). rewrite A, Nat.eqb_refl. cbn [sched_step] in S.
    destruct (existsb (Nat.eqb t) (sr_armed (po_sched p))) eqn:Ex; injection S as <- _.
    + cbn. unfold without. intros K. apply filter_In in K as [_ K]. rewrite Nat.eqb_refl in K. discriminate K.
    + intros K. assert (existsb (Nat.eqb t) (sr_armed (po_sched p)) = true) by (apply existsb_exists; exists t; rewrite Nat.eqb_refl; auto). congruence.
  - unfold poll_step in E. rewrite P in E. injection E as <- _. unfold sched_at. rewrite P. intros [].
Qed.

Lemma poll_fires k j t k' o : ~ In t (sr_armed (at_poll k j)) -> stack_step user pol k (KFire j t) = Ret (k', o) -> ~ In t (timers (at_poll k' j)).
Proof.
  intros Ha. cbn [stack_step]. destruct (poll_step (st_rest k) j (SFire t)) as [z c] eqn:E. cbn [finish]. destruct (capi_calls _ _) as [s' o']. intros X. injection X as <- _.
  unfold at_poll in *. cbn [st_rest]. change (sched_at (with_log z []) j) with (sched_at z j). destruct (nth_error (ks_polls (st_rest k)) j) as [p|] eqn:P.
  - destruct (poll_step_at _ _ _ _ _ _ P E) as (s & o1 & l & S & _ & _ & A & _). rewrite A, Nat.eqb_refl. cbn [sched_step] in S.
    unfold sched_at in Ha. rewrite P in Ha. unfold timers.
    destruct (existsb (Nat.eqb t) (sr_expired (po_sched p))) eqn:Ex.
    + cbn [execute] in S. injection S as <- _. cbn. unfold without. intros K. apply in_app_or in K as [K|K]; [exact (Ha K)|].
      apply filter_In in K as [_ K]. rewrite Nat.eqb_refl in K. discriminate K.
    + injection S as <- _. intros K. apply in_app_or in K as [K|K]; [exact (Ha K)|].
      assert (existsb (Nat.eqb t) (sr_expired (po_sched p)) = true) by (apply existsb_exists; exists t; rewrite Nat.eqb_refl; auto). congruence.
  - unfold poll_step in E. rewrite P in E. injection E as <- _. unfold sched_at. rewrite P. intros [].
Qed.

Lemma poll_timer now l1 l2 n k ages os j t : timed now k ages os -> tidy now l1 ((j, t) :: l2) n k ages os -> kdue now os (KExpire j t) ->
  exists k' ages' os', timed now k' ages' (os ++ os') /\ tidy now l1 l2 n k' ages' (os ++ os').
Proof.
  intros H T Hd. destruct (goes _ _ _ _ (KExpire j t) H I Hd) as (k1 & o1 & E1 & H1).
  assert (T1 := tidy_step _ _ _ n _ _ _ (KExpire j t) _ _ H I Hd E1 T).
  destruct (goes _ _ _ _ (KFire j t) H1 I I) as (k2 & o2 & E2 & H2).
  assert (T2 := tidy_step _ _ _ n _ _ _ (KFire j t) _ _ H1 I I E2 T1). rewrite <- app_assoc in H2, T2.
  exists k2. eexists. exists (map (pair now) o1 ++ map (pair now) o2). split; [exact H2|].
  assert (X := poll_fires _ _ _ _ _ (poll_expires _ _ _ _ _ E1) E2).
  constructor; [exact (ty_channel _ _ _ _ _ _ _ T2)| |exact (ty_queue _ _ _ _ _ _ _ T2)].
  intros j' a t' f Hin Hl. destruct (ty_polls _ _ _ _ _ _ _ T2 _ _ _ _ Hin Hl) as [[Y|K]|K]; [|auto|auto].
  injection Y as <- <-. destruct (X Hl).
Qed.

Lemma poll_timers now l1 n l2 : forall k ages os, timed now k ages os -> tidy now l1 l2 n k ages os ->
  exists k' ages' os', timed now k' ages' (os ++ os') /\ tidy now l1 [] n k' ages' (os ++ os').
Proof.
  induction l2 as [|[j t] l2 IH]; intros k ages os H T; [exists k, ages, []; rewrite app_nil_r; auto|].
  assert (D : kdue now os (KExpire j t) \/ tidy now l1 l2 n k ages os).
  { assert (Dc : (exists a f, In (a, Polled j (Wait t f)) os) \/ (forall a f, ~ In (a, Polled j (Wait t f)) os)).
    { clear. induction os as [|[a x] os IH]; [right; intros a f []|]. destruct IH as [(a' & f & K)|K]; [left; exists a', f; right; exact K|].
      destruct x as [ | | | | | |j' [ | |t' f| | | ]| ]; try (right; intros a' f' [X|X]; [discriminate X|exact (K _ _ X)]).
      destruct (Nat.eq_dec j' j) as [->|Ne]; [destruct (Nat.eq_dec t' t) as [->|Ne]; [left; exists a, f; left; reflexivity|]|];
        (right; intros a' f' [X|X]; [injection X as; congruence|exact (K _ _ X)]). }
    destruct Dc as [(a & f & K)|K].
    - destruct (N.le_gt_cases (a + f) now) as [L|L].
      + left. intros a' f' K'. destruct (waits_once _ _ _ _ _ _ _ _ _ _ H K K') as (<- & <-). exact L.
      + right. constructor; [exact (ty_channel _ _ _ _ _ _ _ T)| |exact (ty_queue _ _ _ _ _ _ _ T)].
        intros j' a' t' f' Hin Hl. destruct (ty_polls _ _ _ _ _ _ _ T _ _ _ _ Hin Hl) as [[Y|X]|X]; [|auto|auto].
        injection Y as <- <-. destruct (waits_once _ _ _ _ _ _ _ _ _ _ H K Hin) as (<- & <-). auto.
    - right. constructor; [exact (ty_channel _ _ _ _ _ _ _ T)| |exact (ty_queue _ _ _ _ _ _ _ T)].
      intros j' a' t' f' Hin Hl. destruct (ty_polls _ _ _ _ _ _ _ T _ _ _ _ Hin Hl) as [[Y|X]|X]; [|auto|auto]. injection Y as <- <-. destruct (K _ _ Hin). }
  destruct D as [Hd|T']; [|exact (IH _ _ _ H T')].
  destruct (poll_timer _ _ _ _ _ _ _ _ _ H T Hd) as (k1 & ages1 & os1 & H1 & T1). destruct (IH _ _ _ H1 T1) as (k2 & ages2 & os2 & H2 & T2).
  exists k2, ages2, (os1 ++ os2). rewrite app_assoc. auto.
Qed.

(** ** The closures of the sessions *)
Lemma closures now l1 l2 n : forall k ages os, timed now k ages os -> tidy now l1 l2 n k ages os ->
  exists k' ages' os', timed now k' ages' (os ++ os') /\ tidy now l1 l2 0 k' ages' (os ++ os').
Proof.
  induction n as [|n IH]; intros k ages os H T; [exists k, ages, []; rewrite app_nil_r; auto|].
  destruct (goes _ _ _ _ KRun H I I) as (k1 & o1 & E1 & H1). assert (T1 := tidy_step _ _ _ n _ _ _ KRun _ _ H I I E1 T).
  destruct (IH _ _ _ H1 T1) as (k2 & ages2 & os2 & H2 & T2). exists k2, ages2, (map (pair now) o1 ++ os2). rewrite app_assoc. auto.
Qed.

(** ** The closures of the channel *)
Lemma channel_closures K now l1 l2 n q1 : forall k ages os q2, cc_queue (st_channel k) = q1 ++ q2 -> (forall i, In i (qids q2) -> (K <= i)%nat) ->
  (K <= cc_calls (st_channel k))%nat -> timed now k ages os -> tidy now l1 l2 n k ages os ->
  exists k' ages' os', timed now k' ages' (os ++ os') /\ tidy now l1 l2 n k' ages' (os ++ os') /\
    (forall i, In i (qids (cc_queue (st_channel k'))) -> (K <= i)%nat) /\ Forall (fun x => fst x = now) os'.
Proof.
  induction q1 as [|t q1 IH]; intros k ages os q2 Hq Hl HK H T.
  - exists k, ages, []. rewrite app_nil_r. split; [exact H|]. split; [exact T|]. split; [rewrite Hq; exact Hl|constructor].
  - destruct (goes _ _ _ _ (KChannel CRun) H I I) as (k1 & o1 & E1 & H1). assert (T1 := tidy_step _ _ _ n _ _ _ (KChannel CRun) _ _ H I I E1 T).
    assert (G := grows _ _ _ _ _ _ _ H E1). cbn [stack_step client_step] in E1. rewrite Hq in E1. cbn [app obind] in E1.
    destruct (run_ctask _ _ _ _) as [[s1 z1] o2] eqn:Er. cbn [obind] in E1. injection E1 as <- Eo.
    destruct (run_adds _ _ _ _ _ _ _ _ Er) as (q' & Hq' & Hn). rewrite <- app_assoc in Hq'.
    assert (Hl' : forall i, In i (qids (q2 ++ q')) -> (K <= i)%nat) by (intros i Hi; rewrite qids_app in Hi; apply in_app_or in Hi as [Hi|Hi]; [auto|apply Hn in Hi; lia]).
    assert (HK' := gr_calls _ _ _ G). cbn [st_channel] in HK'. assert (HK2 : (K <= cc_calls s1)%nat) by lia.
    destruct (IH {| st_channel := s1; st_rest := with_log (close_sessions z1 o2) [] |} _ _ (q2 ++ q') Hq' Hl' HK2 H1 T1) as (k2 & ages2 & os2 & H2 & T2 & Hk & Hf).
    exists k2, ages2, (map (pair now) o1 ++ os2). rewrite app_assoc. split; [exact H2|]. split; [exact T2|]. split; [exact Hk|].
    apply Forall_app. split; [|exact Hf]. apply Forall_forall. intros [c x] Hx. apply in_kstamp in Hx. apply Hx.
Qed.

(** ** Time passes *)
Definition all_waits (os : list kstamped) : list (nat * nat) :=
  flat_map (fun x => match snd x with Polled j (Wait t _) => [(j, t)] | _ => [] end) os.

Lemma tidied now k ages os : timed now k ages os ->
  tidy now (cc_armed (st_channel k) ++ cc_expired (st_channel k)) (all_waits os) (List.length ages) k ages os.
Proof.
  intros H. constructor; [auto| |rewrite skipn_all; constructor].
  intros j a t f Hin _. left. apply in_flat_map. exists (a, Polled j (Wait t f)). split; [exact Hin|left; reflexivity].
Qed.

Lemma session_time_passes now k ages os : 0 < eps -> timed now k ages os -> exists k' ages' os', timed (now + 1) k' ages' (os ++ os').
Proof.
  intros Heps H. destruct (channel_timers _ _ _ _ _ _ _ H (tidied _ _ _ _ H)) as (k1 & ages1 & os1 & H1 & T1).
  destruct (poll_timers _ _ _ _ _ _ _ H1 T1) as (k2 & ages2 & os2 & H2 & T2). destruct (closures _ _ _ _ _ _ _ H2 T2) as (k3 & ages3 & os3 & H3 & T3).
  destruct (channel_closures (cc_calls (st_channel k3)) _ _ _ _ _ _ _ _ [] (eq_sym (app_nil_r _)) ltac:(intros i []) (le_n _) H3 T3) as (k4 & ages4 & os4 & H4 & T4 & Hk & Hf).
  exists k4, ages4, (os1 ++ os2 ++ os3 ++ os4). rewrite <- !app_assoc in *.
  assert (C := core_of _ _ _ _ H3). apply (SPasses _ _ _ now); [exact H4|lia|]. split; [split|split].
  - intros c i q Hi Hq. apply Hk in Hq. apply in_channel_stamps in Hi. rewrite !app_assoc in Hi. apply in_app_or in Hi as [Hi|Hi].
    + exfalso. rewrite <- !app_assoc in Hi. assert (Hx : In i (called_ids (of_channel (map snd (os ++ os1 ++ os2 ++ os3))))) by (apply in_called; exists q; apply in_channel; apply in_kstamped; eauto).
      rewrite (co_called _ _ C) in Hx. apply in_seq in Hx. lia.
    + rewrite Forall_forall in Hf. apply Hf in Hi. cbn [fst] in Hi. lia.
  - intros a i t d Hi Hx. apply in_channel_stamps in Hi. destruct (ty_channel _ _ _ _ _ _ _ T4 _ _ _ _ Hi Hx) as [[]|[X|X]]; lia.
  - apply Forall_forall. intros c Hc. assert (X := ty_queue _ _ _ _ _ _ _ T4). cbn [skipn] in X. rewrite Forall_forall in X. apply X in Hc. lia.
  - intros a j t f p Hi Hp Ht. destruct (ty_polls _ _ _ _ _ _ _ T4 _ _ t _ Hi) as [[]|[X|X]]; [|lia|lia].
    unfold at_poll, sched_at, timers. rewrite Hp. exact Ht.
Qed.

Lemma session_time_goes_on now k ages os : 0 < eps -> timed now k ages os -> forall n, exists k' ages' os', timed (now + N.of_nat n) k' ages' (os ++ os').
Proof.
  intros Heps H n. induction n as [|n (k1 & ages1 & os1 & H1)].
  - exists k, ages, []. rewrite app_nil_r. replace (now + N.of_nat 0) with now by lia. exact H.
  - destruct (session_time_passes _ _ _ _ Heps H1) as (k2 & ages2 & os2 & H2). exists k2, ages2, (os1 ++ os2).
    rewrite app_assoc. replace (now + N.of_nat (S n)) with (now + N.of_nat n + 1) by lia. exact H2.
Qed.

Theorem session_time_reaches now k ages os later : 0 < eps -> timed now k ages os -> now <= later ->
  exists k' ages' os', timed later k' ages' (os ++ os').
Proof.
  intros Heps H Hle. destruct (session_time_goes_on _ _ _ _ Heps H (N.to_nat (later - now))) as (k' & ages' & os' & H').
  exists k', ages', os'. replace later with (now + N.of_nat (N.to_nat (later - now))) by lia. exact H'.
Qed.
End Run.
