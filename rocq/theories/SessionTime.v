(** Proofs about the times at which scheduled requests are repeated and users are told
    something. *)
From Verif Require Import Prelude Ser4 Messages Mbap SpecPdu SpecMbap Client SpecClient ClientFacts ClientView SpecClientTime ClientTime
  Scheduled SpecScheduled ScheduledFacts ScheduledLemmas SessionCall Session SpecSession SessionLift SessionFacts SessionPolls SessionInv SessionLemmas SpecSessionTime.
From Coq Require Import Lia.

Section Moves.
Context {W : Type}.
Context (user : users W).
Implicit Type z : sessions W.

Definition sched_at z (j : nat) : sched := match nth_error (ks_polls z) j with Some p => po_sched p | None => sched_init 0 end.
Definition timers (s : sched) : list nat := sr_armed s ++ sr_expired s.

(** [j] was created and waits for its start. *)
Definition starting z (j : nat) : Prop :=
  nth_error (ks_polls z) j <> None /\ sr_running (sched_at z j) = false /\ exists q, sr_queue (sched_at z j) = Start :: q.

(** What an API call, or a handler, can change about scheduled request [j]. *)
Record moved (j : nat) z z' (l : list koutput) : Prop := {
  mv_log : ks_log z' = ks_log z ++ l;
  mv_new : forall t, In t (timers (sched_at z' j)) -> In t (timers (sched_at z j)) \/ exists f, In (Polled j (Wait t f)) l;
  mv_old : incl (timers (sched_at z j)) (timers (sched_at z' j));
  mv_expired : sr_expired (sched_at z' j) = sr_expired (sched_at z j);
  mv_out : incl (sr_outstanding (sched_at z' j)) (sr_outstanding (sched_at z j));
  mv_response : forall n v, In (Polled j (Response n v)) l -> In n (sr_outstanding (sched_at z j));
  mv_only : forall o, In (Polled j o) l -> (exists n v, o = Response n v) \/ exists t f, o = Wait t f;
  mv_running : sr_running (sched_at z' j) = sr_running (sched_at z j);
  mv_posted : nth_error (ks_polls z) j <> None -> exists q, sr_queue (sched_at z' j) = sr_queue (sched_at z j) ++ q;
  mv_exists : nth_error (ks_polls z) j <> None -> nth_error (ks_polls z') j <> None;
  mv_queue : exists q, ks_queue z' = ks_queue z ++ q /\ (In (RunPoll j) q -> existsb (concerns j) l = true);
  mv_waits : forall t f, In (Polled j (Wait t f)) l -> In t (timers (sched_at z' j));
  mv_scheduled : forall x r t f, In (Scheduled j x r t f) l -> starting z' j /\ exists q q', ks_queue z' = ks_queue z ++ q ++ RunPoll j :: q'
}.

Lemma moved_starting j z z' l : moved j z z' l -> starting z j -> starting z' j.
Proof.
  intros M (X & R & (q & Q)). split; [exact (mv_exists _ _ _ _ M X)|]. split; [rewrite (mv_running _ _ _ _ M); exact R|].
  destruct (mv_posted _ _ _ _ M X) as (q' & Q'). exists (q ++ q'). rewrite Q', Q. reflexivity.
Qed.

Lemma moved_refl j z : moved j z z [].
Proof.
  constructor; try (intros; contradiction); auto using incl_refl.
  - symmetry. apply app_nil_r.
  - exists []. symmetry. apply app_nil_r.
  - exists []. split; [symmetry; apply app_nil_r|intros []].
Qed.

Lemma moved_trans j z z1 z2 l1 l2 : moved j z z1 l1 -> moved j z1 z2 l2 -> moved j z z2 (l1 ++ l2).
Proof.
  intros A B. constructor.
  - rewrite (mv_log _ _ _ _ B), (mv_log _ _ _ _ A), app_assoc. reflexivity.
  - intros t H. destruct (mv_new _ _ _ _ B _ H) as [H1|(f & H1)]; [|right; exists f; apply in_or_app; auto].
    destruct (mv_new _ _ _ _ A _ H1) as [H2|(f & H2)]; [auto|right; exists f; apply in_or_app; auto].
  - intros t H. apply (mv_old _ _ _ _ B), (mv_old _ _ _ _ A), H.
  - rewrite (mv_expired _ _ _ _ B). apply (mv_expired _ _ _ _ A).
  - intros n H. apply (mv_out _ _ _ _ A), (mv_out _ _ _ _ B), H.
  - intros n v H. apply in_app_or in H as [H|H]; [exact (mv_response _ _ _ _ A _ _ H)|]. apply (mv_out _ _ _ _ A), (mv_response _ _ _ _ B _ _ H).
  - intros o H. apply in_app_or in H as [H|H]; [exact (mv_only _ _ _ _ A _ H)|exact (mv_only _ _ _ _ B _ H)].
  - rewrite (mv_running _ _ _ _ B). apply (mv_running _ _ _ _ A).
  - intros H. destruct (mv_posted _ _ _ _ A H) as (q1 & E1). destruct (mv_posted _ _ _ _ B (mv_exists _ _ _ _ A H)) as (q2 & E2).
    exists (q1 ++ q2). rewrite E2, E1, app_assoc. reflexivity.
  - intros H. apply (mv_exists _ _ _ _ B), (mv_exists _ _ _ _ A), H.
  - destruct (mv_queue _ _ _ _ A) as (q1 & E1 & C1). destruct (mv_queue _ _ _ _ B) as (q2 & E2 & C2). exists (q1 ++ q2). split; [rewrite E2, E1, app_assoc; reflexivity|].
    intros H. rewrite existsb_app. apply in_app_or in H as [H|H]; [rewrite (C1 H)|rewrite (C2 H), Bool.orb_true_r]; reflexivity.
  - intros t f H. apply in_app_or in H as [H|H]; [apply (mv_old _ _ _ _ B), (mv_waits _ _ _ _ A _ _ H)|exact (mv_waits _ _ _ _ B _ _ H)].
  - intros x r t f H. destruct (mv_queue _ _ _ _ A) as (q1 & E1 & _). destruct (mv_queue _ _ _ _ B) as (q2 & E2 & _). apply in_app_or in H as [H|H].
    + destruct (mv_scheduled _ _ _ _ A _ _ _ _ H) as (S1 & q & q' & E). split; [exact (moved_starting _ _ _ _ B S1)|].
      exists q, (q' ++ q2). rewrite E2, E, <- !app_assoc. reflexivity.
    + destruct (mv_scheduled _ _ _ _ B _ _ _ _ H) as (S1 & q & q' & E). split; [exact S1|]. exists (q1 ++ q), q'. rewrite E, E1, <- !app_assoc. reflexivity.
Qed.

(** Nothing about its timers and requests. *)
Definition not_poll (o : koutput) : bool := match o with Polled _ _ => false | _ => true end.
Lemma in_not_poll l o : forallb not_poll l = true -> In o l -> not_poll o = true.
Proof. intros H K. rewrite forallb_forall in H. exact (H _ K). Qed.

Lemma moved_same j z z' l : ks_log z' = ks_log z ++ l -> forallb not_poll l = true ->
  timers (sched_at z' j) = timers (sched_at z j) -> sr_expired (sched_at z' j) = sr_expired (sched_at z j) ->
  sr_outstanding (sched_at z' j) = sr_outstanding (sched_at z j) -> sr_running (sched_at z' j) = sr_running (sched_at z j) ->
  (nth_error (ks_polls z) j <> None -> (exists q, sr_queue (sched_at z' j) = sr_queue (sched_at z j) ++ q) /\ nth_error (ks_polls z') j <> None) ->
  (exists q, ks_queue z' = ks_queue z ++ q /\ (In (RunPoll j) q -> existsb (concerns j) l = true)) ->
  (forall x r t f, In (Scheduled j x r t f) l -> starting z' j /\ exists q q', ks_queue z' = ks_queue z ++ q ++ RunPoll j :: q') -> moved j z z' l.
Proof.
  intros L U T E O R P Q Sc. assert (N : forall o, ~ In (Polled j o) l) by (intros o K; apply (in_not_poll _ _ U) in K; discriminate K).
  constructor; auto.
  - intros t H. left. rewrite <- T. exact H.
  - rewrite T. apply incl_refl.
  - rewrite O. apply incl_refl.
  - intros n v K. destruct (N _ K).
  - intros o K. destruct (N _ K).
  - intros H. apply P. exact H.
  - intros H. apply P. exact H.
  - intros t f K. destruct (N _ K).
Qed.

Definition quiet_about_polls (o : koutput) : bool := match o with Polled _ _ | Scheduled _ _ _ _ _ => false | _ => true end.
Lemma moved_polls j z z' l : ks_log z' = ks_log z ++ l -> forallb quiet_about_polls l = true -> ks_polls z' = ks_polls z ->
  (exists q, ks_queue z' = ks_queue z ++ q /\ ~ In (RunPoll j) q) -> moved j z z' l.
Proof.
  intros L U P Q. rewrite forallb_forall in U. unfold sched_at. apply moved_same; auto; unfold sched_at; rewrite ?P; auto.
  - apply forallb_forall. intros o H. apply U in H. destruct o; auto.
  - intros H. split; [exists []; symmetry; apply app_nil_r|exact H].
  - destruct Q as (q & Q & N). exists q. split; [exact Q|]. intros H. destruct (N H).
  - intros x r t f H. apply U in H. discriminate H.
Qed.

Lemma set_at z j p s i : nth_error (ks_polls z) j = Some p -> sched_at (set_sched z j p s) i = if Nat.eqb i j then s else sched_at z i.
Proof.
  intros E. unfold sched_at, set_sched. cbn [ks_polls with_polls]. destruct (Nat.eqb_spec i j) as [->|N].
  - rewrite (update_this _ _ _ _ E). reflexivity.
  - destruct (nth_error (ks_polls z) i) as [q|] eqn:Q; [rewrite (update_other _ _ _ _ _ N Q); reflexivity|].
    apply nth_error_None in Q. rewrite <- (update_length _ j {| po_session := po_session p; po_request := po_request p; po_timeout := po_timeout p; po_sched := s |}) in Q.
    apply nth_error_None in Q. rewrite Q. reflexivity.
Qed.
Lemma set_exists z j p s i : nth_error (ks_polls z) i <> None -> nth_error (ks_polls (set_sched z j p s)) i <> None.
Proof.
  unfold set_sched. cbn [ks_polls with_polls]. intros H K. apply H. apply nth_error_None in K. rewrite update_length in K. apply nth_error_None. exact K.
Qed.

Lemma moved_api j z a z' c : kapi_call z a = (z', c) -> exists l, moved j z z' l.
Proof.
  intros E. apply kapi_did in E. destruct E as [a _|u t _|x r t s _|x r t f s _|i a p P|x s _|].
  - eexists. apply moved_polls; try reflexivity. exists []. split; [symmetry; apply app_nil_r|intros []].
  - eexists. apply moved_polls; try reflexivity. exists []. split; [symmetry; apply app_nil_r|intros []].
  - eexists. apply moved_polls; try reflexivity. exists []. split; [symmetry; apply app_nil_r|intros []].
  - match goal with |- exists l, moved j z ?y l => set (z' := y) end.
    exists [Asked (Schedule x r t f); Scheduled (List.length (ks_polls z)) x r t f].
    assert (P : exists p, ks_polls z' = ks_polls z ++ [p] /\ po_sched p = with_posted (sched_init f) [Start]) by (eexists; split; reflexivity).
    assert (L : ks_log z' = ks_log z ++ [Asked (Schedule x r t f); Scheduled (List.length (ks_polls z)) x r t f]) by reflexivity.
    assert (Q : exists q, ks_queue z' = ks_queue z ++ q /\ (In (RunPoll j) q -> existsb (concerns j) [Asked (Schedule x r t f); Scheduled (List.length (ks_polls z)) x r t f] = true)).
    { exists [RunPoll (List.length (ks_polls z)); Register x (List.length (ks_polls z))]. split; [subst z'; cbn; rewrite <- ?app_assoc; reflexivity|].
      intros [H|[H|[]]]; [|discriminate H]. injection H as ->. cbn. rewrite Nat.eqb_refl. reflexivity. }
    assert (Q' : exists q, ks_queue z' = ks_queue z ++ RunPoll (List.length (ks_polls z)) :: q) by (eexists; subst z'; cbn; rewrite <- ?app_assoc; reflexivity).
    clearbody z'. destruct P as (p & P & Ps).
    destruct (nth_error (ks_polls z) j) as [o|] eqn:J.
    + assert (K : nth_error (ks_polls z') j = Some o) by (rewrite P, nth_error_app1; [exact J|apply nth_error_Some; rewrite J; discriminate]).
      assert (A : sched_at z' j = sched_at z j) by (unfold sched_at; rewrite J, K; reflexivity).
      apply moved_same; rewrite ?A; try assumption; try reflexivity; [intros _; split; [exists []; symmetry; apply app_nil_r|congruence]|].
      intros x' r' t' f' [H|[H|[]]]; [discriminate H|]. injection H as H _ _ _ _. assert (nth_error (ks_polls z) j <> None) by congruence. apply nth_error_Some in H0. lia.
    + assert (A : sched_at z j = sched_init 0) by (unfold sched_at; rewrite J; reflexivity).
      assert (A' : sched_at z' j = sched_init 0 \/ sched_at z' j = with_posted (sched_init f) [Start]).
      { unfold sched_at. rewrite P. apply nth_error_None in J. rewrite nth_error_app2 by exact J. destruct (j - List.length (ks_polls z))%nat as [|[|n]]; cbn; auto. }
      apply moved_same; rewrite ?A; try assumption; try reflexivity; try (destruct A' as [-> | ->]; reflexivity); [intros K; destruct (K J)|].
      intros x' r' t' f' [H|[H|[]]]; [discriminate H|]. injection H as H _ _ _ _. destruct Q' as (q' & Q'). split; [|exists [], q'; rewrite <- H; exact Q'].
      assert (K : nth_error (ks_polls z') j = Some p) by (rewrite P, <- H, nth_error_app2, Nat.sub_diag by apply le_n; reflexivity).
      split; [congruence|]. unfold sched_at. rewrite K, Ps. split; [reflexivity|]. exists []. reflexivity.
  - eexists. apply moved_same; try reflexivity.
    1-4: change (sched_at (kpost (set_sched (show z [Asked (OnSchedule i a)]) i p (with_posted (po_sched p) [a])) [RunPoll i]) j)
           with (sched_at (set_sched (show z [Asked (OnSchedule i a)]) i p (with_posted (po_sched p) [a])) j);
         rewrite (set_at (show z [Asked (OnSchedule i a)]) i p _ j P); destruct (Nat.eqb_spec j i) as [->|N]; [unfold sched_at; rewrite P|]; reflexivity.
    + intros H. split; [|apply (set_exists (show z [Asked (OnSchedule i a)])); exact H].
      change (sched_at (kpost (set_sched (show z [Asked (OnSchedule i a)]) i p (with_posted (po_sched p) [a])) [RunPoll i]) j)
        with (sched_at (set_sched (show z [Asked (OnSchedule i a)]) i p (with_posted (po_sched p) [a])) j).
      rewrite (set_at (show z [Asked (OnSchedule i a)]) i p _ j P). destruct (Nat.eqb_spec j i) as [->|N].
      * unfold sched_at. rewrite P. eexists. reflexivity.
      * exists []. symmetry. apply app_nil_r.
    + exists [RunPoll i]. split; [reflexivity|]. intros [H|[]]. injection H as ->. cbn. rewrite Nat.eqb_refl. reflexivity.
    + intros x' r' t' f' [H|[]]. discriminate H.
  - eexists. apply moved_polls; try reflexivity. eexists. split; [reflexivity|]. intros [H|[]]. discriminate H.
  - eexists. apply moved_polls; try reflexivity. exists []. split; [symmetry; apply app_nil_r|intros []].
Qed.

Lemma moved_apis j l : forall z z' c, kapi_calls z l = (z', c) -> exists l', moved j z z' l'.
Proof.
  induction l as [|a l IH]; intros z z' c; cbn [kapi_calls]; [intros E; injection E as <- <-; exists []; apply moved_refl|].
  destruct (kapi_call z a) as [z1 c1] eqn:E1. destruct (kapi_calls z1 l) as [z2 c2] eqn:E2. intros E. injection E as <- <-.
  destruct (moved_api j _ _ _ _ E1) as (l1 & M1). destruct (IH _ _ _ E2) as (l2 & M2). eexists. exact (moved_trans _ _ _ _ _ _ M1 M2).
Qed.

(** What a step of one scheduled request shows and leaves. *)
Lemma poll_step_at z i e z' c p : nth_error (ks_polls z) i = Some p -> poll_step z i e = (z', c) ->
  exists s o l, sched_step no_calls (po_sched p) tt e = (s, tt, o) /\ ks_log z' = ks_log z ++ map (Polled i) o ++ l /\ forallb quiet_about_polls l = true /\
    (forall j, sched_at z' j = if Nat.eqb j i then s else sched_at z j) /\ ks_queue z' = ks_queue z /\
    (forall j, nth_error (ks_polls z) j <> None -> nth_error (ks_polls z') j <> None).
Proof.
  intros P E. destruct (poll_polled _ _ _ _ _ _ P E) as [s o S R|s o n u S R U]; exists s, o.
  - exists []. split; [exact S|]. split; [cbn; rewrite app_nil_r; reflexivity|]. split; [reflexivity|].
    split; [intros j; apply (set_at z i p s j P)|]. split; [reflexivity|intros j; apply set_exists].
  - exists [Repeated (List.length (ks_owners z)) i n]. split; [exact S|]. split; [reflexivity|]. split; [reflexivity|].
    split; [intros j; apply (set_at z i p s j P)|]. split; [reflexivity|intros j; apply set_exists].
Qed.

Lemma moved_answer j z i n v z' c : poll_step z i (SAnswer n v) = (z', c) -> exists l, moved j z z' l.
Proof.
  intros E. destruct (nth_error (ks_polls z) i) as [p|] eqn:P; [|unfold poll_step in E; rewrite P in E; injection E as <- <-; exists []; apply moved_refl].
  destruct (poll_step_at _ _ _ _ _ _ P E) as (s & o & l & S & L & U & A & Q & X). exists (map (Polled i) o ++ l).
  rewrite forallb_forall in U. assert (Nl : forall y, ~ In (Polled j y) l) by (intros y K; apply U in K; discriminate K).
  assert (Ns : forall x r t f, ~ In (Scheduled j x r t f) (map (Polled i) o ++ l))
    by (intros x r t f K; apply in_app_or in K as [K|K]; [apply in_map_iff in K as (y & K & _); discriminate K|apply U in K; discriminate K]).
  destruct (Nat.eqb_spec j i) as [->|N].
  - assert (Ai := A i). rewrite Nat.eqb_refl in Ai. assert (Zi : sched_at z i = po_sched p) by (unfold sched_at; rewrite P; reflexivity).
    assert (In_o : forall y, In (Polled i y) (map (Polled i) o ++ l) -> In y o).
    { intros y K. apply in_app_or in K as [K|K]; [|destruct (Nl _ K)]. apply in_map_iff in K as (y' & K & H). injection K as ->. exact H. }
    assert (Mk : forall y, In y o -> In (Polled i y) (map (Polled i) o ++ l)) by (intros y K; apply in_or_app; left; apply in_map; exact K).
    assert (Sq : sr_queue s = sr_queue (po_sched p)).
    { unfold sched_step, on_answer, no_calls, with_posted in S. destruct (existsb _ _); [|injection S as <- _; reflexivity]. cbn [sr_running] in S.
      destruct (sr_running (po_sched p)); injection S as <- _; cbn; apply app_nil_r. }
    apply (step_trans no_calls) in S. destruct (po_sched p) as [run f tm q ar ex out nt nr] eqn:Es.
    constructor; rewrite ?Ai, ?Zi; auto; try (clear A Ai; inversion S; subst; cbn; auto using incl_refl; fail).
    + intros t H. unfold timers in *. clear A Ai; inversion S; subst; cbn in H |- *; try (left; exact H).  rewrite <- app_assoc in H. apply in_app_or in H as [H|[H|H]].
      * left. apply in_or_app. auto.
      * right. exists f. subst t. right. left. reflexivity.
      * left. apply in_or_app. auto.
    + clear A Ai; inversion S; subst; unfold timers; cbn; try apply incl_refl. intros t H. rewrite <- app_assoc. apply in_app_or in H as [H|H]; apply in_or_app; [auto|right; right; exact H].
    + clear A Ai; inversion S; subst; cbn; try apply incl_refl; intros y H; apply in_without in H; apply H.
    + intros m w H. apply In_o in H. clear A Ai; inversion S; subst; cbn in H |- *; repeat destruct H as [H|H]; try discriminate H; try contradiction; injection H as <- <-; assumption.
    + intros y H. apply In_o in H. clear A Ai; inversion S; subst; cbn in H; repeat destruct H as [<-|H]; try contradiction; eauto.
    + intros _. exists []. rewrite app_nil_r. exact Sq.
    + exists []. split; [rewrite app_nil_r; exact Q|intros []].
    + intros t g H. apply In_o in H. unfold timers. clear A Ai; inversion S; subst; cbn in H |- *; repeat destruct H as [H|H]; try discriminate H; try contradiction.
      injection H as <- <-. apply in_or_app. left. apply in_or_app. right. left. reflexivity.
    + intros x r t g H. destruct (Ns _ _ _ _ H).
  - assert (Aj := A j). destruct (Nat.eqb_spec j i) as [->|_]; [destruct (N eq_refl)|].
    assert (No : forall y, ~ In (Polled j y) (map (Polled i) o ++ l)).
    { intros y K. apply in_app_or in K as [K|K]; [|exact (Nl _ K)]. apply in_map_iff in K as (y' & K & _). injection K as K _. congruence. }
    constructor; rewrite ?Aj; auto using incl_refl.
    + intros m w K. destruct (No _ K).
    + intros y K. destruct (No _ K).
    + intros _. exists []. symmetry. apply app_nil_r.
    + exists []. split; [rewrite app_nil_r; exact Q|intros []].
    + intros t g K. destruct (No _ K).
    + intros x r t g H. destruct (Ns _ _ _ _ H).
Qed.

Lemma moved_completion j i z x z' c : on_completion user i z x = (z', c) -> exists l, moved j z z' l.
Proof.
  assert (B : moved j z (with_bad z) []) by (apply moved_polls; try reflexivity; [symmetry; apply app_nil_r|exists []; split; [symmetry; apply app_nil_r|intros []]]).
  unfold on_completion. intros E. destruct (nth_error (ks_owners z) i) as [[r|i' n]|]; [| |injection E as <- <-; exists []; apply moved_refl].
  - destruct (session_result r x) as [v|]; [|injection E as <- <-; exists []; exact B].
    destruct (user (Once i) (ks_user z) v) as [w calls]. destruct (moved_apis j _ _ _ _ E) as (l & M). exists ([Answered i v] ++ l).
    refine (moved_trans _ _ _ _ _ _ _ M). apply moved_polls; try reflexivity. exists []. split; [symmetry; apply app_nil_r|intros []].
  - destruct (nth_error (ks_polls z) i') as [p|]; [|injection E as <- <-; exists []; apply moved_refl].
    destruct (session_result (po_request p) x) as [v|]; [|injection E as <- <-; exists []; exact B].
    destruct (user (Polling i' n) (ks_user z) v) as [w calls]. destruct (poll_step _ i' _) as [z1 c1] eqn:E1. destruct (kapi_calls z1 calls) as [z2 c2] eqn:E2. injection E as <- <-.
    destruct (moved_answer j _ _ _ _ _ _ E1) as (l1 & M1). destruct (moved_apis j _ _ _ _ E2) as (l2 & M2). exists ([] ++ l1 ++ l2).
    refine (moved_trans _ _ _ _ _ _ _ (moved_trans _ _ _ _ _ _ M1 M2)). apply moved_polls; try reflexivity; [symmetry; apply app_nil_r|exists []; split; [symmetry; apply app_nil_r|intros []]].
Qed.

Lemma moved_walk j l : forall z z' script, walk (on_completion user) z l = (z', script) -> exists l', moved j z z' l'.
Proof.
  induction l as [|[i x] l IH]; intros z z' script; cbn [walk]; [intros E; injection E as <- <-; exists []; apply moved_refl|].
  destruct (on_completion user i z x) as [z1 c1] eqn:E1. destruct (walk _ z1 l) as [z2 c2] eqn:E2. intros E. injection E as <- <-.
  destruct (moved_completion j _ _ _ _ _ E1) as (l1 & M1). destruct (IH _ _ _ E2) as (l2 & M2). eexists. exact (moved_trans _ _ _ _ _ _ M1 M2).
Qed.

Lemma moved_close j z o : exists l, moved j z (close_sessions z o) l.
Proof.
  unfold close_sessions. destruct (existsb _ o); [|exists []; apply moved_refl].
  destruct (kapi_calls (with_closed z) (map CloseSession (ks_open z))) as [z1 c1] eqn:E. cbn [fst]. destruct (moved_apis j _ _ _ _ E) as (l & M). exists ([] ++ l).
  refine (moved_trans _ _ _ _ _ _ _ M). apply moved_polls; try reflexivity; [symmetry; apply app_nil_r|exists []; split; [symmetry; apply app_nil_r|intros []]].
Qed.

(** ** One step of everything, seen from scheduled request [j] *)
Definition at_poll (k : stack W) (j : nat) : sched := sched_at (st_rest k) j.

Record stepped (j : nat) (k : stack W) (e : kevent) (k' : stack W) (o : list koutput) : Prop := {
  sp_new : forall t, In t (timers (at_poll k' j)) -> In t (timers (at_poll k j)) \/ exists f, In (Polled j (Wait t f)) o;
  sp_expired : forall t, In t (sr_expired (at_poll k' j)) -> In t (sr_expired (at_poll k j)) \/ (e = KExpire j t /\ In t (sr_armed (at_poll k j)));
  sp_old : forall t, In t (timers (at_poll k j)) -> In t (timers (at_poll k' j)) \/
    (e = KFire j t /\ In t (sr_expired (at_poll k j)) /\ exists n, In (Polled j (Request n)) o) \/ In (Polled j Stopped) o;
  sp_request : forall a n b, o = a ++ Polled j (Request n) :: b ->
    (exists a', a = a' ++ [Polled j Started]) \/ exists t, e = KFire j t /\ In t (sr_expired (at_poll k j));
  sp_response : forall n v, In (Polled j (Response n v)) o -> In n (sr_outstanding (at_poll k j));
  sp_queue : exists q, ks_queue (st_rest k') = match e with KRun => tl (ks_queue (st_rest k)) | _ => ks_queue (st_rest k) end ++ q /\
    (In (RunPoll j) q -> existsb (concerns j) o = true);
  sp_start : starting (st_rest k) j -> (In (Polled j Started) o /\ exists n, In (Polled j (Request n)) o) \/
    (starting (st_rest k') j /\ (e = KRun -> hd_error (ks_queue (st_rest k)) <> Some (RunPoll j)));
  sp_waits : forall t f, In (Polled j (Wait t f)) o -> In t (timers (at_poll k' j));
  sp_scheduled : forall x r t f, In (Scheduled j x r t f) o -> starting (st_rest k') j /\
    exists q q', ks_queue (st_rest k') = match e with KRun => tl (ks_queue (st_rest k)) | _ => ks_queue (st_rest k) end ++ q ++ RunPoll j :: q'
}.

Lemma in_channel_polled j y o1 l : In (Polled j y) (map Channel o1 ++ l) <-> In (Polled j y) l.
Proof. rewrite in_app_iff. split; [|auto]. intros [H|H]; [|exact H]. apply in_map_iff in H as (x & H & _). discriminate H. Qed.

Lemma stepped_moved j k e s z l o1 : moved j (match e with KRun => with_kqueue (st_rest k) (tl (ks_queue (st_rest k))) | _ => st_rest k end) z l ->
  (e = KRun -> hd_error (ks_queue (st_rest k)) <> Some (RunPoll j)) ->
  stepped j k e {| st_channel := s; st_rest := with_log z [] |} (map Channel o1 ++ l).
Proof.
  intros M Hd. assert (A : forall q, sched_at (with_kqueue (st_rest k) q) j = at_poll k j) by reflexivity.
  assert (A' : at_poll {| st_channel := s; st_rest := with_log z [] |} j = sched_at z j) by reflexivity.
  assert (B : sched_at (match e with KRun => with_kqueue (st_rest k) (tl (ks_queue (st_rest k))) | _ => st_rest k end) j = at_poll k j) by (destruct e; reflexivity).
  assert (N : forall y, In (Polled j y) (map Channel o1 ++ l) -> (exists n v, y = Response n v) \/ exists t f, y = Wait t f)
    by (intros y H; apply in_channel_polled in H; exact (mv_only _ _ _ _ M _ H)).
  constructor; rewrite ?A'.
  - intros t H. apply (mv_new _ _ _ _ M) in H. rewrite B in H. destruct H as [H|(f & H)]; [auto|right; exists f; apply in_channel_polled; exact H].
  - intros t H. rewrite (mv_expired _ _ _ _ M), B in H. auto.
  - intros t H. left. apply (mv_old _ _ _ _ M). rewrite B. exact H.
  - intros a n b E. destruct (N (Request n)) as [(m & v & X)|(t & f & X)]; [rewrite E; apply in_or_app; right; left; reflexivity|discriminate X..].
  - intros n v H. apply in_channel_polled in H. apply (mv_response _ _ _ _ M) in H. rewrite B in H. exact H.
  - destruct (mv_queue _ _ _ _ M) as (q & Q & Cq). exists q. split; [cbn [st_rest with_log ks_queue]; rewrite Q; destruct e; reflexivity|].
    intros H. rewrite existsb_app, (Cq H). apply Bool.orb_true_r.
  - intros St. right. split; [|exact Hd].
    assert (St' : starting (match e with KRun => with_kqueue (st_rest k) (tl (ks_queue (st_rest k))) | _ => st_rest k end) j) by (destruct e; exact St).
    exact (moved_starting _ _ _ _ M St').
  - intros t f H. apply in_channel_polled in H. exact (mv_waits _ _ _ _ M _ _ H).
  - intros x r t f H. assert (H' : In (Scheduled j x r t f) l).
    { apply in_app_or in H as [H|H]; [|exact H]. apply in_map_iff in H as (y & H & _). discriminate H. }
    destruct (mv_scheduled _ _ _ _ M _ _ _ _ H') as (S1 & q & q' & E). split; [exact S1|]. exists q, q'. cbn [st_rest with_log ks_queue]. rewrite E. destruct e; reflexivity.
Qed.

(** A step of one scheduled request. *)
Lemma stepped_poll j k e z0 i se z c s o1 : ks_polls z0 = ks_polls (st_rest k) -> ks_log z0 = [] ->
  ks_queue z0 = match e with KRun => tl (ks_queue (st_rest k)) | _ => ks_queue (st_rest k) end ->
  (se = SRun /\ e = KRun /\ hd_error (ks_queue (st_rest k)) = Some (RunPoll i)) \/ (exists t, se = SExpire t /\ e = KExpire i t) \/ (exists t, se = SFire t /\ e = KFire i t) ->
  poll_step z0 i se = (z, c) -> stepped j k e {| st_channel := s; st_rest := with_log z [] |} (map Channel o1 ++ ks_log z).
Proof.
  intros P0 L0 Q0 D E. assert (A' : at_poll {| st_channel := s; st_rest := with_log z [] |} j = sched_at z j) by reflexivity.
  assert (Z0 : sched_at z0 j = at_poll k j) by (unfold at_poll, sched_at; rewrite P0; reflexivity).
  destruct (nth_error (ks_polls z0) i) as [p|] eqn:P.
  2: { unfold poll_step in E. rewrite P in E. injection E as <- <-. rewrite L0, app_nil_r.
    assert (N : forall y, ~ In (Polled j y) (map Channel o1)) by (intros y H; apply in_map_iff in H as (x & H & _); discriminate H).
    constructor; rewrite ?A', ?Z0; auto.
    - intros a n b X. destruct (N (Request n)). rewrite X. apply in_or_app. right. left. reflexivity.
    - intros n v H. destruct (N _ H).
    - exists []. split; [rewrite app_nil_r; exact Q0|intros []].
    - intros (X & R & Q). right. split; [split; [cbn; rewrite P0; exact X|]; unfold at_poll in Z0; cbn [st_rest]; change (sched_at (with_log z0 []) j) with (sched_at z0 j); rewrite Z0; split; [exact R|exact Q]|]. intros -> H.
      destruct D as [(_ & _ & D)|[(t & _ & D)|(t & _ & D)]]; [|discriminate D..]. rewrite H in D. injection D as <-. apply X. rewrite <- P0. exact P.
    - intros t f H. destruct (N _ H).
    - intros x r t f H. apply in_map_iff in H as (y & H & _). discriminate H. }
  destruct (poll_step_at _ _ _ _ _ _ P E) as (s1 & o & l & S & L & U & A & Q & X). rewrite L0 in L. cbn [app] in L. rewrite L.
  assert (Ns' : forall x r t f, ~ In (Scheduled j x r t f) (map Channel o1 ++ map (Polled i) o ++ l)).
  { intros x r t f K. rewrite forallb_forall in U. apply in_app_or in K as [K|K]; [apply in_map_iff in K as (y & K & _); discriminate K|].
    apply in_app_or in K as [K|K]; [apply in_map_iff in K as (y & K & _); discriminate K|apply U in K; discriminate K]. }
  rewrite forallb_forall in U. assert (Nl : forall y, ~ In (Polled j y) l) by (intros y K; apply U in K; discriminate K).
  assert (Ns : forall x r t f, ~ In (Scheduled j x r t f) (map (Polled i) o ++ l))
    by (intros x r t f K; apply in_app_or in K as [K|K]; [apply in_map_iff in K as (y & K & _); discriminate K|apply U in K; discriminate K]).
  destruct (Nat.eqb_spec j i) as [->|N].
  - assert (Ai := A i). rewrite Nat.eqb_refl in Ai. assert (Zi : at_poll k i = po_sched p) by (rewrite <- Z0; unfold sched_at; rewrite P; reflexivity).
    assert (In_o : forall y, In (Polled i y) (map Channel o1 ++ map (Polled i) o ++ l) <-> In y o).
    { intros y. rewrite in_channel_polled, in_app_iff. split; [intros [K|K]; [|destruct (Nl _ K)]|intros K; left; apply in_map; exact K].
      apply in_map_iff in K as (y' & K & H). injection K as ->. exact H. }
    assert (Start_o : sr_running (po_sched p) = false -> (exists q, sr_queue (po_sched p) = Start :: q) -> 
      (In Started o /\ exists n, In (Request n) o) \/ (se <> SRun /\ sr_running s1 = false /\ exists q, sr_queue s1 = Start :: q)).
    { intros R (q & Qs). destruct D as [(-> & _)|[(t & -> & _)|(t & -> & _)]]; cbn [sched_step] in S.
      - rewrite Qs in S. cbn [run_sapi with_squeue sr_running] in S. rewrite R in S. cbn in S. injection S as _ <-. left. split; [left; reflexivity|]. eexists. right. left. reflexivity.
      - right. split; [discriminate|]. destruct (existsb _ _); injection S as <- _; cbn; eauto.
      - right. split; [discriminate|]. destruct (existsb _ _); [|injection S as <- _; eauto]. cbn in S. injection S as <- _. cbn. eauto. }
    assert (S' := step_trans no_calls _ _ _ _ _ _ S). clear S.
    assert (Rq : forall a n b, map Channel o1 ++ map (Polled i) o ++ l = a ++ Polled i (Request n) :: b ->
      exists oa ob, o = oa ++ Request n :: ob /\ a = map Channel o1 ++ map (Polled i) oa).
    { intros a n b. clear -Nl. revert a. induction o1 as [|y o1 IH]; intros a; cbn [map app].
      - revert a. induction o as [|y o IH]; intros a; cbn [map app].
        + intros Eq. destruct (Nl (Request n)). rewrite Eq. apply in_or_app. right. left. reflexivity.
        + destruct a as [|x a]; cbn [app]; intros Eq; injection Eq as E1 E2.
          * subst y. exists [], o. auto.
          * destruct (IH _ E2) as (oa & ob & -> & ->). exists (y :: oa), ob. subst x. auto.
      - destruct a as [|x a]; cbn [app]; intros Eq; [discriminate Eq|]. injection Eq as E1 E2. destruct (IH _ E2) as (oa & ob & -> & ->). exists oa, ob. subst x. auto. }
    destruct (po_sched p) as [run f tm q ar ex out nt nr] eqn:Es.
    constructor; rewrite ?A', ?Ai, ?Zi.
    + intros t H. clear A Ai A'. unfold timers in *. destruct D as [(-> & -> & _)|[(u & -> & ->)|(u & -> & ->)]]; inversion S'; subst; cbn in H |- *; auto.
      * left. apply in_app_or in H as [H|H]; apply in_or_app; [|auto]. left. destruct tm; [|exact H]. apply in_without in H. apply H.
      * left. apply in_app_or in H as [H|H]; [apply in_without in H; apply in_or_app; left; apply H|]. apply in_app_or in H as [H|[<-|[]]]; apply in_or_app; auto.
      * left. apply in_app_or in H as [H|H]; [apply in_or_app; auto|]. apply in_without in H. apply in_or_app. right. apply H.
    + intros t H. clear A Ai A'. destruct D as [(-> & -> & _)|[(u & -> & ->)|(u & -> & ->)]]; inversion S'; subst; cbn in H |- *; auto.
      * apply in_app_or in H as [H|[<-|[]]]; auto.
      * apply in_without in H. left. apply H.
    + intros t H. clear A Ai A'. unfold timers in *. destruct D as [(-> & -> & _)|[(u & -> & ->)|(u & -> & ->)]]; inversion S'; subst; cbn in H |- *; auto.
      * right. right. apply (In_o Stopped). left. reflexivity.
      * left. destruct (Nat.eq_dec t u) as [->|Nu]; [apply in_or_app; right; apply in_or_app; right; left; reflexivity|].
        apply in_app_or in H as [H|H]; apply in_or_app; [left; apply in_without; auto|right; apply in_or_app; auto].
      * destruct (Nat.eq_dec t u) as [->|Nu].
        { right. left. split; [reflexivity|]. split; [assumption|]. exists nr. apply (In_o (Request nr)). left. reflexivity. }
        left. apply in_app_or in H as [H|H]; apply in_or_app; [auto|right; apply in_without; auto].
    + intros a n b Eq. apply Rq in Eq as (oa & ob & Eo & ->). clear A Ai A'. 
      assert (Es' : match oa with [] => True | [y] => y = Started | _ => False end /\ (oa = [] -> exists t, se = SFire t /\ In t ex)).
      { clear -S' Eo D. rewrite Eo in S'. clear Eo. destruct oa as [|y [|y' oa]]; cbn [app] in S'; destruct D as [(-> & -> & _)|[(u & -> & ->)|(u & -> & ->)]]; inversion S'; subst;
          try (split; [exact Logic.I|]; intros _; eauto; fail); try (split; [reflexivity|intros K; discriminate K]);
          match goal with K : [] = _ ++ _ :: _ |- _ => destruct oa; discriminate K end. }
      destruct oa as [|y [|y' oa]]; [|destruct Es' as [-> _]; left; exists (map Channel o1); reflexivity|destruct Es' as [[] _]].
      right. destruct (proj2 Es' eq_refl) as (t & -> & Ht). destruct D as [(D & _)|[(u & D & _)|(u & D & ->)]]; try discriminate D. injection D as ->. eauto.
    + intros n v H. apply In_o in H. clear A Ai A'. destruct D as [(-> & -> & _)|[(u & -> & ->)|(u & -> & ->)]]; inversion S'; subst; cbn in H; repeat destruct H as [H|H]; try discriminate H; contradiction.
    + exists []. split; [rewrite app_nil_r; cbn [st_rest with_log ks_queue]; rewrite Q; exact Q0|intros []].
    + intros (Xk & R & Qs). cbn [st_rest] in *. unfold at_poll in Zi. rewrite Zi in R, Qs.
      destruct (Start_o R Qs) as [[K (n & Kn)]|(K1 & K2 & K3)]; [left; split; [apply In_o; exact K|exists n; apply In_o; exact Kn]|right].
      split; [split; [apply (X i); rewrite P; discriminate|]; change (sched_at (with_log z []) i) with (sched_at z i); rewrite Ai; split; [exact K2|exact K3]|]. intros ->.
      destruct D as [(D & _)|[(u & _ & D)|(u & _ & D)]]; [contradiction|discriminate D..].
    + intros t g H. apply In_o in H. unfold timers. clear A Ai A'. destruct D as [(-> & -> & _)|[(u & -> & ->)|(u & -> & ->)]]; inversion S'; subst; cbn in H |- *; repeat destruct H as [H|H]; try discriminate H; contradiction.
    + intros x r t g H. destruct (Ns' _ _ _ _ H).
  - assert (Aj := A j). destruct (Nat.eqb_spec j i) as [->|_]; [destruct (N eq_refl)|]. rewrite Z0 in Aj.
    assert (No : forall y, ~ In (Polled j y) (map Channel o1 ++ map (Polled i) o ++ l)).
    { intros y K. apply in_channel_polled in K. apply in_app_or in K as [K|K]; [|exact (Nl _ K)]. apply in_map_iff in K as (y' & K & _). injection K as K _. congruence. }
    constructor; rewrite ?A', ?Aj; auto.
    + intros a n b Eq. destruct (No (Request n)). rewrite Eq. apply in_or_app. right. left. reflexivity.
    + intros n v K. destruct (No _ K).
    + exists []. split; [rewrite app_nil_r; cbn [st_rest with_log ks_queue]; rewrite Q; exact Q0|intros []].
    + intros (Xk & R & Qs). right. split; [split; [apply (X j); rewrite P0; exact Xk|]; change (sched_at (st_rest {| st_channel := s; st_rest := with_log z [] |}) j) with (sched_at z j); rewrite Aj; split; [exact R|exact Qs]|]. intros -> H.
      destruct D as [(_ & _ & D)|[(t & _ & D)|(t & _ & D)]]; [|discriminate D..]. rewrite H in D. injection D as D. congruence.
    + intros t g K. destruct (No _ K).
    + intros x r t g H. destruct (Ns' _ _ _ _ H).
Qed.

Lemma step_stepped pol j k e k' o : ks_log (st_rest k) = [] -> stack_step user pol k e = Ret (k', o) -> stepped j k e k' o.
Proof.
  intros L0 E. assert (None_ : forall z', moved j (st_rest k) z' [] -> forall e', e' <> KRun -> stepped j k e' {| st_channel := st_channel k; st_rest := with_log z' [] |} (map Channel [] ++ [])).
  { intros z' M e' Ne. apply stepped_moved; [destruct e'; [exact M|destruct (Ne eq_refl)|exact M..]|intros X; destruct (Ne X)]. }
  assert (Same : k = {| st_channel := st_channel k; st_rest := with_log (st_rest k) [] |}).
  { destruct k as [s z]. cbn in L0 |- *. f_equal. apply sessions_eq; try reflexivity. exact L0. }
  destruct e as [a| |i t|i t|e]; cbn [stack_step] in E.
  - destruct (kapi_call (st_rest k) a) as [z c] eqn:K. unfold Session.finish in E. destruct (capi_calls (st_channel k) c) as [s o1]. injection E as <- <-.
    destruct (moved_api j _ _ _ _ K) as (l & M). rewrite (mv_log _ _ _ _ M), L0. apply stepped_moved; [exact M|discriminate].
  - destruct (ks_queue (st_rest k)) as [|c q] eqn:Q.
    { injection E as <- <-. constructor; auto.
      - intros a n b X. destruct a; discriminate X.
      - intros n v [].
      - rewrite Q. exists []. split; [reflexivity|intros []].
      - intros X. right. rewrite Q. cbn. split; [exact X|discriminate].
      - intros t f [].
      - intros x r t f []. }
    destruct (run_kclosure (with_kqueue (st_rest k) q) c) as [z cs] eqn:K. unfold Session.finish in E. destruct (capi_calls (st_channel k) cs) as [s o1]. injection E as <- <-.
    assert (Md : forall l, moved j (with_kqueue (st_rest k) q) z l -> c <> RunPoll j -> stepped j k KRun {| st_channel := s; st_rest := with_log z [] |} (map Channel o1 ++ ks_log z)).
    { intros l M Nc. assert (Lz := mv_log _ _ _ _ M). cbn [with_kqueue ks_log] in Lz. rewrite L0 in Lz. cbn [app] in Lz. rewrite Lz.
      apply stepped_moved; rewrite Q; [exact M|]. intros _. cbn. congruence. }
    destruct c as [i|x i|x]; cbn [run_kclosure] in K.
    + eapply stepped_poll; [| | | |exact K]; try reflexivity; [exact L0|rewrite Q; reflexivity|left; rewrite Q; auto].
    + destruct (nth_error _ x) as [s0|]; injection K as <- <-.
      * apply (Md []); [|discriminate]. apply moved_polls; try reflexivity; [symmetry; apply app_nil_r|exists []; split; [symmetry; apply app_nil_r|intros []]].
      * apply (Md []); [|discriminate]. apply moved_refl.
    + destruct (nth_error _ x) as [s0|].
      * destruct (kapi_calls _ _) as [z1 c1] eqn:E1 in K. injection K as <- <-. destruct (moved_apis j _ _ _ _ E1) as (l & M). apply (Md (l ++ [])); [|discriminate].
        refine (moved_trans _ _ _ _ _ _ M _). apply moved_polls; try reflexivity; [symmetry; apply app_nil_r|exists []; split; [symmetry; apply app_nil_r|intros []]].
      * injection K as <- <-. apply (Md []); [|discriminate]. apply moved_refl.
  - destruct (poll_step (st_rest k) i (SExpire t)) as [z c] eqn:K. unfold Session.finish in E. destruct (capi_calls (st_channel k) c) as [s o1]. injection E as <- <-.
    eapply stepped_poll; [| | | |exact K]; eauto.
  - destruct (poll_step (st_rest k) i (SFire t)) as [z c] eqn:K. unfold Session.finish in E. destruct (capi_calls (st_channel k) c) as [s o1]. injection E as <- <-.
    eapply stepped_poll; [| | | |exact K]; eauto 6.
  - assert (St : (forall a, e <> CApi a) -> (let! (s, z, o) := client_step (on_completion user) pol (st_channel k) (st_rest k) e in
              let z := close_sessions z o in Ret ({| st_channel := s; st_rest := with_log z [] |}, map Channel o ++ ks_log z)) = Ret (k', o) -> stepped j k (KChannel e) k' o).
    { intros Na. destruct (client_step _ _ _ _ e) as [[[s z] o1]|] eqn:C; cbn [obind]; [|discriminate]. cbv zeta. intros X. injection X as <- <-.
      destruct (step_seen _ _ _ _ _ _ _ _ C Na) as (script & Wk & _). destruct (moved_walk j _ _ _ _ Wk) as (l1 & M1). destruct (moved_close j z o1) as (l2 & M2).
      assert (M := moved_trans _ _ _ _ _ _ M1 M2). rewrite (mv_log _ _ _ _ M), L0. apply stepped_moved; [exact M|discriminate]. }
    destruct e; [injection E as <- <-; rewrite Same at 2; apply (None_ (st_rest k)); [apply moved_refl|discriminate]|apply St; [discriminate|exact E]..].
Qed.
End Moves.
