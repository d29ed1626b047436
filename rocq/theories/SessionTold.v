(** What the handlers of sessions are told, exactly. *)
From Verif Require Import Prelude Ser4 Messages Mbap SpecPdu SpecMbap Client SpecClient MbapFacts CodecLemmas
  ClientFacts ClientLemmas ClientShutdown ClientResponses ClientOutcomes ClientView
  Scheduled SpecScheduled ScheduledFacts ScheduledLemmas SessionCall Session SpecSession
  SessionLift SessionFacts SessionPolls SessionStop SessionInv SessionLemmas.

Section Told.
Context {W : Type}.
Context (user : users W).
Context (pol : copy_policy).

Ltac into_inner H := apply (proj2 (in_inner _ _)); split; [exact H|discriminate].

(** Call [i] was made for request [r], whose answer is given to [s]. *)
Definition made_for (os : list koutput) (s : source) (i : nat) (r : request) : Prop :=
  match s with
  | Once i' => i' = i /\ exists x t, In (Issued i x r t) os
  | Polling j n => In (Repeated i j n) os /\ exists x t f, In (Scheduled j x r t f) os
  end.

(** Among the requests the sessions know. *)
Definition known (z : sessions W) (i : nat) (r : request) : Prop :=
  nth_error (ks_owners z) i = Some (ByUser r) \/ exists p, In p (ks_polls z) /\ po_request p = r.

Lemma telling_source es k os s v : stack_history user pol es k os -> In (s, v) (tellings os) ->
  exists i y r u t, In (Channel (Completed i y)) os /\ session_result r y = Ret v /\ In (Channel (Called i (session_call u r t))) os /\
    known (st_rest k) i r /\ made_for os s i r.
Proof.
  intros H Hin. destruct (sessions_inv _ _ _ _ _ H) as [[R Y A] _ _].
  apply in_flat_map in Hin as (o & Ho & Hs). destruct o as [c|a|x u t|i x r t|i v'|j x r t f|j o|i j n]; try contradiction.
  - destruct Hs as [E|[]]. injection E as <- <-.
    assert (Hin' : In (Answered i v') (inner os)) by into_inner Ho. apply in_answers in Hin'. rewrite (an_user _ _ _ A) in Hin'.
    apply in_flat_map in Hin'. destruct Hin' as ([i' y] & HD & Hv). unfold answer_of in Hv. cbn [fst snd] in Hv.
    destruct (nth_error (ks_owners (st_rest k)) i') as [[r|j n]|] eqn:Eo; try contradiction.
    destruct (session_result r y) as [v|] eqn:Ev; [|contradiction]. destruct Hv as [E|[]]. injection E as -> ->.
    destruct (rg_owner _ _ _ R _ _ Eo) as (x & t & s & K1 & K2 & K3). exists i, y, r, (ss_unit s), (timeout_or t (ss_timeout s)).
    apply (in_results scripted) in HD. split; [apply in_channel; exact HD|]. split; [exact Ev|].
    split; [apply in_channel; exact (nth_call _ 0 _ _ (sessions_calls _ _ _ _ _ H) K3)|]. split; [left; exact Eo|]. split; [reflexivity|].
    exists x, t. apply (proj1 (in_inner _ _) K1).
  - destruct o as [|n v'| | | |]; try contradiction. destruct Hs as [E|[]]. injection E as <- <-.
    assert (Hin' : In (Polled j (Response n v')) (inner os)) by into_inner Ho. apply (an_poll _ _ _ A) in Hin'.
    destruct Hin' as (i & y & p & HD & Eo & Ep & Ev). destruct (rg_owner _ _ _ R _ _ Eo) as (K1 & _).
    destruct (repeated_owner _ _ _ _ _ _ R K1) as (_ & p' & s & Ep' & _ & K3). rewrite Ep in Ep'. injection Ep' as <-.
    destruct (rg_sched _ _ _ R _ _ Ep) as (t & f & _ & K4 & _).
    exists i, y, (po_request p), (ss_unit s), (po_timeout p). apply (in_results scripted) in HD. split; [apply in_channel; exact HD|].
    split; [exact Ev|]. split; [apply in_channel; exact (nth_call _ 0 _ _ (sessions_calls _ _ _ _ _ H) K3)|].
    split; [right; exists p; split; [eapply nth_error_In; eauto|reflexivity]|]. split; [apply (proj1 (in_inner _ _) K1)|].
    exists (po_session p), t, f. apply (proj1 (in_inner _ _) K4).
Qed.

(** The call that was made for a request. *)
Lemma made_call es k os s i r : stack_history user pol es k os -> made_for os s i r ->
  known (st_rest k) i r /\ exists x u d c, In (Opened x u d) os /\ k_unit c = u /\ k_msg c = request_message r /\ In (Channel (Called i c)) os.
Proof.
  intros H M. destruct (sessions_inv _ _ _ _ _ H) as [[R Y A] _ _]. destruct s as [i'|j n]; cbn [made_for] in M.
  - destruct M as (-> & x & t & Hi). assert (Hi' : In (Issued i x r t) (inner os)) by into_inner Hi.
    destruct (issued_owner _ _ _ _ _ _ _ R Hi') as (Eo & s & Es & Ec). split; [left; exact Eo|].
    exists x, (ss_unit s), (ss_timeout s). eexists. split; [apply (proj1 (in_inner _ _) (rg_open _ _ _ R _ _ Es))|].
    split; [|split; [|apply in_channel; exact (nth_call _ 0 _ _ (sessions_calls _ _ _ _ _ H) Ec)]]; reflexivity.
  - destruct M as (Hi & x & t & f & Hs). assert (Hi' : In (Repeated i j n) (inner os)) by into_inner Hi.
    assert (Hs' : In (Scheduled j x r t f) (inner os)) by into_inner Hs.
    destruct (repeated_owner _ _ _ _ _ _ R Hi') as (Eo & p & s & Ep & Es & Ec). destruct (scheduled_poll _ _ _ _ _ _ _ _ R Hs') as (p' & _ & Ep' & _ & Er & _).
    rewrite Ep in Ep'. injection Ep' as <-. split; [right; exists p; split; [eapply nth_error_In; eauto|exact Er]|].
    exists (po_session p), (ss_unit s), (ss_timeout s). eexists. split; [apply (proj1 (in_inner _ _) (rg_open _ _ _ R _ _ Es))|]. subst r.
    split; [|split; [|apply in_channel; exact (nth_call _ 0 _ _ (sessions_calls _ _ _ _ _ H) Ec)]]; reflexivity.
Qed.

Lemma repeated_scheduled es k os i j n : stack_history user pol es k os -> In (Repeated i j n) os -> exists x r t f, In (Scheduled j x r t f) os.
Proof.
  intros H Hi. destruct (sessions_inv _ _ _ _ _ H) as [[R Y A] _ _]. assert (Hi' : In (Repeated i j n) (inner os)) by into_inner Hi.
  destruct (repeated_owner _ _ _ _ _ _ R Hi') as (_ & p & _ & Ep & _). destruct (rg_sched _ _ _ R _ _ Ep) as (t & f & _ & K & _).
  exists (po_session p), (po_request p), t, f. apply (proj1 (in_inner _ _) K).
Qed.
End Told.
