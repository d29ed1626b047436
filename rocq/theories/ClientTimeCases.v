(** Concrete histories of a client channel in time. *)
From Verif Require Import Prelude Ser4 Messages Mbap SpecPdu SpecMbap Client SpecClient MbapFacts MbapLemmas BitFacts
  ClientFacts ClientLemmas ClientTx ClientShutdown ClientResponses ClientOutcomes ClientCases SpecClientTime ClientTime.
From Coq Require Import Lia.

(** ** Executing a history *)
Inductive moment : Type :=
| Until (t : N)
| Now (e : cevent).

Definition dueb (now : N) (os : list stamped) (e : cevent) : bool :=
  match e with
  | CExpire t => forallb (fun x => match snd x with Armed _ t' d => negb (Nat.eqb t' t) || (fst x + d <=? now) | _ => true end) os
  | _ => true
  end.

Definition on_timeb (eps now : N) (s : client) (os : list stamped) : bool :=
  forallb (fun x => match snd x with
                    | Called i _ => negb (existsb (Nat.eqb i) (qids (cc_queue s))) || (now <=? fst x + eps)
                    | Armed _ t d => negb (existsb (Nat.eqb t) (cc_armed s ++ cc_expired s)) || (now <=? fst x + d + eps)
                    | _ => true
                    end) os.

Definition promptb (prompt : bool) (s : client) (e : cevent) : bool :=
  negb prompt || match cc_expired s with [] => true | _ => match e with CFire _ => true | _ => false end end.

Definition bytesb (e : cevent) : bool :=
  match e with CReceive d => forallb (fun x => x <? 256) d | _ => true end.

Fixpoint timed_play (prompt : bool) (eps now : N) (s : client) (os : list stamped) (l : list moment)
    : option (N * client * list stamped) :=
  match l with
  | [] => Some (now, s, os)
  | Until t :: l =>
      if (now <=? t) && on_timeb eps t s os then timed_play prompt eps t s os l else None
  | Now e :: l =>
      if dueb now os e && promptb prompt s e && bytesb e then
        match client_step idle Truncate s tt e with
        | Ret (s, _, o) => timed_play prompt eps now s (os ++ map (pair now) o) l
        | UB => None
        end
      else None
  end.

Lemma neg_existsb i l : negb (existsb (Nat.eqb i) l) = true -> ~ In i l.
Proof.
  intros H Hin. assert (E : existsb (Nat.eqb i) l = true) by (apply existsb_exists; exists i; rewrite Nat.eqb_refl; auto).
  rewrite E in H. discriminate.
Qed.

Lemma timed_play_sound prompt eps l : forall now s os now' s' os',
  timed_history idle Truncate prompt eps now s tt os ->
  timed_play prompt eps now s os l = Some (now', s', os') -> timed_history idle Truncate prompt eps now' s' tt os'.
Proof.
  induction l as [|[t|e] l IH]; intros now s os now' s' os' H E; cbn [timed_play] in E.
  - injection E as <- <- <-. exact H.
  - destruct ((now <=? t) && on_timeb eps t s os) eqn:Eb; [|discriminate].
    apply Bool.andb_true_iff in Eb. destruct Eb as [E1 E2]. apply N.leb_le in E1.
    apply (IH t s os); [|exact E]. apply (Passes _ _ _ _ now); [exact H|exact E1|].
    unfold on_timeb in E2. rewrite forallb_forall in E2. split.
    + intros c i k Hi Hq. apply E2 in Hi. cbn [snd fst] in Hi. apply Bool.orb_true_iff in Hi.
      destruct Hi as [Hi|Hi]; [destruct (neg_existsb _ _ Hi Hq)|apply N.leb_le; exact Hi].
    + intros a i t' d Hi Hq. apply E2 in Hi. cbn [snd fst] in Hi. apply Bool.orb_true_iff in Hi.
      destruct Hi as [Hi|Hi]; [destruct (neg_existsb _ _ Hi Hq)|apply N.leb_le; exact Hi].
  - destruct (dueb now os e && promptb prompt s e && bytesb e) eqn:Eb; [|discriminate].
    apply Bool.andb_true_iff in Eb. destruct Eb as [Eb E3]. apply Bool.andb_true_iff in Eb. destruct Eb as [E1 E2].
    destruct (client_step idle Truncate s tt e) as [[[s1 []] o1]|] eqn:Es; [|discriminate].
    apply (IH now s1 (os ++ map (pair now) o1)); [|exact E]. apply (Happens _ _ _ _ now s tt os e); auto.
    + destruct e; try exact I. cbn in *. apply Forall_forall. rewrite forallb_forall in E3.
      intros x Hx. apply E3 in Hx. apply N.ltb_lt in Hx. exact Hx.
    + destruct e; try exact I. cbn [dueb] in E1. rewrite forallb_forall in E1. intros a i d Hi.
      apply E1 in Hi. cbn [snd fst] in Hi. apply Bool.orb_true_iff in Hi. destruct Hi as [Hi|Hi].
      * rewrite Nat.eqb_refl in Hi. discriminate.
      * apply N.leb_le. exact Hi.
    + intros -> Hx. unfold promptb in E2. cbn [negb orb] in E2. destruct (cc_expired s); [destruct (Hx eq_refl)|].
      destruct e; try discriminate. eauto.
Qed.

Definition timed_start (prompt : bool) (eps : N) (l : list moment) : option (N * client * list stamped) :=
  timed_play prompt eps 0 (client_init (repeat 0 260)) [] l.

Lemma timed_start_sound prompt eps l now s os : timed_start prompt eps l = Some (now, s, os) ->
  timed_history idle Truncate prompt eps now s tt os.
Proof. apply timed_play_sound. apply Begins. exact good_zero. Qed.

(** ** Two requests that are not answered *)
Definition unanswered_requests : list moment :=
  [Until 50; Now (CApi (Submit read_call)); Now (CApi (Submit read_call)); Now (CApi (Submit bad_call));
   Until 51; Now CRun; Now CRun; Now CRun;
   Until 152; Now (CExpire 0); Now (CFire 0); Until 253; Now (CExpire 1); Now (CFire 1); Until 1000].

Lemma unanswered_play : exists s, timed_start true 1 unanswered_requests = Some (1000, s,
  [(50, Called 0 read_call); (50, Called 1 read_call); (50, Called 2 bad_call);
   (51, Sent 0 7 0 (map Some [0; 0; 0; 0; 0; 6; 7; 1; 0; 1; 0; 2])); (51, Armed 0 0 100);
   (51, Completed 2 (Error EMalformedRequest));
   (152, Completed 0 (Error ETimeout));
   (152, Sent 1 7 1 (map Some [0; 1; 0; 0; 0; 6; 7; 1; 0; 1; 0; 2])); (152, Armed 1 1 100);
   (253, Completed 1 (Error ETimeout))]).
Proof. eexists. vm_compute. reflexivity. Qed.

(** The second one is completed at its limit. *)
Lemma unanswered_history : exists s os, timed_history idle Truncate true 1 1000 s tt os /\
  (exists a b, os = a ++ (50, Called 1 read_call) :: b /\ time_limit 1 a 50 (k_timeout read_call) = 253) /\
  In (253, Completed 1 (Error ETimeout)) os /\ ~ In TcpShutdown (map snd os).
Proof.
  destruct unanswered_play as (s & E). exists s. eexists. split; [apply (timed_start_sound _ _ _ _ _ _ E)|].
  split; [|split].
  - exists [(50, Called 0 read_call)]. eexists. split; [reflexivity|]. vm_compute. reflexivity.
  - cbn. auto 12.
  - cbn. intuition discriminate.
Qed.

(** ** A response at the moment when the timer expires *)
Definition late_answer : list moment :=
  [Now (CApi (Submit read_call)); Now (CApi (Submit read_call)); Now CRun; Now CRun;
   Until 100; Now (CExpire 0); Now (CReceive (answer 0)); Now (CFire 0)].

Lemma late_play : exists s, timed_start false 0 late_answer = Some (100, s,
  [(0, Called 0 read_call); (0, Called 1 read_call);
   (0, Sent 0 7 0 (map Some [0; 0; 0; 0; 0; 6; 7; 1; 0; 1; 0; 2])); (0, Armed 0 0 100);
   (100, Completed 0 (Value [1; 1; 3]));
   (100, Sent 1 7 1 (map Some [0; 1; 0; 0; 0; 6; 7; 1; 0; 1; 0; 2])); (100, Armed 1 1 100);
   (100, Completed 1 (Error ETimeout))]).
Proof. eexists. vm_compute. reflexivity. Qed.

Lemma not_too_early_refuted : ~ (forall (handler : nat -> unit -> expected (list N) -> unit * list capi) pol eps now s w os i t a tm d,
  timed_history handler pol false eps now s w os -> In (t, Completed i (Error ETimeout)) os ->
  In (a, Armed i tm d) os -> a + d <= t).
Proof.
  intros H. destruct late_play as (s & E). apply timed_start_sound in E.
  assert (X := H _ _ _ _ _ _ _ 1%nat 100 100 1%nat 100 E). 
  assert (Y : 100 + 100 <= 100); [apply X; cbn; auto 12|]. lia.
Qed.

(** ** A request that waits for others *)
Lemma own_timeout_refuted : ~ (forall (handler : nat -> unit -> expected (list N) -> unit * list capi) pol eps now s w os c i k t r,
  timed_history handler pol true eps now s w os -> In (c, Called i k) os -> In (t, Completed i r) os ->
  t <= c + k_timeout k + 2 * eps).
Proof.
  intros H. destruct unanswered_play as (s & E). apply timed_start_sound in E.
  assert (X := H _ _ _ _ _ _ _ 50 1%nat read_call 253 (Error ETimeout) E).
  assert (Y : 253 <= 50 + k_timeout read_call + 2 * 1); [apply X; cbn; auto 12|]. cbn in Y. lia.
Qed.
