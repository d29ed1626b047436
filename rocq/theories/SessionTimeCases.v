(** Concrete histories of sessions in time. *)
From Verif Require Import Prelude Ser4 Messages Mbap SpecPdu SpecMbap Client SpecClient SpecClientTime ClientTimeCases
  Scheduled SpecScheduled SessionCall Session SpecSession SystemCases SessionCases SpecSessionTime SessionTimed.
From Coq Require Import Lia.

(** ** Executing a history *)
Inductive kmoment : Type :=
| KUntil (t : N)
| KNow (e : kevent).

Definition kdueb (now : N) (os : list kstamped) (e : kevent) : bool :=
  match e with
  | KChannel e => dueb now (channel_stamps os) e
  | KExpire j t => forallb (fun x => match snd x with
                                     | Polled j' (Wait t' f) => negb (Nat.eqb j' j && Nat.eqb t' t) || (fst x + f <=? now)
                                     | _ => true
                                     end) os
  | _ => true
  end.

Definition kon_timeb (eps now : N) (k : stack unit) (ages : list N) (os : list kstamped) : bool :=
  on_timeb eps now (st_channel k) (channel_stamps os) &&
  forallb (fun c => now <=? c + eps) ages &&
  forallb (fun x => match snd x with
                    | Polled j (Wait t f) =>
                        match nth_error (ks_polls (st_rest k)) j with
                        | Some p => negb (existsb (Nat.eqb t) (sr_armed (po_sched p) ++ sr_expired (po_sched p))) || (now <=? fst x + f + eps)
                        | None => true
                        end
                    | _ => true
                    end) os.

Fixpoint kplay (eps now : N) (k : stack unit) (ages : list N) (os : list kstamped) (l : list kmoment)
    : option (N * stack unit * list N * list kstamped) :=
  match l with
  | [] => Some (now, k, ages, os)
  | KUntil t :: l => if (now <=? t) && kon_timeb eps t k ages os then kplay eps t k ages os l else None
  | KNow e :: l =>
      if kdueb now os e then
        match stack_step quiet_user AllOrNothing k e with
        | Ret (k, o) => kplay eps now k (ages_after now e k ages) (os ++ map (pair now) o) l
        | UB => None
        end
      else None
  end.

Definition typed_moment (m : kmoment) : Prop := match m with KUntil _ => True | KNow e => typed_kevent e end.

Lemma dueb_sound now os e : dueb now os e = true -> due now os e.
Proof.
  intros E. destruct e; try exact I. cbn [dueb] in E. rewrite forallb_forall in E. intros a i d Hi.
  apply E in Hi. cbn [snd fst] in Hi. apply Bool.orb_true_iff in Hi. destruct Hi as [Hi|Hi]; [rewrite Nat.eqb_refl in Hi; discriminate|apply N.leb_le; exact Hi].
Qed.

Lemma on_timeb_sound eps now s os : on_timeb eps now s os = true -> on_time eps now s os.
Proof.
  intros E. unfold on_timeb in E. rewrite forallb_forall in E. split.
  - intros c i k Hi Hq. apply E in Hi. cbn [snd fst] in Hi. apply Bool.orb_true_iff in Hi.
    destruct Hi as [Hi|Hi]; [destruct (neg_existsb _ _ Hi Hq)|apply N.leb_le; exact Hi].
  - intros a i t' d Hi Hq. apply E in Hi. cbn [snd fst] in Hi. apply Bool.orb_true_iff in Hi.
    destruct Hi as [Hi|Hi]; [destruct (neg_existsb _ _ Hi Hq)|apply N.leb_le; exact Hi].
Qed.

Lemma kdueb_sound now os e : kdueb now os e = true -> kdue now os e.
Proof.
  intros E. destruct e; try exact I; cbn [kdueb kdue] in *; [|apply dueb_sound; exact E].
  rewrite forallb_forall in E. intros a f Hi. apply E in Hi. cbn [snd fst] in Hi. rewrite !Nat.eqb_refl in Hi. cbn in Hi. apply N.leb_le. exact Hi.
Qed.

Lemma kon_timeb_sound eps now k ages os : kon_timeb eps now k ages os = true -> kon_time eps now k ages os.
Proof.
  intros E. unfold kon_timeb in E. apply Bool.andb_true_iff in E as [E E3]. apply Bool.andb_true_iff in E as [E1 E2].
  split; [apply on_timeb_sound; exact E1|]. split.
  - apply Forall_forall. intros c Hc. rewrite forallb_forall in E2. apply N.leb_le. apply E2. exact Hc.
  - intros a j t f p Hi Hp Ht. rewrite forallb_forall in E3. apply E3 in Hi. cbn [snd fst] in Hi. rewrite Hp in Hi.
    apply Bool.orb_true_iff in Hi. destruct Hi as [Hi|Hi]; [destruct (neg_existsb _ _ Hi Ht)|apply N.leb_le; exact Hi].
Qed.

Lemma kplay_sound eps l : Forall typed_moment l -> forall now k ages os now' k' ages' os',
  timed_sessions quiet_user AllOrNothing eps now k ages os ->
  kplay eps now k ages os l = Some (now', k', ages', os') -> timed_sessions quiet_user AllOrNothing eps now' k' ages' os'.
Proof.
  induction 1 as [|[t|e] l Hm Hl IH]; intros now k ages os now' k' ages' os' H E; cbn [kplay] in E.
  - injection E as <- <- <- <-. exact H.
  - destruct ((now <=? t) && kon_timeb eps t k ages os) eqn:Eb; [|discriminate]. apply Bool.andb_true_iff in Eb as [E1 E2].
    apply (IH t k ages os); [|exact E]. apply (SPasses _ _ _ now); [exact H|apply N.leb_le; exact E1|apply kon_timeb_sound; exact E2].
  - destruct (kdueb now os e) eqn:Ed; [|discriminate]. destruct (stack_step quiet_user AllOrNothing k e) as [[k1 o1]|] eqn:Es; [|discriminate].
    apply (IH _ _ _ _ _ _ _ _ (SHappens _ _ _ _ _ _ _ _ _ _ H Hm (kdueb_sound _ _ _ Ed) Es) E).
Qed.

Definition kstart (eps : N) (l : list kmoment) : option (N * stack unit * list N * list kstamped) :=
  kplay eps 0 (stack_init zeros tt) [] [] l.

Lemma kstart_sound eps l now k ages os : Forall typed_moment l -> kstart eps l = Some (now, k, ages, os) ->
  timed_sessions quiet_user AllOrNothing eps now k ages os.
Proof. intros Hl. apply kplay_sound; [exact Hl|]. apply SBegins. exact zeros_good. Qed.

Ltac typed_moments := repeat (apply Forall_cons; [cbn; first [exact Logic.I | repeat constructor; unfold u8; lia]|]); apply Forall_nil.

(** What is shown of the sessions and scheduled requests. *)
Definition shown_polls (os : list kstamped) : list kstamped :=
  filter (fun x => match snd x with Channel _ | Asked _ | Opened _ _ _ => false | _ => true end) os.

(** ** A scheduled request with a timeout of 20 and a frequency of 50 *)
Definition periodic : list kmoment :=
  [KNow (KApi (Open 9 100)); KUntil 5; KNow (KApi (Schedule 0 read1 (Some 20) 50)); KUntil 6; KNow KRun; KNow KRun; KUntil 7; KNow (KChannel CRun);
   KUntil 20; KNow (KChannel (CReceive (frame 0))); KUntil 70; KNow (KExpire 0 0); KUntil 71; KNow (KFire 0 0); KNow (KChannel CRun);
   KUntil 92; KNow (KChannel (CExpire 1)); KNow (KChannel (CFire 1)); KUntil 142; KNow (KExpire 0 1); KNow (KFire 0 1); KUntil 143;
   KNow (KApi (Send 0 read1 None)); KNow (KChannel CRun); KNow (KChannel CRun); KUntil 164; KNow (KChannel (CExpire 2)); KNow (KChannel (CFire 2));
   KUntil 170; KNow (KChannel (CReceive (frame 3))); KUntil 180].
Lemma periodic_typed : Forall typed_moment periodic.
Proof. typed_moments. Qed.

Definition completed_play (eps : N) (l : list kmoment) : bool := match kstart eps l with Some _ => true | None => false end.
Definition outcome (eps : N) (l : list kmoment) : N * stack unit * list N * list kstamped :=
  match kstart eps l with Some x => x | None => (0, stack_init zeros tt, [], []) end.
Definition end_time (eps : N) (l : list kmoment) : N := fst (fst (fst (outcome eps l))).
Definition end_state (eps : N) (l : list kmoment) : stack unit := snd (fst (fst (outcome eps l))).
Definition observed_by (eps : N) (l : list kmoment) : list kstamped := snd (outcome eps l).

Lemma outcome_sound eps l : Forall typed_moment l -> completed_play eps l = true ->
  timed_sessions quiet_user AllOrNothing eps (end_time eps l) (end_state eps l) (snd (fst (outcome eps l))) (observed_by eps l).
Proof.
  intros Hl E. unfold end_time, end_state, observed_by, outcome. unfold completed_play in E.
  destruct (kstart eps l) as [[[[now k] ages] os]|] eqn:Ek; [|discriminate E]. exact (kstart_sound _ _ _ _ _ _ Hl Ek).
Qed.

(** The [n]-th output is a call of the channel: when, which one and its limit. *)
Definition limit_at (eps : N) (n : nat) (os : list kstamped) : option (N * nat * N) :=
  match nth_error os n with
  | Some (c, Channel (Called i q)) => Some (c, i, call_limit eps (firstn n os) c q)
  | _ => None
  end.

Lemma limit_at_sound eps n os c i x : limit_at eps n os = Some (c, i, x) ->
  exists a q b, os = a ++ (c, Channel (Called i q)) :: b /\ call_limit eps a c q = x.
Proof.
  unfold limit_at. intros E. destruct (nth_error os n) as [[c' o]|] eqn:En; [|discriminate E]. destruct o as [o|?|? ? ?|? ? ? ?|? ?|? ? ? ? ?|? ?|? ? ?]; try discriminate E.
  destruct o as [i' q|? ? ? ?|? ? ?|? ?|]; try discriminate E. injection E as <- <- <-. exists (firstn n os), q, (skipn (S n) os). split; [apply cut; exact En|reflexivity].
Qed.

Lemma periodic_plays : completed_play 1 periodic = true /\ end_time 1 periodic = 180.
Proof. split; vm_compute; reflexivity. Qed.
Lemma periodic_shown : shown_polls (observed_by 1 periodic) =
  [(5, Scheduled 0 0 read1 (Some 20) 50); (6, Polled 0 Started); (6, Polled 0 (Request 0)); (6, Repeated 0 0 0);
   (20, Polled 0 (Response 0 answer1)); (20, Polled 0 (Wait 0 50)); (71, Polled 0 (Request 1)); (71, Repeated 1 0 1);
   (92, Polled 0 (Response 1 (Error ETimeout))); (92, Polled 0 (Wait 1 50)); (142, Polled 0 (Request 2)); (142, Repeated 2 0 2);
   (143, Issued 3 0 read1 None); (164, Polled 0 (Response 2 (Error ETimeout))); (164, Polled 0 (Wait 2 50)); (170, Answered 3 answer1)].
Proof. vm_compute. reflexivity. Qed.
Lemma periodic_limits : limit_at 1 21 (observed_by 1 periodic) = Some (142, 2%nat, 164) /\ limit_at 1 24 (observed_by 1 periodic) = Some (143, 3%nat, 266).
Proof. split; vm_compute; reflexivity. Qed.
Lemma periodic_up : existsb (fun x => tcp_down (snd x)) (observed_by 1 periodic) = false.
Proof. vm_compute. reflexivity. Qed.
Lemma periodic_end : (is_running (end_state 1 periodic) 0, frequency (end_state 1 periodic) 0) = (true, 50).
Proof. vm_compute. reflexivity. Qed.

Lemma periodic_history : exists k ages os, timed_sessions quiet_user AllOrNothing 1 180 k ages os /\
  shown_polls os =
    [(5, Scheduled 0 0 read1 (Some 20) 50); (6, Polled 0 Started); (6, Polled 0 (Request 0)); (6, Repeated 0 0 0);
     (20, Polled 0 (Response 0 answer1)); (20, Polled 0 (Wait 0 50)); (71, Polled 0 (Request 1)); (71, Repeated 1 0 1);
     (92, Polled 0 (Response 1 (Error ETimeout))); (92, Polled 0 (Wait 1 50)); (142, Polled 0 (Request 2)); (142, Repeated 2 0 2);
     (143, Issued 3 0 read1 None); (164, Polled 0 (Response 2 (Error ETimeout))); (164, Polled 0 (Wait 2 50)); (170, Answered 3 answer1)] /\
  (exists a q b, os = a ++ (142, Channel (Called 2 q)) :: b /\ call_limit 1 a 142 q = 164) /\
  (exists a q b, os = a ++ (143, Channel (Called 3 q)) :: b /\ call_limit 1 a 143 q = 266) /\
  ~ In (Channel TcpShutdown) (map snd os) /\ (is_running k 0, frequency k 0) = (true, 50).
Proof.
  assert (H := outcome_sound 1 periodic periodic_typed (proj1 periodic_plays)). rewrite (proj2 periodic_plays) in H.
  exists (end_state 1 periodic), (snd (fst (outcome 1 periodic))), (observed_by 1 periodic). split; [exact H|].
  split; [exact periodic_shown|]. split; [exact (limit_at_sound _ _ _ _ _ _ (proj1 periodic_limits))|].
  split; [exact (limit_at_sound _ _ _ _ _ _ (proj2 periodic_limits))|]. split; [|exact periodic_end].
  generalize periodic_up. generalize (observed_by 1 periodic). intros os E Hin. apply in_map_iff in Hin as (x & Ex & Hx).
  assert (T : existsb (fun x => tcp_down (snd x)) os = true) by (apply existsb_exists; exists x; rewrite Ex; auto). congruence.
Qed.

Lemma in_shown t o os : In (t, o) os -> match o with Channel _ | Asked _ | Opened _ _ _ => False | _ => True end -> In (t, o) (shown_polls os).
Proof. intros H Ho. apply filter_In. split; [exact H|]. destruct o; try reflexivity; destruct Ho. Qed.
Lemma shown_in t o os : In (t, o) (shown_polls os) -> In (t, o) os.
Proof. intros H. apply filter_In in H. apply H. Qed.

(** The time until a response counts: the requests are not sent with the frequency. *)
Lemma frequency_refuted : ~ (forall (W : Type) (user : source -> W -> expected response -> W * list kapi) pol eps now k ages os j x r t f a c n b,
  timed_sessions user pol eps now k ages os -> os = a ++ (c, Polled j (Request n)) :: b -> In (Scheduled j x r t f) (map snd os) ->
  ~ In (Polled j Stopped) (map snd os) -> (forall g, ~ In (Polled j (Frequency g)) (map snd os)) -> ~ In (Channel TcpShutdown) (map snd os) ->
  (exists y m, In (y, Polled j (Request m)) b /\ (n < m)%nat /\ y <= c + f + 2 * eps) \/ now <= c + f + 2 * eps).
Proof.
  intros H. destruct periodic_history as (k & ages & os & Ht & Es & _ & _ & Ns & _).
  assert (I1 : forall t o, In (t, o) (shown_polls os) -> In (t, o) os) by (intros t o; apply shown_in).
  assert (I2 : forall t y, In (t, Polled 0 y) os -> In (t, Polled 0 y) (shown_polls os)) by (intros t y Hy; apply in_shown; [exact Hy|exact I]).
  rewrite Es in I1, I2. assert (Hr : In (6, Polled 0 (Request 0)) os) by (apply I1; cbn; auto).
  apply in_split in Hr as (a & b & E).
  assert (M : forall o, In o (map snd os) -> exists t, In (t, o) os) by (intros o Ho; apply in_map_iff in Ho as ([t o'] & <- & Ho); exists t; exact Ho).
  destruct (H _ _ _ _ _ _ _ _ 0%nat 0%nat read1 (Some 20) 50 a 6 0%nat b Ht E) as [(y & m & Hy & Hm & L)|L].
  - apply (in_map snd _ (5, Scheduled 0 0 read1 (Some 20) 50)). apply I1. cbn. auto.
  - intros Hs. apply M in Hs as (t & Hs). apply I2 in Hs. cbn in Hs. intuition discriminate.
  - intros g Hs. apply M in Hs as (t & Hs). apply I2 in Hs. cbn in Hs. intuition discriminate.
  - exact Ns.
  - assert (Hy' : In (y, Polled 0 (Request m)) os) by (rewrite E; apply in_or_app; right; right; exact Hy). apply I2 in Hy'.
    cbn in Hy'. repeat (destruct Hy' as [Hy'|Hy']; [try discriminate Hy'; injection Hy' as <- <-; lia|]). exact Hy'.
  - lia.
Qed.

(** ** A scheduled request that is stopped and started again at once *)
Definition twofold : list kmoment :=
  [KNow (KApi (Open 9 100)); KNow (KApi (Schedule 0 read1 (Some 20) 10)); KNow (KApi (OnSchedule 0 Stop)); KNow (KApi (OnSchedule 0 Start));
   KNow KRun; KNow KRun; KNow KRun; KNow KRun; KNow (KChannel CRun); KNow (KChannel CRun);
   KUntil 5; KNow (KChannel (CReceive (frame 0))); KUntil 7; KNow (KChannel (CReceive (frame 1)));
   KUntil 15; KNow (KExpire 0 0); KNow (KFire 0 0)].
Lemma twofold_typed : Forall typed_moment twofold.
Proof. typed_moments. Qed.

Lemma twofold_plays : completed_play 1 twofold = true /\ end_time 1 twofold = 15.
Proof. split; vm_compute; reflexivity. Qed.
Lemma twofold_shown : shown_polls (observed_by 1 twofold) =
  [(0, Scheduled 0 0 read1 (Some 20) 10); (0, Polled 0 Started); (0, Polled 0 (Request 0)); (0, Repeated 0 0 0);
   (0, Polled 0 Stopped); (0, Polled 0 Started); (0, Polled 0 (Request 1)); (0, Repeated 1 0 1);
   (5, Polled 0 (Response 0 answer1)); (5, Polled 0 (Wait 0 10)); (7, Polled 0 (Response 1 answer1)); (7, Polled 0 (Wait 1 10));
   (15, Polled 0 (Request 2)); (15, Repeated 2 0 2)].
Proof. vm_compute. reflexivity. Qed.

Lemma shown_split t o : forall os p q, match o with Channel _ | Asked _ | Opened _ _ _ => False | _ => True end ->
  shown_polls os = p ++ (t, o) :: q -> exists a b, os = a ++ (t, o) :: b /\ shown_polls a = p.
Proof.
  induction os as [|x os IH]; intros p q Ho E; [destruct p; discriminate E|]. unfold shown_polls in E. cbn [filter] in E.
  destruct (match snd x with Channel _ | Asked _ | Opened _ _ _ => false | _ => true end) eqn:Ex.
  - destruct p as [|y p]; cbn [app] in E.
    + injection E as -> _. exists [], os. auto.
    + injection E as <- E. destruct (IH _ _ Ho E) as (a & b & -> & Ea). exists (x :: a), b. split; [reflexivity|].
      unfold shown_polls. cbn [filter]. rewrite Ex. f_equal. exact Ea.
  - destruct (IH _ _ Ho E) as (a & b & -> & Ea). exists (x :: a), b. split; [reflexivity|]. unfold shown_polls. cbn [filter]. rewrite Ex. exact Ea.
Qed.

Lemma twofold_history : exists k ages os, timed_sessions quiet_user AllOrNothing 1 15 k ages os /\
  shown_polls os =
    [(0, Scheduled 0 0 read1 (Some 20) 10); (0, Polled 0 Started); (0, Polled 0 (Request 0)); (0, Repeated 0 0 0);
     (0, Polled 0 Stopped); (0, Polled 0 Started); (0, Polled 0 (Request 1)); (0, Repeated 1 0 1);
     (5, Polled 0 (Response 0 answer1)); (5, Polled 0 (Wait 0 10)); (7, Polled 0 (Response 1 answer1)); (7, Polled 0 (Wait 1 10));
     (15, Polled 0 (Request 2)); (15, Repeated 2 0 2)] /\
  exists a b, os = a ++ (15, Polled 0 (Request 2)) :: b /\ In (7, Polled 0 (Response 1 answer1)) a.
Proof.
  assert (H := outcome_sound 1 twofold twofold_typed (proj1 twofold_plays)). rewrite (proj2 twofold_plays) in H.
  exists (end_state 1 twofold), (snd (fst (outcome 1 twofold))), (observed_by 1 twofold). split; [exact H|]. clear H.
  split; [exact twofold_shown|]. assert (E := twofold_shown). revert E. generalize (observed_by 1 twofold). intros os E.
  destruct (shown_split 15 (Polled 0 (Request 2)) os (firstn 12 (shown_polls os)) (skipn 13 (shown_polls os)) I) as (a & b & Ea & Ep); [rewrite E; reflexivity|].
  exists a, b. split; [exact Ea|]. apply shown_in. rewrite Ep, E. cbn. auto 12.
Qed.

Lemma spaced_refuted : ~ (forall (W : Type) (user : source -> W -> expected response -> W * list kapi) pol eps now k ages os j x r t f a y n b u m v,
  timed_sessions user pol eps now k ages os -> os = a ++ (y, Polled j (Request n)) :: b -> In (Scheduled j x r t f) (map snd os) ->
  (forall g, ~ In (Polled j (Frequency g)) (map snd os)) -> In (u, Polled j (Response m v)) a -> u + f <= y).
Proof.
  intros H. destruct twofold_history as (k & ages & os & Ht & Es & a & b & E & Ha).
  assert (L : 7 + 10 <= 15); [|lia].
  refine (H _ _ _ _ _ _ _ _ 0%nat 0%nat read1 (Some 20) 10 a 15 2%nat b 7 1%nat answer1 Ht E _ _ Ha).
  - apply (in_map snd _ (0, Scheduled 0 0 read1 (Some 20) 10)). apply shown_in. rewrite Es. cbn. auto.
  - intros g Hg. apply in_map_iff in Hg as ([t o] & Eq & Hg). cbn in Eq. subst o.
    apply in_shown in Hg; [|exact I]. rewrite Es in Hg. cbn in Hg. intuition discriminate.
Qed.
