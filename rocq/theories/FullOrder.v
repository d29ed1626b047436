(** The order in which the requests of sessions take effect. *)
From Verif Require Import Prelude Ser4 Messages Mbap Client Server Database System.
From Verif Require Import AsyncWrite ClientConn ClientTcp Listener ServerConn ServerTcp World.
From Verif Require Import Scheduled SessionCall Session Full.
From Verif Require Import SpecPdu SpecMbap SpecClient SpecServer SpecDb SpecConn SpecClientTcp SpecServerTcp SpecSystem SpecSession SpecWorld SpecFull SpecOrder.
From Verif Require Import ClientLemmas SessionLift SessionFacts SessionPolls SessionInv SessionLemmas SessionTold WorldLemmas WorldParts WorldRest WorldOrder OrderFacts FullSim FullParts FullLemmas.
From Verif Require SystemFacts SystemLemmas.

Section Order.
Context {W : Type}.
Context (user : users W).
Context (pol : copy_policy).

(** Requests are numbered in the order in which they are made. *)
Theorem made_numbered units d w0 es w l : full_history user pol units d w0 es w l -> made l = seq 0 (List.length (made l)).
Proof.
  intros H. destruct (full_sessions user pol _ _ _ _ _ _ H) as (kes & K & _). destruct (sessions_inv _ _ _ _ _ K) as [[R _ _] _ _].
  assert (E : made l = call_ids (inner (session_outputs l))).
  { unfold call_ids. rewrite flat_inner by reflexivity. clear. induction l as [|m l IH]; [reflexivity|].
    change (m :: l) with ([m] ++ l). rewrite session_outputs_app. unfold made in *. rewrite !flat_map_app, IH. f_equal. destruct m as [[]|[[]| | |]]; reflexivity. }
  rewrite E, (rg_call_ids _ _ _ R), seq_length. reflexivity.
Qed.

Lemma request_unique units d w0 es w l s i r i' r' : full_history user pol units d w0 es w l -> request_of l s i r -> request_of l s i' r' -> i = i' /\ r = r'.
Proof.
  intros H A B. destruct (full_sessions user pol _ _ _ _ _ _ H) as (kes & K & _). destruct (sessions_inv _ _ _ _ _ K) as [[R _ _] _ _].
  assert (In' : forall o, (forall c, o <> Channel c) -> In (FK o) l -> In o (inner (session_outputs l))).
  { intros o N Ho. apply in_inner. split; [apply in_sessions; assumption|exact N]. }
  destruct s as [k|j n]; cbn [request_of] in A, B.
  - destruct A as (-> & x & t & A). destruct B as (E & x' & t' & B). subst i'. split; [reflexivity|].
    apply In' in A; [|discriminate]. apply In' in B; [|discriminate].
    destruct (issued_owner _ _ _ _ _ _ _ R A) as (A1 & _). destruct (issued_owner _ _ _ _ _ _ _ R B) as (B1 & _). congruence.
  - destruct A as (A & x & t & f & A2). destruct B as (B & x' & t' & f' & B2).
    split; [eapply repeated_once; [exact K| |]; apply in_sessions; try discriminate; eassumption|].
    apply In' in A2; [|discriminate]. apply In' in B2; [|discriminate]. apply (scheduled_unique _ _ _ _ _ _ _ _ _ _ _ _ R A2 B2).
Qed.

Lemma told_in l s v : In (s, v) (tellings (session_outputs l)) -> exists a m b, l = a ++ FK m :: b /\ In (s, v) (tellings [m]).
Proof.
  intros H. apply in_flat_map in H as (o & Ho & H). assert (N : forall c, o <> Channel c) by (intros c ->; exact H).
  apply in_sessions in Ho; [|exact N]. apply in_split in Ho as (a & b & ->). exists a, o, b. split; [reflexivity|].
  unfold tellings. apply in_flat_map. exists o. split; [left; reflexivity|exact H].
Qed.

Theorem told_order units d F0 w0 es w l : Forall u8 units -> full_history user pol units d w0 es w l -> forderly user pol w0 es l -> holds d F0 ->
  few_calls (world_marks l) ->
  exists os log F, observed_with_others (world_marks l) os /\ holds (us_user (wd_server w)) F /\ accesses os log /\
    calls_spec F0 (map x_call log) (map x_result log) F /\ NoDup (executed log) /\
    (forall s v i r, In (s, v) (tellings (session_outputs l)) -> from_server v -> request_of l s i r ->
       (exists n, nth_error log n = Some {| x_call := CRequest r; x_result := RResponse v; x_by := Some i |}) /\ before_later log i) /\
    (forall s x i r s' y j r' t a v v', In (s, Value x) (tellings (session_outputs l)) -> request_of l s i r ->
       In (s', Value y) (tellings (session_outputs l)) -> request_of l s' j r' -> (i < j)%nat -> puts r t a v -> says y t a v' ->
       v' = v \/ exists m n, effect log i m /\ effect log j n /\ touched_between log m n t a).
Proof.
  intros Un H O Hh Few. destruct (end_to_end_more user pol _ _ _ _ _ _ _ Un H O Hh) as (os & log & F & B1 & B2 & B3 & B4 & B5 & B6 & B7). exists os, log, F.
  split; [exact B1|]. split; [exact B2|]. split; [exact B3|]. split; [exact B4|]. split; [exact B5|].
  destruct (full_world user pol _ _ _ _ _ _ H) as (b0 & b1 & wes & A1 & A2 & A3).
  assert (Told : forall s v i r, In (s, v) (tellings (session_outputs l)) -> from_server v -> request_of l s i r ->
       (exists n, nth_error log n = Some {| x_call := CRequest r; x_result := RResponse v; x_by := Some i |}) /\ before_later log i).
  { intros s v i r Ht Fs Hr. destruct (told_in _ _ _ Ht) as (a & m & b & El & Hm).
    destruct (B7 Few a m b s v El Hm) as (i' & r' & before & after & _ & _ & Hr' & Oc).
    destruct (request_unique _ _ _ _ _ _ _ _ _ _ _ H Hr Hr') as [<- <-].
    assert (Fd : exists n, nth_error log n = Some {| x_call := CRequest r; x_result := RResponse v; x_by := Some i |}).
    { destruct Oc as [[_ ->]|[_ [(n & _ & E)|[[-> _]|[(msg & ->) _]]]]]; [contradiction Fs|eauto|contradiction Fs|contradiction Fs]. }
    split; [exact Fd|].
    destruct (told_before user pol _ _ _ _ _ _ _ _ _ _ _ H El Hm) as (i1 & y & r1 & u & t & K1 & K2 & K3 & K4 & K5).
    destruct (request_unique _ _ _ _ _ _ _ _ _ _ _ H Hr K5) as [<- <-].
    assert (Hc : forall o, In (WC (ChannelOut o)) (world_marks a) -> In (YC o) (observed (world_marks l))).
    { intros o Ho. apply in_observed. rewrite El, world_marks_app. apply in_or_app. auto. }
    destruct (world_channel _ _ _ _ _ _ _ _ Un A1) as [Hch _]. rewrite <- (thin_client _ _ (others_thin _ _ B1)) in Hch.
    destruct (network_outcomes calls_scripted pol _ _ _ _ _ _ Un A1 i u r t y K4 (Hc _ K3) (Hc _ K1)) as [[L ->]|[L [(x & ->)|[(-> & t1 & xs & Tf)|[(msg & ->) Fl]]]]];
      try (cbn in K2; injection K2 as <-; contradiction Fs).
    eapply answered_before; [exact Hch|exact B3|exact B5| |apply (thin_in _ _ _ (others_thin _ _ B1)); exact (Hc _ K1)].
    intros p j z q E. destruct (B6 Few _ _ _ _ E) as (_ & r2 & _ & n & v2 & _ & _ & E1 & E2 & _). exists n. split; [|exact E2]. eexists. split; [exact E1|reflexivity]. }
  split; [exact Told|]. intros s x i r s' y j r' t a v v' H1 H2 H3 H4 L P S.
  destruct (Told _ _ _ _ H1 I H2) as ((m & Em) & Bf). destruct (Told _ _ _ _ H3 I H4) as ((n & En) & _).
  assert (Ei : effect log i m) by (eexists; split; [exact Em|reflexivity]). assert (Ej : effect log j n) by (eexists; split; [exact En|reflexivity]).
  destruct (read_after_write _ _ _ _ _ _ _ _ _ _ _ _ _ _ B4 Em (ex_intro _ _ En) (Bf _ _ _ Ei Ej L) P S) as [E|K]; [left; exact E|right].
  exists m, n. auto.
Qed.
End Order.
