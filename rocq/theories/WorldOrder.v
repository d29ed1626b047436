(** The order in which calls of a channel take effect at the database. *)
From Verif Require Import Prelude Ser4 Messages Mbap Client Server Database System.
From Verif Require Import AsyncWrite ClientConn ClientTcp Listener ServerConn ServerTcp World.
From Verif Require Import SpecPdu SpecMbap SpecClient SpecServer SpecDb SpecConn SpecClientTcp SpecServerTcp SpecSystem SpecWorld SpecOrder.
From Verif Require Import ClientFacts ClientLemmas ClientOutcomes CodecLemmas DbLemmas SystemFacts NetFacts WorldLemmas WorldParts WorldRest.

Lemma accesses_sent os log : accesses os log -> forall n e i, nth_error log n = Some e -> x_by e = Some i ->
  exists a x r b u tx f, os = a ++ YS (OConsult x r) :: b /\ List.length (db_calls a) = n /\ In (YC (Sent i u tx f)) a.
Proof.
  intros H. induction H as [|os log o A IH Ho|os log c r A IH|os log i u r t tx f x v A IH Hc Hs]; intros m e i' E B.
  - destruct m; discriminate E.
  - destruct (IH _ _ _ E B) as (a & x & r & b & u & tx & f & -> & L & S). exists a, x, r, (b ++ [o]), u, tx, f. rewrite <- app_assoc. auto.
  - destruct (Nat.lt_ge_cases m (List.length log)) as [K|K].
    + rewrite nth_error_app1 in E by exact K. destruct (IH _ _ _ E B) as (a & x & r0 & b & u & tx & f & -> & L & S).
      exists a, x, r0, (b ++ [YD c r]), u, tx, f. rewrite <- app_assoc. auto.
    + rewrite nth_error_app2 in E by exact K. destruct (m - List.length log)%nat as [|[|k]]; try discriminate E. injection E as <-. discriminate B.
  - destruct (Nat.lt_ge_cases m (List.length log)) as [K|K].
    + rewrite nth_error_app1 in E by exact K. destruct (IH _ _ _ E B) as (a & y & r0 & b & u0 & tx0 & f0 & -> & L & S).
      exists a, y, r0, (b ++ [YS (OConsult x r)]), u0, tx0, f0. rewrite <- app_assoc. auto.
    + rewrite nth_error_app2 in E by exact K. destruct (m - List.length log)%nat as [|[|k]] eqn:Em; try discriminate E. injection E as <-. injection B as ->.
      exists os, x, r, [], u, tx, f. split; [reflexivity|]. split; [rewrite (accesses_length _ _ A); lia|exact Hs].
Qed.

Lemma effect_unique log : NoDup (executed log) -> forall i m n, effect log i m -> effect log i n -> m = n.
Proof.
  induction log as [|e log IH]; intros N i m n (e1 & E1 & B1) (e2 & E2 & B2); [destruct m; discriminate E1|].
  change (e :: log) with ([e] ++ log) in N. unfold executed in N. rewrite flat_map_app in N. fold (executed log) in N. cbn [flat_map] in N.
  assert (In' : forall k e', nth_error log k = Some e' -> x_by e' = Some i -> In i (executed log)).
  { intros k e' E B. apply in_flat_map. exists e'. split; [eapply nth_error_In; exact E|]. rewrite B. left. reflexivity. }
  assert (Nt : NoDup (executed log)) by (destruct (x_by e); [inversion N; assumption|exact N]).
  assert (Nh : x_by e = Some i -> ~ In i (executed log)).
  { intros B. rewrite B in N. inversion N; assumption. }
  destruct m as [|m], n as [|n]; cbn [nth_error] in E1, E2.
  - reflexivity.
  - injection E1 as ->. contradiction (Nh B1 (In' _ _ E2 B2)).
  - injection E2 as ->. contradiction (Nh B2 (In' _ _ E1 B1)).
  - f_equal. apply (IH Nt i); [exists e1|exists e2]; auto.
Qed.

Lemma completed_unique {W} (handler : nat -> W -> expected (list N) -> W * list capi) pol es s w os i x y :
  history handler pol es s w os -> In (Completed i x) os -> In (Completed i y) os -> x = y.
Proof.
  intros H. destruct (ClientLemmas.at_most_once _ _ _ _ _ _ H) as [N _]. clear H. revert N. induction os as [|o os IH]; intros N; [intros []|].
  assert (D : forall z, In (Completed i z) os -> In i (completed_ids os)).
  { intros z Hz. apply in_completed. eauto. }
  assert (Nt : NoDup (completed_ids os)).
  { destruct o; cbn in N; try exact N. inversion N; assumption. }
  intros [->|A] [E|B].
  - congruence.
  - cbn in N. inversion N as [|? ? K _]. contradiction (K (D _ B)).
  - subst o. cbn in N. inversion N as [|? ? K _]. contradiction (K (D _ A)).
  - exact (IH Nt A B).
Qed.

Section Order.
Context {W : Type} (handler : nat -> W -> expected (list N) -> W * list capi) (pol : copy_policy).

(** A call that was answered took effect before any later one is sent. *)
Lemma answered_before ces s u os log i x :
  history handler pol ces s u (client_outputs os) -> accesses os log -> NoDup (executed log) ->
  (forall a i x b, os = a ++ YC (Completed i (Value x)) :: b -> exists n, effect log i n /\ (n < List.length (db_calls a))%nat) ->
  In (YC (Completed i (Value x))) os -> before_later log i.
Proof.
  intros H A N D C m j n Em En L. destruct En as (e & En & Bn).
  destruct (accesses_sent _ _ A _ _ _ En Bn) as (a & z & r & b & u0 & tx & f & Eo & Ln & S).
  apply in_split in S as (a1 & a2 & Ea).
  assert (Ec : client_outputs os = client_outputs a1 ++ Sent j u0 tx f :: client_outputs (a2 ++ YS (OConsult z r) :: b)).
  { rewrite Eo, Ea, <- app_assoc, couts_app. reflexivity. }
  destruct (no_overtaking _ _ _ _ _ _ _ _ _ _ _ _ i H Ec L) as (y & Hy).
  assert (y = Value x).
  { eapply completed_unique; [exact H| |apply in_couts; exact C]. rewrite Ec. apply in_or_app. left. exact Hy. }
  subst y. apply in_couts in Hy. apply in_split in Hy as (p & q & Ep).
  destruct (D p i x (q ++ YC (Sent j u0 tx f) :: a2 ++ YS (OConsult z r) :: b)) as (k & Ek & Lk).
  { rewrite Eo, Ea, Ep, <- !app_assoc. reflexivity. }
  rewrite (effect_unique _ N _ _ _ Em Ek), <- Ln, Ea, Ep, !db_calls_app, !app_length. lia.
Qed.

Theorem network_order units d F0 w0 es w l : Forall u8 units ->
  world_history handler pol units d w0 es w l -> orderly handler pol w0 es l -> holds d F0 -> few_calls l ->
  exists os log F, observed_with_others l os /\ holds (us_user (wd_server w)) F /\ accesses os log /\
    calls_spec F0 (map x_call log) (map x_result log) F /\ NoDup (executed log) /\
    forall i x, In (YC (Completed i (Value x))) os -> before_later log i.
Proof.
  intros Hu H O Hh Hf. destruct (over_the_network handler pol units d F0 w0 es w l Hu H O Hh) as (os & log & F & On & Ho & A & C & N & D).
  exists os, log, F. split; [exact On|]. split; [exact Ho|]. split; [exact A|]. split; [exact C|]. split; [exact N|]. intros i x K.
  destruct (world_channel handler pol units d w0 es w l Hu H) as [Hc _]. rewrite <- (thin_client _ _ (others_thin _ _ On)) in Hc.
  eapply answered_before; [exact Hc|exact A|exact N| |exact K].
  intros a j y b E. destruct (D Hf _ _ _ _ E) as (u & r & t & n & v & _ & _ & K1 & K2 & _). exists n. split; [|exact K2].
  eexists. split; [exact K1|reflexivity].
Qed.

Lemma sorted_ids log : NoDup (executed log) ->
  (forall i, In i (executed log) -> before_later log i \/ forall j, In j (executed log) -> (j <= i)%nat) ->
  StronglySorted lt (executed log).
Proof.
  induction log as [|e log IH]; intros N H; [constructor|].
  change (e :: log) with ([e] ++ log) in *. rewrite executed_app in *.
  assert (Up : forall i n, effect log i n -> effect ([e] ++ log) i (S n)).
  { intros i n (e' & E & B). exists e'. split; [exact E|exact B]. }
  assert (Hin : forall i, In i (executed log) -> exists n, effect log i n).
  { intros i K. apply in_flat_map in K as (e' & K & Hi). apply In_nth_error in K as (n & K). exists n, e'. split; [exact K|].
    destruct (x_by e'); [destruct Hi as [->|[]]; reflexivity|contradiction]. }
  assert (Nt : NoDup (executed log)).
  { cbn [executed flat_map] in N. destruct (x_by e); [inversion N; assumption|exact N]. }
  assert (Tail : StronglySorted lt (executed log)).
  { apply IH; [exact Nt|]. intros i Hi. destruct (H i) as [K|K]; [apply in_or_app; auto| |].
    - left. intros m j n Em En L. pose proof (K _ _ _ (Up _ _ Em) (Up _ _ En) L). lia.
    - right. intros j Hj. apply K. apply in_or_app. auto. }
  cbn [executed flat_map] in *. destruct (x_by e) as [i|] eqn:B; cbn [app] in *; [|exact Tail]. constructor; [exact Tail|].
  apply Forall_forall. intros j Hj. inversion N as [|? ? Ni _]; subst. fold (executed log) in *.
  assert (i <> j) by (intros ->; contradiction). destruct (Nat.lt_ge_cases i j) as [L|L]; [exact L|exfalso].
  assert (L' : (j < i)%nat) by lia. destruct (Hin _ Hj) as (n & En).
  destruct (H j (or_intror Hj)) as [K|K].
  - assert (E0 : effect (e :: log) i 0%nat) by (exists e; split; [reflexivity|exact B]). pose proof (K _ _ _ (Up _ _ En) E0 L'). lia.
  - pose proof (K i (or_introl eq_refl)). lia.
Qed.

Lemma world_calls units d w0 es w l i k : Forall u8 units -> world_history handler pol units d w0 es w l -> orderly handler pol w0 es l ->
  In (YC (Called i k)) (observed l) -> by_session (Submit k).
Proof.
  intros Hun ((max & buf & u0 & Hb & ->) & Hd & Ty & Hs & E) O Hi.
  destruct (world_sound (strict := false) handler pol Hs units max d _ buf u0 es w l Hun Hb Hd (holds_contents d) Ty E O ltac:(discriminate)) as (n & os & On & S & ces & wait & pend & log & V).
  apply (nv_sess _ _ _ _ _ _ _ _ _ _ V i). apply (thin_in _ _ _ (others_thin _ _ On)). exact Hi.
Qed.

Lemma completed_or os i : (exists x, In (Completed i x) os) \/ forall x, ~ In (Completed i x) os.
Proof.
  destruct (in_dec Nat.eq_dec i (completed_ids os)) as [H|H]; [left; apply in_completed; exact H|].
  right. intros x Hx. apply H. apply in_completed. eauto.
Qed.

Theorem peaceful_order units d w0 es w l : Forall u8 units ->
  world_history handler pol units d w0 es w l -> orderly handler pol w0 es l -> few_calls l -> peaceful es l -> in_call_order (observed l).
Proof.
  intros Hu H O Hf [P1 P2]. destruct (network_order units d _ w0 es w l Hu H O (holds_contents d) Hf) as (os & log & F & On & _ & A & _ & N & D).
  assert (T := others_thin _ _ On). destruct (world_channel handler pol units d w0 es w l Hu H) as [Hc _].
  exists (executed log). split.
  - apply sorted_ids; [exact N|]. intros i Hi. apply in_flat_map in Hi as (e & He & Hi). destruct (x_by e) as [i'|] eqn:B; [|destruct Hi]. destruct Hi as [->|[]].
    destruct (completed_or (client_outputs os) i) as [(x & Hx)|Hn].
    + left. apply in_couts in Hx. destruct x as [x|x]; [exact (D _ _ Hx)|exfalso].
      apply In_nth_error in He as (n & En). destruct (accesses_sent _ _ A _ _ _ En B) as (a & z & r & b & u0 & tx & f & Eo & Ln & S).
      assert (Si : In (YC (Sent i u0 tx f)) (observed l)) by (apply (thin_in _ _ _ T); rewrite Eo; apply in_or_app; left; exact S).
      assert (Xi := proj1 (thin_in _ _ _ T) Hx). destruct (history_reached _ _ _ _ _ _ Hc) as (Co & _ & _).
      destruct (co_results _ _ Co _ _ (proj2 (in_couts _ _) Xi)) as (k & Hk & _). apply in_couts in Hk.
      destruct (world_calls units d w0 es w l i k Hu H O Hk) as (u' & r' & t' & _ & Ht & ->).
      destruct (network_outcomes handler pol units d w0 es w l Hu H i u' r' t' (Error x) Ht Hk Xi) as [[K E]|[_ [(y & K)|[(_ & t1 & xs & K)|[_ K]]]]].
      * assert (Iv : im_valid (k_msg (session_call u' r' t')) = false).
        { destruct (im_valid (k_msg (session_call u' r' t'))) eqn:Ev; [|reflexivity]. exfalso. apply K. apply valid_legal; [exact Ht|exact Ev]. }
        apply in_couts in Hk. apply (proj1 (invalid_never_sent _ _ _ _ _ _ _ _ Hc Hk Iv)). apply in_couts in Si. apply in_sent. eauto.
      * discriminate K.
      * exact (P1 _ _ K).
      * exact (P2 K).
    + right. intros j Hj. apply in_flat_map in Hj as (e' & He' & Hj). destruct (x_by e') as [j'|] eqn:B'; [|destruct Hj]. destruct Hj as [->|[]].
      apply In_nth_error in He' as (n & En). destruct (accesses_sent _ _ A _ _ _ En B') as (a & z & r & b & u0 & tx & f & Eo & Ln & S).
      apply in_split in S as (a1 & a2 & Ea). destruct (Nat.le_gt_cases j i) as [L|L]; [exact L|exfalso].
      rewrite <- (thin_client _ _ T) in Hc.
      assert (Ec : client_outputs os = client_outputs a1 ++ Sent j u0 tx f :: client_outputs (a2 ++ YS (OConsult z r) :: b)).
      { rewrite Eo, Ea, <- app_assoc, couts_app. reflexivity. }
      destruct (no_overtaking _ _ _ _ _ _ _ _ _ _ _ _ i Hc Ec L) as (y & Hy). apply (Hn y). rewrite Ec. apply in_or_app. left. exact Hy.
  - rewrite <- (thin_consults _ _ T). clear D N. induction (accesses_executed _ _ A) as [|r i rs js (u & t & K) _ IH]; [constructor|].
    constructor; [|exact IH]. exists u, t. apply (thin_in _ _ _ T). exact K.
Qed.
End Order.
