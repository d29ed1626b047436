(** Proofs that clients do not notice frames that answer nothing. *)
From Verif Require Import Prelude Ser4 Messages Mbap SpecPdu SpecMbap BitFacts CodecLemmas MbapFacts MbapLemmas Client SpecClient ClientFacts ClientResponses SpecServer SpecChunks ChunksFacts SpecClientChunks ClientChunksFacts SpecStray.

Lemma framed_whole bs items : whole bs items -> framed bs items [].
Proof. intros [A B]. split; [exact A|]. split; [rewrite app_nil_r; exact B|]. left. reflexivity. Qed.

Lemma short_after g h items : whole g items -> short_so_far (g ++ h) -> short_so_far h.
Proof.
  intros [A B] H is t (F1 & F2 & F3). assert (K : framed (g ++ h) (items ++ is) t).
  { split; [apply Forall_app; auto|]. split; [rewrite B, F2, flat_map_app, app_assoc; reflexivity|exact F3]. }
  apply H in K. unfold no_long in K. apply Forall_app in K. exact (proj2 K).
Qed.

Lemma cshort_after es : forall g h items, whole g items -> cshort_from (g ++ h) es -> cshort_from h es.
Proof.
  induction es as [|e es IH]; intros g h items Hw H; [exact Logic.I|]. destruct e; cbn [cshort_from] in *; try (eapply IH; eassumption); [|exact H].
  rewrite <- app_assoc in H. destruct H as [H1 H2]. split; [exact (short_after _ _ _ Hw H1)|exact (IH _ _ _ Hw H2)].
Qed.

Section Stray.
Context (pol : copy_policy).

Lemma exactly_nil : exactly pol [].
Proof.
  right. intros is t F. destruct (framed_unique _ _ _ _ _ F (framed_whole [] [] (conj (Forall_nil _) eq_refl))) as [-> _]. constructor.
Qed.

(** The parser is where it was at the beginning. *)
Lemma boundary_rests p g : cinv pol p g -> dealt_with g -> R pol p [].
Proof.
  intros (_ & _ & is & u & Hi & E & HR & Hn) (items & Hw & He).
  destruct (settled_items pol g items [] is u p (framed_whole _ _ Hw) Hi E HR Hn) as [S _]. rewrite (settled_eq _ _ He) in S. subst is.
  destruct Hw as [_ B]. rewrite E in B. assert (u = []) by (apply (app_inv_head (flat_map item_bytes items)); rewrite app_nil_r; exact B). subst u. exact HR.
Qed.

Lemma rests_again p : R pol p [] -> cinv pol p [].
Proof.
  intros HR. split; [constructor|]. split; [exact exactly_nil|]. exists [], []. split; [constructor|]. split; [reflexivity|]. split; [exact HR|apply ends_nil].
Qed.

Lemma parse_whole p items d : R pol p [] -> bytes d -> whole d items -> ~ ends_with_empty items [] ->
  exists p' ms, mbap_parse pol p d = Ret (p', ms) /\ R pol p' [] /\ Forall2 (matches pol) (filter deliverable items) ms.
Proof.
  intros HR Hd Hw He. destruct (parse_spec pol p [] d HR Hd) as (p' & u & is & ms & E & T & D & R' & M & Ne). cbn [app] in D.
  destruct (settled_items pol d items [] is u p' (framed_whole _ _ Hw) T D R' Ne) as [S _]. rewrite (settled_eq _ _ He) in S. subst is.
  destruct Hw as [_ B]. rewrite D in B. assert (u = []) by (apply (app_inv_head (flat_map item_bytes items)); rewrite app_nil_r; exact B). subst u.
  exists p', ms. auto.
Qed.

Context {W : Type}.
Context (handler : nat -> W -> expected (list N) -> W * list capi).
Notation run := (client_run handler pol).

Lemma strays_ignored s w ms : (forall m p, In m ms -> cc_current s = Some p -> (mb_unit m, mb_tx m) <> (pr_unit p, pr_tx p)) ->
  on_responses handler s w ms = (s, w, []).
Proof.
  induction ms as [|m ms IH]; intros H; [reflexivity|]. cbn [on_responses].
  assert (E : on_response handler s w m = (s, w, [])).
  { unfold on_response. destruct (cc_shutdown s); [reflexivity|]. destruct (cc_current s) as [p|] eqn:Ep; [|reflexivity].
    specialize (H m p (or_introl eq_refl) eq_refl).
    destruct (N.eqb_spec (mb_tx m) (pr_tx p)); destruct (N.eqb_spec (mb_unit m) (pr_unit p)); cbn [andb]; try reflexivity. exfalso. apply H. congruence. }
  rewrite E, IH; [reflexivity|]. intros m' p Hm. apply H. right. exact Hm.
Qed.

Theorem strays_unnoticed buf buf' w a d items b s0 w0 o0 : good_buf buf -> good_buf buf' -> Forall typed_cevent (a ++ CReceive d :: b) ->
  pol = Truncate \/ call_short (a ++ CReceive d :: b) -> dealt_with (carrived [] a) ->
  run (client_init buf) w a = Ret (s0, w0, o0) -> whole d items -> ~ ends_with_empty items [] -> answers_nothing o0 items ->
  exists s t w1 o, run (client_init buf) w (a ++ CReceive d :: b) = Ret (s, w1, o) /\ run (client_init buf') w (a ++ b) = Ret (t, w1, o) /\
    t = with_parser s (cc_parser t).
Proof.
  intros B1 B2 Ty Hx Hg E0 Hw He Ha. apply Forall_app in Ty. destruct Ty as [Ta Tb]. apply Forall_cons_iff in Tb. destruct Tb as [Td Tb].
  assert (X : pol = Truncate \/ cshort_from [] (a ++ CReceive d :: b)) by (destruct Hx as [Hx|Hx]; [auto|right; apply cshort_of; exact Hx]).
  assert (Xa : pol = Truncate \/ cshort_from [] a).
  { destruct Hx as [Hx|Hx]; [auto|right]. apply cshort_of. intros es1 es2 ->. apply (Hx es1 (es2 ++ CReceive d :: b)). rewrite <- app_assoc. reflexivity. }
  destruct (crechunked_sim handler pol a a (crechunked_refl a) [] _ _ w (csim_init pol buf buf' B1 B2) Ta Ta Xa) as (s1 & t1 & w1 & o1 & E1 & E2 & S1).
  rewrite E0 in E1. injection E1 as <- <- <-.
  assert (Xb : pol = Truncate \/ cshort_from [] b).
  { destruct X as [X|X]; [auto|right]. apply cshort_split in X. cbn [cshort_from] in X. destruct X as [_ X]. destruct Hg as (is & [G1 G2] & _).
    apply (cshort_after b (carrived [] a ++ d) [] (is ++ items)); [|rewrite app_nil_r; exact X]. destruct Hw as [W1 W2].
    split; [apply Forall_app; auto|]. rewrite G2, W2, flat_map_app. reflexivity. }
  assert (Step : exists s2, client_step handler pol s0 w0 (CReceive d) = Ret (s2, w0, []) /\ csim pol [] s2 t1).
  { destruct S1 as [Ht Hs]. destruct (cc_shutdown s0) eqn:D.
    - exists s0. cbn [client_step]. unfold on_receive. rewrite D. split; [reflexivity|]. split; [exact Ht|left; exact D].
    - destruct Hs as [Hs|[Hp Hq]]; [discriminate Hs|]. apply boundary_rests in Hp; [|exact Hg]. apply boundary_rests in Hq; [|exact Hg].
      destruct (parse_whole _ items d Hp Td Hw He) as (p' & ms & Ep & HR & M). exists (with_parser s0 p'). cbn [client_step]. unfold on_receive. rewrite D, Ep. cbn [obind].
      rewrite strays_ignored.
      + split; [reflexivity|]. split; [exact Ht|]. right. split; apply rests_again; assumption.
      + intros m p Hm Hc. change (cc_current (with_parser s0 p')) with (cc_current s0) in Hc.
        destruct (in_forall2 _ _ _ M _ Hm) as (x & Hx1 & Hx2). apply filter_In in Hx1. destruct Hx2 as (M1 & M2 & _). rewrite M1, M2.
        assert (Hi : history handler pol a s0 w0 o0) by (exists buf, w; auto). apply history_reached in Hi. destruct Hi as [C _].
        apply (Ha x (pr_id p) (pr_unit p) (pr_tx p) (mbap_build 260 (pr_unit p) (pr_tx p) (pr_msg p))); [tauto|exact (co_current _ _ C p Hc)|].
        intros Hd. apply (co_gone _ _ C _ Hd). unfold live. rewrite Hc. left. reflexivity. }
  destruct Step as (s2 & E3 & S2).
  destruct (crechunked_sim handler pol b b (crechunked_refl b) [] s2 t1 w0 S2 Tb Tb Xb) as (s3 & t3 & w3 & o3 & E5 & E6 & S3).
  exists s3, t3, w3, (o0 ++ o3). rewrite (cruns_app handler pol a _ _ _ _ _ _ E0), (cruns_app handler pol a _ _ _ _ _ _ E2). cbn [client_run]. rewrite E3. cbn [obind app].
  rewrite E5, E6. cbn [obind app]. split; [reflexivity|]. split; [reflexivity|]. exact (proj1 S3).
Qed.
End Stray.
