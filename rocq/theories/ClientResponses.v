(** Proofs about the responses, errors and timeouts reported by the client channel. *)
From Verif Require Import Prelude Ser4 Messages Mbap SpecPdu SpecMbap Client SpecClient MbapFacts MbapLemmas BitFacts
  ClientFacts ClientLemmas ClientTx ClientShutdown.
From Coq Require Import Lia.

(** ** Positions in the stream *)
Lemma items_before xs : forall t ys r, incomplete t -> flat_map item_bytes xs ++ t = flat_map item_bytes ys ++ r ->
  exists zs, xs = ys ++ zs.
Proof.
  induction xs as [|x xs IH]; intros t [|y ys] r Hi E; cbn [flat_map app] in E; try (eexists; reflexivity).
  - subst t. rewrite <- app_assoc in Hi. destruct (item_not_incomplete _ _ Hi).
  - rewrite <- !app_assoc in E. apply item_bytes_inj in E. destruct E as [-> E].
    destruct (IH _ _ _ Hi E) as (zs & ->). exists zs. reflexivity.
Qed.

Lemma size_flat_app xs ys : size (flat_map item_bytes (xs ++ ys)) = size (flat_map item_bytes xs) + size (flat_map item_bytes ys).
Proof. rewrite flat_map_app, size_app. reflexivity. Qed.

(** An item cut off the buffered bytes and the chunk ends inside of the chunk. *)
Lemma cut_arrives bs items0 t chunk pol st l1 it l2 t' :
  Forall typed_item items0 -> bs = flat_map item_bytes items0 ++ t -> R pol st t ->
  Forall typed_item (l1 ++ it :: l2) -> t ++ chunk = flat_map item_bytes (l1 ++ it :: l2) ++ t' ->
  arrives bs chunk it.
Proof.
  intros Hty0 -> HR Hty E. exists (items0 ++ l1), (flat_map item_bytes l2 ++ t').
  assert (Heq : (flat_map item_bytes items0 ++ t) ++ chunk =
    flat_map item_bytes (items0 ++ l1) ++ item_bytes it ++ flat_map item_bytes l2 ++ t').
  { rewrite <- app_assoc, E, !flat_map_app. cbn [flat_map]. rewrite <- !app_assoc. reflexivity. }
  split; [|split; [exact Heq|]].
  { apply Forall_app in Hty. destruct Hty as [H1 H2]. apply Forall_cons_iff in H2.
    apply Forall_app. split; [apply Forall_app; auto|]. constructor; [tauto|constructor]. }
  assert (Hsz : size t + size chunk = size (flat_map item_bytes l1) + size (item_bytes it) + size (flat_map item_bytes l2 ++ t')).
  { rewrite <- size_app, E, flat_map_app. cbn [flat_map]. rewrite !size_app. lia. }
  destruct (N.lt_ge_cases (size (flat_map item_bytes l2 ++ t')) (size chunk)) as [H|H]; [left; exact H|]. right.
  assert (Hle : size (flat_map item_bytes l1 ++ item_bytes it) <= size t) by (rewrite size_app; lia).
  assert (Hpre : exists r, t = (flat_map item_bytes l1 ++ item_bytes it) ++ r).
  { assert (E' : t ++ chunk = (flat_map item_bytes l1 ++ item_bytes it) ++ flat_map item_bytes l2 ++ t').
    { rewrite E, flat_map_app. cbn [flat_map]. rewrite <- !app_assoc. reflexivity. }
    revert E' Hle. generalize (flat_map item_bytes l1 ++ item_bytes it) as x. generalize (flat_map item_bytes l2 ++ t') as y.
    intros y x E' Hle. exists (skipn (List.length x) t).
    rewrite <- (firstn_skipn (List.length x) t) at 1. f_equal.
    assert (F := f_equal (firstn (List.length x)) E').
    rewrite !firstn_app, Nat.sub_diag, firstn_all in F. cbn [firstn] in F. rewrite app_nil_r in F.
    replace (List.length x - List.length t)%nat with 0%nat in F by (unfold size in Hle; lia).
    cbn [firstn] in F. rewrite app_nil_r in F. exact F. }
  destruct Hpre as (r & Ht). destruct (R_tail _ _ _ HR) as [Hi|(i & Hti & Hbi & Hb)].
  - exfalso. rewrite Ht in Hi. destruct l1 as [|x l1]; cbn [flat_map app] in Hi; rewrite <- ?app_assoc in Hi;
      destruct (item_not_incomplete _ _ Hi).
  - assert (Hone : l1 = [] /\ it = i).
    { rewrite Ht in Hbi. assert (Hbs : size (item_bytes i) = 7) by (rewrite item_bytes_size; unfold body_of; rewrite Hb; reflexivity).
      destruct l1 as [|x l1].
      - cbn [flat_map app] in Hbi. rewrite <- (app_nil_r (item_bytes i)) in Hbi. apply item_bytes_inj in Hbi. tauto.
      - exfalso. apply (f_equal size) in Hbi. cbn [flat_map] in Hbi. rewrite Hbs, !size_app, !item_bytes_size in Hbi. lia. }
    destruct Hone as [-> ->]. split; [exact Hb|]. cbn [flat_map] in Hsz.
    change (size (@nil N)) with 0 in Hsz. rewrite Hbi in Hsz. lia.
Qed.

Section Responses.
Context {W : Type}.
Context (handler : nat -> W -> expected (list N) -> W * list capi).

(** ** Where responses come from *)
Lemma in_forall2 {A B} (P : A -> B -> Prop) l l' : Forall2 P l l' -> forall y, In y l' -> exists x, In x l /\ P x y.
Proof.
  induction 1 as [|x y l l' Hxy H IH]; intros z Hz; [destruct Hz|].
  destruct Hz as [->|Hz]; [exists x; cbn; auto|]. destruct (IH _ Hz) as (x' & ? & ?). exists x'. cbn; auto.
Qed.

Lemma receive_spec pol es s w os chunk s' w' o : history handler pol es s w os -> bytes chunk ->
  client_step handler pol s w (CReceive chunk) = Ret (s', w', o) -> cc_shutdown s = false ->
  exists p ms, on_responses handler (with_parser s p) w ms = (s', w', o) /\
    forall m, In m ms -> exists it, arrives (stream es) chunk it /\ deliverable it = true /\ got it m.
Proof.
  intros H Hb E Hs. destruct (history_reached _ _ _ _ _ _ H) as (C & St & (t & HR & Htr)).
  destruct (Htr Hs) as (items0 & Hty0 & Hbs).
  cbn [client_step] in E. unfold on_receive in E. rewrite Hs in E.
  destruct (parse_spec pol _ _ chunk HR Hb) as (p' & t' & items & outs & Ep & Hty & Hcut & HR' & Hm & _).
  rewrite Ep in E. cbn [obind] in E. injection E as E. exists p', outs. split; [exact E|].
  intros m Hin. destruct (in_forall2 _ _ _ Hm _ Hin) as (it & Hit & Hmatch). apply filter_In in Hit.
  destruct Hit as [Hit Hd]. apply in_split in Hit. destruct Hit as (l1 & l2 & ->).
  exists it. split; [|split; [exact Hd|apply (matches_got pol); exact Hmatch]].
  exact (cut_arrives _ _ _ _ _ _ _ _ _ _ Hty0 Hbs HR Hty Hcut).
Qed.

Lemma response_source pol es s w os e s' w' o a i d b : history handler pol es s w os -> typed_cevent e ->
  client_step handler pol s w e = Ret (s', w', o) -> os ++ o = a ++ Completed i (Value d) :: b ->
  (List.length os <= List.length a)%nat ->
  exists chunk it unit tx v, e = CReceive chunk /\ In (Sent i unit tx v) a /\ ~ In i (completed_ids a) /\
    arrives (stream es) chunk it /\ deliverable it = true /\
    got it {| mb_unit := unit; mb_tx := tx; mb_data := d |}.
Proof.
  intros H Ht E Eo Hlen.
  destruct (history_extend _ _ _ e _ _ _ H Ht) as (s2 & w2 & o2 & E2 & H2). rewrite E in E2. injection E2 as <- <- <-.
  destruct (history_reached _ _ _ _ _ _ H) as (C & St & Tr).
  destruct (history_reached _ _ _ _ _ _ H2) as (C2 & _).
  assert (Hnot : ~ In i (completed_ids a)).
  { assert (Hnd := co_once _ _ C2). rewrite Eo, completed_app in Hnd. cbn [completed_ids flat_map app] in Hnd.
    apply NoDup_remove_2 in Hnd. rewrite in_app_iff in Hnd. tauto. }
  apply split_at in Eo. destruct Eo as [(b1 & -> & _)|(a2 & -> & Eo)].
  { rewrite app_length in Hlen. cbn in Hlen. lia. }
  assert (Hin : In (Completed i (Value d)) o) by (rewrite Eo; apply in_or_app; cbn; auto).
  destruct e as [x| |chunk|msg|x|x].
  - exfalso. cbn [client_step] in E. destruct x; cbn [capi_call] in E; injection E as <- <- <-; cbn in Hin; intuition discriminate.
  - exfalso. cbn [client_step] in E. destruct (cc_queue s) as [|t q] eqn:Hq; [injection E as <- <- <-; destruct Hin|].
    destruct (run_ctask_spec handler s os w t q C St Hq) as (s3 & w3 & o3 & E3 & _ & _ & _ & _ & _ & _ & Hr & _).
    rewrite E3 in E. injection E as <- <- <-. destruct (Hr _ _ Hin). discriminate.
  - assert (Hs : cc_shutdown s = false).
    { destruct (cc_shutdown s) eqn:Hs; [|reflexivity]. exfalso. cbn [client_step] in E. unfold on_receive in E. rewrite Hs in E.
      injection E as <- <- <-. destruct Hin. }
    destruct (receive_spec _ _ _ _ _ _ _ _ _ H Ht E Hs) as (p & ms & Er & Hms).
    destruct (on_responses_spec handler ms (with_parser s p) os w (core_parser _ _ _ C) St)
      as (s3 & w3 & o3 & E3 & _ & _ & _ & _ & _ & _ & Hsrc).
    rewrite E3 in Er. injection Er as -> -> ->.
    destruct (Hsrc _ _ _ _ Eo) as (m & Hm & Hr & v & Hv). injection Hr as ->.
    destruct (Hms _ Hm) as (it & H1 & H3 & H4).
    exists chunk, it, (mb_unit m), (mb_tx m), v. split; [reflexivity|]. split; [exact Hv|]. split; [exact Hnot|].
    split; [exact H1|]. split; [exact H3|exact H4].
  - exfalso. cbn [client_step] in E. injection E as E.
    destruct (on_error_spec handler s os w msg C St) as (s3 & w3 & o3 & E3 & _ & _ & _ & _ & _ & Hd & He).
    rewrite E3 in E. injection E as <- <- <-. destruct (cc_shutdown s) eqn:Hs.
    + destruct (Hd eq_refl) as [_ ->]. destruct Hin.
    + destruct (He eq_refl) as (_ & _ & _ & _ & Hres & _).
      assert (Hx : In (i, Value d) (results o3)).
      { unfold results. apply in_flat_map. eexists. split; [exact Hin|]. cbn; auto. }
      rewrite Hres in Hx. apply in_map_iff in Hx. destruct Hx as (p & Hp & _). discriminate.
  - exfalso. cbn [client_step] in E. destruct (existsb (Nat.eqb x) (cc_armed s)); injection E as <- <- <-; destruct Hin.
  - exfalso. cbn [client_step] in E.
    destruct (existsb (Nat.eqb x) (cc_expired s)); [|injection E as <- <- <-; destruct Hin]. injection E as E.
    destruct (on_timeout_spec handler s os w x C St) as (s3 & w3 & o3 & E3 & _ & _ & _ & _ & _ & _ & Hr & _).
    rewrite E3 in E. injection E as <- <- <-. destruct (Hr _ _ Hin). discriminate.
Qed.

(** The response is not meant for a neighbouring request. *)
Lemma response_not_for pol es s w os e s' w' o i d unit tx v it j u t v' : history handler pol es s w os -> typed_cevent e ->
  client_step handler pol s w e = Ret (s', w', o) -> 
  In (Sent i unit tx v) (os ++ o) -> got it {| mb_unit := unit; mb_tx := tx; mb_data := d |} ->
  In (Sent j u t v') (os ++ o) -> i <> j -> N.of_nat j < N.of_nat i + 65536 -> N.of_nat i < N.of_nat j + 65536 ->
  i_tx it <> t.
Proof.
  intros H Ht E Hi (Htx & _) Hj Hne H1 H2 Heq. cbn [mb_tx] in Htx.
  destruct (history_extend _ _ _ e _ _ _ H Ht) as (s2 & w2 & o2 & E2 & H3). rewrite E in E2. injection E2 as <- <- <-.
  destruct (Nat.lt_trichotomy i j) as [Hlt|[->|Hlt]]; [|tauto|].
  - refine (tx_distinct_near _ _ _ _ _ _ _ _ _ _ _ _ _ _ H3 Hi Hj Hlt H1 _). congruence.
  - refine (tx_distinct_near _ _ _ _ _ _ _ _ _ _ _ _ _ _ H3 Hj Hi Hlt H2 _). congruence.
Qed.

(** ** Other frames change nothing *)
Lemma ignored_all ms : forall s w,
  (forall m p, In m ms -> cc_current s = Some p -> ~ (mb_tx m = pr_tx p /\ mb_unit m = pr_unit p)) ->
  on_responses handler s w ms = (s, w, []).
Proof.
  induction ms as [|m ms IH]; intros s w H; cbn [on_responses]; [reflexivity|].
  assert (E : on_response handler s w m = (s, w, [])).
  { unfold on_response. destruct (cc_shutdown s); [reflexivity|]. destruct (cc_current s) as [p|] eqn:Hp; [|reflexivity].
    destruct ((mb_tx m =? pr_tx p) && (mb_unit m =? pr_unit p)) eqn:Hm; [|reflexivity].
    exfalso. apply andb_prop in Hm. rewrite !N.eqb_eq in Hm. apply (H m p); cbn; auto. }
  rewrite E, IH; [reflexivity|]. intros m' p Hm'. apply H. cbn; auto.
Qed.

Lemma with_parser_same s p : with_parser (with_parser s p) (cc_parser (with_parser s p)) = with_parser s p.
Proof. reflexivity. Qed.

Lemma others_ignored pol es s w os chunk s' w' o : history handler pol es s w os -> bytes chunk ->
  client_step handler pol s w (CReceive chunk) = Ret (s', w', o) ->
  (forall it i v, arrives (stream es) chunk it -> deliverable it = true ->
     In (Sent i (i_unit it) (i_tx it) v) os -> In i (completed_ids os)) ->
  o = [] /\ w' = w /\ s' = with_parser s (cc_parser s').
Proof.
  intros H Hb E Hno. destruct (cc_shutdown s) eqn:Hs.
  { cbn [client_step] in E. unfold on_receive in E. rewrite Hs in E. injection E as <- <- <-.
    split; [reflexivity|]. split; [reflexivity|]. destruct s; reflexivity. }
  destruct (receive_spec _ _ _ _ _ _ _ _ _ H Hb E Hs) as (p & ms & Er & Hms).
  destruct (history_reached _ _ _ _ _ _ H) as (C & St & Tr).
  rewrite ignored_all in Er.
  - injection Er as <- <- <-. auto.
  - intros m q Hm Hq [H1 H2]. proj. destruct (Hms _ Hm) as (it & Ha & Hd & (G1 & G2 & _)).
    assert (Hc := co_current _ _ C _ Hq).
    assert (Hin : In (pr_id q) (completed_ids os)).
    { eapply (Hno it); eauto. rewrite <- G1, <- G2, H1, H2. exact Hc. }
    apply (co_gone _ _ C _ Hin). unfold live. rewrite Hq. cbn; auto.
Qed.

(** ** A matching response is reported *)
Lemma sent_outstanding pol es s w os i u t v : history handler pol es s w os -> ~ In TcpShutdown os ->
  In (Sent i u t v) os -> ~ In i (completed_ids os) ->
  exists p, cc_current s = Some p /\ pr_id p = i /\ pr_unit p = u /\ pr_tx p = t.
Proof.
  intros H Hn Hs Hc. assert (Hsh := not_down _ _ _ _ _ _ H Hn).
  destruct (history_reached _ _ _ _ _ _ H) as (C & _).
  assert (Hin := Hs). apply in_split in Hin. destruct Hin as (a & b & Eo).
  destruct (co_wire _ _ C _ _ _ _ _ _ Eo) as [Hx|(_ & [Hx|(p & Hp & Hid)])].
  - exfalso. apply Hc. rewrite Eo, completed_app. apply in_or_app. right. exact Hx.
  - congruence.
  - exists p. split; [exact Hp|]. split; [exact Hid|].
    assert (Hcur := co_current _ _ C _ Hp). rewrite Hid in Hcur.
    assert (Eq := sent_unique _ _ _ _ _ _ _ _ (co_sent_sorted _ _ C) Hcur Hs). injection Eq as -> -> _. auto.
Qed.

Lemma forall2_middle {A B} (P : A -> B -> Prop) a x b l' : Forall2 P (a ++ x :: b) l' ->
  exists a' y b', l' = a' ++ y :: b' /\ Forall2 P a a' /\ P x y /\ Forall2 P b b'.
Proof.
  revert l'. induction a as [|z a IH]; intros l' H; cbn [app] in H.
  - inversion H as [|? y ? b' Hxy Hb]; subst. exists [], y, b'. auto.
  - inversion H as [|? y ? l2 Hxy Hb]; subst. destruct (IH _ Hb) as (a' & y' & b' & -> & Ha & Hx & Hb').
    exists (y :: a'), y', b'. auto.
Qed.

Lemma responses_app ms ms' s w :
  on_responses handler s w (ms ++ ms') =
  let '(s1, w1, o1) := on_responses handler s w ms in
  let '(s2, w2, o2) := on_responses handler s1 w1 ms' in (s2, w2, o1 ++ o2).
Proof.
  revert s w. induction ms as [|m ms IH]; intros s w; cbn [app on_responses].
  - destruct (on_responses handler s w ms') as [[s2 w2] o2]. reflexivity.
  - destruct (on_response handler s w m) as [[s1 w1] o1]. rewrite IH.
    destruct (on_responses handler s1 w1 ms) as [[s2 w2] o2].
    destruct (on_responses handler s2 w2 ms') as [[s3 w3] o3]. rewrite app_assoc. reflexivity.
Qed.

Lemma response_reported pol es s w os i u t v chunk before pdu after s' w' o :
  history handler pol es s w os -> bytes chunk -> ~ In TcpShutdown os ->
  In (Sent i u t v) os -> ~ In i (completed_ids os) ->
  Forall typed_item before -> 1 <= size pdu <= 253 ->
  stream es ++ chunk = flat_map item_bytes before ++ frame_bytes t u pdu ++ after -> size after < size chunk ->
  (forall it, In it before -> i_tx it = t -> i_unit it = u -> arrives (stream es) chunk it -> deliverable it = false) ->
  client_step handler pol s w (CReceive chunk) = Ret (s', w', o) ->
  exists o', o = Completed i (Value pdu) :: o'.
Proof.
  intros H Hb Hn Hsent Hnc Hbef Hpdu Estream Hafter Hother E.
  assert (Hs := not_down _ _ _ _ _ _ H Hn).
  destruct (sent_outstanding _ _ _ _ _ _ _ _ _ H Hn Hsent Hnc) as (p & Hp & <- & <- & <-).
  destruct (history_reached _ _ _ _ _ _ H) as (C & St & (tl & HR & Htr)).
  destruct (Htr Hs) as (items0 & Hty0 & Hbs).
  cbn [client_step] in E. unfold on_receive in E. rewrite Hs in E.
  destruct (parse_spec pol _ _ chunk HR Hb) as (p' & t' & items & outs & Ep & Hty & Hcut & HR' & Hm & _).
  rewrite Ep in E. cbn [obind] in E. injection E as E.
  set (F := frame (pr_tx p) (pr_unit p) pdu) in *.
  assert (Eall : flat_map item_bytes (items0 ++ items) ++ t' = flat_map item_bytes (before ++ [F]) ++ after).
  { rewrite !flat_map_app. cbn [flat_map]. rewrite app_nil_r, <- !app_assoc, <- Hcut.
    rewrite app_assoc, <- Hbs. exact Estream. }
  assert (Hprefix : exists zs, items0 ++ items = (before ++ [F]) ++ zs).
  { destruct (R_tail _ _ _ HR') as [Hi|(e & He & -> & Hbody)].
    - exact (items_before _ _ _ _ Hi Eall).
    - assert (Eall' : flat_map item_bytes ((items0 ++ items) ++ [e]) ++ [] = flat_map item_bytes (before ++ [F]) ++ after).
      { rewrite flat_map_app. cbn [flat_map]. rewrite !app_nil_r. exact Eall. }
      assert (Hnil : incomplete []) by (left; reflexivity).
      destruct (items_before _ _ _ _ Hnil Eall') as (zs & Hz).
      destruct zs as [|z zs] using rev_ind.
      + exfalso. rewrite app_nil_r in Hz. apply app_inj_tail in Hz. destruct Hz as [_ ->].
        cbn in Hbody. injection Hbody as ->. change (size (@nil N)) with 0 in Hpdu. lia.
      + rewrite app_assoc in Hz. apply app_inj_tail in Hz. exists zs. tauto. }
  destruct Hprefix as (zs & Hz).
  assert (Hin0 : exists before2, before = items0 ++ before2 /\ items = before2 ++ F :: zs).
  { rewrite <- app_assoc in Hz. cbn [app] in Hz. clear - Hz Hafter Estream Hbs.
    apply split_at in Hz. destruct Hz as [(b1 & -> & _)|(a2 & -> & ->)]; [|exists a2; auto].
    exfalso. rewrite Hbs in Estream. rewrite flat_map_app in Estream. cbn [flat_map] in Estream.
    apply (f_equal size) in Estream. unfold frame_bytes in Estream. fold F in Estream.
    rewrite !size_app in Estream. lia. }
  destruct Hin0 as (before2 & Hb2 & Hitems). rewrite Hitems in Hm.
  rewrite filter_app in Hm. cbn [filter] in Hm.
  replace (deliverable F) with true in Hm by reflexivity.
  apply forall2_middle in Hm. destruct Hm as (ms1 & mF & ms2 & -> & Hm1 & HmF & _).
  rewrite responses_app in E. rewrite (ignored_all ms1 (with_parser s p') w) in E.
  - cbn [on_responses] in E. cbn [app] in E.
    assert (EF : exists s1 w1 o1, on_response handler (with_parser s p') w mF = (s1, w1, Completed (pr_id p) (Value pdu) :: o1)).
    { unfold on_response. proj. rewrite Hs, Hp. destruct HmF as (G1 & G2 & G3 & _).
      cbn [F frame i_tx i_unit] in G1, G2. rewrite G1, G2, !N.eqb_refl. cbn [andb].
      assert (Gd : mb_data mF = pdu).
      { rewrite G3; [reflexivity|]. unfold long. cbn [F frame body_of i_body]. lia. }
      rewrite Gd.
      destruct (call_handler_spec handler (cancel_timer (with_parser s p')) w (pr_id p) (Value pdu)) as (w1 & q & o1 & m & E1 & _).
      rewrite E1. match goal with |- context [check_pending_requests ?x] => destruct (check_pending_requests x) as [s2 o2] end.
      cbn [app]. eauto. }
    destruct EF as (s1 & w1 & o1 & EF). rewrite EF in E.
    destruct (on_responses handler s1 w1 ms2) as [[s2 w2] o2]. cbn [app] in E. injection E as <- <- <-. eauto.
  - intros m q Hmin Hq [T1 T2]. proj. rewrite Hp in Hq. injection Hq as <-.
    destruct (in_forall2 _ _ _ Hm1 _ Hmin) as (it & Hit & (G1 & G2 & _)). apply filter_In in Hit.
    destruct Hit as [Hit Hd].
    assert (Harr : arrives (stream es) chunk it).
    { apply in_split in Hit. destruct Hit as (l1 & l2 & ->). rewrite Hitems in Hcut, Hty.
      rewrite <- app_assoc in Hcut, Hty. cbn [app] in Hcut, Hty. exact (cut_arrives _ _ _ _ _ _ _ _ _ _ Hty0 Hbs HR Hty Hcut). }
    rewrite (Hother it) in Hd; try discriminate; try congruence. rewrite Hb2. apply in_or_app. auto.
Qed.
End Responses.
