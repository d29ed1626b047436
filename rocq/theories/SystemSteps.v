(** Every step of the system preserves the invariant. *)
From Verif Require Import Prelude Ser4 Messages Mbap Client Server Database System.
From Verif Require Import SpecPdu SpecMbap SpecClient SpecServer SpecDb SpecSystem.
From Verif Require Import Tac BuildFacts CodecLemmas MbapFacts MbapLemmas FrameFacts DatabaseFacts DbLemmas.
From Verif Require Import ClientFacts ClientLemmas ClientTx ClientShutdown ClientResponses ClientOutcomes.
From Verif Require Import SystemServe SystemClient SystemFacts.

Section Steps.
Context {W : Type}.
Context (handler : nat -> W -> expected (list N) -> W * list capi).
Context (pol : copy_policy).
Context (units : list N).
Context (F0 : tables).
Hypothesis sess : session_handler handler.

Notation inv := (inv handler pol units F0).

Definition good (es : list yevent) (y : system W) (os : list youtput) : Prop :=
  exists ces wait pend log, inv es y os ces wait pend log.

(** ** The client's own events *)
Lemma value_source ces s w os e s' w' o i d : history handler pol ces s w os -> typed_cevent e ->
  client_step handler pol s w e = Ret (s', w', o) -> In (Completed i (Value d)) o -> exists data, e = CReceive data.
Proof.
  intros Hh Ht E Hi. apply in_split in Hi. destruct Hi as (a & b & Eo).
  destruct (response_source handler pol ces s w os e s' w' o (os ++ a) i d b Hh Ht E) as (chunk & it & u & tx & v & -> & _).
  - rewrite Eo, app_assoc. reflexivity.
  - rewrite app_length. lia.
  - eauto.
Qed.

Lemma rejected_unsent ces s w os i : history handler pol ces s w os ->
  In (Completed i (Error EMalformedRequest)) os -> ~ In i (sent_ids os).
Proof.
  intros Hh Hi. destruct (history_reached _ _ _ _ _ _ Hh) as (C & _ & _).
  destruct (co_results _ _ C _ _ Hi) as (k & Hk & [[Hv _]|[_ [(d & Hd)|[Hd|(m & Hd)]]]]); try discriminate Hd.
  apply (invalid_never_sent handler pol _ _ _ _ _ _ Hh Hk Hv).
Qed.

Lemma step_simple es y os e ye :
  good es y os ->
  typed_cevent e -> (forall a, e = CApi a -> by_session a) ->
  (forall data, e <> CReceive data) -> (forall msg, e <> CError msg) -> view e ye ->
  exists y' o, on_client handler pol y e = Ret (y', o) /\ good (es ++ [ye]) y' (os ++ o).
Proof.
  intros (ces & wait & pend & log & I) Ht Ha Hr He Hf.
  assert (Hh := iv_hist _ _ _ _ _ _ _ _ _ _ _ I).
  destruct (history_extend handler pol ces e _ _ _ Hh Ht) as (s' & w' & o & E & Hh').
  destruct (history_reached _ _ _ _ _ _ Hh) as (C & St & _).
  destruct (step_rest handler pol _ _ _ _ _ _ _ C St E) as [Hsh Hp]. specialize (Hp Hr He).
  unfold on_client. rewrite E. cbn [obind]. do 2 eexists. split; [reflexivity|].
  destruct (inv_client handler pol units F0 sess es y os ces wait pend log e ye s' w' o [] pend (y_down y) I E Ht Ha)
    as (qs & I'); auto.
  - intros Hs. rewrite Hp. apply (iv_down _ _ _ _ _ _ _ _ _ _ _ I). auto.
  - intros _ i d Hi. destruct (value_source _ _ _ _ _ _ _ _ _ _ Hh Ht E Hi) as (data & ->). destruct (Hr data eq_refl).
  - intros Hnf Hs i Hi. apply in_completed in Hi. destruct Hi as (r & Hi).
    assert (Hnf' : forall t, e <> CFire t).
    { intros t ->. apply (Hnf t). apply in_or_app. right. left. apply Hf. }
    rewrite (step_rejects handler pol _ _ _ _ _ _ _ _ _ _ Hh E Hi Hr He Hnf') in Hi.
    assert (Hn : ~ In i (sent_ids (client_outputs os ++ o))).
    { apply (rejected_unsent _ _ _ _ _ Hh'). apply in_or_app. right. exact Hi. }
    rewrite sent_app in Hn. split.
    + intros q Hq Eq. apply Hn. apply in_or_app. left. rewrite <- Eq. apply wire_sent.
      apply in_app_or in Hq. destruct Hq as [Hq|Hq].
      * apply in_map_iff in Hq. destruct Hq as ([q' pdu] & <- & Hq). apply (iv_pend _ _ _ _ _ _ _ _ _ _ _ I _ _ Hq).
      * apply (iv_wait _ _ _ _ _ _ _ _ _ _ _ I _ _ Hq).
    + intros Hi'. apply Hn. apply in_or_app. right. exact Hi'.
  - intros p Hcp. destruct (step_current handler pol _ _ _ _ _ _ _ E Hcp Hr) as [Hc|Hc]; [right|left; exact Hc].
    split; [exact Hc|]. intros _ a [].
  - do 4 eexists. exact I'.
Qed.

(** ** Bytes for the client *)
Lemma frame_messages_in arrived m : In m (map frame_message (map ans_frame arrived)) ->
  exists a, In a arrived /\ mb_tx m = q_tx (fst a) /\ mb_unit m = q_unit (fst a) /\ mb_data m = snd a.
Proof.
  intros H. apply in_map_iff in H. destruct H as (f & <- & H). apply in_map_iff in H.
  destruct H as (a & <- & H). exists a. auto.
Qed.

Lemma pend_ok es y os ces wait pend log : inv es y os ces wait pend log -> Forall frame_ok (map ans_frame pend).
Proof.
  intros I. apply Forall_forall. intros f Hf. apply in_map_iff in Hf. destruct Hf as ([q pdu] & <- & Hf).
  destruct (iv_pend _ _ _ _ _ _ _ _ _ _ _ I _ _ Hf) as (((H1 & H2 & _) & _) & (H3 & H4) & _).
  exact (conj H1 (conj H2 (conj H3 H4))).
Qed.

Lemma map_split {A B} (f : A -> B) l a b : map f l = a ++ b -> exists l1 l2, l = l1 ++ l2 /\ a = map f l1 /\ b = map f l2.
Proof.
  revert a. induction l as [|x l IH]; intros a E.
  - destruct a; [|discriminate E]. destruct b; [|discriminate E]. exists [], []. auto.
  - destruct a as [|y a]; cbn [map app] in E.
    + exists [], (x :: l). auto.
    + injection E as <- E. destruct (IH a E) as (l1 & l2 & -> & -> & ->). exists (x :: l1), l2. auto.
Qed.

Lemma few_same ces s w os i u tx v j u' v' : history handler pol ces s w os ->
  N.of_nat (List.length (called_ids os)) <= 65536 ->
  In (Sent i u tx v) os -> In (Sent j u' tx v') os -> i = j.
Proof.
  intros Hh Hn Hi Hj. destruct (history_reached _ _ _ _ _ _ Hh) as (C & _ & _).
  assert (B : forall k u t v, In (Sent k u t v) os -> N.of_nat k < 65536).
  { intros k uu t vv Hk. destruct (co_frames _ _ C _ _ _ _ Hk) as (kk & Hk' & _).
    assert (Hin : In k (called_ids os)) by (apply in_called; eauto).
    assert (Ec := co_called _ _ C). assert (L := f_equal (@List.length nat) Ec). rewrite seq_length in L.
    rewrite Ec in Hin. apply in_seq in Hin. lia. }
  assert (B1 := B _ _ _ _ Hi). assert (B2 := B _ _ _ _ Hj).
  destruct (Nat.lt_trichotomy i j) as [H|[H|H]]; [|exact H|]; exfalso.
  - eapply (tx_distinct_near handler pol); [exact Hh|exact Hi|exact Hj|exact H|lia|reflexivity].
  - eapply (tx_distinct_near handler pol); [exact Hh|exact Hj|exact Hi|exact H|lia|reflexivity].
Qed.

Lemma step_down es y os n : good es y os ->
  exists y' o, system_step handler pol y (YDown n) = Ret (y', o) /\ good (es ++ [YDown n]) y' (os ++ o).
Proof.
  intros (ces & wait & pend & log & I). cbn [system_step].
  assert (Hh := iv_hist _ _ _ _ _ _ _ _ _ _ _ I).
  destruct (history_reached _ _ _ _ _ _ Hh) as (C & St & _).
  set (data := firstn n (y_down y (y_conn y))).
  set (down := fun x => if x =? y_conn y then skipn n (y_down y x) else y_down y x).
  assert (Hdn : forall c, c <> y_conn y -> down c = y_down y c).
  { intros c Hc. unfold down. replace (c =? y_conn y) with false by (symmetry; apply N.eqb_neq; exact Hc). reflexivity. }
  assert (Hds : data ++ down (y_conn y) = y_down y (y_conn y)).
  { unfold down, data. rewrite N.eqb_refl. apply firstn_skipn. }
  unfold on_client. cbn [y_client y_user y_server y_db y_conn y_up y_down client_step]. unfold on_receive.
  destruct (cc_shutdown (y_client y)) eqn:Es.
  - cbn [obind]. do 2 eexists. split; [reflexivity|].
    assert (E : client_step handler pol (y_client y) (y_user y) (CReceive []) = Ret (y_client y, y_user y, [])).
    { cbn [client_step]. unfold on_receive. rewrite Es. reflexivity. }
    destruct (inv_client handler pol units F0 sess es y os ces wait pend log (CReceive []) (YDown n)
                (y_client y) (y_user y) [] [] pend down I E) as (qs & I'); auto.
    + constructor.
    + intros a Ha. discriminate Ha.
    + intros Hs. congruence.
    + intros _ i d [].
    + exact Logic.I.
    + do 4 eexists. exact I'.
  - destruct (iv_down _ _ _ _ _ _ _ _ _ _ _ I Es) as (t & HR & Et).
    rewrite <- Hds in Et.
    destruct (frames_parse pol _ _ _ _ _ HR (pend_ok _ _ _ _ _ _ _ I) Et) as (p' & t' & fa & fl & Efs & Epar & HR' & Et').
    destruct (map_split _ _ _ _ Efs) as (arrived & left & Ep & -> & ->).
    assert (Hb : bytes data).
    { assert (B := fbs_bytes _ (pend_ok _ _ _ _ _ _ _ I)). rewrite <- Et in B. apply bytes_app in B. destruct B as [_ B].
      apply bytes_app in B. apply B. }
    rewrite Epar. cbn [obind].
    destruct (on_responses_spec handler (map frame_message (map ans_frame arrived))
                (with_parser (y_client y) p') (client_outputs os) (y_user y)
                (core_parser _ _ _ C) St)
      as (s' & w' & o & Eo & C' & _ & Hsh & Hpar & _ & _ & Hcomp).
    rewrite Eo. do 2 eexists. split; [reflexivity|].
    assert (E : client_step handler pol (y_client y) (y_user y) (CReceive data) = Ret (s', w', o)).
    { cbn [client_step]. unfold on_receive. rewrite Es, Epar. cbn [obind]. rewrite Eo. reflexivity. }
    destruct (history_extend handler pol ces (CReceive data) _ _ _ Hh Hb) as (s1 & w1 & o1 & E1 & Hh').
    rewrite E in E1. injection E1 as <- <- <-.
    assert (Salone : no_fire es -> forall i r, In (Completed i r) o ->
      exists q, arrived = [(q, match r with Value d => d | _ => [] end)] /\ left = [] /\ wait (y_conn y) = [] /\
        q_id q = i /\ r = Value (match r with Value d => d | _ => [] end)).
    { intros Hnf i r Hi. destruct arrived as [|[q pdu] rest].
      - cbn [map on_responses] in Eo. injection Eo as <- <- <-. destruct Hi.
      - assert (Hq : In q (flight pend (wait (y_conn y)))) by (rewrite Ep; left; reflexivity).
        assert (N := flight_once _ _ _ _ _ _ _ _ _ _ _ I).
        assert (Hall : map q_id (flight (rest ++ left) (wait (y_conn y))) = []).
        { destruct (flight (rest ++ left) (wait (y_conn y))) as [|q2 l] eqn:El; [reflexivity|]. exfalso.
          assert (Ef : flight pend (wait (y_conn y)) = q :: q2 :: l).
          { rewrite Ep. unfold flight in *. cbn [app map fst]. rewrite El. reflexivity. }
          rewrite Ef in N. cbn [map] in N. inversion N as [|x xs H1 H2]; subst x xs. apply H1. left.
          symmetry. apply (alone_one _ _ _ _ _ _ _ _ _ _ _ _ _ I Hnf Es); [exact Hq|].
          rewrite Ef. right. left. reflexivity. }
        apply map_eq_nil in Hall. unfold flight in Hall. apply app_eq_nil in Hall. destruct Hall as [Hall Hw].
        apply map_eq_nil in Hall. apply app_eq_nil in Hall. destruct Hall as [H1 H2]. subst rest left.
        cbn [map on_responses] in Eo.
        destruct (on_response handler (with_parser (y_client y) p') (y_user y) (frame_message (ans_frame (q, pdu))))
          as [[s2 w2] o2] eqn:E2.
        injection Eo as <- <- <-. rewrite app_nil_r in Hi.
        destruct (response_completes handler _ _ _ _ _ _ _ _ E2 Hi) as (p & Hc & Hid & ->).
        destruct (alone_current _ _ _ _ _ _ _ _ _ _ _ _ I Hnf Es Hq) as (p2 & Hc2 & Hid2).
        cbn [with_parser cc_current] in Hc. assert (p2 = p) by congruence. subst p2.
        exists q. cbn. repeat split; auto. congruence. }
    destruct (inv_client handler pol units F0 sess es y os ces wait pend log (CReceive data) (YDown n)
                s' w' o arrived left down I E) as (qs & I'); auto.
    + intros a Ha. discriminate Ha.
    + intros Hs. exists t'. rewrite Hpar. split; [exact HR'|exact Et'].
    + intros Htm i d Hi. destruct Htm as [Hnf|Hfew].
      * destruct (Salone (no_fire_prefix _ _ Hnf) _ _ Hi) as (q & Ea & _ & _ & Hq & _).
        exists q. rewrite Ea. split; [left; reflexivity|exact Hq].
      * apply in_split in Hi. destruct Hi as (a & b & Eab).
        destruct (Hcomp _ _ _ _ Eab) as (msg & Hm & Hr & v & Hsent).
        apply frame_messages_in in Hm. destruct Hm as ([q pdu] & Hm & Htx & Hun & Hda).
        cbn [fst snd] in *. injection Hr as ->. rewrite Hda.
        exists q. split; [exact Hm|]. rewrite Htx, Hun in Hsent.
        assert (Hw : on_wire os q).
        { apply (iv_pend _ _ _ _ _ _ _ _ _ _ _ I q pdu). rewrite Ep. apply in_or_app. left. exact Hm. }
        destruct Hw as (_ & t0 & f & _ & Hs). apply in_couts in Hs.
        rewrite couts_app, couts_yc in Hfew.
        apply (few_same _ _ _ _ (q_id q) (q_unit q) (q_tx q) f i (q_unit q) v Hh' Hfew).
        -- apply in_or_app. left. exact Hs.
        -- rewrite Eab, app_assoc. apply in_or_app. left. exact Hsent.
    + intros Hnf Hs i Hi. apply in_completed in Hi. destruct Hi as (r & Hi).
      destruct (Salone (no_fire_prefix _ _ Hnf) _ _ Hi) as (q & Ea & -> & Ew & Hq & _). split.
      * intros q' Hq'. unfold flight in Hq'. rewrite Ew in Hq'. destruct Hq'.
      * rewrite <- Hq. assert (Hw : on_wire os q).
        { eapply (iv_pend _ _ _ _ _ _ _ _ _ _ _ I). rewrite Ep, Ea. left. reflexivity. }
        apply wire_sent in Hw. destruct (history_reached _ _ _ _ _ _ Hh') as (C1 & _ & _).
        assert (S1 := sorted_nodup _ (co_sent_sorted _ _ C1)). rewrite sent_app in S1.
        apply NoDup_app_parts in S1. apply S1. exact Hw.
    + intros p Hp. destruct (responses_current handler _ _ _ _ _ _ _ Eo Hp) as [[Hc Hm]|Hi]; [right|left; exact Hi].
      split; [exact Hc|]. intros _ a Ha Hmatch.
      apply (Hm Es (frame_message (ans_frame a))); [apply in_map; apply in_map; exact Ha|exact Hmatch].
    + exact Logic.I.
    + do 4 eexists. exact I'.
Qed.

(** ** A new connection *)
Lemma failed_no_value msg l i d : ~ In (i, Value d) (map (failed msg) l).
Proof. intros H. apply in_map_iff in H. destruct H as (p & E & _). discriminate E. Qed.

Lemma no_sent_bytes o : sent_ids o = [] -> client_bytes o = [].
Proof.
  induction o as [|x o IH]; intros H; [reflexivity|].
  destruct x; cbn [sent_ids flat_map app] in H; try discriminate H; cbn [client_bytes flat_map app]; apply IH; exact H.
Qed.

Lemma step_break es y os msg buf : good es y os -> good_buf buf ->
  exists y' o, system_step handler pol y (YBreak msg buf) = Ret (y', o) /\ good (es ++ [YBreak msg buf]) y' (os ++ o).
Proof.
  intros (ces & wait & pend & log & I) Hbuf. cbn [system_step].
  assert (Hh := iv_hist _ _ _ _ _ _ _ _ _ _ _ I).
  destruct (history_reached _ _ _ _ _ _ Hh) as (C & St & Tr).
  destruct (on_error_spec handler _ _ (y_user y) msg C St) as (s' & w' & o & E & C' & St' & Hsh & _ & _ & Hdn & Hok).
  assert (Est : client_step handler pol (y_client y) (y_user y) (CError msg) = Ret (s', w', o)).
  { cbn [client_step]. rewrite E. reflexivity. }
  unfold on_client. rewrite Est. cbn [obind]. unfold on_server. cbn [server_step y_server y_db y_conn obind].
  do 2 eexists. split; [reflexivity|]. cbn [y_client y_user y_server y_db y_conn y_up y_down map app]. rewrite app_nil_r.
  assert (Hso : sent_ids o = []).
  { destruct (cc_shutdown (y_client y)) eqn:Es; [destruct (Hdn eq_refl) as [_ ->]; reflexivity|apply (Hok eq_refl)]. }
  assert (Hno : forall i d, ~ In (Completed i (Value d)) o).
  { intros i d Hi. destruct (cc_shutdown (y_client y)) eqn:Es; [destruct (Hdn eq_refl) as [_ ->]; destruct Hi|].
    destruct (Hok eq_refl) as (_ & _ & _ & _ & Hr & _). apply (in_results handler) in Hi. rewrite Hr in Hi.
    exact (failed_no_value _ _ _ _ Hi). }
  destruct (history_extend handler pol ces (CError msg) _ _ _ Hh Logic.I) as (s1 & w1 & o1 & E1 & Hh').
  rewrite Est in E1. injection E1 as <- <- <-.
  assert (Hnext : wait (y_conn y + 1) = [] /\ y_up y (y_conn y + 1) = [] /\ y_down y (y_conn y + 1) = []).
  { destruct (iv_new _ _ _ _ _ _ _ _ _ _ _ I (y_conn y + 1)) as (_ & H2 & H3 & H4); [lia|auto]. }
  exists (ces ++ [CError msg]), wait, [], log.
  constructor; cbn [y_client y_user y_server y_db y_conn y_up y_down].
  - rewrite couts_app, couts_yc. exact Hh'.
  - intros i k Hi. apply in_app_or in Hi. destruct Hi as [Hi|Hi]; [exact (iv_sess _ _ _ _ _ _ _ _ _ _ _ I _ _ Hi)|].
    apply in_map_iff in Hi. destruct Hi as (x & Ex & Hi). injection Ex as ->.
    assert (T := step_session handler sess _ _ _ _ _ _ _ Est). rewrite Forall_forall in T.
    apply (T ltac:(intros; discriminate) _ Hi).
  - intros c Hc. cbn [set_conn sv_conns]. destruct (c =? y_conn y + 1) eqn:Ec.
    + apply N.eqb_eq in Ec. subst c. exists (mbap_new buf), []. split; [reflexivity|].
      split; [apply R_new; exact Hbuf|]. destruct Hnext as (-> & -> & _).
      rewrite (no_sent_bytes _ Hso). destruct (_ =? _); reflexivity.
    + destruct (iv_up _ _ _ _ _ _ _ _ _ _ _ I c) as (p & t & H1 & H2 & H3).
      { apply N.eqb_neq in Ec. lia. }
      exists p, t. rewrite (no_sent_bytes _ Hso), app_nil_r. split; [exact H1|]. split; [exact H2|].
      destruct (c =? y_conn y); exact H3.
  - intros c Hc. destruct (iv_new _ _ _ _ _ _ _ _ _ _ _ I c) as (H1 & H2 & H3 & H4); [lia|].
    cbn [set_conn sv_conns]. replace (c =? y_conn y + 1) with false by (symmetry; apply N.eqb_neq; lia).
    rewrite (no_sent_bytes _ Hso), H2, H3. cbn [server_bytes flat_map app].
    destruct (_ =? _); auto.
  - intros c q Hq. destruct (iv_wait _ _ _ _ _ _ _ _ _ _ _ I _ _ Hq) as [H1 H2].
    split; [apply on_wire_app; exact H1|exact H2].
  - apply (iv_wait_once _ _ _ _ _ _ _ _ _ _ _ I).
  - apply (iv_wait_conn _ _ _ _ _ _ _ _ _ _ _ I).
  - apply (iv_once _ _ _ _ _ _ _ _ _ _ _ I).
  - intros i Hi. rewrite couts_app, sent_app. apply in_or_app. left. exact (iv_executed _ _ _ _ _ _ _ _ _ _ _ I _ Hi).
  - intros Hs. rewrite Hsh in Hs. destruct (Hok Hs) as (Hp & _).
    exists []. rewrite Hp. destruct Hnext as (_ & _ & ->). split; [|reflexivity].
    destruct Tr as (t & HR & _). apply R_reset. apply HR.
  - intros q pdu [].
  - constructor.
  - apply accesses_quiet; [apply (iv_log _ _ _ _ _ _ _ _ _ _ _ I)|apply yc_quiet].
  - apply (iv_db _ _ _ _ _ _ _ _ _ _ _ I).
  - apply (iv_calls _ _ _ _ _ _ _ _ _ _ _ I).
  - intros _ _ q Hq. unfold flight in Hq. destruct Hnext as (Hn & _). rewrite Hn in Hq. destruct Hq.
  - intros Htm a i d b Eo.
    destruct (done_past _ _ _ _ _ _ _ _ _ _ _ _ [] _ I Htm _ _ _ _ Eo) as [(q & n & v & H1 & H2 & H3 & H4)|(a' & -> & Eo')].
    + rewrite app_nil_r in H3. exists q, n, v. exact (conj H1 (conj H2 (conj H3 H4))).
    + exfalso. assert (H : In (YC (Completed i (Value d))) (map YC o)) by (rewrite Eo'; apply in_or_app; right; left; reflexivity).
      apply in_map_iff in H. destruct H as (x & Ex & H). injection Ex as ->. exact (Hno _ _ H).
  - cbn [set_conn sv_shutdown sv_sessions]. apply (iv_reg _ _ _ _ _ _ _ _ _ _ _ I).
  - intros Hs _ p Hp. rewrite Hsh in Hs. destruct (Hok Hs) as (_ & Hc & _). congruence.
  - apply views_app; [apply (iv_view _ _ _ _ _ _ _ _ _ _ _ I)|]. exists buf. reflexivity.
Qed.

(** ** The server's own events *)
Definition quiet_output (o : output) : Prop :=
  match o with OConsult _ _ | OSend _ _ => False | _ => True end.

Lemma quiet_bytes c o : Forall quiet_output o -> server_bytes c o = [].
Proof.
  induction 1 as [|x o Hx _ IH]; [reflexivity|]. destruct x; try destruct Hx; cbn [server_bytes flat_map app]; exact IH.
Qed.

Lemma quiet_calls o : Forall quiet_output o -> Forall (fun o => db_calls [o] = []) (map YS o).
Proof. induction 1 as [|x o Hx _ IH]; constructor; [destruct x; try destruct Hx; reflexivity|exact IH]. Qed.

Lemma db_shutdown_sessions l : forall s d, exists o, shutdown_sessions db_shutdown s d l = (s, d, o) /\ Forall quiet_output o.
Proof.
  induction l as [|[u x] l IH]; intros s d; cbn [shutdown_sessions].
  - exists []. split; [reflexivity|constructor].
  - cbn [db_shutdown api_calls fold_left]. destruct (IH s d) as (o & -> & Ho).
    exists (OSessionShutdown x :: o). split; [reflexivity|]. constructor; [exact Logic.I|exact Ho].
Qed.

Lemma insert_keeps l u x v : find_session l v <> None -> find_session (insert_session l u x) v <> None.
Proof.
  unfold insert_session. destruct (find_session l u); [auto|]. intros H.
  induction l as [|[a b] l IH]; cbn [find_session app] in *; [congruence|].
  destruct (a =? v); [discriminate|auto].
Qed.

Lemma server_quiet s d e : match e with EApi _ | ERun => True | _ => False end ->
  exists s' o, server_step db_session db_shutdown pol s d e = Ret (s', d, o) /\ Forall quiet_output o /\
    sv_conns s' = sv_conns s /\
    (sv_shutdown s' = false -> sv_shutdown s = false /\
       forall u, find_session (sv_sessions s) u <> None -> find_session (sv_sessions s') u <> None).
Proof.
  destruct e as [a| |c b|c dt|c]; intros He; try destruct He; cbn [server_step].
  - eexists _, []. split; [reflexivity|]. split; [constructor|].
    destruct a; cbn [api_call]; try destruct (sv_shutdown s) eqn:Es; cbn [set_queue sv_conns sv_shutdown sv_sessions];
      split; auto; intros; split; congruence || auto.
  - destruct (sv_queue s) as [|t q]; [exists s, []; split; [reflexivity|]; split; [constructor|]; auto|].
    destruct t as [| |u x]; cbn [run_task set_queue sv_shutdown sv_started sv_sessions sv_queue sv_conns].
    + destruct (sv_shutdown s) eqn:Es; eexists _, _; (split; [reflexivity|]); (split; [repeat constructor|]);
        cbn [sv_conns sv_shutdown sv_sessions set_queue]; split; auto; intros; split; auto; congruence.
    + set (s1 := {| sv_shutdown := true; sv_started := false; sv_sessions := sv_sessions s;
                    sv_queue := q; sv_conns := sv_conns s |}).
      destruct (db_shutdown_sessions (sv_sessions s1) s1 d) as (o & Eo & Ho).
      change (sv_sessions s) with (sv_sessions s1). rewrite Eo.
      eexists _, _. split; [reflexivity|]. split.
      * apply Forall_app. split; [destruct (sv_started s); repeat constructor|exact Ho].
      * split; [reflexivity|]. cbn [sv_shutdown s1]. discriminate.
    + destruct (sv_shutdown s) eqn:Es; eexists _, _; (split; [reflexivity|]); (split; [constructor|]);
        cbn [sv_conns sv_shutdown sv_sessions set_queue]; split; auto; intros; split; auto; try congruence.
      intros. apply insert_keeps. assumption.
Qed.

Lemma step_quiet es y os e ye : good es y os -> match e with EApi _ | ERun => True | _ => False end ->
  exists y' o, on_server pol y e = Ret (y', o) /\ good (es ++ [ye]) y' (os ++ o).
Proof.
  intros (ces & wait & pend & log & I) He.
  destruct (server_quiet (y_server y) (y_db y) e He) as (s' & o & E & Ho & Hc & Hs).
  unfold on_server. rewrite E. cbn [obind]. do 2 eexists. split; [reflexivity|].
  exists ces, wait, pend, log.
  constructor; cbn [y_client y_user y_server y_db y_conn y_up y_down].
  - rewrite couts_app, couts_ys, app_nil_r. apply (iv_hist _ _ _ _ _ _ _ _ _ _ _ I).
  - intros i k Hi. apply in_app_or in Hi. destruct Hi as [Hi|Hi]; [exact (iv_sess _ _ _ _ _ _ _ _ _ _ _ I _ _ Hi)|].
    apply in_map_iff in Hi. destruct Hi as (x & Ex & _). discriminate Ex.
  - intros c Hcc. rewrite Hc. apply (iv_up _ _ _ _ _ _ _ _ _ _ _ I c Hcc).
  - intros c Hcc. rewrite Hc, quiet_bytes, app_nil_r by exact Ho. apply (iv_new _ _ _ _ _ _ _ _ _ _ _ I c Hcc).
  - intros c q Hq. destruct (iv_wait _ _ _ _ _ _ _ _ _ _ _ I _ _ Hq) as [H1 H2].
    split; [apply on_wire_app; exact H1|exact H2].
  - apply (iv_wait_once _ _ _ _ _ _ _ _ _ _ _ I).
  - apply (iv_wait_conn _ _ _ _ _ _ _ _ _ _ _ I).
  - apply (iv_once _ _ _ _ _ _ _ _ _ _ _ I).
  - rewrite couts_app, couts_ys, app_nil_r. apply (iv_executed _ _ _ _ _ _ _ _ _ _ _ I).
  - rewrite quiet_bytes, app_nil_r by exact Ho. apply (iv_down _ _ _ _ _ _ _ _ _ _ _ I).
  - intros q pdu Hq. destruct (iv_pend _ _ _ _ _ _ _ _ _ _ _ I q pdu Hq) as (H1 & H2 & H3).
    split; [apply on_wire_app; exact H1|]. split; [exact H2|exact H3].
  - apply (iv_pend_once _ _ _ _ _ _ _ _ _ _ _ I).
  - apply accesses_quiet; [apply (iv_log _ _ _ _ _ _ _ _ _ _ _ I)|apply quiet_calls; exact Ho].
  - apply (iv_db _ _ _ _ _ _ _ _ _ _ _ I).
  - apply (iv_calls _ _ _ _ _ _ _ _ _ _ _ I).
  - intros Hf. rewrite couts_app, couts_ys, app_nil_r. apply (iv_alone _ _ _ _ _ _ _ _ _ _ _ I (no_fire_prefix _ _ Hf)).
  - intros Htm a i d b Eo.
    destruct (done_past _ _ _ _ _ _ _ _ _ _ _ _ [] _ I Htm _ _ _ _ Eo) as [(q & n & v & H1 & H2 & H3 & H4)|(a' & -> & Eo')].
    + rewrite app_nil_r in H3. exists q, n, v. exact (conj H1 (conj H2 (conj H3 H4))).
    + exfalso. assert (H : In (YC (Completed i (Value d))) (map YS o)) by (rewrite Eo'; apply in_or_app; right; left; reflexivity).
      apply in_map_iff in H. destruct H as (x & Ex & _). discriminate Ex.
  - intros Hd u Hu. destruct (Hs Hd) as [H1 H2]. apply H2. exact (iv_reg _ _ _ _ _ _ _ _ _ _ _ I H1 u Hu).
  - intros H1 H2. apply (iv_lost _ _ _ _ _ _ _ _ _ _ _ I H1). apply Hs. exact H2.
  - apply views_more. apply (iv_view _ _ _ _ _ _ _ _ _ _ _ I).
Qed.

(** ** Local users of the database *)
Lemma step_local es y os c : good es y os -> typed_call c ->
  exists y' o, system_step handler pol y (YLocal c) = Ret (y', o) /\ good (es ++ [YLocal c]) y' (os ++ o).
Proof.
  intros (ces & wait & pend & log & I) Hc. cbn [system_step].
  destruct (call_body_spec (y_db y) c (iv_db _ _ _ _ _ _ _ _ _ _ _ I) Hc) as (d' & r & E & Hw & Hsp).
  rewrite E. cbn [obind]. do 2 eexists. split; [reflexivity|].
  exists ces, wait, pend, (log ++ [{| x_call := c; x_result := r; x_by := None |}]).
  assert (Ex : executed (log ++ [{| x_call := c; x_result := r; x_by := None |}]) = executed log).
  { rewrite executed_app. cbn. apply app_nil_r. }
  assert (Co : client_outputs (os ++ [YD c r]) = client_outputs os).
  { rewrite couts_app. cbn. apply app_nil_r. }
  constructor; cbn [y_client y_user y_server y_db y_conn y_up y_down]; rewrite ?Ex, ?Co.
  - apply (iv_hist _ _ _ _ _ _ _ _ _ _ _ I).
  - intros i k Hi. apply in_app_or in Hi. destruct Hi as [Hi|Hi]; [exact (iv_sess _ _ _ _ _ _ _ _ _ _ _ I _ _ Hi)|].
    destruct Hi as [Hi|[]]. discriminate Hi.
  - apply (iv_up _ _ _ _ _ _ _ _ _ _ _ I).
  - apply (iv_new _ _ _ _ _ _ _ _ _ _ _ I).
  - intros k q Hq. destruct (iv_wait _ _ _ _ _ _ _ _ _ _ _ I _ _ Hq) as [H1 H2].
    split; [apply on_wire_app; exact H1|exact H2].
  - apply (iv_wait_once _ _ _ _ _ _ _ _ _ _ _ I).
  - apply (iv_wait_conn _ _ _ _ _ _ _ _ _ _ _ I).
  - apply (iv_once _ _ _ _ _ _ _ _ _ _ _ I).
  - apply (iv_executed _ _ _ _ _ _ _ _ _ _ _ I).
  - apply (iv_down _ _ _ _ _ _ _ _ _ _ _ I).
  - intros q pdu Hq. destruct (iv_pend _ _ _ _ _ _ _ _ _ _ _ I q pdu Hq) as (H1 & H2 & n & v & H3).
    split; [apply on_wire_app; exact H1|]. split; [exact H2|]. exists n, v. apply explains_app. exact H3.
  - apply (iv_pend_once _ _ _ _ _ _ _ _ _ _ _ I).
  - apply AC_local. apply (iv_log _ _ _ _ _ _ _ _ _ _ _ I).
  - exact Hw.
  - rewrite !map_app. apply calls_spec_app with (F1 := contents (y_db y)); [apply (iv_calls _ _ _ _ _ _ _ _ _ _ _ I)|].
    cbn [map x_call x_result]. apply CS_cons with (F1 := contents d'); [exact Hsp|]. constructor. apply unchanged_refl.
  - intros Hf. apply (iv_alone _ _ _ _ _ _ _ _ _ _ _ I (no_fire_prefix _ _ Hf)).
  - intros Htm a i d b Eo.
    destruct (done_past _ _ _ _ _ _ _ _ _ _ _ _ [{| x_call := c; x_result := r; x_by := None |}] _ I Htm _ _ _ _ Eo)
      as [H|(a' & -> & Eo')]; [exact H|].
    exfalso. destruct a' as [|x a']; [discriminate Eo'|]. injection Eo' as _ Eo'. destruct a'; discriminate Eo'.
  - apply (iv_reg _ _ _ _ _ _ _ _ _ _ _ I).
  - apply (iv_lost _ _ _ _ _ _ _ _ _ _ _ I).
  - apply views_more. apply (iv_view _ _ _ _ _ _ _ _ _ _ _ I).
Qed.

(** ** Requests that reach the server *)
Definition pairs (answers : list answer) : list (sent * list N) := map (fun a => (a_sent a, a_pdu a)) answers.

Lemma pairs_sent answers : map fst (pairs answers) = map a_sent answers.
Proof. unfold pairs. rewrite map_map. reflexivity. Qed.

Lemma answers_bytes c c' answers :
  server_bytes c' (flat_map (answer_outputs c) answers) =
  if c' =? c then flat_map fb (map ans_frame (pairs answers)) else [].
Proof.
  rewrite N.eqb_sym.
  induction answers as [|a l IH]; cbn [flat_map answer_outputs app server_bytes pairs map]; [destruct (c =? c'); reflexivity|].
  unfold server_bytes in IH. rewrite IH. destruct (c =? c'); [|reflexivity]. rewrite written_some. reflexivity.
Qed.

Lemma answers_accesses c answers : forall os log, accesses os log -> Forall (fun a => on_wire os (a_sent a)) answers ->
  accesses (os ++ map YS (flat_map (answer_outputs c) answers)) (log ++ map answer_access answers).
Proof.
  induction answers as [|a l IH]; intros os log Ha Hw; cbn [flat_map answer_outputs app map].
  - rewrite !app_nil_r. exact Ha.
  - inversion Hw as [|a' l' H1 H2]; subst a' l'. destruct H1 as (_ & t & f & H3 & H4).
    change (YS (OConsult (a_session a) (q_req (a_sent a)))
            :: YS (OSend c (map Some (fb (ans_frame (a_sent a, a_pdu a))))) :: map YS (flat_map (answer_outputs c) l))
      with ([YS (OConsult (a_session a) (q_req (a_sent a)))]
            ++ [YS (OSend c (map Some (fb (ans_frame (a_sent a, a_pdu a)))))] ++ map YS (flat_map (answer_outputs c) l)).
    change (answer_access a :: map answer_access l) with ([answer_access a] ++ map answer_access l).
    rewrite !app_assoc. apply IH.
    + apply AC_other; [|reflexivity]. exact (AC_request _ _ _ _ _ _ _ _ _ _ Ha H3 H4).
    + eapply Forall_impl; [|exact H2]. intros b Hb. rewrite <- app_assoc. apply on_wire_app. exact Hb.
Qed.

Lemma answers_executed answers : executed (map answer_access answers) = map q_id (map a_sent answers).
Proof. induction answers as [|a l IH]; [reflexivity|]. cbn [map executed flat_map answer_access x_by app]. f_equal. exact IH. Qed.

Lemma answers_explain log answers q pdu : Forall good_answer answers -> In (q, pdu) (pairs answers) ->
  exists n v, explains (log ++ map answer_access answers) q pdu n v.
Proof.
  intros Hg Hi. apply in_map_iff in Hi. destruct Hi as (a & E & Hi). injection E as <- <-.
  rewrite Forall_forall in Hg. destruct (Hg a Hi) as [H1 _].
  destruct (In_nth_error _ _ Hi) as (k & Hk). exists (List.length log + k)%nat, (a_val a). split; [|exact H1].
  rewrite nth_error_app2 by lia. replace (List.length log + k - List.length log)%nat with k by lia.
  rewrite nth_error_map, Hk. reflexivity.
Qed.

Lemma quiet_answer_value c answers a i d b : map YS (flat_map (answer_outputs c) answers) = a ++ YC (Completed i (Value d)) :: b -> False.
Proof.
  intros E. assert (H : In (YC (Completed i (Value d))) (map YS (flat_map (answer_outputs c) answers))).
  { rewrite E. apply in_or_app. right. left. reflexivity. }
  apply in_map_iff in H. destruct H as (x & Ex & _). discriminate Ex.
Qed.

Lemma NoDup_filter_ids (f : sent -> bool) l : NoDup (map q_id l) -> NoDup (map q_id (filter f l)).
Proof.
  induction l as [|x l IH]; intros H; [constructor|]. inversion H as [|x' l' H1 H2]; subst.
  cbn [filter]. destruct (f x); [|auto]. cbn [map]. constructor; [|auto].
  intros Hi. apply H1. apply in_map_iff in Hi. destruct Hi as (y & <- & Hy). apply in_map. apply filter_In in Hy. apply Hy.
Qed.

Lemma step_up es y os c n : good es y os ->
  exists y' o, system_step handler pol y (YUp c n) = Ret (y', o) /\ good (es ++ [YUp c n]) y' (os ++ o).
Proof.
  intros (ces & wait & pend & log & I). cbn [system_step]. unfold on_server.
  cbn [y_server y_db y_conn y_client y_user y_up y_down server_step].
  set (data := firstn n (y_up y c)).
  set (up := fun x => if x =? c then skipn n (y_up y x) else y_up y x).
  destruct (N.le_gt_cases c (y_conn y)) as [Hc|Hc].
  2:{ destruct (iv_new _ _ _ _ _ _ _ _ _ _ _ I c Hc) as (H1 & H2 & H3 & H4).
      rewrite H1. cbn [obind]. do 2 eexists. split; [reflexivity|]. exists ces, wait, pend, log.
      assert (Hup : forall x, up x = y_up y x).
      { intros x. unfold up. destruct (x =? c) eqn:Ex; [|reflexivity]. apply N.eqb_eq in Ex. subst x.
        rewrite H2. destruct n; reflexivity. }
      cbn [map server_bytes flat_map]. rewrite app_nil_r.
      destruct I as [I1 I2 I3 I4 I5 I6 I7 I8 I9 I10 I11 I12 I13 I14 I15 Ialone Idone I18 I19 I20].
      constructor; cbn [y_client y_user y_server y_db y_conn y_up y_down]; auto.
      - intros x Hx. rewrite Hup. auto.
      - intros x Hx. rewrite Hup, app_nil_r. auto.
      - rewrite app_nil_r. auto.
      - intros Hf. apply Ialone. exact (no_fire_prefix _ _ Hf).
      - intros Ht. apply Idone. apply (timely_prefix es (YUp c n) os []). rewrite app_nil_r. exact Ht.
      - apply views_more. exact I20. }
  destruct (iv_up _ _ _ _ _ _ _ _ _ _ _ I c Hc) as (p & t & Ep & HR & Et). rewrite Ep.
  assert (Hd : data ++ up c = y_up y c).
  { unfold up, data. rewrite N.eqb_refl. apply firstn_skipn. }
  assert (Hup : forall x, x <> c -> up x = y_up y x).
  { intros x Hx. unfold up. replace (x =? c) with false by (symmetry; apply N.eqb_neq; exact Hx). reflexivity. }
  assert (Hok : Forall frame_ok (map req_frame (wait c))).
  { rewrite Forall_forall. intros f Hf. apply in_map_iff in Hf. destruct Hf as (q & <- & Hq).
    apply req_frame_ok. apply (iv_wait _ _ _ _ _ _ _ _ _ _ _ I _ _ Hq). }
  rewrite <- Hd in Et.
  destruct (frames_parse pol _ _ _ _ _ HR Hok Et) as (p' & t' & fa & fl & Efs & Epar & HR' & Et').
  destruct (map_split _ _ _ _ Efs) as (arrived & left & Ew & -> & ->).
  rewrite Epar. cbn [obind].
  assert (Hgood : Forall good_sent arrived).
  { rewrite Forall_forall. intros q Hq.
    apply (iv_wait _ _ _ _ _ _ _ _ _ _ _ I c q). rewrite Ew. apply in_or_app. left. exact Hq. }
  destruct (serve_batch c arrived (set_conn (y_server y) c (Some p')) (y_db y) (iv_db _ _ _ _ _ _ _ _ _ _ _ I) Hgood)
    as (d' & answers & Eb & Hw & Hm & Hcalls & Hga).
  rewrite Eb. cbn [obind]. do 2 eexists. split; [reflexivity|].
  assert (Hreg : forall u, registered (set_conn (y_server y) c (Some p')) u = registered (y_server y) u) by reflexivity.
  assert (Hans : forall q, In q (map a_sent answers) -> In q arrived).
  { intros q Hq. rewrite Hm in Hq. apply filter_In in Hq. apply Hq. }
  assert (Harr : forall q, In q arrived -> In q (wait c)).
  { intros q Hq. rewrite Ew. apply in_or_app. left. exact Hq. }
  assert (Hleft : forall q, In q left -> In q (wait c)).
  { intros q Hq. rewrite Ew. apply in_or_app. right. exact Hq. }
  assert (Hwire : forall q, In q (map a_sent answers) -> on_wire os q /\ ~ In (q_id q) (executed log)).
  { intros q Hq. apply (iv_wait _ _ _ _ _ _ _ _ _ _ _ I c). apply Harr, Hans, Hq. }
  assert (Honce := iv_wait_once _ _ _ _ _ _ _ _ _ _ _ I c). rewrite Ew, map_app in Honce.
  destruct (NoDup_app_parts _ _ Honce) as (Ha1 & Ha2 & Ha3).
  assert (Hnd : NoDup (map q_id (map a_sent answers))) by (rewrite Hm; apply NoDup_filter_ids; exact Ha1).
  set (wait' := fun x => if x =? c then left else wait x).
  assert (Hwait' : forall x q, In q (wait' x) -> In q (wait x)).
  { intros x q. unfold wait'. destruct (x =? c) eqn:Ex; [|auto]. apply N.eqb_eq in Ex. subst x. apply Hleft. }
  set (pend' := if c =? y_conn y then pend ++ pairs answers else pend).
  assert (Hpend' : forall q pdu, In (q, pdu) pend' -> In (q, pdu) pend \/ In (q, pdu) (pairs answers)).
  { intros q pdu. unfold pend'. destruct (c =? y_conn y); [|auto]. intros H. apply in_app_or in H. exact H. }
  assert (Hfl : forall q, In q (flight pend' (wait' (y_conn y))) -> In q (flight pend (wait (y_conn y)))).
  { intros q. unfold flight, pend', wait'. rewrite (N.eqb_sym (y_conn y) c). destruct (c =? y_conn y) eqn:Ec; [|auto].
    apply N.eqb_eq in Ec. subst c. rewrite map_app, pairs_sent. intros H. apply in_app_or in H. apply in_or_app.
    destruct H as [H|H]; [|right; apply Hleft, H]. apply in_app_or in H. destruct H as [H|H]; [left; exact H|].
    right. apply Harr, Hans, H. }
  exists ces, wait', pend', (log ++ map answer_access answers).
  constructor; cbn [y_client y_user y_server y_db y_conn y_up y_down];
    rewrite ?couts_app, ?couts_ys, ?app_nil_r.
  - apply (iv_hist _ _ _ _ _ _ _ _ _ _ _ I).
  - intros i k Hi. apply in_app_or in Hi. destruct Hi as [Hi|Hi]; [exact (iv_sess _ _ _ _ _ _ _ _ _ _ _ I _ _ Hi)|].
    apply in_map_iff in Hi. destruct Hi as (x & Ex & _). discriminate Ex.
  - intros x Hx. cbn [set_conn sv_conns]. unfold wait'. destruct (x =? c) eqn:Ex.
    + apply N.eqb_eq in Ex. subst x. exists p', t'. auto.
    + apply N.eqb_neq in Ex. rewrite Hup by exact Ex. apply (iv_up _ _ _ _ _ _ _ _ _ _ _ I x Hx).
  - intros x Hx. assert (Hxc : x <> c) by lia. rewrite Hup by exact Hxc. cbn [set_conn sv_conns]. unfold wait'.
    rewrite answers_bytes. replace (x =? c) with false by (symmetry; apply N.eqb_neq; exact Hxc). rewrite app_nil_r.
    apply (iv_new _ _ _ _ _ _ _ _ _ _ _ I x Hx).
  - intros x q Hq. destruct (iv_wait _ _ _ _ _ _ _ _ _ _ _ I x q (Hwait' _ _ Hq)) as [H1 H2].
    split; [apply on_wire_app; exact H1|]. rewrite executed_app, answers_executed. intros Hi.
    apply in_app_or in Hi. destruct Hi as [Hi|Hi]; [exact (H2 Hi)|].
    apply in_map_iff in Hi. destruct Hi as (q' & Eq & Hq').
    assert (Ex := iv_wait_conn _ _ _ _ _ _ _ _ _ _ _ I c x q' q (Harr _ (Hans _ Hq')) (Hwait' _ _ Hq) Eq). subst x.
    unfold wait' in Hq. rewrite N.eqb_refl in Hq. apply (Ha3 (q_id q)); [|apply in_map; exact Hq].
    rewrite <- Eq. apply in_map. apply Hans. exact Hq'.
  - intros x. unfold wait'. destruct (x =? c); [exact Ha2|apply (iv_wait_once _ _ _ _ _ _ _ _ _ _ _ I)].
  - intros x x' q q' Hq Hq'. apply (iv_wait_conn _ _ _ _ _ _ _ _ _ _ _ I x x' q q'); apply Hwait'; assumption.
  - rewrite executed_app, answers_executed. apply NoDup_app_intro; [apply (iv_once _ _ _ _ _ _ _ _ _ _ _ I)|exact Hnd|].
    intros i Hi Hj. apply in_map_iff in Hj. destruct Hj as (q & <- & Hq). apply (proj2 (Hwire q Hq)). exact Hi.
  - rewrite executed_app, answers_executed. intros i Hi. apply in_app_or in Hi.
    destruct Hi as [Hi|Hi]; [exact (iv_executed _ _ _ _ _ _ _ _ _ _ _ I _ Hi)|].
    apply in_map_iff in Hi. destruct Hi as (q & <- & Hq). apply wire_sent. apply (Hwire q Hq).
  - intros Hs. destruct (iv_down _ _ _ _ _ _ _ _ _ _ _ I Hs) as (td & H1 & H2). exists td. split; [exact H1|].
    rewrite answers_bytes. unfold pend'. rewrite (N.eqb_sym (y_conn y) c).
    destruct (c =? y_conn y); [|rewrite app_nil_r; exact H2].
    rewrite map_app, flat_map_app, app_assoc, H2. reflexivity.
  - intros q pdu Hq. destruct (Hpend' _ _ Hq) as [H|H].
    + destruct (iv_pend _ _ _ _ _ _ _ _ _ _ _ I q pdu H) as (H1 & H2 & k & v & H3).
      split; [apply on_wire_app; exact H1|]. split; [exact H2|]. exists k, v. apply explains_app. exact H3.
    + assert (Hi := H). unfold pairs in Hi. apply in_map_iff in Hi. destruct Hi as (a & Ea & Hi). injection Ea as <- <-.
      split; [apply on_wire_app; apply (Hwire (a_sent a)); apply in_map; exact Hi|].
      rewrite Forall_forall in Hga. split; [apply (Hga a Hi)|]. apply answers_explain; [rewrite Forall_forall; exact Hga|exact H].
  - unfold pend'. destruct (c =? y_conn y); [|apply (iv_pend_once _ _ _ _ _ _ _ _ _ _ _ I)].
    rewrite !map_app, pairs_sent. apply NoDup_app_intro; [apply (iv_pend_once _ _ _ _ _ _ _ _ _ _ _ I)|exact Hnd|].
    intros i Hi Hj. apply in_map_iff in Hj. destruct Hj as (q & <- & Hq). apply (proj2 (Hwire q Hq)).
    apply in_map_iff in Hi. destruct Hi as (q2 & Eq & Hi). apply in_map_iff in Hi. destruct Hi as ((q3 & pdu) & E3 & Hi).
    cbn [fst] in E3. subst q3. destruct (iv_pend _ _ _ _ _ _ _ _ _ _ _ I q2 pdu Hi) as (_ & _ & k & v & H3).
    rewrite <- Eq. exact (explains_pend_executed _ _ _ _ _ H3).
  - apply answers_accesses; [apply (iv_log _ _ _ _ _ _ _ _ _ _ _ I)|]. rewrite Forall_forall. intros a Ha.
    apply (Hwire (a_sent a)). apply in_map. exact Ha.
  - exact Hw.
  - rewrite !map_app. apply calls_spec_app with (F1 := contents (y_db y)); [apply (iv_calls _ _ _ _ _ _ _ _ _ _ _ I)|exact Hcalls].
  - intros Hf Hs q Hq. apply (iv_alone _ _ _ _ _ _ _ _ _ _ _ I (no_fire_prefix _ _ Hf) Hs). apply Hfl. exact Hq.
  - intros Htm a i d b Eo.
    destruct (done_past _ _ _ _ _ _ _ _ _ _ _ _ (map answer_access answers) _ I Htm _ _ _ _ Eo) as [H|(a' & -> & Eo')]; [exact H|].
    exfalso. exact (quiet_answer_value _ _ _ _ _ _ Eo').
  - cbn [set_conn sv_shutdown sv_sessions]. apply (iv_reg _ _ _ _ _ _ _ _ _ _ _ I).
  - cbn [set_conn sv_shutdown]. intros Hs Hv pr Hp Hu.
    destruct (iv_lost _ _ _ _ _ _ _ _ _ _ _ I Hs Hv pr Hp Hu) as (q & Hq & Eq).
    exists q. split; [|exact Eq]. unfold flight in *. unfold pend', wait'. rewrite (N.eqb_sym (y_conn y) c).
    destruct (c =? y_conn y) eqn:Ec; [|exact Hq]. apply N.eqb_eq in Ec. subst c.
    rewrite map_app, pairs_sent, <- app_assoc. apply in_app_or in Hq. apply in_or_app.
    destruct Hq as [Hq|Hq]; [left; exact Hq|]. right. rewrite Ew in Hq. apply in_app_or in Hq. apply in_or_app.
    destruct Hq as [Hq|Hq]; [|right; exact Hq]. left. rewrite Hm. apply filter_In. split; [exact Hq|].
    destruct (history_reached _ _ _ _ _ _ (iv_hist _ _ _ _ _ _ _ _ _ _ _ I)) as (C & _ & _).
    assert (Hsent := co_current _ _ C _ Hp). rewrite <- Eq in Hsent.
    destruct (wire_unique handler pol _ _ _ _ _ _ _ _ (iv_hist _ _ _ _ _ _ _ _ _ _ _ I)
                (proj1 (iv_wait _ _ _ _ _ _ _ _ _ _ _ I _ _ (Harr _ Hq))) (proj1 (in_couts _ _) Hsent)) as [Eu _].
    rewrite Hreg, <- Eu. unfold registered. rewrite Hv. cbn [negb andb].
    assert (Hr := iv_reg _ _ _ _ _ _ _ _ _ _ _ I Hv _ Hu).
    destruct (find_session (sv_sessions (y_server y)) (pr_unit pr)); [reflexivity|congruence].
  - apply views_more. apply (iv_view _ _ _ _ _ _ _ _ _ _ _ I).
Qed.
End Steps.
