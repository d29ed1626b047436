(** The invariant of the whole system. *)
From Verif Require Import Prelude Ser4 Messages Mbap Client Server Database System.
From Verif Require Import SpecPdu SpecMbap SpecClient SpecServer SpecDb SpecSystem.
From Verif Require Import Tac BuildFacts CodecLemmas MbapFacts MbapLemmas FrameFacts DatabaseFacts DbLemmas.
From Verif Require Import ClientFacts ClientLemmas ClientTx ClientShutdown ClientResponses ClientOutcomes.
From Verif Require Import SystemServe SystemClient.

(** ** Observations *)
Lemma couts_app a b : client_outputs (a ++ b) = client_outputs a ++ client_outputs b.
Proof. apply flat_map_app. Qed.

Lemma couts_yc o : client_outputs (map YC o) = o.
Proof. induction o as [|x o IH]; [reflexivity|]. cbn [map client_outputs flat_map app]. f_equal. exact IH. Qed.

Lemma couts_ys o : client_outputs (map YS o) = [].
Proof. induction o as [|x o IH]; [reflexivity|]. exact IH. Qed.

Lemma in_couts o os : In o (client_outputs os) <-> In (YC o) os.
Proof.
  unfold client_outputs. rewrite in_flat_map. split.
  - intros (x & Hx & Ho). destruct x as [x|x|c r]; [destruct Ho as [->|[]]; exact Hx|destruct Ho|destruct Ho].
  - intros H. exists (YC o). split; [exact H|left; reflexivity].
Qed.

Lemma db_calls_app a b : db_calls (a ++ b) = db_calls a ++ db_calls b.
Proof. apply flat_map_app. Qed.

Lemma db_calls_yc o : db_calls (map YC o) = [].
Proof. induction o as [|x o IH]; [reflexivity|]. exact IH. Qed.

Lemma accesses_calls os log : accesses os log -> map x_call log = db_calls os.
Proof.
  induction 1 as [|os log o _ IH Ho|os log c r _ IH|os log i u r t tx f x v _ IH]; [reflexivity|..];
    rewrite db_calls_app, ?map_app, IH.
  - rewrite Ho, app_nil_r. reflexivity.
  - reflexivity.
  - reflexivity.
Qed.

Lemma accesses_length os log : accesses os log -> List.length (db_calls os) = List.length log.
Proof. intros H. rewrite <- (accesses_calls _ _ H), map_length. reflexivity. Qed.

Lemma accesses_quiet os log os' : accesses os log -> Forall (fun o => db_calls [o] = []) os' -> accesses (os ++ os') log.
Proof.
  intros H Hq. revert os H. induction Hq as [|o os' Ho _ IH]; intros os H; [rewrite app_nil_r; exact H|].
  replace (os ++ o :: os') with ((os ++ [o]) ++ os') by (rewrite <- app_assoc; reflexivity).
  apply IH. apply AC_other; assumption.
Qed.

Lemma yc_quiet o : Forall (fun o => db_calls [o] = []) (map YC o).
Proof. induction o as [|x o IH]; constructor; [reflexivity|exact IH]. Qed.

Lemma executed_app a b : executed (a ++ b) = executed a ++ executed b.
Proof. apply flat_map_app. Qed.

Lemma in_executed log i : In i (executed log) <-> exists x, In x log /\ x_by x = Some i.
Proof.
  unfold executed. rewrite in_flat_map. split; intros (x & Hx & Hi); exists x; (split; [exact Hx|]).
  - destruct (x_by x) as [j|]; [destruct Hi as [->|[]]; reflexivity|destruct Hi].
  - rewrite Hi. left. reflexivity.
Qed.

Lemma calls_spec_app cs : forall F rs F1 cs' rs' F2,
  calls_spec F cs rs F1 -> calls_spec F1 cs' rs' F2 -> calls_spec F (cs ++ cs') (rs ++ rs') F2.
Proof.
  induction cs as [|c cs IH]; intros F rs F1 cs' rs' F2 H H2.
  - inversion H as [Fa Fb Hu E1 E2 E3|]. subst. cbn [app].
    apply calls_spec_ext with (F := F1); [apply unchanged_sym; assumption|exact H2].
  - inversion H as [|Fa c' r G cs1 rs1 Fb H3 H4 E1 E2 E3]. subst. cbn [app].
    apply CS_cons with (F1 := G); [assumption|]. apply IH with (F1 := F1); assumption.
Qed.

Lemma NoDup_app_intro {A} (a b : list A) : NoDup a -> NoDup b -> (forall x, In x a -> ~ In x b) -> NoDup (a ++ b).
Proof.
  induction a as [|x a IH]; intros Ha Hb Hd; [exact Hb|]. inversion Ha as [|x' a' H1 H2]; subst.
  cbn [app]. constructor.
  - intros Hi. apply in_app_or in Hi. destruct Hi as [Hi|Hi]; [exact (H1 Hi)|]. exact (Hd x (or_introl eq_refl) Hi).
  - apply IH; auto. intros y Hy. apply Hd. right. exact Hy.
Qed.

Lemma NoDup_app_parts {A} (a b : list A) : NoDup (a ++ b) -> NoDup a /\ NoDup b /\ forall x, In x a -> ~ In x b.
Proof.
  induction a as [|x a IH]; cbn [app]; intros H; [repeat split; auto; constructor|].
  inversion H as [|x' a' H1 H2]; subst. destruct (IH H2) as (Ha & Hb & Hd). repeat split; auto.
  - constructor; [|exact Ha]. intros Hi. apply H1. apply in_or_app. left. exact Hi.
  - intros y [<-|Hy]; [|apply Hd; exact Hy]. intros Hi. apply H1. apply in_or_app. right. exact Hi.
Qed.

(** ** Requests on the wire *)
Definition on_wire (os : list youtput) (q : sent) : Prop :=
  good_sent q /\ exists t f,
    In (YC (Called (q_id q) (session_call (q_unit q) (q_req q) t))) os /\
    In (YC (Sent (q_id q) (q_unit q) (q_tx q) f)) os.

Lemma on_wire_app os os' q : on_wire os q -> on_wire (os ++ os') q.
Proof.
  intros (Hg & t & f & H1 & H2). split; [exact Hg|]. exists t, f. split; apply in_or_app; left; assumption.
Qed.

Lemma written_some l : written (map Some l) = l.
Proof. unfold written. rewrite map_map. apply map_id. Qed.

Section Invariant.
Context {W : Type}.
Context (handler : nat -> W -> expected (list N) -> W * list capi).
Context (pol : copy_policy).
Context (units : list N).
Context (F0 : tables).
Hypothesis sess : session_handler handler.

Lemma sends_of ces s w os o :
  history handler pol ces s w (client_outputs os) ->
  (forall i k, In (YC (Called i k)) os -> by_session (Submit k)) ->
  incl (map YC o) os ->
  exists qs, map q_id qs = sent_ids o /\ client_bytes o = flat_map fb (map req_frame qs) /\ Forall (on_wire os) qs.
Proof.
  intros Hh Hs. induction o as [|x o IH]; intros Hi.
  - exists []. repeat split. constructor.
  - destruct IH as (qs & H1 & H2 & H3); [intros y Hy; apply Hi; right; exact Hy|].
    assert (Hx : In (YC x) os) by (apply Hi; left; reflexivity).
    destruct x as [i k|i u tx v|i t d|i r|];
      try (exists qs; exact (conj H1 (conj H2 H3))).
    apply in_couts in Hx.
    destruct (frames_sent handler pol _ _ _ _ _ _ _ _ Hh Hx) as (k & Hk & Hv & Hu & Ev).
    destruct (Hs i k (proj1 (in_couts _ _) Hk)) as (u0 & r & t0 & Hu0 & Hr & ->).
    cbn [k_unit session_call] in Hu. subst u0. cbn [k_msg session_call] in *.
    destruct (history_reached _ _ _ _ _ _ Hh) as (C & _ & _).
    assert (Htx := tx_range _ _ _ _ _ _ C Hx). assert (Hl := valid_legal _ Hr Hv).
    rewrite mbap_build_fits with (enc := enc_request r) in Ev;
      [|assumption|assumption|apply request_length_bound; exact Hl|apply enc_request_length; exact Hl
       |intros; apply build_request; assumption].
    exists ({| q_id := i; q_unit := u; q_tx := tx; q_req := r |} :: qs).
    split; [cbn [map sent_ids flat_map app q_id]; f_equal; exact H1|]. split.
    + cbn [client_bytes flat_map map]. unfold client_bytes in H2. rewrite H2, Ev, written_some. reflexivity.
    + constructor; [|exact H3]. split; [repeat split; assumption || apply Hl|]. exists t0, v.
      split; apply in_couts; assumption.
Qed.

(** Two requests with the same identifier are the same. *)
Lemma wire_unique ces s w os q u tx f : history handler pol ces s w (client_outputs os) ->
  on_wire os q -> In (YC (Sent (q_id q) u tx f)) os -> u = q_unit q /\ tx = q_tx q.
Proof.
  intros Hh (_ & t & g & _ & Hq) Hx. destruct (history_reached _ _ _ _ _ _ Hh) as (C & _ & _).
  apply in_couts in Hq. apply in_couts in Hx.
  assert (E := sent_unique _ _ _ _ _ _ _ _ (co_sent_sorted _ _ C) Hx Hq). injection E as -> -> _. auto.
Qed.

Lemma wire_sent os q : on_wire os q -> In (q_id q) (sent_ids (client_outputs os)).
Proof.
  intros (_ & t & g & _ & Hq). apply in_sent. do 3 eexists. apply in_couts. exact Hq.
Qed.

(** ** The invariant *)
Definition no_fire (es : list yevent) : Prop := forall t, ~ In (YFire t) es.

Definition flight (pend : list (sent * list N)) (wait : list sent) : list sent := map fst pend ++ wait.

Definition explains (log : list access) (q : sent) (pdu : list N) (n : nat) (v : expected response) : Prop :=
  nth_error log n = Some {| x_call := CRequest (q_req q); x_result := RResponse v; x_by := Some (q_id q) |} /\
  response_parser (q_req q) pdu = Ret v.

(** The events of the client are those of the system. *)
Definition view (e : cevent) (ye : yevent) : Prop :=
  match e with
  | CApi a => ye = YCall a
  | CError msg => exists buf, ye = YBreak msg buf
  | CFire t => ye = YFire t
  | _ => True
  end.

Definition views (es : list yevent) (ces : list cevent) : Prop :=
  forall e, In e ces -> exists ye, In ye es /\ view e ye.

Lemma views_app es ces ye e : views es ces -> view e ye -> views (es ++ [ye]) (ces ++ [e]).
Proof.
  intros H Hv x Hx. apply in_app_or in Hx. destruct Hx as [Hx|[<-|[]]].
  - destruct (H x Hx) as (y & Hy & V). exists y. split; [apply in_or_app; left; exact Hy|exact V].
  - exists ye. split; [apply in_or_app; right; left; reflexivity|exact Hv].
Qed.

Lemma views_more es ces ye : views es ces -> views (es ++ [ye]) ces.
Proof.
  intros H x Hx. destruct (H x Hx) as (y & Hy & V). exists y. split; [apply in_or_app; left; exact Hy|exact V].
Qed.

Record inv (es : list yevent) (y : system W) (os : list youtput)
    (ces : list cevent) (wait : N -> list sent) (pend : list (sent * list N)) (log : list access) : Prop := {
  iv_hist : history handler pol ces (y_client y) (y_user y) (client_outputs os);
  iv_sess : forall i k, In (YC (Called i k)) os -> by_session (Submit k);
  iv_up : forall c, c <= y_conn y -> exists p t, sv_conns (y_server y) c = Some p /\ R pol p t /\
     t ++ y_up y c = flat_map fb (map req_frame (wait c));
  iv_new : forall c, y_conn y < c ->
     sv_conns (y_server y) c = None /\ y_up y c = [] /\ y_down y c = [] /\ wait c = [];
  iv_wait : forall c q, In q (wait c) -> on_wire os q /\ ~ In (q_id q) (executed log);
  iv_wait_once : forall c, NoDup (map q_id (wait c));
  iv_wait_conn : forall c c' q q', In q (wait c) -> In q' (wait c') -> q_id q = q_id q' -> c = c';
  iv_once : NoDup (executed log);
  iv_executed : forall i, In i (executed log) -> In i (sent_ids (client_outputs os));
  iv_down : cc_shutdown (y_client y) = false -> exists t, R pol (cc_parser (y_client y)) t /\
     t ++ y_down y (y_conn y) = flat_map fb (map ans_frame pend);
  iv_pend : forall q pdu, In (q, pdu) pend -> on_wire os q /\ good_pdu pdu /\ exists n v, explains log q pdu n v;
  iv_pend_once : NoDup (map q_id (map fst pend));
  iv_log : accesses os log;
  iv_db : wf (y_db y);
  iv_calls : calls_spec F0 (map x_call log) (map x_result log) (contents (y_db y));
  iv_alone : no_fire es -> cc_shutdown (y_client y) = false ->
     forall q, In q (flight pend (wait (y_conn y))) -> ~ In (q_id q) (completed_ids (client_outputs os));
  iv_done : timely es os -> forall a i d b, os = a ++ YC (Completed i (Value d)) :: b ->
     exists q n v, q_id q = i /\ on_wire a q /\ explains log q d n v /\ (n < List.length (db_calls a))%nat;
  iv_reg : sv_shutdown (y_server y) = false -> forall u, In u units -> find_session (sv_sessions (y_server y)) u <> None;
  iv_lost : cc_shutdown (y_client y) = false -> sv_shutdown (y_server y) = false ->
     forall p, cc_current (y_client y) = Some p -> In (pr_unit p) units ->
     exists q, In q (flight pend (wait (y_conn y))) /\ q_id q = pr_id p;
  iv_view : views es ces
}.

Lemma explains_pend_executed log q pdu n v : explains log q pdu n v -> In (q_id q) (executed log).
Proof. intros [H _]. apply in_executed. eexists. split; [exact (nth_error_In _ _ H)|reflexivity]. Qed.

Lemma explains_app log log' q pdu n v : explains log q pdu n v -> explains (log ++ log') q pdu n v.
Proof.
  intros [H H2]. split; [|exact H2]. rewrite nth_error_app1; [exact H|]. apply nth_error_Some. congruence.
Qed.

Lemma timely_prefix es e os os' : timely (es ++ [e]) (os ++ os') -> timely es os.
Proof.
  intros [H|H]; [left|right].
  - intros t Ht. apply (H t). apply in_or_app. left. exact Ht.
  - rewrite couts_app, called_app, app_length in H. lia.
Qed.

Lemma no_fire_prefix es e : no_fire (es ++ [e]) -> no_fire es.
Proof. intros H t Ht. apply (H t). apply in_or_app. left. exact Ht. Qed.

(** What was established for the past is not affected by new outputs. *)
Lemma done_past es y os ces wait pend log os' log' e :
  inv es y os ces wait pend log -> timely (es ++ [e]) (os ++ os') ->
  forall a i d b, os ++ os' = a ++ YC (Completed i (Value d)) :: b ->
  (exists q n v, q_id q = i /\ on_wire a q /\ explains (log ++ log') q d n v /\ (n < List.length (db_calls a))%nat) \/
  (exists a', a = os ++ a' /\ os' = a' ++ YC (Completed i (Value d)) :: b).
Proof.
  intros I Ht a i d b E. destruct (split_at _ _ _ _ _ E) as [(b1 & E1 & _)|(a2 & -> & E2)].
  - left. destruct (iv_done _ _ _ _ _ _ _ I (timely_prefix _ _ _ _ Ht) _ _ _ _ E1) as (q & n & v & H1 & H2 & H3 & H4).
    exists q, n, v. exact (conj H1 (conj H2 (conj (explains_app _ _ _ _ _ _ H3) H4))).
  - right. exists a2. auto.
Qed.

(** The request that is outstanding without timeouts. *)
Lemma alone_current es y os ces wait pend log q :
  inv es y os ces wait pend log -> no_fire es -> cc_shutdown (y_client y) = false ->
  In q (flight pend (wait (y_conn y))) ->
  exists p, cc_current (y_client y) = Some p /\ pr_id p = q_id q.
Proof.
  intros I Hf Hs Hq. assert (Hc := iv_alone _ _ _ _ _ _ _ I Hf Hs q Hq).
  assert (Hw : on_wire os q).
  { apply in_app_or in Hq. destruct Hq as [Hq|Hq].
    - apply in_map_iff in Hq. destruct Hq as ([q' pdu] & <- & Hq). apply (iv_pend _ _ _ _ _ _ _ I _ _ Hq).
    - apply (iv_wait _ _ _ _ _ _ _ I _ _ Hq). }
  destruct (history_reached _ _ _ _ _ _ (iv_hist _ _ _ _ _ _ _ I)) as (C & _ & _).
  destruct Hw as (_ & t & f & _ & Hsent). apply in_couts in Hsent. apply in_split in Hsent.
  destruct Hsent as (a & b & E).
  destruct (co_wire _ _ C _ _ _ _ _ _ E) as [H|[_ [H|H]]].
  - exfalso. apply Hc. rewrite E. rewrite completed_app. apply in_or_app. right. exact H.
  - congruence.
  - exact H.
Qed.

Lemma flight_once es y os ces wait pend log :
  inv es y os ces wait pend log -> NoDup (map q_id (flight pend (wait (y_conn y)))).
Proof.
  intros I. unfold flight. rewrite map_app. apply NoDup_app_intro.
  - apply (iv_pend_once _ _ _ _ _ _ _ I).
  - apply (iv_wait_once _ _ _ _ _ _ _ I).
  - intros i H1 H2. apply in_map_iff in H1. destruct H1 as (q & <- & H1).
    apply in_map_iff in H1. destruct H1 as ([q1 pdu] & E1 & H1). cbn [fst] in E1. subst q1.
    apply in_map_iff in H2. destruct H2 as (q' & E & H2).
    destruct (iv_pend _ _ _ _ _ _ _ I _ _ H1) as (_ & _ & n & v & Hx).
    apply (iv_wait _ _ _ _ _ _ _ I _ _ H2). rewrite E. exact (explains_pend_executed _ _ _ _ _ Hx).
Qed.

Lemma alone_one es y os ces wait pend log q q' :
  inv es y os ces wait pend log -> no_fire es -> cc_shutdown (y_client y) = false ->
  In q (flight pend (wait (y_conn y))) -> In q' (flight pend (wait (y_conn y))) -> q_id q = q_id q'.
Proof.
  intros I Hf Hs H1 H2. destruct (alone_current _ _ _ _ _ _ _ _ I Hf Hs H1) as (p & Ep & E1).
  destruct (alone_current _ _ _ _ _ _ _ _ I Hf Hs H2) as (p' & Ep' & E2). congruence.
Qed.

(** ** Steps of the client *)
Lemma upd_same {A} (f : N -> list A) c x : (if c =? c then f c ++ x else f c) = f c ++ x.
Proof. rewrite N.eqb_refl. reflexivity. Qed.

Lemma not_completed_new ces s w cos o i : history handler pol ces s w (cos ++ o) -> cc_shutdown s = false ->
  In i (sent_ids o) -> ~ In i (completed_ids o) -> ~ In i (completed_ids (cos ++ o)).
Proof.
  intros Hh Hs Hi Hc H. destruct (history_reached _ _ _ _ _ _ Hh) as (C & _ & _).
  apply in_sent in Hi. destruct Hi as (u & t & v & Hi). apply in_split in Hi. destruct Hi as (a & b & E).
  assert (E2 : cos ++ o = (cos ++ a) ++ Sent i u t v :: b) by (rewrite E, <- app_assoc; reflexivity).
  destruct (co_wire _ _ C _ _ _ _ _ _ E2) as [Hb|[_ [Hb|(p & Ep & Hp)]]].
  - apply Hc. rewrite E. rewrite completed_app. apply in_or_app. right. exact Hb.
  - congruence.
  - apply (co_gone _ _ C _ H). unfold live. rewrite Ep. left. exact Hp.
Qed.

Lemma inv_client es y os ces wait pend log e ye s' w' o arrived left down :
  inv es y os ces wait pend log ->
  client_step handler pol (y_client y) (y_user y) e = Ret (s', w', o) ->
  typed_cevent e -> (forall a, e = CApi a -> by_session a) ->
  pend = arrived ++ left ->
  (forall c, c <> y_conn y -> down c = y_down y c) ->
  (cc_shutdown s' = false -> exists t, R pol (cc_parser s') t /\ t ++ down (y_conn y) = flat_map fb (map ans_frame left)) ->
  (timely (es ++ [ye]) (os ++ map YC o) -> forall i d, In (Completed i (Value d)) o ->
     exists q, In (q, d) arrived /\ q_id q = i) ->
  (no_fire (es ++ [ye]) -> cc_shutdown s' = false -> forall i, In i (completed_ids o) ->
     (forall q, In q (flight left (wait (y_conn y))) -> q_id q <> i) /\ ~ In i (sent_ids o)) ->
  (forall p, cc_current s' = Some p -> In (frame_of p) o \/
     (cc_current (y_client y) = Some p /\ (cc_shutdown (y_client y) = false -> forall a, In a arrived ->
         ~ (q_tx (fst a) = pr_tx p /\ q_unit (fst a) = pr_unit p)))) ->
  (cc_shutdown s' = false -> cc_shutdown (y_client y) = false) ->
  view e ye ->
  exists qs,
    inv (es ++ [ye])
      {| y_client := s'; y_user := w'; y_server := y_server y; y_db := y_db y; y_conn := y_conn y;
         y_up := fun c => if c =? y_conn y then y_up y c ++ client_bytes o else y_up y c; y_down := down |}
      (os ++ map YC o) (ces ++ [e])
      (fun c => if c =? y_conn y then wait c ++ qs else wait c) left log.
Proof.
  intros I E Ht Ha Ep Hd Hdown Hval Halone Hcur Hsh Hview.
  destruct (history_extend handler pol ces e _ _ _ (iv_hist _ _ _ _ _ _ _ I) Ht) as (s1 & w1 & o1 & E1 & Hh).
  rewrite E in E1. injection E1 as <- <- <-.
  assert (Hh' : history handler pol (ces ++ [e]) s' w' (client_outputs (os ++ map YC o))).
  { rewrite couts_app, couts_yc. exact Hh. }
  assert (Hsess : forall i k, In (YC (Called i k)) (os ++ map YC o) -> by_session (Submit k)).
  { intros i k Hi. apply in_app_or in Hi. destruct Hi as [Hi|Hi]; [exact (iv_sess _ _ _ _ _ _ _ I _ _ Hi)|].
    apply in_map_iff in Hi. destruct Hi as (x & Ex & Hi). injection Ex as ->.
    assert (T := step_session handler sess _ _ _ _ _ _ _ E Ha). rewrite Forall_forall in T. exact (T _ Hi). }
  destruct (sends_of _ _ _ _ o Hh' Hsess) as (qs & Q1 & Q2 & Q3); [intros x Hx; apply in_or_app; right; exact Hx|].
  exists qs.
  destruct (history_reached _ _ _ _ _ _ Hh) as (C & _ & _).
  assert (Snd : NoDup (sent_ids (client_outputs os) ++ sent_ids o)).
  { rewrite <- sent_app. apply sorted_nodup. apply (co_sent_sorted _ _ C). }
  apply NoDup_app_parts in Snd. destruct Snd as (_ & Snd & Snew).
  assert (Hqs : forall q, In q qs -> on_wire (os ++ map YC o) q /\ In (q_id q) (sent_ids o)).
  { intros q Hq. rewrite Forall_forall in Q3. split; [exact (Q3 _ Hq)|]. rewrite <- Q1. apply in_map. exact Hq. }
  assert (Hold : forall c q, In q (wait c) -> In (q_id q) (sent_ids (client_outputs os))).
  { intros c q Hq. apply wire_sent. apply (iv_wait _ _ _ _ _ _ _ I _ _ Hq). }
  assert (Hwait : forall c q, In q (if c =? y_conn y then wait c ++ qs else wait c) -> In q (wait c) \/ In q qs /\ c = y_conn y).
  { intros c q Hq. destruct (c =? y_conn y) eqn:Ec; [|left; exact Hq].
    apply in_app_or in Hq. apply N.eqb_eq in Ec. tauto. }
  constructor; cbn [y_client y_user y_server y_db y_conn y_up y_down].
  - exact Hh'.
  - exact Hsess.
  - intros c Hc. destruct (iv_up _ _ _ _ _ _ _ I c Hc) as (p & t & H1 & H2 & H3). exists p, t.
    split; [exact H1|]. split; [exact H2|]. destruct (c =? y_conn y); [|exact H3].
    rewrite map_app, flat_map_app, <- H3, <- Q2, app_assoc. reflexivity.
  - intros c Hc. destruct (iv_new _ _ _ _ _ _ _ I c Hc) as (H1 & H2 & H3 & H4).
    replace (c =? y_conn y) with false by (symmetry; apply N.eqb_neq; lia).
    rewrite Hd by lia. auto.
  - intros c q Hq. destruct (Hwait c q Hq) as [H|[H _]].
    + destruct (iv_wait _ _ _ _ _ _ _ I _ _ H) as [H1 H2]. split; [apply on_wire_app; exact H1|exact H2].
    + destruct (Hqs q H) as [H1 H2]. split; [exact H1|]. intros H3.
      exact (Snew _ (iv_executed _ _ _ _ _ _ _ I _ H3) H2).
  - intros c. destruct (c =? y_conn y); [|apply (iv_wait_once _ _ _ _ _ _ _ I)].
    rewrite map_app. apply NoDup_app_intro; [apply (iv_wait_once _ _ _ _ _ _ _ I)|rewrite Q1; exact Snd|].
    intros i Hi. apply in_map_iff in Hi. destruct Hi as (q & <- & Hi). rewrite Q1. exact (Snew _ (Hold _ _ Hi)).
  - intros c c' q q' Hq Hq' Eq. destruct (Hwait c q Hq) as [H|[H ->]]; destruct (Hwait c' q' Hq') as [H'|[H' ->]].
    + exact (iv_wait_conn _ _ _ _ _ _ _ I _ _ _ _ H H' Eq).
    + exfalso. apply (Snew _ (Hold _ _ H)). rewrite Eq. apply (Hqs q' H').
    + exfalso. apply (Snew _ (Hold _ _ H')). rewrite <- Eq. apply (Hqs q H).
    + reflexivity.
  - apply (iv_once _ _ _ _ _ _ _ I).
  - intros i Hi. rewrite couts_app, sent_app. apply in_or_app. left. exact (iv_executed _ _ _ _ _ _ _ I _ Hi).
  - exact Hdown.
  - intros q pdu Hq. destruct (iv_pend _ _ _ _ _ _ _ I q pdu) as (H1 & H2 & H3).
    { rewrite Ep. apply in_or_app. right. exact Hq. }
    split; [apply on_wire_app; exact H1|]. split; [exact H2|exact H3].
  - assert (P := iv_pend_once _ _ _ _ _ _ _ I). rewrite Ep, !map_app in P. apply NoDup_app_parts in P. apply P.
  - apply accesses_quiet; [apply (iv_log _ _ _ _ _ _ _ I)|apply yc_quiet].
  - apply (iv_db _ _ _ _ _ _ _ I).
  - apply (iv_calls _ _ _ _ _ _ _ I).
  - intros Hf Hs q Hq. rewrite N.eqb_refl in Hq. rewrite couts_app, couts_yc.
    assert (Hq' : In q (flight left (wait (y_conn y))) \/ In q qs).
    { unfold flight in *. rewrite app_assoc in Hq. apply in_app_or in Hq. exact Hq. }
    destruct Hq' as [Hq'|Hq'].
    + rewrite completed_app. intros Hc. apply in_app_or in Hc. destruct Hc as [Hc|Hc].
      * apply (iv_alone _ _ _ _ _ _ _ I (no_fire_prefix _ _ Hf) (Hsh Hs) q); [|exact Hc].
        rewrite Ep. unfold flight in *. rewrite map_app, <- app_assoc. apply in_or_app. right. exact Hq'.
      * destruct (Halone Hf Hs _ Hc) as [H _]. exact (H q Hq' eq_refl).
    + apply (not_completed_new _ _ _ _ _ _ Hh Hs); [apply (Hqs q Hq')|]. intros Hc.
      destruct (Halone Hf Hs _ Hc) as [_ H]. apply H. apply (Hqs q Hq').
  - intros Htm a i d b Eo.
    destruct (done_past _ _ _ _ _ _ _ _ [] _ I Htm _ _ _ _ Eo) as [(q & n & v & H1 & H2 & H3 & H4)|(a' & -> & Eo')].
    + rewrite app_nil_r in H3. exists q, n, v. exact (conj H1 (conj H2 (conj H3 H4))).
    + destruct (Hval Htm i d) as (q & Hq & Hi).
      { assert (H : In (YC (Completed i (Value d))) (map YC o)) by (rewrite Eo'; apply in_or_app; right; left; reflexivity).
        apply in_map_iff in H. destruct H as (x & Ex & H). injection Ex as ->. exact H. }
      destruct (iv_pend _ _ _ _ _ _ _ I q d) as (H1 & H2 & n & v & H3).
      { rewrite Ep. apply in_or_app. left. exact Hq. }
      exists q, n, v. split; [exact Hi|]. split; [apply on_wire_app; exact H1|]. split; [exact H3|].
      rewrite db_calls_app, app_length, (accesses_length _ _ (iv_log _ _ _ _ _ _ _ I)).
      destruct H3 as [H3 _]. assert (n < List.length log)%nat by (apply nth_error_Some; congruence). lia.
  - apply (iv_reg _ _ _ _ _ _ _ I).
  - intros Hs Hsv p Hp Hu. rewrite N.eqb_refl. destruct (Hcur p Hp) as [Hi|[Hc Hm]].
    + assert (Hi' : In (pr_id p) (sent_ids o)) by (apply in_sent; do 3 eexists; exact Hi).
      rewrite <- Q1 in Hi'. apply in_map_iff in Hi'. destruct Hi' as (q & Eq & Hq). exists q. split; [|exact Eq].
      unfold flight. rewrite app_assoc. apply in_or_app. right. exact Hq.
    + destruct (iv_lost _ _ _ _ _ _ _ I (Hsh Hs) Hsv p Hc Hu) as (q & Hq & Eq). exists q. split; [|exact Eq].
      unfold flight in *. rewrite Ep, map_app, <- app_assoc in Hq. apply in_app_or in Hq.
      destruct Hq as [Hq|Hq]; [|rewrite app_assoc; apply in_or_app; left; exact Hq].
      exfalso. apply in_map_iff in Hq. destruct Hq as (a & Ea & Hq). apply (Hm (Hsh Hs) a Hq). rewrite Ea.
      destruct (iv_pend _ _ _ _ _ _ _ I (fst a) (snd a)) as (Hw & _ & _).
      { rewrite Ep. apply in_or_app. left. destruct a. exact Hq. }
      destruct (history_reached _ _ _ _ _ _ (iv_hist _ _ _ _ _ _ _ I)) as (C0 & _ & _).
      assert (Hco := co_current _ _ C0 p Hc). apply in_couts in Hco. rewrite <- Eq, <- Ea in Hco.
      destruct (wire_unique _ _ _ _ _ _ _ _ (iv_hist _ _ _ _ _ _ _ I) Hw Hco) as [-> ->]. rewrite Ea. auto.
  - apply views_app; [apply (iv_view _ _ _ _ _ _ _ I)|exact Hview].
Qed.
End Invariant.
