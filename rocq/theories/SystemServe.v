(** Facts about serving requests by the database and about frames on a connection. *)
From Verif Require Import Prelude Ser4 Messages Mbap Client Server Database System.
From Verif Require Import SpecPdu SpecMbap SpecClient SpecServer SpecDb SpecSystem.
From Verif Require Import Tac BuildFacts ParseRespFacts CodecLemmas MbapFacts MbapLemmas FrameFacts DatabaseFacts DbLemmas.

(** ** A request on the wire *)
Record sent : Type := { q_id : nat; q_unit : N; q_tx : N; q_req : request }.

Definition good_sent (q : sent) : Prop :=
  u16 (q_tx q) /\ u8 (q_unit q) /\ legal_request (q_req q).

Definition req_frame (q : sent) : N * N * list N := (q_tx q, q_unit q, enc_request (q_req q)).

Definition ans_frame (a : sent * list N) : N * N * list N := (q_tx (fst a), q_unit (fst a), snd a).

Definition fb (f : N * N * list N) : list N := item_bytes (frame_item f).

Definition good_pdu (pdu : list N) : Prop := bytes pdu /\ 1 <= size pdu <= 253.

Lemma enc_request_good r : legal_request r -> good_pdu (enc_request r).
Proof.
  intros H. split; [apply enc_request_bytes; exact H|].
  rewrite enc_request_length by exact H. split; [|apply request_length_bound; exact H].
  destruct r; cbn [request_message im_length]; try lia;
    unfold WriteMultipleCoilsRequest_length, WriteMultipleRegistersRequest_length; lia.
Qed.

Lemma req_frame_ok q : good_sent q -> frame_ok (req_frame q).
Proof.
  intros (Ht & Hu & Hl). destruct (enc_request_good _ Hl) as [Hb Hs]. repeat split; auto; lia.
Qed.

(** ** Frames on a connection *)
Lemma fb_bytes f : frame_ok f -> bytes (fb f).
Proof.
  destruct f as [[tx u] pdu]. intros (Ht & Hu & Hb & Hs). unfold fb, frame_item, item_bytes, frame.
  cbn [i_tx i_proto i_unit i_body announced body_of].
  unfold be16. cbn [app].
  assert (forall v, u16 v -> u8 (v / 256) /\ u8 (v mod 256)) as B by (unfold u8, u16; intros; lia).
  destruct (B tx Ht). destruct (B 0 ltac:(unfold u16; lia)).
  destruct (B (1 + size pdu) ltac:(unfold u16; lia)).
  repeat (constructor; [assumption|]). exact Hb.
Qed.

Lemma fbs_bytes fs : Forall frame_ok fs -> bytes (flat_map fb fs).
Proof.
  induction 1 as [|f fs Hf _ IH]; cbn [flat_map]; [constructor|].
  apply bytes_app. split; [apply fb_bytes; exact Hf|exact IH].
Qed.

Lemma fb_not_nil f : fb f <> [].
Proof. destruct f as [[tx u] pdu]. unfold fb, frame_item, item_bytes, be16. discriminate. Qed.

Lemma frames_prefix items : forall fs rest, Forall frame_ok fs ->
  flat_map item_bytes items ++ rest = flat_map fb fs ->
  exists fs1 fs2, fs = fs1 ++ fs2 /\ items = map frame_item fs1 /\ rest = flat_map fb fs2.
Proof.
  induction items as [|i items IH]; intros fs rest Hf E; cbn [flat_map app] in E.
  - exists [], fs. auto.
  - destruct fs as [|f fs]; cbn [flat_map] in E.
    + rewrite <- app_assoc in E. apply app_eq_nil in E. destruct E as [E _].
      unfold item_bytes, be16 in E. discriminate E.
    + rewrite <- app_assoc in E. unfold fb in E at 1. apply item_bytes_inj in E. destruct E as [-> E].
      inversion Hf as [|f' fs' H1 H2]; subst f' fs'.
      destruct (IH fs rest H2 E) as (fs1 & fs2 & -> & -> & ->).
      exists (f :: fs1), fs2. auto.
Qed.

Lemma frames_deliverable fs : filter deliverable (map frame_item fs) = map frame_item fs.
Proof.
  induction fs as [|[[tx u] pdu] fs IH]; [reflexivity|]. cbn [map filter].
  change (deliverable (frame_item (tx, u, pdu))) with true. cbv iota. rewrite IH. reflexivity.
Qed.

Lemma frames_short fs : Forall frame_ok fs -> no_long (map frame_item fs).
Proof.
  induction 1 as [|[[tx u] pdu] fs (_ & _ & _ & Hs) _ IH]; cbn [map]; constructor; [|exact IH].
  unfold long, frame_item, frame, body_of. cbn [i_body]. lia.
Qed.

Lemma frames_messages fs : map item_message (map frame_item fs) = map frame_message fs.
Proof. rewrite map_map. apply map_ext. intros [[tx u] pdu]. reflexivity. Qed.

(** Receiving the next bytes of a stream of frames. *)
Lemma frames_parse pol st t frames data rest :
  R pol st t -> Forall frame_ok frames -> t ++ data ++ rest = flat_map fb frames ->
  exists st' t' arrived left, frames = arrived ++ left /\
    mbap_parse pol st data = Ret (st', map frame_message arrived) /\ R pol st' t' /\
    t' ++ rest = flat_map fb left.
Proof.
  intros HR Hf E.
  assert (Hb : bytes data).
  { assert (B := fbs_bytes _ Hf). rewrite <- E in B. apply bytes_app in B. destruct B as [_ B].
    apply bytes_app in B. apply B. }
  destruct (parse_spec pol st t data HR Hb) as (st' & t' & items & outs & Hp & Hi & Hs & HR' & Hm & _).
  rewrite app_assoc, Hs, <- app_assoc in E.
  destruct (frames_prefix items frames _ Hf E) as (fs1 & fs2 & -> & -> & E2).
  exists st', t', fs1, fs2. split; [reflexivity|]. split; [|split; [exact HR'|exact E2]].
  rewrite frames_deliverable in Hm. apply matches_exact in Hm.
  - rewrite Hp, Hm, frames_messages. reflexivity.
  - apply frames_short. apply Forall_app in Hf. apply Hf.
Qed.

(** Nothing is left when everything has arrived. *)
Lemma nothing_left pol st t frames : R pol st t -> Forall frame_ok frames -> t = flat_map fb frames -> frames = [].
Proof.
  intros HR Hf ->. destruct frames as [|f fs]; [reflexivity|]. exfalso.
  inversion Hf as [|f' fs' H1 H2]; subst f' fs'. cbn [flat_map] in HR.
  destruct (R_tail _ _ _ HR) as [Hi|(i & Hi & Ei & Eb)].
  - exact (item_not_incomplete _ _ Hi).
  - rewrite <- (app_nil_r (item_bytes i)) in Ei. unfold fb in Ei at 1.
    apply item_bytes_inj in Ei. destruct Ei as [Ei _]. destruct f as [[tx u] pdu].
    rewrite <- Ei in Eb. cbn in Eb. injection Eb as ->. destruct H1 as (_ & _ & _ & Hs).
    change (size (@nil N)) with 0 in Hs. lia.
Qed.

(** ** The database's answers *)
Lemma values_shape {A} s q (vs : list (N * A)) :
  s + q <= 65536 -> size vs = q ->
  (forall i a v, nth_error vs i = Some (a, v) -> a = s + N.of_nat i) -> consecutive s vs.
Proof.
  intros Hq Hs H i Hi. destruct (nth_error vs i) as [[a v]|] eqn:E.
  - rewrite (nth_indep _ 0 (fst (a, v))) by (rewrite map_length; exact Hi).
    rewrite map_nth. rewrite (nth_error_nth _ _ _ E). cbn [fst]. rewrite (H _ _ _ E).
    unfold size in *. rewrite N.mod_small by lia. reflexivity.
  - apply nth_error_None in E. lia.
Qed.

Lemma values_typed {A} (P : A -> Prop) s q (vs : list (N * A)) :
  s + q <= 65536 -> size vs = q ->
  (forall i a v, nth_error vs i = Some (a, v) -> a = s + N.of_nat i /\ P v) ->
  Forall u16 (map fst vs) /\ Forall P (map snd vs).
Proof.
  intros Hq Hs H. split; apply Forall_forall; intros x Hx; apply in_map_iff in Hx;
    destruct Hx as ([a v] & <- & Hx); apply In_nth_error in Hx; destruct Hx as (i & Hi).
  - destruct (H _ _ _ Hi) as [-> _]. cbn [fst]. unfold u16.
    assert (i < List.length vs)%nat by (apply nth_error_Some; congruence). unfold size in *. lia.
  - apply (H _ _ _ Hi).
Qed.

Lemma answer_shape d d' r v : wf d -> legal_request r -> request_spec (contents d) r (contents d') v ->
  (exists resp, v = Value resp /\ typed_response resp /\ answers_shape r resp) \/ v = unknown_address.
Proof.
  intros Hw [Ht Hq] H.
  assert (rd : forall t s q mk, read_spec (contents d) t s q mk (contents d') v ->
    (exists vs, v = Value (mk vs) /\ size vs = q /\ s + q <= 65536 /\
       forall i a x, nth_error vs i = Some (a, x) -> a = s + N.of_nat i /\ typed_val t x) \/ v = unknown_address).
  { intros t s q mk [_ [[(_ & Hr & _) (vs & Hs & Hv & ->)]|[_ ->]]]; [|right; reflexivity].
    left. exists vs. repeat split; auto.
    - apply (Hv _ _ _ H0).
    - destruct (Hv _ _ _ H0) as [_ Hx]. apply (contents_typed _ _ _ _ Hw Hx). }
  destruct r; cbn [request_spec typed_request quantity_in_range] in *;
    try (destruct (rd _ _ _ _ H) as [(vs & -> & Hs & Hb & Hv)| ->]; [left|right; reflexivity];
         eexists; split; [reflexivity|];
         destruct (values_typed _ _ _ vs Hb Hs Hv) as [H1 H2];
         split; [cbn [typed_response]; first [exact H1|split; [exact H1|exact H2]]|];
         cbn [answers_shape]; split; [exact Hs|];
         apply (values_shape _ _ _ Hb Hs); intros i a x Hx; apply (Hv _ _ _ Hx));
    destruct H as [(Hc & _ & ->)|(_ & _ & ->)]; try (right; reflexivity); left; eexists;
    (split; [reflexivity|]); (split; [|exact I]); cbn [typed_response]; intuition auto;
    unfold u16; lia.
Qed.

Lemma build_exception fc t : u8 fc -> build_into 260 (ExceptionResponse fc t) = [fc mod 128 + 128; exception_value t].
Proof.
  intros H. rewrite <- lor_top by exact H. unfold build_into. cbn [ExceptionResponse im_build].
  unfold ExceptionResponse_build, write_u8, wput. cbn [wseq_new w_room w_out].
  cbn. rewrite lor_top by exact H. unfold to_u8, u8 in *. f_equal; [lia|].
  f_equal. destruct t; reflexivity.
Qed.

(** ** Serving one request *)
Definition registered (s : server) (u : N) : bool :=
  negb (sv_shutdown s) && match find_session (sv_sessions s) u with Some _ => true | None => false end.

Lemma code_u8 r : u8 (spec_function_code r).
Proof. destruct r; unfold u8; cbn [spec_function_code]; lia. Qed.

Lemma enc_head r : exists rest, enc_request r = spec_function_code r :: rest.
Proof. destruct r; cbn [enc_request spec_function_code app]; eexists; reflexivity. Qed.

Lemma build_enc r : legal_request r -> build_into 260 (request_message r) = enc_request r.
Proof.
  intros H. pose proof (request_length_bound r H). unfold build_into.
  rewrite build_request; [reflexivity|exact H|cbn; lia].
Qed.

Lemma build_enc_response r : typed_response r -> response_fits r -> build_into 260 (response_message r) = enc_response r.
Proof.
  intros H F. pose proof (response_length_bound r F). unfold build_into.
  rewrite build_response; [reflexivity|exact H|exact F|cbn; lia].
Qed.

Lemma legal_valid r : legal_request r -> im_valid (request_message r) = true.
Proof. intros [Ht Hq]. apply valid_iff; assumption. Qed.

Lemma legal_typed r : legal_request r -> typed_call (CRequest r).
Proof.
  intros [Ht Hq]. split; [exact Ht|]. destruct r; cbn [quantity_in_range] in Hq; auto; lia.
Qed.

Lemma serve_one s d c q : wf d -> good_sent q ->
  if registered s (q_unit q) then
    exists d' v pdu x,
      on_mbap db_session s d c (frame_message (req_frame q))
      = Ret (s, d', [OConsult x (q_req q); OSend c (map Some (frame_bytes (q_tx q) (q_unit q) pdu))]) /\
      wf d' /\ request_spec (contents d) (q_req q) (contents d') v /\
      response_parser (q_req q) pdu = Ret v /\ good_pdu pdu
  else on_mbap db_session s d c (frame_message (req_frame q)) = Ret (s, d, []).
Proof.
  intros Hw (Htx & Hu & Hl). unfold registered, on_mbap. destruct (sv_shutdown s); [reflexivity|].
  cbn [negb andb frame_message req_frame mb_unit mb_data mb_tx].
  destruct (find_session (sv_sessions s) (q_unit q)) as [x|]; [|reflexivity].
  destruct (enc_request_good _ Hl) as [Hb Hs].
  replace (size (enc_request (q_req q)) <? 1) with false by (symmetry; apply N.ltb_ge; lia).
  destruct (enc_head (q_req q)) as (rest & Eh).
  destruct (valid_round_trip (q_req q) 260 (proj1 Hl) (legal_valid _ Hl) ltac:(lia)) as (p & Ep & Epar).
  rewrite build_enc in Epar by exact Hl.
  destruct (on_request_spec d (q_req q) Hw (legal_typed _ Hl)) as (d' & v & Er & Hw' & Hsp).
  exists d', v.
  assert (HH : exists pdu, response_parser (q_req q) pdu = Ret v /\ good_pdu pdu /\
     process_message db_session s d x (frame_message (req_frame q)) c (spec_function_code (q_req q)) p
     = Ret (s, d', [OConsult x (q_req q); OSend c (map Some (frame_bytes (q_tx q) (q_unit q) pdu))])).
  { unfold process_message. cbn [frame_message req_frame mb_unit mb_data mb_tx]. rewrite Epar. cbn [obind].
    unfold db_session. rewrite Er. cbn [api_calls fold_left].
    destruct (answer_shape _ _ _ _ Hw Hl Hsp) as [(resp & -> & Ht & Ha)| ->].
    - assert (Hf := answers_fit _ _ (proj2 Hl) Ha).
      exists (enc_response resp). split; [|split].
      + rewrite <- build_enc_response by assumption.
        apply response_round_trip; auto; lia.
      + split; [apply enc_response_bytes; assumption|]. rewrite enc_response_length.
        split; [|apply response_length_bound; exact Hf].
        destruct resp; cbn [response_message im_length]; try lia;
          unfold ReadBitsResponse_length, ReadRegistersResponse_length; lia.
      + unfold send_message. rewrite response_view_fits by assumption. reflexivity.
    - exists (build_into 260 (ExceptionResponse (spec_function_code (q_req q)) IllegalDataAddress)).
      assert (Hfc := code_u8 (q_req q)). split; [|split].
      + apply exceptions_survive; [discriminate|lia].
      + rewrite build_exception by exact Hfc. split; [|unfold size; cbn [List.length]; lia].
        repeat constructor; unfold u8 in *; cbn; lia.
      + cbn [unknown_address]. unfold send_message. rewrite exception_view_build by assumption.
        unfold exception_view. rewrite build_exception by exact Hfc. reflexivity. }
  destruct HH as (pdu & Hresp & Hgood & Hproc). exists pdu, x.
  split; [|split; [exact Hw'|split; [exact Hsp|split; [exact Hresp|exact Hgood]]]].
  cbn [frame_message req_frame] in Hproc. rewrite Eh in Hproc |- *. cbv beta iota delta [rd8 read_u8].
  rewrite Ep. exact Hproc.
Qed.

(** ** Serving a batch *)
Record answer : Type := { a_sent : sent; a_pdu : list N; a_val : expected response; a_session : N }.

Definition answer_outputs (c : N) (a : answer) : list output :=
  [OConsult (a_session a) (q_req (a_sent a));
   OSend c (map Some (fb (ans_frame (a_sent a, a_pdu a))))].

Definition good_answer (a : answer) : Prop :=
  response_parser (q_req (a_sent a)) (a_pdu a) = Ret (a_val a) /\ good_pdu (a_pdu a).

Definition answer_access (a : answer) : access :=
  {| x_call := CRequest (q_req (a_sent a)); x_result := RResponse (a_val a); x_by := Some (q_id (a_sent a)) |}.

Lemma serve_batch c qs : forall s d, wf d -> Forall good_sent qs ->
  exists d' answers,
    on_messages db_session s d c (map frame_message (map req_frame qs))
    = Ret (s, d', flat_map (answer_outputs c) answers) /\ wf d' /\
    map a_sent answers = filter (fun q => registered s (q_unit q)) qs /\
    calls_spec (contents d) (map x_call (map answer_access answers))
      (map x_result (map answer_access answers)) (contents d') /\
    Forall good_answer answers.
Proof.
  induction qs as [|q qs IH]; intros s d Hw Hq; cbn [map on_messages].
  - exists d, []. split; [reflexivity|]. split; [exact Hw|]. split; [reflexivity|].
    split; [|constructor]. constructor. apply unchanged_refl.
  - inversion Hq as [|q' qs' H1 H2]; subst q' qs'. assert (H := serve_one s d c q Hw H1).
    cbn [filter]. destruct (registered s (q_unit q)).
    + destruct H as (d1 & v & pdu & x & E & Hw1 & Hsp & Hr & Hg). rewrite E. cbn [obind].
      destruct (IH s d1 Hw1 H2) as (d' & answers & E2 & Hw2 & Hm & Hc & Ha). rewrite E2. cbn [obind].
      exists d', ({| a_sent := q; a_pdu := pdu; a_val := v; a_session := x |} :: answers).
      split; [reflexivity|]. split; [exact Hw2|]. split; [cbn [map a_sent]; rewrite Hm; reflexivity|].
      split.
      * cbn [map]. apply CS_cons with (F1 := contents d1); [|exact Hc].
        exists v. split; [exact Hsp|reflexivity].
      * constructor; [split; [exact Hr|exact Hg]|exact Ha].
    + rewrite H. cbn [obind]. destruct (IH s d Hw H2) as (d' & answers & E2 & Hw2 & Hm & Hc & Ha).
      rewrite E2. cbn [obind app]. exists d', answers. exact (conj eq_refl (conj Hw2 (conj Hm (conj Hc Ha)))).
Qed.
