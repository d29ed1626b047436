(** Proofs about how much a server channel does for how much it receives. *)
From Verif Require Import Prelude Ser4 Messages Mbap Tac SpecPdu SpecMbap BitFacts CodecLemmas MbapFacts MbapLemmas Server SpecServer FrameFacts ServerFacts SpecBound.

Local Open Scope nat_scope.

Lemma total_app a b : total (a ++ b) = total a + total b.
Proof. induction a as [|x a IH]; cbn [app total fold_right] in *; [reflexivity|]. unfold total in *. lia. Qed.

Lemma total_cons x l : total (x :: l) = x + total l.
Proof. reflexivity. Qed.

Lemma total_ext {A} (f g : A -> nat) l : (forall x, In x l -> f x = g x) -> total (map f l) = total (map g l).
Proof.
  induction l as [|x l IH]; intros H; [reflexivity|]. cbn [map]. rewrite !total_cons.
  rewrite (H x) by (left; reflexivity). rewrite IH; [reflexivity|]. intros y Hy. apply H. right. exact Hy.
Qed.

Lemma total_le {A} (f g : A -> nat) l : (forall x, In x l -> f x <= g x) -> total (map f l) <= total (map g l).
Proof.
  induction l as [|x l IH]; intros H; [apply le_n|]. cbn [map]. rewrite !total_cons.
  specialize (H x (or_introl eq_refl)) as Hx.
  assert (total (map f l) <= total (map g l)) by (apply IH; intros y Hy; apply H; right; exact Hy). lia.
Qed.

(** Only one element counts differently. *)
Lemma total_one (f g : N -> nat) c l :
  NoDup l -> In c l -> (forall x, x <> c -> f x = g x) ->
  total (map f l) + g c = total (map g l) + f c.
Proof.
  induction l as [|x l IH]; intros Hn Hi He; [destruct Hi|]. cbn [map]. rewrite !total_cons.
  inversion Hn as [|? ? Hx Hl]; subst. destruct (N.eq_dec x c) as [->|Hne].
  - rewrite (total_ext f g l); [lia|]. intros y Hy. apply He. intros ->. contradiction.
  - destruct Hi as [->|Hi]; [congruence|]. specialize (IH Hl Hi He). rewrite (He x Hne). lia.
Qed.

(** ** Sizes of frames *)
Lemma frame_length tx unit pdu : List.length (frame_bytes tx unit pdu) = 7 + List.length pdu.
Proof.
  unfold frame_bytes. assert (H := item_bytes_size (frame tx unit pdu)). unfold size in H.
  unfold frame, body_of in *. cbn [i_body] in H. lia.
Qed.

Lemma request_length r pdu : request_pdu_any_padding r pdu -> 5 <= List.length pdu.
Proof.
  destruct r; cbn [request_pdu_any_padding request_pdu_with]; unfold request_pdu_any_padding; cbn [request_pdu_with];
    try (intros ->; cbn; lia).
  intros (d & _ & ->). cbn. lia.
Qed.

Lemma bits_to_bytes_le n k : n <= 8 * k -> bits_to_bytes n <= k.
Proof. intros H. unfold bits_to_bytes. apply Nat.lt_succ_r. apply Nat.div_lt_upper_bound; lia. Qed.

Lemma response_length resp pdu : response_fits resp -> response_pdu resp pdu -> List.length pdu <= 253.
Proof.
  unfold response_pdu. destruct resp as [l|l|l|l|a v|a v|s q|s q]; cbn [response_fits response_pdu_with]; unfold size; intros Hf Hp.
  - destruct Hp as (d & (_ & Hd & _) & ->). rewrite map_length in Hd. cbn [app List.length].
    rewrite Hd. assert (bits_to_bytes (List.length l) <= 251) by (apply bits_to_bytes_le; lia). lia.
  - destruct Hp as (d & (_ & Hd & _) & ->). rewrite map_length in Hd. cbn [app List.length].
    rewrite Hd. assert (bits_to_bytes (List.length l) <= 251) by (apply bits_to_bytes_le; lia). lia.
  - rewrite Hp. cbn [app List.length]. rewrite be16s_length, map_length. lia.
  - rewrite Hp. cbn [app List.length]. rewrite be16s_length, map_length. lia.
  - rewrite Hp. cbn. lia.
  - rewrite Hp. cbn. lia.
  - rewrite Hp. cbn. lia.
  - rewrite Hp. cbn. lia.
Qed.

Lemma in_kind_length r resp pdu :
  legal_request r -> response_code resp = spec_function_code r -> in_kind r resp ->
  response_fits resp /\ (response_pdu resp pdu -> List.length pdu <= 252).
Proof.
  intros [_ Hq] Hc Hk. unfold response_pdu.
  destruct r, resp; try discriminate Hc; cbn [in_kind quantity_in_range response_fits response_pdu_with] in *;
    unfold size in *; (split; [try exact I; lia|]);
    try (intros ->; cbn [app List.length]; rewrite ?be16s_length, ?map_length; cbn; lia).
  - intros (d & (_ & Hd & _) & ->). rewrite map_length in Hd. cbn [app List.length]. rewrite Hd.
    assert (bits_to_bytes (List.length values) <= 250) by (apply bits_to_bytes_le; lia). lia.
  - intros (d & (_ & Hd & _) & ->). rewrite map_length in Hd. cbn [app List.length]. rewrite Hd.
    assert (bits_to_bytes (List.length values) <= 250) by (apply bits_to_bytes_le; lia). lia.
Qed.

Lemma exception_length tx unit fc t : List.length (exception_view tx unit fc t) = 9.
Proof. unfold exception_view. rewrite map_length, frame_length. reflexivity. Qed.

Lemma view_length tx unit resp view : response_view tx unit resp view -> List.length view <= 260.
Proof.
  intros [H1 H2]. destruct (fits_dec resp) as [Hf|Hf].
  - destruct (H1 Hf) as (pdu & Hp & ->). rewrite map_length, frame_length.
    assert (H := response_length _ _ Hf Hp). lia.
  - destruct (H2 Hf) as [(rest & _ & Hs) _]. unfold size in Hs. lia.
Qed.

(** ** Pending bytes *)
Section Facts.
Context {W : Type}.
Context (on_request : N -> W -> request -> W * expected response * list api).
Context (on_shutdown : N -> W -> W * list api).
Context (Hwt : well_typed on_request).
Context (pol : copy_policy).

(** What is counted, and how much of it a byte can cause. *)
Context (cost : output -> nat) (K : nat).
Context (Hother : forall o, by_frame o = false -> cost o = 0).
(** The connections on which something is counted. *)
Context (L : list N) (HL : NoDup L).
Context (Hin : forall reg c m w w' os, In c L -> serves on_request reg c m w w' os -> total (map cost os) <= K * (7 + List.length (mb_data m))).

(** Connections on which nothing is counted, or that receive nothing. *)
Definition outside (c : N) : Prop :=
  forall reg m w w' os, serves on_request reg c m w w' os -> total (map cost os) = 0.

Definition counted (e : event) : Prop :=
  match e with EReceive c _ => In c L \/ outside c | _ => True end.

Definition waiting (tt : N -> list N) : nat := total (map (fun c => List.length (tt c)) L).
Definition received (e : event) : nat := total (map (fun c => received_on c [e]) L).

Definition pending_ok (s : server) (tt : N -> list N) : Prop :=
  forall c p, sv_conns s c = Some p -> R pol p (tt c).

Lemma cost_filter os : filter by_frame os = [] -> total (map cost os) = 0.
Proof.
  induction os as [|o os IH]; intros H; [reflexivity|]. cbn [map filter] in *. rewrite total_cons.
  destruct (by_frame o) eqn:E; [discriminate H|]. rewrite Hother, IH by assumption. reflexivity.
Qed.

Lemma messages_cost items ms blocks :
  Forall2 (matches pol) (filter deliverable items) ms -> map fst blocks = ms ->
  (forall b, In b blocks -> total (map cost (snd b)) <= K * (7 + List.length (mb_data (fst b)))) ->
  total (map cost (List.concat (map snd blocks))) <= K * List.length (flat_map item_bytes items).
Proof.
  intros Hm Hf Hb. revert ms blocks Hm Hf Hb.
  induction items as [|i items IH]; intros ms blocks Hm Hf Hb; cbn [filter flat_map] in *.
  - inversion Hm; subst. destruct blocks; [|discriminate]. cbn. lia.
  - rewrite app_length. destruct (deliverable i).
    + inversion Hm as [|? m ? ms' Him Hms]; subst. destruct blocks as [|b bl]; [discriminate|].
      cbn [map] in *. injection H1 as E1 E2. subst m. cbn [map List.concat]. rewrite map_app, total_app.
      assert (H1 := Hb b (or_introl eq_refl)).
      assert (H2 : total (map cost (List.concat (map snd bl))) <= K * List.length (flat_map item_bytes items)).
      { apply (IH ms' bl Hms (eq_sym E2)). intros b' Hb'. apply Hb. right. exact Hb'. }
      assert (H3 : 7 + List.length (mb_data (fst b)) <= List.length (item_bytes i)).
      { assert (H3 := item_bytes_size i). unfold size in H3.
        destruct Him as (_ & _ & A & B & _). unfold long, size in *.
        destruct (Nat.le_gt_cases (List.length (body_of i)) 253) as [Hle|Hgt].
        - rewrite A by lia. lia.
        - rewrite B by lia. lia. }
      rewrite Nat.mul_add_distr_l. apply (Nat.mul_le_mono_l _ _ K) in H3. lia.
    + specialize (IH ms blocks Hm Hf Hb). rewrite Nat.mul_add_distr_l. lia.
Qed.

Lemma waiting_same tt tt' : (forall c, tt' c = tt c) -> waiting tt' = waiting tt.
Proof. intros H. apply total_ext. intros c _. rewrite H. reflexivity. Qed.

Definition put (tt : N -> list N) (c : N) (t : list N) : N -> list N := fun x => if N.eqb x c then t else tt x.

Lemma waiting_less tt c : waiting (put tt c []) <= waiting tt.
Proof. apply total_le. intros x _. unfold put. destruct (N.eqb x c); cbn; lia. Qed.

Lemma received_in c d : In c L -> received (EReceive c d) = List.length d.
Proof using HL. clear Hin Hother Hwt on_shutdown on_request cost K.
  intros H. unfold received.
  assert (E := total_one (fun x => received_on x [EReceive c d]) (fun _ => 0) c L HL H).
  cbv beta in E.
  assert (Z : forall l : list N, total (map (fun _ => 0) l) = 0) by (induction l; cbn in *; auto).
  assert (O : received_on c [EReceive c d] = List.length d).
  { unfold received_on. cbn [map]. rewrite N.eqb_refl, total_cons. cbn. lia. }
  rewrite Z, O in E. rewrite Nat.add_0_r in E. rewrite E; [lia|].
  intros x Hx. unfold received_on. cbn [map]. rewrite (proj2 (N.eqb_neq c x)) by auto. reflexivity.
Qed.

Lemma waiting_put_in tt c t : In c L -> waiting (put tt c t) + List.length (tt c) = waiting tt + List.length t.
Proof.
  intros H. unfold waiting.
  assert (E := total_one (fun x => List.length (put tt c t x)) (fun x => List.length (tt x)) c L HL H).
  cbv beta in E. assert (O : put tt c t c = t) by (unfold put; rewrite N.eqb_refl; reflexivity).
  rewrite O in E. apply E.
  intros x Hx. unfold put. rewrite (proj2 (N.eqb_neq x c)) by auto. reflexivity.
Qed.

Lemma waiting_put_out tt c t : ~ In c L -> waiting (put tt c t) = waiting tt.
Proof.
  intros H. apply total_ext. intros x Hx. unfold put. destruct (N.eqb_spec x c) as [->|]; [contradiction|reflexivity].
Qed.

Lemma step_bound s w e tt :
  pending_ok s tt -> typed_event e -> counted e ->
  exists s' w' os tt', server_step on_request on_shutdown pol s w e = Ret (s', w', os) /\ pending_ok s' tt' /\
    total (map cost os) + K * waiting tt' <= K * (waiting tt + received e).
Proof.
  intros Hp He Hc. destruct e as [a| |c buf|c d|c]; cbn [server_step].
  - exists (api_call s a), w, [], tt. split; [reflexivity|].
    assert (Q := api_call_sbq s a). destruct Q as (_ & _ & _ & Q & _).
    split; [unfold pending_ok; rewrite Q; exact Hp|]. cbn [map total fold_right]. rewrite Nat.mul_add_distr_l. lia.
  - destruct (sv_queue s) as [|t q].
    { exists s, w, [], tt. split; [reflexivity|]. split; [exact Hp|]. cbn [map total fold_right]. rewrite Nat.mul_add_distr_l. lia. }
    pose proof (run_task_conns on_shutdown (set_queue s q) w t) as Q.
    pose proof (run_task_outputs on_shutdown (set_queue s q) w t) as O.
    destruct (run_task on_shutdown (set_queue s q) w t) as [[s' w'] os].
    cbn [set_queue sv_conns snd] in Q, O.
    exists s', w', os, tt. split; [reflexivity|]. split; [unfold pending_ok; rewrite Q; exact Hp|].
    rewrite (cost_filter _ O), Nat.mul_add_distr_l. lia.
  - exists (set_conn s c (Some (mbap_new buf))), w, [], (put tt c []). split; [reflexivity|]. split.
    + intros c' p. cbn [set_conn sv_conns]. unfold put. destruct (N.eqb c' c); [|apply Hp].
      intros E. injection E as <-. apply R_new. exact He.
    + cbn [map]. assert (H := waiting_less tt c). apply (Nat.mul_le_mono_l _ _ K) in H.
      rewrite Nat.mul_add_distr_l. cbn [total fold_right]. lia.
  - cbn [typed_event counted] in He, Hc. destruct (sv_conns s c) as [p|] eqn:Ep.
    2:{ exists s, w, [], tt. split; [reflexivity|]. split; [exact Hp|]. cbn [map total fold_right]. rewrite Nat.mul_add_distr_l. lia. }
    destruct (parse_spec pol p (tt c) d (Hp c p Ep) He) as (p' & t' & items & ms & E & Hty & Hs & HR' & Hm & _).
    rewrite E. cbn [obind].
    assert (Htm := matches_typed _ _ _ Hty Hm).
    destruct (on_messages_spec on_request on_shutdown Hwt c ms (set_conn s c (Some p')) w Htm)
      as (s' & w' & os & bl & -> & Q & F & C & Sv & _ & _).
    exists s', w', os, (put tt c t'). split; [reflexivity|].
    destruct Q as (_ & _ & _ & Q & _). cbn [set_conn sv_conns] in Q. split.
    + intros c' q. rewrite Q. unfold put. destruct (N.eqb c' c); [|apply Hp]. intros X. injection X as <-. exact HR'.
    + rewrite Forall_forall in Sv. apply (f_equal (@List.length N)) in Hs. rewrite !app_length in Hs.
      destruct (in_dec N.eq_dec c L) as [Hi|Ho].
      * rewrite received_in by exact Hi. assert (H := waiting_put_in tt c t' Hi).
        assert (H1 : total (map cost os) <= K * List.length (flat_map item_bytes items)).
        { rewrite C. apply (messages_cost items ms bl Hm F).
          intros b Hb. destruct (Sv b Hb) as (w1 & w2 & [D1 D2]).
          destruct (sv_shutdown (set_conn s c (Some p'))).
          - destruct D1 as [_ ->]; [reflexivity|]. cbn. lia.
          - exact (Hin _ _ _ _ _ _ Hi (D2 eq_refl)). }
        assert (H2 : waiting (put tt c t') + List.length (flat_map item_bytes items) = waiting tt + List.length d) by lia.
        rewrite <- H2, Nat.mul_add_distr_l. lia.
      * rewrite waiting_put_out by exact Ho. destruct Hc as [Hc|Hc]; [contradiction|].
        assert (H1 : total (map cost os) = 0).
        { rewrite C. clear - Sv Hc. induction bl as [|b bl IH]; [reflexivity|]. cbn [map List.concat].
          rewrite map_app, total_app, IH by (intros b' Hb'; apply Sv; right; exact Hb').
          destruct (Sv b (or_introl eq_refl)) as (w1 & w2 & [D1 D2]).
          destruct (sv_shutdown (set_conn s c (Some p'))).
          - destruct D1 as [_ ->]; reflexivity.
          - rewrite (Hc _ _ _ _ _ (D2 eq_refl)). reflexivity. }
        rewrite H1, Nat.mul_add_distr_l. lia.
  - destruct (sv_conns s c) as [p|] eqn:Ep.
    2:{ exists s, w, [], tt. split; [reflexivity|]. split; [exact Hp|]. cbn [map total fold_right]. rewrite Nat.mul_add_distr_l. lia. }
    exists (set_conn s c (Some (mbap_reset p))), w, [], (put tt c []). split; [reflexivity|]. split.
    + intros c' q. cbn [set_conn sv_conns]. unfold put. destruct (N.eqb c' c); [|apply Hp].
      intros X. injection X as <-. apply R_reset. destruct (Hp c p Ep) as (HR & _). exact HR.
    + cbn [map]. assert (H := waiting_less tt c). apply (Nat.mul_le_mono_l _ _ K) in H.
      rewrite Nat.mul_add_distr_l. cbn [total fold_right]. lia.
Qed.

Lemma run_bound es : forall s w tt,
  pending_ok s tt -> Forall typed_event es -> Forall counted es ->
  exists s' w' os tt', server_run on_request on_shutdown pol s w es = Ret (s', w', os) /\ pending_ok s' tt' /\
    total (map cost os) + K * waiting tt' <= K * (waiting tt + total (map received es)).
Proof.
  induction es as [|e es IH]; intros s w tt Hp Ht Hc; cbn [server_run map].
  { exists s, w, [], tt. split; [reflexivity|]. split; [exact Hp|]. cbn [map total fold_right]. rewrite Nat.mul_add_distr_l. lia. }
  apply Forall_cons_iff in Ht. destruct Ht as [He Ht]. apply Forall_cons_iff in Hc. destruct Hc as [Hce Hc].
  destruct (step_bound s w e tt Hp He Hce) as (s1 & w1 & o1 & t1 & -> & P1 & B1). cbn [obind].
  destruct (IH s1 w1 t1 P1 Ht Hc) as (s2 & w2 & o2 & t2 & -> & P2 & B2). cbn [obind].
  exists s2, w2, (o1 ++ o2), t2. split; [reflexivity|]. split; [exact P2|].
  rewrite map_app, total_app, total_cons. rewrite !Nat.mul_add_distr_l in *. lia.
Qed.

Lemma init_bound w es s' w' os :
  Forall typed_event es -> Forall counted es ->
  server_run on_request on_shutdown pol server_init w es = Ret (s', w', os) ->
  total (map cost os) <= K * total (map received es).
Proof.
  intros Ht Hc E.
  destruct (run_bound es server_init w (fun _ => [])) as (s2 & w2 & o2 & t2 & E2 & _ & B); auto.
  { intros c p H. discriminate H. }
  rewrite E in E2. injection E2 as <- <- <-. unfold waiting at 2 in B. cbn [List.length] in B.
  assert (Z : forall l : list N, total (map (fun _ => 0) l) = 0) by (induction l; cbn in *; auto).
  rewrite Z in B. cbn [Nat.add] in B. lia.
Qed.
End Facts.

(** ** What a frame costs *)
Section Costs.
Context {W : Type}.
Context (on_request : N -> W -> request -> W * expected response * list api).
Context (on_shutdown : N -> W -> W * list api).
Context (Hwt : well_typed on_request).
Context (pol : copy_policy).

Definition bytes_sent (p : N -> bool) (o : output) : nat := match o with OSend c v => if p c then List.length v else 0 | _ => 0 end.
Definition frames_sent (p : N -> bool) (o : output) : nat := match o with OSend c v => if p c then 1 else 0 | _ => 0 end.
Definition consulted (o : output) : nat := match o with OConsult _ _ => 1 | _ => 0 end.

(** The shapes of what a frame causes. *)
Lemma serves_shape reg c m w w' os :
  serves on_request reg c m w w' os ->
  os = [] \/
  (1 <= List.length (mb_data m) /\ exists v, os = [OSend c v] /\ List.length v = 9) \/
  (5 <= List.length (mb_data m) /\ exists x r, os = [OConsult x r] \/
     exists v, os = [OConsult x r; OSend c v] /\ List.length v <= 260 /\ (answers_in_kind on_request -> List.length v <= 259)).
Proof.
  intros H. destruct H as [Hd|fc rest t Hd Em|x r w1 a calls os Hd Ha Hr].
  - left. reflexivity.
  - right. left. rewrite Em. split; [cbn; lia|]. eexists. split; [reflexivity|]. apply exception_length.
  - right. right. inversion Hd as [| | | | |x' r' Hx Hl Hp]; subst. split; [exact (request_length _ _ Hp)|].
    exists x, r. destruct a as [resp|[]]; cbn [reply] in Hr; subst; auto.
    + destruct Hr as (v & Hv & ->). right. exists v. split; [reflexivity|]. split; [exact (view_length _ _ _ _ Hv)|].
      intros Hk. destruct (Hwt _ _ _ _ _ _ Ha) as [_ Hc].
      destruct Hv as [Hv _].
      destruct (in_kind_length _ _ [] Hl Hc (Hk _ _ _ _ _ _ Ha)) as [Hf _].
      destruct (Hv Hf) as (pdu & Hpd & ->). rewrite map_length, frame_length.
      destruct (in_kind_length _ _ pdu Hl Hc (Hk _ _ _ _ _ _ Ha)) as [_ H]. specialize (H Hpd). lia.
    + right. eexists. split; [reflexivity|]. rewrite exception_length. split; lia.
Qed.

Ltac shapes H := destruct (serves_shape _ _ _ _ _ _ H) as [->|[(? & v & -> & ?)|(? & x & r & [->|(v & -> & ? & ?)])]];
  cbn [map total fold_right bytes_sent frames_sent consulted].

Lemma sent_cost p reg c m w w' os : serves on_request reg c m w w' os ->
  total (map (fun o => 12 * bytes_sent p o) os) <= 260 * (7 + List.length (mb_data m)).
Proof. intros H. shapes H; try destruct (p c); lia. Qed.

Lemma sent_cost_kind p reg c m w w' os : answers_in_kind on_request -> serves on_request reg c m w w' os ->
  total (map (fun o => 12 * bytes_sent p o) os) <= 259 * (7 + List.length (mb_data m)).
Proof. intros Hk H. shapes H; try specialize (H2 Hk); try destruct (p c); lia. Qed.

Lemma frames_cost p reg c m w w' os : serves on_request reg c m w w' os ->
  total (map (fun o => 8 * frames_sent p o) os) <= 1 * (7 + List.length (mb_data m)).
Proof. intros H. shapes H; try destruct (p c); lia. Qed.

Lemma consult_cost reg c m w w' os : serves on_request reg c m w w' os ->
  total (map (fun o => 12 * consulted o) os) <= 1 * (7 + List.length (mb_data m)).
Proof. intros H. shapes H; lia. Qed.

Lemma total_scale {A} k (f : A -> nat) l : total (map (fun x => k * f x) l) = k * total (map f l).
Proof. induction l as [|x l IH]; [cbn; lia|]. cbn [map]. rewrite !total_cons, IH. lia. Qed.

Lemma received_one c es : total (map (received [c]) es) = received_on c es.
Proof.
  unfold received_on. apply total_ext. intros e _. unfold received. cbn [map total fold_right].
  unfold received_on. cbn [map total fold_right]. lia.
Qed.

Lemma sent_on_cost c os : total (map (bytes_sent (fun x => N.eqb x c)) os) = sent_on c os.
Proof.
  unfold sent_on, sends_on. induction os as [|o os IH]; [reflexivity|]. cbn [map flat_map]. rewrite total_cons, map_app, total_app, IH.
  destruct o; try reflexivity. cbn [bytes_sent]. destruct (N.eqb conn c); cbn; lia.
Qed.

Lemma frames_on_cost c os : total (map (frames_sent (fun x => N.eqb x c)) os) = List.length (sends_on c os).
Proof.
  unfold sends_on. induction os as [|o os IH]; [reflexivity|]. cbn [map flat_map]. rewrite total_cons, app_length, IH.
  destruct o; try reflexivity. cbn [frames_sent]. destruct (N.eqb conn c); cbn; lia.
Qed.

Lemma consulted_cost os : total (map consulted os) = consultations os.
Proof.
  unfold consultations. induction os as [|o os IH]; [reflexivity|]. cbn [map filter]. rewrite total_cons, IH.
  destruct o; reflexivity.
Qed.

Lemma sent_all_cost os : total (map (bytes_sent (fun _ => true)) os) = sent_to_all os.
Proof. unfold sent_to_all. apply total_ext. intros o _. destruct o; reflexivity. Qed.

(** All connections of a history. *)
Definition conns_of (es : list event) : list N :=
  nodup N.eq_dec (flat_map (fun e => match e with EReceive c _ => [c] | _ => [] end) es).

Lemma conns_of_in es c d : In (EReceive c d) es -> In c (conns_of es).
Proof. intros H. apply nodup_In. apply in_flat_map. exists (EReceive c d). split; [exact H|left; reflexivity]. Qed.

Lemma received_all es : total (map (received (conns_of es)) es) = received_by_all es.
Proof.
  unfold received_by_all. apply total_ext. intros e He. destruct e as [a| |c b|c d|c];
    try (unfold received, received_on; cbn [map total fold_right]; induction (conns_of es); cbn in *; auto; fail).
  apply received_in; [apply NoDup_nodup|]. exact (conns_of_in _ _ _ He).
Qed.

Section History.
Context (w : W) (es : list event) (s' : server) (w' : W) (os : list output).
Context (Ht : Forall typed_event es).
Context (E : server_run on_request on_shutdown pol server_init w es = Ret (s', w', os)).

Lemma one_outside c c' cost :
  (forall v, cost (OSend c' v) = 0) -> (forall x r, cost (OConsult x r) = 0) -> c <> c' -> outside on_request cost c'.
Proof.
  intros H1 H2 _ reg m w1 w2 os' Hs. destruct (serves_shape _ _ _ _ _ _ Hs) as [->|[(_ & v & -> & _)|(_ & x & r & [->|(v & -> & _)])]];
    cbn [map]; rewrite ?total_cons, ?H1, ?H2; reflexivity.
Qed.

Lemma only_counted c cost :
  (forall c' v, c <> c' -> cost (OSend c' v) = 0) -> (forall x r, cost (OConsult x r) = 0) ->
  Forall (counted on_request cost [c]) es.
Proof.
  intros H1 H2. apply Forall_forall. intros [a| |c' b|c' d|c'] _; try exact I. cbn [counted].
  destruct (N.eq_dec c c') as [->|Hne]; [left; left; reflexivity|]. right.
  apply (one_outside c); auto.
Qed.

Lemma all_counted cost : Forall (counted on_request cost (conns_of es)) es.
Proof.
  apply Forall_forall. intros [a| |c b|c d|c] He; try exact I. left. exact (conns_of_in _ _ _ He).
Qed.

Lemma bytes_bound c : 12 * sent_on c os <= 260 * received_on c es.
Proof.
  assert (H := init_bound on_request on_shutdown Hwt pol (fun o => 12 * bytes_sent (fun x => N.eqb x c) o) 260).
  rewrite <- sent_on_cost, <- total_scale, <- received_one.
  apply (H ltac:(intros []; cbn; (reflexivity || discriminate)) [c] ltac:(repeat constructor; intros [])
    ltac:(intros; eapply sent_cost; eassumption) w es s' w' os Ht); [|exact E].
  apply only_counted; [|reflexivity]. intros c' v Hne. cbn [bytes_sent]. rewrite (proj2 (N.eqb_neq c' c)) by auto. reflexivity.
Qed.

Lemma bytes_bound_kind c : answers_in_kind on_request -> 12 * sent_on c os <= 259 * received_on c es.
Proof.
  intros Hk. assert (H := init_bound on_request on_shutdown Hwt pol (fun o => 12 * bytes_sent (fun x => N.eqb x c) o) 259).
  rewrite <- sent_on_cost, <- total_scale, <- received_one.
  apply (H ltac:(intros []; cbn; (reflexivity || discriminate)) [c] ltac:(repeat constructor; intros [])
    ltac:(intros; eapply sent_cost_kind; eassumption) w es s' w' os Ht); [|exact E].
  apply only_counted; [|reflexivity]. intros c' v Hne. cbn [bytes_sent]. rewrite (proj2 (N.eqb_neq c' c)) by auto. reflexivity.
Qed.

Lemma frames_bound c : 8 * List.length (sends_on c os) <= received_on c es.
Proof.
  assert (H := init_bound on_request on_shutdown Hwt pol (fun o => 8 * frames_sent (fun x => N.eqb x c) o) 1).
  rewrite <- frames_on_cost, <- total_scale, <- received_one, <- (Nat.mul_1_l (total (map (received _) _))).
  apply (H ltac:(intros []; cbn; (reflexivity || discriminate)) [c] ltac:(repeat constructor; intros [])
    ltac:(intros; eapply frames_cost; eassumption) w es s' w' os Ht); [|exact E].
  apply only_counted; [|reflexivity]. intros c' v Hne. cbn [frames_sent]. rewrite (proj2 (N.eqb_neq c' c)) by auto. reflexivity.
Qed.

Lemma consultations_bound : 12 * consultations os <= received_by_all es.
Proof.
  assert (H := init_bound on_request on_shutdown Hwt pol (fun o => 12 * consulted o) 1).
  rewrite <- consulted_cost, <- total_scale, <- received_all, <- (Nat.mul_1_l (total (map (received _) _))).
  apply (H ltac:(intros []; cbn; (reflexivity || discriminate)) (conns_of es) (NoDup_nodup _ _)
    ltac:(intros; eapply consult_cost; eassumption) w es s' w' os Ht); [|exact E].
  apply all_counted.
Qed.

Lemma all_bytes_bound : 12 * sent_to_all os <= 260 * received_by_all es.
Proof.
  assert (H := init_bound on_request on_shutdown Hwt pol (fun o => 12 * bytes_sent (fun _ => true) o) 260).
  rewrite <- sent_all_cost, <- total_scale, <- received_all.
  apply (H ltac:(intros []; cbn; (reflexivity || discriminate)) (conns_of es) (NoDup_nodup _ _)
    ltac:(intros; eapply sent_cost; eassumption) w es s' w' os Ht); [|exact E].
  apply all_counted.
Qed.
End History.
End Costs.
