(** What the example client does. *)
From Verif Require Import Prelude Ser4 Messages Mbap SpecPdu SpecMbap Client SpecClient ClientFacts ClientLemmas ClientView
  Scheduled SpecScheduled SessionCall Session SpecSession SessionLift SessionFacts SessionInv SessionLemmas SessionCalls SessionDown SessionMeant
  Config Ids ExampleClient SpecExampleClient ExampleClientFacts ExampleClientLemmas.
From Coq Require Import String Lia.

(** ** Printing *)
Lemma exception_words t : string_of_list_ascii (exception_message t) = meaning_text t.
Proof. destruct t; vm_compute; reflexivity. Qed.

Lemma error_words text i e : error_message text i e = failure_text (text i) e.
Proof. destruct e; try reflexivity. exact (exception_words _). Qed.

Lemma one_bit b x : bit_field [b] [x] <-> N.odd x = b.
Proof.
  unfold bit_field. cbn [List.length]. rewrite <- N.bit0_odd. split.
  - intros [_ H]. exact (H 0%nat (Nat.lt_0_succ 0)).
  - intros H. split; [reflexivity|]. intros [|i] Hi; [exact H|lia].
Qed.

Lemma coil_response v d : answers_shape (ReadCoils 36 1) v -> response_pdu_lenient_count v d ->
  exists b, v = CoilsRead [(36, N.odd b)] /\ d = [1; 1; b].
Proof.
  intros S P. destruct v as [vs| | | | | | |]; try contradiction. destruct S as [S1 S2].
  destruct vs as [|[a v] [|y vs]]; [discriminate| |unfold size in S1; cbn [List.length] in S1; lia].
  assert (Ha := S2 0%nat (Nat.lt_0_succ 0)). cbn [nth map fst N.of_nat] in Ha. change ((36 + 0) mod 65536) with 36 in Ha. subst a.
  cbn [response_pdu_lenient_count] in P. unfold response_pdu_any_padding in P. cbn in P. destruct P as (f & F & ->).
  assert (L := proj1 F). destruct f as [|b [|c f]]; [discriminate| |discriminate].
  cbn [map snd] in F. apply one_bit in F. exists b. split; [rewrite F; reflexivity|reflexivity].
Qed.

Lemma coil_shape b : response_pdu_lenient_count (CoilsRead [(36, N.odd b)]) [1; 1; b].
Proof.
  cbn. unfold response_pdu_any_padding. cbn. exists [b]. split; [apply one_bit; reflexivity|reflexivity].
Qed.

Lemma coil_printed text i y v : told (ReadCoils 36 1) y v -> exists l, print_coils text i v = [l] /\ coil_line (text i) y l.
Proof.
  destruct y as [d|e]; cbn [told].
  - destruct v as [resp|e]; [|destruct e as [| |t| | |]]; cbn [decodes]; try contradiction.
    + intros (S & _ & P). destruct (coil_response _ _ S P) as (b & -> & ->). cbn [print_coils map]. eexists. split; [reflexivity|].
      assert (K := coil_value (text i) b). unfold print_coil. cbn [fst snd]. destruct (N.odd b); exact K.
    + intros [M1 M2]. eexists. split; [reflexivity|]. apply coil_malformed; [|exact M2]. intros b ->.
      apply (M1 (CoilsRead [(36, N.odd b)])); [|constructor; [cbn; unfold u16; lia|constructor]|apply coil_shape].
      split; [reflexivity|]. intros [|j] Hj; [reflexivity|cbn in Hj; lia].
    + intros (code & -> & M). eexists. split; [reflexivity|]. cbn [error_message]. rewrite exception_words. exact (coil_refused _ _ _ M).
  - intros ->. assert (D : e = ETimeout \/ e <> ETimeout) by (destruct e; auto; right; discriminate). destruct D as [-> |D].
    + eexists. split; [reflexivity|apply coil_timeout].
    + exists (error_message text i e). split; [destruct e; try reflexivity; contradiction|]. rewrite error_words. exact (coil_failed _ _ D).
Qed.

Lemma write_printed text i y v a vs : told (WriteMultipleRegisters a vs) y v -> exists l, print_written text i v = [l] /\ write_line (text i) y l.
Proof.
  destruct y as [d|e]; cbn [told].
  - destruct v as [resp|e]; [|destruct e as [| |t| | |]]; cbn [decodes]; try contradiction.
    + intros (S & T & P). destruct resp; try contradiction. destruct T as [T1 T2]. eexists. split; [reflexivity|].
      cbn in P. unfold response_pdu_any_padding in P. cbn [response_pdu_with] in P. subst d. exact (write_done _ _ _ T1 T2).
    + intros [M1 M2]. eexists. split; [reflexivity|]. apply write_malformed; [|exact M2]. intros b q Hb Hq ->.
      apply (M1 (MultipleRegistersWritten b q)); [exact Logic.I|split; assumption|reflexivity].
    + intros (code & -> & M). eexists. split; [reflexivity|]. cbn [error_message]. rewrite exception_words. exact (write_refused _ _ _ M).
  - intros ->. exists (error_message text i e). split; [destruct e; reflexivity|]. rewrite error_words. apply write_failed.
Qed.

(** ** The theorems *)
Section Theorems.
Context (text : nat -> string) (pol : copy_policy).

Lemma client_defined buf es : good_buf buf -> Forall typed_pevent es -> exists x os ls, prog_history text pol buf es x os ls.
Proof. intros Hb. exact (history_total text pol buf Hb es). Qed.

Lemma client_end buf es x os ls : prog_history text pol buf es x os ls -> existsb quits es = false -> prog_step text pol x PEnd = UB.
Proof.
  intros H Hq. destruct (history_ran text pol buf (proj1 H) _ _ _ _ H) as [_ Ho]. unfold prog_step. rewrite Ho, Hq. reflexivity.
Qed.

Lemma client_quit buf es1 es2 x os ls x' os' ls' : prog_history text pol buf es1 x os ls -> existsb quits es1 = true ->
  prog_run text pol x es2 = Ret (x', (os', ls')) -> x' = x /\ os' = [] /\ ls' = [].
Proof.
  intros H Hq E. destruct (history_ran text pol buf (proj1 H) _ _ _ _ H) as [_ Ho]. rewrite Hq in Ho.
  rewrite (over_run text pol es2 x Ho) in E. inversion E; subst. auto.
Qed.

Lemma client_startup buf es x os ls : prog_history text pol buf es x os ls ->
  exists os', os = [Asked (Open 1 3000); Opened 0 1 3000; Asked (Schedule 0 (ReadHoldingRegisters 36 59) None 2000);
                    Scheduled 0 0 (ReadHoldingRegisters 36 59) None 2000] ++ os'.
Proof.
  intros (Hb & T & x0 & o1 & p1 & o2 & p2 & E1 & E2 & -> & ->). destruct (init_ran text pol buf) as (y & os & ls & E & R & Ho & Hos & _).
  rewrite E in E1. inversion E1; subst. eexists. reflexivity.
Qed.

Lemma client_requests buf es x os ls : prog_history text pol buf es x os ls ->
  sent_once os = map (pair 0%nat) (flat_map asks (typed_before_quit es)).
Proof. intros H. exact (r_sent _ _ _ _ _ _ _ (proj1 (history_ran text pol buf (proj1 H) _ _ _ _ H))). Qed.

Lemma sent_asked cs i x r t os : sent_once os = map (pair 0%nat) (flat_map asks cs) -> In (Issued i x r t) os ->
  x = 0%nat /\ ((r = ReadCoils 36 1 /\ t = Some 3000) \/ (r = WriteMultipleRegisters 36 [11; 22; 33] /\ t = None)).
Proof.
  intros E H. assert (K : In (x, (r, t)) (sent_once os)) by (apply in_flat_map; exists (Issued i x r t); split; [exact H|left; reflexivity]).
  rewrite E in K. apply in_map_iff in K. destruct K as (rt & K1 & K2). inversion K1; subst.
  apply in_flat_map in K2. destruct K2 as (c & _ & K2). split; [reflexivity|]. unfold asks in K2.
  destruct (c =? 114); [left|destruct (c =? 119); [right|destruct K2]]; destruct K2 as [K2|[]]; inversion K2; auto.
Qed.

(** Everything that is made. *)
Lemma client_made buf es x os ls : prog_history text pol buf es x os ls ->
  (forall s u d, In (Opened s u d) os -> s = 0%nat /\ u = 1 /\ d = 3000) /\
  (forall j s r t f, In (Scheduled j s r t f) os -> j = 0%nat /\ s = 0%nat /\ r = ReadHoldingRegisters 36 59 /\ t = None /\ f = 2000) /\
  (forall i s r t, In (Issued i s r t) os ->
     s = 0%nat /\ ((r = ReadCoils 36 1 /\ t = Some 3000) \/ (r = WriteMultipleRegisters 36 [11; 22; 33] /\ t = None))).
Proof.
  intros H. destruct (history_ran text pol buf (proj1 H) _ _ _ _ H) as [R _]. split; [|split].
  - intros s u d K. destruct (r_made _ _ _ _ _ _ _ R _ K) as [E|E]; [split; [reflexivity|discriminate]| |]; inversion E; auto.
  - intros j s r t f K. destruct (r_made _ _ _ _ _ _ _ R _ K) as [E|E]; [split; [reflexivity|discriminate]| |]; inversion E; auto.
  - intros i s r t K. exact (sent_asked _ _ _ _ _ _ (r_sent _ _ _ _ _ _ _ R) K).
Qed.

Lemma client_calls buf es x os ls i c : prog_history text pol buf es x os ls -> In (Channel (Called i c)) os ->
  k_unit c = 1 /\ k_timeout c = 3000 /\
  exists r, In r [ReadHoldingRegisters 36 59; ReadCoils 36 1; WriteMultipleRegisters 36 [11; 22; 33]] /\ k_msg c = request_message r.
Proof.
  intros H Hc. destruct (client_made _ _ _ _ _ H) as (M1 & M2 & M3).
  destruct (history_ran text pol buf (proj1 H) _ _ _ _ H) as [R _]. destruct (ran_history _ _ _ (proj1 H) _ _ _ _ R) as (kes & K).
  destruct (call_origin _ _ _ _ _ _ _ K Hc) as (s & u & d & r & t & Ho & (C1 & C2 & C3) & Hk).
  destruct (M1 _ _ _ Ho) as (-> & -> & ->). destruct Hk as [Hk|(j & n & f & _ & Hk)].
  - destruct (M3 _ _ _ _ Hk) as [_ [[-> ->]|[-> ->]]]; (split; [exact C1|]; split; [exact C3|]; eexists; split; [|exact C2]); cbn [In]; auto.
  - destruct (M2 _ _ _ _ _ Hk) as (_ & _ & -> & -> & _). split; [exact C1|]. split; [exact C3|]. eexists. split; [|exact C2]. cbn [In]. auto.
Qed.

Lemma client_no_shutdown buf es x os ls : prog_history text pol buf es x os ls -> ~ In (Channel TcpShutdown) os.
Proof.
  intros H K. destruct (history_ran text pol buf (proj1 H) _ _ _ _ H) as [R _]. destruct (ran_history _ _ _ (proj1 H) _ _ _ _ R) as (kes & Hk).
  apply (shutdown_asked _ _ _ _ _ Hk) in K. exact (proj1 (r_unclosed _ _ _ _ _ _ _ R) K).
Qed.

(** What is printed. *)
Lemma output_prints kes x os y : stack_history example_handlers pol kes (pg_stack x) os ->
  (forall i s r t, In (Issued i s r t) os ->
     s = 0%nat /\ ((r = ReadCoils 36 1 /\ t = Some 3000) \/ (r = WriteMultipleRegisters 36 [11; 22; 33] /\ t = None))) ->
  In y os -> prints text os y (printed text (ks_owners (st_rest (pg_stack x))) y).
Proof.
  intros H M Hy. destruct y; try (apply prints_nothing; discriminate).
  - destruct (answer_source _ _ _ _ _ _ _ H Hy) as (s & r & t & z & Hi & Hz & Hv). cbn [printed].
    rewrite (owner_of_issued _ _ _ _ _ _ _ _ _ H Hi). destruct (M _ _ _ _ Hi) as [_ [[-> ->]|[-> ->]]].
    + destruct (coil_printed text i z v) as (l & E & L); [apply Hv; cbn; unfold u16; lia|]. rewrite E. exact (prints_coil _ _ _ _ _ _ _ _ Hi Hz L).
    + destruct (write_printed text i z v 36 [11; 22; 33]) as (l & E & L); [apply Hv; cbn; unfold u16; repeat (split || constructor); lia|].
      rewrite E. exact (prints_write _ _ _ _ _ _ _ _ Hi Hz L).
  - cbn [printed]. destruct o; try (apply prints_nothing; discriminate). apply prints_polled.
Qed.

Lemma client_lines buf es x os ls : prog_history text pol buf es x os ls ->
  exists lss, ls = List.concat lss /\ Forall2 (prints text os) os lss.
Proof.
  intros H. destruct (client_made _ _ _ _ _ H) as (_ & _ & M).
  destruct (history_ran text pol buf (proj1 H) _ _ _ _ H) as [R _]. destruct (ran_history _ _ _ (proj1 H) _ _ _ _ R) as (kes & K).
  exists (map (printed text (ks_owners (st_rest (pg_stack x)))) os). split; [rewrite <- flat_map_concat_map; exact (r_lines _ _ _ _ _ _ _ R)|].
  assert (A : forall l, incl l os -> Forall2 (prints text os) l (map (printed text (ks_owners (st_rest (pg_stack x)))) l)).
  { induction l as [|y l IH]; intros Hl; [constructor|]. constructor; [apply (output_prints kes); [exact K|exact M|apply Hl; left; reflexivity]|].
    apply IH. intros z Hz. apply Hl. right. exact Hz. }
  apply A. intros y Hy. exact Hy.
Qed.

(** ** Every request leads to a line *)
Lemma prints_count os l lss : Forall2 (prints text os) l lss ->
  List.length (List.concat lss) = (List.length (answered_ids l) + List.length (filter is_response l))%nat.
Proof.
  induction 1 as [|y ls0 l lss P _ IH]; [reflexivity|]. cbn [List.concat filter]. rewrite app_length, IH.
  unfold answered_ids at 2. cbn [flat_map]. fold (answered_ids l). rewrite app_length.
  destruct P as [i v x t z s _ _ _|i v x t z s _ _ _|j n v|y N1 N2]; cbn [List.length is_response]; try lia.
  destruct y; cbn [List.length is_response]; try lia.
  - destruct (N1 _ _ eq_refl).
  - destruct o; cbn [List.length is_response]; try lia. destruct (N2 _ _ _ eq_refl).
Qed.

Lemma issued_calls i os : In i (issued_ids os) -> In i (call_ids os).
Proof.
  unfold issued_ids, call_ids. intros H. apply in_flat_map in H. destruct H as (o & Ho & H). apply in_flat_map. exists o. split; [exact Ho|].
  destruct o; cbn [In] in H; try contradiction. exact H.
Qed.

Lemma issued_nodup os : NoDup (call_ids os) -> NoDup (issued_ids os).
Proof.
  unfold issued_ids, call_ids. induction os as [|o os IH]; [intros _; constructor|]. cbn [flat_map]. fold (issued_ids os) (call_ids os).
  fold (issued_ids os) (call_ids os) in IH. destruct o; cbn [app]; try exact IH; intros H; inversion H; subst.
  - constructor; [intros K; apply issued_calls in K; contradiction|auto].
  - auto.
Qed.

Lemma sent_length os : List.length (issued_ids os) = List.length (sent_once os).
Proof.
  unfold issued_ids, sent_once. induction os as [|o os IH]; [reflexivity|]. cbn [flat_map]. rewrite !app_length, IH. destruct o; reflexivity.
Qed.

Lemma client_answers buf es x os ls : prog_history text pol buf es x os ls -> quiescent (st_channel (pg_stack x)) ->
  List.length ls = (List.length (flat_map asks (typed_before_quit es)) + List.length (filter is_response os))%nat.
Proof.
  intros H Hq. destruct (client_lines _ _ _ _ _ H) as (lss & -> & F). rewrite (prints_count _ _ _ F). f_equal.
  destruct (history_ran text pol buf (proj1 H) _ _ _ _ H) as [R _]. destruct (ran_history _ _ _ (proj1 H) _ _ _ _ R) as (kes & K).
  rewrite <- (map_length (pair 0%nat) (flat_map asks (typed_before_quit es))), <- (r_sent _ _ _ _ _ _ _ R), <- sent_length.
  destruct (answered_once _ _ _ _ _ K) as [A1 A2].
  assert (A3 : NoDup (issued_ids os)).
  { apply issued_nodup. destruct (sessions_inv _ _ _ _ _ K) as [[G _ _] _ _]. assert (C := rg_call_ids _ _ _ G).
    unfold call_ids in *. rewrite flat_inner in C by reflexivity. rewrite C. apply seq_NoDup. }
  assert (A4 : incl (issued_ids os) (answered_ids os)).
  { intros i Hi. apply (count_occ_In Nat.eq_dec). rewrite (answered_at_rest _ _ _ _ _ _ K Hq (client_no_shutdown _ _ _ _ _ H) Hi). lia. }
  apply Nat.le_antisymm; apply NoDup_incl_length; assumption.
Qed.

(** ** The scheduled request *)
Lemma prog_run_app es1 : forall x es2, prog_run text pol x (es1 ++ es2) =
  (let! (x, (o, p)) := prog_run text pol x es1 in let! (x, (o', p')) := prog_run text pol x es2 in Ret (x, (o ++ o', p ++ p'))).
Proof.
  induction es1 as [|e es1 IH]; intros x es2; cbn [app prog_run obind].
  - destruct (prog_run text pol x es2) as [[x1 [o1 p1]]|]; reflexivity.
  - destruct (prog_step text pol x e) as [[x1 [o1 p1]]|]; [|reflexivity]. cbn [obind]. rewrite IH.
    destruct (prog_run text pol x1 es1) as [[x2 [o2 p2]]|]; [|reflexivity]. cbn [obind].
    destruct (prog_run text pol x2 es2) as [[x3 [o3 p3]]|]; [|reflexivity]. cbn [obind]. rewrite !app_assoc. reflexivity.
Qed.

Lemma client_snoc buf es e x os ls : prog_history text pol buf (es ++ [e]) x os ls ->
  exists x1 os1 ls1 o p, prog_history text pol buf es x1 os1 ls1 /\ typed_pevent e /\ prog_step text pol x1 e = Ret (x, (o, p)) /\
    os = os1 ++ o /\ ls = ls1 ++ p.
Proof.
  intros (Hb & T & x0 & o1 & p1 & o2 & p2 & E1 & E2 & -> & ->). apply Forall_app in T. destruct T as [T1 T2]. inversion T2; subst.
  rewrite prog_run_app in E2. destruct (prog_run text pol x0 es) as [[x1 [o3 p3]]|] eqn:E3; [|discriminate]. cbn [obind prog_run] in E2.
  destruct (prog_step text pol x1 e) as [[x2 [o4 p4]]|] eqn:E4; [|discriminate]. cbn [obind] in E2. inversion E2; subst.
  exists x1, (o1 ++ o3), (p1 ++ p3), o4, p4. rewrite !app_nil_r, !app_assoc. split; [|auto].
  split; [exact Hb|]. split; [exact T1|]. exists x0, o1, p1, o3, p3. auto.
Qed.

Lemma typed_snoc e es : typed_before_quit (es ++ [e]) = typed_before_quit es ++ if existsb quits es then [] else one e.
Proof.
  induction es as [|f es IH].
  - destruct e; reflexivity.
  - cbn [app existsb]. destruct f as [f|c|]; cbn [typed_before_quit quits orb]; [exact IH| |exact IH].
    destruct (c =? 113); [reflexivity|]. cbn [orb app]. rewrite IH. reflexivity.
Qed.

Lemma typed_times_snoc c e es : typed_times c (es ++ [e]) =
  (typed_times c es + if existsb quits es then 0 else count_occ N.eq_dec (one e) c)%nat.
Proof. unfold typed_times. rewrite typed_snoc, count_occ_app. destruct (existsb quits es); reflexivity. Qed.

(** What one step means for the scheduled request. *)
Lemma step_meant cs x os ls e x' o p buf : good_buf buf -> ran text pol buf cs x os ls -> pg_over x = false -> typed_pevent e ->
  prog_step text pol x e = Ret (x', (o, p)) -> forall m,
  fold_left (meant_step 0) o m =
    match e with
    | PCommand c => if c =? 115 then (negb (is_running (pg_stack x) 0), snd m)
                    else if c =? 102 then (fst m, if frequency (pg_stack x) 0 =? 2000 then 5000 else 2000) else m
    | _ => m
    end.
Proof.
  intros Hb R Ho He E m. destruct (ran_history _ _ _ Hb _ _ _ _ R) as (kes & H). unfold prog_step in E. rewrite Ho in E.
  destruct e as [e|c|]; [| |discriminate].
  - assert (Q : match e with KApi _ => False | _ => True end -> stack_part text pol x e = Ret (x', (o, p)) -> fold_left (meant_step 0) o m = m).
    { intros Hq E'. unfold stack_part in E'.
      destruct (stack_step example_handlers pol (pg_stack x) e) as [[k o']|] eqn:Es; cbn [obind] in E'; [|discriminate]. inversion E'; subst.
      destruct (quiet_step _ _ _ _ _ _ _ H (r_unclosed _ _ _ _ _ _ _ R) He Hq Es) as [A M]. exact (quiet_meant _ _ _ A M). }
    destruct e as [a| |j t|j t|e]; [inversion E; reflexivity|exact (Q Logic.I E)..].
  - destruct (N.eqb_spec c 113) as [-> |Hc]; [inversion E; reflexivity|].
    assert (Q : forall a, command_calls (pg_stack x) c = [a] -> exists k, stack_step example_handlers pol (pg_stack x) (KApi a) = Ret (k, o)).
    { intros a Ea. rewrite Ea in E. cbn [make_calls] in E. unfold stack_part in E.
      destruct (stack_step example_handlers pol (pg_stack x) (KApi a)) as [[k o']|] eqn:Es; cbn [obind] in E; [|discriminate]. inversion E; subst.
      exists k. rewrite app_nil_r. reflexivity. }
    unfold command_calls in *.
    destruct (N.eqb_spec c 114) as [-> |H1].
    { destruct (Q _ eq_refl) as (k & Es). destruct (send_step _ _ _ _ _ _ _ _ _ _ _ _ H (r_open _ _ _ _ _ _ _ R) Es) as (o1 & n & ->).
      rewrite meant_channel. reflexivity. }
    destruct (N.eqb_spec c 119) as [-> |H2].
    { destruct (Q _ eq_refl) as (k & Es). destruct (send_step _ _ _ _ _ _ _ _ _ _ _ _ H (r_open _ _ _ _ _ _ _ R) Es) as (o1 & n & ->).
      rewrite meant_channel. reflexivity. }
    destruct (N.eqb_spec c 115) as [-> |H3].
    { destruct (Q _ eq_refl) as (k & Es). rewrite (method_step _ _ _ _ _ _ _ _ _ _ _ _ _ H (r_sched _ _ _ _ _ _ _ R) Es).
      destruct (is_running (pg_stack x) 0); reflexivity. }
    destruct (N.eqb_spec c 102) as [-> |H4].
    { destruct (Q _ eq_refl) as (k & Es). rewrite (method_step _ _ _ _ _ _ _ _ _ _ _ _ _ H (r_sched _ _ _ _ _ _ _ R) Es). reflexivity. }
    cbn [make_calls] in E. inversion E; reflexivity.
Qed.

Lemma init_meant buf x os ls : prog_history text pol buf [] x os ls -> meant 0 os = (true, 2000).
Proof.
  intros (Hb & _ & x0 & o1 & p1 & o2 & p2 & E1 & E2 & -> & ->). destruct (init_ran text pol buf) as (y & os & ls & E & _ & _ & Hos & _).
  rewrite E in E1. inversion E1; subst. cbn in E2. inversion E2; subst. reflexivity.
Qed.

Lemma over_step x e : pg_over x = true -> prog_step text pol x e = Ret (x, ([], [])).
Proof. intros H. unfold prog_step. rewrite H. reflexivity. Qed.

Lemma client_meant buf es : patient text pol buf es -> forall x os ls, prog_history text pol buf es x os ls ->
  meant 0 os = (Nat.even (typed_times 115 es), if Nat.even (typed_times 102 es) then 2000 else 5000).
Proof.
  induction es as [|e es IH] using rev_ind; intros P x os ls H; [exact (init_meant _ _ _ _ H)|].
  destruct (client_snoc _ _ _ _ _ _ H) as (x1 & os1 & ls1 & o & p & H1 & He & E & -> & ->).
  assert (P1 : patient text pol buf es).
  { intros es1 c es2 y os2 ls2 -> Hc. rewrite <- app_assoc in P. exact (P es1 c (es2 ++ [e]) y os2 ls2 eq_refl Hc). }
  assert (Hm := IH P1 _ _ _ H1). clear IH. destruct (history_ran text pol buf (proj1 H1) _ _ _ _ H1) as [R Ho].
  unfold meant. rewrite fold_left_app. fold (meant 0 os1). rewrite !typed_times_snoc, <- Ho. destruct (pg_over x1) eqn:Eo.
  - rewrite (over_step _ _ Eo) in E. inversion E; subst. rewrite !Nat.add_0_r. exact Hm.
  - rewrite (step_meant _ _ _ _ _ _ _ _ _ (proj1 H) R Eo He E). rewrite Hm.
    destruct e as [e|c|]; cbn [one count_occ]; rewrite ?Nat.add_0_r; try reflexivity.
    assert (Q : c = 115 \/ c = 102 -> (is_running (pg_stack x1) 0, frequency (pg_stack x1) 0) = meant 0 os1).
    { intros Hc. destruct (ran_history _ _ _ (proj1 H) _ _ _ _ R) as (kes & K). apply (meant_now _ _ _ _ _ _ _ _ _ _ K (r_sched _ _ _ _ _ _ _ R)).
      exact (P es c [] _ _ _ eq_refl Hc H1). }
    rewrite Hm in Q. destruct (N.eqb_spec c 115) as [-> |H3].
    + specialize (Q (or_introl eq_refl)). injection Q as Q1 Q2. rewrite Q1. cbn [N.eqb Pos.eqb count_occ fst snd].
      destruct (N.eq_dec 115 115) as [_|K]; [|destruct (K eq_refl)]. destruct (N.eq_dec 115 102) as [K|_]; [discriminate|].
      rewrite Nat.add_0_r, Nat.add_1_r, Nat.even_succ, <- Nat.negb_even. reflexivity.
    + destruct (N.eqb_spec c 102) as [-> |H2].
      * specialize (Q (or_intror eq_refl)). injection Q as Q1 Q2. rewrite Q2. cbn [N.eqb Pos.eqb count_occ fst snd].
        destruct (N.eq_dec 102 102) as [_|K]; [|destruct (K eq_refl)]. destruct (N.eq_dec 102 115) as [K|_]; [discriminate|].
        rewrite Nat.add_0_r, Nat.add_1_r, Nat.even_succ, <- Nat.negb_even. destruct (Nat.even (typed_times 102 es)); reflexivity.
      * destruct (c =? 113); cbn [count_occ]; rewrite ?Nat.add_0_r; [reflexivity|].
        destruct (N.eq_dec c 115); [contradiction|]. destruct (N.eq_dec c 102); [contradiction|]. rewrite !Nat.add_0_r. reflexivity.
Qed.

Lemma client_toggles buf es x os ls : patient text pol buf es -> prog_history text pol buf es x os ls ->
  ks_queue (st_rest (pg_stack x)) = [] ->
  is_running (pg_stack x) 0 = Nat.even (typed_times 115 es) /\
  frequency (pg_stack x) 0 = if Nat.even (typed_times 102 es) then 2000 else 5000.
Proof.
  intros P H Hq. destruct (history_ran text pol buf (proj1 H) _ _ _ _ H) as [R _]. destruct (ran_history _ _ _ (proj1 H) _ _ _ _ R) as (kes & K).
  assert (M := meant_now _ _ _ _ _ _ _ _ _ _ K (r_sched _ _ _ _ _ _ _ R) Hq). rewrite (client_meant _ _ P _ _ _ H) in M. inversion M. auto.
Qed.

(** However fast the user types, the frequency is one of two. *)
Lemma meant_frequency buf es : forall x os ls, prog_history text pol buf es x os ls -> snd (meant 0 os) = 2000 \/ snd (meant 0 os) = 5000.
Proof.
  induction es as [|e es IH] using rev_ind; intros x os ls H; [rewrite (init_meant _ _ _ _ H); auto|].
  destruct (client_snoc _ _ _ _ _ _ H) as (x1 & os1 & ls1 & o & p & H1 & He & E & -> & ->).
  specialize (IH _ _ _ H1). destruct (history_ran text pol buf (proj1 H1) _ _ _ _ H1) as [R Ho].
  unfold meant. rewrite fold_left_app. fold (meant 0 os1). destruct (pg_over x1) eqn:Eo.
  - rewrite (over_step _ _ Eo) in E. inversion E; subst. exact IH.
  - rewrite (step_meant _ _ _ _ _ _ _ _ _ (proj1 H) R Eo He E). destruct e as [e|c|]; try exact IH.
    destruct (c =? 115); [exact IH|]. destruct (c =? 102); [|exact IH]. cbn [snd]. destruct (frequency (pg_stack x1) 0 =? 2000); auto.
Qed.

Lemma client_frequency buf es x os ls : prog_history text pol buf es x os ls -> ks_queue (st_rest (pg_stack x)) = [] ->
  frequency (pg_stack x) 0 = 2000 \/ frequency (pg_stack x) 0 = 5000.
Proof.
  intros H Hq. destruct (history_ran text pol buf (proj1 H) _ _ _ _ H) as [R _]. destruct (ran_history _ _ _ (proj1 H) _ _ _ _ R) as (kes & K).
  assert (M := meant_now _ _ _ _ _ _ _ _ _ _ K (r_sched _ _ _ _ _ _ _ R) Hq). assert (F := meant_frequency _ _ _ _ _ H).
  rewrite <- M in F. exact F.
Qed.
End Theorems.
