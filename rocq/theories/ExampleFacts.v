(** Proofs about the example server. *)
From Verif Require Import Prelude Ser4 Messages Mbap Tac SpecPdu SpecMbap BitFacts BuildFacts ParseReqFacts CodecLemmas MbapFacts MbapLemmas
  Server SpecServer FrameFacts ServerFacts ServerLemmas Database SpecDb DatabaseFacts DbLemmas System SystemServe ExampleServer SpecExample.

(** ** The database *)
Definition initial_db : db :=
  match run_calls example_calls db_empty with Ret (d, _) => d | UB => db_empty end.

Definition typed_callb (c : call) : bool :=
  match c with
  | CAdd t a v => (a <? 65536) && match t return val t -> bool with
                                  | Coils | Discretes => fun _ => true
                                  | Holdings | Inputs => fun v => v <? 65536
                                  end v
  | _ => false
  end.

Lemma typed_callb_spec c : typed_callb c = true -> typed_call c.
Proof.
  destruct c as [t a v| |]; try discriminate. cbn [typed_callb typed_call]. intros H.
  apply andb_true_iff in H. destruct H as [H1 H2]. unfold u16. split; [lia|].
  destruct t; cbn [typed_val]; auto; unfold u16; lia.
Qed.

Lemma example_calls_typed : Forall typed_call example_calls.
Proof.
  apply Forall_forall. intros c H. apply typed_callb_spec.
  assert (E : forallb typed_callb example_calls = true) by (vm_compute; reflexivity).
  rewrite forallb_forall in E. auto.
Qed.

Lemma initial_runs : exists rs, run_calls example_calls db_empty = Ret (initial_db, rs) /\ wf initial_db.
Proof.
  destruct (run_calls_spec example_calls db_empty wf_empty example_calls_typed) as (d & rs & E & Hw & _).
  exists rs. unfold initial_db. rewrite E. auto.
Qed.

Lemma find_beyond {V} (m : list (N * V)) a :
  forallb (fun kv => fst kv <? 100) m = true -> 100 <= a -> map_find m a = None.
Proof.
  induction m as [|[k v] m IH]; cbn [forallb map_find fst]; [reflexivity|]. intros H Ha.
  apply andb_true_iff in H. destruct H as [H1 H2]. destruct (N.eqb_spec k a); [lia|auto].
Qed.

Definition val_eqb (t : tid) : val t -> val t -> bool :=
  match t with Coils | Discretes => Bool.eqb | Holdings | Inputs => N.eqb end.

Lemma val_eqb_spec t v w : val_eqb t v w = true -> v = w.
Proof. destruct t; cbn [val_eqb]; first [apply Bool.eqb_prop|apply N.eqb_eq]. Qed.

Definition checked (t : tid) (a : N) : bool :=
  match map_find (table initial_db t) a, initial_values t a with
  | Some v, Some w => val_eqb t v w
  | _, _ => false
  end.

Lemma checked_all t : forallb (fun i => checked t (N.of_nat i)) (seq 0 100) = true.
Proof. destruct t; vm_compute; reflexivity. Qed.

Lemma initial_contents t a : contents initial_db t a = initial_values t a.
Proof.
  destruct (N.lt_ge_cases a 100) as [Ha|Ha].
  - assert (K := checked_all t). rewrite forallb_forall in K.
    specialize (K (N.to_nat a)). rewrite in_seq, N2Nat.id in K. specialize (K ltac:(lia)).
    unfold checked in K. unfold contents.
    destruct (map_find (table initial_db t) a) as [v|], (initial_values t a) as [w|]; try discriminate.
    apply val_eqb_spec in K. congruence.
  - unfold contents. rewrite find_beyond; [|destruct t; vm_compute; reflexivity|exact Ha].
    unfold initial_values. replace (a <? 100) with false by lia. reflexivity.
Qed.

Lemma hundred_initial : hundred initial_values.
Proof. intros t a. unfold initial_values. destruct (N.ltb_spec a 100); split; intros; try congruence; lia. Qed.

Lemma hundred_ext F F' : unchanged F F' -> hundred F -> hundred F'.
Proof. intros U H t a. rewrite U. apply H. Qed.

Lemma hundred_writes F t s vs F' : covered (F t) s (size vs) -> only_writes F t s vs F' -> hundred F -> hundred F'.
Proof.
  intros C [[A B] O] H t' a. destruct (tid_dec t' t) as [->|Ne]; [|rewrite O by exact Ne; apply H].
  destruct (N.lt_ge_cases a s) as [L|L]; [rewrite B by auto; apply H|].
  destruct (N.lt_ge_cases a (s + size vs)) as [L'|L']; [|rewrite B by auto; apply H].
  destruct C as (_ & _ & C). specialize (C (a - s) ltac:(lia)). replace (s + (a - s)) with a in C by lia.
  apply H in C. split; [intros _; exact C|]. intros _.
  destruct (nth_error vs (N.to_nat (a - s))) as [v|] eqn:E.
  - specialize (A _ _ E). replace (s + N.of_nat (N.to_nat (a - s))) with a in A by lia. congruence.
  - apply nth_error_None in E. unfold size in *. lia.
Qed.

Lemma hundred_request F r F' v : request_spec F r F' v -> hundred F -> hundred F'.
Proof.
  assert (wr : forall t s vs ok, write_spec F t s vs ok F' v -> hundred F -> hundred F').
  { intros t s vs ok [(C & O & _)|(_ & U & _)]; [apply (hundred_writes _ _ _ _ _ C O)|apply (hundred_ext _ _ U)]. }
  destruct r; cbn [request_spec]; try (intros [U _]; exact (hundred_ext _ _ U)); apply wr.
Qed.

Definition sound_db (d : db) : Prop := wf d /\ hundred (contents d).

Lemma flip_spec d : sound_db d ->
  exists d', run (transaction_body flip) d = Ret (d', []) /\ sound_db d' /\ flipped (contents d) (contents d').
Proof.
  intros [Hw Hh].
  destruct (transaction_body_spec flip d Hw) as (d' & l & E & Hw' & S).
  { cbn [flip typed_transaction]. split; [unfold u16; lia|]. split; [exact Logic.I|]. intros b v _.
    destruct b; cbn [typed_transaction]; auto. split; [unfold u16; lia|]. split; [exact Logic.I|auto]. }
  rewrite E. assert (H0 : contents d Coils 0 <> None) by (apply Hh; lia).
  unfold flip in S. inversion S as [|F t a v out k F2 l2 Hv S'|F t a out k F2 l2 Hn S'| |]; subst.
  2:{ apply Eqdep_dec.inj_pair2_eq_dec in H3; [congruence|decide equality]. }
  apply Eqdep_dec.inj_pair2_eq_dec in H3; [|decide equality].
  apply Eqdep_dec.inj_pair2_eq_dec in H4; [|decide equality]. subst. cbn beta iota in S'.
  inversion S' as [| | |F t a w k F1 F2 l2 Hs Ho S''|F t a w k F2 l2 Hs S'']; subst; [|congruence].
  apply Eqdep_dec.inj_pair2_eq_dec in H3; [|decide equality]. subst w.
  inversion S'' as [F F2 l2 U| | | |]; subst.
  assert (Fl : flipped (contents d) (contents d')).
  { exists v. split; [exact Hv|]. destruct Ho as [[A B] C]. split; [split|].
    - intros i w Hi. rewrite (U Coils). exact (A i w Hi).
    - intros a Ha. rewrite (U Coils). exact (B a Ha).
    - intros t' Ht a. rewrite (U t'). exact (C t' Ht a). }
  exists d'. split; [reflexivity|]. split; [|exact Fl]. split; [exact Hw'|].
  destruct Fl as (b & Eb & O). apply (hundred_writes _ _ _ _ _ ) with (2 := O); [|exact Hh].
  unfold size. cbn [List.length]. split; [lia|]. split; [lia|]. intros i Hi.
  replace (0 + i) with 0 by lia. congruence.
Qed.

(** ** The sessions *)
Lemma code_one r : spec_function_code r = 1 -> exists s q, r = ReadCoils s q.
Proof. destruct r; cbn; try discriminate. eauto. Qed.

Lemma session_spec x d r d' v calls :
  sound_db d -> legal_request r -> example_session x d r = (d', v, calls) -> x = 1 \/ x = 2 ->
  calls = [] /\ sound_db d' /\ example_answers (contents d) x r (contents d') v /\
  match v with
  | Value resp => typed_response resp /\ response_code resp = spec_function_code r
  | Error e => exists t, e = EModbus t
  end.
Proof.
  intros [Hw Hh] Hl E [->| ->]; unfold example_session in E.
  - change (1 =? 1) with true in E. cbv iota in E. injection E as <- <- <-.
    split; [reflexivity|]. split; [split; assumption|].
    destruct r; cbn [custom_session];
      try (split; [apply custom_other; [apply unchanged_refl|cbn; discriminate]|]; eexists; reflexivity).
    split; [apply custom_coils, unchanged_refl|]. split; [|reflexivity].
    cbn [typed_response]. repeat constructor; unfold u16; cbn; lia.
  - change (2 =? 1) with false in E. cbv iota in E. unfold db_session in E.
    destruct (on_request_spec d r Hw (legal_typed _ Hl)) as (d1 & v1 & Er & Hw1 & S). rewrite Er in E.
    injection E as <- <- <-. split; [reflexivity|]. split; [split; [exact Hw1|exact (hundred_request _ _ _ _ S Hh)]|].
    split; [constructor; exact S|].
    destruct (answer_shape _ _ _ _ Hw Hl S) as [(resp & -> & Ht & Ha)| ->]; [|eexists; reflexivity].
    split; [exact Ht|]. destruct r, resp; cbn [answers_shape] in Ha; try contradiction; reflexivity.
Qed.

Definition both (s : server) : Prop := sv_shutdown s = false /\ sv_sessions s = [(1, 1); (2, 2)].

Lemma both_units s u : both s -> find_session (sv_sessions s) u = example_units u.
Proof.
  intros [_ ->]. cbn [find_session]. unfold example_units. rewrite (N.eqb_sym 1 u), (N.eqb_sym 2 u). reflexivity.
Qed.

Lemma units_two u x : example_units u = Some x -> x = 1 \/ x = 2.
Proof. unfold example_units. destruct (u =? 1); [|destruct (u =? 2)]; intros E; inversion E; auto. Qed.

Lemma decision_ext f g u pdu z : (forall v, f v = g v) -> decision f u pdu z -> decision g u pdu z.
Proof.
  intros E H. destruct H.
  - apply unknown_unit. congruence.
  - now apply empty_pdu.
  - apply (unsupported_function g u pdu x fc rest); congruence.
  - apply (illegal_value g u pdu x fc); auto; congruence.
  - apply (malformed g u pdu x fc rest); auto; congruence.
  - apply (answerable g u pdu x r); auto; congruence.
Qed.

Lemma on_mbap_example s d c m : both s -> sound_db d -> typed_message m ->
  exists d' os, on_mbap example_session s d c m = Ret (s, d', os) /\ sound_db d' /\
    example_serves (contents d) c m (contents d') os.
Proof.
  intros Hb2 Hd (Hu & Ht & Hb). unfold on_mbap. rewrite (proj1 Hb2), (both_units s _ Hb2).
  destruct (example_units (mb_unit m)) as [x|] eqn:Ex.
  2:{ exists d, []. split; [reflexivity|]. split; [exact Hd|].
      apply example_silent; [apply unknown_unit; exact Ex|apply unchanged_refl]. }
  destruct (mb_data m) as [|fc rest] eqn:Em.
  { exists d, []. split; [reflexivity|]. split; [exact Hd|].
    apply example_silent; [apply empty_pdu; exact Em|apply unchanged_refl]. }
  replace (size (fc :: rest) <? 1) with false by (rewrite size_cons; lia).
  cbn [rd8 read_u8]. assert (Hfc : u8 fc) by (inversion Hb; assumption).
  unfold send_message.
  destruct (request_parser fc) as [p|] eqn:Ep.
  - assert (Hs : supported fc) by (apply request_parser_supported; eauto).
    unfold process_message. rewrite Em.
    destruct (parse_outcomes fc _ p Ep Hb) as [(r & H1 & H2 & H3 & H4)|[[H4 H5]|H4]].
    + rewrite H4. cbn [obind].
      destruct (example_session x d r) as [[d' a] calls] eqn:Ea.
      destruct (session_spec x d r d' a calls Hd H1 Ea (units_two _ _ Ex)) as (-> & Hd' & Han & Hty).
      assert (Hdec : decision example_units (mb_unit m) (mb_data m) (Ask x r)).
      { apply answerable; rewrite ?Em; assumption. }
      assert (Hk : forall os, reply c (mb_tx m) (mb_unit m) fc a os ->
        exists d1 os', Ret (api_calls s [], d', OConsult x r :: os) = Ret (s, d1, os') /\
          sound_db d1 /\ example_serves (contents d) c m (contents d1) os').
      { intros os Ho. do 2 eexists. split; [reflexivity|]. split; [exact Hd'|].
        apply (example_ask _ _ _ x r _ a); [exact Hdec|exact Han|]. rewrite H2. exact Ho. }
      destruct a as [resp|e].
      * apply Hk. cbn [reply]. eexists. split; [|reflexivity].
        apply response_view_build; [exact Ht|exact Hu|]. apply Hty.
      * destruct Hty as (t & ->). unfold send_message. apply Hk. cbn [reply].
        rewrite exception_view_build by assumption. reflexivity.
    + rewrite H5. cbn [obind]. unfold send_message. do 2 eexists. split; [reflexivity|]. split; [exact Hd|].
      rewrite exception_view_build by assumption.
      apply example_refuse with (rest := rest); [|exact Em|apply unchanged_refl].
      apply (illegal_value _ _ _ x fc); rewrite ?Em; assumption.
    + rewrite H4. cbn [obind]. exists d, []. split; [reflexivity|]. split; [exact Hd|].
      apply example_silent; [|apply unchanged_refl]. rewrite Em.
      apply (parse_malformed_iff fc p _ Ep Hb) in H4. destruct H4 as [H4 H5].
      apply (malformed _ _ _ x fc rest); auto.
      intros r Hl Hp. destruct (pdu_head _ _ Hp) as (rest' & E). injection E as E _. symmetry in E.
      exact (H5 r Hl E Hp).
  - do 2 eexists. split; [reflexivity|]. split; [exact Hd|].
    rewrite exception_view_build by assumption.
    apply example_refuse with (rest := rest); [|exact Em|apply unchanged_refl].
    apply (unsupported_function _ _ _ x fc rest); rewrite ?Em; auto.
    intros Hs. apply request_parser_supported in Hs. destruct Hs. congruence.
Qed.

Lemma on_messages_example c ms : forall s d, both s -> sound_db d -> Forall typed_message ms ->
  exists d' os, on_messages example_session s d c ms = Ret (s, d', os) /\ sound_db d' /\
    example_serves_all c (contents d) ms (contents d') os.
Proof.
  induction ms as [|m ms IH]; intros s d Hb Hd Hm; cbn [on_messages].
  { exists d, []. split; [reflexivity|]. split; [exact Hd|]. constructor. apply unchanged_refl. }
  apply Forall_cons_iff in Hm. destruct Hm as [Hm Hms].
  destruct (on_mbap_example s d c m Hb Hd Hm) as (d1 & o1 & -> & Hd1 & S1). cbn [obind].
  destruct (IH s d1 Hb Hd1 Hms) as (d2 & o2 & -> & Hd2 & S2). cbn [obind].
  exists d2, (o1 ++ o2). split; [reflexivity|]. split; [exact Hd2|]. econstructor; eassumption.
Qed.

Lemma serves_pre c F F1 m F2 os : unchanged F F1 -> example_serves F1 c m F2 os -> example_serves F c m F2 os.
Proof.
  intros U Hs. destruct Hs as [F' D U'|fc rest t F' D E U'|x r F' v os D A Y].
  - apply example_silent; [exact D|]. intros t a. rewrite U'. apply U.
  - apply (example_refuse _ _ _ fc rest t); auto. intros t' a. rewrite U'. apply U.
  - apply (example_ask _ _ _ x r _ v); auto. destruct A as [s q F' U'|r F' U' Hn|r F' v S].
    + apply custom_coils. intros t a. rewrite U'. apply U.
    + apply custom_other; [|exact Hn]. intros t a. rewrite U'. apply U.
    + apply database. apply (request_spec_ext F1); [|exact S]. apply unchanged_sym. exact U.
Qed.

(** ** The program *)

(** What the posted closures have done. *)
Definition phase (s : server) : Prop :=
  (sv_started s = true /\ sv_queue s = [] /\ sv_sessions s = [(1, 1); (2, 2)]) \/
  (sv_started s = false /\ (forall c, sv_conns s c = None) /\
   ((sv_queue s = [TaskAdd 1 1; TaskAdd 2 2; TaskStart] /\ sv_sessions s = []) \/
    (sv_queue s = [TaskAdd 2 2; TaskStart] /\ sv_sessions s = [(1, 1)]) \/
    (sv_queue s = [TaskStart] /\ sv_sessions s = [(1, 1); (2, 2)]))).

Definition sound (pol : copy_policy) (x : example) : Prop :=
  sound_db (x_db x) /\ sv_shutdown (x_server x) = false /\ phase (x_server x) /\ conns_ok pol (x_server x).

Definition started_by (os : list output) : bool :=
  existsb (fun o => match o with OListen => true | _ => false end) os.

Lemma sound_init pol : exists x0, example_init = Ret x0 /\ sound pol x0 /\ x_over x0 = false /\
  contents (x_db x0) = contents initial_db /\ sv_started (x_server x0) = false /\ sv_queue (x_server x0) = [TaskAdd 1 1; TaskAdd 2 2; TaskStart].
Proof.
  destruct initial_runs as (rs & E & Hw). unfold example_init. rewrite E. cbn [obind].
  eexists. split; [reflexivity|]. split; [|repeat split].
  split; [|split; [reflexivity|split]].
  - cbn [x_db]. split; [exact Hw|]. apply (hundred_ext initial_values); [intros t a; apply initial_contents|apply hundred_initial].
  - right. cbn. repeat split. left. split; reflexivity.
  - intros c p. cbn. discriminate.
Qed.

Ltac sounds := split; [assumption|split; [assumption|split; [assumption|assumption]]].

(** What an event does to connection [c]. *)
Definition conn_step (e : xevent) (c : N) (p p' : option pstate) : Prop :=
  match e with
  | XServer (EAccept c1 _) | XServer (EReceive c1 _) => c <> c1 -> p' = p
  | XServer (EConnError c1) => p' = if c =? c1 then option_map mbap_reset p else p
  | _ => p' = p
  end.

(** One event. *)
Lemma example_step_spec pol x e : sound pol x -> typed_xevent e ->
  exists x' os, example_step pol x e = Ret (x', os) /\ sound pol x' /\
  (x_over x = true -> x' = x /\ os = []) /\
  (x_over x = false ->
   x_over x' = is_quit e /\
   sv_started (x_server x') = orb (sv_started (x_server x)) (started_by os) /\
   List.length (sv_queue (x_server x')) = (if is_task e then Nat.pred (List.length (sv_queue (x_server x))) else List.length (sv_queue (x_server x))) /\
   match e with
   | XServer (EReceive c data) =>
       exists ms, example_serves_all c (contents (x_db x)) ms (contents (x_db x')) os /\
         match sv_conns (x_server x) c with
         | Some p => exists p', mbap_parse pol p data = Ret (p', ms) /\ sv_conns (x_server x') c = Some p'
         | None => ms = []
         end
   | XServer ERun =>
       x_db x' = x_db x /\ os = (if Nat.eqb (List.length (sv_queue (x_server x))) 1 then [OListen] else [])
   | XCommand 102 => flipped (contents (x_db x)) (contents (x_db x')) /\ os = []
   | _ => x_db x' = x_db x /\ os = []
   end).
Proof.
  intros (Hd & Hs & Hp & Hc) He. unfold example_step. destruct (x_over x) eqn:Eo.
  { exists x, []. split; [reflexivity|]. split; [sounds|]. split; [auto|discriminate]. }
  assert (Hsame : sound pol x) by (sounds).
  assert (Hor : forall b, b = orb b (started_by [])) by (intros []; reflexivity).
  destruct e as [e|cmd|]; [destruct e as [a| |c buf|c data|c]| |].
  - exists x, []. split; [reflexivity|]. split; [exact Hsame|]. split; [discriminate|]. intros _.
    split; [exact Eo|]. split; [apply Hor|]. auto.
  - (* a closure *)
    cbn [server_step]. destruct Hp as [(P1 & P2 & P3)|(P1 & P2 & P3)].
    { rewrite P2. cbn [obind]. eexists _, []. split; [reflexivity|]. split; [|split; [discriminate|]].
      { split; [exact Hd|]. split; [exact Hs|]. split; [left; auto|exact Hc]. }
      intros _. split; [reflexivity|]. cbn [x_server x_db]. split; [apply Hor|]. rewrite P2. auto. }
    destruct P3 as [(Q & Z)|[(Q & Z)|(Q & Z)]]; rewrite Q; cbn [run_task set_queue sv_shutdown obind]; rewrite Hs; cbn [obind];
      eexists _, _; (split; [reflexivity|]); (split; [split; [exact Hd|]|split; [discriminate|]]);
      cbn [x_server x_db x_over sv_shutdown sv_started sv_sessions sv_queue sv_conns set_queue is_quit is_task] in *.
    + split; [reflexivity|]. split; [|exact Hc]. right. rewrite Z. cbn [sv_started sv_queue sv_sessions sv_conns].
      split; [exact P1|]. split; [exact P2|]. right; left. split; reflexivity.
    + intros _. split; [reflexivity|]. split; [apply Hor|]. auto.
    + split; [reflexivity|]. split; [|exact Hc]. right. rewrite Z. cbn [sv_started sv_queue sv_sessions sv_conns].
      split; [exact P1|]. split; [exact P2|]. right; right. split; reflexivity.
    + intros _. split; [reflexivity|]. split; [apply Hor|]. auto.
    + split; [reflexivity|]. split; [|exact Hc]. left. auto.
    + intros _. split; [reflexivity|]. split; [cbn; rewrite orb_true_r; reflexivity|]. auto.
  - (* accept *)
    destruct (sv_started (x_server x)) eqn:Es.
    + eexists _, []. split; [reflexivity|]. split; [|split; [discriminate|]].
      * split; [exact Hd|]. cbn [x_server]. split; [exact Hs|]. split.
        -- destruct Hp as [(P1 & P2 & P3)|(P1 & _)]; [|congruence]. left. auto.
        -- intros c' p. cbn [set_conn sv_conns]. destruct (c' =? c); [|apply Hc].
           intros E. injection E as <-. exists []. apply R_new. exact He.
      * intros _. cbn [x_server x_db x_over set_conn sv_started sv_queue is_quit is_task]. rewrite Es. auto.
    + exists x, []. split; [reflexivity|]. split; [exact Hsame|]. split; [discriminate|]. intros _.
      rewrite Es. auto.
  - (* received data *)
    cbn [server_step]. cbn [typed_xevent typed_event] in He. destruct (sv_conns (x_server x) c) as [p|] eqn:Ep.
    2:{ cbn [obind]. eexists _, []. split; [reflexivity|]. split; [|split; [discriminate|]].
        { sounds. }
        intros _. split; [reflexivity|]. split; [apply Hor|]. split; [reflexivity|]. exists [].
        split; [constructor; apply unchanged_refl|reflexivity]. }
    destruct Hp as [(P1 & P2 & P3)|(P1 & P2 & P3)]; [|rewrite P2 in Ep; discriminate].
    destruct (Hc c p Ep) as (t & HR).
    destruct (parse_spec pol p t data HR He) as (p' & t' & items & ms & E & Hty & _ & HR' & Hm & _).
    rewrite E. cbn [obind].
    assert (Htm := matches_typed _ _ _ Hty Hm).
    destruct (on_messages_example c ms (set_conn (x_server x) c (Some p')) (x_db x)) as (d' & os & -> & Hd' & S);
      [split; cbn [set_conn sv_shutdown sv_sessions]; assumption|exact Hd|exact Htm|].
    cbn [obind]. eexists _, os. split; [reflexivity|].
    assert (Hn : started_by os = false).
    { clear - S. unfold started_by. induction S as [|F m F1 ms F2 o1 o2 Hs Hr IH]; [reflexivity|].
      rewrite existsb_app, IH, orb_false_r. destruct Hs as [| |y r F' v os D A Y]; try reflexivity.
      cbn [existsb orb]. destruct v as [resp|[]]; cbn [reply] in Y; try (destruct Y as (w & _ & ->)); subst; reflexivity. }
    split; [|split; [discriminate|]].
    + split; [exact Hd'|]. split; [exact Hs|]. split; [left; auto|].
      intros c' q. cbn [x_server set_conn sv_conns]. destruct (c' =? c); [|apply Hc]. intros X. injection X as <-. eauto.
    + intros _. cbn [x_server x_db x_over set_conn sv_started sv_queue sv_conns is_quit is_task]. rewrite Hn, orb_false_r, P2, N.eqb_refl.
      repeat split. exists ms. split; [exact S|]. exists p'. auto.
  - (* error *)
    cbn [server_step]. destruct (sv_conns (x_server x) c) as [p|] eqn:Ep; cbn [obind].
    2:{ eexists _, []. split; [reflexivity|]. split; [|split; [discriminate|]].
        { sounds. }
        intros _. split; [reflexivity|]. split; [apply Hor|]. auto. }
    eexists _, []. split; [reflexivity|]. split; [|split; [discriminate|]].
    + split; [exact Hd|]. split; [exact Hs|]. split.
      * destruct Hp as [P|(P1 & P2 & P3)]; [left; exact P|rewrite P2 in Ep; discriminate].
      * intros c' q. cbn [x_server set_conn sv_conns]. destruct (c' =? c); [|apply Hc].
        intros X. injection X as <-. exists []. apply R_reset. destruct (Hc c p Ep) as (t & HR & _). exact HR.
    + intros _. split; [reflexivity|]. split; [apply Hor|]. auto.
  - (* a command *)
    destruct (N.eqb_spec cmd 102) as [E1|E1].
    + destruct (flip_spec (x_db x) Hd) as (d' & E & Hd' & Hf). rewrite E. cbn [obind].
      eexists _, []. split; [reflexivity|]. split; [sounds|]. split; [discriminate|].
      intros _. subst cmd. split; [reflexivity|]. split; [apply Hor|]. auto.
    + assert (K : forall x', x_db x' = x_db x -> match cmd with 102 => flipped (contents (x_db x)) (contents (x_db x')) /\ @nil output = []
                                             | _ => x_db x' = x_db x /\ @nil output = [] end).
      { intros x' H. destruct cmd as [|q]; [auto|].
        do 7 (destruct q as [q|q|]; [| |auto]); auto.  all: try (exfalso; apply E1; reflexivity). }
      destruct (N.eqb_spec cmd 113) as [E2|E2].
      * eexists _, []. split; [reflexivity|]. split; [sounds|]. split; [discriminate|].
        intros _. cbn [x_over is_quit is_task x_server]. rewrite (proj2 (N.eqb_eq cmd 113) E2). split; [reflexivity|]. split; [apply Hor|].
        split; [reflexivity|]. apply K. reflexivity.
      * exists x, []. split; [reflexivity|]. split; [exact Hsame|]. split; [discriminate|]. intros _.
        cbn [is_quit is_task]. rewrite (proj2 (N.eqb_neq cmd 113) E2). split; [exact Eo|]. split; [apply Hor|].
        split; [reflexivity|]. apply K. reflexivity.
  - destruct He.
Qed.

Lemma step_conns pol x e x' os c : example_step pol x e = Ret (x', os) -> x_over x = false ->
  conn_step e c (sv_conns (x_server x) c) (sv_conns (x_server x') c).
Proof.
  unfold example_step. intros E Eo. rewrite Eo in E. destruct e as [e|cmd|]; [destruct e as [a| |c' buf|c' data|c']| |]; cbn [conn_step].
  - injection E as <- _. reflexivity.
  - cbn [server_step] in E. destruct (sv_queue (x_server x)) as [|t q]; [injection E as <- _; reflexivity|].
    pose proof (run_task_conns db_shutdown (set_queue (x_server x) q) (x_db x) t) as Q.
    destruct (run_task db_shutdown (set_queue (x_server x) q) (x_db x) t) as [[s d] o]. cbn [obind] in E.
    injection E as <- _. cbn [x_server]. rewrite Q. reflexivity.
  - intros Hne. destruct (sv_started (x_server x)); injection E as <- _; [|reflexivity].
    cbn [x_server set_conn sv_conns]. destruct (N.eqb_spec c c'); [contradiction|reflexivity].
  - intros Hne. cbn [server_step] in E. destruct (sv_conns (x_server x) c') as [p|]; [|injection E as <- _; reflexivity].
    destruct (mbap_parse pol p data) as [[p' ms]|]; [|discriminate]. cbn [obind] in E.
    destruct (on_messages example_session (set_conn (x_server x) c' (Some p')) (x_db x) c' ms) as [[[s d] o]|] eqn:Em; [|discriminate].
    cbn [obind] in E. injection E as <- _. apply on_messages_sbq in Em. destruct Em as ((_ & _ & _ & Q & _) & _).
    cbn [x_server]. rewrite Q. cbn [set_conn sv_conns]. destruct (N.eqb_spec c c'); [contradiction|reflexivity].
  - cbn [server_step] in E. destruct (sv_conns (x_server x) c') as [p|] eqn:Ep; injection E as <- _; cbn [x_server].
    + cbn [set_conn sv_conns]. destruct (N.eqb_spec c c') as [->|]; [rewrite Ep; reflexivity|reflexivity].
    + destruct (N.eqb_spec c c') as [->|]; [rewrite Ep; reflexivity|reflexivity].
  - destruct (cmd =? 102).
    + destruct (run (transaction_body flip) (x_db x)) as [[d [|]]|]; try discriminate. injection E as <- _. reflexivity.
    + destruct (cmd =? 113); injection E as <- _; reflexivity.
  - discriminate.
Qed.
