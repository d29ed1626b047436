(** The invariant of the sessions of a channel. *)
From Verif Require Import Prelude Ser4 Messages Mbap SpecPdu SpecMbap Client SpecClient ClientFacts ClientView
  Scheduled SpecScheduled ScheduledFacts SessionCall Session SpecSession SessionLift SessionFacts SessionPolls SessionStop.
From Coq Require Import Lia.

Local Notation answer := (expected response).

Section Inv.
Context {W : Type}.
Context (user : source -> W -> answer -> W * list kapi).
Implicit Types (z : sessions W) (L : list koutput).
Notation done := (list (nat * expected (list N))).
Implicit Types (D : done) (cs : list call).

(** ** Which sessions the channel knows *)
Record opn L z : Prop := {
  op_open : ks_shutdown z = false -> ks_open z = seq 0 (List.length (ks_sessions z));
  op_closed : ks_shutdown z = true -> forall x, (x < List.length (ks_sessions z))%nat -> In (Asked (CloseSession x)) L;
  op_none : ks_shutdown z = true -> ks_open z = []
}.

Lemma opn_same L l z z' : opn L z -> ks_shutdown z' = ks_shutdown z -> ks_open z' = ks_open z ->
  List.length (ks_sessions z') = List.length (ks_sessions z) -> opn (L ++ l) z'.
Proof.
  intros [A B C] H1 H2 H3. constructor; rewrite H1, ?H2, ?H3; [exact A| |exact C]. intros H x Hx. apply in_or_app. left. exact (B H x Hx).
Qed.

Lemma opn_did L z a z' c : opn (L ++ ks_log z) z -> did z a z' c -> opn (L ++ ks_log z') z'.
Proof.
  intros O H. inversion H; subst; cbn [ks_log show with_log with_sessions with_owner kpost with_kqueue with_polls set_sched]; rewrite ?app_assoc;
    try (eapply opn_same; [exact O|reflexivity|reflexivity|reflexivity]).
  constructor; cbn; intros E; [|congruence|congruence]. rewrite app_length, Nat.add_1_r, seq_snoc, <- (op_open _ _ O E). reflexivity.
Qed.

Lemma opn_polled L z j p e z' c : opn (L ++ ks_log z) z -> polled z j p e z' c -> opn (L ++ ks_log z') z'.
Proof.
  intros O H. inversion H; subst; cbn [ks_log show with_log with_owner set_sched with_polls]; rewrite ?app_assoc.
  - eapply opn_same; [exact O|reflexivity|reflexivity|reflexivity].
  - rewrite <- (app_assoc (L ++ ks_log z)). eapply opn_same; [exact O|reflexivity|reflexivity|reflexivity].
Qed.

(** ** Everything but the posted closures *)
Record base L z D cs : Prop := {
  b_reg : reg L z cs; b_dyn : dyn L z D; b_ans : ans L z D
}.

Lemma base_did L z D cs a z' c : base (L ++ ks_log z) z D cs -> did z a z' c -> base (L ++ ks_log z') z' D (cs ++ submits c).
Proof.
  intros [R Y A] H. constructor; [eapply reg_did; eassumption|eapply dyn_did; eassumption|eapply ans_did; eassumption].
Qed.

Lemma base_polled L z D cs j p e z' c : own_event e -> base (L ++ ks_log z) z D cs -> nth_error (ks_polls z) j = Some p ->
  polled z j p e z' c -> base (L ++ ks_log z') z' D (cs ++ submits c).
Proof.
  intros He [R Y A] Hp H. constructor; [eapply reg_polled; eassumption|eapply dyn_polled; eassumption|eapply ans_polled; eassumption].
Qed.

Lemma base_api L z D cs a z' c : base (L ++ ks_log z) z D cs -> kapi_call z a = (z', c) -> base (L ++ ks_log z') z' D (cs ++ submits c).
Proof. intros B E. eapply base_did; [exact B|]. apply kapi_did. exact E. Qed.

Lemma base_apis l L z D cs z' c : base (L ++ ks_log z) z D cs -> kapi_calls z l = (z', c) -> base (L ++ ks_log z') z' D (cs ++ submits c).
Proof. apply (H_apis base). exact base_api. Qed.

Lemma base_poll L z D cs j e z' c : own_event e -> base (L ++ ks_log z) z D cs -> poll_step z j e = (z', c) -> base (L ++ ks_log z') z' D (cs ++ submits c).
Proof.
  intros He B E. destruct (nth_error (ks_polls z) j) as [p|] eqn:Hp.
  - eapply base_polled; [exact He|exact B|exact Hp|]. apply poll_polled; assumption.
  - rewrite poll_missing in E by exact Hp. inversion E; subst. cbn. rewrite app_nil_r. exact B.
Qed.

(** Only the listings of the sessions differ. *)
Lemma base_sessions L z z' D cs : base L z D cs -> agree sess_rec (ks_sessions z) (ks_sessions z') -> ks_polls z' = ks_polls z ->
  ks_owners z' = ks_owners z -> base L z' D cs.
Proof.
  intros [R Y A] HS HP HO. rewrite <- (app_nil_r L). constructor.
  - eapply reg_agree; [exact R|reflexivity|exact HS|rewrite HP; reflexivity|exact HO].
  - eapply dyn_same; [exact Y|reflexivity|exact HP|left; exact HO].
  - eapply ans_more; [exact R|exact Y|exact A|reflexivity|intros ? ? ? []|intros; rewrite HO; reflexivity|].
    rewrite HP. intros j p E. exists p. auto.
Qed.

Lemma base_closure L z q c z' cs D c' : base (L ++ ks_log z) z D cs -> run_kclosure (with_kqueue z q) c = (z', c') ->
  base (L ++ ks_log z') z' D (cs ++ submits c').
Proof.
  intros B. assert (B1 : base (L ++ ks_log (with_kqueue z q)) (with_kqueue z q) D cs).
  { eapply base_sessions; [exact B|reflexivity|reflexivity|reflexivity]. }
  generalize dependent (with_kqueue z q). clear B z. intros z B. destruct c as [j|x j|x]; cbn [run_kclosure].
  - apply base_poll; [exact Logic.I|exact B].
  - destruct (nth_error (ks_sessions z) x) as [s|] eqn:E; intros H; inversion H; subst; cbn; rewrite app_nil_r; [|exact B].
    eapply base_sessions; [exact B| |reflexivity|reflexivity]. cbn. eapply agree_update; [exact E|reflexivity].
  - destruct (nth_error (ks_sessions z) x) as [s|] eqn:E; [|intros H; inversion H; subst; cbn; rewrite app_nil_r; exact B].
    destruct (kapi_calls z _) as [z1 c1] eqn:E1. intros H; inversion H; subst.
    assert (Hs : ks_sessions z1 = ks_sessions z) by (apply stopped_all in E1; exact (sd_sessions _ _ _ E1)).
    apply (base_apis _ _ _ _ _ _ _ B) in E1. eapply base_sessions; [exact E1| |reflexivity|reflexivity].
    cbn. rewrite Hs. eapply agree_update; [exact E|reflexivity].
Qed.

(** ** Everything *)
Record inv L z D cs : Prop := {
  i_base : base L z D cs; i_open : opn L z; i_stop : stp L z
}.

Lemma inv_api L z D cs a z' c : inv (L ++ ks_log z) z D cs -> kapi_call z a = (z', c) -> inv (L ++ ks_log z') z' D (cs ++ submits c).
Proof.
  intros [B O S] E. apply kapi_did in E. constructor; [eapply base_did; eassumption|eapply opn_did; eassumption|].
  eapply stp_did; [exact (b_reg _ _ _ _ B)|exact S|exact E].
Qed.

Lemma inv_poll L z D cs j e z' c : match e with SExpire _ | SFire _ => True | _ => False end ->
  inv (L ++ ks_log z) z D cs -> poll_step z j e = (z', c) -> inv (L ++ ks_log z') z' D (cs ++ submits c).
Proof.
  intros He [B O S] E. destruct (nth_error (ks_polls z) j) as [p|] eqn:Hp.
  - constructor; [apply (base_poll L z D cs j e z' c); [destruct e; try destruct He; exact Logic.I|exact B|exact E]| |]; apply (poll_polled _ _ _ _ _ _ Hp) in E.
    + eapply opn_polled; eassumption.
    + refine (stp_polled L z j p e z' c _ S Hp E). destruct e; try destruct He; exact Logic.I.
  - rewrite poll_missing in E by exact Hp. inversion E; subst. cbn. rewrite app_nil_r. constructor; assumption.
Qed.

Lemma opn_same_log L z z' : opn L z -> ks_shutdown z' = ks_shutdown z -> ks_open z' = ks_open z ->
  List.length (ks_sessions z') = List.length (ks_sessions z) -> opn L z'.
Proof. intros. rewrite <- (app_nil_r L). eapply opn_same; eassumption. Qed.

Lemma opn_apis l : forall L z z' c, opn (L ++ ks_log z) z -> kapi_calls z l = (z', c) -> opn (L ++ ks_log z') z'.
Proof.
  induction l as [|a l IH]; intros L z z' c O; cbn [kapi_calls]; [intros H; inversion H; subst; exact O|].
  destruct (kapi_call z a) as [z1 c1] eqn:E1. destruct (kapi_calls z1 l) as [z2 c2] eqn:E2. intros H; inversion H; subst.
  eapply IH; [|exact E2]. eapply opn_did; [exact O|]. apply kapi_did. exact E1.
Qed.

Lemma opn_closure L z q c z' c' : opn (L ++ ks_log z) z -> run_kclosure (with_kqueue z q) c = (z', c') -> opn (L ++ ks_log z') z'.
Proof.
  intros O. assert (O1 : opn (L ++ ks_log (with_kqueue z q)) (with_kqueue z q)) by (eapply opn_same_log; [exact O|reflexivity|reflexivity|reflexivity]).
  generalize dependent (with_kqueue z q). clear O z. intros z O. destruct c as [j|x j|x]; cbn [run_kclosure].
  - intros E. destruct (nth_error (ks_polls z) j) as [p|] eqn:Hp.
    + eapply opn_polled; [exact O|]. apply poll_polled; eassumption.
    + rewrite poll_missing in E by exact Hp. inversion E; subst. exact O.
  - destruct (nth_error (ks_sessions z) x) as [s|] eqn:E; intros H; inversion H; subst; [|exact O].
    eapply opn_same_log; [exact O|reflexivity|reflexivity|]. cbn. apply update_length.
  - destruct (nth_error (ks_sessions z) x) as [s|] eqn:E; [|intros H; inversion H; subst; exact O].
    destruct (kapi_calls z _) as [z1 c1] eqn:E1. intros H; inversion H; subst.
    assert (Hs : ks_sessions z1 = ks_sessions z) by (apply stopped_all in E1; exact (sd_sessions _ _ _ E1)).
    apply (opn_apis _ _ _ _ _ O) in E1. eapply opn_same_log; [exact E1|reflexivity|reflexivity|]. cbn. rewrite update_length, Hs. reflexivity.
Qed.

Lemma inv_run L z D cs q0 q z' c : inv (L ++ ks_log z) z D cs -> ks_queue z = q0 :: q ->
  run_kclosure (with_kqueue z q) q0 = (z', c) -> inv (L ++ ks_log z') z' D (cs ++ submits c).
Proof.
  intros [B O S] Hq E. constructor; [eapply base_closure; eassumption|eapply opn_closure; eassumption|].
  destruct q0 as [j|x j|x].
  - eapply stp_run; [exact (b_reg _ _ _ _ B)|exact S|exact Hq|exact E].
  - eapply stp_register; eassumption.
  - eapply stp_stop_all; eassumption.
Qed.

Lemma inv_user L z D cs i r x v w : inv (L ++ ks_log z) z D cs -> nth_error (ks_owners z) i = Some (ByUser r) ->
  session_result r x = Ret v -> ~ In i (map fst D) ->
  inv (L ++ ks_log (show (with_user z w) [Answered i v])) (show (with_user z w) [Answered i v]) (D ++ [(i, x)]) cs.
Proof.
  intros [[R Y A] O S] Ho Ev Hi. cbn [ks_log show with_log with_user]. rewrite app_assoc. constructor; [constructor| |].
  - eapply reg_agree; [exact R|reflexivity|reflexivity|reflexivity|reflexivity].
  - eapply dyn_user; [exact Y|exact Ho|reflexivity|reflexivity|reflexivity].
  - eapply ans_user; [exact R|exact Y|exact A|exact Ho|exact Ev|reflexivity|reflexivity].
  - eapply opn_same; [exact O|reflexivity|reflexivity|reflexivity].
  - eapply stp_same; [exact S|intros; repeat constructor|reflexivity|reflexivity|reflexivity].
Qed.

Lemma inv_answer L z D cs i j n p x v w z' c : inv (L ++ ks_log z) z D cs -> nth_error (ks_owners z) i = Some (ByPoll j n) ->
  nth_error (ks_polls z) j = Some p -> session_result (po_request p) x = Ret v -> ~ In i (map fst D) ->
  poll_step (with_user z w) j (SAnswer n v) = (z', c) -> inv (L ++ ks_log z') z' (D ++ [(i, x)]) (cs ++ submits c).
Proof.
  intros [[R Y A] O S] Ho Hp Ev Hi E.
  assert (Hpw : nth_error (ks_polls (with_user z w)) j = Some p) by exact Hp.
  apply (poll_polled _ _ _ _ _ _ Hpw) in E.
  assert (Rw : reg (L ++ ks_log (with_user z w)) (with_user z w) cs).
  { rewrite <- (app_nil_r (L ++ _)). eapply reg_agree; [exact R|reflexivity|reflexivity|reflexivity|reflexivity]. }
  assert (Ow : opn (L ++ ks_log (with_user z w)) (with_user z w)) by (eapply opn_same_log; [exact O|reflexivity|reflexivity|reflexivity]).
  assert (Sw : stp (L ++ ks_log (with_user z w)) (with_user z w)).
  { rewrite <- (app_nil_r (L ++ _)). eapply stp_same; [exact S|intros; constructor|reflexivity|reflexivity|reflexivity]. }
  constructor; [constructor| |].
  - eapply reg_polled; eassumption.
  - assert (Hn : In n (sr_outstanding (po_sched p))) by (apply (dy_out _ _ _ Y _ _ _ Hp); exists i; split; assumption).
    inversion E as [s o Es Er|s o n' u Es Er Hu]; subst; destruct (step_answer _ _ _ _ _ Hn Es) as (E0 & _); [|rewrite Er in E0; discriminate].
    cbn [ks_log show with_log set_sched with_polls with_user]. rewrite app_assoc.
    eapply dyn_answer; [exact Y|exact Hp|exact Ho|exact Hi|exact Es|reflexivity|reflexivity].
  - assert (Hn : In n (sr_outstanding (po_sched p))) by (apply (dy_out _ _ _ Y _ _ _ Hp); exists i; split; assumption).
    inversion E as [s o Es Er|s o n' u Es Er Hu]; subst; destruct (step_answer _ _ _ _ _ Hn Es) as (E0 & _); [|rewrite Er in E0; discriminate].
    cbn [ks_log show with_log set_sched with_polls with_user]. rewrite app_assoc.
    eapply ans_answer; [exact R|exact Y|exact A|exact Hp|exact Ho|exact Hi|exact Ev|exact Es|reflexivity|reflexivity].
  - eapply opn_polled; eassumption.
  - exact (stp_polled L (with_user z w) j p (SAnswer n v) z' c Logic.I Sw Hpw E).
Qed.

Lemma inv_owner L z D cs i : inv L z D cs -> (i < List.length cs)%nat ->
  (exists r, nth_error (ks_owners z) i = Some (ByUser r)) \/
  (exists j n p, nth_error (ks_owners z) i = Some (ByPoll j n) /\ nth_error (ks_polls z) j = Some p).
Proof.
  intros I Hi. destruct (i_base _ _ _ _ I) as [R _ _]. rewrite (rg_calls _ _ _ R) in Hi.
  destruct (nth_error (ks_owners z) i) as [[r|j n]|] eqn:E; [eauto| |apply nth_error_None in E; lia].
  right. destruct (rg_owner _ _ _ R _ _ E) as (_ & p & _ & Hp & _). eauto 6.
Qed.

(** ** Shutting all the sessions down *)
Record base_stop L z D cs : Prop := { bs_base : base L z D cs; bs_stop : stp L z }.

Lemma close_all l : forall z z' c, kapi_calls z (map CloseSession l) = (z', c) ->
  c = [] /\ ks_log z' = ks_log z ++ map (fun x => Asked (CloseSession x)) l /\ ks_sessions z' = ks_sessions z /\ ks_shutdown z' = ks_shutdown z /\
  ks_open z' = ks_open z /\ ks_user z' = ks_user z.
Proof.
  induction l as [|x l IH]; intros z z' c; cbn [map kapi_calls].
  - intros H; inversion H; subst. rewrite app_nil_r. auto 6.
  - destruct (kapi_call z (CloseSession x)) as [z1 c1] eqn:E1. destruct (kapi_calls z1 _) as [z2 c2] eqn:E2. intros H; inversion H; subst.
    destruct (IH _ _ _ E2) as (-> & E3 & E4 & E5 & E6 & E7). apply kapi_did in E1.
    inversion E1 as [a Hno| | | | |x' s Hs|]; subst; (split; [reflexivity|]); rewrite E3, E4, E5, E6, E7; cbn; rewrite <- app_assoc; auto 6.
Qed.

Lemma inv_closed L z D cs z' c : inv (L ++ ks_log z) z D cs ->
  kapi_calls (with_closed z) (map CloseSession (ks_open z)) = (z', c) -> inv (L ++ ks_log z') z' D cs.
Proof.
  intros [B O S] E. destruct (close_all _ _ _ _ E) as (-> & EL & ES & ED & EO & _). cbn in EL, ES, ED, EO.
  assert (K : base_stop (L ++ ks_log (with_closed z)) (with_closed z) D cs).
  { constructor; [eapply base_sessions; [exact B|reflexivity|reflexivity|reflexivity]|].
    rewrite <- (app_nil_r (L ++ _)). eapply stp_same; [exact S|intros; constructor|reflexivity|reflexivity|reflexivity]. }
  assert (K' : base_stop (L ++ ks_log z') z' D (cs ++ submits [])).
  { refine (H_apis base_stop _ _ _ _ _ _ _ _ K E). clear.
    intros L z D cs a z' c [B S] E. apply kapi_did in E. constructor; [eapply base_did; eassumption|].
    eapply stp_did; [exact (b_reg _ _ _ _ B)|exact S|exact E]. }
  cbn in K'. rewrite app_nil_r in K'. destruct K' as [B' S']. constructor; [exact B'| |exact S'].
  constructor; intros H; [congruence| |exact EO]. intros x Hx. rewrite ES in Hx. rewrite EL, app_assoc. apply in_or_app.
  destruct (ks_shutdown z) eqn:Ez; [left; exact (op_closed _ _ O Ez x Hx)|right].
  apply in_map_iff. exists x. split; [reflexivity|]. rewrite (op_open _ _ O Ez). apply in_seq. lia.
Qed.

Lemma inv_log L z D cs : inv L z D cs -> inv L (with_log z []) D cs.
Proof.
  intros [B O S]. constructor; [eapply base_sessions; [exact B|reflexivity|reflexivity|reflexivity]| |].
  - eapply opn_same_log; [exact O|reflexivity|reflexivity|reflexivity].
  - rewrite <- (app_nil_r L). eapply stp_same; [exact S|intros; constructor|reflexivity|reflexivity|reflexivity].
Qed.

Lemma inv_init w : inv [] (sessions_init w) [] [].
Proof.
  constructor; [constructor; [apply reg_init|apply dyn_init|apply ans_init]| |apply stp_init].
  constructor; cbn; [reflexivity|discriminate|discriminate].
Qed.

(** ** The invariant of a history *)
Lemma sessions_run pol buf w es : good_buf buf -> Forall typed_kevent es ->
  exists k os, stack_run user pol (stack_init buf w) es = Ret (k, os) /\ view inv pol buf es k os.
Proof.
  apply run_view; [exact inv_api| | |exact inv_run|exact inv_user|exact inv_answer|exact inv_owner|exact inv_closed|exact inv_log|exact inv_init].
  - intros L z D cs j t z' c. exact (inv_poll L z D cs j (SExpire t) z' c Logic.I).
  - intros L z D cs j t z' c. exact (inv_poll L z D cs j (SFire t) z' c Logic.I).
Qed.

Lemma sessions_history pol es k os : stack_history user pol es k os -> exists buf, good_buf buf /\ view inv pol buf es k os.
Proof.
  intros (buf & w & Hb & He & E). destruct (sessions_run pol buf w es Hb He) as (k' & os' & E' & V).
  rewrite E in E'. inversion E'; subst. eauto.
Qed.
End Inv.
