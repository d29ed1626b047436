(** Histories of sessions as histories of their channel, and how invariants of the
    sessions are established. *)
From Verif Require Import Prelude Ser4 Messages Mbap SpecPdu SpecMbap Client SpecClient MbapFacts MbapLemmas BitFacts ClientFacts ClientLemmas ClientShutdown ClientView
  Scheduled SessionCall Session SpecSession.
From Coq Require Import Lia.

(** The outputs that are not the channel's. *)
Definition inner (os : list koutput) : list koutput :=
  filter (fun o => match o with Channel _ => false | _ => true end) os.

Lemma inner_app a b : inner (a ++ b) = inner a ++ inner b.
Proof. apply filter_app. Qed.
Lemma inner_channel o : inner (map Channel o) = [].
Proof. induction o; [reflexivity|exact IHo]. Qed.
Lemma of_channel_app a b : of_channel (a ++ b) = of_channel a ++ of_channel b.
Proof. apply flat_map_app. Qed.
Lemma of_channel_channel o : of_channel (map Channel o) = o.
Proof. unfold of_channel. induction o as [|x o IH]; [reflexivity|]. cbn. f_equal. exact IH. Qed.
Lemma of_channel_inner l : inner l = l -> of_channel l = [].
Proof.
  intros <-. unfold inner, of_channel. induction l as [|x l IH]; [reflexivity|]. destruct x; cbn; exact IH.
Qed.

(** The events of the channel that are not API calls. *)
Definition plain (es : list cevent) : list cevent :=
  filter (fun e => match e with CApi _ => false | _ => true end) es.
Definition channel_events (es : list kevent) : list cevent :=
  flat_map (fun e => match e with KChannel (CApi _) => [] | KChannel e => [e] | _ => [] end) es.

Section Lift.
Context {W : Type}.
Context (user : source -> W -> expected response -> W * list kapi).
Notation done := (list (nat * expected (list N))).
Context (P : list koutput -> sessions W -> done -> list call -> Prop).
Notation Inv L z D cs := (P (L ++ ks_log z) z D cs).

Context (H_api : forall L z D cs a z' c, Inv L z D cs -> kapi_call z a = (z', c) -> Inv L z' D (cs ++ submits c)).
Context (H_expire : forall L z D cs j t z' c, Inv L z D cs -> poll_step z j (SExpire t) = (z', c) -> Inv L z' D (cs ++ submits c)).
Context (H_fire : forall L z D cs j t z' c, Inv L z D cs -> poll_step z j (SFire t) = (z', c) -> Inv L z' D (cs ++ submits c)).
Context (H_run : forall L z D cs q0 q z' c, Inv L z D cs -> ks_queue z = q0 :: q ->
  run_kclosure (with_kqueue z q) q0 = (z', c) -> Inv L z' D (cs ++ submits c)).
Context (H_user : forall L z D cs i r x v w, Inv L z D cs -> nth_error (ks_owners z) i = Some (ByUser r) ->
  session_result r x = Ret v -> ~ In i (map fst D) -> Inv L (show (with_user z w) [Answered i v]) (D ++ [(i, x)]) cs).
Context (H_answer : forall L z D cs i j n p x v w z' c, Inv L z D cs -> nth_error (ks_owners z) i = Some (ByPoll j n) ->
  nth_error (ks_polls z) j = Some p -> session_result (po_request p) x = Ret v -> ~ In i (map fst D) ->
  poll_step (with_user z w) j (SAnswer n v) = (z', c) -> Inv L z' (D ++ [(i, x)]) (cs ++ submits c)).
Context (H_owner : forall L z D cs i, P L z D cs -> (i < List.length cs)%nat ->
  (exists r, nth_error (ks_owners z) i = Some (ByUser r)) \/
  (exists j n p, nth_error (ks_owners z) i = Some (ByPoll j n) /\ nth_error (ks_polls z) j = Some p)).
Context (H_closed : forall L z D cs z' c, Inv L z D cs ->
  kapi_calls (with_closed z) (map CloseSession (ks_open z)) = (z', c) -> Inv L z' D cs).
Context (H_log : forall L z D cs, P L z D cs -> P L (with_log z []) D cs).

Lemma H_apis l : forall L z D cs z' c, Inv L z D cs -> kapi_calls z l = (z', c) -> Inv L z' D (cs ++ submits c).
Proof.
  induction l as [|a l IH]; intros L z D cs z' c HI; cbn [kapi_calls]; [intros E; inversion E; subst; cbn; rewrite app_nil_r; exact HI|].
  destruct (kapi_call z a) as [z1 c1] eqn:E1. destruct (kapi_calls z1 l) as [z2 c2] eqn:E2. intros E; inversion E; subst.
  rewrite submits_app, app_assoc. eapply IH; [eapply H_api; [exact HI|exact E1]|exact E2].
Qed.

Lemma session_result_total r x : exists v, session_result r x = Ret v.
Proof.
  unfold session_result. destruct x as [d|e]; [|eauto]. pose proof (ParseRespFacts.response_no_ub r d).
  destruct (response_parser r d); [eauto|contradiction].
Qed.

Lemma completion_inv L z D cs i x z' c : Inv L z D cs -> (i < List.length cs)%nat -> ~ In i (map fst D) ->
  on_completion user i z x = (z', c) -> Inv L z' (D ++ [(i, x)]) (cs ++ submits c).
Proof.
  intros HI Hi Hd. unfold on_completion. destruct (H_owner _ _ _ _ _ HI Hi) as [(r & Eo)|(j & n & p & Eo & Ep)]; rewrite Eo.
  - destruct (session_result_total r x) as [v Ev]. rewrite Ev. destruct (user (Once i) (ks_user z) v) as [w calls].
    intros E. refine (H_apis _ _ _ _ _ _ _ _ E). eapply H_user; eassumption.
  - rewrite Ep. destruct (session_result_total (po_request p) x) as [v Ev]. rewrite Ev.
    destruct (user (Polling j n) (ks_user z) v) as [w calls].
    destruct (poll_step (with_user z w) j (SAnswer n v)) as [z1 c1] eqn:E1. destruct (kapi_calls z1 calls) as [z2 c2] eqn:E2.
    intros E; inversion E; subst. rewrite submits_app, app_assoc. refine (H_apis _ _ _ _ _ _ _ _ E2). eapply H_answer; eassumption.
Qed.

Lemma walk_inv l : forall L z D cs z' script, Inv L z D cs ->
  (forall i, In i (map fst l) -> (i < List.length cs)%nat /\ ~ In i (map fst D)) -> NoDup (map fst l) ->
  walk (on_completion user) z l = (z', script) -> Inv L z' (D ++ l) (cs ++ submits (List.concat script)).
Proof.
  induction l as [|[i x] l IH]; intros L z D cs z' script HI Hl Hn; cbn [walk].
  - intros E; inversion E; subst. cbn. rewrite !app_nil_r. exact HI.
  - destruct (on_completion user i z x) as [z1 c1] eqn:E1. destruct (walk (on_completion user) z1 l) as [z2 c2] eqn:E2.
    intros E; inversion E; subst. cbn [map fst] in Hl, Hn. inversion Hn as [|? ? Hn1 Hn2]; subst.
    destruct (Hl i (or_introl eq_refl)) as [Hi Hd].
    assert (HI1 := completion_inv _ _ _ _ _ _ _ _ HI Hi Hd E1).
    cbn [List.concat]. rewrite submits_app, app_assoc. change (D ++ (i, x) :: l) with (D ++ [(i, x)] ++ l). rewrite (app_assoc D).
    eapply IH; [exact HI1| |exact Hn2|exact E2].
    intros k Hk. destruct (Hl k (or_intror Hk)) as [A B]. split; [rewrite app_length; lia|].
    rewrite map_app. intros H. apply in_app_or in H. destruct H as [H|[H|[]]]; [exact (B H)|]. cbn in H. subst k. exact (Hn1 Hk).
Qed.

(** ** What never changes *)

(** Only the library's own outputs are logged, the flag is [b], and there was no
    undefined behaviour. *)
Definition clean (b : bool) (z : sessions W) : Prop :=
  inner (ks_log z) = ks_log z /\ ks_shutdown z = b /\ ks_bad z = false.

Lemma show_clean b z l : clean b z -> inner l = l -> clean b (show z l).
Proof. intros (H & Hs) Hl. split; [|exact Hs]. cbn [ks_log show with_log]. rewrite inner_app, H, Hl. reflexivity. Qed.

Lemma post_clean b z j a : clean b z -> clean b (post_poll z j a).
Proof. intros H. unfold post_poll. destruct (nth_error (ks_polls z) j); exact H. Qed.

Lemma api_clean b z a z' c : clean b z -> kapi_call z a = (z', c) -> clean b z'.
Proof.
  intros H. assert (H1 : clean b (show z [Asked a])) by (apply show_clean; [exact H|reflexivity]).
  destruct a as [u t|x r t|x r t f|j a|x|]; cbn [kapi_call]; set (z1 := show z _) in *; clearbody z1.
  - destruct (ks_shutdown z1); intros E; inversion E; subst; [exact H1|].
    apply (show_clean b (with_sessions z1 _ _)); [exact H1|reflexivity].
  - destruct (nth_error (ks_sessions z1) x); intros E; inversion E; subst; [|exact H1].
    apply (show_clean b z1 [_] H1). reflexivity.
  - destruct (nth_error (ks_sessions z1) x); intros E; inversion E; subst; [|exact H1].
    apply (post_clean b (show (with_polls z1 _) _)). apply (show_clean b (with_polls z1 _)); [exact H1|reflexivity].
  - intros E; inversion E; subst. apply post_clean. exact H1.
  - destruct (nth_error (ks_sessions z1) x); intros E; inversion E; subst; exact H1.
  - intros E; inversion E; subst. exact H1.
Qed.

Lemma apis_clean b l : forall z z' c, clean b z -> kapi_calls z l = (z', c) -> clean b z'.
Proof.
  induction l as [|a l IH]; intros z z' c H; cbn [kapi_calls]; [intros E; inversion E; subst; exact H|].
  destruct (kapi_call z a) as [z1 c1] eqn:E1. destruct (kapi_calls z1 l) as [z2 c2] eqn:E2. intros E; inversion E; subst.
  eapply IH; [eapply api_clean; [exact H|exact E1]|exact E2].
Qed.

Lemma requests_clean b j p o : forall z z' c, clean b z -> poll_requests z j p o = (z', c) -> clean b z'.
Proof.
  induction o as [|x o IH]; intros z z' c H; cbn [poll_requests]; [intros E; inversion E; subst; exact H|].
  destruct x; try exact (IH _ _ _ H).
  match goal with |- context [poll_requests ?a j p o] => destruct (poll_requests a j p o) as [z1 c1] eqn:E1 end.
  intros E; inversion E; subst. refine (IH _ _ _ _ E1). apply (show_clean b z [_] H). reflexivity.
Qed.

Lemma inner_polled j (o : list (soutput (expected response))) : inner (map (Polled j) o) = map (Polled j) o.
Proof. induction o as [|x o IH]; [reflexivity|]. cbn. f_equal. exact IH. Qed.

Lemma poll_clean b z j e z' c : clean b z -> poll_step z j e = (z', c) -> clean b z'.
Proof.
  intros H. unfold poll_step. destruct (nth_error (ks_polls z) j) as [p|]; [|intros E; inversion E; subst; exact H].
  destruct (sched_step _ (po_sched p) tt e) as [[s w] o]. intros E. refine (requests_clean _ _ _ _ _ _ _ _ E).
  apply (show_clean b (set_sched z j p s)); [exact H|apply inner_polled].
Qed.

Lemma completion_clean b i z x z' c : clean b z -> on_completion user i z x = (z', c) -> clean b z'.
Proof.
  intros H. unfold on_completion. destruct (nth_error (ks_owners z) i) as [[r|j n]|]; [| |intros E; inversion E; subst; exact H].
  - destruct (session_result_total r x) as [v ->].
    destruct (user (Once i) (ks_user z) v) as [w calls]. intros E. refine (apis_clean _ _ _ _ _ _ E).
    apply (show_clean b (with_user z w)); [exact H|reflexivity].
  - destruct (nth_error (ks_polls z) j) as [p|]; [|intros E; inversion E; subst; exact H].
    destruct (session_result_total (po_request p) x) as [v ->].
    destruct (user (Polling j n) (ks_user z) v) as [w calls].
    destruct (poll_step (with_user z w) j (SAnswer n v)) as [z1 c1] eqn:E1. destruct (kapi_calls z1 calls) as [z2 c2] eqn:E2.
    intros E; inversion E; subst. refine (apis_clean _ _ _ _ _ _ E2). refine (poll_clean _ _ _ _ _ _ _ E1). exact H.
Qed.

Lemma walk_clean b l : forall z z' script, clean b z -> walk (on_completion user) z l = (z', script) -> clean b z'.
Proof.
  induction l as [|[i x] l IH]; intros z z' script H; cbn [walk]; [intros E; inversion E; subst; exact H|].
  destruct (on_completion user i z x) as [z1 c1] eqn:E1. destruct (walk (on_completion user) z1 l) as [z2 c2] eqn:E2.
  intros E; inversion E; subst. refine (IH _ _ _ _ E2). exact (completion_clean _ _ _ _ _ _ H E1).
Qed.

Lemma closure_clean b z q0 z' c : clean b z -> run_kclosure z q0 = (z', c) -> clean b z'.
Proof.
  intros H. destruct q0 as [j|x j|x]; cbn [run_kclosure].
  - apply poll_clean. exact H.
  - destruct (nth_error (ks_sessions z) x); intros E; inversion E; subst; exact H.
  - destruct (nth_error (ks_sessions z) x) as [s|]; [|intros E; inversion E; subst; exact H].
    destruct (kapi_calls z _) as [z1 c1] eqn:E1. intros E; inversion E; subst. exact (apis_clean _ _ _ _ _ H E1).
Qed.

Definition tcp_shutdown (o : list coutput) : bool :=
  existsb (fun x => match x with TcpShutdown => true | _ => false end) o.

Lemma tcp_shutdown_in o : tcp_shutdown o = true <-> In TcpShutdown o.
Proof.
  unfold tcp_shutdown. rewrite existsb_exists. split.
  - intros (x & H & E). destruct x; try discriminate. exact H.
  - intros H. exists TcpShutdown. split; [exact H|reflexivity].
Qed.

Lemma close_clean b z o : clean b z -> clean (b || tcp_shutdown o) (close_sessions z o).
Proof.
  intros H. unfold close_sessions. fold (tcp_shutdown o). destruct (tcp_shutdown o); [|rewrite Bool.orb_false_r; exact H].
  destruct (kapi_calls (with_closed z) (map CloseSession (ks_open z))) as [z1 c1] eqn:E. cbn [fst].
  refine (apis_clean _ _ (with_closed z) _ _ _ E). rewrite Bool.orb_true_r. destruct H as (A & _ & C). split; [exact A|]. split; [reflexivity|exact C].
Qed.

(** ** Steps *)

(** The state of the channel, its history, and the invariant. *)
Record view (pol : copy_policy) (buf : list N) (es : list kevent) (k : stack W) (os : list koutput) : Prop := {
  vw_channel : exists ces script, Forall typed_cevent ces /\ plain ces = channel_events es /\
    forall rest, client_run scripted pol (client_init buf) (script ++ rest) ces = Ret (st_channel k, rest, of_channel os);
  vw_log : ks_log (st_rest k) = [];
  vw_down : ks_shutdown (st_rest k) = tcp_shutdown (of_channel os);
  vw_bad : ks_bad (st_rest k) = false;
  vw_inv : P (inner os) (st_rest k) (results (of_channel os)) (calls_of (of_channel os))
}.

Lemma calls_length o : List.length (calls_of o) = List.length (called_ids o).
Proof. unfold calls_of, called_ids. induction o as [|x o IH]; [reflexivity|]. destruct x; cbn; rewrite ?IH; reflexivity. Qed.

Lemma view_core pol buf es k os : good_buf buf -> view pol buf es k os ->
  core (st_channel k) (of_channel os) /\ stable (st_channel k) /\ exists bs, tracked pol (st_channel k) bs.
Proof.
  intros Hb V. destruct (vw_channel _ _ _ _ _ V) as (ces & script & T & _ & H).
  assert (Hh : history scripted pol ces (st_channel k) [] (of_channel os)).
  { exists buf, (script ++ []). split; [exact Hb|]. split; [exact T|]. apply H. }
  apply history_reached in Hh. destruct Hh as (A & B & C). split; [exact A|]. split; [exact B|]. eauto.
Qed.

Lemma capi_run pol c : forall s w, client_run scripted pol s w (map CApi c) =
  let '(s', o) := capi_calls s c in Ret (s', w, o).
Proof.
  induction c as [|a c IH]; intros s w; cbn [map client_run capi_calls]; [reflexivity|].
  cbn [client_step]. destruct (capi_call s a) as [s1 o1]. cbn [obind]. rewrite IH.
  destruct (capi_calls s1 c) as [s2 o2]. reflexivity.
Qed.

Lemma plain_app a b : plain (a ++ b) = plain a ++ plain b.
Proof. apply filter_app. Qed.
Lemma plain_api c : plain (map CApi c) = [].
Proof. induction c; [reflexivity|exact IHc]. Qed.
Lemma channel_events_app a b : channel_events (a ++ b) = channel_events a ++ channel_events b.
Proof. apply flat_map_app. Qed.

(** Calls of the channel's API. *)
Lemma view_finish pol buf es e k os z c k' o : view pol buf es k os -> clean (tcp_shutdown (of_channel os)) z -> channel_events [e] = [] ->
  P (inner os ++ ks_log z) z (results (of_channel os)) (calls_of (of_channel os) ++ submits c) ->
  finish (st_channel k) (z, c) = Ret (k', o) -> view pol buf (es ++ [e]) k' (os ++ o).
Proof.
  intros V Hc He HI. cbn [finish]. destruct (capi_calls (st_channel k) c) as [s1 o1] eqn:E1.
  intros H. inversion H; subst. destruct (capi_calls_of _ _ _ _ E1) as [A B].
  destruct Hc as (Hc & Hsd & Hbad).
  assert (Htcp : tcp_shutdown o1 = false).
  { destruct (tcp_shutdown o1) eqn:Et; [|reflexivity]. exfalso. apply tcp_shutdown_in in Et.
    destruct (capi_calls_spec (st_channel k) c) as (q & o' & m & Eq & Ps). rewrite Eq in E1. inversion E1; subst.
    destruct (only_called_in _ _ (ps_only _ _ _ _ _ Ps) Et) as (i & kk & Hx). discriminate. }
  assert (Ho : of_channel (os ++ map Channel o1 ++ ks_log z) = of_channel os ++ o1).
  { rewrite !of_channel_app, of_channel_channel, (of_channel_inner (ks_log z) Hc), app_nil_r. reflexivity. }
  assert (Hi : inner (os ++ map Channel o1 ++ ks_log z) = inner os ++ ks_log z).
  { rewrite !inner_app, inner_channel, Hc. reflexivity. }
  constructor; cbn [st_channel st_rest].
  - destruct (vw_channel _ _ _ _ _ V) as (ces & script & T & Pl & R). exists (ces ++ map CApi c), script. split; [|split].
    + apply Forall_app. split; [exact T|]. apply Forall_map. apply Forall_forall. intros a _. exact Logic.I.
    + rewrite plain_app, plain_api, app_nil_r, channel_events_app, He, app_nil_r. exact Pl.
    + intros rest. rewrite run_app_client, R. cbn [obind]. rewrite capi_run, E1. cbn [obind]. rewrite Ho. reflexivity.
  - reflexivity.
  - rewrite Ho. unfold tcp_shutdown in *. rewrite existsb_app, Htcp, Bool.orb_false_r. exact Hsd.
  - exact Hbad.
  - apply H_log. rewrite Ho, Hi, results_app, B, app_nil_r, calls_of_app, A. exact HI.
Qed.

Lemma view_same pol buf es e k os : view pol buf es k os -> channel_events [e] = [] -> view pol buf (es ++ [e]) k (os ++ []).
Proof.
  intros V He. rewrite app_nil_r. destruct V as [(ces & script & T & Pl & R) A B C D]. constructor; [|exact A|exact B|exact C|exact D].
  exists ces, script. split; [exact T|]. split; [|exact R]. rewrite channel_events_app, He, app_nil_r. exact Pl.
Qed.

Lemma close_sessions_inv L z D cs o : Inv L z D cs -> Inv L (close_sessions z o) D cs.
Proof.
  intros H. unfold close_sessions. destruct (existsb _ o); [|exact H].
  destruct (kapi_calls (with_closed z) (map CloseSession (ks_open z))) as [z1 c1] eqn:E. cbn [fst]. exact (H_closed _ _ _ _ _ _ H E).
Qed.

Lemma step_view pol buf es e k os : good_buf buf -> view pol buf es k os -> typed_kevent e ->
  exists k' o, stack_step user pol k e = Ret (k', o) /\ view pol buf (es ++ [e]) k' (os ++ o).
Proof.
  intros Hb V He. assert (Hlog := vw_log _ _ _ _ _ V). assert (HI := vw_inv _ _ _ _ _ V).
  assert (Hcl : clean (tcp_shutdown (of_channel os)) (st_rest k)).
  { split; [rewrite Hlog; reflexivity|]. split; [exact (vw_down _ _ _ _ _ V)|exact (vw_bad _ _ _ _ _ V)]. }
  assert (HI' : Inv (inner os) (st_rest k) (results (of_channel os)) (calls_of (of_channel os))) by (rewrite Hlog, app_nil_r; exact HI).
  assert (Hfin : forall s x, exists k' o, finish s x = Ret (k', o) :> outcome (stack W * list koutput)).
  { intros s [z c]. cbn [finish]. destruct (capi_calls s c). eauto. }
  destruct e as [a| |j t|j t|e]; cbn [stack_step].
  - destruct (kapi_call (st_rest k) a) as [z c] eqn:E. destruct (Hfin (st_channel k) (z, c)) as (k' & o & Ef). exists k', o.
    split; [exact Ef|]. eapply view_finish; [exact V|eapply api_clean; eassumption|reflexivity|eapply H_api; eassumption|exact Ef].
  - destruct (ks_queue (st_rest k)) as [|q0 q] eqn:Eq; [do 2 eexists; split; [reflexivity|apply view_same; [exact V|reflexivity]]|].
    destruct (run_kclosure (with_kqueue (st_rest k) q) q0) as [z c] eqn:E. destruct (Hfin (st_channel k) (z, c)) as (k' & o & Ef). exists k', o.
    split; [exact Ef|]. eapply view_finish; [exact V| |reflexivity|eapply H_run; eassumption|exact Ef].
    refine (closure_clean _ _ _ _ _ _ E). exact Hcl.
  - destruct (poll_step (st_rest k) j (SExpire t)) as [z c] eqn:E. destruct (Hfin (st_channel k) (z, c)) as (k' & o & Ef). exists k', o.
    split; [exact Ef|]. eapply view_finish; [exact V|eapply poll_clean; eassumption|reflexivity|eapply H_expire; eassumption|exact Ef].
  - destruct (poll_step (st_rest k) j (SFire t)) as [z c] eqn:E. destruct (Hfin (st_channel k) (z, c)) as (k' & o & Ef). exists k', o.
    split; [exact Ef|]. eapply view_finish; [exact V|eapply poll_clean; eassumption|reflexivity|eapply H_fire; eassumption|exact Ef].
  - destruct (view_core _ _ _ _ _ Hb V) as (C & S & bs & T).
    assert (Hd : (exists a, e = CApi a) \/ (forall a, e <> CApi a)) by (destruct e; eauto; right; discriminate).
    destruct Hd as [(a & ->)|Ha]; [do 2 eexists; split; [reflexivity|apply view_same; [exact V|reflexivity]]|].
    destruct (step_core (on_completion user) pol _ _ (st_rest k) e _ C S T He) as (s' & z' & o & Es & C' & _ & _).
    assert (Hc' := step_completed (on_completion user) pol _ _ _ _ _ _ _ _ C S T He Es).
    destruct (step_seen (on_completion user) pol _ _ _ _ _ _ Es Ha) as (script & Ew & Ec & Er).
    assert (Hw : Inv (inner os) z' (results (of_channel os) ++ results o) (calls_of (of_channel os) ++ submits (List.concat script))).
    { refine (walk_inv _ _ _ _ _ _ _ HI' _ _ Ew); rewrite <- completed_of_results.
      - intros i Hi. assert (Hi' := Hi). apply Hc' in Hi'. split.
        + rewrite calls_length, (co_called _ _ C), seq_length. apply (co_below _ _ C). apply in_or_app. right. exact Hi'.
        + rewrite <- completed_of_results. intros Hin. exact (co_gone _ _ C _ Hin Hi').
      - assert (Hn := co_once _ _ C'). rewrite completed_app in Hn. 
        clear -Hn. induction (completed_ids (of_channel os)) as [|y l IH]; [exact Hn|]. inversion Hn; subst. auto. }
    assert (Hcz := close_clean _ _ o (walk_clean _ _ _ _ _ Hcl Ew)). destruct Hcz as (Hcz & Hdz & Hbz).
    assert (Hce : channel_events [KChannel e] = [e]) by (destruct e; try reflexivity; exfalso; exact (Ha _ eq_refl)).
    exists {| st_channel := s'; st_rest := with_log (close_sessions z' o) [] |}, (map Channel o ++ ks_log (close_sessions z' o)).
    split; [destruct e; try (rewrite Es; reflexivity); exfalso; exact (Ha _ eq_refl)|].
    assert (Ho : of_channel (os ++ map Channel o ++ ks_log (close_sessions z' o)) = of_channel os ++ o).
    { rewrite !of_channel_app, of_channel_channel, (of_channel_inner _ Hcz), app_nil_r. reflexivity. }
    assert (Hi : inner (os ++ map Channel o ++ ks_log (close_sessions z' o)) = inner os ++ ks_log (close_sessions z' o)).
    { rewrite !inner_app, inner_channel, Hcz. reflexivity. }
    constructor; cbn [st_channel st_rest].
    + destruct (vw_channel _ _ _ _ _ V) as (ces & sc & Tc & Pl & R). exists (ces ++ [e]), (sc ++ script). split; [|split].
      * apply Forall_app. split; [exact Tc|]. repeat constructor. exact He.
      * rewrite plain_app, channel_events_app, Hce, Pl. f_equal. destruct e; try reflexivity. exfalso. exact (Ha _ eq_refl).
      * intros rest. rewrite <- app_assoc, run_app_client, R. cbn [obind client_run]. rewrite Er. cbn [obind client_run].
        rewrite app_nil_r, Ho. reflexivity.
    + reflexivity.
    + rewrite Ho. cbn [ks_shutdown with_log]. rewrite Hdz. unfold tcp_shutdown. rewrite existsb_app. reflexivity.
    + exact Hbz.
    + apply H_log. rewrite Ho, Hi, results_app, calls_of_app, Ec. apply close_sessions_inv. exact Hw.
Qed.

Lemma stack_run_snoc pol es e : forall k, stack_run user pol k (es ++ [e]) =
  let! (k1, o1) := stack_run user pol k es in let! (k2, o2) := stack_step user pol k1 e in Ret (k2, o1 ++ o2).
Proof.
  induction es as [|e0 es IH]; intros k; cbn [app stack_run].
  - cbn [obind]. destruct (stack_step user pol k e) as [[k1 o1]|]; [|reflexivity]. cbn [obind app]. rewrite app_nil_r. reflexivity.
  - destruct (stack_step user pol k e0) as [[k1 o1]|]; [|reflexivity]. cbn [obind]. rewrite IH.
    destruct (stack_run user pol k1 es) as [[k2 o2]|]; [|reflexivity]. cbn [obind].
    destruct (stack_step user pol k2 e) as [[k3 o3]|]; [|reflexivity]. cbn [obind]. rewrite app_assoc. reflexivity.
Qed.

Context (H_init : forall w, P [] (sessions_init w) [] []).

Lemma run_view pol buf w es : good_buf buf -> Forall typed_kevent es ->
  exists k os, stack_run user pol (stack_init buf w) es = Ret (k, os) /\ view pol buf es k os.
Proof.
  intros Hb. induction es as [|e es IH] using rev_ind; intros He.
  - exists (stack_init buf w), []. split; [reflexivity|]. constructor; [|reflexivity|reflexivity|reflexivity|apply H_init].
    exists [], []. split; [constructor|]. split; reflexivity.
  - apply Forall_app in He. destruct He as [He1 He2]. destruct (IH He1) as (k & os & E & V).
    inversion He2 as [|? ? He3 _]; subst. destruct (step_view _ _ _ _ _ _ Hb V He3) as (k' & o & Es & V').
    exists k', (os ++ o). split; [|exact V']. rewrite stack_run_snoc, E. cbn [obind]. rewrite Es. reflexivity.
Qed.

Lemma history_view pol es k os : stack_history user pol es k os -> exists buf, good_buf buf /\ view pol buf es k os.
Proof.
  intros (buf & w & Hb & He & E). destruct (run_view pol buf w es Hb He) as (k' & os' & E' & V).
  rewrite E in E'. inversion E'; subst. eauto.
Qed.
End Lift.
