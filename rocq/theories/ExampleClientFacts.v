(** Proofs about the example client. *)
From Verif Require Import Prelude Ser4 Messages Mbap SpecPdu SpecMbap Client SpecClient ClientFacts ClientView
  Scheduled SpecScheduled SessionCall Session SpecSession SessionLift SessionFacts SessionInv SessionLemmas SessionCalls SessionDown SessionMeant
  Config Ids ExampleClient SpecExampleClient.
From Coq Require Import String Lia.

(** ** Steps in which nothing is asked for *)
Definition made (o : koutput) : bool :=
  match o with Issued _ _ _ _ | Opened _ _ _ | Scheduled _ _ _ _ _ => true | _ => false end.

Definition unmade (os : list koutput) : Prop := asked os = [] -> existsb made os = false.

Lemma unmade_app a b : unmade a -> unmade b -> unmade (a ++ b).
Proof.
  intros A B H. rewrite asked_app in H. apply app_eq_nil in H. destruct H as [H1 H2]. rewrite existsb_app, (A H1), (B H2). reflexivity.
Qed.

Lemma unmade_channel o : existsb made (map Channel o) = false.
Proof. induction o as [|x o IH]; [reflexivity|exact IH]. Qed.

Lemma unmade_polled j (o : list (soutput (expected response))) : existsb made (map (Polled j) o) = false.
Proof. induction o as [|x o IH]; [reflexivity|exact IH]. Qed.

Section Unasked.
Context {W : Type}.
Context (user : source -> W -> expected response -> W * list kapi).
Implicit Types (z : sessions W) (k : stack W).

Definition shows z z' : Prop := exists o, ks_log z' = ks_log z ++ o /\ unmade o.

Lemma shows_refl z : shows z z.
Proof. exists []. split; [rewrite app_nil_r; reflexivity|]. intros _. reflexivity. Qed.

Lemma shows_trans z1 z2 z3 : shows z1 z2 -> shows z2 z3 -> shows z1 z3.
Proof.
  intros (o1 & A1 & B1) (o2 & A2 & B2). exists (o1 ++ o2). split; [rewrite A2, A1, app_assoc; reflexivity|]. apply unmade_app; assumption.
Qed.

Lemma api_shows z a z' c : kapi_call z a = (z', c) -> shows z z'.
Proof.
  intros E. apply kapi_did in E. destruct E; cbn; eexists; (split; [reflexivity|]); intros H0; discriminate.
Qed.

Lemma apis_show l : forall z z' c, kapi_calls z l = (z', c) -> shows z z'.
Proof.
  induction l as [|a l IH]; intros z z' c; cbn [kapi_calls]; [intros E; inversion E; subst; apply shows_refl|].
  destruct (kapi_call z a) as [z1 c1] eqn:E1. destruct (kapi_calls z1 l) as [z2 c2] eqn:E2. intros E; inversion E; subst.
  exact (shows_trans _ _ _ (api_shows _ _ _ _ E1) (IH _ _ _ E2)).
Qed.

Lemma poll_shows z j e z' c : poll_step z j e = (z', c) -> shows z z'.
Proof.
  intros E. destruct (nth_error (ks_polls z) j) as [p|] eqn:Hp; [|rewrite poll_missing in E by exact Hp; inversion E; subst; apply shows_refl].
  apply (poll_polled _ _ _ _ _ _ Hp) in E. inversion E; subst; (eexists; split; [cbn; reflexivity|]); intros _.
  - apply unmade_polled.
  - rewrite existsb_app, unmade_polled. reflexivity.
Qed.

Lemma completion_shows i z x z' c : on_completion user i z x = (z', c) -> shows z z'.
Proof.
  unfold on_completion. destruct (nth_error (ks_owners z) i) as [[r|j n]|]; [| |intros E; inversion E; subst; apply shows_refl].
  - destruct (session_result r x) as [v|]; [|intros E; inversion E; subst; destruct (shows_refl z) as (o & A & B); exists o; split; assumption].
    destruct (user (Once i) (ks_user z) v) as [w calls]. intros E. apply apis_show in E.
    refine (shows_trans z _ z' _ E). eexists. split; [cbn; reflexivity|]. intros _. reflexivity.
  - destruct (nth_error (ks_polls z) j) as [p|]; [|intros E; inversion E; subst; apply shows_refl].
    destruct (session_result (po_request p) x) as [v|]; [|intros E; inversion E; subst; destruct (shows_refl z) as (o & A & B); exists o; split; assumption].
    destruct (user (Polling j n) (ks_user z) v) as [w calls].
    destruct (poll_step (with_user z w) j (SAnswer n v)) as [z1 c1] eqn:E1. destruct (kapi_calls z1 calls) as [z2 c2] eqn:E2.
    intros E; inversion E; subst. exact (shows_trans z z1 z' (poll_shows (with_user z w) _ _ _ _ E1) (apis_show _ _ _ _ E2)).
Qed.

Lemma walk_shows l : forall z z' script, walk (on_completion user) z l = (z', script) -> shows z z'.
Proof.
  induction l as [|[i x] l IH]; intros z z' script; cbn [walk]; [intros E; inversion E; subst; apply shows_refl|].
  destruct (on_completion user i z x) as [z1 c1] eqn:E1. destruct (walk (on_completion user) z1 l) as [z2 c2] eqn:E2.
  intros E; inversion E; subst. exact (shows_trans _ _ _ (completion_shows _ _ _ _ _ E1) (IH _ _ _ E2)).
Qed.

Lemma closure_shows z q0 z' c : run_kclosure z q0 = (z', c) -> shows z z'.
Proof.
  destruct q0 as [j|x j|x]; cbn [run_kclosure].
  - apply poll_shows.
  - destruct (nth_error (ks_sessions z) x); intros E; inversion E; subst; match goal with |- shows ?y _ => exact (shows_refl y) end.
  - destruct (nth_error (ks_sessions z) x) as [s|]; [|intros E; inversion E; subst; apply shows_refl].
    destruct (kapi_calls z _) as [z1 c1] eqn:E1. intros E; inversion E; subst. exact (apis_show _ _ _ _ E1).
Qed.

Lemma step_unmade pol es k os e k' o : stack_history user pol es k os -> stack_step user pol k e = Ret (k', o) -> unmade o.
Proof.
  intros H Es. destruct (sessions_history _ _ _ _ _ H) as (buf & Hb & V). assert (Hlog := vw_log _ _ _ _ _ _ V).
  assert (Hfin : forall z c, shows (st_rest k) z -> finish (st_channel k) (z, c) = Ret (k', o) -> unmade o).
  { intros z c (l & A & B) E. cbn [finish] in E. destruct (capi_calls (st_channel k) c) as [s1 o1]. inversion E; subst.
    rewrite Hlog in A. cbn in A. rewrite A. apply unmade_app; [intros _; apply unmade_channel|exact B]. }
  destruct e as [a| |j t|j t|e]; cbn [stack_step] in Es.
  - destruct (kapi_call (st_rest k) a) as [z c] eqn:E. exact (Hfin _ _ (api_shows _ _ _ _ E) Es).
  - destruct (ks_queue (st_rest k)) as [|q0 q] eqn:Eq; [inversion Es; subst; intros _; reflexivity|].
    destruct (run_kclosure (with_kqueue (st_rest k) q) q0) as [z c] eqn:E. exact (Hfin _ _ (closure_shows _ _ _ _ E) Es).
  - destruct (poll_step (st_rest k) j (SExpire t)) as [z c] eqn:E. exact (Hfin _ _ (poll_shows _ _ _ _ _ E) Es).
  - destruct (poll_step (st_rest k) j (SFire t)) as [z c] eqn:E. exact (Hfin _ _ (poll_shows _ _ _ _ _ E) Es).
  - assert (Hd : (exists a, e = CApi a) \/ (forall a, e <> CApi a)) by (destruct e; eauto; right; discriminate).
    destruct Hd as [(a & ->)|Ha]; [inversion Es; subst; intros _; reflexivity|].
    assert (Es' : (let! (s, z, o) := client_step (on_completion user) pol (st_channel k) (st_rest k) e in
      Ret ({| st_channel := s; st_rest := with_log (close_sessions z o) [] |}, map Channel o ++ ks_log (close_sessions z o))) = Ret (k', o)).
    { destruct e; try exact Es. exfalso. exact (Ha _ eq_refl). }
    clear Es. destruct (client_step (on_completion user) pol (st_channel k) (st_rest k) e) as [[[s' z'] o1]|] eqn:E1; cbn [obind] in Es'; [|discriminate].
    inversion Es'; subst k' o. clear Es'. destruct (step_seen (on_completion user) pol _ _ _ _ _ _ E1 Ha) as (script & Ew & _ & _).
    assert (S1 := walk_shows _ _ _ _ Ew).
    assert (S2 : shows z' (close_sessions z' o1)).
    { unfold close_sessions. destruct (existsb _ o1); [|apply shows_refl].
      destruct (kapi_calls (with_closed z') (map CloseSession (ks_open z'))) as [z1 c1] eqn:Ec. exact (apis_show _ _ _ _ Ec). }
    destruct (shows_trans _ _ _ S1 S2) as (l & A & B). rewrite Hlog in A. cbn in A. rewrite A.
    apply unmade_app; [intros _; apply unmade_channel|exact B].
Qed.
End Unasked.

(** ** The handlers call nothing *)
Definition unclosed (os : list koutput) : Prop := ~ In (Asked CloseChannel) os /\ forall x, ~ In (Asked (CloseSession x)) os.

Lemma in_asked a os : In (Asked a) os <-> In a (asked os).
Proof.
  unfold asked. induction os as [|o os IH]; [reflexivity|]. cbn [flat_map]. rewrite in_app_iff, <- IH. cbn [In].
  split; intros [H|H]; auto; left.
  - subst o. left. reflexivity.
  - destruct o; cbn [In] in H; try contradiction. destruct H as [H|[]]. congruence.
Qed.

Lemma handlers_call_nothing l : forall w, snd (handlers_do example_handlers w l) = [].
Proof.
  induction l as [|[s v] l IH]; intros w; [reflexivity|]. cbn [handlers_do example_handlers].
  specialize (IH w). destruct (handlers_do example_handlers w l). exact IH.
Qed.

Lemma quiet_step pol es k os e k' o : stack_history example_handlers pol es k os -> unclosed os -> typed_kevent e ->
  match e with KApi _ => False | _ => True end -> stack_step example_handlers pol k e = Ret (k', o) ->
  asked o = [] /\ existsb made o = false.
Proof.
  intros H [U1 U2] He Ha Es.
  assert (A : asked o = []).
  { destruct (handlers_take_effect _ _ _ _ _ _ _ _ H He Es) as (c & Hc & Hm).
    assert (Ec := handlers_call_nothing (tellings o) (ks_user (st_rest k))). rewrite Hc in Ec. cbn [snd] in Ec. subst c.
    destruct e as [a| |j t|j t|e]; [destruct Ha| |exact (proj2 Hm)|exact (proj2 Hm)|].
    - destruct (asked o) as [|a l] eqn:Ea; [reflexivity|]. exfalso.
      destruct (closure_asks _ _ _ _ _ _ _ H Es) as (x & Hx); [rewrite Ea; discriminate|]. exact (U2 _ Hx).
    - cbn [app] in Hm. destruct (shuts_down o) eqn:Ed; [|exact Hm]. exfalso.
      assert (H' : stack_history example_handlers pol (es ++ [KChannel e]) k' (os ++ o)).
      { destruct H as (buf & w & Hb & T & E). exists buf, w. split; [exact Hb|]. split; [apply Forall_app; split; [exact T|constructor; [exact He|constructor]]|].
        rewrite stack_run_snoc, E. cbn [obind]. rewrite Es. reflexivity. }
      assert (K := shutdown_asked _ _ _ _ _ H'). rewrite !in_app_iff in K. destruct K as [K|K]; [right; apply shuts_down_in; exact Ed|exact (U1 K)|].
      apply in_asked in K. rewrite Hm in K. destruct (true && negb (shuts_down os)); [|exact K].
      apply in_map_iff in K. destruct K as (x & K & _). discriminate. }
  split; [exact A|]. exact (step_unmade _ _ _ _ _ _ _ _ H Es A).
Qed.

Lemma unasked_unclosed os o : unclosed os -> asked o = [] -> unclosed (os ++ o).
Proof.
  intros [U1 U2] A. assert (K : forall a, ~ In (Asked a) o) by (intros a H; apply in_asked in H; rewrite A in H; exact H).
  split; [|intros x]; rewrite in_app_iff; intros [H|H]; [exact (U1 H)|exact (K _ H)|exact (U2 _ H)|exact (K _ H)].
Qed.

Lemma unmade_sent o : existsb made o = false -> sent_once o = [].
Proof.
  intros H. unfold sent_once. induction o as [|x o IH]; [reflexivity|]. cbn [existsb] in H. apply Bool.orb_false_iff in H. destruct H as [H1 H2].
  cbn [flat_map]. rewrite (IH H2). destruct x; try reflexivity. discriminate.
Qed.

Lemma quiet_meant j o x : asked o = [] -> existsb made o = false -> fold_left (meant_step j) o x = x.
Proof.
  intros A M. apply meant_same. apply forallb_forall. intros y Hy. destruct y; try reflexivity.
  - exfalso. apply in_asked in Hy. rewrite A in Hy. exact Hy.
  - exfalso. assert (existsb made o = true) by (apply existsb_exists; exists (Scheduled j0 x0 r timeout f); split; [exact Hy|reflexivity]). congruence.
Qed.

Lemma meant_channel j o l x : fold_left (meant_step j) (map Channel o ++ l) x = fold_left (meant_step j) l x.
Proof. rewrite fold_left_app. f_equal. induction o as [|y o IH]; [reflexivity|exact IH]. Qed.
