(** Invariant of the client channel. *)
From Verif Require Import Prelude Ser4 Messages Mbap SpecPdu SpecMbap Client SpecClient MbapFacts MbapLemmas BitFacts.
From Coq Require Import Lia.

(** ** Sorted lists of numbers *)
Definition sorted := StronglySorted lt.

Lemma sorted_app a b : sorted (a ++ b) <->
  sorted a /\ sorted b /\ (forall x y, In x a -> In y b -> (x < y)%nat).
Proof.
  unfold sorted. induction a as [|x a IH]; cbn [app].
  - split; [intros H; split; [constructor|split; [exact H|intros x y []]]|intros (_ & H & _); exact H].
  - split.
    + intros H. inversion H as [|? ? H1 H2]; subst. apply IH in H1. destruct H1 as (A & B & C).
      apply Forall_app in H2. destruct H2 as [H2 H3]. split; [constructor; auto|]. split; [exact B|].
      intros u v [<-|Hu] Hv; [rewrite Forall_forall in H3; auto|auto].
    + intros (A & B & C). inversion A as [|? ? A1 A2]; subst. constructor.
      * apply IH. split; [exact A1|]. split; [exact B|]. intros; apply C; cbn; auto.
      * apply Forall_app. split; [exact A2|]. apply Forall_forall. intros y Hy. apply C; cbn; auto.
Qed.

Lemma sorted_one x : sorted [x].
Proof. repeat constructor. Qed.

Lemma sorted_nil : sorted [].
Proof. constructor. Qed.

Lemma sorted_nodup l : sorted l -> NoDup l.
Proof.
  induction 1 as [|x l H IH Hx]; constructor; auto. intros Hin.
  rewrite Forall_forall in Hx. specialize (Hx _ Hin). lia.
Qed.

Lemma sorted_seq n k : sorted (seq n k).
Proof.
  revert n. induction k as [|k IH]; intros n; cbn [seq]; [constructor|].
  constructor; [apply IH|]. apply Forall_forall. intros y Hy. apply in_seq in Hy. lia.
Qed.

(** Strictly increasing numbers: positions are not further apart than values. *)
Lemma sorted_gap l : sorted l -> forall a b x y,
  nth_error l a = Some x -> nth_error l b = Some y -> (a <= b)%nat -> (b - a <= y - x)%nat /\ (x <= y)%nat.
Proof.
  induction 1 as [|z l H IH Hz]; intros a b x y Ha Hb Hle; [destruct a; discriminate|].
  destruct a as [|a], b as [|b]; cbn in Ha, Hb; try lia.
  - injection Ha as <-. injection Hb as <-. lia.
  - injection Ha as <-. rewrite Forall_forall in Hz.
    assert (Hy := Hz _ (nth_error_In _ _ Hb)).
    destruct l as [|u l]; [destruct b; discriminate|].
    assert (Hu : (z < u)%nat) by (apply Hz; cbn; auto).
    destruct (IH 0%nat b u y eq_refl Hb ltac:(lia)). lia.
  - destruct (IH a b x y Ha Hb ltac:(lia)). lia.
Qed.

(** ** Observations of concatenated outputs *)
Lemma called_app a b : called_ids (a ++ b) = called_ids a ++ called_ids b.
Proof. apply flat_map_app. Qed.
Lemma sent_app a b : sent_ids (a ++ b) = sent_ids a ++ sent_ids b.
Proof. apply flat_map_app. Qed.
Lemma completed_app a b : completed_ids (a ++ b) = completed_ids a ++ completed_ids b.
Proof. apply flat_map_app. Qed.
Lemma results_app a b : results (a ++ b) = results a ++ results b.
Proof. apply flat_map_app. Qed.

Lemma in_called i os : In i (called_ids os) <-> exists k, In (Called i k) os.
Proof.
  unfold called_ids. rewrite in_flat_map. split.
  - intros (o & H & Hi). destruct o; cbn in Hi; try tauto. destruct Hi as [<-|[]]. eauto.
  - intros (k & H). exists (Called i k). cbn. auto.
Qed.
Lemma in_sent i os : In i (sent_ids os) <-> exists u t v, In (Sent i u t v) os.
Proof.
  unfold sent_ids. rewrite in_flat_map. split.
  - intros (o & H & Hi). destruct o; cbn in Hi; try tauto. destruct Hi as [<-|[]]. eauto.
  - intros (u & t & v & H). exists (Sent i u t v). cbn. auto.
Qed.
Lemma in_completed i os : In i (completed_ids os) <-> exists r, In (Completed i r) os.
Proof.
  unfold completed_ids. rewrite in_flat_map. split.
  - intros (o & H & Hi). destruct o; cbn in Hi; try tauto. destruct Hi as [<-|[]]. eauto.
  - intros (r & H). exists (Completed i r). cbn. auto.
Qed.

(** ** API calls *)
Lemma qids_app a b : qids (a ++ b) = qids a ++ qids b.
Proof. apply flat_map_app. Qed.

(** What calls made in a state with flag [sh], after [n] calls, post and show. *)
Fixpoint posted (sh : bool) (n : nat) (l : list capi) : list ctask * list coutput * nat :=
  match l with
  | [] => ([], [], n)
  | Submit k :: l =>
      let '(q, o, m) := posted sh (S n) l in
      ((if sh then q else (if im_valid (k_msg k) then DoSend n k else DoReject n) :: q), Called n k :: o, m)
  | Shutdown :: l =>
      let '(q, o, m) := posted sh n l in (DoShutdown :: q, o, m)
  end.

Lemma capi_calls_posted l : forall s,
  capi_calls s l = let '(q, o, n) := posted (cc_shutdown s) (cc_calls s) l in
                   (with_queue s (cc_queue s ++ q) n, o).
Proof.
  induction l as [|a l IH]; intros s; cbn [capi_calls posted].
  - rewrite app_nil_r. destruct s; reflexivity.
  - destruct a as [k|]; cbn [capi_call].
    + rewrite IH. cbn [with_queue cc_shutdown cc_calls cc_queue].
      destruct (posted (cc_shutdown s) (S (cc_calls s)) l) as [[q o] n].
      destruct (cc_shutdown s); [reflexivity|].
      destruct (im_valid (k_msg k)); rewrite <- app_assoc; reflexivity.
    + rewrite IH. cbn [with_queue cc_shutdown cc_calls cc_queue].
      destruct (posted (cc_shutdown s) (cc_calls s) l) as [[q o] n].
      rewrite <- app_assoc. reflexivity.
Qed.

(** The facts about [posted]. *)
Record posts (sh : bool) (n : nat) (q : list ctask) (o : list coutput) (m : nat) : Prop := {
  ps_le : (n <= m)%nat;
  ps_called : called_ids o = seq n (m - n);
  ps_only : Forall (fun x => exists i k, x = Called i k) o;
  ps_ids : sh = false -> qids q = seq n (m - n);
  ps_down : sh = true -> qids q = [];
  ps_send : forall i k, In (DoSend i k) q -> In (Called i k) o /\ im_valid (k_msg k) = true;
  ps_reject : forall i, In (DoReject i) q -> exists k, In (Called i k) o /\ im_valid (k_msg k) = false;
  ps_task : sh = false -> forall i k, In (Called i k) o -> im_valid (k_msg k) = false -> In (DoReject i) q
}.

Lemma posted_posts sh l : forall n q o m, posted sh n l = (q, o, m) -> posts sh n q o m.
Proof.
  induction l as [|[k|] l IH]; intros n q o m E; cbn [posted] in E.
  - injection E as <- <- <-. constructor; auto; try (intros; contradiction).
    + replace (n - n)%nat with 0%nat by lia. reflexivity.
    + intros _. replace (n - n)%nat with 0%nat by lia. reflexivity.
  - destruct (posted sh (S n) l) as [[q1 o1] m1] eqn:E1. injection E as <- <- <-.
    destruct (IH _ _ _ _ E1) as [A B C D D' F G T].
    assert (Hseq : seq n (m1 - n) = n :: seq (S n) (m1 - S n)).
    { replace (m1 - n)%nat with (S (m1 - S n)) by lia. reflexivity. }
    constructor.
    + lia.
    + cbn [called_ids flat_map app]. fold (called_ids o1). rewrite B, Hseq. reflexivity.
    + constructor; eauto.
    + intros ->. rewrite Hseq, <- (D eq_refl). destruct (im_valid (k_msg k)); reflexivity.
    + intros ->. auto.
    + intros i k' Hin. destruct sh.
      * destruct (F _ _ Hin). cbn; auto.
      * destruct (im_valid (k_msg k)) eqn:Ev; destruct Hin as [Hin|Hin]; try discriminate;
          try (destruct (F _ _ Hin); cbn; auto; fail).
        injection Hin as <- <-. cbn; auto.
    + intros i Hin. destruct sh.
      * destruct (G _ Hin) as (k' & ? & ?). exists k'. cbn; auto.
      * destruct (im_valid (k_msg k)) eqn:Ev; destruct Hin as [Hin|Hin]; try discriminate;
          try (destruct (G _ Hin) as (k' & ? & ?); exists k'; cbn; auto; fail).
        injection Hin as <-. exists k. cbn; auto.
    + intros -> i k' [H|H] Hv.
      * injection H as <- <-. rewrite Hv. cbn; auto.
      * right. eauto.
  - destruct (posted sh n l) as [[q1 o1] m1] eqn:E1. injection E as <- <- <-.
    destruct (IH _ _ _ _ E1) as [A B C D D' F G T]. constructor; auto.
    + intros i k [Hin|Hin]; [discriminate|auto].
    + intros i [Hin|Hin]; [discriminate|auto].
    + intros. right. eauto.
Qed.

Lemma capi_calls_spec s l : exists q o m,
  capi_calls s l = (with_queue s (cc_queue s ++ q) m, o) /\ posts (cc_shutdown s) (cc_calls s) q o m.
Proof.
  rewrite capi_calls_posted. destruct (posted (cc_shutdown s) (cc_calls s) l) as [[q o] m] eqn:E.
  exists q, o, m. split; [reflexivity|]. apply (posted_posts _ _ _ _ _ _ E).
Qed.

Lemma only_called_sent o : Forall (fun x => exists i k, x = Called i k) o -> sent_ids o = [].
Proof. induction 1 as [|x o (i & k & ->) _ IH]; [reflexivity|exact IH]. Qed.
Lemma only_called_completed o : Forall (fun x => exists i k, x = Called i k) o -> completed_ids o = [].
Proof. induction 1 as [|x o (i & k & ->) _ IH]; [reflexivity|exact IH]. Qed.
Lemma only_called_results o : Forall (fun x => exists i k, x = Called i k) o -> results o = [].
Proof. induction 1 as [|x o (i & k & ->) _ IH]; [reflexivity|exact IH]. Qed.
Lemma only_called_in o x : Forall (fun x => exists i k, x = Called i k) o -> In x o -> exists i k, x = Called i k.
Proof. rewrite Forall_forall. auto. Qed.

(** ** The invariant *)
Definition curid (c : option prequest) : list nat := match c with Some p => [pr_id p] | None => [] end.

Definition live (s : client) : list nat :=
  curid (cc_current s) ++ map pr_id (cc_pending s) ++ qids (cc_queue s).

(** Request [p] is the request of call [pr_id p]. *)
Definition of_call (os : list coutput) (p : prequest) : Prop :=
  exists k, In (Called (pr_id p) k) os /\ im_valid (k_msg k) = true /\
    pr_unit p = k_unit k /\ pr_msg p = k_msg k /\ pr_timeout p = k_timeout k.

(** [acc] are the accepted calls, in order; [tx] is the transaction id of call [i]. *)
Definition tx_of (acc : list nat) (i : nat) (tx : N) : Prop :=
  exists n, nth_error acc n = Some i /\ tx = N.of_nat n mod 65536.

Definition outcome_of (k : call) (r : expected (list N)) : Prop :=
  (im_valid (k_msg k) = false /\ r = Error EMalformedRequest) \/
  (im_valid (k_msg k) = true /\
    ((exists d, r = Value d) \/ r = Error ETimeout \/ exists m, r = Error (EConnection m))).

Definition in_service (s : client) (p : prequest) : Prop :=
  cc_current s = Some p \/ In p (cc_pending s).

Record core (s : client) (os : list coutput) : Prop := {
  co_called : called_ids os = seq 0 (cc_calls s);
  co_live : sorted (live s);
  co_below : forall i, In i (completed_ids os ++ live s) -> (i < cc_calls s)%nat;
  co_once : NoDup (completed_ids os);
  co_gone : forall i, In i (completed_ids os) -> ~ In i (live s);
  co_all : cc_shutdown s = false -> forall i, (i < cc_calls s)%nat -> In i (completed_ids os ++ live s);
  co_sent_sorted : sorted (sent_ids os);
  co_sent_before : forall i j, In i (sent_ids os) -> In j (map pr_id (cc_pending s) ++ qids (cc_queue s)) -> (i < j)%nat;
  co_current : forall p, cc_current s = Some p ->
     In (Sent (pr_id p) (pr_unit p) (pr_tx p) (mbap_build 260 (pr_unit p) (pr_tx p) (pr_msg p))) os;
  co_wire : forall a i u t v b, os = a ++ Sent i u t v :: b ->
     In i (completed_ids b) \/
     (sent_ids b = [] /\ (cc_shutdown s = true \/ exists p, cc_current s = Some p /\ pr_id p = i));
  co_alternate : forall a i u t v b j u' t' v' c, os = a ++ Sent i u t v :: b ++ Sent j u' t' v' :: c ->
     In i (completed_ids b);
  co_order : forall a j u t v b i, os = a ++ Sent j u t v :: b -> (i < j)%nat -> In i (completed_ids a);
  co_service : forall p, in_service s p -> of_call os p;
  co_send : forall i k, In (DoSend i k) (cc_queue s) -> In (Called i k) os /\ im_valid (k_msg k) = true;
  co_reject : forall i, In (DoReject i) (cc_queue s) -> exists k, In (Called i k) os /\ im_valid (k_msg k) = false;
  co_frames : forall i u t v, In (Sent i u t v) os ->
     exists k, In (Called i k) os /\ im_valid (k_msg k) = true /\ u = k_unit k /\ v = mbap_build 260 u t (k_msg k);
  co_results : forall i r, In (Completed i r) os -> exists k, In (Called i k) os /\ outcome_of k r;
  co_timer : forall p, cc_current s = Some p -> exists t, cc_timer s = Some t /\
     In t (cc_armed s ++ cc_expired s) /\ In (Armed (pr_id p) t (pr_timeout p)) os;
  co_armed : forall t, In t (cc_armed s) -> cc_timer s = Some t /\ cc_current s <> None;
  co_timer_ids : forall t, In t (cc_armed s ++ cc_expired s) -> (t < cc_next_timer s)%nat;
  co_armed_ids : forall i t d, In (Armed i t d) os -> (t < cc_next_timer s)%nat;
  co_armed_fun : forall i j t d d', In (Armed i t d) os -> In (Armed j t d') os -> i = j;
  co_tx : exists acc, sorted acc /\
     (forall i j, In i acc -> In j (qids (cc_queue s)) -> (i < j)%nat) /\
     (forall i, In i acc -> (i < cc_calls s)%nat) /\
     cc_next_tx s = N.of_nat (List.length acc) mod 65536 /\
     (forall p, in_service s p -> tx_of acc (pr_id p) (pr_tx p)) /\
     (forall i u t v, In (Sent i u t v) os -> tx_of acc i t) /\
     (forall i j k, In i acc -> (j < i)%nat -> In (Called j k) os -> im_valid (k_msg k) = true -> In j acc) /\
     (forall i, In i acc -> exists k, In (Called i k) os /\ im_valid (k_msg k) = true) /\
     (forall i k, In i (completed_ids os) -> In (Called i k) os -> im_valid (k_msg k) = true -> In i acc);
  co_down : cc_shutdown s = true -> cc_current s = None /\ cc_pending s = []
}.

(** Between events. *)
Definition stable (s : client) : Prop := cc_current s = None -> cc_pending s = [].

Lemma core_init buf : core (client_init buf) [].
Proof.
  constructor; cbn; auto; try discriminate; try (intros; contradiction);
    try (intros; lia); try (constructor; fail).
  - intros a i u t v b E. destruct a; discriminate.
  - intros a i u t v b j u' t' v' c E. destruct a; discriminate.
  - intros a j u t v b i E. destruct a; discriminate.
  - intros p [H|[]]; discriminate.
  - exists []. repeat split; try constructor; try (intros; contradiction).
    intros p [H|[]]; discriminate.
Qed.

(** *** Splitting at a sent frame *)
Lemma split_sent os o a i u t v b :
  os ++ o = a ++ Sent i u t v :: b -> 
  (exists b1, os = a ++ Sent i u t v :: b1 /\ b = b1 ++ o) \/
  (exists a2, a = os ++ a2 /\ o = a2 ++ Sent i u t v :: b).
Proof.
  revert a. induction os as [|x os IH]; intros a E; cbn [app] in E.
  - right. exists a. auto.
  - destruct a as [|y a]; cbn [app] in E.
    + injection E as -> E. left. exists os. auto.
    + injection E as -> E. destruct (IH _ E) as [(b1 & -> & ->)|(a2 & -> & ->)].
      * left. exists b1. auto.
      * right. exists a2. auto.
Qed.

Lemma no_split o a i u t v b : sent_ids o = [] -> o = a ++ Sent i u t v :: b -> False.
Proof.
  intros H ->. rewrite sent_app in H. apply app_eq_nil in H. destruct H as [_ H]. discriminate.
Qed.

Lemma alternate_app os o : sent_ids o = [] ->
  (forall a i u t v b j u' t' v' c, os = a ++ Sent i u t v :: b ++ Sent j u' t' v' :: c -> In i (completed_ids b)) ->
  forall a i u t v b j u' t' v' c, os ++ o = a ++ Sent i u t v :: b ++ Sent j u' t' v' :: c -> In i (completed_ids b).
Proof.
  intros Ho H a i u t v b j u' t' v' c E.
  change (a ++ Sent i u t v :: b ++ Sent j u' t' v' :: c)
    with (a ++ (Sent i u t v :: b) ++ Sent j u' t' v' :: c) in E.
  rewrite app_assoc in E.
  destruct (split_sent _ _ _ _ _ _ _ _ E) as [(b1 & E1 & ->)|(a2 & Ea & E2)].
  - rewrite <- app_assoc in E1. eauto.
  - destruct (no_split _ _ _ _ _ _ _ Ho E2).
Qed.

Lemma order_app os o : sent_ids o = [] ->
  (forall a j u t v b i, os = a ++ Sent j u t v :: b -> (i < j)%nat -> In i (completed_ids a)) ->
  forall a j u t v b i, os ++ o = a ++ Sent j u t v :: b -> (i < j)%nat -> In i (completed_ids a).
Proof.
  intros Ho H a j u t v b i E.
  destruct (split_sent _ _ _ _ _ _ _ _ E) as [(b1 & E1 & ->)|(a2 & Ea & E2)]; [eauto|].
  destruct (no_split _ _ _ _ _ _ _ Ho E2).
Qed.

(** *** Calls *)
Lemma core_post s os q o m :
  core s os -> posts (cc_shutdown s) (cc_calls s) q o m ->
  core (with_queue s (cc_queue s ++ q) m) (os ++ o).
Proof.
  intros C P. destruct C, P.
  assert (Hso := only_called_sent _ ps_only0). assert (Hco := only_called_completed _ ps_only0).
  assert (Hqn : forall i, In i (qids q) -> (cc_calls s <= i < m)%nat).
  { intros i Hi. destruct (cc_shutdown s).
    - rewrite (ps_down0 eq_refl) in Hi. destruct Hi.
    - rewrite (ps_ids0 eq_refl) in Hi. apply in_seq in Hi. lia. }
  assert (Hlive : live (with_queue s (cc_queue s ++ q) m) = live s ++ qids q).
  { unfold live; cbn. rewrite qids_app, !app_assoc. reflexivity. }
  assert (Hcomp : completed_ids (os ++ o) = completed_ids os).
  { rewrite completed_app, Hco. apply app_nil_r. }
  assert (Hsent : sent_ids (os ++ o) = sent_ids os).
  { rewrite sent_app, Hso. apply app_nil_r. }
  assert (Hnew : forall x, In x (os ++ o) -> In x os \/ exists i k, x = Called i k).
  { intros x Hx. apply in_app_or in Hx. destruct Hx as [Hx|Hx]; [auto|right].
    apply (only_called_in _ _ ps_only0 Hx). }
  assert (Hlow : forall i, In i (live s) -> (i < cc_calls s)%nat).
  { intros i Hi. apply co_below0. apply in_or_app. auto. }
  constructor; try rewrite Hcomp; try rewrite Hsent; try rewrite Hlive; cbn [with_queue cc_calls cc_shutdown cc_current cc_pending cc_queue cc_timer cc_armed cc_expired cc_next_timer cc_next_tx].
  - rewrite called_app, co_called0, ps_called0. rewrite <- seq_app. f_equal. lia.
  - apply sorted_app. split; [exact co_live0|]. split.
    + destruct (cc_shutdown s).
      * rewrite (ps_down0 eq_refl). constructor.
      * rewrite (ps_ids0 eq_refl). apply sorted_seq.
    + intros x y Hx Hy. apply Hlow in Hx. apply Hqn in Hy. lia.
  - intros i Hi. rewrite app_assoc in Hi. apply in_app_or in Hi. destruct Hi as [Hi|Hi].
    + apply co_below0 in Hi. lia.
    + apply Hqn in Hi. lia.
  - exact co_once0.
  - intros i Hi Hl. apply in_app_or in Hl. destruct Hl as [Hl|Hl]; [eapply co_gone0; eauto|].
    apply Hqn in Hl. assert ((i < cc_calls s)%nat); [|lia]. apply co_below0. apply in_or_app; auto.
  - intros Hs i Hi. rewrite app_assoc. apply in_or_app.
    destruct (Nat.lt_ge_cases i (cc_calls s)) as [Hc|Hc]; [left; auto|].
    right. rewrite (ps_ids0 Hs). apply in_seq. lia.
  - exact co_sent_sorted0.
  - intros i j Hi Hj. rewrite qids_app, app_assoc in Hj. apply in_app_or in Hj.
    destruct Hj as [Hj|Hj]; [auto|]. apply Hqn in Hj.
    assert ((i < cc_calls s)%nat); [|lia].
    apply in_sent in Hi. destruct Hi as (u & t & v & Hi). destruct (co_frames0 _ _ _ _ Hi) as (k & Hk & _).
    assert (Hx : In i (called_ids os)) by (apply in_called; eauto).
    rewrite co_called0 in Hx. apply in_seq in Hx. lia.
  - intros p Hp. apply in_or_app. left. auto.
  - intros a i u t v b E. destruct (split_sent _ _ _ _ _ _ _ _ E) as [(b1 & E1 & ->)|(a2 & -> & E2)].
    + destruct (co_wire0 _ _ _ _ _ _ E1) as [H|[H H']].
      * left. rewrite completed_app. apply in_or_app. auto.
      * right. split; [|exact H']. rewrite sent_app, H, Hso. reflexivity.
    + destruct (no_split _ _ _ _ _ _ _ Hso E2).
  - exact (alternate_app _ _ Hso co_alternate0).
  - exact (order_app _ _ Hso co_order0).
  - intros p Hp. destruct (co_service0 p Hp) as (k & Hk & Hr). exists k. split; [|exact Hr].
    apply in_or_app; auto.
  - intros i k Hin. apply in_app_or in Hin. destruct Hin as [Hin|Hin].
    + destruct (co_send0 _ _ Hin). split; [apply in_or_app|]; auto.
    + destruct (ps_send0 _ _ Hin). split; [apply in_or_app|]; auto.
  - intros i Hin. apply in_app_or in Hin. destruct Hin as [Hin|Hin].
    + destruct (co_reject0 _ Hin) as (k & ? & ?). exists k. split; [apply in_or_app|]; auto.
    + destruct (ps_reject0 _ Hin) as (k & ? & ?). exists k. split; [apply in_or_app|]; auto.
  - intros i u t v Hin. destruct (Hnew _ Hin) as [Hin'|(? & ? & ?)]; [|discriminate].
    destruct (co_frames0 _ _ _ _ Hin') as (k & Hk & Hr). exists k. split; [apply in_or_app; auto|exact Hr].
  - intros i r Hin. destruct (Hnew _ Hin) as [Hin'|(? & ? & ?)]; [|discriminate].
    destruct (co_results0 _ _ Hin') as (k & Hk & Hr). exists k. split; [apply in_or_app; auto|exact Hr].
  - intros p Hp. destruct (co_timer0 p Hp) as (t & H1 & H2 & H3). exists t. split; [exact H1|].
    split; [exact H2|apply in_or_app; auto].
  - exact co_armed0.
  - exact co_timer_ids0.
  - intros i t d Hin. destruct (Hnew _ Hin) as [Hin'|(? & ? & ?)]; [eauto|discriminate].
  - intros i j t d d' H1 H2. destruct (Hnew _ H1) as [H1'|(? & ? & ?)]; [|discriminate].
    destruct (Hnew _ H2) as [H2'|(? & ? & ?)]; [eauto|discriminate].
  - destruct co_tx0 as (acc & A1 & A2 & A3 & A4 & A5 & A6 & A7 & A8 & A9). exists acc.
    assert (Hc : forall i k, In (Called i k) (os ++ o) -> In (Called i k) os \/ (cc_calls s <= i)%nat).
    { intros i k Hi. apply in_app_or in Hi. destruct Hi as [Hi|Hi]; [auto|right].
      assert (Hx : In i (called_ids o)) by (apply in_called; eauto). rewrite ps_called0 in Hx.
      apply in_seq in Hx. lia. }
    split; [exact A1|]. split; [|split; [|split; [exact A4|split; [exact A5|split; [|split; [|split]]]]]].
    + intros i j Hi Hj. rewrite qids_app in Hj. apply in_app_or in Hj.
      destruct Hj as [Hj|Hj]; [auto|]. apply Hqn in Hj. apply A3 in Hi. lia.
    + intros i Hi. apply A3 in Hi. lia.
    + intros i u t v Hin. destruct (Hnew _ Hin) as [Hin'|(? & ? & ?)]; [eauto|discriminate].
    + intros i j k Hi Hj Hin Hv. destruct (Hc _ _ Hin) as [Hin'|Hge]; [eauto|]. apply A3 in Hi. lia.
    + intros i Hi. destruct (A8 i Hi) as (k & Hk & Hv). exists k. split; [apply in_or_app|]; auto.
    + intros i k Hi Hin Hv. destruct (Hc _ _ Hin) as [Hin'|Hge]; [eauto|].
      assert ((i < cc_calls s)%nat); [|lia]. apply co_below0. apply in_or_app; auto.
  - exact co_down0.
Qed.

Lemma called_fun os i k k' : NoDup (called_ids os) -> In (Called i k) os -> In (Called i k') os -> k = k'.
Proof.
  induction os as [|o os IH]; intros Hn H H'; [destruct H|].
  destruct H as [->|H], H' as [H'|H'].
  - congruence.
  - cbn [called_ids flat_map app] in Hn. apply NoDup_cons_iff in Hn. destruct Hn as [Hn _].
    exfalso. apply Hn. apply in_called. eauto.
  - subst o. cbn [called_ids flat_map app] in Hn. apply NoDup_cons_iff in Hn. destruct Hn as [Hn _].
    exfalso. apply Hn. apply in_called. eauto.
  - apply IH; auto. destruct o; cbn [called_ids flat_map app] in Hn; try exact Hn.
    apply NoDup_cons_iff in Hn. tauto.
Qed.

(** *** A request is completed *)
Lemma core_complete s s' os i r k :
  core s os ->
  cc_calls s' = cc_calls s -> cc_shutdown s' = cc_shutdown s -> cc_next_tx s' = cc_next_tx s ->
  cc_next_timer s' = cc_next_timer s ->
  (forall j, In j (live s) <-> j = i \/ In j (live s')) -> sorted (live s') -> ~ In i (live s') ->
  incl (map pr_id (cc_pending s') ++ qids (cc_queue s')) (map pr_id (cc_pending s) ++ qids (cc_queue s)) ->
  incl (qids (cc_queue s')) (qids (cc_queue s)) -> incl (cc_queue s') (cc_queue s) ->
  (cc_current s' = cc_current s \/
   cc_current s' = None /\ exists p, cc_current s = Some p /\ pr_id p = i) ->
  (forall p, in_service s' p -> in_service s p) ->
  In (Called i k) os -> outcome_of k r ->
  (im_valid (k_msg k) = true -> exists p, in_service s p /\ pr_id p = i) ->
  (cc_current s' <> None -> cc_timer s' = cc_timer s /\ cc_armed s' = cc_armed s /\ cc_expired s' = cc_expired s) ->
  (cc_current s' = None -> cc_current s <> None -> cc_armed s' = []) ->
  incl (cc_armed s' ++ cc_expired s') (cc_armed s ++ cc_expired s) ->
  incl (cc_armed s') (cc_armed s) ->
  (cc_shutdown s' = true -> cc_current s' = None /\ cc_pending s' = []) ->
  core s' (os ++ [Completed i r]).
Proof.
  intros C Ecalls Esh Etx Ent Hlive Hsorted Hni Hincl Hq1 Hq2 Hcur Hsv Hk Hr Hval Ht1 Ht2 Ht3 Ht4 Hdown.
  destruct C.
  assert (Hcomp : completed_ids (os ++ [Completed i r]) = completed_ids os ++ [i]) by apply completed_app.
  assert (Hsent : sent_ids (os ++ [Completed i r]) = sent_ids os).
  { rewrite sent_app. apply app_nil_r. }
  assert (Hnew : forall x, In x (os ++ [Completed i r]) -> In x os \/ x = Completed i r).
  { intros x Hx. apply in_app_or in Hx. cbn in Hx. intuition. }
  assert (Hil : In i (live s)) by (apply Hlive; auto).
  constructor; try rewrite Hcomp; try rewrite Hsent; try rewrite Ecalls.
  - rewrite called_app. cbn. rewrite app_nil_r. exact co_called0.
  - exact Hsorted.
  - intros j Hj. apply co_below0. rewrite !in_app_iff in *. cbn in Hj.
    destruct Hj as [[Hj|[<-|[]]]|Hj]; auto. right. apply Hlive. auto.
  - apply NoDup_rev in co_once0. rewrite <- (rev_involutive (completed_ids os ++ [i])).
    apply NoDup_rev. rewrite rev_app_distr. cbn [rev app].
    constructor; [|exact co_once0]. rewrite <- in_rev. intros Hin. eapply co_gone0; eauto.
  - intros j Hj Hl. apply in_app_or in Hj. destruct Hj as [Hj|[<-|[]]].
    + eapply co_gone0; eauto. apply Hlive. auto.
    + auto.
  - intros Hs j Hj. rewrite Esh in Hs. specialize (co_all0 Hs j Hj). rewrite !in_app_iff in *. cbn.
    destruct co_all0 as [H|H]; [auto|]. apply Hlive in H. destruct H as [->|H]; auto.
  - exact co_sent_sorted0.
  - intros a b Ha Hb. apply co_sent_before0; auto.
  - intros p Hp. apply in_or_app. left. destruct Hcur as [Hcur|[Hcur _]]; rewrite Hcur in Hp; [auto|discriminate].
  - intros a j u t v b E. destruct (split_sent _ _ _ _ _ _ _ _ E) as [(b1 & E1 & ->)|(a2 & -> & E2)].
    + destruct (co_wire0 _ _ _ _ _ _ E1) as [H|[H H']].
      * left. rewrite completed_app. apply in_or_app. auto.
      * rewrite Esh. destruct H' as [H'|(p & Hp & Hpi)].
        { right. split; [|auto]. rewrite sent_app, H. reflexivity. }
        destruct Hcur as [Hcur|(Hcur & p' & Hp' & Hpi')].
        { right. split; [rewrite sent_app, H; reflexivity|]. right. exists p. rewrite Hcur. auto. }
        left. rewrite completed_app. apply in_or_app. right. cbn. left. congruence.
    + exfalso. destruct a2 as [|x [|y a2]]; cbn in E2; discriminate.
  - exact (alternate_app os [Completed i r] eq_refl co_alternate0).
  - exact (order_app os [Completed i r] eq_refl co_order0).
  - intros p Hp. destruct (co_service0 p (Hsv p Hp)) as (k' & Hk' & Hr'). exists k'.
    split; [apply in_or_app; auto|exact Hr'].
  - intros j k' Hin. destruct (co_send0 j k' (Hq2 _ Hin)). split; [apply in_or_app|]; auto.
  - intros j Hin. destruct (co_reject0 j (Hq2 _ Hin)) as (k' & ? & ?). exists k'. split; [apply in_or_app|]; auto.
  - intros j u t v Hin. destruct (Hnew _ Hin) as [Hin'|]; [|discriminate].
    destruct (co_frames0 _ _ _ _ Hin') as (k' & Hk' & Hr'). exists k'. split; [apply in_or_app; auto|exact Hr'].
  - intros j r' Hin. destruct (Hnew _ Hin) as [Hin'|E].
    + destruct (co_results0 _ _ Hin') as (k' & Hk' & Hr'). exists k'. split; [apply in_or_app; auto|exact Hr'].
    + injection E as -> ->. exists k. split; [apply in_or_app; auto|exact Hr].
  - intros p Hp. destruct Hcur as [Hcur|[Hcur _]]; [|congruence].
    destruct Ht1 as (T1 & T2 & T3); [congruence|]. rewrite T1, T2, T3.
    rewrite Hcur in Hp. destruct (co_timer0 p Hp) as (t & H1 & H2 & H3). exists t.
    split; [exact H1|]. split; [exact H2|]. apply in_or_app; auto.
  - intros t Hin. assert (Hin0 := Ht4 _ Hin). destruct (co_armed0 _ Hin0) as [A B].
    destruct (cc_current s') as [p|] eqn:Ec.
    + destruct Ht1 as (T1 & T2 & T3); [discriminate|]. split; [congruence|discriminate].
    + rewrite (Ht2 eq_refl B) in Hin. destruct Hin.
  - rewrite Ent. intros t Hin. apply co_timer_ids0. auto.
  - rewrite Ent. intros j t d Hin. destruct (Hnew _ Hin) as [Hin'|]; [eauto|discriminate].
  - intros j j' t d d' H1 H2. destruct (Hnew _ H1) as [H1'|]; [|discriminate].
    destruct (Hnew _ H2) as [H2'|]; [eauto|discriminate].
  - destruct co_tx0 as (acc & A1 & A2 & A3 & A4 & A5 & A6 & A7 & A8 & A9). exists acc.
    assert (Hc : forall j k', In (Called j k') (os ++ [Completed i r]) -> In (Called j k') os).
    { intros j k' Hin. destruct (Hnew _ Hin); [assumption|discriminate]. }
    split; [exact A1|]. split; [|split; [|split; [|split; [|split; [|split; [|split]]]]]].
    + intros a b Ha Hb. apply A2; auto.
    + exact A3.
    + rewrite Etx. exact A4.
    + intros p Hp. apply A5. auto.
    + intros j u t v Hin. destruct (Hnew _ Hin) as [Hin'|]; [eauto|discriminate].
    + intros a b k' Ha Hb Hin Hv. eauto.
    + intros j Hj. destruct (A8 j Hj) as (k' & Hk' & Hv). exists k'. split; [apply in_or_app|]; auto.
    + intros j k' Hj Hin Hv. apply Hc in Hin. apply in_app_or in Hj.
      destruct Hj as [Hj|[<-|[]]]; [eauto|].
      assert (k' = k) as -> by (apply (called_fun os i); [rewrite co_called0; apply seq_NoDup|assumption|assumption]).
      destruct (Hval Hv) as (p & Hp & <-). destruct (A5 p Hp) as (n & Hn & _). apply (nth_error_In _ _ Hn).
  - exact Hdown.
Qed.

(** *** Changes of the state that are not observed *)
Lemma core_parser s os p : core s os -> core (with_parser s p) os.
Proof. intros []. constructor; auto. Qed.

Lemma in_filter_neq x t l : In x (filter (fun y => negb (Nat.eqb y t)) l) <-> In x l /\ x <> t.
Proof.
  rewrite filter_In, Bool.negb_true_iff, Nat.eqb_neq. reflexivity.
Qed.

Lemma core_expire s os t : core s os -> In t (cc_armed s) ->
  core (with_timers s (cc_timer s) (filter (fun x => negb (Nat.eqb x t)) (cc_armed s))
          (cc_expired s ++ [t]) (cc_next_timer s)) os.
Proof.
  intros C Hin. destruct C.
  constructor; auto; cbn [with_timers cc_calls cc_shutdown cc_current cc_pending cc_queue cc_timer cc_armed cc_expired cc_next_timer cc_next_tx].
  - intros p Hp. destruct (co_timer0 p Hp) as (t' & H1 & H2 & H3). exists t'.
    split; [exact H1|]. split; [|exact H3]. rewrite !in_app_iff in *. rewrite in_filter_neq.
    cbn. destruct (Nat.eq_dec t' t) as [->|Hne]; [auto|]. destruct H2; auto.
  - intros t' Hin'. apply in_filter_neq in Hin'. apply co_armed0. tauto.
  - intros t' Hin'. rewrite !in_app_iff, in_filter_neq in Hin'. cbn in Hin'. apply co_timer_ids0.
    rewrite in_app_iff. destruct Hin' as [[H _]|[H|[<-|[]]]]; auto.
Qed.

(** Forgetting expired timers is harmless when nothing is outstanding. *)
Lemma core_drop_expired s os l : core s os -> cc_current s = None -> incl l (cc_expired s) ->
  core (with_timers s (cc_timer s) (cc_armed s) l (cc_next_timer s)) os.
Proof.
  intros C Hc Hl. destruct C.
  constructor; auto; cbn [with_timers cc_calls cc_shutdown cc_current cc_pending cc_queue cc_timer cc_armed cc_expired cc_next_timer cc_next_tx].
  - rewrite Hc. discriminate.
  - intros t Hin. apply co_timer_ids0. rewrite in_app_iff in *. destruct Hin; auto.
Qed.

(** *** The outstanding request is completed *)
Lemma armed_cancelled s os : core s os -> cc_armed (cancel_timer s) = [].
Proof.
  intros C. unfold cancel_timer; cbn [with_timers cc_armed].
  destruct (cc_timer s) as [t0|] eqn:Et.
  - destruct (filter (fun x => negb (Nat.eqb x t0)) (cc_armed s)) as [|t l] eqn:E; [reflexivity|].
    assert (Hin : In t (filter (fun x => negb (Nat.eqb x t0)) (cc_armed s))) by (rewrite E; cbn; auto).
    apply in_filter_neq in Hin. destruct Hin as [Hin Hne].
    destruct (co_armed _ _ C _ Hin). congruence.
  - destruct (cc_armed s) as [|t1 l1] eqn:Ea; [reflexivity|].
    destruct (co_armed _ _ C t1) as [H _]; [rewrite Ea; cbn; auto|congruence].
Qed.

Lemma core_finish s os p r l :
  core s os -> cc_current s = Some p -> incl l (cc_expired s) ->
  (exists d, r = Value d) \/ r = Error ETimeout \/ (exists m, r = Error (EConnection m)) ->
  core (with_timers (with_current s None) None [] l (cc_next_timer s)) (os ++ [Completed (pr_id p) r]).
Proof.
  intros C Hp Hl Hr. destruct (co_service _ _ C p (or_introl Hp)) as (k & Hk & Hv & _).
  assert (Hlv : live s = pr_id p :: map pr_id (cc_pending s) ++ qids (cc_queue s)).
  { unfold live. rewrite Hp. reflexivity. }
  assert (Hs := co_live _ _ C). rewrite Hlv in Hs.
  apply (sorted_app [pr_id p]) in Hs. destruct Hs as (_ & Hs & Hlt).
  assert (Hsh : cc_shutdown s = false).
  { destruct (cc_shutdown s) eqn:E; [|reflexivity]. destruct (co_down _ _ C E). congruence. }
  apply (core_complete s _ os (pr_id p) r k); try assumption; try reflexivity; cbn.
  - intros j. rewrite Hlv. cbn. unfold live; cbn. intuition.
  - unfold live; cbn. intros Hin. specialize (Hlt (pr_id p) (pr_id p) (or_introl eq_refl) Hin). lia.
  - apply incl_refl.
  - apply incl_refl.
  - apply incl_refl.
  - right. split; [reflexivity|]. exists p. auto.
  - intros q [Hq|Hq]; [discriminate|right; exact Hq].
  - right. auto.
  - intros _. exists p. split; [left; exact Hp|reflexivity].
  - intros H; destruct (H eq_refl).
  - intros t Ht. apply in_or_app. auto.
  - intros t [].
  - rewrite Hsh. discriminate.
Qed.

(** *** A queued request is failed *)
Lemma core_fail_pending s os p ps m :
  core s os -> cc_pending s = p :: ps ->
  core (with_pending s ps) (os ++ [Completed (pr_id p) (Error (EConnection m))]).
Proof.
  intros C Hp. destruct (co_service _ _ C p) as (k & Hk & Hv & _).
  { right. rewrite Hp. cbn; auto. }
  assert (Hlv : live s = curid (cc_current s) ++ pr_id p :: map pr_id ps ++ qids (cc_queue s)).
  { unfold live. rewrite Hp. reflexivity. }
  assert (Hlv' : live (with_pending s ps) = curid (cc_current s) ++ map pr_id ps ++ qids (cc_queue s)) by reflexivity.
  assert (Hs := co_live _ _ C). rewrite Hlv in Hs.
  apply sorted_app in Hs. destruct Hs as (S1 & S2 & S3).
  apply (sorted_app [pr_id p]) in S2. destruct S2 as (_ & S2 & S4).
  assert (Hsh : cc_shutdown s = false).
  { destruct (cc_shutdown s) eqn:E; [|reflexivity]. destruct (co_down _ _ C E). congruence. }
  apply (core_complete s _ os (pr_id p) _ k); try assumption; try reflexivity; try (cbn; apply incl_refl).
  - intros j. rewrite Hlv, Hlv'. rewrite !in_app_iff. cbn. rewrite !in_app_iff. intuition.
  - rewrite Hlv'. apply sorted_app. split; [exact S1|]. split; [exact S2|].
    intros x y Hx Hy. apply S3; [exact Hx|]. right. exact Hy.
  - rewrite Hlv'. rewrite in_app_iff. intros [H|H].
    + specialize (S3 (pr_id p) (pr_id p) H (or_introl eq_refl)). lia.
    + specialize (S4 (pr_id p) (pr_id p) (or_introl eq_refl) H). lia.
  - cbn. rewrite Hp. intros x Hx. cbn. auto.
  - left. reflexivity.
  - intros q [Hq|Hq]; [left; exact Hq|right; rewrite Hp; right; exact Hq].
  - right. split; [exact Hv|]. right. right. eauto.
  - intros _. exists p. split; [right; rewrite Hp; cbn; auto|reflexivity].
  - intros _. auto.
  - cbn. intros H1 H2. destruct (H2 H1).
  - cbn. rewrite Hsh. discriminate.
Qed.

(** *** An invalid request is rejected *)
Lemma core_do_reject s os i q :
  core s os -> cc_queue s = DoReject i :: q ->
  core (with_queue s q (cc_calls s)) (os ++ [Completed i (Error EMalformedRequest)]).
Proof.
  intros C Hq. destruct (co_reject _ _ C i) as (k & Hk & Hv).
  { rewrite Hq. cbn; auto. }
  assert (Hlv : live s = (curid (cc_current s) ++ map pr_id (cc_pending s)) ++ i :: qids q).
  { unfold live. rewrite Hq, <- app_assoc. reflexivity. }
  assert (Hlv' : live (with_queue s q (cc_calls s)) = (curid (cc_current s) ++ map pr_id (cc_pending s)) ++ qids q)
    by (unfold live; cbn; rewrite <- app_assoc; reflexivity).
  assert (Hs := co_live _ _ C). rewrite Hlv in Hs.
  apply sorted_app in Hs. destruct Hs as (S1 & S2 & S3).
  apply (sorted_app [i]) in S2. destruct S2 as (_ & S2 & S4).
  apply (core_complete s _ os i _ k); try assumption; try reflexivity; try (cbn; apply incl_refl).
  - intros j. rewrite Hlv, Hlv'. rewrite !(in_app_iff (_ ++ _)). cbn. intuition.
  - rewrite Hlv'. apply sorted_app. split; [exact S1|]. split; [exact S2|].
    intros x y Hx Hy. apply S3; [exact Hx|]. right. exact Hy.
  - rewrite Hlv'. rewrite in_app_iff. intros [H|H].
    + specialize (S3 i i H (or_introl eq_refl)). lia.
    + specialize (S4 i i (or_introl eq_refl) H). lia.
  - cbn. rewrite Hq. intros x Hx. apply in_app_or in Hx. apply in_or_app.
    destruct Hx; [auto|right; cbn; auto].
  - cbn. rewrite Hq. intros x Hx. cbn; auto.
  - cbn. rewrite Hq. intros x Hx. cbn; auto.
  - left. reflexivity.
  - intros p Hp. exact Hp.
  - left. auto.
  - congruence.
  - intros _. auto.
  - cbn. intros H1 H2. destruct (H2 H1).
  - cbn. exact (co_down _ _ C).
Qed.

(** *** Taking a closure from the queue *)
Ltac proj := cbn [with_queue with_parser with_pending with_current with_next_tx with_timers with_shutdown
  cancel_timer cc_calls cc_shutdown cc_parser cc_current cc_pending cc_queue cc_timer cc_armed cc_expired
  cc_next_timer cc_next_tx] in *.

Lemma core_accept s os i k q :
  core s os -> cc_shutdown s = false -> cc_queue s = DoSend i k :: q ->
  core (with_next_tx
          (with_pending (with_queue s q (cc_calls s))
             (cc_pending s ++ [{| pr_id := i; pr_unit := k_unit k; pr_tx := cc_next_tx s;
                                  pr_msg := k_msg k; pr_timeout := k_timeout k |}]))
          (to_u16 (cc_next_tx s + 1))) os.
Proof.
  intros C Hsh Hq. set (p := {| pr_id := i; pr_unit := k_unit k; pr_tx := cc_next_tx s;
                                  pr_msg := k_msg k; pr_timeout := k_timeout k |}).
  set (s' := with_next_tx _ _).
  assert (Hids : map pr_id (cc_pending s') ++ qids (cc_queue s') = map pr_id (cc_pending s) ++ qids (cc_queue s)).
  { subst s'. proj. rewrite Hq, map_app, <- app_assoc. reflexivity. }
  assert (Hlv : live s' = live s) by (unfold live; rewrite Hids; reflexivity).
  destruct C.
  assert (Hcall : In (Called i k) os /\ im_valid (k_msg k) = true) by (apply co_send0; rewrite Hq; cbn; auto).
  assert (Hsv : forall x, in_service s' x -> in_service s x \/ x = p).
  { intros x [Hx|Hx]; [left; left; exact Hx|]. subst s'. proj. apply in_app_or in Hx. cbn in Hx.
    destruct Hx as [Hx|[<-|[]]]; [left; right; exact Hx|auto]. }
  constructor; try rewrite Hlv; try rewrite Hids; try (subst s'; proj; assumption).
  - intros x Hx. destruct (Hsv x Hx) as [Hx'| ->]; [auto|]. exists k. cbn. destruct Hcall. auto.
  - subst s'. proj. intros j k' Hin. apply co_send0. rewrite Hq. cbn; auto.
  - subst s'. proj. intros j Hin. apply co_reject0. rewrite Hq. cbn; auto.
  - destruct co_tx0 as (acc & A1 & A2 & A3 & A4 & A5 & A6 & A7 & A8 & A9). exists (acc ++ [i]).
    assert (Hi : (i < cc_calls s)%nat).
    { apply co_below0. apply in_or_app. right. unfold live. rewrite Hq. rewrite !in_app_iff. cbn. auto. }
    assert (Hext : forall j t, tx_of acc j t -> tx_of (acc ++ [i]) j t).
    { intros j t (n & Hn & Ht). exists n. split; [|exact Ht]. rewrite nth_error_app1; [exact Hn|].
      apply nth_error_Some. congruence. }
    assert (Hinacc : forall x, in_service s x -> In (pr_id x) acc).
    { intros x Hx. destruct (A5 x Hx) as (n & Hn & _). apply (nth_error_In _ _ Hn). }
    assert (Hpre : forall j k', (j < i)%nat -> In (Called j k') os -> im_valid (k_msg k') = true -> In j acc).
    { intros j k' Hj Hk' Hv'. assert (Hjc : (j < cc_calls s)%nat) by lia.
      specialize (co_all0 Hsh j Hjc). apply in_app_or in co_all0. destruct co_all0 as [H|H]; [eauto|].
      unfold live in H. rewrite !in_app_iff in H. destruct H as [H|[H|H]].
      - destruct (cc_current s) as [c|] eqn:Hcur; [|destruct H]. destruct H as [<-|[]].
        apply Hinacc. left. exact Hcur.
      - apply in_map_iff in H. destruct H as (x & <- & Hx). apply Hinacc. right. exact Hx.
      - exfalso. unfold live in co_live0. rewrite Hq in co_live0, H.
        apply sorted_app in co_live0. destruct co_live0 as (_ & L & _).
        apply sorted_app in L. destruct L as (_ & L & _). cbn [qids flat_map qid app] in L, H.
        apply (sorted_app [i]) in L. destruct L as (_ & _ & L). destruct H as [H|H]; [lia|].
        specialize (L i j (or_introl eq_refl) H). lia. }
    split; [|split; [|split; [|split; [|split; [|split; [|split; [|split]]]]]]].
    + apply sorted_app. split; [exact A1|]. split; [apply sorted_one|].
      intros x y Hx [<-|[]]. apply A2; [exact Hx|]. rewrite Hq. cbn; auto.
    + subst s'. proj. intros x y Hx Hy. apply in_app_or in Hx. destruct Hx as [Hx|[<-|[]]].
      * apply A2; [exact Hx|]. rewrite Hq. cbn; auto.
      * unfold live in co_live0. rewrite Hq in co_live0. cbn [qids flat_map qid app] in co_live0.
        apply sorted_app in co_live0. destruct co_live0 as (_ & L & _).
        apply sorted_app in L. destruct L as (_ & L & _).
        apply (sorted_app [i]) in L. destruct L as (_ & _ & L). apply L; cbn; auto.
    + intros x Hx. subst s'. proj. apply in_app_or in Hx. destruct Hx as [Hx|[<-|[]]]; auto.
    + subst s'. proj. rewrite app_length. cbn [List.length]. unfold to_u16. rewrite A4.
      rewrite Nat.add_1_r, Nat2N.inj_succ, <- N.add_1_r.
      rewrite N.add_mod_idemp_l by lia. reflexivity.
    + intros x Hx. destruct (Hsv x Hx) as [Hx'| ->]; [auto|].
      exists (List.length acc). split; [|exact A4]. rewrite nth_error_app2 by lia.
      rewrite Nat.sub_diag. reflexivity.
    + intros j u t v Hin. eauto.
    + intros a b k' Ha Hb Hk' Hv'. apply in_or_app. left. apply in_app_or in Ha.
      destruct Ha as [Ha|[<-|[]]]; eauto.
    + intros a Ha. apply in_app_or in Ha. destruct Ha as [Ha|[<-|[]]]; eauto.
    + intros a k' Ha Hk' Hv'. apply in_or_app. left. eauto.
  - subst s'. proj. intros Hd. congruence.
Qed.

(** Closures that do nothing any more. *)
Lemma core_skip s os t q :
  core s os -> cc_queue s = t :: q -> cc_shutdown s = true \/ t = DoShutdown ->
  core (with_queue s q (cc_calls s)) os.
Proof.
  intros C Hq Ht. destruct C.
  assert (Hlv : live s = (curid (cc_current s) ++ map pr_id (cc_pending s)) ++ qid t ++ qids q).
  { unfold live. rewrite Hq, <- app_assoc. reflexivity. }
  assert (Hlv' : live (with_queue s q (cc_calls s)) = (curid (cc_current s) ++ map pr_id (cc_pending s)) ++ qids q)
    by (unfold live; proj; rewrite <- app_assoc; reflexivity).
  assert (Hincl : incl (live (with_queue s q (cc_calls s))) (live s)).
  { intros x Hx. rewrite Hlv. rewrite Hlv' in Hx. rewrite !in_app_iff in *. tauto. }
  assert (Hqi : incl (qids q) (qids (cc_queue s))).
  { intros x Hx. rewrite Hq. cbn [qids flat_map]. apply in_or_app. auto. }
  constructor; auto; proj.
  - rewrite Hlv'. rewrite Hlv in co_live0. apply sorted_app in co_live0. destruct co_live0 as (A & B & D).
    apply sorted_app in B. destruct B as (_ & B & _). apply sorted_app. split; [exact A|]. split; [exact B|].
    intros x y Hx Hy. apply D; [exact Hx|]. apply in_or_app; auto.
  - intros j Hj. apply co_below0. rewrite in_app_iff in *. destruct Hj; auto.
  - intros j Hj Hl. eapply co_gone0; eauto.
  - intros Hs j Hj. destruct Ht as [Ht| ->]; [congruence|]. specialize (co_all0 Hs j Hj).
    rewrite Hlv in co_all0. rewrite Hlv'. exact co_all0.
  - intros a b Ha Hb. apply co_sent_before0; [exact Ha|]. rewrite in_app_iff in *. destruct Hb; auto.
  - intros j k' Hin. apply co_send0. rewrite Hq. cbn; auto.
  - intros j Hin. apply co_reject0. rewrite Hq. cbn; auto.
  - destruct co_tx0 as (acc & A1 & A2 & A3 & A4 & A5 & A6 & A7 & A8 & A9). exists acc.
    split; [exact A1|]. split; [|split; [exact A3|split; [exact A4|split; [|split; [exact A6|auto]]]]].
    + intros a b Ha Hb. apply A2; auto.
    + intros p Hp. apply A5. exact Hp.
Qed.

(** *** Shutdown *)
Lemma core_stop s os :
  core s os ->
  core (cancel_timer (with_current (with_pending (with_shutdown s) []) None)) (os ++ [TcpShutdown]).
Proof.
  intros C. set (s' := cancel_timer _).
  assert (Harm : cc_armed s' = []).
  { change (cc_armed (cancel_timer s) = []). apply (armed_cancelled _ _ C). }
  assert (Hlv : live s' = qids (cc_queue s)) by reflexivity.
  assert (Hcomp : completed_ids (os ++ [TcpShutdown]) = completed_ids os).
  { rewrite completed_app. apply app_nil_r. }
  assert (Hsent : sent_ids (os ++ [TcpShutdown]) = sent_ids os).
  { rewrite sent_app. apply app_nil_r. }
  assert (Hnew : forall x, x <> TcpShutdown -> In x (os ++ [TcpShutdown]) -> In x os).
  { intros x Hne Hx. apply in_app_or in Hx. cbn in Hx. intuition congruence. }
  assert (Hincl : incl (qids (cc_queue s)) (live s)).
  { intros x Hx. unfold live. rewrite !in_app_iff. auto. }
  assert (Hns : forall p, ~ in_service s' p) by (intros p [H|[]]; discriminate).
  destruct C.
  constructor; try rewrite Hcomp; try rewrite Hsent; try rewrite Hlv.
  - rewrite called_app. cbn [called_ids flat_map]. rewrite app_nil_r. exact co_called0.
  - unfold live in co_live0. apply sorted_app in co_live0. destruct co_live0 as (_ & L & _).
    apply sorted_app in L. tauto.
  - intros j Hj. apply co_below0. rewrite in_app_iff in *. destruct Hj; auto.
  - exact co_once0.
  - intros j Hj Hl. eapply co_gone0; eauto.
  - discriminate.
  - exact co_sent_sorted0.
  - intros a b Ha Hb. apply co_sent_before0; [exact Ha|]. cbn in Hb. apply in_or_app; auto.
  - discriminate.
  - intros a j u t v b E. destruct (split_sent _ _ _ _ _ _ _ _ E) as [(b1 & E1 & ->)|(a2 & -> & E2)].
    + destruct (co_wire0 _ _ _ _ _ _ E1) as [H|[H H']].
      * left. rewrite completed_app. apply in_or_app. auto.
      * right. split; [rewrite sent_app, H; reflexivity|]. left. reflexivity.
    + destruct (no_split [TcpShutdown] _ _ _ _ _ _ eq_refl E2).
  - exact (alternate_app os [TcpShutdown] eq_refl co_alternate0).
  - exact (order_app os [TcpShutdown] eq_refl co_order0).
  - intros p Hp. destruct (Hns p Hp).
  - intros j k' Hin. destruct (co_send0 _ _ Hin). split; [apply in_or_app|]; auto.
  - intros j Hin. destruct (co_reject0 _ Hin) as (k' & ? & ?). exists k'. split; [apply in_or_app|]; auto.
  - intros j u t v Hin. apply Hnew in Hin; [|discriminate].
    destruct (co_frames0 _ _ _ _ Hin) as (k' & Hk' & Hr'). exists k'. split; [apply in_or_app; auto|exact Hr'].
  - intros j r' Hin. apply Hnew in Hin; [|discriminate].
    destruct (co_results0 _ _ Hin) as (k' & Hk' & Hr'). exists k'. split; [apply in_or_app; auto|exact Hr'].
  - discriminate.
  - rewrite Harm. intros t [].
  - rewrite Harm. cbn. intros t Ht. apply co_timer_ids0. apply in_or_app; auto.
  - intros j t d Hin. apply Hnew in Hin; [|discriminate]. subst s'; proj. eauto.
  - intros j j' t d d' H1 H2. apply Hnew in H1; [|discriminate]. apply Hnew in H2; [|discriminate]. eauto.
  - destruct co_tx0 as (acc & A1 & A2 & A3 & A4 & A5 & A6 & A7 & A8 & A9). exists acc.
    split; [exact A1|]. split; [exact A2|]. split; [exact A3|]. split; [exact A4|]. split.
    + intros p Hp. destruct (Hns p Hp).
    + split; [|split; [|split]].
      * intros j u t v Hin. apply Hnew in Hin; [eauto|discriminate].
      * intros a b k' Ha Hb Hk'. apply Hnew in Hk'; [eauto|discriminate].
      * intros a Ha. destruct (A8 a Ha) as (k' & Hk' & Hv). exists k'. split; [apply in_or_app|]; auto.
      * intros a k' Ha Hk'. apply Hnew in Hk'; [eauto|discriminate].
  - auto.
Qed.

(** *** Sending the next request *)
Lemma core_check s os s' o :
  core s os -> check_pending_requests s = (s', o) ->
  core s' (os ++ o) /\ stable s' /\ cc_queue s' = cc_queue s /\ cc_calls s' = cc_calls s /\
  cc_shutdown s' = cc_shutdown s /\ cc_expired s' = cc_expired s /\ completed_ids o = [] /\ called_ids o = [].
Proof.
  intros C E. unfold check_pending_requests in E.
  destruct (cc_shutdown s) eqn:Hsh.
  { injection E as <- <-. rewrite app_nil_r. repeat (split; [auto|]); auto.
    intros _. apply (co_down _ _ C Hsh). }
  destruct (cc_current s) as [c|] eqn:Hc.
  { injection E as <- <-. rewrite app_nil_r. repeat (split; [auto|]); auto. intros H. congruence. }
  destruct (cc_pending s) as [|p ps] eqn:Hp.
  { injection E as <- <-. rewrite app_nil_r. repeat (split; [auto|]); auto. intros H. exact Hp. }
  injection E as E1 E2.
  assert (Hcomp : completed_ids (os ++ o) = completed_ids os).
  { subst o. rewrite completed_app. apply app_nil_r. }
  assert (Hsent : sent_ids (os ++ o) = sent_ids os ++ [pr_id p]).
  { subst o. rewrite sent_app. reflexivity. }
  assert (Hlv : live s' = live s) by (subst s'; unfold live; proj; rewrite Hc, Hp; reflexivity).
  assert (Harm : cc_armed s = []).
  { destruct (cc_armed s) as [|t l] eqn:Ea; [reflexivity|].
    destruct (co_armed _ _ C t); [rewrite Ea; cbn; auto|congruence]. }
  assert (Hsv : forall x, in_service s' x <-> in_service s x).
  { intros x. unfold in_service. subst s'. proj. rewrite Hc, Hp. cbn. intuition congruence. }
  assert (Hold : forall x, In x (os ++ o) -> In x os \/ In x o) by (intros; apply in_app_or; auto).
  assert (Hl := co_live _ _ C). unfold live in Hl. rewrite Hc, Hp in Hl. cbn [curid app map] in Hl.
  apply (sorted_app [pr_id p]) in Hl. destruct Hl as (_ & Hl1 & Hl2).
  split; [|subst s' o; proj; repeat (split; [auto|]); auto; intros H; discriminate].
  destruct C.
  constructor; try rewrite Hcomp; try rewrite Hsent; try rewrite Hlv.
  - subst s' o. rewrite called_app. cbn [called_ids flat_map app]. rewrite app_nil_r. exact co_called0.
  - exact co_live0.
  - subst s'. exact co_below0.
  - exact co_once0.
  - exact co_gone0.
  - subst s'. exact co_all0.
  - apply sorted_app. split; [exact co_sent_sorted0|]. split; [apply sorted_one|].
    intros x y Hx [<-|[]]. apply co_sent_before0; [exact Hx|]. rewrite Hp. cbn; auto.
  - intros a b Ha Hb. subst s'. proj. apply in_app_or in Ha. destruct Ha as [Ha|[<-|[]]].
    + apply co_sent_before0; [exact Ha|]. rewrite Hp. cbn. auto.
    + apply Hl2; [cbn; auto|exact Hb].
  - intros x Hx. subst s'. proj. injection Hx as <-. apply in_or_app. right. subst o. cbn; auto.
  - intros a j u t v b E. destruct (split_sent _ _ _ _ _ _ _ _ E) as [(b1 & E1' & ->)|(a2 & -> & E2')].
    + destruct (co_wire0 _ _ _ _ _ _ E1') as [H|[H [H'|(x & Hx & _)]]]; try congruence.
      left. rewrite completed_app. apply in_or_app. auto.
    + right. subst o. destruct a2 as [|x [|y [|z a2]]]; cbn in E2'; try discriminate.
      injection E2' as <- <- <- <- <-. split; [reflexivity|]. right. exists p. subst s'. split; reflexivity.
  - intros a j1 u t v b j2 u' t' v' c E.
    change (a ++ Sent j1 u t v :: b ++ Sent j2 u' t' v' :: c)
      with (a ++ (Sent j1 u t v :: b) ++ Sent j2 u' t' v' :: c) in E.
    rewrite app_assoc in E.
    destruct (split_sent _ _ _ _ _ _ _ _ E) as [(b1 & E1' & ->)|(a2 & Ea & E2')].
    + rewrite <- app_assoc in E1'. eauto.
    + subst o. destruct a2 as [|x [|y [|z a2]]]; cbn in E2'; try discriminate.
      rewrite app_nil_r in Ea. symmetry in Ea.
      destruct (co_wire0 _ _ _ _ _ _ Ea) as [H|[H [H'|(x & Hx & _)]]]; congruence.
  - intros a j u t v b i E Hi.
    destruct (split_sent _ _ _ _ _ _ _ _ E) as [(b1 & E1' & ->)|(a2 & -> & E2')]; [eauto|].
    subst o. destruct a2 as [|x [|y [|z a2]]]; cbn in E2'; try discriminate.
    injection E2' as <- <- <- <- <-. rewrite app_nil_r.
    assert (Hlt : (i < cc_calls s)%nat).
    { assert ((pr_id p < cc_calls s)%nat); [|lia]. apply co_below0. apply in_or_app. right.
      unfold live. rewrite Hc, Hp. cbn; auto. }
    specialize (co_all0 Hsh i Hlt). apply in_app_or in co_all0. destruct co_all0 as [H|H]; [exact H|].
    unfold live in H. rewrite Hc, Hp in H. cbn [curid app map] in H. destruct H as [H|H]; [lia|].
    specialize (Hl2 (pr_id p) i (or_introl eq_refl) H). lia.
  - intros x Hx. apply Hsv in Hx. destruct (co_service0 _ Hx) as (k' & Hk' & Hr'). exists k'.
    split; [apply in_or_app; auto|exact Hr'].
  - subst s'. proj. intros j k' Hin. destruct (co_send0 _ _ Hin). split; [apply in_or_app|]; auto.
  - subst s'. proj. intros j Hin. destruct (co_reject0 _ Hin) as (k' & ? & ?). exists k'. split; [apply in_or_app|]; auto.
  - intros j u t v Hin. destruct (Hold _ Hin) as [Hin'|Hin'].
    + destruct (co_frames0 _ _ _ _ Hin') as (k' & Hk' & Hr'). exists k'. split; [apply in_or_app; auto|exact Hr'].
    + subst o. cbn in Hin'. destruct Hin' as [Hin'|[Hin'|[]]]; [|discriminate]. injection Hin' as <- <- <- <-.
      destruct (co_service0 p) as (k' & A1 & A2 & A3 & A4 & A5); [right; rewrite Hp; cbn; auto|].
      exists k'. split; [apply in_or_app; auto|]. split; [exact A2|]. split; [exact A3|].
      rewrite A4. reflexivity.
  - intros j r' Hin. destruct (Hold _ Hin) as [Hin'|Hin'].
    + destruct (co_results0 _ _ Hin') as (k' & Hk' & Hr'). exists k'. split; [apply in_or_app; auto|exact Hr'].
    + subst o. cbn in Hin'. destruct Hin' as [Hin'|[Hin'|[]]]; discriminate.
  - intros x Hx. subst s'. proj. injection Hx as <-. exists (cc_next_timer s).
    split; [reflexivity|]. split; [rewrite !in_app_iff; cbn; auto|].
    apply in_or_app. right. subst o. cbn; auto.
  - subst s'. proj. rewrite Harm. cbn. intros t [<-|[]]. split; [reflexivity|discriminate].
  - subst s'. proj. intros t Ht. rewrite !in_app_iff in Ht. cbn in Ht.
    destruct Ht as [[Ht|[<-|[]]]|Ht]; [| lia |];
      (assert ((t < cc_next_timer s)%nat); [apply co_timer_ids0; rewrite in_app_iff; auto|lia]).
  - intros j t d Hin. destruct (Hold _ Hin) as [Hin'|Hin'].
    + apply co_armed_ids0 in Hin'. subst s'. proj. lia.
    + subst o. cbn in Hin'. destruct Hin' as [Hin'|[Hin'|[]]]; [discriminate|].
      injection Hin' as <- <- <-. subst s'. proj. lia.
  - intros j j' t d d' H1 H2.
    assert (Hn : forall j t d, In (Armed j t d) o -> j = pr_id p /\ t = cc_next_timer s).
    { clear -E2. intros j t d Hin. subst o. cbn in Hin. destruct Hin as [Hin|[Hin|[]]]; [discriminate|].
      injection Hin as <- <- <-. auto. }
    destruct (Hold _ H1) as [H1'|H1'], (Hold _ H2) as [H2'|H2'].
    + eauto.
    + apply Hn in H2'. destruct H2' as [-> ->]. apply co_armed_ids0 in H1'. lia.
    + apply Hn in H1'. destruct H1' as [-> ->]. apply co_armed_ids0 in H2'. lia.
    + apply Hn in H1'. apply Hn in H2'. destruct H1', H2'. congruence.
  - destruct co_tx0 as (acc & A1 & A2 & A3 & A4 & A5 & A6 & A7 & A8 & A9). exists acc.
    split; [exact A1|]. split; [subst s'; exact A2|]. split; [subst s'; exact A3|].
    split; [subst s'; exact A4|]. split.
    + intros x Hx. apply A5. apply Hsv. exact Hx.
    + assert (Hcl : forall a k', In (Called a k') (os ++ o) -> In (Called a k') os).
      { intros a k' Hk'. destruct (Hold _ Hk') as [H|H]; [exact H|]. subst o. cbn in H.
        destruct H as [H|[H|[]]]; discriminate. }
      split; [|split; [|split]].
      * intros j u t v Hin. destruct (Hold _ Hin) as [Hin'|Hin']; [eauto|].
        subst o. cbn in Hin'. destruct Hin' as [Hin'|[Hin'|[]]]; [|discriminate]. injection Hin' as <- <- <- <-.
        apply A5. right. rewrite Hp. cbn; auto.
      * intros a b k' Ha Hb Hk'. apply Hcl in Hk'. eauto.
      * intros a Ha. destruct (A8 a Ha) as (k' & Hk' & Hv). exists k'. split; [apply in_or_app|]; auto.
      * intros a k' Ha Hk'. apply Hcl in Hk'. eauto.
  - subst s'. proj. intros Hd. congruence.
Qed.

(** ** Events *)

(** Requests that were accepted and are not completed. *)
Definition waiting (s : client) : list nat := curid (cc_current s) ++ map pr_id (cc_pending s).

Lemma check_waiting s : waiting (fst (check_pending_requests s)) = waiting s.
Proof.
  unfold check_pending_requests, waiting. destruct (cc_shutdown s); [reflexivity|].
  destruct (cc_current s) eqn:Hc; [cbn [fst]; rewrite Hc; reflexivity|].
  destruct (cc_pending s) eqn:Hp; cbn [fst]; [rewrite Hc, Hp|]; reflexivity.
Qed.

Section Events.
Context {W : Type}.
Context (handler : nat -> W -> expected (list N) -> W * list capi).

Lemma call_handler_spec s w i r : exists w' q o m,
  call_handler handler s w i r = (with_queue s (cc_queue s ++ q) m, w', Completed i r :: o) /\
  posts (cc_shutdown s) (cc_calls s) q o m.
Proof.
  unfold call_handler. destruct (handler i w r) as [w' calls].
  destruct (capi_calls_spec s calls) as (q & o & m & -> & P). exists w', q, o, m. auto.
Qed.

(** The outstanding request [p] is completed with [r], then the next one is sent. *)
Lemma finish_spec s os w p r l :
  core s os -> cc_current s = Some p -> incl l (cc_expired s) ->
  (exists d, r = Value d) \/ r = Error ETimeout \/ (exists m, r = Error (EConnection m)) ->
  exists w' q o m s2 o2,
    call_handler handler s w (pr_id p) r = (with_queue s (cc_queue s ++ q) m, w', Completed (pr_id p) r :: o) /\
    posts (cc_shutdown s) (cc_calls s) q o m /\
    check_pending_requests
      (with_timers (with_current (with_queue s (cc_queue s ++ q) m) None) None [] l (cc_next_timer s)) = (s2, o2) /\
    core s2 (os ++ (Completed (pr_id p) r :: o) ++ o2) /\ stable s2 /\
    cc_shutdown s2 = cc_shutdown s /\ cc_parser s2 = cc_parser s /\ cc_expired s2 = l /\
    cc_queue s2 = cc_queue s ++ q /\ cc_calls s2 = m /\
    completed_ids o2 = [] /\ called_ids o2 = [] /\ waiting s2 = map pr_id (cc_pending s).
Proof.
  intros C Hp Hl Hr. destruct (call_handler_spec s w (pr_id p) r) as (w' & q & o & m & Eh & P).
  exists w', q, o, m.
  assert (C1 := core_finish _ _ _ _ _ C Hp Hl Hr).
  assert (C2 := core_post _ _ q o m C1 P).
  destruct (check_pending_requests (with_timers (with_current (with_queue s (cc_queue s ++ q) m) None)
              None [] l (cc_next_timer s))) as [s2 o2] eqn:Ec.
  exists s2, o2. split; [exact Eh|]. split; [exact P|]. split; [reflexivity|].
  destruct (core_check _ _ _ _ C2 Ec) as (C3 & St & A & B & D & F & G & H).
  split; [rewrite <- app_assoc in C3; rewrite <- app_assoc in C3; exact C3|].
  split; [exact St|]. proj.
  assert (Hpar : cc_parser s2 = cc_parser s).
  { unfold check_pending_requests in Ec. proj. destruct (cc_shutdown s); [inversion Ec; reflexivity|].
    destruct (cc_pending s); inversion Ec; reflexivity. }
  repeat (split; [assumption|]).
  match type of Ec with check_pending_requests ?x = _ => assert (Hw := check_waiting x) end.
  rewrite Ec in Hw. exact Hw.
Qed.

Lemma no_shutdown_current s os p : core s os -> cc_current s = Some p -> cc_shutdown s = false.
Proof.
  intros C Hp. destruct (cc_shutdown s) eqn:E; [|reflexivity]. destruct (co_down _ _ C E). congruence.
Qed.

Lemma cancel_with s os q m c :
  core s os ->
  cancel_timer (with_current (with_queue s q m) c)
  = with_timers (with_current (with_queue s q m) c) None [] (cc_expired s) (cc_next_timer s).
Proof.
  intros C. assert (H := armed_cancelled _ _ C). unfold cancel_timer in *. proj. rewrite H. reflexivity.
Qed.

(** *** A response *)
Lemma on_response_spec s os w msg : core s os -> stable s ->
  exists s' w' o, on_response handler s w msg = (s', w', o) /\ core s' (os ++ o) /\ stable s' /\
    cc_shutdown s' = cc_shutdown s /\ cc_parser s' = cc_parser s /\ cc_expired s' = cc_expired s /\
    (exists q, cc_queue s' = cc_queue s ++ q) /\
    (forall a i r b, o = a ++ Completed i r :: b ->
       r = Value (mb_data msg) /\ exists v, In (Sent i (mb_unit msg) (mb_tx msg) v) (os ++ a)).
Proof.
  intros C St. unfold on_response.
  assert (Hnone : exists s' w' o, (s, w, @nil coutput) = (s', w', o) /\ core s' (os ++ o) /\ stable s' /\
    cc_shutdown s' = cc_shutdown s /\ cc_parser s' = cc_parser s /\ cc_expired s' = cc_expired s /\
    (exists q, cc_queue s' = cc_queue s ++ q) /\
    (forall a i r b, o = a ++ Completed i r :: b ->
       r = Value (mb_data msg) /\ exists v, In (Sent i (mb_unit msg) (mb_tx msg) v) (os ++ a))).
  { exists s, w, []. rewrite app_nil_r. do 6 (split; [auto|]). split.
    - exists []. rewrite app_nil_r. reflexivity.
    - intros a i r b E. destruct a; discriminate. }
  destruct (cc_shutdown s) eqn:Hsh; [exact Hnone|].
  destruct (cc_current s) as [p|] eqn:Hp; [|exact Hnone].
  destruct ((mb_tx msg =? pr_tx p) && (mb_unit msg =? pr_unit p)) eqn:Hm; [|exact Hnone].
  clear Hnone. apply andb_prop in Hm. destruct Hm as [Hm1 Hm2].
  apply N.eqb_eq in Hm1. apply N.eqb_eq in Hm2.
  destruct (finish_spec s os w p (Value (mb_data msg)) (cc_expired s) C Hp (incl_refl _))
    as (w' & q & o & m & s2 & o2 & Eh & P & Ec & C2 & St2 & A1 & A2 & A3 & A4 & A5 & A6 & A7 & A8); [eauto|].
  assert (Eh' : call_handler handler (cancel_timer s) w (pr_id p) (Value (mb_data msg))
                = (with_queue (cancel_timer s) (cc_queue s ++ q) m, w', Completed (pr_id p) (Value (mb_data msg)) :: o)).
  { unfold call_handler in *. destruct (handler (pr_id p) w (Value (mb_data msg))) as [w1 calls].
    rewrite capi_calls_posted in *. proj.
    destruct (posted (cc_shutdown s) (cc_calls s) calls) as [[q1 o1] m1].
    injection Eh as E1 E2 E3. apply app_inv_head in E1. subst. reflexivity. }
  rewrite Eh'. 
  assert (Es : with_current (with_queue (cancel_timer s) (cc_queue s ++ q) m) None
               = with_timers (with_current (with_queue s (cc_queue s ++ q) m) None) None [] (cc_expired s) (cc_next_timer s)).
  { assert (H := armed_cancelled _ _ C). unfold cancel_timer in *. proj. rewrite H. reflexivity. }
  rewrite Es, Ec. exists s2, w', ((Completed (pr_id p) (Value (mb_data msg)) :: o) ++ o2).
  split; [reflexivity|]. split; [exact C2|]. split; [exact St2|]. split; [congruence|]. split; [exact A2|].
  split; [exact A3|]. split; [eauto|].
  intros a i r b E.
  assert (Hco : completed_ids o = []) by apply (only_called_completed _ (ps_only _ _ _ _ _ P)).
  destruct a as [|x a]; cbn [app] in E.
  - injection E as <- <- _. split; [reflexivity|]. rewrite Hm1, Hm2, app_nil_r. eexists.
    apply (co_current _ _ C _ Hp).
  - injection E as _ E. exfalso.
    assert (Hc : completed_ids (o ++ o2) = []) by (rewrite completed_app, Hco, A6; reflexivity).
    rewrite E, completed_app in Hc. apply app_eq_nil in Hc. destruct Hc as [_ Hc]. discriminate.
Qed.

Lemma split_at {A} (x : list A) : forall y a b (e : A), x ++ y = a ++ e :: b ->
  (exists b1, x = a ++ e :: b1 /\ b = b1 ++ y) \/ (exists a2, a = x ++ a2 /\ y = a2 ++ e :: b).
Proof.
  induction x as [|c x IH]; intros y a b e E; cbn [app] in E.
  - right. exists a. auto.
  - destruct a as [|d a]; cbn [app] in E.
    + injection E as -> E. left. exists x. auto.
    + injection E as -> E. destruct (IH _ _ _ _ E) as [(b1 & -> & ->)|(a2 & -> & ->)].
      * left. exists b1. auto.
      * right. exists a2. auto.
Qed.

Lemma on_responses_spec ms : forall s os w, core s os -> stable s ->
  exists s' w' o, on_responses handler s w ms = (s', w', o) /\ core s' (os ++ o) /\ stable s' /\
    cc_shutdown s' = cc_shutdown s /\ cc_parser s' = cc_parser s /\ cc_expired s' = cc_expired s /\
    (exists q, cc_queue s' = cc_queue s ++ q) /\
    (forall a i r b, o = a ++ Completed i r :: b -> exists msg, In msg ms /\
       r = Value (mb_data msg) /\ exists v, In (Sent i (mb_unit msg) (mb_tx msg) v) (os ++ a)).
Proof.
  induction ms as [|m ms IH]; intros s os w C St; cbn [on_responses].
  - exists s, w, []. rewrite app_nil_r. do 6 (split; [auto|]). split.
    + exists []. rewrite app_nil_r. reflexivity.
    + intros a i r b E. destruct a; discriminate.
  - destruct (on_response_spec s os w m C St) as (s1 & w1 & o1 & E1 & C1 & St1 & A1 & A2 & A3 & (q1 & A4) & A5).
    rewrite E1.
    destruct (IH s1 (os ++ o1) w1 C1 St1) as (s2 & w2 & o2 & E2 & C2 & St2 & B1 & B2 & B3 & (q2 & B4) & B5).
    rewrite E2. exists s2, w2, (o1 ++ o2). split; [reflexivity|].
    split; [rewrite app_assoc; exact C2|]. split; [exact St2|]. split; [congruence|]. split; [congruence|].
    split; [congruence|]. split; [exists (q1 ++ q2); rewrite B4, A4, app_assoc; reflexivity|].
    intros a i r b E. apply split_at in E. destruct E as [(b1 & E & ->)|(a2 & -> & E)].
    + destruct (A5 _ _ _ _ E) as (Hr & Hv). exists m. cbn. auto.
    + destruct (B5 _ _ _ _ E) as (msg & Hm & Hr & Hv). exists msg. rewrite app_assoc.
      split; [right; exact Hm|]. auto.
Qed.

(** *** A timeout *)
Lemma on_timeout_spec s os w t : core s os -> stable s ->
  let l := filter (fun x => negb (Nat.eqb x t)) (cc_expired s) in
  exists s' w' o,
    on_timeout handler (with_timers s (cc_timer s) (cc_armed s) l (cc_next_timer s)) w = (s', w', o) /\
    core s' (os ++ o) /\ stable s' /\
    cc_shutdown s' = cc_shutdown s /\ cc_parser s' = cc_parser s /\ cc_expired s' = l /\
    (exists q, cc_queue s' = cc_queue s ++ q) /\
    (forall i r, In (Completed i r) o -> r = Error ETimeout /\ exists p, cc_current s = Some p /\ pr_id p = i) /\
    (forall p, cc_current s = Some p -> waiting s' = map pr_id (cc_pending s) /\
       In (Completed (pr_id p) (Error ETimeout)) o).
Proof.
  intros C St l. unfold on_timeout. proj.
  assert (Hl : incl l (cc_expired s)) by (intros x Hx; apply in_filter_neq in Hx; tauto).
  destruct (cc_current s) as [p|] eqn:Hp.
  - assert (Hsh := no_shutdown_current _ _ _ C Hp). rewrite Hsh.
    destruct (finish_spec s os w p (Error ETimeout) l C Hp Hl)
      as (w' & q & o & m & s2 & o2 & Eh & P & Ec & C2 & St2 & A1 & A2 & A3 & A4 & A5 & A6 & A7 & A8); [eauto|].
    assert (Eh' : call_handler handler (with_timers s (cc_timer s) (cc_armed s) l (cc_next_timer s)) w (pr_id p) (Error ETimeout)
                = (with_queue (with_timers s (cc_timer s) (cc_armed s) l (cc_next_timer s)) (cc_queue s ++ q) m,
                   w', Completed (pr_id p) (Error ETimeout) :: o)).
    { unfold call_handler in *. destruct (handler (pr_id p) w (Error ETimeout)) as [w1 calls].
      rewrite capi_calls_posted in *. proj.
      destruct (posted (cc_shutdown s) (cc_calls s) calls) as [[q1 o1] m1].
      injection Eh as E1 E2 E3. apply app_inv_head in E1. subst. reflexivity. }
    rewrite Eh'. unfold cancel_current_request. proj. rewrite Hp.
    assert (Es : cancel_timer (with_current (with_queue (with_timers s (cc_timer s) (cc_armed s) l (cc_next_timer s))
                                               (cc_queue s ++ q) m) None)
                 = with_timers (with_current (with_queue s (cc_queue s ++ q) m) None) None [] l (cc_next_timer s)).
    { assert (H := armed_cancelled _ _ C). unfold cancel_timer in *. proj. rewrite H. reflexivity. }
    rewrite Es, Ec. exists s2, w', ((Completed (pr_id p) (Error ETimeout) :: o) ++ o2).
    split; [reflexivity|]. split; [exact C2|]. split; [exact St2|]. split; [congruence|]. split; [exact A2|].
    split; [exact A3|]. split; [eauto|].
    split; [|intros p' Hp'; injection Hp' as <-; split; [exact A8|cbn; auto]].
    intros i r Hin. apply in_app_or in Hin. destruct Hin as [[Hin|Hin]|Hin].
    + injection Hin as <- <-. eauto.
    + destruct (only_called_in _ _ (ps_only _ _ _ _ _ P) Hin) as (? & ? & ?). discriminate.
    + exfalso. assert (H : In i (completed_ids o2)) by (apply in_completed; eauto). rewrite A6 in H. destruct H.
  - assert (H : (if cc_shutdown s then (with_timers s (cc_timer s) (cc_armed s) l (cc_next_timer s), w, [])
                 else (with_timers s (cc_timer s) (cc_armed s) l (cc_next_timer s), w, []))
                = (with_timers s (cc_timer s) (cc_armed s) l (cc_next_timer s), w, @nil coutput))
      by (destruct (cc_shutdown s); reflexivity).
    rewrite H. do 3 eexists. split; [reflexivity|]. rewrite app_nil_r.
    split; [apply core_drop_expired; auto|]. split; [exact St|]. repeat (split; [reflexivity|]).
    split; [exists []; proj; rewrite app_nil_r; reflexivity|]. split; [intros i r []|discriminate].
Qed.

(** *** A connection error *)
Definition failed (msg : string) (p : prequest) : nat * expected (list N) := (pr_id p, Error (EConnection msg)).

Lemma fail_all_spec msg l : forall s os w rest, core (with_pending s (l ++ rest)) os ->
  exists q m w' o, fail_all handler s w l msg = (with_queue s (cc_queue s ++ q) m, w', o) /\
    core (with_pending (with_queue s (cc_queue s ++ q) m) rest) (os ++ o) /\
    results o = map (failed msg) l /\ sent_ids o = [] /\ (forall i t d, ~ In (Armed i t d) o).
Proof.
  induction l as [|p l IH]; intros s os w rest C; cbn [fail_all].
  - exists [], (cc_calls s), w, []. rewrite !app_nil_r. split; [destruct s; reflexivity|].
    split; [destruct s; exact C|]. auto.
  - destruct (call_handler_spec s w (pr_id p) (Error (EConnection msg))) as (w1 & q1 & o1 & m1 & E1 & P1).
    rewrite E1.
    assert (C1 := core_fail_pending _ _ p (l ++ rest) msg C eq_refl).
    assert (C2 := core_post _ _ q1 o1 m1 C1 P1).
    destruct (IH (with_queue s (cc_queue s ++ q1) m1) (os ++ Completed (pr_id p) (Error (EConnection msg)) :: o1) w1 rest)
      as (q2 & m2 & w2 & o2 & E2 & C3 & R2 & S2 & T2).
    { rewrite <- app_assoc in C2. exact C2. }
    rewrite E2. exists (q1 ++ q2), m2, w2, ((Completed (pr_id p) (Error (EConnection msg)) :: o1) ++ o2).
    proj. rewrite <- (app_assoc (cc_queue s)) in C3. rewrite <- (app_assoc os) in C3. cbn [app] in C3.
    rewrite (app_assoc (cc_queue s)). split; [reflexivity|].
    rewrite <- (app_assoc (cc_queue s)). split; [exact C3|].
    assert (Ho := ps_only _ _ _ _ _ P1). split; [|split].
    + cbn [results flat_map app map]. fold (results (o1 ++ o2)).
      rewrite results_app, (only_called_results _ Ho), R2. reflexivity.
    + cbn [sent_ids flat_map app]. fold (sent_ids (o1 ++ o2)).
      rewrite sent_app, (only_called_sent _ Ho), S2. reflexivity.
    + intros i t d [H|H]; [discriminate|]. apply in_app_or in H. destruct H as [H|H].
      * destruct (only_called_in _ _ Ho H) as (? & ? & ?). discriminate.
      * exact (T2 _ _ _ H).
Qed.

Lemma on_error_spec s os w msg : core s os -> stable s ->
  exists s' w' o, on_error handler s w msg = (s', w', o) /\ core s' (os ++ o) /\ stable s' /\
    cc_shutdown s' = cc_shutdown s /\ cc_expired s' = cc_expired s /\
    (exists q, cc_queue s' = cc_queue s ++ q) /\
    (cc_shutdown s = true -> s' = s /\ o = []) /\
    (cc_shutdown s = false ->
       cc_parser s' = mbap_reset (cc_parser s) /\ cc_current s' = None /\ cc_pending s' = [] /\ cc_armed s' = [] /\
       results o = map (failed msg) (cc_pending s ++ match cc_current s with Some p => [p] | None => [] end) /\
       sent_ids o = []).
Proof.
  intros C St. unfold on_error. destruct (cc_shutdown s) eqn:Hsh.
  { exists s, w, []. rewrite app_nil_r. split; [reflexivity|]. split; [exact C|]. split; [exact St|].
    split; [exact Hsh|]. split; [reflexivity|]. split; [exists []; rewrite app_nil_r; reflexivity|].
    split; [auto|discriminate]. }
  unfold cancel_all_pending_requests. proj.
  assert (C0 := core_parser s os (mbap_reset (cc_parser s)) C).
  destruct (fail_all_spec msg (cc_pending s) (with_parser s (mbap_reset (cc_parser s))) os w [])
    as (q1 & m1 & w1 & o1 & E1 & C1 & R1 & S1 & T1).
  { rewrite app_nil_r. destruct s; exact C0. }
  rewrite E1. proj. destruct (cc_current s) as [p|] eqn:Hp.
  - set (s1 := with_pending (with_queue (with_parser s (mbap_reset (cc_parser s))) (cc_queue s ++ q1) m1) []) in *.
    destruct (finish_spec s1 (os ++ o1) w1 p (Error (EConnection msg)) (cc_expired s1) C1 Hp (incl_refl _))
      as (w' & q & o & m & s2 & o2 & Eh & P & Ec & C2 & St2 & A1 & A2 & A3 & A4 & A5 & A6 & A7 & A8); [eauto|].
    rewrite Eh. unfold cancel_current_request. proj.
    change (cc_current s1) with (cc_current s). rewrite Hp.
    rewrite (cancel_with _ _ _ _ _ C1), Ec.
    assert (Ho2 : o2 = [] /\ cc_current s2 = None /\ cc_pending s2 = [] /\ cc_armed s2 = []).
    { unfold check_pending_requests in Ec. proj. change (cc_shutdown s1) with (cc_shutdown s) in Ec.
      rewrite Hsh in Ec. inversion Ec. auto. }
    destruct Ho2 as (-> & B1 & B2 & B3).
    exists s2, w', (o1 ++ (Completed (pr_id p) (Error (EConnection msg)) :: o) ++ []).
    split; [reflexivity|]. split; [rewrite app_assoc; exact C2|]. split; [exact St2|].
    split; [rewrite A1; exact Hsh|]. split; [exact A3|].
    split; [exists (q1 ++ q); rewrite A4; subst s1; proj; rewrite app_assoc; reflexivity|].
    split; [discriminate|]. intros _.
    assert (Ho := ps_only _ _ _ _ _ P).
    split; [rewrite A2; reflexivity|]. split; [exact B1|]. split; [exact B2|]. split; [exact B3|].
    rewrite app_nil_r. split.
    + rewrite results_app, R1, map_app. cbn [results flat_map app]. fold (results o).
      rewrite (only_called_results _ Ho). reflexivity.
    + rewrite sent_app, S1. cbn [sent_ids flat_map app]. apply (only_called_sent _ Ho).
  - assert (Hpend := St Hp).
    exists (with_pending (with_queue (with_parser s (mbap_reset (cc_parser s))) (cc_queue s ++ q1) m1) []), w1, o1.
    split; [reflexivity|]. split; [exact C1|]. split; [intros _; reflexivity|]. proj.
    split; [exact Hsh|]. split; [reflexivity|]. split; [eauto|]. split; [discriminate|]. intros _.
    split; [reflexivity|]. split; [exact Hp|]. split; [reflexivity|].
    split; [|split; [rewrite app_nil_r; exact R1|exact S1]].
    destruct (cc_armed s) as [|t l] eqn:Ea; [reflexivity|].
    destruct (co_armed _ _ C t); [rewrite Ea; cbn; auto|congruence].
Qed.

(** *** A posted closure *)
Lemma run_ctask_spec s os w t q : core s os -> stable s -> cc_queue s = t :: q ->
  exists s' w' o, run_ctask handler (with_queue s q (cc_calls s)) w t = (s', w', o) /\
    core s' (os ++ o) /\ stable s' /\ cc_parser s' = cc_parser s /\ cc_expired s' = cc_expired s /\
    (exists q', cc_queue s' = q ++ q') /\
    (t <> DoShutdown -> cc_shutdown s' = cc_shutdown s) /\
    (forall i r, In (Completed i r) o -> t = DoReject i /\ r = Error EMalformedRequest) /\
    (forall i k, t = DoSend i k -> cc_shutdown s = false -> waiting s' = waiting s ++ [i]) /\
    (forall i, t = DoReject i -> In (Completed i (Error EMalformedRequest)) o /\ waiting s' = waiting s /\
       exists q' m, s' = with_queue s (q ++ q') m).
Proof.
  intros C St Hq. destruct t as [i k|i|]; cbn [run_ctask].
  - proj. destruct (cc_shutdown s) eqn:Hsh.
    + exists (with_queue s q (cc_calls s)), w, []. rewrite app_nil_r. split; [reflexivity|].
      split; [apply (core_skip _ _ _ _ C Hq); auto|]. split; [exact St|]. split; [reflexivity|].
      split; [reflexivity|]. split; [exists []; rewrite app_nil_r; reflexivity|]. split; [auto|].
      split; [intros ? ? []|]. split; [congruence|discriminate].
    + assert (C1 := core_accept _ _ _ _ _ C Hsh Hq).
      match goal with |- context [check_pending_requests ?x] => destruct (check_pending_requests x) as [s' o] eqn:Ec end.
      proj. destruct (core_check _ _ _ _ C1 Ec) as (C2 & St2 & A1 & A2 & A3 & A4 & A5 & A6). proj.
      exists s', w, o. split; [reflexivity|]. split; [exact C2|]. split; [exact St2|].
      split.
      { unfold check_pending_requests in Ec. proj. rewrite Hsh in Ec. destruct (cc_current s); [inversion Ec; reflexivity|].
        destruct (cc_pending s ++ _) as [|p ps]; inversion Ec; reflexivity. }
      split; [exact A4|]. split; [exists []; rewrite app_nil_r; exact A1|]. split; [congruence|].
      split; [|split; [|discriminate]].
      { intros j r Hin. exfalso. assert (H : In j (completed_ids o)) by (apply in_completed; eauto).
        rewrite A5 in H. destruct H. }
      intros j k' Ejk _. injection Ejk as <- <-.
      match type of Ec with check_pending_requests ?x = _ => assert (Hw := check_waiting x) end.
      rewrite Ec in Hw. cbn [fst] in Hw. rewrite Hw. unfold waiting. proj. rewrite map_app, app_assoc. reflexivity.
  - assert (C1 := core_do_reject _ _ _ _ C Hq).
    destruct (call_handler_spec (with_queue s q (cc_calls s)) w i (Error EMalformedRequest)) as (w1 & q1 & o1 & m1 & E1 & P1).
    assert (C2 := core_post _ _ q1 o1 m1 C1 P1). rewrite E1. do 3 eexists. split; [reflexivity|].
    rewrite <- app_assoc in C2. split; [exact C2|]. proj. split; [exact St|]. split; [reflexivity|].
    split; [reflexivity|]. split; [eauto|]. split; [reflexivity|]. split; [|split; [discriminate|]].
    + intros j r [H|H].
      * injection H as <- <-. auto.
      * destruct (only_called_in _ _ (ps_only _ _ _ _ _ P1) H) as (? & ? & ?). discriminate.
    + intros j Ej. injection Ej as <-. split; [cbn; auto|]. split; [reflexivity|].
      exists q1, m1. reflexivity.
  - assert (C1 := core_skip _ _ _ _ C Hq (or_intror eq_refl)).
    assert (C2 := core_stop _ _ C1). do 3 eexists. split; [reflexivity|]. split; [exact C2|].
    split; [intros _; reflexivity|]. split; [reflexivity|]. split; [reflexivity|].
    split; [exists []; cbn; rewrite app_nil_r; reflexivity|]. split; [congruence|].
    split; [intros i r [H|[]]; discriminate|]. split; discriminate.
Qed.

(** *** All events *)

(** The parser has seen the stream up to [t]. *)
Definition tracked (pol : copy_policy) (s : client) (bs : list N) : Prop :=
  exists t, R pol (cc_parser s) t /\
    (cc_shutdown s = false -> exists items, Forall typed_item items /\ bs = flat_map item_bytes items ++ t).

Lemma stream_app es es' : stream (es ++ es') =
  fold_left (fun acc e => match e with CReceive d => acc ++ d | CError _ => [] | _ => acc end) es' (stream es).
Proof. apply fold_left_app. Qed.

Definition next_stream (bs : list N) (e : cevent) : list N :=
  match e with CReceive d => bs ++ d | CError _ => [] | _ => bs end.

Lemma stream_snoc es e : stream (es ++ [e]) = next_stream (stream es) e.
Proof. rewrite stream_app. reflexivity. Qed.

Lemma step_core pol s os w e bs : core s os -> stable s -> tracked pol s bs -> typed_cevent e ->
  exists s' w' o, client_step handler pol s w e = Ret (s', w', o) /\
    core s' (os ++ o) /\ stable s' /\ tracked pol s' (next_stream bs e).
Proof.
  intros C St (t & HR & Htr) Ht.
  assert (Hsame : forall s', cc_parser s' = cc_parser s -> (cc_shutdown s' = false -> cc_shutdown s = false) ->
                  tracked pol s' bs).
  { intros s' E1 E2. exists t. rewrite E1. split; [exact HR|]. auto. }
  destruct e as [a| |d|msg|x|x]; cbn [client_step next_stream].
  - destruct (capi_calls_spec s [a]) as (q & o & m & E & P). cbn [capi_calls] in E.
    destruct (capi_call s a) as [s1 o1]. rewrite app_nil_r in E. injection E as -> ->.
    exists (with_queue s (cc_queue s ++ q) m), w, o. split; [reflexivity|].
    split; [apply core_post; assumption|]. split; [exact St|]. apply Hsame; auto.
  - destruct (cc_queue s) as [|t0 q] eqn:Hq.
    + exists s, w, []. rewrite app_nil_r. split; [reflexivity|]. split; [exact C|]. split; [exact St|]. apply Hsame; auto.
    + destruct (run_ctask_spec s os w t0 q C St Hq) as (s' & w' & o & E & C' & St' & A1 & A2 & A3 & A4 & _).
      rewrite E. exists s', w', o. split; [reflexivity|]. split; [exact C'|]. split; [exact St'|].
      apply Hsame; [exact A1|]. intros Hs. destruct t0; try (rewrite <- A4; [exact Hs|discriminate]).
      cbn [run_ctask] in E. injection E as <- <- <-. discriminate Hs.
  - unfold on_receive. destruct (cc_shutdown s) eqn:Hsh.
    + exists s, w, []. rewrite app_nil_r. split; [reflexivity|]. split; [exact C|]. split; [exact St|].
      exists t. split; [exact HR|]. intros H. congruence.
    + destruct (parse_spec pol _ _ d HR Ht) as (p' & t' & items & outs & E & Hty & Hcut & HR' & Hm & _).
      rewrite E. cbn [obind].
      destruct (on_responses_spec outs (with_parser s p') os w (core_parser _ _ _ C) St)
        as (s' & w' & o & E' & C' & St' & A1 & A2 & A3 & A4 & A5).
      rewrite E'. exists s', w', o. split; [reflexivity|]. split; [exact C'|]. split; [exact St'|].
      exists t'. rewrite A2. split; [exact HR'|]. intros _.
      destruct (Htr eq_refl) as (items0 & Hty0 & ->). exists (items0 ++ items).
      split; [apply Forall_app; auto|]. rewrite flat_map_app, <- !app_assoc, Hcut. reflexivity.
  - destruct (on_error_spec s os w msg C St) as (s' & w' & o & E & C' & St' & A1 & A2 & A3 & A4 & A5).
    rewrite E. exists s', w', o. split; [reflexivity|]. split; [exact C'|]. split; [exact St'|].
    destruct (cc_shutdown s) eqn:Hsh.
    + destruct (A4 eq_refl) as [-> _]. exists t. split; [exact HR|]. congruence.
    + destruct (A5 eq_refl) as (B1 & _). exists []. rewrite B1. split; [apply R_reset; apply HR|].
      intros _. exists []. auto.
  - destruct (existsb (Nat.eqb x) (cc_armed s)) eqn:Hx.
    + apply existsb_exists in Hx. destruct Hx as (y & Hy & Hxy). apply Nat.eqb_eq in Hxy. subst y.
      do 3 eexists. split; [reflexivity|]. rewrite app_nil_r. split; [apply core_expire; assumption|].
      split; [exact St|]. apply Hsame; auto.
    + exists s, w, []. rewrite app_nil_r. split; [reflexivity|]. split; [exact C|]. split; [exact St|]. apply Hsame; auto.
  - destruct (existsb (Nat.eqb x) (cc_expired s)) eqn:Hx.
    + destruct (on_timeout_spec s os w x C St) as (s' & w' & o & E & C' & St' & A1 & A2 & _).
      rewrite E. exists s', w', o. split; [reflexivity|]. split; [exact C'|]. split; [exact St'|].
      apply Hsame; congruence.
    + exists s, w, []. rewrite app_nil_r. split; [reflexivity|]. split; [exact C|]. split; [exact St|]. apply Hsame; auto.
Qed.

(** What holds between events: [es] happened and [os] was observed. *)
Definition reached (pol : copy_policy) (es : list cevent) (s : client) (os : list coutput) : Prop :=
  core s os /\ stable s /\ tracked pol s (stream es).

Lemma run_snoc pol es e : forall s w,
  client_run handler pol s w (es ++ [e]) =
  let! (s1, w1, o1) := client_run handler pol s w es in
  let! (s2, w2, o2) := client_step handler pol s1 w1 e in Ret (s2, w2, o1 ++ o2).
Proof.
  induction es as [|x es IH]; intros s w; cbn [app client_run obind].
  - destruct (client_step handler pol s w e) as [[[s2 w2] o2]|]; cbn [obind app]; [|reflexivity].
    rewrite app_nil_r. reflexivity.
  - destruct (client_step handler pol s w x) as [[[s1 w1] o1]|]; cbn [obind]; [|reflexivity].
    rewrite IH. destruct (client_run handler pol s1 w1 es) as [[[s2 w2] o2]|]; cbn [obind]; [|reflexivity].
    destruct (client_step handler pol s2 w2 e) as [[[s3 w3] o3]|]; cbn [obind]; [|reflexivity].
    rewrite app_assoc. reflexivity.
Qed.

Lemma run_reached pol es : forall s os w bs, core s os -> stable s -> tracked pol s bs -> Forall typed_cevent es ->
  exists s' w' o, client_run handler pol s w es = Ret (s', w', o) /\
    core s' (os ++ o) /\ stable s' /\ tracked pol s' (fold_left next_stream es bs).
Proof.
  induction es as [|e es IH]; intros s os w bs C St Tr Ht; cbn [client_run fold_left].
  - exists s, w, []. rewrite app_nil_r. auto.
  - apply Forall_cons_iff in Ht. destruct Ht as [He Ht].
    destruct (step_core pol s os w e bs C St Tr He) as (s1 & w1 & o1 & E1 & C1 & St1 & Tr1).
    destruct (IH s1 (os ++ o1) w1 _ C1 St1 Tr1 Ht) as (s2 & w2 & o2 & E2 & C2 & St2 & Tr2).
    rewrite E1. cbn [obind]. rewrite E2. cbn [obind]. exists s2, w2, (o1 ++ o2).
    rewrite app_assoc. auto.
Qed.

Lemma init_tracked pol buf : good_buf buf -> tracked pol (client_init buf) [].
Proof.
  intros H. exists []. split; [apply R_new; exact H|]. intros _. exists []. auto.
Qed.

Lemma history_total pol buf w es : good_buf buf -> Forall typed_cevent es ->
  exists s w' os, client_run handler pol (client_init buf) w es = Ret (s, w', os) /\ reached pol es s os.
Proof.
  intros Hg Ht.
  destruct (run_reached pol es (client_init buf) [] w [] (core_init buf) (fun _ => eq_refl) (init_tracked pol buf Hg) Ht)
    as (s & w' & os & E & C & St & Tr).
  exists s, w', os. split; [exact E|]. split; [exact C|]. split; [exact St|]. exact Tr.
Qed.

Lemma history_reached pol es s w os : history handler pol es s w os -> reached pol es s os.
Proof.
  intros (buf & w0 & Hg & Ht & E). destruct (history_total pol buf w0 es Hg Ht) as (s' & w' & os' & E' & H).
  rewrite E in E'. injection E' as <- <- <-. exact H.
Qed.
End Events.
