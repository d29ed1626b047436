(** Invariants of the sessions and their scheduled requests. *)
From Verif Require Import Prelude Ser4 Messages Mbap SpecPdu SpecMbap Client SpecClient ClientFacts ClientView
  Scheduled SpecScheduled ScheduledFacts SessionCall Session SpecSession SessionLift.
From Coq Require Import Lia.

(** ** Lists *)
Lemma nth_snoc {A} (l : list A) a i b : nth_error (l ++ [a]) i = Some b <-> nth_error l i = Some b \/ (i = List.length l /\ b = a).
Proof.
  destruct (Nat.ltb_spec i (List.length l)) as [H|H].
  - rewrite nth_error_app1 by exact H. split; [auto|]. intros [E|[-> _]]; [exact E|lia].
  - rewrite nth_error_app2 by exact H. assert (E : nth_error l i = None) by (apply nth_error_None; exact H). rewrite E.
    destruct (i - List.length l)%nat as [|n] eqn:En; cbn [nth_error].
    + split; [intros E1; inversion E1; right; split; [lia|reflexivity]|]. intros [E1|[_ ->]]; [discriminate|reflexivity].
    + rewrite (proj2 (nth_error_None [] n)) by (cbn; lia). split; [discriminate|]. intros [E1|[-> _]]; [discriminate|lia].
Qed.

Lemma nth_below {A} (l : list A) i a : nth_error l i = Some a -> (i < List.length l)%nat.
Proof. intros H. apply nth_error_Some. rewrite H. discriminate. Qed.

Lemma update_length {A} (l : list A) : forall n a, List.length (update l n a) = List.length l.
Proof. induction l as [|b l IH]; intros [|n] a; cbn; auto. Qed.

Lemma nth_update {A} (l : list A) : forall n a i b, nth_error (update l n a) i = Some b <->
  (i <> n /\ nth_error l i = Some b) \/ (i = n /\ (n < List.length l)%nat /\ b = a).
Proof.
  induction l as [|c l IH]; intros n a i b.
  - destruct n, i; cbn; split; try discriminate; intros [[_ H]|(_ & H & _)]; try discriminate; lia.
  - destruct n as [|n], i as [|i]; cbn [update nth_error List.length].
    + split; [intros H; inversion H; right; split; [reflexivity|split; [lia|reflexivity]]|]. intros [[H _]|(_ & _ & ->)]; [congruence|reflexivity].
    + split; [intros H; left; split; [discriminate|exact H]|]. intros [[_ H]|(H & _)]; [exact H|discriminate].
    + split; [intros H; left; split; [discriminate|exact H]|]. intros [[_ H]|(H & _)]; [exact H|discriminate].
    + rewrite IH. split; (intros [[H1 H2]|(H1 & H2 & H3)]; [left; split; [congruence|exact H2]|right; split; [congruence|split; [lia|exact H3]]]).
Qed.

Lemma update_other {A} (l : list A) n a i b : i <> n -> nth_error l i = Some b -> nth_error (update l n a) i = Some b.
Proof. intros H E. apply nth_update. left. auto. Qed.

Lemma update_this {A} (l : list A) n a b : nth_error l n = Some b -> nth_error (update l n a) n = Some a.
Proof. intros H. apply nth_update. right. split; [reflexivity|]. split; [exact (nth_below _ _ _ H)|reflexivity]. Qed.

Lemma seq_snoc n : seq 0 (S n) = seq 0 n ++ [n].
Proof. rewrite <- Nat.add_1_r, seq_app. reflexivity. Qed.

(** ** What the API does *)
Section Facts.
Context {W : Type}.
Implicit Types (z : sessions W) (L : list koutput).

Inductive did z : kapi -> sessions W -> list capi -> Prop :=
| did_nothing a :
    match a with
    | Open _ _ => ks_shutdown z = true
    | Send x _ _ | Schedule x _ _ _ | CloseSession x => nth_error (ks_sessions z) x = None
    | OnSchedule j _ => nth_error (ks_polls z) j = None
    | CloseChannel => False
    end -> did z a (show z [Asked a]) []
| did_open u t : ks_shutdown z = false ->
    did z (Open u t)
      (with_sessions (show z [Asked (Open u t); Opened (List.length (ks_sessions z)) u t])
        (ks_sessions z ++ [{| ss_unit := u; ss_timeout := t; ss_listed := [] |}]) (ks_open z ++ [List.length (ks_sessions z)])) []
| did_send x r t s : nth_error (ks_sessions z) x = Some s ->
    did z (Send x r t) (with_owner (show z [Asked (Send x r t); Issued (List.length (ks_owners z)) x r t]) (ByUser r))
      [Submit (session_call (ss_unit s) r (timeout_or t (ss_timeout s)))]
| did_schedule x r t f s : nth_error (ks_sessions z) x = Some s ->
    did z (Schedule x r t f)
      (kpost (with_polls (show z [Asked (Schedule x r t f); Scheduled (List.length (ks_polls z)) x r t f])
                (ks_polls z ++ [{| po_session := x; po_request := r; po_timeout := timeout_or t (ss_timeout s);
                                   po_sched := with_posted (sched_init f) [Start] |}]))
             [RunPoll (List.length (ks_polls z)); Register x (List.length (ks_polls z))]) []
| did_post j a p : nth_error (ks_polls z) j = Some p ->
    did z (OnSchedule j a) (kpost (set_sched (show z [Asked (OnSchedule j a)]) j p (with_posted (po_sched p) [a])) [RunPoll j]) []
| did_close x s : nth_error (ks_sessions z) x = Some s ->
    did z (CloseSession x) (kpost (show z [Asked (CloseSession x)]) [StopAll x]) []
| did_shutdown : did z CloseChannel (show z [Asked CloseChannel]) [Client.Shutdown].

Lemma sessions_eq z z' :
  ks_user z = ks_user z' -> ks_shutdown z = ks_shutdown z' -> ks_sessions z = ks_sessions z' -> ks_open z = ks_open z' ->
  ks_polls z = ks_polls z' -> ks_queue z = ks_queue z' -> ks_owners z = ks_owners z' -> ks_log z = ks_log z' -> ks_bad z = ks_bad z' -> z = z'.
Proof. destruct z, z'; cbn. intros. subst. reflexivity. Qed.

Lemma update_snoc {A} (l : list A) a b : update (l ++ [a]) (List.length l) b = l ++ [b].
Proof. induction l as [|c l IH]; cbn; [reflexivity|]. f_equal. exact IH. Qed.

Lemma kapi_did z a z' c : kapi_call z a = (z', c) -> did z a z' c.
Proof.
  destruct a as [u t|x r t|x r t f|j a|x|]; cbn [kapi_call].
  - destruct (ks_shutdown (show z [Asked (Open u t)])) eqn:E; intros H; inversion H; subst.
    + apply did_nothing. exact E.
    + match goal with |- did _ _ ?y _ => replace y with (with_sessions (show z [Asked (Open u t); Opened (List.length (ks_sessions z)) u t])
        (ks_sessions z ++ [{| ss_unit := u; ss_timeout := t; ss_listed := [] |}]) (ks_open z ++ [List.length (ks_sessions z)])) end.
      * apply did_open. exact E.
      * apply sessions_eq; try reflexivity. cbn. rewrite <- app_assoc. reflexivity.
  - destruct (nth_error (ks_sessions (show z [Asked (Send x r t)])) x) as [s|] eqn:E; intros H; inversion H; subst.
    + match goal with |- did _ _ ?y _ => replace y with (with_owner (show z [Asked (Send x r t); Issued (List.length (ks_owners z)) x r t]) (ByUser r)) end.
      * apply did_send. exact E.
      * apply sessions_eq; try reflexivity. cbn. rewrite <- app_assoc. reflexivity.
    + apply did_nothing. exact E.
  - destruct (nth_error (ks_sessions (show z [Asked (Schedule x r t f)])) x) as [s|] eqn:E; intros H; inversion H; subst.
    + unfold post_poll. cbn [ks_polls show with_polls with_log].
      rewrite (proj2 (nth_snoc _ _ _ _) (or_intror (conj eq_refl eq_refl))).
      match goal with |- did _ _ ?y _ => replace y with
        (kpost (with_polls (show z [Asked (Schedule x r t f); Scheduled (List.length (ks_polls z)) x r t f])
                (ks_polls z ++ [{| po_session := x; po_request := r; po_timeout := timeout_or t (ss_timeout s);
                                   po_sched := with_posted (sched_init f) [Start] |}]))
             [RunPoll (List.length (ks_polls z)); Register x (List.length (ks_polls z))]) end.
      * apply did_schedule. exact E.
      * unfold set_sched, kpost. cbn [ks_polls show with_polls with_kqueue with_log po_session po_request po_timeout po_sched].
        rewrite update_snoc. apply sessions_eq; try reflexivity.
        { cbn. rewrite <- app_assoc. reflexivity. }
        { cbn. rewrite <- app_assoc. reflexivity. }
    + apply did_nothing. exact E.
  - intros H; inversion H; subst. unfold post_poll.
    destruct (nth_error (ks_polls (show z [Asked (OnSchedule j a)])) j) as [p|] eqn:E.
    + apply did_post. exact E.
    + apply did_nothing. exact E.
  - destruct (nth_error (ks_sessions (show z [Asked (CloseSession x)])) x) as [s|] eqn:E; intros H; inversion H; subst.
    + apply (did_close z x s). exact E.
    + apply did_nothing. exact E.
  - intros H; inversion H; subst. apply did_shutdown.
Qed.

(** ** What a scheduled request does *)
Inductive polled z (j : nat) (p : poll) (e : sevent (expected response)) : sessions W -> list capi -> Prop :=
| polled_quiet s o : sched_step no_calls (po_sched p) tt e = (s, tt, o) -> requested o = [] ->
    polled z j p e (show (set_sched z j p s) (map (Polled j) o)) []
| polled_request s o n u : sched_step no_calls (po_sched p) tt e = (s, tt, o) -> requested o = [n] ->
    match nth_error (ks_sessions z) (po_session p) with Some x => u = ss_unit x | None => True end ->
    polled z j p e
      (with_owner (show (set_sched z j p s) (map (Polled j) o ++ [Repeated (List.length (ks_owners z)) j n])) (ByPoll j n))
      [Submit (session_call u (po_request p) (po_timeout p))].

Lemma poll_polled z j e z' c p : nth_error (ks_polls z) j = Some p -> poll_step z j e = (z', c) -> polled z j p e z' c.
Proof.
  intros Hp. unfold poll_step. rewrite Hp. destruct (sched_step no_calls (po_sched p) tt e) as [[s []] o] eqn:E.
  pose proof (step_trans no_calls _ _ _ _ _ _ E) as T. intros H.
  assert (D : requested o = [] \/ exists n, requested o = [n]) by (inversion T; subst; cbn; eauto).
  destruct D as [D|(n & D)].
  - assert (Hr : forall z0, poll_requests z0 j p o = (z0, [])).
    { clear -D. induction o as [|x o IH]; intros z0; [reflexivity|]. destruct x; cbn [poll_requests]; try (apply IH; exact D). discriminate. }
    rewrite Hr in H. inversion H; subst. apply polled_quiet; assumption.
  - assert (Hr : forall z0, poll_requests z0 j p o = (with_owner (show z0 [Repeated (List.length (ks_owners z0)) j n]) (ByPoll j n),
        [Submit (session_call match nth_error (ks_sessions z0) (po_session p) with Some s => ss_unit s | None => 0 end (po_request p) (po_timeout p))])).
    { clear -D. induction o as [|x o IH]; intros z0; [discriminate|]. destruct x as [m|m r|m f| | |f]; cbn [poll_requests]; try (apply IH; exact D).
      cbn in D. inversion D as [[D1 D2]]. subst m.
      assert (Hr : forall z0, poll_requests z0 j p o = (z0, [])).
      { clear -D2. induction o as [|x o IH]; intros z0; [reflexivity|]. destruct x; cbn [poll_requests]; try (apply IH; exact D2). discriminate. }
      rewrite Hr. reflexivity. }
    rewrite Hr in H. inversion H; subst.
    match goal with |- polled _ _ _ _ ?y _ => replace y with
      (with_owner (show (set_sched z j p s) (map (Polled j) o ++ [Repeated (List.length (ks_owners z)) j n])) (ByPoll j n)) end.
    + apply polled_request with (1 := E); [exact D|]. cbn. destruct (nth_error (ks_sessions z) (po_session p)); auto.
    + apply sessions_eq; try reflexivity. cbn. rewrite app_assoc. reflexivity.
Qed.

Lemma poll_missing z j e : nth_error (ks_polls z) j = None -> poll_step z j e = (z, []).
Proof. intros H. unfold poll_step. rewrite H. reflexivity. Qed.

(** ** The registry *)
Definition call_ids L : list nat :=
  flat_map (fun o => match o with Issued i _ _ _ => [i] | Repeated i _ _ => [i] | _ => [] end) L.

Definition owner_known L z (cs : list call) (i : nat) (o : owner) : Prop :=
  match o with
  | ByUser r => exists x t s, In (Issued i x r t) L /\ nth_error (ks_sessions z) x = Some s /\
      nth_error cs i = Some (session_call (ss_unit s) r (timeout_or t (ss_timeout s)))
  | ByPoll j n => In (Repeated i j n) L /\ exists p s, nth_error (ks_polls z) j = Some p /\
      nth_error (ks_sessions z) (po_session p) = Some s /\
      nth_error cs i = Some (session_call (ss_unit s) (po_request p) (po_timeout p))
  end.

Record reg L z (cs : list call) : Prop := {
  rg_open_ids : opened_ids L = seq 0 (List.length (ks_sessions z));
  rg_open : forall x s, nth_error (ks_sessions z) x = Some s -> In (Opened x (ss_unit s) (ss_timeout s)) L;
  rg_sched_ids : scheduled_ids L = seq 0 (List.length (ks_polls z));
  rg_sched : forall j p, nth_error (ks_polls z) j = Some p ->
    exists t f s, In (Scheduled j (po_session p) (po_request p) t f) L /\
      nth_error (ks_sessions z) (po_session p) = Some s /\ po_timeout p = timeout_or t (ss_timeout s);
  rg_call_ids : call_ids L = seq 0 (List.length (ks_owners z));
  rg_owner : forall i o, nth_error (ks_owners z) i = Some o -> owner_known L z cs i o;
  rg_calls : List.length cs = List.length (ks_owners z)
}.

(** States that agree on what the registry is about. *)
Definition sess_rec (s : session) : N * N := (ss_unit s, ss_timeout s).
Definition poll_rec (p : poll) : nat * request * N := (po_session p, po_request p, po_timeout p).
Definition agree {A B} (f : A -> B) (l l' : list A) : Prop := map f l = map f l'.

Lemma agree_nth {A B} (f : A -> B) l l' i a : agree f l l' -> nth_error l i = Some a -> exists a', nth_error l' i = Some a' /\ f a' = f a.
Proof.
  intros H E. assert (E1 : nth_error (map f l) i = Some (f a)) by (apply map_nth_error; exact E).
  rewrite H in E1. destruct (nth_error l' i) as [a'|] eqn:E2.
  - exists a'. split; [reflexivity|]. rewrite (map_nth_error f i l' E2) in E1. inversion E1. reflexivity.
  - exfalso. apply nth_error_None in E2. assert (E3 : nth_error (map f l') i = None) by (apply nth_error_None; rewrite map_length; exact E2).
    rewrite E3 in E1. discriminate.
Qed.

Lemma agree_length {A B} (f : A -> B) l l' : agree f l l' -> List.length l = List.length l'.
Proof. intros H. rewrite <- (map_length f l), <- (map_length f l'). unfold agree in H. rewrite H. reflexivity. Qed.

Lemma agree_sym {A B} (f : A -> B) l l' : agree f l l' -> agree f l' l.
Proof. unfold agree. auto. Qed.

Lemma agree_update {A B} (f : A -> B) (l : list A) : forall n a b, nth_error l n = Some a -> f b = f a -> agree f l (update l n b).
Proof.
  unfold agree. induction l as [|c l IH]; intros [|n] a b E H; cbn in *; try discriminate.
  - inversion E; subst. rewrite H. reflexivity.
  - f_equal. eapply IH; eassumption.
Qed.

Lemma nothing_ids L l f : (forall o, In o l -> f o = []) -> flat_map f (L ++ l) = flat_map f L :> list nat.
Proof.
  intros H. rewrite flat_map_app. replace (flat_map f l) with (@nil nat); [apply app_nil_r|].
  induction l as [|o l IH]; [reflexivity|]. cbn. rewrite (H o (or_introl eq_refl)), <- IH; [reflexivity|]. intros o' Ho'. apply H. right. exact Ho'.
Qed.

(** Outputs the registry is not about. *)
Definition neutral (o : koutput) : bool :=
  match o with Opened _ _ _ | Scheduled _ _ _ _ _ | Issued _ _ _ _ | Repeated _ _ _ => false | _ => true end.

Lemma owner_known_agree L L' z z' cs cs' i o : (forall x, In x L -> In x L') ->
  agree sess_rec (ks_sessions z) (ks_sessions z') -> agree poll_rec (ks_polls z) (ks_polls z') ->
  (forall k, nth_error cs i = Some k -> nth_error cs' i = Some k) -> owner_known L z cs i o -> owner_known L' z' cs' i o.
Proof.
  intros HL HS HP Hc. destruct o as [r|j n]; cbn [owner_known].
  - intros (x & t & s & A & B & C). destruct (agree_nth _ _ _ _ _ HS B) as (s' & B' & Es). injection Es as Eu Et.
    exists x, t, s'. split; [auto|]. split; [exact B'|]. rewrite Eu, Et. auto.
  - intros (A & p & s & B & C & D). destruct (agree_nth _ _ _ _ _ HP B) as (p' & B' & Ep). injection Ep as E1 E2 E3.
    destruct (agree_nth _ _ _ _ _ HS C) as (s' & C' & Es). injection Es as Eu Et.
    split; [auto|]. exists p', s'. split; [exact B'|]. rewrite E1. split; [exact C'|]. rewrite E2, E3, Eu. auto.
Qed.

Lemma reg_agree L l z z' cs : reg L z cs -> forallb neutral l = true ->
  agree sess_rec (ks_sessions z) (ks_sessions z') -> agree poll_rec (ks_polls z) (ks_polls z') -> ks_owners z' = ks_owners z ->
  reg (L ++ l) z' cs.
Proof.
  intros R Hl HS HP HO. rewrite forallb_forall in Hl.
  assert (Hin : forall x, In x L -> In x (L ++ l)) by (intros; apply in_or_app; auto).
  constructor.
  - unfold opened_ids. rewrite nothing_ids; [rewrite <- (agree_length _ _ _ HS); apply (rg_open_ids _ _ _ R)|].
    intros o Ho. specialize (Hl o Ho). destruct o; try reflexivity. discriminate.
  - intros x s' E. destruct (agree_nth _ _ _ _ _ (agree_sym _ _ _ HS) E) as (s & E1 & Er). injection Er as Eu Et.
    apply Hin. rewrite <- Eu, <- Et. exact (rg_open _ _ _ R _ _ E1).
  - unfold scheduled_ids. rewrite nothing_ids; [rewrite <- (agree_length _ _ _ HP); apply (rg_sched_ids _ _ _ R)|].
    intros o Ho. specialize (Hl o Ho). destruct o; try reflexivity. discriminate.
  - intros j p' E. destruct (agree_nth _ _ _ _ _ (agree_sym _ _ _ HP) E) as (p & E1 & Er). injection Er as Ea Eb Ec.
    destruct (rg_sched _ _ _ R _ _ E1) as (t & f & s & A & B & C).
    destruct (agree_nth _ _ _ _ _ HS B) as (s' & B' & Es). injection Es as Eu Et.
    exists t, f, s'. rewrite <- Ea, <- Eb, <- Ec. split; [apply Hin; exact A|]. split; [exact B'|]. rewrite Et. exact C.
  - unfold call_ids. rewrite nothing_ids; [rewrite HO; apply (rg_call_ids _ _ _ R)|].
    intros o Ho. specialize (Hl o Ho). destruct o; try reflexivity; discriminate.
  - intros i o. rewrite HO. intros E.
    exact (owner_known_agree L (L ++ l) z z' cs cs i o Hin HS HP (fun k H => H) (rg_owner _ _ _ R _ _ E)).
  - rewrite HO. apply (rg_calls _ _ _ R).
Qed.

Lemma neutral_polled j (o : list (soutput (expected response))) : forallb neutral (map (Polled j) o) = true.
Proof. induction o; [reflexivity|assumption]. Qed.

(** A new owner. *)
Lemma reg_owner L l z z' cs i o k : reg L z cs -> i = List.length (ks_owners z) ->
  opened_ids l = [] -> scheduled_ids l = [] -> call_ids l = [i] ->
  agree sess_rec (ks_sessions z) (ks_sessions z') -> agree poll_rec (ks_polls z) (ks_polls z') -> ks_owners z' = ks_owners z ++ [o] ->
  owner_known (L ++ l) z' (cs ++ [k]) i o -> reg (L ++ l) z' (cs ++ [k]).
Proof.
  intros R Hi H1 H2 H3 HS HP HO Hk.
  assert (Hin : forall x, In x L -> In x (L ++ l)) by (intros; apply in_or_app; auto).
  constructor.
  - unfold opened_ids. rewrite flat_map_app. fold (opened_ids L). fold (opened_ids l). rewrite H1, app_nil_r, <- (agree_length _ _ _ HS). apply (rg_open_ids _ _ _ R).
  - intros x s' E. destruct (agree_nth _ _ _ _ _ (agree_sym _ _ _ HS) E) as (s & E1 & Er). injection Er as Eu Et.
    apply Hin. rewrite <- Eu, <- Et. exact (rg_open _ _ _ R _ _ E1).
  - unfold scheduled_ids. rewrite flat_map_app. fold (scheduled_ids L). fold (scheduled_ids l). rewrite H2, app_nil_r, <- (agree_length _ _ _ HP). apply (rg_sched_ids _ _ _ R).
  - intros j p' E. destruct (agree_nth _ _ _ _ _ (agree_sym _ _ _ HP) E) as (p & E1 & Er). injection Er as Ea Eb Ec.
    destruct (rg_sched _ _ _ R _ _ E1) as (t & f & s & A & B & C).
    destruct (agree_nth _ _ _ _ _ HS B) as (s' & B' & Es). injection Es as Eu Et.
    exists t, f, s'. rewrite <- Ea, <- Eb, <- Ec. split; [apply Hin; exact A|]. split; [exact B'|]. rewrite Et. exact C.
  - unfold call_ids. rewrite flat_map_app. fold (call_ids L). fold (call_ids l). rewrite H3, HO, app_length, Nat.add_1_r, seq_snoc, (rg_call_ids _ _ _ R), Hi. reflexivity.
  - intros i' o'. rewrite HO. intros E. apply nth_snoc in E. destruct E as [E|[-> ->]]; [|rewrite <- Hi; exact Hk].
    eapply owner_known_agree; [exact Hin|exact HS|exact HP| |exact (rg_owner _ _ _ R _ _ E)].
    intros k' Ek. apply nth_snoc. left. exact Ek.
  - rewrite HO, !app_length, (rg_calls _ _ _ R). reflexivity.
Qed.

Lemma reg_init w : reg [] (sessions_init w) [].
Proof. constructor; cbn; try reflexivity; intros i o E; destruct i; discriminate. Qed.

Lemma agree_refl {A B} (f : A -> B) l : agree f l l.
Proof. reflexivity. Qed.

Lemma poll_rec_set z j p s : nth_error (ks_polls z) j = Some p -> agree poll_rec (ks_polls z) (ks_polls (set_sched z j p s)).
Proof. intros H. cbn. eapply agree_update; [exact H|reflexivity]. Qed.

Lemma nth_more {A} (l : list A) a i b : nth_error l i = Some b -> nth_error (l ++ [a]) i = Some b.
Proof. intros H. apply nth_snoc. left. exact H. Qed.

Lemma reg_did L z a z' c cs : reg (L ++ ks_log z) z cs -> did z a z' c -> reg (L ++ ks_log z') z' (cs ++ submits c).
Proof.
  intros R D. inversion D; subst; cbn [ks_log show with_log with_sessions with_owner kpost with_kqueue with_polls set_sched submits flat_map app]; rewrite ?app_nil_r, ?app_assoc.
  - eapply reg_agree; [exact R|reflexivity|reflexivity|reflexivity|reflexivity].
  - assert (Hin : forall l x, In x (L ++ ks_log z) -> In x ((L ++ ks_log z) ++ l)) by (intros; apply in_or_app; auto).
    constructor; cbn.
    + unfold opened_ids. rewrite flat_map_app. fold (opened_ids (L ++ ks_log z)). cbn. rewrite (rg_open_ids _ _ _ R), app_length, Nat.add_1_r, seq_snoc. reflexivity.
    + intros x s E. apply nth_snoc in E. destruct E as [E|[-> ->]].
      * apply Hin. exact (rg_open _ _ _ R _ _ E).
      * apply in_or_app. right. cbn. auto.
    + unfold scheduled_ids. rewrite nothing_ids; [apply (rg_sched_ids _ _ _ R)|]. intros o [<-|[<-|[]]]; reflexivity.
    + intros j p E. destruct (rg_sched _ _ _ R _ _ E) as (t' & f & s & A & B & C). exists t', f, s.
      split; [apply Hin; exact A|]. split; [apply nth_more; exact B|exact C].
    + unfold call_ids. rewrite nothing_ids; [apply (rg_call_ids _ _ _ R)|]. intros o [<-|[<-|[]]]; reflexivity.
    + intros i o E. pose proof (rg_owner _ _ _ R _ _ E) as K. destruct o as [r|j n]; cbn [owner_known] in *.
      * destruct K as (x & t' & s & A & B & C). exists x, t', s. split; [apply Hin; exact A|]. split; [apply nth_more; exact B|exact C].
      * destruct K as (A & p & s & B & C & E'). split; [apply Hin; exact A|]. exists p, s. split; [exact B|]. split; [apply nth_more; exact C|exact E'].
    + apply (rg_calls _ _ _ R).
  - eapply reg_owner; [exact R|reflexivity|reflexivity|reflexivity|reflexivity|reflexivity|reflexivity|reflexivity|].
    cbn. exists x, t, s. split; [apply in_or_app; right; cbn; auto|]. split; [exact H|].
    rewrite <- (rg_calls _ _ _ R). rewrite nth_error_app2, Nat.sub_diag by lia. reflexivity.
  - assert (Hin : forall l x, In x (L ++ ks_log z) -> In x ((L ++ ks_log z) ++ l)) by (intros; apply in_or_app; auto).
    constructor; cbn.
    + unfold opened_ids. rewrite nothing_ids; [apply (rg_open_ids _ _ _ R)|]. intros o [<-|[<-|[]]]; reflexivity.
    + intros x' s' E. apply Hin. exact (rg_open _ _ _ R _ _ E).
    + unfold scheduled_ids. rewrite flat_map_app. fold (scheduled_ids (L ++ ks_log z)). cbn. rewrite (rg_sched_ids _ _ _ R), app_length, Nat.add_1_r, seq_snoc. reflexivity.
    + intros j p E. apply nth_snoc in E. destruct E as [E|[-> ->]]; cbn.
      * destruct (rg_sched _ _ _ R _ _ E) as (t' & f' & s' & A & B & C). exists t', f', s'.
        split; [apply Hin; exact A|]. split; [exact B|exact C].
      * exists t, f, s. split; [apply in_or_app; right; cbn; auto|]. split; [exact H|reflexivity].
    + unfold call_ids. rewrite nothing_ids; [apply (rg_call_ids _ _ _ R)|]. intros o [<-|[<-|[]]]; reflexivity.
    + intros i o E. pose proof (rg_owner _ _ _ R _ _ E) as K. destruct o as [r'|j n]; cbn [owner_known] in *.
      * destruct K as (x' & t' & s' & A & B & C). exists x', t', s'. split; [apply Hin; exact A|]. split; [exact B|exact C].
      * destruct K as (A & p & s' & B & C & E'). split; [apply Hin; exact A|]. exists p, s'. split; [apply nth_more; exact B|]. split; [exact C|exact E'].
    + apply (rg_calls _ _ _ R).
  - eapply reg_agree; [exact R|reflexivity|reflexivity| |reflexivity]. cbn. eapply agree_update; [exact H|reflexivity].
  - eapply reg_agree; [exact R|reflexivity|reflexivity|reflexivity|reflexivity].
  - eapply reg_agree; [exact R|reflexivity|reflexivity|reflexivity|reflexivity].
Qed.

Lemma reg_polled L z j p e z' c cs : reg (L ++ ks_log z) z cs -> nth_error (ks_polls z) j = Some p -> polled z j p e z' c ->
  reg (L ++ ks_log z') z' (cs ++ submits c).
Proof.
  intros R Hp D. inversion D; subst; cbn [ks_log show with_log with_owner set_sched with_polls submits flat_map app]; rewrite ?app_nil_r, ?app_assoc.
  - eapply reg_agree; [exact R|apply neutral_polled|reflexivity| |reflexivity]. cbn. eapply agree_update; [exact Hp|reflexivity].
  - rewrite <- (app_assoc (L ++ ks_log z)). destruct (rg_sched _ _ _ R _ _ Hp) as (t & f & x & A & B & C). rewrite B in H1. subst u.
    assert (K : forall g, (forall y, g (Polled j y) = []) -> flat_map g (map (Polled j) o) = [] :> list nat).
    { intros g Hg. induction o as [|y o' IH]; [reflexivity|]. cbn. rewrite Hg. clear -Hg. induction o'; [reflexivity|]. cbn. rewrite Hg. assumption. }
    eapply reg_owner; [exact R|reflexivity| | | |reflexivity| |reflexivity|].
    + unfold opened_ids. rewrite flat_map_app, K by reflexivity. reflexivity.
    + unfold scheduled_ids. rewrite flat_map_app, K by reflexivity. reflexivity.
    + unfold call_ids. rewrite flat_map_app, K by reflexivity. reflexivity.
    + cbn. eapply agree_update; [exact Hp|reflexivity].
    + cbn. split; [apply in_or_app; right; apply in_or_app; right; left; reflexivity|].
      eexists. exists x. split; [eapply update_this; exact Hp|]. cbn. split; [exact B|].
      rewrite <- (rg_calls _ _ _ R). rewrite nth_error_app2, Nat.sub_diag by lia. reflexivity.
Qed.
End Facts.
