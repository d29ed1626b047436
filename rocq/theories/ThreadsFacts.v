(** Proofs about data races and deadlocks. *)
From Verif Require Import Prelude Threads SpecThreads.
From Coq Require Import Relations Lia.

(** ** Equality tests *)
Lemma thread_eqb_refl t : thread_eqb t t = true.
Proof. destruct t; cbn; apply Nat.eqb_refl. Qed.
Lemma thread_eqb_true t u : thread_eqb t u = true -> t = u.
Proof. destruct t, u; cbn; try discriminate; intros H%Nat.eqb_eq; congruence. Qed.
Lemma thread_eqb_spec t u : reflect (t = u) (thread_eqb t u).
Proof.
  destruct (thread_eqb t u) eqn:E; constructor.
  - apply thread_eqb_true; assumption.
  - intros ->. rewrite thread_eqb_refl in E. discriminate.
Qed.
Lemma mutex_eqb_spec m n : reflect (m = n) (mutex_eqb m n).
Proof.
  destruct m as [ | d], n as [ | e]; cbn; try (constructor; congruence).
  destruct (Nat.eqb_spec d e); constructor; congruence.
Qed.

(** ** Runs *)
Lemma thread_run_app es es' s :
  thread_run s (es ++ es') =
  (fst (thread_run (fst (thread_run s es)) es'), snd (thread_run s es) ++ snd (thread_run (fst (thread_run s es)) es')).
Proof.
  revert s. induction es as [ | e es IH]; intros s; cbn [thread_run app fst snd].
  - destruct (thread_run s es'). reflexivity.
  - destruct (thread_step s e) as [s1 o]. rewrite IH. destruct (thread_run s1 es) as [s2 o2]. cbn [fst snd].
    rewrite app_assoc. reflexivity.
Qed.

Lemma executes_snoc es e s tr : executes (es ++ [e]) s tr ->
  exists s0 tr0 o, executes es s0 tr0 /\ thread_step s0 e = (s, o) /\ tr = tr0 ++ o.
Proof.
  unfold executes. rewrite thread_run_app. destruct (thread_run threads_init es) as [s0 tr0]. cbn [fst snd thread_run].
  destruct (thread_step s0 e) as [s1 o] eqn:E. cbn [fst snd]. rewrite app_nil_r. intros [= <- <-].
  exists s0, tr0, o. auto.
Qed.

(** Induction over executions, from the first step on. *)
Lemma executes_ind (P : list choice -> threads -> list event -> Prop) :
  P [] threads_init [] ->
  (forall es e s0 tr0 s o, executes es s0 tr0 -> P es s0 tr0 -> thread_step s0 e = (s, o) -> P (es ++ [e]) s (tr0 ++ o)) ->
  forall es s tr, executes es s tr -> P es s tr.
Proof.
  intros H0 HS es. induction es as [ | e es IH] using rev_ind; intros s tr X.
  - injection X as <- <-. exact H0.
  - destruct (executes_snoc _ _ _ _ X) as (s0 & tr0 & o & X0 & ST & ->). eapply HS; eauto.
Qed.

(** ** What a step does *)
Inductive stepped (s : threads) : threads -> list event -> Prop :=
| st_none : stepped s s []
| st_enter t f : (th_stack s t = [] \/ exists g r l, th_stack s t = (g, CallUser :: r) :: l) -> callable t f = true ->
    stepped s (set_stack s t ((f, body f) :: th_stack s t)) []
| st_return t f l : th_stack s t = (f, []) :: l -> stepped s (set_stack s t l) []
| st_skip t f a r l : th_stack s t = (f, a :: r) :: l -> (forall m, a <> Acquire m /\ a <> Release m) ->
    stepped s (set_stack s t ((f, r) :: l)) []
| st_read t f x r l : th_stack s t = (f, Read x :: r) :: l ->
    stepped s (set_stack s t ((f, r) :: l)) [at_event t f (ORead x)]
| st_write t f x r l : th_stack s t = (f, Write x :: r) :: l ->
    stepped s (set_stack s t ((f, r) :: l)) [at_event t f (OWrite x)]
| st_acquire t f m r l : th_stack s t = (f, Acquire m :: r) :: l -> th_owner s m = None ->
    stepped s (set_owner (set_stack s t ((f, r) :: l)) m (Some t)) [at_event t f (OAcquire m)]
| st_release t f m r l : th_stack s t = (f, Release m :: r) :: l ->
    stepped s (set_owner (set_stack s t ((f, r) :: l)) m None) [at_event t f (ORelease m)]
| st_post t f c g r l : th_stack s t = (f, Post c g :: r) :: l ->
    stepped s (set_queue (set_stack s t ((f, r) :: l)) (th_queue s ++ [(th_posted s, c, g)]) (S (th_posted s)))
      [at_event t f (OPost (th_posted s) g)]
| st_begin c n f q : th_stack s (Strand c) = [] -> take_first c (th_queue s) = Some (n, f, q) ->
    stepped s (set_stack (set_queue s q (th_posted s)) (Strand c) [(f, body f)]) [at_event (Strand c) f (OBegin n)].

Lemma step_stepped s e s' o : thread_step s e = (s', o) -> stepped s s' o.
Proof.
  destruct e as [t f | t | t | c]; cbn [thread_step].
  - destruct (th_stack s t) as [ | [g [ | a r]] l] eqn:E; cbn [andb].
    + destruct (callable t f) eqn:C; intros [= <- <-]; [rewrite <- E; apply st_enter; auto | apply st_none].
    + intros [= <- <-]. apply st_none.
    + destruct a; try (intros [= <- <-]; apply st_none).
      destruct (callable t f) eqn:C; intros [= <- <-]; [rewrite <- E; apply st_enter; eauto | apply st_none].
  - destruct (th_stack s t) as [ | [f [ | a r]] l] eqn:E.
    + intros [= <- <-]. apply st_none.
    + intros [= <- <-]. eapply st_return; eauto.
    + destruct a.
      * intros [= <- <-]. eapply st_read; eauto.
      * intros [= <- <-]. eapply st_write; eauto.
      * destruct (th_owner s m) eqn:O; intros [= <- <-]; [apply st_none | eapply st_acquire; eauto].
      * intros [= <- <-]. eapply st_release; eauto.
      * intros [= <- <-]. eapply st_post; eauto.
      * intros [= <- <-]. eapply st_skip; eauto. split; discriminate.
  - destruct (th_stack s t) as [ | [f [ | a r]] l] eqn:E; try (intros [= <- <-]; apply st_none).
    destruct a; intros [= <- <-]; try apply st_none; (eapply st_skip; [eassumption | split; discriminate]).
  - destruct (th_stack s (Strand c)) as [ | x l] eqn:E; [ | intros [= <- <-]; apply st_none].
    destruct (take_first c (th_queue s)) as [[[n f] q] | ] eqn:T; intros [= <- <-]; [apply st_begin; assumption | apply st_none].
Qed.

Lemma take_first_split c q n f r : take_first c q = Some (n, f, r) ->
  exists q1 q2, q = q1 ++ (n, c, f) :: q2 /\ r = q1 ++ q2 /\ forall x, In x q1 -> snd (fst x) <> c.
Proof.
  revert n f r. induction q as [ | [[m c'] g] q IH]; intros n f r; cbn [take_first]; [discriminate | ].
  destruct (Nat.eqb_spec c' c) as [-> | NE].
  - intros [= <- <- <-]. exists [], q. split; [reflexivity | split; [reflexivity | intros x []]].
  - destruct (take_first c q) as [[[m' g'] r'] | ]; [ | discriminate]. intros [= <- <- <-].
    destruct (IH _ _ _ eq_refl) as (q1 & q2 & -> & -> & F). exists ((m, c', g) :: q1), q2. repeat split.
    intros x [<- | I]; [exact NE | auto].
Qed.

Lemma stack_same s t l : th_stack (set_stack s t l) t = l.
Proof. cbn. rewrite thread_eqb_refl. reflexivity. Qed.

(** ** Where functions execute *)
Definition strand_of (f : function) : option nat :=
  match f with
  | DoSend c | DoReject c | DoChannelShutdown c _ | DoSessionShutdown c _ _ | DoRegister c _ _
  | DoStart c _ | DoStop c _ | DoSetFrequency c _ | ConnectionShutdown c | ConnectionClose c
  | DoServerStart c | DoServerShutdown c | DoAddSession c | DoAccept c | AcceptorShutdown c | ServerConnectionClose c
  | OnTimeout c | OnReceive c | OnError c | OnConnection c | OnPollTimer c _ | OnPollResponse c _
  | OnAccept c | OnServerReceive c | OnServerIo c | OnUserTimer c => Some c
  | _ => None
  end.

Definition posted_function (f : function) : bool :=
  match f with
  | DoSend _ | DoReject _ | DoChannelShutdown _ _ | DoSessionShutdown _ _ _ | DoRegister _ _ _
  | DoStart _ _ | DoStop _ _ | DoSetFrequency _ _ | ConnectionShutdown _ | ConnectionClose _
  | DoServerStart _ | DoServerShutdown _ | DoAddSession _ | DoAccept _ | AcceptorShutdown _ | ServerConnectionClose _ => true
  | _ => false
  end.

Definition placed (t : thread) (f : function) : Prop := forall c, strand_of f = Some c -> t = Strand c.

Lemma callable_placed t f : callable t f = true -> placed t f.
Proof.
  intros C c S. destruct f; cbn in C, S; try discriminate; injection S as ->;
    destruct t; try discriminate; apply Nat.eqb_eq in C; subst; reflexivity.
Qed.
Lemma callable_not_posted t f : callable t f = true -> posted_function f = false.
Proof. destruct f; cbn; try reflexivity; discriminate. Qed.

Lemma posts_placed f c g : In (Post c g) (body f) -> strand_of g = Some c /\ posted_function g = true.
Proof.
  destruct f; cbn; intros H;
    repeat (rewrite ?in_app_iff, ?in_map_iff in H; cbn [In] in H;
      match type of H with
      | _ \/ _ => destruct H as [H | H]
      | exists _, _ => destruct H as (? & H & _)
      | False => contradiction H
      | _ = _ => first [discriminate H | injection H as <- <-; split; reflexivity]
      end).
Qed.

Definition suffix (r l : list action) : Prop := exists p, l = p ++ r.
Lemma suffix_tail a r l : suffix (a :: r) l -> suffix r l.
Proof. intros [p ->]. exists (p ++ [a]). rewrite <- app_assoc. reflexivity. Qed.
Lemma suffix_in a r l : suffix r l -> In a r -> In a l.
Proof. intros [p ->] I. apply in_or_app. auto. Qed.
Lemma suffix_refl l : suffix l l.
Proof. exists []. reflexivity. Qed.

(** The stacks, the queue and the trace contain what is possible. *)
Definition op_of (f : function) (o : operation) : Prop :=
  match o with
  | ORead l => In (Read l) (body f) | OWrite l => In (Write l) (body f)
  | OAcquire m => In (Acquire m) (body f) | ORelease m => In (Release m) (body f)
  | OPost _ g => exists c, In (Post c g) (body f)
  | OBegin _ => posted_function f = true
  end.

Record sane (s : threads) (tr : list event) : Prop := {
  sn_stack : forall t f r, In (f, r) (th_stack s t) -> placed t f /\ suffix r (body f);
  sn_queue : forall n c f, In (n, c, f) (th_queue s) -> strand_of f = Some c /\ posted_function f = true;
  sn_trace : forall e, In e tr -> placed (ev_thread e) (ev_function e) /\ op_of (ev_function e) (ev_op e)
}.

Lemma executes_sane es s tr : executes es s tr -> sane s tr.
Proof.
  revert es s tr. apply executes_ind.
  { constructor; cbn; intros; contradiction. }
  intros es e s0 tr0 s o _ [S Q T] ST%step_stepped.
  assert (TOP : forall t f a r l, th_stack s0 t = (f, a :: r) :: l ->
            placed t f /\ In a (body f) /\ forall u g r', In (g, r') (if thread_eqb t u then (f, r) :: l else th_stack s0 u) ->
              placed u g /\ suffix r' (body g)).
  { intros t f a r l E. assert (I : In (f, a :: r) (th_stack s0 t)) by (rewrite E; left; reflexivity).
    destruct (S _ _ _ I) as [P X]. split; [exact P | split; [eapply suffix_in; [exact X | left; reflexivity] | ]].
    intros u g r'. destruct (thread_eqb_spec t u) as [<- | NE]; [ | apply S].
    intros [[= <- <-] | J]; [split; [exact P | eapply suffix_tail; exact X] | apply S; rewrite E; right; exact J]. }
  assert (SNOC : forall x, placed (ev_thread x) (ev_function x) -> op_of (ev_function x) (ev_op x) ->
            forall e', In e' (tr0 ++ [x]) -> placed (ev_thread e') (ev_function e') /\ op_of (ev_function e') (ev_op e')).
  { intros x P O e' I. apply in_app_iff in I as [I | [<- | []]]; [apply T; exact I | auto]. }
  destruct ST as [ | t f K C | t f l E | t f a r l E _ | t f x r l E | t f x r l E | t f m r l E O | t f m r l E | t f c g r l E | c n f q E TF];
    rewrite ?app_nil_r;
    try (destruct (TOP _ _ _ _ _ E) as (P & IB & F); constructor; cbn [set_stack set_owner set_queue th_stack th_queue];
         [exact F | exact Q | first [exact T | apply SNOC; assumption]]).
  - constructor; assumption.
  - constructor; cbn [set_stack th_stack th_queue]; [ | exact Q | exact T].
    intros u g r. destruct (thread_eqb_spec t u) as [<- | NE]; [ | apply S].
    intros [[= <- <-] | J]; [split; [apply callable_placed; exact C | apply suffix_refl] | apply S; exact J].
  - constructor; cbn [set_stack th_stack th_queue]; [ | exact Q | exact T].
    intros u g r. destruct (thread_eqb_spec t u) as [<- | NE]; [ | apply S].
    intros J. apply S. rewrite E. right. exact J.
  - destruct (TOP _ _ _ _ _ E) as (P & IB & F). constructor; cbn [set_stack set_owner set_queue th_stack th_queue].
    + exact F.
    + intros n d h I. apply in_app_iff in I as [I | [[= <- <- <-] | []]]; [apply Q in I; exact I | apply posts_placed in IB; exact IB].
    + apply SNOC; [exact P | exists c; exact IB].
  - destruct (take_first_split _ _ _ _ _ TF) as (q1 & q2 & EQ & -> & _).
    assert (I : In (n, c, f) (th_queue s0)) by (rewrite EQ; apply in_elt).
    apply Q in I as [P1 P2].
    assert (PL : placed (Strand c) f) by (intros d X; congruence).
    constructor; cbn [set_stack set_queue th_stack th_queue].
    + intros u g r. destruct (thread_eqb_spec (Strand c) u) as [<- | NE]; [ | apply S].
      intros [[= <- <-] | []]. split; [exact PL | apply suffix_refl].
    + intros m d g J. apply (Q m). rewrite EQ. apply in_app_iff in J as [J | J]; apply in_or_app; [left | right; right]; exact J.
    + apply SNOC; [exact PL | exact P2].
Qed.

(** ** Closures begin after they have been posted *)
Record begun (s : threads) (tr : list event) : Prop := {
  bg_queue : forall n c f, In (n, c, f) (th_queue s) -> exists i e, nth_error tr i = Some e /\ ev_op e = OPost n f;
  bg_stack : forall t f r, In (f, r) (th_stack s t) -> posted_function f = true ->
    exists k n, nth_error tr k = Some (at_event t f (OBegin n));
  bg_begin : forall k t f n, nth_error tr k = Some (at_event t f (OBegin n)) ->
    exists i e, (i < k)%nat /\ nth_error tr i = Some e /\ ev_op e = OPost n f;
  bg_event : forall j e, nth_error tr j = Some e -> posted_function (ev_function e) = true ->
    exists k n, (k <= j)%nat /\ nth_error tr k = Some (at_event (ev_thread e) (ev_function e) (OBegin n))
}.

Lemma nth_snoc {A} (l : list A) x i y : nth_error (l ++ [x]) i = Some y ->
  ((i < List.length l)%nat /\ nth_error l i = Some y) \/ (i = List.length l /\ y = x).
Proof.
  intros H. destruct (Nat.lt_ge_cases i (List.length l)) as [L | G].
  - left. rewrite nth_error_app1 in H by exact L. auto.
  - right. rewrite nth_error_app2 in H by exact G. destruct (i - List.length l)%nat as [ | [ | k]] eqn:E; cbn in H; try discriminate.
    injection H as <-. split; [lia | reflexivity].
Qed.
Lemma nth_snoc_old {A} (l : list A) x i y : nth_error l i = Some y -> nth_error (l ++ x) i = Some y.
Proof. intros H. rewrite nth_error_app1; [exact H | apply nth_error_Some; congruence]. Qed.
Lemma nth_snoc_new {A} (l : list A) x : nth_error (l ++ [x]) (List.length l) = Some x.
Proof. rewrite nth_error_app2, Nat.sub_diag by lia. reflexivity. Qed.
Lemma nth_lt {A} (l : list A) i y : nth_error l i = Some y -> (i < List.length l)%nat.
Proof. intros H. apply nth_error_Some. congruence. Qed.

Lemma begun_quiet s s' tr : begun s tr -> th_queue s' = th_queue s ->
  (forall t f r, In (f, r) (th_stack s' t) -> posted_function f = true -> exists r', In (f, r') (th_stack s t)) ->
  begun s' tr.
Proof.
  intros [Q S B E] EQ K. constructor.
  - rewrite EQ. exact Q.
  - intros t f r I P. destruct (K _ _ _ I P) as [r' I']. exact (S _ _ _ I' P).
  - exact B.
  - exact E.
Qed.

Lemma begun_event s s' tr t f o : begun s tr ->
  (exists r, In (f, r) (th_stack s t)) -> (forall n, o <> OBegin n) ->
  (forall n c g, In (n, c, g) (th_queue s') -> In (n, c, g) (th_queue s) \/ o = OPost n g) ->
  (forall t f r, In (f, r) (th_stack s' t) -> posted_function f = true -> exists r', In (f, r') (th_stack s t)) ->
  begun s' (tr ++ [at_event t f o]).
Proof.
  intros [Q S B E] [r0 I0] NB KQ K. constructor.
  - intros n c g I. destruct (KQ _ _ _ I) as [J | ->].
    + destruct (Q _ _ _ J) as (i & e & N & O). exists i, e. split; [apply nth_snoc_old; exact N | exact O].
    + exists (List.length tr), (at_event t f (OPost n g)). split; [apply nth_snoc_new | reflexivity].
  - intros u g r I P. destruct (K _ _ _ I P) as [r' I']. destruct (S _ _ _ I' P) as (k & n & N).
    exists k, n. apply nth_snoc_old. exact N.
  - intros k u g n N. apply nth_snoc in N as [[L N] | [_ X]].
    + destruct (B _ _ _ _ N) as (i & e & L' & N' & O). exists i, e. split; [exact L' | split; [apply nth_snoc_old; exact N' | exact O]].
    + injection X as _ _ X. destruct (NB n). symmetry. exact X.
  - intros j e N P. apply nth_snoc in N as [[L N] | [-> ->]].
    + destruct (E _ _ N P) as (k & n & L' & N'). exists k, n. split; [exact L' | apply nth_snoc_old; exact N'].
    + cbn [ev_function ev_thread at_event] in *. destruct (S _ _ _ I0 P) as (k & n & N). exists k, n.
      split; [apply nth_lt in N; lia | apply nth_snoc_old; exact N].
Qed.

Lemma executes_begun es s tr : executes es s tr -> begun s tr.
Proof.
  revert es s tr. apply executes_ind.
  { constructor; cbn; intros; try contradiction; destruct k || destruct j; discriminate. }
  intros es e s0 tr0 s o _ B ST%step_stepped.
  assert (TOP : forall t f a r l, th_stack s0 t = (f, a :: r) :: l ->
            (exists r, In (f, r) (th_stack s0 t)) /\
            forall u g r', In (g, r') (if thread_eqb t u then (f, r) :: l else th_stack s0 u) -> posted_function g = true ->
              exists r'', In (g, r'') (th_stack s0 u)).
  { intros t f a r l E. split; [exists (a :: r); rewrite E; left; reflexivity | ].
    intros u g r' I _. destruct (thread_eqb_spec t u) as [<- | NE]; [ | eauto].
    rewrite E. destruct I as [[= <- <-] | J]; [exists (a :: r); left; reflexivity | exists r'; right; exact J]. }
  destruct ST as [ | t f K C | t f l E | t f a r l E _ | t f x r l E | t f x r l E | t f m r l E O | t f m r l E | t f c g r l E | c n f q E TF];
    rewrite ?app_nil_r;
    try (destruct (TOP _ _ _ _ _ E) as (I0 & F); apply (begun_event s0); [exact B | exact I0 | discriminate | cbn; solve [auto] | exact F]).
  - exact B.
  - apply (begun_quiet s0); [exact B | reflexivity | ]. cbn [set_stack th_stack]. intros u g r.
    destruct (thread_eqb_spec t u) as [<- | NE]; [ | eauto].
    intros [[= <- <-] | J] P; [ | eauto]. rewrite (callable_not_posted _ _ C) in P. discriminate.
  - apply (begun_quiet s0); [exact B | reflexivity | ]. cbn [set_stack th_stack]. intros u g r.
    destruct (thread_eqb_spec t u) as [<- | NE]; [ | eauto]. rewrite E. intros J _. exists r. right. exact J.
  - destruct (TOP _ _ _ _ _ E) as (I0 & F). apply (begun_quiet s0); [exact B | reflexivity | exact F].
  - destruct (TOP _ _ _ _ _ E) as (I0 & F). apply (begun_event s0); [exact B | exact I0 | discriminate | | exact F].
    cbn [set_queue set_stack th_queue]. intros n d h I. apply in_app_iff in I as [I | [[= <- <- <-] | []]]; auto.
  - destruct (take_first_split _ _ _ _ _ TF) as (q1 & q2 & EQ & -> & _).
    assert (IQ : In (n, c, f) (th_queue s0)) by (rewrite EQ; apply in_elt).
    destruct B as [Q S B V]. destruct (Q _ _ _ IQ) as (i & e' & N & O).
    constructor; cbn [set_stack set_queue th_stack th_queue].
    + intros m d g J.
      assert (J' : In (m, d, g) (th_queue s0)) by (rewrite EQ; apply in_app_iff in J as [J | J]; apply in_or_app; [left | right; right]; exact J).
      destruct (Q _ _ _ J') as (i' & e2 & N' & O'). exists i', e2. split; [apply nth_snoc_old; exact N' | exact O'].
    + intros u g r I P. destruct (thread_eqb_spec (Strand c) u) as [<- | NE].
      * destruct I as [[= <- <-] | []]. exists (List.length tr0), n. apply nth_snoc_new.
      * destruct (S _ _ _ I P) as (k & m & N'). exists k, m. apply nth_snoc_old. exact N'.
    + intros k u g m N'. apply nth_snoc in N' as [[L N'] | [-> [= -> -> ->]]].
      * destruct (B _ _ _ _ N') as (i' & e2 & L' & N2 & O'). exists i', e2. split; [exact L' | split; [apply nth_snoc_old; exact N2 | exact O']].
      * exists i, e'. split; [apply nth_lt in N; exact N | split; [apply nth_snoc_old; exact N | exact O]].
    + intros j x N' P. apply nth_snoc in N' as [[L N'] | [-> ->]].
      * destruct (V _ _ N' P) as (k & m & L' & N2). exists k, m. split; [exact L' | apply nth_snoc_old; exact N2].
      * exists (List.length tr0), n. split; [lia | apply nth_snoc_new].
Qed.

(** ** Mutexes *)
Fixpoint owner_after (tr : list event) (m : mutex) (o : option thread) : option thread :=
  match tr with
  | [] => o
  | e :: tr' =>
      owner_after tr' m
        (match ev_op e with
         | OAcquire n => if mutex_eqb n m then Some (ev_thread e) else o
         | ORelease n => if mutex_eqb n m then None else o
         | _ => o
         end)
  end.
Definition owner_at (tr : list event) (m : mutex) (i : nat) : option thread := owner_after (firstn i tr) m None.

Lemma owner_after_app a b m o : owner_after (a ++ b) m o = owner_after b m (owner_after a m o).
Proof. revert o. induction a as [ | e a IH]; intros o; cbn [owner_after app]; [reflexivity | apply IH]. Qed.

Lemma owner_at_snoc tr x m i : (i <= List.length tr)%nat -> owner_at (tr ++ x) m i = owner_at tr m i.
Proof. intros L. unfold owner_at. rewrite firstn_app. replace (i - List.length tr)%nat with 0%nat by lia. cbn [firstn]. rewrite app_nil_r. reflexivity. Qed.

Lemma firstn_S {A} (l : list A) i x : nth_error l i = Some x -> firstn (S i) l = firstn i l ++ [x].
Proof. revert l. induction i as [ | i IH]; intros [ | y l] H; cbn in *; try discriminate; [congruence | ]. rewrite <- IH by exact H. reflexivity. Qed.

Lemma owner_at_S tr m i e : nth_error tr i = Some e ->
  owner_at tr m (S i) =
  match ev_op e with
  | OAcquire n => if mutex_eqb n m then Some (ev_thread e) else owner_at tr m i
  | ORelease n => if mutex_eqb n m then None else owner_at tr m i
  | _ => owner_at tr m i
  end.
Proof. intros N. unfold owner_at. rewrite (firstn_S _ _ _ N), owner_after_app. reflexivity. Qed.

(** Mutexes are acquired when they are free and released by their owners. *)
Definition locked_well (tr : list event) : Prop :=
  forall k e m, nth_error tr k = Some e ->
    (ev_op e = OAcquire m -> owner_at tr m k = None) /\ (ev_op e = ORelease m -> owner_at tr m k = Some (ev_thread e)).

(** What a function has yet to do: lock a mutex and release it, release it, or neither. *)
Definition no_lock (a : action) : Prop := forall m, a <> Acquire m /\ a <> Release m.
Inductive shape : list action -> option (mutex * bool) -> Prop :=
| sh_free r : Forall no_lock r -> shape r None
| sh_held r m : Forall no_lock r -> shape (r ++ [Release m]) (Some (m, true))
| sh_will r m : Forall no_lock r -> shape (Acquire m :: r ++ [Release m]) (Some (m, false)).

Ltac no_locks := repeat (first [apply Forall_nil | apply Forall_cons; [split; discriminate | ] | apply Forall_app; split |
  (apply Forall_map, Forall_forall; intros ? _; split; discriminate)]).

Lemma body_shape f : shape (body f) None \/ exists m, shape (body f) (Some (m, false)).
Proof.
  destruct f;
    try (left; apply sh_free; cbn [body channel_send check_pending app]; solve [no_locks]).
  - right. exists ManagerMutex. apply (sh_will [Write ClientChannels]). no_locks.
  - right. exists ManagerMutex. apply (sh_will [Write ServerChannels]). no_locks.
  - right. exists ManagerMutex. cbn [body].
    replace (Read ClientChannels :: _) with
      ((Read ClientChannels :: map (fun p => Post (fst p) (DoChannelShutdown (fst p) (snd p))) clients ++
       Write ClientChannels :: Read ServerChannels :: map (fun c => Post c (DoServerShutdown c)) servers ++ [Write ServerChannels]) ++ [Release ManagerMutex])
      by (cbn [app]; rewrite <- !app_assoc; cbn [app]; rewrite <- !app_assoc; reflexivity).
    apply sh_will. no_locks.
  - right. exists (DatabaseMutex d). apply (sh_will [Write (Tables d)]). no_locks.
  - right. exists (DatabaseMutex d). apply (sh_will [CallUser]). no_locks.
  - right. exists (DatabaseMutex d). apply (sh_will [Write (Tables d)]). no_locks.
Qed.

Lemma shape_tail a r o : shape (a :: r) o ->
  match a with
  | Acquire m => o = Some (m, false) /\ shape r (Some (m, true))
  | Release m => o = Some (m, true) /\ r = []
  | _ => shape r o /\ forall m, o <> Some (m, false)
  end.
Proof.
  intros H. inversion H as [r' F E | r' m F E | r' m F E]; subst.
  - inversion F as [ | ? ? N F']; subst. destruct a; try (split; [apply sh_free; assumption | discriminate]).
    + destruct (N m) as [X _]. congruence.
    + destruct (N m) as [_ X]. congruence.
  - destruct r' as [ | b r']; cbn [app] in E; injection E as E1 E2; subst.
    + split; reflexivity.
    + inversion F as [ | ? ? N F']; subst. destruct a; try (split; [apply sh_held; assumption | discriminate]).
      * destruct (N m0) as [X _]. congruence.
      * destruct (N m0) as [_ X]. congruence.
  - split; [reflexivity | apply sh_held; assumption].
Qed.

Lemma shape_nil o : shape [] o -> o = None.
Proof. intros H. inversion H as [r' F E | r' m F E | r' m F E]; subst; [reflexivity | ]. destruct r'; discriminate. Qed.

(** The frames of a thread with the mutexes they hold. *)
Inductive frames : list (function * list action) -> list (option (mutex * bool)) -> Prop :=
| fr_nil : frames [] []
| fr_cons f r l o os : shape r o -> frames l os -> frames ((f, r) :: l) (o :: os).

Definition holds (m : mutex) (o : option (mutex * bool)) : bool := match o with Some (n, true) => mutex_eqb n m | _ => false end.
Definition held (m : mutex) (os : list (option (mutex * bool))) : nat := List.length (filter (holds m) os).

Definition owns (o : option thread) (t : thread) : bool := match o with Some u => thread_eqb u t | None => false end.

Record exclusive (s : threads) (tr : list event) : Prop := {
  ex_held : forall t, exists os, frames (th_stack s t) os /\ forall m, held m os = if owns (th_owner s m) t then 1%nat else 0%nat;
  ex_owner : forall m, th_owner s m = owner_at tr m (List.length tr);
  ex_well : locked_well tr
}.

Lemma locked_well_snoc tr e : locked_well tr ->
  (forall m, ev_op e = OAcquire m -> owner_at tr m (List.length tr) = None) ->
  (forall m, ev_op e = ORelease m -> owner_at tr m (List.length tr) = Some (ev_thread e)) ->
  locked_well (tr ++ [e]).
Proof.
  intros W A R k x m N. apply nth_snoc in N as [[L N] | [-> ->]].
  - rewrite owner_at_snoc by lia. apply W. exact N.
  - rewrite owner_at_snoc by lia. split; [apply A | apply R].
Qed.

Lemma owner_at_end tr e m :
  owner_at (tr ++ [e]) m (List.length (tr ++ [e])) =
  match ev_op e with
  | OAcquire n => if mutex_eqb n m then Some (ev_thread e) else owner_at tr m (List.length tr)
  | ORelease n => if mutex_eqb n m then None else owner_at tr m (List.length tr)
  | _ => owner_at tr m (List.length tr)
  end.
Proof.
  rewrite app_length. cbn [List.length]. rewrite Nat.add_1_r, (owner_at_S _ _ _ _ (nth_snoc_new tr e)), owner_at_snoc by lia. reflexivity.
Qed.

(** A step of one thread that leaves the mutexes alone. *)
Lemma exclusive_quiet s s' tr t : exclusive s tr -> th_owner s' = th_owner s ->
  (forall u, u <> t -> th_stack s' u = th_stack s u) ->
  (forall os, frames (th_stack s t) os -> exists os', frames (th_stack s' t) os' /\ forall m, held m os' = held m os) ->
  exclusive s' tr.
Proof.
  intros [H O W] EO ES K. constructor.
  - intros u. rewrite EO. destruct (thread_eqb_spec u t) as [-> | NE].
    + destruct (H t) as (os & F & C). destruct (K os F) as (os' & F' & C'). exists os'. split; [exact F' | ].
      intros m. rewrite C'. apply C.
    + rewrite (ES _ NE). apply H.
  - rewrite EO. exact O.
  - exact W.
Qed.
Lemma exclusive_event s tr e : exclusive s tr -> (forall m, ev_op e <> OAcquire m /\ ev_op e <> ORelease m) -> exclusive s (tr ++ [e]).
Proof.
  intros [H O W] N. constructor.
  - exact H.
  - intros m. rewrite owner_at_end. destruct (ev_op e) as [ | | n | n | | ]; try apply O; destruct (N n) as [N1 N2]; congruence.
  - apply locked_well_snoc; [exact W | intros m E; destruct (N m); congruence | intros m E; destruct (N m); congruence].
Qed.

Lemma frames_cons_inv f r l os : frames ((f, r) :: l) os -> exists o os', os = o :: os' /\ shape r o /\ frames l os'.
Proof. inversion 1; subst. eauto. Qed.

Lemma other_stack s t l u : u <> t -> th_stack (set_stack s t l) u = th_stack s u.
Proof. intros NE. cbn. destruct (thread_eqb_spec t u); congruence. Qed.

Lemma executes_exclusive es s tr : executes es s tr -> exclusive s tr.
Proof.
  revert es s tr. apply executes_ind.
  { constructor.
    - intros t. exists []. split; [constructor | reflexivity].
    - reflexivity.
    - intros [ | k] e m N; discriminate. }
  intros es e s0 tr0 s o _ X ST%step_stepped.
  assert (QUIET : forall t f a r l, th_stack s0 t = (f, a :: r) :: l -> (forall m, a <> Acquire m /\ a <> Release m) ->
            exclusive (set_stack s0 t ((f, r) :: l)) tr0).
  { intros t f a r l E N. apply (exclusive_quiet s0 _ _ t); [exact X | reflexivity | intros u; apply other_stack | ].
    intros os F. rewrite E in F. rewrite stack_same. destruct (frames_cons_inv _ _ _ _ F) as (o' & os' & -> & SH & F').
    exists (o' :: os'). split; [ | reflexivity]. apply shape_tail in SH.
    assert (SH' : shape r o') by (destruct a as [ | | m | m | | ]; try apply SH; destruct (N m); congruence).
    constructor; auto. }
  assert (ENTER : forall t f l0, th_stack s0 t = l0 -> exclusive (set_stack s0 t ((f, body f) :: l0)) tr0).
  { intros t f l0 E. apply (exclusive_quiet s0 _ _ t); [exact X | reflexivity | intros u; apply other_stack | ].
    intros os F. rewrite E in F. rewrite stack_same. destruct (body_shape f) as [SH | [m SH]].
    - exists (None :: os). split; [constructor; auto | reflexivity].
    - exists (Some (m, false) :: os). split; [constructor; auto | reflexivity]. }
  destruct ST as [ | t f K C | t f l E | t f a r l E N | t f x r l E | t f x r l E | t f m r l E O | t f m r l E | t f c g r l E | c n f q E TF];
    rewrite ?app_nil_r.
  - exact X.
  - apply ENTER. reflexivity.
  - apply (exclusive_quiet s0 _ _ t); [exact X | reflexivity | intros u; apply other_stack | ].
    intros os F. rewrite E in F. rewrite stack_same. destruct (frames_cons_inv _ _ _ _ F) as (o' & os' & -> & SH & F').
    apply shape_nil in SH as ->. exists os'. split; [exact F' | reflexivity].
  - eapply QUIET; eauto.
  - apply exclusive_event; [eapply QUIET; [eassumption | split; discriminate] | split; discriminate].
  - apply exclusive_event; [eapply QUIET; [eassumption | split; discriminate] | split; discriminate].
  - destruct X as [H OW W]. constructor.
    + intros u. cbn [set_owner set_stack th_stack th_owner]. destruct (thread_eqb_spec t u) as [<- | NE].
      * destruct (H t) as (os & F & HC). rewrite E in F. destruct (frames_cons_inv _ _ _ _ F) as (o' & os' & -> & SH & F').
        apply shape_tail in SH as [-> SH]. exists (Some (m, true) :: os'). split; [constructor; auto | ].
        intros n. specialize (HC n). unfold held in *. cbn [filter holds] in *.
        destruct (mutex_eqb_spec m n) as [<- | NM]; [ | exact HC].
        cbn [List.length owns]. rewrite HC, O, thread_eqb_refl. reflexivity.
      * destruct (H u) as (os & F & HC). exists os. split; [exact F | ].
        intros n. specialize (HC n). destruct (mutex_eqb_spec m n) as [<- | NM]; [ | exact HC].
        rewrite HC, O. cbn [owns]. destruct (thread_eqb_spec t u); [contradiction | reflexivity].
    + intros n. rewrite owner_at_end. cbn [set_owner set_stack th_owner at_event ev_op ev_thread].
      destruct (mutex_eqb m n); [reflexivity | apply OW].
    + apply locked_well_snoc; [exact W | | discriminate]. intros n [= <-]. rewrite <- OW. exact O.
  - destruct X as [H OW W].
    assert (OT : th_owner s0 m = Some t).
    { destruct (H t) as (os & F & HC). rewrite E in F. destruct (frames_cons_inv _ _ _ _ F) as (o' & os' & -> & SH & F').
      apply shape_tail in SH as [-> ->]. specialize (HC m). unfold held in HC. cbn [filter holds] in HC.
      destruct (mutex_eqb_spec m m) as [_ | NM]; [ | congruence].
      destruct (th_owner s0 m) as [u | ]; cbn [owns] in HC; [ | discriminate].
      destruct (thread_eqb_spec u t) as [EQ | NE]; [rewrite EQ; reflexivity | discriminate]. }
    constructor.
    + intros u. cbn [set_owner set_stack th_stack th_owner]. destruct (thread_eqb_spec t u) as [<- | NE].
      * destruct (H t) as (os & F & HC). rewrite E in F. destruct (frames_cons_inv _ _ _ _ F) as (o' & os' & -> & SH & F').
        apply shape_tail in SH as [-> ->]. exists (None :: os'). split; [constructor; [apply sh_free; constructor | exact F'] | ].
        intros n. specialize (HC n). unfold held in *. cbn [filter holds] in *.
        destruct (mutex_eqb_spec m n) as [EM | NM]; [ | exact HC].
        subst n. cbn [List.length owns] in *. rewrite OT in HC. cbn [owns] in HC. rewrite thread_eqb_refl in HC. injection HC as HC. exact HC.
      * destruct (H u) as (os & F & HC). exists os. split; [exact F | ].
        intros n. specialize (HC n). destruct (mutex_eqb_spec m n) as [<- | NM]; [ | exact HC].
        rewrite HC, OT. cbn [owns]. destruct (thread_eqb_spec t u); [contradiction | reflexivity].
    + intros n. rewrite owner_at_end. cbn [set_owner set_stack th_owner at_event ev_op ev_thread].
      destruct (mutex_eqb m n); [reflexivity | apply OW].
    + apply locked_well_snoc; [exact W | discriminate | ]. intros n [= <-]. rewrite <- OW. exact OT.
  - apply exclusive_event; [ | split; discriminate].
    assert (Y : exclusive (set_stack s0 t ((f, r) :: l)) tr0) by (eapply QUIET; [eassumption | split; discriminate]).
    destruct Y as [H OW W]. constructor; assumption.
  - apply exclusive_event; [ | split; discriminate].
    assert (Y : exclusive (set_stack s0 (Strand c) [(f, body f)]) tr0) by (apply ENTER; exact E).
    destruct Y as [H OW W]. constructor; assumption.
Qed.

(** Losing and gaining a mutex. *)
Lemma mutex_lost tr m t a b : locked_well tr -> (a <= b)%nat -> (b <= List.length tr)%nat ->
  owner_at tr m a = Some t -> owner_at tr m b <> Some t ->
  exists r e, (a <= r < b)%nat /\ nth_error tr r = Some e /\ ev_op e = ORelease m /\ ev_thread e = t.
Proof.
  intros W LE. revert LE. induction b as [ | b IH]; intros LE LB OA OB.
  - replace a with 0%nat in OA by lia. contradiction.
  - destruct (Nat.eq_dec a (S b)) as [-> | NE]; [contradiction | ].
    destruct (nth_error tr b) as [e | ] eqn:N; [ | apply nth_error_None in N; lia].
    assert (DEC : owner_at tr m b = Some t \/ owner_at tr m b <> Some t).
    { destruct (owner_at tr m b) as [u | ]; [ | right; discriminate]. destruct (thread_eqb_spec u t) as [-> | X]; [left | right]; congruence. }
    destruct DEC as [OE | OE].
    + rewrite (owner_at_S _ _ _ _ N) in OB. destruct (W b e m N) as [W1 W2].
      destruct (ev_op e) as [ | | n | n | | ] eqn:EO; try contradiction.
      * destruct (mutex_eqb_spec n m) as [-> | NM]; [rewrite W1 in OE by reflexivity; discriminate | contradiction].
      * destruct (mutex_eqb_spec n m) as [-> | NM]; [ | contradiction].
        exists b, e. split; [lia | split; [exact N | split; [exact EO | ]]]. specialize (W2 eq_refl). congruence.
    + destruct IH as (r & x & L & R); [lia | lia | exact OA | exact OE | ]. exists r, x. split; [lia | exact R].
Qed.

Lemma mutex_gained tr m t a b : locked_well tr -> (a <= b)%nat -> (b <= List.length tr)%nat ->
  owner_at tr m a <> Some t -> owner_at tr m b = Some t ->
  exists k e, (a <= k < b)%nat /\ nth_error tr k = Some e /\ ev_op e = OAcquire m /\ ev_thread e = t.
Proof.
  intros W LE. revert LE. induction b as [ | b IH]; intros LE LB OA OB.
  - replace a with 0%nat in OA by lia. contradiction.
  - destruct (Nat.eq_dec a (S b)) as [-> | NE]; [contradiction | ].
    destruct (nth_error tr b) as [e | ] eqn:N; [ | apply nth_error_None in N; lia].
    assert (DEC : owner_at tr m b = Some t \/ owner_at tr m b <> Some t).
    { destruct (owner_at tr m b) as [u | ]; [ | right; discriminate]. destruct (thread_eqb_spec u t) as [-> | X]; [left | right]; congruence. }
    destruct DEC as [OE | OE].
    + destruct IH as (r & x & L & R); [lia | lia | exact OA | exact OE | ]. exists r, x. split; [lia | exact R].
    + rewrite (owner_at_S _ _ _ _ N) in OB.
      destruct (ev_op e) as [ | | n | n | | ] eqn:EO; try contradiction.
      * destruct (mutex_eqb_spec n m) as [-> | NM]; [ | contradiction].
        exists b, e. split; [lia | split; [exact N | split; [exact EO | congruence]]].
      * destruct (mutex_eqb_spec n m) as [-> | NM]; [discriminate | contradiction].
Qed.

Lemma has_mutex_owner tr t m i : locked_well tr -> (i <= List.length tr)%nat -> has_mutex tr t m i -> owner_at tr m i = Some t.
Proof.
  intros W LE (k & e & L & N & T & O & NR).
  assert (OK : owner_at tr m (S k) = Some t).
  { rewrite (owner_at_S _ _ _ _ N), O. destruct (mutex_eqb_spec m m); [congruence | contradiction]. }
  destruct (owner_at tr m i) as [u | ] eqn:OI.
  - destruct (thread_eqb_spec u t) as [-> | NE]; [reflexivity | ].
    destruct (mutex_lost tr m t (S k) i W) as (r & x & R & N' & O' & _); try lia; try congruence.
    destruct (NR r x); [lia | exact N' | exact O'].
  - destruct (mutex_lost tr m t (S k) i W) as (r & x & R & N' & O' & _); try lia; try congruence.
    destruct (NR r x); [lia | exact N' | exact O'].
Qed.

Lemma same_thread tr i j e f : (i < j)%nat -> nth_error tr i = Some e -> nth_error tr j = Some f -> ev_thread e = ev_thread f ->
  happens_before tr i j.
Proof. intros L N N' T. apply t_step. split; [exact L | ]. exists e, f. auto. Qed.

(** What two threads do while they have the same mutex is ordered. *)
Lemma mutex_orders tr m i j e f : locked_well tr -> (i < j)%nat -> nth_error tr i = Some e -> nth_error tr j = Some f ->
  ev_op e <> ORelease m -> owner_at tr m i = Some (ev_thread e) -> owner_at tr m j = Some (ev_thread f) -> happens_before tr i j.
Proof.
  intros W L N N' NR OE OF.
  destruct (thread_eqb_spec (ev_thread e) (ev_thread f)) as [T | NT]; [eapply same_thread; eauto | ].
  pose proof (nth_lt _ _ _ N'). pose proof (nth_lt _ _ _ N).
  destruct (mutex_gained tr m (ev_thread f) i j W) as (k & x & LK & NK & OK & TK); [lia | lia | congruence | exact OF | ].
  destruct (W k x m NK) as [WK _].
  destruct (mutex_lost tr m (ev_thread e) i k W) as (r & y & LR & NY & OY & TY); [lia | lia | exact OE | rewrite WK by exact OK; discriminate | ].
  assert (r <> i) by (intros ->; congruence).
  apply t_trans with r; [eapply same_thread; [ | exact N | exact NY | congruence]; lia | ].
  apply t_trans with k; [ | eapply same_thread; [ | exact NK | exact N' | exact TK]; lia].
  apply t_step. split; [lia | ]. exists y, x. split; [exact NY | split; [exact NK | right; left; exists m; auto]].
Qed.
