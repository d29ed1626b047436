(** The data races there are, and that there is no deadlock. *)
From Verif Require Import Prelude Threads SpecThreads ThreadsFacts.
From Coq Require Import Relations Lia.

(** ** Who accesses what *)
Definition takes (f : function) (m : mutex) : Prop := exists r, body f = Acquire m :: r ++ [Release m].

Definition user_of (f : function) (l : location) (w : bool) : Prop :=
  match l with
  | ClientChannels | ServerChannels => takes f ManagerMutex
  | ClientIsShutdown c =>
      (exists xs, f = DoChannelShutdown c xs) \/ (w = false /\ (f = CreateSession c \/ f = SendRequest c \/ strand_of f = Some c))
  | ClientSessions c => (f = CreateSession c /\ w = true) \/ exists xs, f = DoChannelShutdown c xs
  | Running c j => f = DoStart c j \/ f = DoStop c j \/ (w = false /\ (f = IsRunning c j \/ strand_of f = Some c))
  | Frequency c j => f = DoSetFrequency c j \/ (w = false /\ (f = GetFrequency c j \/ strand_of f = Some c))
  | ServerIsShutdown c => f = DoServerShutdown c \/ (w = false /\ (f = ServerStart c \/ f = AddSession c \/ strand_of f = Some c))
  | ClientParser c | ClientPending c | ClientCurrent c | ClientTimer c | ClientTransaction c | ClientConnection c
  | SessionRequests c _ | PollTimer c _ | ServerStarted c | ServerSessions c | Acceptor c => strand_of f = Some c
  | Tables d => takes f (DatabaseMutex d) \/ f = GetValue d \/ f = SetValue d
  end.

Lemma takes_manager_shutdown cs ss : takes (ManagerShutdown cs ss) ManagerMutex.
Proof.
  exists (Read ClientChannels :: map (fun p => Post (fst p) (DoChannelShutdown (fst p) (snd p))) cs ++
       Write ClientChannels :: Read ServerChannels :: map (fun c => Post c (DoServerShutdown c)) ss ++ [Write ServerChannels]).
  cbn [body app]. rewrite <- !app_assoc. cbn [app]. rewrite <- !app_assoc. reflexivity.
Qed.

Lemma access_user f l (w : bool) : In (if w then Write l else Read l) (body f) -> user_of f l w.
Proof.
  assert (T1 : takes CreateClient ManagerMutex) by (exists [Write ClientChannels]; reflexivity).
  assert (T2 : takes CreateServer ManagerMutex) by (exists [Write ServerChannels]; reflexivity).
  assert (T3 : forall d, takes (AddValue d) (DatabaseMutex d)) by (intros d; exists [Write (Tables d)]; reflexivity).
  assert (T4 : forall d, takes (Request d) (DatabaseMutex d)) by (intros d; exists [Write (Tables d)]; reflexivity).
  pose proof takes_manager_shutdown as T5.
  destruct w, f; cbn; intros H;
    repeat (rewrite ?in_app_iff, ?in_map_iff in H; cbn [In] in H;
      match type of H with
      | _ \/ _ => destruct H as [H | H]
      | exists _, _ => destruct H as (? & H & _)
      | False => contradiction H
      | _ = _ => first [discriminate H | injection H as <-; cbn [user_of strand_of]; solve [auto 8 | eauto 8]]
      end).
Qed.

(** ** Accesses with a mutex *)
Lemma takes_suffix f m a r o : takes f m -> suffix (a :: r) (body f) -> a <> Acquire m -> shape (a :: r) o -> o = Some (m, true).
Proof.
  intros [r0 E] [p X] NA SH. rewrite E in X. destruct p as [ | b p]; cbn [app] in X; [injection X as X _; congruence | ].
  injection X as _ X.
  assert (L : exists r1, a :: r = r1 ++ [Release m]).
  { destruct (exists_last (l := a :: r)) as (r1 & z & EL); [discriminate | ]. exists r1. rewrite EL in X.
    rewrite app_assoc in X. apply app_inj_tail in X as [_ <-]. exact EL. }
  destruct L as [r1 EL]. inversion SH as [r' F E' | r' m' F E' | r' m' F E']; subst.
  - rewrite EL in F. apply Forall_app in F as [_ F]. inversion F as [ | ? ? N _]; subst. destruct (N m). congruence.
  - rewrite EL in E'. apply app_inj_tail in E' as [_ [= ->]]. reflexivity.
  - destruct r1 as [ | b1 r1]; cbn [app] in EL; [discriminate | ]. injection EL as EL1 EL2. subst.
    apply app_inj_tail in EL2 as [_ [= ->]]. contradiction.
Qed.

Lemma executes_guarded es s tr : executes es s tr ->
  forall i e l w m, nth_error tr i = Some e -> accessed (ev_op e) = Some (l, w) -> takes (ev_function e) m ->
    owner_at tr m i = Some (ev_thread e).
Proof.
  revert es s tr. apply (executes_ind (fun es s tr => forall i e l w m, nth_error tr i = Some e -> accessed (ev_op e) = Some (l, w) ->
    takes (ev_function e) m -> owner_at tr m i = Some (ev_thread e))).
  { intros [ | i] e l w m N; discriminate. }
  intros es e s0 tr0 s o X IH ST%step_stepped.
  pose proof (executes_exclusive _ _ _ X) as [H OW _]. pose proof (executes_sane _ _ _ X) as [SS _ _].
  assert (TOP : forall t f a r l m, th_stack s0 t = (f, a :: r) :: l -> a <> Acquire m -> takes f m ->
            owner_at tr0 m (List.length tr0) = Some t).
  { intros t f a r l m E NA TK. destruct (H t) as (os & F & HC). specialize (HC m).
    destruct (SS t f (a :: r)) as [_ SX]; [rewrite E; left; reflexivity | ].
    rewrite E in F. destruct (frames_cons_inv _ _ _ _ F) as (o' & os' & -> & SH & F').
    rewrite (takes_suffix _ _ _ _ _ TK SX NA SH) in HC. unfold held in HC. cbn [filter holds] in HC.
    destruct (mutex_eqb_spec m m) as [_ | NM]; [ | congruence]. rewrite <- OW.
    destruct (th_owner s0 m) as [u | ]; cbn [owns] in HC; [ | discriminate].
    destruct (thread_eqb_spec u t) as [EQ | NE]; [rewrite EQ; reflexivity | discriminate]. }
  assert (SNOC : forall x, (forall l w m, accessed (ev_op x) = Some (l, w) -> takes (ev_function x) m ->
            owner_at tr0 m (List.length tr0) = Some (ev_thread x)) ->
            forall i e l w m, nth_error (tr0 ++ [x]) i = Some e -> accessed (ev_op e) = Some (l, w) -> takes (ev_function e) m ->
            owner_at (tr0 ++ [x]) m i = Some (ev_thread e)).
  { intros x K i e' l w m N A T. apply nth_snoc in N as [[L N] | [-> ->]]; rewrite owner_at_snoc by lia; eauto. }
  destruct ST; rewrite ?app_nil_r; try exact IH; apply SNOC; cbn; try discriminate; intros ? ? ? _ TK; eapply TOP; eauto; discriminate.
Qed.

(** ** The races *)
Lemma accessed_op o l w : accessed o = Some (l, w) -> o = if w then OWrite l else ORead l.
Proof. destruct o; cbn; intros [= <- <-]; reflexivity. Qed.

Lemma races_only es s tr e f : executes es s tr -> in_transactions tr -> race tr e f -> racing e f \/ racing f e.
Proof.
  intros X IT (i & j & L & NI & NJ & (l & a & b & AE & AF & W) & NHB).
  pose proof (executes_sane _ _ _ X) as [_ _ ST]. pose proof (executes_exclusive _ _ _ X) as [_ _ LW].
  pose proof (executes_guarded _ _ _ X) as G.
  assert (NT : ev_thread e <> ev_thread f) by (intros T; apply NHB; eapply same_thread; eauto).
  destruct (ST e (nth_error_In _ _ NI)) as [PE OE]. destruct (ST f (nth_error_In _ _ NJ)) as [PF OF].
  pose proof (accessed_op _ _ _ AE) as EE. pose proof (accessed_op _ _ _ AF) as EF.
  assert (UE : user_of (ev_function e) l a) by (apply access_user; rewrite EE in OE; destruct a; exact OE).
  assert (UF : user_of (ev_function f) l b) by (apply access_user; rewrite EF in OF; destruct b; exact OF).
  assert (MX : forall m, owner_at tr m i = Some (ev_thread e) -> owner_at tr m j = Some (ev_thread f) -> False).
  { intros m O1 O2. apply NHB. eapply mutex_orders; eauto. rewrite EE. destruct a; discriminate. }
  assert (LI : (i <= List.length tr)%nat) by (apply nth_lt in NI; lia).
  assert (LJ : (j <= List.length tr)%nat) by (apply nth_lt in NJ; lia).
  destruct l;
    try (exfalso; apply NT; rewrite (PE _ UE), (PF _ UF); reflexivity);
    try (exfalso; apply (MX ManagerMutex); solve [eauto]).
  6: { exfalso. apply (MX (DatabaseMutex d)).
       - destruct UE as [UE | UE]; [eauto | ]. apply has_mutex_owner; auto.
       - destruct UF as [UF | UF]; [eauto | ]. apply has_mutex_owner; auto. }
  all: destruct e as [te fe oe], f as [tf ff of]; cbn in *; subst oe of.
  all: unfold placed in *.
  all: repeat match goal with
       | U : _ \/ _ |- _ => destruct U as [U | U]
       | U : _ = false /\ _ |- _ => destruct U as [-> U]
       | U : _ /\ _ = true |- _ => destruct U as [U ->]
       | U : exists _, _ |- _ => destruct U as [? ->]
       | U : _ = true |- _ => first [discriminate U | subst]
       | U : ?f = _ |- _ => is_var f; subst f
       end.
  all: cbn [strand_of] in *.
  all: repeat match goal with
       | P : forall c, Some ?d = Some c -> _ = Strand c |- _ => pose proof (P _ eq_refl); clear P
       | P : forall c, strand_of ?f = Some c -> _ = Strand c, U : strand_of ?f = Some ?d |- _ => pose proof (P _ U); clear P
       end; subst.
  all: try (exfalso; apply NT; reflexivity).
  all: repeat match goal with a : bool |- _ => destruct a end; try discriminate.
  all: try (left; constructor; solve [auto | congruence]).
  all: try (right; constructor; solve [auto | congruence]).
Qed.

(** Channels used in an orderly manner. *)
Lemma posted_before es s tr j e : executes es s tr -> nth_error tr j = Some e -> posted_function (ev_function e) = true ->
  (forall n, ev_op e <> OBegin n) ->
  exists p x n, (p < j)%nat /\ nth_error tr p = Some x /\ ev_op x = OPost n (ev_function e) /\ happens_before tr p j.
Proof.
  intros X N P NB. pose proof (executes_begun _ _ _ X) as [_ _ B V].
  destruct (V _ _ N P) as (k & n & L & NK). destruct (B _ _ _ _ NK) as (p & x & LP & NP & OP).
  assert (k <> j) by (intros ->; rewrite N in NK; injection NK as NK; apply (NB n); rewrite NK; reflexivity).
  exists p, x, n. split; [lia | split; [exact NP | split; [exact OP | ]]].
  apply t_trans with k.
  - apply t_step. split; [exact LP | ]. exists x, (at_event (ev_thread e) (ev_function e) (OBegin n)).
    split; [exact NP | split; [exact NK | right; right]]. exists n, (ev_function e). auto.
  - eapply same_thread; [ | exact NK | exact N | reflexivity]. lia.
Qed.

Definition shutting (f : function) : option nat :=
  match f with DoChannelShutdown c _ | DoServerShutdown c => Some c | _ => None end.

(** In an orderly trace, the shutdown of a channel comes after its uses. *)
Lemma use_before_shutdown es s tr user i j e f c : executes es s tr -> orderly tr user ->
  nth_error tr i = Some e -> nth_error tr j = Some f -> uses_channel (ev_function e) = Some c -> shutting (ev_function f) = Some c ->
  ev_thread e <> Strand c -> (forall n, ev_op e <> OPost n (ev_function f)) -> (forall n, ev_op f <> OBegin n) ->
  (i < j)%nat /\ happens_before tr i j.
Proof.
  intros X [O1 O2 O3 O4 O5] NI NJ UC SC NS NP NB.
  assert (PF : posted_function (ev_function f) = true) by (destruct (ev_function f); try discriminate; reflexivity).
  destruct (posted_before _ _ _ _ _ X NJ PF NB) as (p & x & n & L & NX & OX & HB).
  assert (SX : shuts_channel (ev_op x) = Some c) by (rewrite OX; destruct (ev_function f); try discriminate; exact SC).
  assert (TX : ev_thread x = App (user c)) by (apply O4; [eapply nth_error_In; eauto | exact SX]).
  assert (TE : ev_thread e = App (user c)) by (destruct (O1 e c) as [T | T]; [eapply nth_error_In; eauto | exact UC | exact T | contradiction]).
  assert (LP : (i < p)%nat).
  { destruct (Nat.lt_trichotomy i p) as [G | [-> | G]]; [exact G | rewrite NI in NX; injection NX as <-; destruct (NP n); exact OX | ].
    destruct NS. eapply O5; [exact NX | exact NI | exact SX | exact UC | exact G]. }
  split; [lia | ]. apply t_trans with p; [eapply same_thread; [exact LP | exact NI | exact NX | congruence] | exact HB].
Qed.

Lemma orderly_safe es s tr user e f : executes es s tr -> in_transactions tr -> orderly tr user -> ~ race tr e f.
Proof.
  intros X IT OR RC. pose proof RC as (i & j & L & NI & NJ & _ & NHB).
  pose proof (nth_error_In _ _ NI) as IE. pose proof (nth_error_In _ _ NJ) as IF.
  assert (U : forall x y a b c, nth_error tr a = Some x -> nth_error tr b = Some y -> (a = i /\ b = j) \/ (a = j /\ b = i) ->
            uses_channel (ev_function x) = Some c -> shutting (ev_function y) = Some c -> ev_thread x <> Strand c ->
            (forall n g, ev_op x <> OPost n g) -> (forall n, ev_op y <> OBegin n) -> False).
  { intros x y a b c NA NB' AB UC SC NS NP NB. destruct (use_before_shutdown _ _ _ _ a b x y c X OR NA NB' UC SC NS) as [LT HB]; auto.
    destruct AB as [[-> ->] | [-> ->]]; [exact (NHB HB) | lia]. }
  destruct (races_only _ _ _ _ _ X IT RC) as [R | R].
  - inversion R; subst;
      try (eapply (U _ _ i j c NI NJ); [auto | reflexivity | reflexivity | exact H | discriminate | try discriminate; destruct H0 as [-> | ->]; discriminate]).
    + pose proof (or_create _ _ OR _ c IE eq_refl) as T1. pose proof (or_create _ _ OR _ c IF eq_refl) as T2. cbn in T1, T2. congruence.
    + pose proof (or_asked _ _ OR _ c j0 IE (or_introl eq_refl)) as T. contradiction.
    + pose proof (or_asked _ _ OR _ c j0 IE (or_intror eq_refl)) as T. contradiction.
  - inversion R; subst;
      try (eapply (U _ _ j i c NJ NI); [auto | reflexivity | reflexivity | exact H | discriminate | try discriminate; destruct H0 as [-> | ->]; discriminate]).
    + pose proof (or_create _ _ OR _ c IE eq_refl) as T1. pose proof (or_create _ _ OR _ c IF eq_refl) as T2. cbn in T1, T2. congruence.
    + pose proof (or_asked _ _ OR _ c j0 IF (or_introl eq_refl)) as T. contradiction.
    + pose proof (or_asked _ _ OR _ c j0 IF (or_intror eq_refl)) as T. contradiction.
Qed.

(** While a thread has the mutex of a database, no other accesses its values. *)
Lemma has_mutex_extends tr t m i j : has_mutex tr t m i -> (i <= j)%nat ->
  (forall k e, (i <= k < j)%nat -> nth_error tr k = Some e -> ev_op e <> ORelease m) -> has_mutex tr t m j.
Proof.
  intros (k & e & L & N & T & O & NR) LE K. exists k, e. split; [lia | split; [exact N | split; [exact T | split; [exact O | ]]]].
  intros x e' LX NX. destruct (Nat.lt_ge_cases x i) as [LI | GI]; [apply (NR x); [lia | exact NX] | apply (K x); [lia | exact NX]].
Qed.

Lemma transactions_atomic es s tr t d i e : executes es s tr -> in_transactions tr ->
  has_mutex tr t (DatabaseMutex d) i -> nth_error tr i = Some e ->
  (exists w, accessed (ev_op e) = Some (Tables d, w)) -> ev_thread e = t.
Proof.
  intros X IT HM N [w A].
  pose proof (executes_sane _ _ _ X) as [_ _ ST]. pose proof (executes_exclusive _ _ _ X) as [_ _ LW].
  destruct (ST e (nth_error_In _ _ N)) as [_ OE]. pose proof (accessed_op _ _ _ A) as EE.
  assert (UE : user_of (ev_function e) (Tables d) w) by (apply access_user; rewrite EE in OE; destruct w; exact OE).
  assert (LI : (i <= List.length tr)%nat) by (apply nth_lt in N; lia).
  pose proof (has_mutex_owner _ _ _ _ LW LI HM) as O1.
  assert (O2 : owner_at tr (DatabaseMutex d) i = Some (ev_thread e)).
  { destruct UE as [UE | UE]; [eapply executes_guarded; eauto | apply has_mutex_owner; auto]. }
  congruence.
Qed.

(** At most one thread has a mutex. *)
Lemma mutex_exclusive es s tr t u m i : executes es s tr -> (i <= List.length tr)%nat ->
  has_mutex tr t m i -> has_mutex tr u m i -> t = u.
Proof.
  intros X L H1 H2. pose proof (executes_exclusive _ _ _ X) as [_ _ LW].
  apply (has_mutex_owner _ _ _ _ LW L) in H1. apply (has_mutex_owner _ _ _ _ LW L) in H2. congruence.
Qed.

(** ** Deadlocks *)
Definition waiting (l : list (function * list action)) : bool :=
  match l with (_, Acquire _ :: _) :: _ => true | _ => false end.
Definition calling (x : function * list action) : Prop := exists r, snd x = CallUser :: r.

(** A thread that waits for a mutex has none, and the functions that called the
    innermost one are at a call. *)
Record relaxed (s : threads) : Prop := {
  rx_waiting : forall t m, waiting (th_stack s t) = true -> th_owner s m <> Some t;
  rx_calling : forall t x l, th_stack s t = x :: l -> Forall calling l
}.

Lemma suffix_acquire f a r : suffix (a :: r) (body f) -> waiting [(f, r)] = false.
Proof.
  intros [p E]. destruct r as [ | b r]; [reflexivity | ]. destruct b as [ | | m | | | ]; try reflexivity.
  exfalso. destruct (body_shape f) as [SH | [m' SH]]; rewrite E in SH;
    inversion SH as [r' F E' | r' m0 F E' | r' m0 F E']; subst.
  - apply Forall_app in F as [_ F]. inversion F as [ | ? ? _ F']; subst. inversion F' as [ | ? ? N _]; subst. destruct (N m). congruence.
  - destruct p as [ | x p]; cbn [app] in E'; injection E' as _ E'.
    + assert (I : In (Acquire m) (r' ++ [Release m'])) by (rewrite E'; left; reflexivity).
      apply in_app_iff in I as [I | [I | []]]; [ | discriminate]. rewrite Forall_forall in F. destruct (F _ I m). congruence.
    + assert (I : In (Acquire m) (r' ++ [Release m'])) by (rewrite E'; apply in_or_app; right; right; left; reflexivity).
      apply in_app_iff in I as [I | [I | []]]; [ | discriminate]. rewrite Forall_forall in F. destruct (F _ I m). congruence.
Qed.

Lemma executes_relaxed es s tr : executes es s tr -> simple_transactions es -> relaxed s.
Proof.
  revert es s tr. apply (executes_ind (fun es s tr => simple_transactions es -> relaxed s)).
  { intros _. constructor; cbn; discriminate. }
  intros es e s0 tr0 s o X IH ST SI.
  assert (SI0 : simple_transactions es).
  { intros es1 t f es2 -> TK. apply (SI es1 t f (es2 ++ [e])); [rewrite <- app_assoc; reflexivity | exact TK]. }
  destruct (IH SI0) as [RW RC]. pose proof (executes_sane _ _ _ X) as [SS _ _].
  assert (TK : forall t f, e = Enter t f -> takes_mutex f = true -> forall m, th_owner s0 m <> Some t).
  { intros t f -> T m. pose proof (SI es t f [] eq_refl T m) as K. unfold executes in X. rewrite X in K. exact K. }
  assert (TOP : forall t f a r l, th_stack s0 t = (f, a :: r) :: l -> waiting ((f, r) :: l) = false).
  { intros t f a r l E. apply (suffix_acquire f a r). apply (SS t). rewrite E. left. reflexivity. }
  assert (GO : forall t f a r l o', th_stack s0 t = (f, a :: r) :: l ->
            (forall u m, u <> t -> o' m = Some u -> th_owner s0 m = Some u) ->
            relaxed {| th_stack := fun u => if thread_eqb t u then (f, r) :: l else th_stack s0 u; th_owner := o';
                       th_queue := th_queue s; th_posted := th_posted s |}).
  { intros t f a r l o' E K. constructor; cbn [th_stack th_owner].
    - intros u m. destruct (thread_eqb_spec t u) as [<- | NE].
      + rewrite (TOP _ _ _ _ _ E). discriminate.
      + intros Wt O. apply (RW u m Wt). apply K; [congruence | exact O].
    - intros u x l'. destruct (thread_eqb_spec t u) as [<- | NE]; [intros [= <- <-]; eapply RC; exact E | apply RC]. }
  destruct e as [t f | t | t | c]; cbn [thread_step] in ST.
  - destruct (callable t f) eqn:C; [ | rewrite andb_false_r in ST; injection ST as <- <-; constructor; assumption].
    rewrite andb_true_r in ST.
    assert (OK : s = s0 \/ (s = set_stack s0 t ((f, body f) :: th_stack s0 t) /\
              (th_stack s0 t = [] \/ exists g r l, th_stack s0 t = (g, CallUser :: r) :: l))).
    { destruct (th_stack s0 t) as [ | [g [ | [ | | | | | ] r]] l] eqn:E; injection ST as <- <-; eauto 7. }
    destruct OK as [-> | [-> K]]; [constructor; assumption | ].
    constructor; cbn [set_stack th_stack th_owner].
    + intros u m. destruct (thread_eqb_spec t u) as [<- | NE]; [ | apply RW].
      cbn [waiting]. intros Wt. apply (TK t f eq_refl). unfold takes_mutex. destruct (body f) as [ | [ ] ?]; try discriminate. reflexivity.
    + intros u x l. destruct (thread_eqb_spec t u) as [<- | NE]; [ | apply RC].
      intros [= <- <-]. destruct K as [-> | (g & r & l' & E)]; [constructor | ].
      rewrite E. constructor; [exists r; reflexivity | eapply RC; exact E].
  - destruct (th_stack s0 t) as [ | [f [ | a r]] l] eqn:E.
    + injection ST as <- <-. constructor; assumption.
    + injection ST as <- <-. constructor; cbn [set_stack th_stack th_owner].
      * intros u m. destruct (thread_eqb_spec t u) as [<- | NE]; [ | apply RW].
        pose proof (RC _ _ _ E) as FA. destruct FA as [ | x l' [r' CX] _]; [discriminate | ]. destruct x as [g rr]. cbn in CX. subst rr. discriminate.
      * intros u x l'. destruct (thread_eqb_spec t u) as [<- | NE]; [ | apply RC].
        intros ->. pose proof (RC _ _ _ E) as FA. inversion FA; assumption.
    + destruct a as [x | x | m | m | c g | ].
      * injection ST as <- <-. eapply GO; [exact E | auto].
      * injection ST as <- <-. eapply GO; [exact E | auto].
      * destruct (th_owner s0 m) eqn:O; injection ST as <- <-; [constructor; assumption | ].
        eapply GO; [exact E | ]. cbn. intros u n NE. destruct (mutex_eqb_spec m n) as [<- | NM]; [congruence | auto].
      * injection ST as <- <-. eapply GO; [exact E | ]. cbn. intros u n NE. destruct (mutex_eqb_spec m n) as [<- | NM]; [discriminate | auto].
      * injection ST as <- <-. eapply GO; [exact E | auto].
      * injection ST as <- <-. eapply GO; [exact E | auto].
  - destruct (th_stack s0 t) as [ | [f [ | a r]] l] eqn:E; try (injection ST as <- <-; constructor; assumption).
    destruct a; injection ST as <- <-; try (constructor; assumption); (eapply GO; [exact E | auto]).
  - destruct (th_stack s0 (Strand c)) as [ | y l0] eqn:E; [ | injection ST as <- <-; constructor; assumption].
    destruct (take_first c (th_queue s0)) as [[[n f] q] | ] eqn:TF; injection ST as <- <-; [ | constructor; assumption].
    pose proof (executes_exclusive _ _ _ X) as [H _ _].
    constructor; cbn [set_stack set_queue th_stack th_owner].
    + intros u m. destruct (thread_eqb_spec (Strand c) u) as [<- | NE]; [ | apply RW].
      intros _ O. destruct (H (Strand c)) as (os & F & HC). rewrite E in F. inversion F; subst. specialize (HC m).
      rewrite O in HC. cbn [owns] in HC. rewrite thread_eqb_refl in HC. discriminate.
    + intros u x l. destruct (thread_eqb_spec (Strand c) u) as [<- | NE]; [ | apply RC]. intros [= <- <-]. constructor.
Qed.

Lemma no_deadlock es s tr t : executes es s tr -> simple_transactions es -> th_stack s t <> [] -> exists u, can_go_on s u.
Proof.
  intros X SI NE. destruct (executes_relaxed _ _ _ X SI) as [RW _]. pose proof (executes_exclusive _ _ _ X) as [H _ _].
  destruct (th_stack s t) as [ | [f r] l] eqn:E; [contradiction | ].
  destruct r as [ | a r]; [exists t; unfold can_go_on; rewrite E; exact Logic.I | ].
  destruct a as [ | | m | | | ]; try (exists t; unfold can_go_on; rewrite E; exact Logic.I).
  destruct (th_owner s m) as [u | ] eqn:O; [ | exists t; unfold can_go_on; rewrite E; exact O].
  exists u. unfold can_go_on. destruct (H u) as (os & F & HC). specialize (HC m). rewrite O in HC. cbn [owns] in HC. rewrite thread_eqb_refl in HC.
  destruct (th_stack s u) as [ | [g r'] l'] eqn:EU; [inversion F; subst; discriminate | ].
  destruct r' as [ | b r']; [exact Logic.I | ]. destruct b; try exact Logic.I.
  exfalso. apply (RW u m); [rewrite EU; reflexivity | exact O].
Qed.

(** A strand that is idle takes the next closure posted to it. *)
Lemma take_first_in c q n f : In (n, c, f) q -> exists m g r, take_first c q = Some (m, g, r).
Proof.
  induction q as [ | [[m c'] g] q IH]; intros I; [contradiction | ]. cbn [take_first].
  destruct (Nat.eqb_spec c' c) as [-> | NE]; [eauto | ]. destruct I as [[= <- <- <-] | I]; [contradiction | ].
  destruct (IH I) as (m' & g' & r & ->). eauto.
Qed.

Lemma strand_dequeues s c n f : In (n, c, f) (th_queue s) -> th_stack s (Strand c) = [] ->
  exists m g, snd (thread_step s (Dequeue c)) = [at_event (Strand c) g (OBegin m)].
Proof.
  intros I E. destruct (take_first_in _ _ _ _ I) as (m & g & r & TF). cbn [thread_step]. rewrite E, TF. exists m, g. reflexivity.
Qed.
