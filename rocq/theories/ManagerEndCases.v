(** Managers that come to an end, and one that does not. *)
From Verif Require Import Prelude Ser4 Messages Mbap SpecMbap Client SpecClient AsyncWrite ClientConn SpecConn ClientTcp SpecClientTcp SpecEnd
  Server SpecServer Listener SpecListener ServerConn ServerTcp SpecServerTcp ServerTcpTheorems ServerTcpFacts ServerLemmas ServerLifetime SpecServerLifetime SpecServerEnd
  SystemCases ConnCases TcpCases ServerTcpCases ServerEndCases Manager SpecManager ManagerFacts ManagerShutdown ManagerTheorems SpecManagerEnd ManagerEnd.
From Coq Require Import Lia.

(** ** One that does *)

(** A client channel with a request on its way, one that connects, and a server channel
    with a connection. *)
Definition three_channels : list (mevent bool nat) :=
  [MNewClient passive zeros false; MNewServer (demo 1) demo_shutdown 4 0%nat; MNewClient passive zeros false; MRegister 0; MRegister 1; MRegister 2] ++
  map (MClient 0) (connecting ++ TcpCases.connected ++ written 0) ++ map (MServer 1) ServerTcpCases.connected ++ map (MClient 2) connecting ++
  [MShutdown; MNext; MNext; MNext; MNext].
Definition their_closures : list (mevent bool nat) :=
  map (MClient 0) (repeat (TRun []) 4) ++ map (MClient 2) (repeat (TRun []) 4) ++ map (MServer 1) (repeat URun 8).

(** The closures of the client channels of [s] are executed in [l]. *)
Definition clients_run (s : manager bool nat) (l : list mmark) : bool :=
  forallb (fun i => match nth_error (mg_channels s) i with
                    | Some (ClientSide _ c) => Nat.leb (List.length (tc_order c)) (truns (client_events i l))
                    | _ => true
                    end) (seq 0 (List.length (mg_channels s))).
Definition servers_run (s : manager bool nat) (l : list mmark) : bool :=
  forallb (fun i => match nth_error (mg_channels s) i with
                    | Some (ServerSide _ _ c) => match us_order c with [] => true | _ => false end && Nat.leb (starts_of (listen_ins (server_marks i l))) 1
                    | _ => true
                    end) (seq 0 (List.length (mg_channels s))).

Lemma nth_bound {A} (l : list A) i x : nth_error l i = Some x -> In i (seq 0 (List.length l)).
Proof. intros H. apply in_seq. assert (i < List.length l)%nat by (apply nth_error_Some; congruence). lia. Qed.

Lemma clients_run_spec s l : clients_run s l = true ->
  forall i h c, nth_error (mg_channels s) i = Some (ClientSide h c) -> (List.length (tc_order c) <= truns (client_events i l))%nat.
Proof.
  unfold clients_run. rewrite forallb_forall. intros F i h c N. specialize (F i (nth_bound _ _ _ N)). rewrite N in F. apply Nat.leb_le. exact F.
Qed.

Lemma servers_run_spec s l : servers_run s l = true ->
  forall i r d c, nth_error (mg_channels s) i = Some (ServerSide r d c) -> us_order c = [] /\ (starts_of (listen_ins (server_marks i l)) <= 1)%nat.
Proof.
  unfold servers_run. rewrite forallb_forall. intros F i r d c N. specialize (F i (nth_bound _ _ _ N)). rewrite N in F. apply andb_prop in F as [F1 F2].
  split; [destruct (us_order c); [reflexivity|discriminate F1]|apply Nat.leb_le; exact F2].
Qed.

(** There is something left to happen. *)
Definition busy_client (s : manager bool nat) (i : nat) : bool :=
  match nth_error (mg_channels s) i with Some (ClientSide _ c) => negb (Nat.eqb (cn_resolves (tc_conn c)) 0) | _ => false end.

Definition ending (s : manager bool nat) (l : list mmark) : bool :=
  match manager_run AllOrNothing s their_closures with
  | Ret (s1, l1) => match manager_run AllOrNothing s1 their_closures with
                    | Ret (s2, l2) => clients_run s l1 && clients_run s1 l2 && servers_run s2 (l ++ l1 ++ l2) && busy_client s2 2 && Nat.eqb (List.length (mg_channels s2)) 3
                    | UB => false
                    end
  | UB => false
  end.
Definition three_end : bool := match manager_run AllOrNothing manager_init three_channels with Ret (s, l) => ending s l && forallb (fun i => existsb (Nat.eqb i) (told l)) [0; 1; 2]%nat | UB => false end.

Lemma three_end_true : three_end = true.
Proof. vm_compute. reflexivity. Qed.

Ltac typed_mevents := repeat (constructor; [first [exact Logic.I|exact zeros_good|exact fresh_good|cbn; repeat constructor]|]); constructor.

Lemma three_typed : Forall typed_mevent three_channels.
Proof. unfold three_channels, connecting, TcpCases.connected, ServerTcpCases.connected, listening, written. cbn [map app]. typed_mevents. Qed.
Lemma closures_typed : Forall typed_mevent their_closures.
Proof. unfold their_closures. cbn [map repeat app]. typed_mevents. Qed.

Lemma three_servers : forall r d max w, In (MNewServer r d max w) (three_channels ++ their_closures ++ their_closures) -> well_typed r /\ max < 2 ^ 32 - 1.
Proof.
  assert (M : forall i l r d max w, ~ In (@MNewServer bool nat r d max w) (map (MClient i) l)) by (intros i l r d max w K; apply in_map_iff in K as (x & K & _); discriminate K).
  assert (M' : forall i l r d max w, ~ In (@MNewServer bool nat r d max w) (map (MServer i) l)) by (intros i l r d max w K; apply in_map_iff in K as (x & K & _); discriminate K).
  intros r d max w H. unfold three_channels, their_closures in H. rewrite !in_app_iff in H.
  assert (H' : In (MNewServer r d max w) [MNewClient passive zeros false; MNewServer (demo 1) demo_shutdown 4 0%nat; MNewClient passive zeros false; MRegister 0; MRegister 1; MRegister 2] \/
               In (MNewServer r d max w) [@MShutdown bool nat; MNext; MNext; MNext; MNext]).
  { intuition (try (exfalso; eapply M; eassumption); try (exfalso; eapply M'; eassumption)). }
  destruct H' as [H'|H']; cbn [In] in H'; repeat (destruct H' as [H'|H']; [try discriminate H'|]); try contradiction.
  injection H' as <- <- <- <-. split; [exact (demo_typed 1)|reflexivity].
Qed.

Lemma three_come_to_end : exists es s l es1 s1 l1 s2 l2, @manager_history bool nat AllOrNothing es s l /\ (forall i, (i < List.length (mg_channels s2))%nat -> In i (told l)) /\
  manager_run AllOrNothing s es1 = Ret (s1, l1) /\ manager_run AllOrNothing s1 es1 = Ret (s2, l2) /\ List.length (mg_channels s2) = 3%nat /\
  manager_enabled s2 (MClient 2 (TResolved true "")) /\ manager_ends AllOrNothing s2.
Proof.
  pose proof three_end_true as T. unfold three_end in T. destruct (manager_run AllOrNothing manager_init three_channels) as [[s l]|] eqn:E; [|discriminate T].
  apply andb_prop in T as [T Tl]. unfold ending in T. destruct (manager_run AllOrNothing s their_closures) as [[s1 l1]|] eqn:E1; [|discriminate T].
  destruct (manager_run AllOrNothing s1 their_closures) as [[s2 l2]|] eqn:E2; [|discriminate T].
  apply andb_prop in T as [T L3]. apply andb_prop in T as [T B]. apply andb_prop in T as [T S3]. apply andb_prop in T as [C1 C2]. apply Nat.eqb_eq in L3.
  assert (Hy : manager_history AllOrNothing three_channels s l) by (split; [exact three_typed|exact E]).
  assert (At : forall i, (i < List.length (mg_channels s2))%nat -> In i (told l)).
  { intros i Hi. rewrite L3 in Hi. rewrite forallb_forall in Tl. assert (K : In i [0; 1; 2]%nat) by (destruct i as [|[|[|i]]]; cbn; auto; lia).
    apply Tl in K. apply existsb_exists in K as (x & Hx & Ex). apply Nat.eqb_eq in Ex. subst x. exact Hx. }
  exists three_channels, s, l, their_closures, s1, l1, s2, l2. split; [exact Hy|]. split; [exact At|]. split; [exact E1|]. split; [exact E2|]. split; [exact L3|]. split.
  - unfold busy_client in B. cbn [manager_enabled]. destruct (nth_error (mg_channels s2) 2) as [[h c|r d c]|]; [|discriminate B|discriminate B].
    exists h, c. split; [reflexivity|]. cbn [tcp_enabled conn_enabled]. intros K. rewrite K in B. discriminate B.
  - eapply (manager_comes_to_end AllOrNothing _ _ _ _ _ _ _ _ _ Hy At three_servers); [|exact E1|exact E2|exact (clients_run_spec _ _ C1)|exact (clients_run_spec _ _ C2)|exact (servers_run_spec _ _ S3)].
    apply Forall_app. split; exact closures_typed.
Qed.

(** ** One that does not *)

Definition read_for_ever : list (mevent bool nat) :=
  [MNewServer (demo 1) demo_shutdown 1 0%nat; MRegister 0] ++ map (MServer 0) (twice_started ++ [UAccept 0 true fresh]) ++ [MShutdown; MNext; MNext] ++
  map (MServer 0) (repeat URun 8).

Lemma manager_never_ends (pol : copy_policy) {U V : Type} (r : N -> V -> request -> V * expected response * list api) d (Hwt : well_typed r) max (w0 : V) i c (s : manager U V) : manager_ends pol s ->
  forall h es m, nth_error (mg_channels s) i = Some (ServerSide r d h) -> server_history r d pol max w0 es h m -> is_read c h -> False.
Proof.
  revert s. fix IH 2. intros s [A _] h es m N H R. assert (B : bytes [0]) by (repeat constructor).
  destruct (read_again r d Hwt _ _ _ _ _ _ _ [0] H R B) as (k & h' & m' & En & E & R').
  destruct (A (MServer i (URead c k (RData [0]))) B) as (s2 & l2 & E2 & X); [exists r, d, h; auto|].
  cbn [manager_step] in E2. unfold server_event in E2. rewrite N, E in E2. cbn [obind] in E2. injection E2 as E2 _.
  apply (IH s2 X h' (es ++ [URead c k (RData [0])]) (m ++ m')); [|eapply history_extend; [exact H|constructor; [exact B|constructor]|]|exact R'].
  - rewrite <- E2. cbn [with_channels mg_channels]. exact (put_same _ _ _ _ N).
  - cbn [userver_run]. rewrite E. cbn [obind]. rewrite app_nil_r. reflexivity.
Qed.

Definition only_server (s : manager bool nat) (l : list mmark) : bool :=
  match mg_channels s with [ServerSide _ _ c] => match us_order c with [] => true | _ => false end && existsb (Nat.eqb 0) (told l) | _ => false end.
Definition read_check : bool := match manager_run AllOrNothing manager_init read_for_ever with Ret (s, l) => only_server s l | UB => false end.
Lemma read_check_true : read_check = true.
Proof. vm_compute. reflexivity. Qed.
Definition events_of (es : list (mevent bool nat)) : option (list uevent) := match manager_run AllOrNothing manager_init es with Ret (s, l) => Some (server_events 0 l) | UB => None end.
Lemma read_events : events_of read_for_ever = Some survivor.
Proof. vm_compute. reflexivity. Qed.
Lemma read_typed : Forall typed_mevent read_for_ever.
Proof. unfold read_for_ever, twice_started. cbn [map repeat app]. typed_mevents. Qed.

Lemma not_over : exists es s l, @manager_history bool nat AllOrNothing es s l /\ (forall i, (i < List.length (mg_channels s))%nat -> In i (told l)) /\
  (forall i h c, nth_error (mg_channels s) i <> Some (ClientSide h c)) /\ (forall i r d c, nth_error (mg_channels s) i = Some (ServerSide r d c) -> us_order c = []) /\
  (forall r d max w, In (MNewServer r d max w) es -> well_typed r /\ max < 2 ^ 32 - 1) /\ ~ manager_ends AllOrNothing s.
Proof.
  pose proof read_check_true as T. unfold read_check in T. pose proof read_events as Ev. unfold events_of in Ev.
  destruct (manager_run AllOrNothing manager_init read_for_ever) as [[s l]|] eqn:E; [|discriminate T]. injection Ev as Ev.
  assert (Hy : manager_history AllOrNothing read_for_ever s l) by (split; [exact read_typed|exact E]).
  assert (Sv : forall r d max w, In (MNewServer r d max w) read_for_ever -> r = demo 1 /\ d = demo_shutdown /\ max = 1 /\ w = 0%nat).
  { intros r d max w K. unfold read_for_ever in K. rewrite !in_app_iff in K. destruct K as [[K|[K|[]]]|[K|[K|K]]]; try discriminate K.
    - injection K as <- <- <- <-. auto.
    - apply in_map_iff in K as (x & K & _). discriminate K.
    - cbn in K. destruct K as [K|[K|[K|[]]]]; discriminate K.
    - apply in_map_iff in K as (x & K & _). discriminate K. }
  unfold only_server in T. assert (A := channels_alone AllOrNothing _ _ _ 0%nat Hy). destruct (mg_channels s) as [|[h c|r d c] [|]] eqn:Ec; try discriminate T.
  cbn [nth_error] in A. destruct A as (max & w & I0 & Hs & _). destruct (Sv _ _ _ _ I0) as (-> & -> & -> & ->). rewrite Ev in Hs.
  apply andb_prop in T as [O T]. apply existsb_exists in T as (x & Hx & Ex). apply Nat.eqb_eq in Ex. subst x.
  exists read_for_ever, s, l. rewrite Ec. split; [exact Hy|]. split; [intros i Hi; cbn in Hi; replace i with 0%nat by lia; exact Hx|].
  split; [intros [|[|i]] h' c' K; discriminate K|]. split.
  { intros [|[|i]] r' d' c' K; try discriminate K. injection K as <- <- <-. destruct (us_order c); [reflexivity|discriminate O]. }
  split. { intros r' d' max' w' K. destruct (Sv _ _ _ _ K) as (-> & _ & -> & _). split; [exact (demo_typed 1)|reflexivity]. }
  destruct survivor_reads as (h & m & (Th & Rh) & _ & Ir). destruct Hs as (Ts & Rs). rewrite Rh in Rs. injection Rs as <- _.
  intros Me. apply (manager_never_ends AllOrNothing (demo 1) demo_shutdown (demo_typed 1) 1 0%nat 0%nat 0%nat s Me h survivor m); [rewrite Ec; reflexivity|split; assumption|exact Ir].
Qed.

Lemma not_always_over :
  ~ (forall (U V : Type) pol es (s : manager U V) l, manager_history pol es s l -> (forall i, (i < List.length (mg_channels s))%nat -> In i (told l)) ->
     (forall i h c, nth_error (mg_channels s) i <> Some (ClientSide h c)) -> (forall i r d c, nth_error (mg_channels s) i = Some (ServerSide r d c) -> us_order c = []) ->
     (forall r d max w, In (MNewServer r d max w) es -> well_typed r /\ max < 2 ^ 32 - 1) -> manager_ends pol s).
Proof. intros X. destruct not_over as (es & s & l & H1 & H2 & H3 & H4 & H5 & N). exact (N (X _ _ _ _ _ _ H1 H2 H3 H4 H5)). Qed.
