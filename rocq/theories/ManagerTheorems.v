(** What the channels' theorems say about a manager. *)
From Verif Require Import Prelude Ser4 Messages Mbap SpecMbap Client SpecClient AsyncWrite ClientConn SpecConn ClientTcp SpecClientTcp TcpShutdown
  Server SpecServer Listener SpecListener ServerConn ServerTcp SpecServerTcp ServerTcpTheorems ServerLemmas SystemCases ConnCases TcpCases
  Manager SpecManager ManagerFacts ManagerShutdown.
From Coq Require Import Permutation Lia.

Section Theorems.
Context {U V : Type}.
Context (pol : copy_policy).
Implicit Type s : manager U V.

Lemma told_means es s l i : manager_history pol es s l -> In i (told l) -> In (TApi Client.Shutdown) (client_events i l) \/ In (UApi ApiShutdown) (server_events i l).
Proof.
  intros Hy X. unfold told in X. apply in_flat_map in X. destruct X as (m & X & Y). destruct m; try contradiction. destruct Y as [->|[]].
  apply in_split in X. destruct X as (a & b & ->). destruct (told_within pol _ _ _ _ _ _ Hy eq_refl) as (_ & m & b' & -> & [(x & ->)|(x & ->)]).
  - left. rewrite client_events_app. apply in_or_app. right. unfold client_events. cbn [flat_map app]. rewrite Nat.eqb_refl. left. reflexivity.
  - right. rewrite server_events_app. apply in_or_app. right. unfold server_events. cbn [flat_map app]. rewrite Nat.eqb_refl. left. reflexivity.
Qed.

(** A channel is not affected by the events of others. *)
Theorem channels_isolated es s l e s' l' i : manager_history pol es s l -> manager_step pol s e = Ret (s', l') ->
  ~ concerns e i -> ~ In (Told i) l' -> (i < List.length (mg_channels s))%nat ->
  nth_error (mg_channels s') i = nth_error (mg_channels s) i /\ client_events i l' = [] /\ server_events i l' = [].
Proof.
  intros Hy E Nc Nt L. pose proof (step_did _ _ _ _ _ E) as D. assert (Mv := step_moved _ _ _ _ _ i E).
  assert (Z : client_events i l' = [] /\ server_events i l' = []).
  { destruct e as [h buf w|r d max w|j| | |j e|j e]; cbn [manager_step] in E.
    - injection E as <- <-. split; reflexivity.
    - injection E as <- <-. split; reflexivity.
    - unfold register in E. destruct (mg_shutting s); [injection E as <- <-; split; reflexivity|]. destruct (existsb _ _); [|injection E as <- <-; split; reflexivity].
      destruct (nth_error (mg_channels s) j) as [[? ?|? ? ?]|]; injection E as <- <-; split; reflexivity.
    - destruct (mg_shutting s); injection E as <- <-; split; reflexivity.
    - unfold next in E. destruct (mg_shutting s) as [[|j todo]|]; [injection E as <- <-; split; reflexivity| |injection E as <- <-; split; reflexivity].
      match type of E with context[tell pol ?x j] => destruct (tell pol x j) as [[s2 l2]|]; cbn [obind] in E; [|discriminate] end. injection E as <- <-.
      assert (D2 : i <> j) by (intros ->; apply Nt; left; reflexivity). apply not_eq_sym, Nat.eqb_neq in D2.
      inversion D as [|c|? ? ? ? ? ? ? ? X1 X2|? ? ? ? ? ? ? X1 X2|? ? ? ? ? ? ? X1 X2|? m ? ? ? ? ? ? ? K X1 X2|? ? ? m Sh Sh' Em E1 E2 Ln Cl K X1 X2]; subst.
      + destruct K as [(? & ? & K)|(? & ? & K)]; discriminate K.
      + destruct K as [(-> & _)|(z & -> & [(? & ->)|(? & ->)])]; unfold client_events, server_events; cbn [flat_map app]; rewrite ?D2; split; reflexivity.
    - assert (D2 : i <> j) by (intros ->; apply Nc; reflexivity). apply not_eq_sym, Nat.eqb_neq in D2.
      destruct (client_moves _ _ _ _ _ _ E) as (_ & _ & _ & _ & _ & [(-> & _)|(? & ? & ? & ? & _ & _ & _ & ->)]); [split; reflexivity|].
      unfold client_events, server_events. cbn [flat_map app]. rewrite D2. split; reflexivity.
    - assert (D2 : i <> j) by (intros ->; apply Nc; reflexivity). apply not_eq_sym, Nat.eqb_neq in D2.
      destruct (server_moves _ _ _ _ _ _ E) as (_ & _ & _ & _ & _ & [(-> & _)|(? & ? & ? & ? & ? & _ & _ & _ & ->)]); [split; reflexivity|].
      unfold client_events, server_events. cbn [flat_map app]. rewrite D2. split; reflexivity. }
  destruct Z as (Z1 & Z2). split; [|split; assumption].
  destruct (nth_error (mg_channels s) i) as [[h c|r d c]|] eqn:Ni; cbn [moved] in Mv; rewrite ?Z1, ?Z2 in Mv.
  - destruct Mv as (c' & -> & R & _). cbn [tcp_run] in R. injection R as <- _. reflexivity.
  - destruct Mv as (c' & -> & R & _). cbn [userver_run] in R. injection R as <- _. reflexivity.
  - apply nth_error_None in Ni. lia.
Qed.

Theorem clients_silent es s l i h c es1 s1 l1 c1 es2 s2 l2 es3 s3 l3 : manager_history pol es s l -> In i (told l) ->
  Forall typed_mevent (es1 ++ es2) ->
  nth_error (mg_channels s) i = Some (ClientSide h c) ->
  manager_run pol s es1 = Ret (s1, l1) -> (List.length (tc_order c) <= truns (client_events i l1))%nat ->
  nth_error (mg_channels s1) i = Some (ClientSide h c1) ->
  manager_run pol s1 es2 = Ret (s2, l2) -> (List.length (tc_order c1) <= truns (client_events i l2))%nat ->
  manager_run pol s2 es3 = Ret (s3, l3) ->
  conn_outs (client_marks i l3) = [] /\ Forall SpecClient.quiet (channel_outs (client_marks i (l2 ++ l3))).
Proof.
  intros Hy X T Ni R1 L1 Ni1 R2 L2 R3. apply Forall_app in T. destruct T as (T1 & T2).
  pose proof (channels_alone pol _ _ _ i Hy) as A. rewrite Ni in A. destruct A as (buf & w & _ & G & T0 & R0 & Z).
  pose proof (run_ran pol _ _ _ _ i R1) as A1. rewrite Ni in A1. destruct A1 as (c1' & Q1 & A1 & _). rewrite Ni1 in Q1. injection Q1 as <-.
  pose proof (run_ran pol _ _ _ _ i R2) as A2. rewrite Ni1 in A2. destruct A2 as (c2 & Q2 & A2 & _).
  pose proof (run_ran pol _ _ _ _ i R3) as A3. rewrite Q2 in A3. destruct A3 as (c3 & _ & A3 & _).
  rewrite client_marks_app. eapply (TcpShutdown.silent_after h pol (client_events i l) c (client_marks i l) (client_events i l1) c1 (client_marks i l1) (client_events i l2) c2 (client_marks i l2)); try eassumption.
  - exists buf, w. split; [exact G|]. split; [exact T0|exact R0].
  - destruct (told_means _ _ _ _ Hy X) as [K|K]; [exact K|]. rewrite Z in K. contradiction K.
  - apply Forall_app. split; [exact (proj1 (run_typed pol _ _ _ _ i T1 R1))|exact (proj1 (run_typed pol _ _ _ _ i T2 R2))].
Qed.

Theorem servers_silent es s l i r d c : manager_history pol es s l -> In i (told l) ->
  nth_error (mg_channels s) i = Some (ServerSide r d c) -> us_order c = [] ->
  (starts_of (listen_ins (server_marks i l)) <= 1)%nat -> (forall r' d' max w, In (MNewServer r' d' max w) es -> max < 2 ^ 32 - 1) ->
  (forall k v, us_conns c k = Some v -> vn_open v = false) /\
  forall es2 s2 l2, Forall typed_mevent es2 -> manager_run pol s es2 = Ret (s2, l2) ->
    task_outs (server_marks i l2) = [] /\
    (forall k, ~ In (Accepting k) (listen_outs (server_marks i l2)) /\ ~ In (Accepted k) (listen_outs (server_marks i l2)) /\ ~ In (Serving k) (listen_outs (server_marks i l2))) /\
    forall k, Forall no_traffic (peer_outs k (server_marks i l2)).
Proof.
  intros Hy X Ni Or St Mx. pose proof (channels_alone pol _ _ _ i Hy) as A. rewrite Ni in A. destruct A as (max & w & I0 & H0 & Z).
  assert (K : In (UApi ApiShutdown) (server_events i l)) by (destruct (told_means _ _ _ _ Hy X) as [K|K]; [rewrite Z in K; contradiction K|exact K]).
  destruct (shutdown_done r d pol max w _ _ _ H0 K Or St (Mx _ _ _ _ I0)) as (C1 & C2). split; [exact C1|].
  intros es2 s2 l2 T2 R2. pose proof (run_ran pol _ _ _ _ i R2) as A2. rewrite Ni in A2. destruct A2 as (c2 & _ & A2 & _).
  destruct (C2 _ _ _ (proj2 (run_typed pol _ _ _ _ i T2 R2)) A2) as (D1 & D2 & D3). split; [exact D1|]. split; [exact D2|]. intros k. exact (proj1 (D3 k)).
Qed.

Theorem told_exactly_once es s l : manager_history pol es s l ->
  NoDup (told l) /\ (forall a i b, l = a ++ Told i :: b -> In i (registered a)) /\ (forall a b, l = a ++ Returned :: b -> Permutation (registered a) (told a)).
Proof.
  intros Hy. destruct (told_once pol _ _ _ Hy) as (A & B). split; [exact A|]. split; [exact B|]. intros a b E. exact (all_told pol _ _ _ _ _ Hy E).
Qed.
Theorem told_by_shutdown es s l : manager_history pol es s l ->
  (forall a i b, l = a ++ Told i :: b -> (exists p q, a = p ++ Locked :: q /\ ~ In Returned q) /\ (exists m b', b = m :: b' /\ shut_down_by i m)) /\
  (forall a b c, l = a ++ Locked :: b ++ Locked :: c -> In Returned b).
Proof. intros Hy. split; [|exact (proj2 (mutex pol _ _ _ Hy))]. intros a i b E. exact (told_within pol _ _ _ _ _ _ Hy E). Qed.
End Theorems.

Theorem enough_threads : forall asked hardware, 1 <= threads asked hardware /\
  (forall n, asked = Some n -> 1 <= n -> threads asked hardware = n) /\ (asked = None -> 1 <= hardware -> threads asked hardware = hardware).
Proof. intros asked hardware. unfold threads. split; [apply N.le_max_l|]. split; [intros n -> L|intros -> L]; apply N.max_r; exact L. Qed.

(** ** A concrete manager *)

Definition demo_manager (es : list (mevent bool nat)) : option (manager bool nat * list mmark) :=
  match manager_run AllOrNothing manager_init es with Ret x => Some x | UB => None end.
Definition mmarks (es : list (mevent bool nat)) : list mmark := match demo_manager es with Some (_, l) => l | None => [] end.
Definition mdefined (es : list (mevent bool nat)) : bool := match demo_manager es with Some _ => true | None => false end.

Lemma demo_history es : Forall typed_mevent es -> mdefined es = true -> exists s, manager_history AllOrNothing es s (mmarks es).
Proof.
  intros T D. unfold mdefined, mmarks, demo_manager in *. destruct (manager_run _ _ es) as [[s l]|] eqn:E; [|discriminate]. exists s. split; assumption.
Qed.

(** A client channel has sent a request; the manager is shut down; the response arrives. *)
Definition answered_late : list (mevent bool nat) :=
  [MNewClient passive zeros false; MRegister 0] ++ map (MClient 0) (connecting ++ connected ++ written 0) ++
  [MShutdown; MNext; MNext; MClient 0 (TRead 0 (RData (reply 0)) "" [])].

Lemma handler_after_shutdown : exists es s l a b i, @manager_history bool nat AllOrNothing es s l /\ l = a ++ Returned :: b /\
  In (ChannelOut (Completed i (Value [3; 2; 0; 7]))) (client_marks 0 b).
Proof.
  destruct (demo_history answered_late) as (s & Hy).
  { unfold answered_late. repeat (constructor; [first [exact Logic.I|exact zeros_good|cbn; repeat constructor]|]). constructor. }
  { vm_compute. reflexivity. }
  exists answered_late, s, (mmarks answered_late), (firstn 11 (mmarks answered_late)), (skipn 12 (mmarks answered_late)), 0%nat. split; [exact Hy|].
  vm_compute. split; [reflexivity|tauto].
Qed.

(** A channel is under construction while the manager is shut down. *)
Definition overlooked : list (mevent bool nat) :=
  [MNewClient passive zeros false; MShutdown; MNext; MRegister 0] ++ map (MClient 0) (connecting ++ connected ++ written 0).

Lemma channel_overlooked : exists es s l a b, @manager_history bool nat AllOrNothing es s l /\ l = a ++ Returned :: b /\ In (Made 0) a /\ told l = [] /\
  took (writes (conn_outs (client_marks 0 b))) <> [].
Proof.
  destruct (demo_history overlooked) as (s & Hy).
  { unfold overlooked. repeat (constructor; [first [exact Logic.I|exact zeros_good|cbn; repeat constructor]|]). constructor. }
  { vm_compute. reflexivity. }
  exists overlooked, s, (mmarks overlooked), (firstn 2 (mmarks overlooked)), (skipn 3 (mmarks overlooked)). split; [exact Hy|].
  vm_compute. split; [reflexivity|]. split; [tauto|]. split; [reflexivity|discriminate].
Qed.

(** Two client channels and a server channel; then a third client channel. *)
Definition several : list (mevent bool nat) :=
  [MNewClient passive zeros false; MNewServer (demo 1) demo_shutdown 4 0%nat; MRegister 1; MRegister 0; MNewClient repeats zeros false; MRegister 2] ++
  map (MClient 0) connecting ++ map (MServer 1) [UApi (ApiAdd 5 1); UApi ApiStart; URun; URun; URun] ++
  [MShutdown; MNext; MRegister 7; MNext; MShutdown; MNext; MNext; MNewClient passive zeros true; MRegister 3; MShutdown; MNext; MNext].
