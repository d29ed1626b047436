(** Where the behaviour of the whole is undefined. *)
From Verif Require Import Prelude Ser4 Messages Mbap Client Server Database System.
From Verif Require Import AsyncWrite ClientConn ClientTcp Listener ServerConn ServerTcp World.
From Verif Require Import Scheduled SessionCall Session Full.
From Verif Require Import SpecPdu SpecMbap SpecClient SpecServer SpecDb SpecConn SpecListener SpecClientTcp SpecServerTcp SpecSystem SpecSession SpecWorld SpecFull.
From Verif Require Import TcpFacts WorldParts FullSim FullParts FullLemmas.

(** ** It does not depend on the handlers *)
Section Alike.
Context {A B : Type}.
Context (hA : nat -> A -> expected (list N) -> A * list capi) (hB : nat -> B -> expected (list N) -> B * list capi).
Context (pol : copy_policy).

Lemma client_step_ub s a b e : client_step hA pol s a e = UB -> client_step hB pol s b e = UB.
Proof.
  destruct e as [x| |d|msg|t|t]; cbn [client_step].
  - destruct (capi_call s x). discriminate.
  - destruct (cc_queue s); discriminate.
  - unfold on_receive. destruct (cc_shutdown s); [discriminate|]. destruct (mbap_parse pol (cc_parser s) d) as [[p ms]|]; cbn [obind]; [discriminate|reflexivity].
  - discriminate.
  - destruct (existsb _ _); discriminate.
  - destruct (existsb _ _); discriminate.
Qed.

Lemma channel_turn_ub s q e xs (b : B) : channel_turn hA pol s q e xs = UB -> channel_turn hB pol (with_tc_user s b) q e xs = UB.
Proof.
  unfold channel_turn. cbn [with_tc_user tc_channel tc_user tc_conn tc_order].
  destruct (client_step hA pol (tc_channel s) (tc_user s) e) as [[[ch w] os]|] eqn:E; cbn [obind].
  - destruct (to_conn_total os xs (tc_conn s)) as (c & l & ->). discriminate.
  - rewrite (client_step_ub _ _ b _ E). reflexivity.
Qed.

Lemma conn_turn_ub s q e msg xs (b : B) : conn_turn hA pol s q e msg xs = UB -> conn_turn hB pol (with_tc_user s b) q e msg xs = UB.
Proof.
  unfold conn_turn. cbn [with_tc_user tc_channel tc_user tc_conn tc_order].
  destruct (conn_step (tc_conn s) e) as [[c os]|] eqn:S; cbn [obind]; [|reflexivity]. cbv zeta.
  match goal with |- obind (callbacks _ _ ?x _ _ _) _ = UB -> _ => set (s1 := x) end.
  match goal with |- _ -> obind (callbacks _ _ ?x _ _ _) _ = UB => change x with (with_tc_user s1 b) end.
  destruct (callback_last _ _ _ _ S) as [H|(o1 & cb & -> & H & K)].
  - rewrite callbacks_calm by exact H. discriminate.
  - rewrite !callbacks_app, !(callbacks_calm _ _ _ _ _ _ H). cbn [obind callbacks]. destruct cb; try (exfalso; apply K; exact Logic.I).
    + change (tc_order (with_tc_user s1 b)) with (tc_order s1).
      destruct (channel_turn hA pol s1 _ _ xs) as [[s2 l2]|] eqn:T; cbn [obind]; [discriminate|]. rewrite (channel_turn_ub _ _ _ _ b T). reflexivity.
    + change (tc_order (with_tc_user s1 b)) with (tc_order s1).
      destruct (channel_turn hA pol s1 _ _ xs) as [[s2 l2]|] eqn:T; cbn [obind]; [discriminate|]. rewrite (channel_turn_ub _ _ _ _ b T). reflexivity.
Qed.

Lemma tcp_step_ub s e (b : B) : tcp_step hA pol s e = UB -> tcp_step hB pol (with_tc_user s b) e = UB.
Proof.
  destruct e as [a|xs|t|t xs|ok msg|g ok msg|r x msg xs|w n|w ok msg]; cbn [tcp_step]; change (tc_order (with_tc_user s b)) with (tc_order s);
    try apply channel_turn_ub; try apply conn_turn_ub.
  destruct (tc_order s) as [|[|] q]; [discriminate|apply channel_turn_ub|apply conn_turn_ub].
Qed.

Lemma world_step_ub (w : world A) e (b : B) : world_step hA pol w e = UB -> world_step hB pol (with_wd_user w b) e = UB.
Proof.
  assert (Client : forall u, client_turn hA pol w u = UB -> client_turn hB pol (with_wd_user w b) u = UB).
  { intros u. unfold client_turn. cbn [with_wd_user wd_client wd_server wd_links wd_up wd_down].
    destruct (tcp_step hA pol (wd_client w) u) as [[s l]|] eqn:E; cbn [obind]; [discriminate|]. rewrite (tcp_step_ub _ _ b E). reflexivity. }
  assert (Serve : forall (w1 : world A) u, server_turn pol w1 u = UB -> server_turn pol (with_wd_user w1 b) u = UB).
  { intros w1 u. unfold server_turn. cbn [with_wd_user wd_client wd_server wd_links wd_up wd_down].
    destruct (userver_step _ _ _ _ _) as [[s l]|]; cbn [obind]; [discriminate|reflexivity]. }
  destruct e as [e|e|g c buf|c]; cbn [world_step].
  - destruct e as [a|xs|t|t xs|ok msg|g ok msg|r x msg xs|o n|o ok msg]; try apply Client.
    change (wd_down (with_wd_user w b)) with (wd_down w). change (tc_conn (wd_client (with_wd_user w b))) with (tc_conn (wd_client w)).
    destruct (can_read _ _ _); [apply Client|discriminate].
  - destruct e as [| | |c r y| |]; try apply Serve. change (by_others (with_wd_user w b) c) with (by_others w c).
    change (gets_from (with_wd_user w b) c r) with (gets_from w c r). change (wd_up (with_wd_user w b)) with (wd_up w).
    destruct (_ || _); [apply Serve|discriminate].
  - cbn [with_wd_user wd_client wd_server wd_links wd_up wd_down with_tc_user tc_conn]. destruct (_ && _); [|discriminate].
    match goal with |- server_turn _ ?x _ = UB -> _ => exact (Serve x _) end.
  - cbn [with_wd_user wd_server]. destruct (run _ _) as [[d r]|]; cbn [obind]; [discriminate|reflexivity].
Qed.
End Alike.

Section Undefined.
Context {W : Type}.
Context (user : users W).
Context (pol : copy_policy).

Lemma api_defined {A} (h : nat -> A -> expected (list N) -> A * list capi) w a : exists w' l, world_step h pol w (WClient (TApi a)) = Ret (w', l).
Proof.
  cbn [world_step]. unfold client_turn. cbn [tcp_step]. unfold channel_turn. cbn [client_step]. destruct (capi_call (tc_channel (wd_client w)) a) as [s o].
  cbn [obind]. destruct (to_conn_total o [] (tc_conn (wd_client w))) as (c & l & ->). cbn [obind]. eauto.
Qed.

Lemma calls_defined {A} (h : nat -> A -> expected (list N) -> A * list capi) c : forall w, exists w' l, world_run h pol w (calls c) = Ret (w', l).
Proof.
  induction c as [|a c IH]; intros w; [cbn; eauto|]. cbn [calls map world_run]. fold (calls c). destruct (api_defined h w a) as (w1 & l1 & ->). cbn [obind].
  destruct (IH w1) as (w2 & l2 & E). rewrite E. cbn [obind]. eauto.
Qed.

Lemma finish_defined w x : full_finish user pol w x <> UB.
Proof.
  destruct x as [z c]. unfold full_finish. fold (calls c). destruct (calls_defined (on_completion user) c (with_wd_user w (with_log z []))) as (w1 & l1 & ->). discriminate.
Qed.

Lemma step_ub w e : full_step user pol w e = UB -> exists e1, e = FWorld e1 /\ world_step (on_completion user) pol w e1 = UB.
Proof.
  destruct e as [a| |j t|j t|e1]; cbn [full_step]; try (intros E; exfalso; exact (finish_defined _ _ E)).
  - destruct (ks_queue (wd_user w)); [discriminate|]. intros E. exfalso. exact (finish_defined _ _ E).
  - intros E. exists e1. split; [reflexivity|].
    assert (G : forall e2, (let! (w1, l1) := world_step (on_completion user) pol w e2 in
             let z := close_sessions (wd_user w1) (channel_shows l1) in Ret (with_wd_user w1 (with_log z []), map FW l1 ++ map FK (ks_log z))) = UB ->
             world_step (on_completion user) pol w e2 = UB).
    { intros e2. destruct (world_step (on_completion user) pol w e2) as [[w1 l1]|]; cbn [obind]; [discriminate|reflexivity]. }
    destruct e1 as [[a| | | | | | | | ]| | | ]; try (apply G; exact E). discriminate E.
Qed.

Theorem full_undefined units d w0 es w l e : Forall u8 units -> full_history user pol units d w0 es w l -> typed_fevent e ->
  full_step user pol w e = UB -> exists e1, e = FWorld e1 /\ (buffer_freed w e1 \/ accept_undefined w e1).
Proof.
  intros Un H Te E. destruct (step_ub _ _ E) as (e1 & -> & E1). exists e1. split; [reflexivity|].
  destruct (full_world _ _ _ _ _ _ _ _ H) as (b0 & b & wes & A1 & _).
  destruct (world_undefined _ _ _ _ _ _ _ _ e1 Un A1 Te (world_step_ub _ calls_scripted pol _ _ b E1)) as [K|K]; [left|right]; exact K.
Qed.

Theorem full_defined units d w0 es w l e : Forall u8 units -> full_history user pol units d w0 es w l -> typed_fevent e ->
  always writes_settled cconn_init (conn_ins (client_marks (world_marks l))) ->
  (forall c, valways vwrites_settled sconn_init (peer_ins c (server_marks (world_marks l)))) ->
  (starts_of (listen_ins (server_marks (world_marks l))) <= 1)%nat -> as_max (us_listener (wd_server w0)) < 2 ^ 32 - 1 ->
  exists w' m, full_step user pol w e = Ret (w', m).
Proof.
  intros Un H Te C1 C2 C3 C4. destruct (full_step user pol w e) as [[w' m]|] eqn:E; [eauto|]. exfalso. destruct (step_ub _ _ E) as (e1 & -> & E1).
  destruct (full_world _ _ _ _ _ _ _ _ H) as (b0 & b & wes & A1 & _).
  destruct (world_defined _ _ _ _ _ _ _ _ e1 Un A1 Te C1 C2 C3 C4) as (w' & m & K). rewrite (world_step_ub _ calls_scripted pol _ _ b E1) in K. discriminate K.
Qed.
End Undefined.
