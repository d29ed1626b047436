(** Concrete histories of a server channel until nothing is left of it. *)
From Verif Require Import Prelude Ser4 Messages Mbap SpecPdu SpecMbap Server SpecServer ServerLemmas Listener SpecListener AsyncWrite ServerConn SpecConn ServerTcp SpecServerTcp.
From Verif Require Import ServerTcpFacts ServerTcpCases ServerLifetime SpecServerLifetime ServerLifetimeFacts ServerLifetimeEnd.
From Coq Require Import Relations.

(** The aborted accept and the aborted read end. *)
Definition ended : list uevent := stopped ++ [UAccept 1 false fresh; URead 0 0 RError; URun; URun].

Lemma no_operations h m es max : server_history (demo 1) demo_shutdown AllOrNothing max 0%nat es h m -> operations h = [] -> us_order h = [] -> at_end h.
Proof. intros H O Q. split; [exact Q|]. intros x I. apply (all_operations _ _ _ _ _ _ _ _ _ H) in I. rewrite O in I. destruct I. Qed.

Lemma stopped_operations : exists h m, server_history (demo 1) demo_shutdown AllOrNothing 4 0%nat stopped h m /\ In (UApi ApiShutdown) stopped /\ us_order h = [] /\
  starts_of (listen_ins m) = 1%nat /\ in_progress h (OpAccept 1) /\ in_progress h (OpRead 0 0).
Proof.
  destruct (played_history 4 stopped) as (s & H & F); [unfold stopped, connected, listening; typed_events|vm_compute; reflexivity|].
  exists s, (marks 4 stopped). split; [exact H|]. split; [vm_compute; tauto|]. split; [idle F|]. split; [vm_compute; reflexivity|].
  pose proof (F _ (fun h => as_pending (us_listener h))) as P. pose proof (F _ (fun h => option_map read_ids (us_conns h 0%nat))) as R. cbv beta in P, R.
  assert (Z1 : final (fun h => as_pending (us_listener h)) 4 stopped = Some [1%nat]) by (vm_compute; reflexivity).
  assert (Z2 : final (fun h => option_map read_ids (us_conns h 0%nat)) 4 stopped = Some (Some [0%nat])) by (vm_compute; reflexivity).
  rewrite Z1 in P. rewrite Z2 in R. injection P as P. destruct (us_conns s 0) as [v|] eqn:C; [|discriminate R]. injection R as R. split; cbn [in_progress].
  - rewrite <- P. left. reflexivity.
  - exists v. split; [exact C|]. change (map fst (vn_reads v)) with (read_ids v). rewrite <- R. left. reflexivity.
Qed.

Lemma ended_ends : exists h m, server_history (demo 1) demo_shutdown AllOrNothing 4 0%nat ended h m /\ at_end h.
Proof.
  destruct (played_history 4 ended) as (s & H & F); [unfold ended, stopped, connected, listening; typed_events|vm_compute; reflexivity|].
  exists s, (marks 4 ended). split; [exact H|]. apply (no_operations _ _ _ _ H); [|idle F].
  pose proof (F _ operations) as P. assert (Z : final operations 4 ended = Some []) by (vm_compute; reflexivity). congruence.
Qed.

Lemma ended_destroyed : exists h m, server_history (demo 1) demo_shutdown AllOrNothing 4 0%nat ended h m /\ In (UApi ApiShutdown) ended /\
  ~ remains h nothing SChannel /\ ~ remains h nothing SAcceptor.
Proof.
  destruct ended_ends as (h & m & H & E). exists h, m. split; [exact H|]. split; [vm_compute; tauto|].
  split; intros X; destruct (end_reached _ _ _ _ _ _ _ _ _ _ H E X) as (a & [] & _).
Qed.

Lemma connected_remain : exists h m, server_history (demo 1) demo_shutdown AllOrNothing 4 0%nat connected h m /\
  remains h nothing (SConnection 0) /\ remains h nothing (SListener 0) /\ remains h nothing (SConnection 1) /\ ~ remains h nothing (SListener 1) /\ ~ remains h nothing (SConnection 2).
Proof.
  destruct (played_history 4 connected) as (s & H & F); [unfold connected, listening; typed_events|vm_compute; reflexivity|].
  exists s, (marks 4 connected). split; [exact H|]. assert (OUT : outside nothing) by (intro c; split; intros []).
  pose proof (F _ (fun h => as_pending (us_listener h))) as P. pose proof (F _ (fun h => option_map vn_open (us_conns h 0%nat))) as R.
  pose proof (F _ (fun h => option_map vn_open (us_conns h 1%nat))) as R1. pose proof (F _ (fun h => option_map vn_open (us_conns h 2%nat))) as R2.
  pose proof (F _ (fun h => as_queue (us_listener h))) as Q. cbv beta in P, R, R1, R2, Q.
  assert (Z1 : final (fun h => as_pending (us_listener h)) 4 connected = Some [1%nat]) by (vm_compute; reflexivity).
  assert (Z2 : final (fun h => option_map vn_open (us_conns h 0%nat)) 4 connected = Some (Some true)) by (vm_compute; reflexivity).
  assert (Z3 : final (fun h => option_map vn_open (us_conns h 1%nat)) 4 connected = Some None) by (vm_compute; reflexivity).
  assert (Z4 : final (fun h => option_map vn_open (us_conns h 2%nat)) 4 connected = Some None) by (vm_compute; reflexivity).
  assert (Z5 : final (fun h => as_queue (us_listener h)) 4 connected = Some []) by (vm_compute; reflexivity).
  rewrite Z1 in P. rewrite Z2 in R. rewrite Z3 in R1. rewrite Z4 in R2. rewrite Z5 in Q. injection P as P. injection Q as Q.
  destruct (us_conns s 0) as [v|] eqn:C; [|discriminate R]. injection R as R.
  destruct (us_conns s 1) eqn:C1; [discriminate R1|]. destruct (us_conns s 2) eqn:C2; [discriminate R2|].
  assert (U0 : in_use s 0) by (right; right; exists v; auto).
  split; [apply (connection_remains _ _ _ _ _ _ _ _ _ _ H OUT); exact U0|]. split; [apply (listener_remains _ _ _ _ _ _ _ _ _ _ H OUT); split; [exact U0|congruence]|].
  split; [apply (connection_remains _ _ _ _ _ _ _ _ _ _ H OUT); left; exists (OpAccept 1); split; [reflexivity|cbn; rewrite <- P; left; reflexivity]|].
  split; intros X.
  - apply (listener_remains _ _ _ _ _ _ _ _ _ _ H OUT) in X as [_ X]. congruence.
  - apply (connection_remains _ _ _ _ _ _ _ _ _ _ H OUT) in X as [(x & E & I)|[I|(v2 & E & _)]]; [|rewrite <- Q in I; destruct I|congruence].
    destruct x as [d|d r|d w]; cbn in E; subst d; cbn [in_progress] in I.
    + rewrite <- P in I. destruct I as [I|[]]. discriminate I.
    + destruct I as (v2 & E & _). congruence.
    + destruct I as (v2 & E & _). congruence.
Qed.

(** A connection of a channel that was started twice. *)
Lemma open_remains : exists es h m c v, server_history (demo 1) demo_shutdown AllOrNothing 1 0%nat es h m /\ In (UApi ApiShutdown) es /\ us_order h = [] /\
  remains h nothing (SConnection c) /\ us_conns h c = Some v /\ vn_open v = true.
Proof.
  destruct connection_survives as (es & h & m & v & H & A & _ & Q & C & O). exists es, h, m, 0%nat, v. split; [exact H|]. split; [exact A|]. split; [exact Q|].
  split; [|auto]. apply (connection_remains _ _ _ _ _ _ _ _ _ _ H); [intro c; split; intros []|]. right. right. exists v. auto.
Qed.

Lemma closed_refuted :
  ~ (forall (W : Type) on_request on_shutdown pol max (w0 : W) es h m c v, server_history on_request on_shutdown pol max w0 es h m -> max < 2 ^ 32 - 1 ->
     In (UApi ApiShutdown) es -> us_order h = [] -> remains h nothing (SConnection c) -> us_conns h c = Some v -> vn_open v = false).
Proof.
  intros X. destruct open_remains as (es & h & m & c & v & H & A & Q & R & C & O). rewrite (X _ _ _ _ _ _ _ _ _ c v H eq_refl A Q R C) in O. discriminate.
Qed.
