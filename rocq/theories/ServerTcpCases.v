(** Concrete histories of a server channel over its acceptor and connections. *)
From Verif Require Import Prelude Ser4 Messages Mbap SpecPdu SpecMbap Server SpecServer ServerLemmas Listener SpecListener AsyncWrite ServerConn SpecConn ServerTcp SpecServerTcp.

Definition fresh : list N := repeat 0 260.

(** A history is shown without the channel's table of parsers. *)
Definition played (max : N) (es : list uevent) : option (tserver nat * list smark) :=
  match userver_run (demo 1) demo_shutdown AllOrNothing (tserver_init max 0%nat) es with Ret x => Some x | UB => None end.
Definition marks (max : N) (es : list uevent) : list smark := match played max es with Some (_, m) => m | None => [] end.
Definition runs (max : N) (es : list uevent) : bool := match played max es with Some _ => true | None => false end.
Definition final {A : Type} (f : tserver nat -> A) (max : N) (es : list uevent) : option A := option_map (fun x => f (fst x)) (played max es).

Lemma played_history max es : Forall typed_uevent es -> runs max es = true ->
  exists s, server_history (demo 1) demo_shutdown AllOrNothing max 0%nat es s (marks max es) /\ forall A (f : tserver nat -> A), final f max es = Some (f s).
Proof.
  intros T R. unfold runs, marks, final, server_history in *. unfold played in *. destruct (userver_run _ _ _ _ _) as [[s m]|]; [|discriminate].
  exists s. split; [split; [exact T|reflexivity]|reflexivity].
Qed.

(** A session for unit 5, listening, one client connected. *)
Definition listening : list uevent := [UApi (ApiAdd 5 1); UApi ApiStart; URun; URun; URun].
Definition connected : list uevent := listening ++ [UAccept 0 true fresh; URun].

(** Two clients ask; the second connection breaks. *)
Definition two_clients : list uevent :=
  connected ++ [UAccept 1 true fresh; URun; URead 0 0 (RData (firstn 5 (read_frame 1 5))); URead 1 0 (RData (read_frame 9 5));
    URead 0 1 (RData (skipn 5 (read_frame 1 5))); UTransfer 1 0 11; UTransfer 0 0 11; UWritten 0 0 true; UWritten 1 0 false; URun; URun].

Definition stopped : list uevent := connected ++ [UApi ApiShutdown; URun; URun; URun; URun].

(** The transport takes a part of the response. *)
Definition truncated : list uevent := connected ++ [URead 0 0 (RData (read_frame 1 5)); UTransfer 0 0 4; UWritten 0 0 true].

(** Two requests in one chunk. *)
Definition pipelined : list uevent := connected ++ [URead 0 0 (RData (read_frame 1 5 ++ read_frame 2 5)); UTransfer 0 0 11].

(** The channel is shut down without having been started. *)
Definition not_started : list uevent := [UApi ApiShutdown; URun].

(** The channel is started twice. *)
Definition twice_started : list uevent :=
  [UApi ApiStart; UApi ApiStart; URun; URun; URun; URun; UAccept 1 true fresh; URun; UAccept 2 true fresh; URun; URun].
Definition survivor : list uevent := twice_started ++ [UAccept 0 true fresh; UApi ApiShutdown] ++ repeat URun 8.

Lemma fresh_good : good_buf fresh.
Proof. split; [reflexivity|]. unfold fresh. repeat constructor. Qed.

Ltac typed_events := cbn [app]; repeat (constructor; [first [exact Logic.I|exact fresh_good|vm_compute; repeat constructor]|]); constructor.

Definition undefined {A : Type} (x : outcome A) : bool := match x with UB => true | Ret _ => false end.
Lemma undefined_ub {A} (x : outcome A) : undefined x = true -> x = UB.
Proof. destruct x; [discriminate|reflexivity]. Qed.

Ltac idle F := pose proof (F _ us_order) as ID; match type of ID with ?l = _ => assert (l = Some []) by (vm_compute; reflexivity); congruence end.

Lemma response_truncated : exists es h m w x v, server_history (demo 1) demo_shutdown AllOrNothing 4 0%nat es h m /\ us_order h = [] /\
  sends_on 0 (task_outs m) = [v] /\ took (vwrites (peer_outs 0 m)) = [(w, x)] /\ In VWriteDone (peer_outs 0 m) /\ x <> response_data v.
Proof.
  destruct (played_history 4 truncated) as (s & H & F); [unfold truncated, connected, listening; typed_events|vm_compute; reflexivity|].
  do 6 eexists. split; [exact H|]. split; [idle F|].
  split; [vm_compute; reflexivity|]. split; [vm_compute; reflexivity|]. split; [vm_compute; tauto|]. vm_compute. discriminate.
Qed.

Lemma pipelining_undefined : exists es h m e, server_history (demo 1) demo_shutdown AllOrNothing 4 0%nat es h m /\ typed_uevent e /\
  userver_step (demo 1) demo_shutdown AllOrNothing h e = UB.
Proof.
  set (es := connected ++ [URead 0 0 (RData (read_frame 1 5 ++ read_frame 2 5))]). set (e := UTransfer 0 0 11).
  destruct (played_history 4 es) as (s & H & F); [unfold es, connected, listening; typed_events|vm_compute; reflexivity|].
  exists es, s, (marks 4 es), e. split; [exact H|]. split; [exact Logic.I|]. clear H.
  specialize (F _ (fun h => undefined (userver_step (demo 1) demo_shutdown AllOrNothing h e))). cbv beta in F.
  assert (Z : final (fun h => undefined (userver_step (demo 1) demo_shutdown AllOrNothing h e)) 4 es = Some true) by (vm_compute; reflexivity).
  rewrite Z in F. injection F as F. apply undefined_ub. symmetry. exact F.
Qed.

Lemma acceptor_left_open : exists es h m, server_history (demo 1) demo_shutdown AllOrNothing 4 0%nat es h m /\ In (UApi ApiShutdown) es /\
  us_order h = [] /\ ~ In ShutDown (listen_outs m).
Proof.
  destruct (played_history 4 not_started) as (s & H & F); [unfold not_started; typed_events|vm_compute; reflexivity|].
  do 3 eexists. split; [exact H|]. split; [left; reflexivity|]. split; [idle F|].
  vm_compute. tauto.
Qed.

Lemma connection_survives : exists es h m v, server_history (demo 1) demo_shutdown AllOrNothing 1 0%nat es h m /\ In (UApi ApiShutdown) es /\
  times is_start es = 2%nat /\ us_order h = [] /\ us_conns h 0 = Some v /\ vn_open v = true.
Proof.
  destruct (played_history 1 survivor) as (s & H & F); [unfold survivor, twice_started; typed_events|vm_compute; reflexivity|].
  pose proof (F _ (fun h => option_map vn_open (us_conns h 0%nat))) as O. cbv beta in O. destruct (us_conns s 0) as [v|] eqn:C; [|vm_compute in O; discriminate].
  exists survivor, s, (marks 1 survivor), v. split; [exact H|]. split; [vm_compute; tauto|]. split; [reflexivity|].
  split; [idle F|]. split; [exact C|]. cbn [option_map] in O.
  assert (Z : final (fun h => option_map vn_open (us_conns h 0%nat)) 1 survivor = Some (Some true)) by (vm_compute; reflexivity). congruence.
Qed.

Lemma more_than_max : exists es h m v1 v2, server_history (demo 1) demo_shutdown AllOrNothing 1 0%nat es h m /\
  times is_start es = 2%nat /\ us_order h = [] /\ us_conns h 1 = Some v1 /\ vn_open v1 = true /\ us_conns h 2 = Some v2 /\ vn_open v2 = true.
Proof.
  destruct (played_history 1 twice_started) as (s & H & F); [unfold twice_started; typed_events|vm_compute; reflexivity|].
  pose proof (F _ (fun h => option_map vn_open (us_conns h 1%nat))) as O1. pose proof (F _ (fun h => option_map vn_open (us_conns h 2%nat))) as O2. cbv beta in O1, O2.
  assert (Z1 : final (fun h => option_map vn_open (us_conns h 1%nat)) 1 twice_started = Some (Some true)) by (vm_compute; reflexivity).
  assert (Z2 : final (fun h => option_map vn_open (us_conns h 2%nat)) 1 twice_started = Some (Some true)) by (vm_compute; reflexivity).
  rewrite Z1 in O1. rewrite Z2 in O2. destruct (us_conns s 1) as [v1|] eqn:C1; [|discriminate O1]. destruct (us_conns s 2) as [v2|] eqn:C2; [|discriminate O2].
  cbn [option_map] in O1, O2. injection O1 as O1. injection O2 as O2.
  exists twice_started, s, (marks 1 twice_started), v1, v2. split; [exact H|]. split; [reflexivity|].
  split; [idle F|]. auto.
Qed.
