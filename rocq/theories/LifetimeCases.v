(** Concrete lifetimes. *)
From Verif Require Import Prelude Ser4 Messages Mbap SpecPdu SpecMbap Client SpecClient Scheduled SpecScheduled SessionCall Session SpecSession
  SessionLemmas SessionCases Lifetime SpecLifetime LifetimeFacts.

Definition schedules (o : koutput) : bool := match o with Scheduled _ _ _ _ _ => true | _ => false end.

(** The request that is scheduled too late, its session, the channel and the connection
    are left. *)
Lemma too_late_leaks : not_destroyed (fst (play too_late)) (snd (play too_late)) (fun _ => False)
  (fun o => o = OScheduled 0 \/ o = OSession 0 \/ o = OChannel \/ o = OConnection).
Proof.
  assert (E : nth_error (snd (play too_late)) 6 = Some (Scheduled 0 0 read1 None 50)) by (vm_compute; reflexivity).
  refine (cycle quiet_user AllOrNothing too_late _ _ _ 0 0 read1 None 50 _ _ (played too_late too_late_typed) (proj1 (proj2 too_late_resting)) (cut _ 6 _ E) _).
  apply (absent (closes 0)); [vm_compute; reflexivity|reflexivity].
Qed.

Lemma all_freed_refuted :
  ~ (forall (W : Type) (user : source -> W -> expected response -> W * list kapi) pol es k os, stack_history user pol es k os ->
       resting k -> In (Channel TcpShutdown) os -> all_freed k os).
Proof.
  intros H. refine (H _ _ _ _ _ _ (played _ too_late_typed) too_late_resting _ _ too_late_leaks OConnection _); [|auto].
  apply (present _ 3). vm_compute. reflexivity.
Qed.

Lemma channel_down_resting : resting (fst (play channel_down)).
Proof.
  split; [split; [|split]; vm_compute; reflexivity|]. split; [vm_compute; reflexivity|].
  assert (E : map (fun p => (sr_armed (po_sched p), sr_expired (po_sched p))) (ks_polls (st_rest (fst (play channel_down)))) = [([], [])]) by (vm_compute; reflexivity).
  destruct (ks_polls (st_rest (fst (play channel_down)))) as [|p [|q l]]; try discriminate. injection E as E1 E2.
  apply Forall_cons; [split; [exact E1|exact E2]|apply Forall_nil].
Qed.

(** Before its shutdown, the channel keeps its session, and this its request. *)
Lemma channel_up_keeps : 
  refers (fst (play (firstn 4 channel_down))) (snd (play (firstn 4 channel_down))) OChannel (OSession 0) /\
  refers (fst (play (firstn 4 channel_down))) (snd (play (firstn 4 channel_down))) (OSession 0) (OScheduled 0).
Proof.
  split.
  - left. vm_compute. auto.
  - exists {| ss_unit := 9; ss_timeout := 1000; ss_listed := [0%nat] |}. vm_compute. auto.
Qed.

(** The first request of the scheduled request waits for its answer. *)
Lemma channel_up_waits :
  let k := fst (play (firstn 4 channel_down)) in
  let os := snd (play (firstn 4 channel_down)) in
  stored_requests (st_channel k) ++ posted_requests (st_channel k) = [0%nat] /\
  existsb tcp_down os = false /\ handler_holds k os 0 (OScheduled 0).
Proof.
  intros k os. split; [vm_compute; reflexivity|]. split; [vm_compute; reflexivity|].
  assert (E : exists m n, nth_error os m = Some (Repeated 0 0 n)) by (exists 7%nat, 0%nat; vm_compute; reflexivity).
  destruct E as (m & n & E). exists n. exact (nth_error_In _ _ E).
Qed.
