(** What is left of client channels. *)
From Verif Require Import Prelude Ser4 Messages Mbap SpecPdu SpecMbap Client SpecClient Scheduled SpecScheduled SessionCall Session SpecSession
  SessionLemmas SystemCases SessionCases Lifetime SpecLifetime LifetimeFacts LifetimeCases.

(** ** C100: a channel that was shut down is disposed of, with all that belongs to it

    When the channel was shut down and nothing is left to run, everything that still
    exists can be reached from what the application holds, and nothing exists if it holds
    nothing, if no request was scheduled on a session that was not shut down since; in
    particular if none was scheduled after the shutdown of the channel. *)
Theorem C100_freed_partial :
  forall {W : Type} (user : users W) pol es k os a b, stack_history user pol es k os -> resting k ->
  os = a ++ Channel TcpShutdown :: b -> ~ In (Channel TcpShutdown) a ->
  (forall j x r t f, ~ In (Scheduled j x r t f) b) -> all_freed k os.
Proof. exact @freed_after. Qed.
Print Assumptions C100_freed_partial.

Theorem C100_freed_iff :
  forall {W : Type} (user : users W) pol es k os, stack_history user pol es k os -> resting k -> In (Channel TcpShutdown) os ->
  (all_freed k os <-> ~ left_scheduled os).
Proof. exact @freed_iff. Qed.
Print Assumptions C100_freed_iff.

Theorem C100_reachable_partial :
  forall {W : Type} (user : users W) pol es k os app, stack_history user pol es k os -> resting k -> In (Channel TcpShutdown) os ->
  ~ left_scheduled os -> only_reachable k os app.
Proof. exact @left_reachable. Qed.
Print Assumptions C100_reachable_partial.

Example C100_example : stack_history quiet_user AllOrNothing channel_down (fst (play channel_down)) (snd (play channel_down)) /\
  resting (fst (play channel_down)) /\ nth_error (snd (play channel_down)) 11 = Some (Channel TcpShutdown) /\
  existsb tcp_down (firstn 11 (snd (play channel_down))) = false /\ existsb schedules (firstn 11 (snd (play channel_down))) = true /\
  existsb schedules (skipn 12 (snd (play channel_down))) = false.
Proof.
  split; [exact (played _ channel_down_typed)|]. split; [exact channel_down_resting|]. vm_compute. repeat split; reflexivity.
Qed.

(** A request that is scheduled after the shutdown is accepted; it and its session then
    keep each other, and so the channel and its connection, whose socket is not closed,
    for ever. *)
Theorem C100_freed_refuted :
  ~ (forall (W : Type) (user : users W) pol es k os, stack_history user pol es k os -> resting k -> In (Channel TcpShutdown) os -> all_freed k os).
Proof. exact all_freed_refuted. Qed.
Print Assumptions C100_freed_refuted.

(** Before, sessions need not be kept by the application: the channel and its sessions
    exist until the shutdown; and a session that the application keeps keeps the
    connection, also after the shutdown. *)
Theorem C100_kept :
  forall {W : Type} (user : users W) pol es k os x u t app, stack_history user pol es k os -> ~ In (Channel TcpShutdown) os -> In (Opened x u t) os ->
  not_destroyed k os app (fun o => o = OSession x \/ o = OChannel \/ o = OConnection).
Proof. exact @kept_open. Qed.
Print Assumptions C100_kept.

Theorem C100_held :
  forall {W : Type} (user : users W) pol es k os x u t, stack_history user pol es k os -> In (Opened x u t) os ->
  not_destroyed k os (eq (OSession x)) (fun o => o = OSession x \/ o = OChannel \/ o = OConnection).
Proof. exact @kept_held. Qed.
Print Assumptions C100_held.

(** Once the posted closures have run, a session lists exactly the requests that were
    scheduled on it and that it was not shut down since. *)
Theorem C100_listed :
  forall {W : Type} (user : users W) pol es k os x j, stack_history user pol es k os -> ks_queue (st_rest k) = [] ->
  (refers k os (OSession x) (OScheduled j) <->
   exists a r t f b, os = a ++ Scheduled j x r t f :: b /\ ~ In (Asked (CloseSession x)) b).
Proof. exact @listed_now. Qed.
Print Assumptions C100_listed.

Example C100_listed_example :
  refers (fst (play (firstn 4 channel_down))) (snd (play (firstn 4 channel_down))) OChannel (OSession 0) /\
  refers (fst (play (firstn 4 channel_down))) (snd (play (firstn 4 channel_down))) (OSession 0) (OScheduled 0).
Proof. exact channel_up_keeps. Qed.

(** The channel and the executor keep the requests that were called and are not yet
    completed, and no others; before the shutdown, all of them. *)
Theorem C100_holding :
  forall {W : Type} (user : users W) pol es k os i, stack_history user pol es k os ->
  In i (stored_requests (st_channel k) ++ posted_requests (st_channel k)) ->
  (exists c, In (Channel (Called i c)) os) /\ forall v, ~ In (Channel (Completed i v)) os.
Proof. exact @holding. Qed.
Print Assumptions C100_holding.

Theorem C100_holding_back :
  forall {W : Type} (user : users W) pol es k os i c, stack_history user pol es k os -> ~ In (Channel TcpShutdown) os ->
  In (Channel (Called i c)) os -> (forall v, ~ In (Channel (Completed i v)) os) ->
  In i (stored_requests (st_channel k) ++ posted_requests (st_channel k)).
Proof. exact @holding_back. Qed.
Print Assumptions C100_holding_back.

(** Their handlers keep the session that issued the request, and the scheduled request. *)
Theorem C100_handler_session :
  forall {W : Type} (user : users W) pol es k os i x, stack_history user pol es k os ->
  (handler_holds k os i (OSession x) <->
   (exists r t, In (Issued i x r t) os) \/
   exists j n r t f, In (Repeated i j n) os /\ In (Scheduled j x r t f) os).
Proof. exact @handler_session. Qed.
Print Assumptions C100_handler_session.

Theorem C100_handler_scheduled :
  forall {W : Type} (k : stack W) os i j, handler_holds k os i (OScheduled j) <-> exists n, In (Repeated i j n) os.
Proof. exact @handler_scheduled. Qed.
Print Assumptions C100_handler_scheduled.

Theorem C100_scheduled_session :
  forall {W : Type} (user : users W) pol es k os j x, stack_history user pol es k os ->
  (refers k os (OScheduled j) (OSession x) <-> exists r t f, In (Scheduled j x r t f) os).
Proof. exact @poll_scheduled. Qed.
Print Assumptions C100_scheduled_session.

(** A scheduled request is not destroyed while it waits for an answer. *)
Theorem C100_in_flight :
  forall {W : Type} (user : users W) pol es k os i j n c app, stack_history user pol es k os -> ~ In (Channel TcpShutdown) os ->
  In (Repeated i j n) os -> In (Channel (Called i c)) os -> (forall v, ~ In (Channel (Completed i v)) os) ->
  exists x, not_destroyed k os app (fun o => o = OScheduled j \/ o = OSession x \/ o = OChannel \/ o = OConnection).
Proof. exact @in_flight. Qed.
Print Assumptions C100_in_flight.

Example C100_in_flight_example :
  let k := fst (play (firstn 4 channel_down)) in
  let os := snd (play (firstn 4 channel_down)) in
  stored_requests (st_channel k) ++ posted_requests (st_channel k) = [0%nat] /\
  existsb tcp_down os = false /\ handler_holds k os 0 (OScheduled 0).
Proof. exact channel_up_waits. Qed.
