(** The shared pointers among the objects of a client channel (Session.v): its sessions,
    their scheduled requests, and its connection.

    An object is destroyed when no shared pointer to it is left.  Shared pointers are
    held by members of other objects, by closures that are posted, by actions of timers
    that can still be executed, and by the application (and the manager, which is
    another user of the channel).  The handlers of the application are assumed to hold
    none; if they do, this is the application's. *)
From Verif Require Import Prelude Ser4 Messages Mbap Client Scheduled SessionCall Session.

Inductive object : Type := OChannel | OConnection | OSession (x : nat) | OScheduled (j : nat).

Section Lifetime.
Context {W : Type}.
Implicit Types (k : stack W) (os : list koutput).

(** The requests in [m_current_request] and [m_pending_requests] (ClientChannelTcp.h:74-75). *)
Definition stored_requests (s : client) : list nat :=
  match cc_current s with Some p => [pr_id p] | None => [] end ++ map pr_id (cc_pending s).

(** Those in posted closures (ClientChannelTcp.cpp:70, :87). *)
Definition posted_requests (s : client) : list nat :=
  flat_map (fun t => match t with DoSend i _ | DoReject i => [i] | DoShutdown => [] end) (cc_queue s).

(** What the handler of request [i] holds: the session (ClientSessionImpl.cpp:247), and
    the scheduled request if it is one of its (ScheduledRequest.hpp:94). *)
Definition handler_holds k os (i : nat) (o : object) : Prop :=
  match o with
  | OSession x =>
      (exists r t, In (Issued i x r t) os) \/
      (exists j n p, In (Repeated i j n) os /\ nth_error (ks_polls (st_rest k)) j = Some p /\ po_session p = x)
  | OScheduled j => exists n, In (Repeated i j n) os
  | _ => False
  end.

(** Members of [a] hold [b]. *)
Definition refers k os (a b : object) : Prop :=
  match a, b with
  | OChannel, OConnection => True                                    (* ClientChannelTcp.h:69 *)
  | OChannel, OSession x =>                                          (* :72, :74-75 *)
      In x (ks_open (st_rest k)) \/ exists i, In i (stored_requests (st_channel k)) /\ handler_holds k os i b
  | OChannel, OScheduled j => exists i, In i (stored_requests (st_channel k)) /\ handler_holds k os i b
  | OSession x, OChannel => nth_error (ks_sessions (st_rest k)) x <> None
                                                                     (* ClientSessionImpl.h:146 *)
  | OSession x, OScheduled j =>                                      (* :150 *)
      exists s, nth_error (ks_sessions (st_rest k)) x = Some s /\ In j (ss_listed s)
  | OScheduled j, OSession x =>                                      (* ScheduledRequest.h:54 *)
      exists p, nth_error (ks_polls (st_rest k)) j = Some p /\ po_session p = x
  | _, _ => False                                                    (* AsioClientTcpConnection.h:74 is weak *)
  end.

(** The executor holds [o]: ClientChannelTcp.cpp:70, :87, :96, :195; ClientSessionImpl.cpp:57, :274;
    ScheduledRequest.hpp:49, :61, :73, :102. *)
Definition executor_holds k os (o : object) : Prop :=
  let s := st_channel k in
  let z := st_rest k in
  (exists i, In i (posted_requests s) /\ handler_holds k os i o) \/
  match o with
  | OChannel => cc_queue s <> [] \/ cc_armed s <> [] \/ cc_expired s <> []
  | OConnection => False
  | OSession x => In (StopAll x) (ks_queue z) \/ exists j, In (Register x j) (ks_queue z)
  | OScheduled j =>
      In (RunPoll j) (ks_queue z) \/ (exists x, In (Register x j) (ks_queue z)) \/
      exists p, nth_error (ks_polls z) j = Some p /\ (sr_armed (po_sched p) <> [] \/ sr_expired (po_sched p) <> [])
  end.

(** The objects [alive] that are not destroyed when the application holds [app]. *)
Definition not_destroyed k os (app alive : object -> Prop) : Prop :=
  forall o, alive o -> app o \/ executor_holds k os o \/ exists o', alive o' /\ refers k os o' o.
End Lifetime.
