(** Coming to an end: what can still happen by itself at a client with sessions and
    scheduled requests, whatever the network and the server do. *)
From Verif Require Import Prelude Ser4 Messages Mbap Client Server Database System.
From Verif Require Import AsyncWrite ClientConn ClientTcp Listener ServerConn ServerTcp World.
From Verif Require Import Scheduled SessionCall Session Full.
From Verif Require Import SpecMbap SpecClient SpecConn SpecClientTcp SpecSession SpecWorld SpecFull SpecEnd.

(** Something of the client is there for the event to happen to. *)
Definition client_enabled {W : Type} (w : world (sessions W)) (e : fevent) : Prop :=
  match e with
  | FApi _ => False
  | FRun => ks_queue (wd_user w) <> []
  | FExpire j t => exists p, nth_error (ks_polls (wd_user w)) j = Some p /\ In t (sr_armed (po_sched p))
  | FFire j t => exists p, nth_error (ks_polls (wd_user w)) j = Some p /\ In t (sr_expired (po_sched p))
  | FWorld (WClient (TRead r x msg xs)) =>
      tcp_enabled (wd_client w) (TRead r x msg xs) /\ can_read (wd_down w) (reads_from (tc_conn (wd_client w)) r) x = true
  | FWorld (WClient e) => tcp_enabled (wd_client w) e
  | FWorld _ => False
  end.

(** The event is one of the network and the server. *)
Definition elsewhere (e : fevent) : Prop :=
  match e with FWorld (WClient _) => False | FWorld _ => True | _ => False end.

(** Nothing is left that could happen at the client. *)
Definition client_idle {W : Type} (s : tclient (sessions W)) : Prop :=
  tcp_idle s /\ ks_queue (tc_user s) = [] /\
  Forall (fun p => sr_armed (po_sched p) = [] /\ sr_expired (po_sched p) = []) (ks_polls (tc_user s)).

Section End.
Context {W : Type}.
Context (user : users W).
Context (pol : copy_policy).

(** Whatever happens by itself at the client is well defined, and it comes to an end,
    with nothing left; between these events, the network and the server can be in any
    state. *)
Inductive comes_to_end (s : tclient (sessions W)) : Prop :=
| ComesToEnd :
    (forall w e, wd_client w = s -> typed_fevent e -> client_enabled w e ->
       exists w' l, full_step user pol w e = Ret (w', l) /\ comes_to_end (wd_client w')) ->
    (forall w, wd_client w = s -> (forall e, typed_fevent e -> ~ client_enabled w e) -> client_idle s) ->
    comes_to_end s.

(** An infinite sequence of events by themselves, through the states [ws]. *)
Definition goes_on_forever (ws : nat -> world (sessions W)) (es : nat -> fevent) : Prop :=
  forall n, typed_fevent (es n) /\ (client_enabled (ws n) (es n) \/ elsewhere (es n)) /\ exists l, full_step user pol (ws n) (es n) = Ret (ws (S n), l).

(** A posted closure of the channel or the connection is not left waiting forever. *)
Definition closures_served (ws : nat -> world (sessions W)) (es : nat -> fevent) : Prop :=
  forall n, tc_order (wd_client (ws n)) <> [] -> exists m xs, (n <= m)%nat /\ es m = FWorld (WClient (TRun xs)).
End End.

(** How often posted closures of the channel and the connection are executed. *)
Definition fruns (es : list fevent) : nat :=
  List.length (filter (fun e => match e with FWorld (WClient (TRun _)) => true | _ => false end) es).
