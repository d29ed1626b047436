(** The whole, from the sessions of a client to the database of a server: sessions and
    scheduled requests (Session.v) of a channel over its TCP connection, the network,
    and a server channel with a database behind it (World.v).

    The handlers of the channel are those of the sessions
    (lib/src/client/session/ClientSessionImpl.cpp:241-258).  As in Session.v, the
    closures posted by sessions and scheduled requests are executed in FIFO order, and
    so are those of the channel and its connection; the model lets the two queues,
    which are one in the program, interleave freely. *)
From Verif Require Import Prelude Ser4 Messages Mbap Client Server Database System.
From Verif Require Import AsyncWrite ClientConn ClientTcp Listener ServerConn ServerTcp World.
From Verif Require Import Scheduled SessionCall Session.

Inductive fevent : Type :=
| FApi (a : kapi)                                (* a call from any thread *)
| FRun                                           (* the next closure of a session or a scheduled request *)
| FExpire (j t : nat)                            (* a timer of scheduled request [j] expires *)
| FFire (j t : nat)                              (* its action is executed *)
| FWorld (e : wevent).                           (* any other event, except for calls of the channel *)

(** What happens at the sessions, and at all the rest. *)
Inductive fmark : Type :=
| FK (o : koutput)
| FW (m : wmark).

Definition with_tc_user {A B : Type} (t : tclient A) (b : B) : tclient B :=
  {| tc_channel := tc_channel t; tc_user := b; tc_conn := tc_conn t; tc_order := tc_order t |}.
Definition with_wd_user {A B : Type} (w : world A) (b : B) : world B :=
  {| wd_client := with_tc_user (wd_client w) b; wd_server := wd_server w; wd_links := wd_links w; wd_up := wd_up w; wd_down := wd_down w |}.
Definition wd_user {A : Type} (w : world A) : A := tc_user (wd_client w).

(** What the channel shows in a step. *)
Definition channel_shows (l : list wmark) : list coutput :=
  flat_map (fun m => match m with WC (ChannelOut o) => [o] | _ => [] end) l.

Section Full.
Context {W : Type}.
Context (user : source -> W -> expected response -> W * list kapi).
Context (pol : copy_policy).

Definition full_init (units : list N) (max : N) (d : db) (buf : list N) (u : W) : world (sessions W) :=
  world_init units max d buf (sessions_init u).

(** The calls [c] of the channel are made. *)
Definition full_finish (w : world (sessions W)) (x : sessions W * list capi) : outcome (world (sessions W) * list fmark) :=
  let '(z, c) := x in
  let! (w, l) := world_run (on_completion user) pol (with_wd_user w (with_log z [])) (map (fun a => WClient (TApi a)) c) in
  Ret (w, map FW l ++ map FK (ks_log z)).

Definition full_step (w : world (sessions W)) (e : fevent) : outcome (world (sessions W) * list fmark) :=
  let z := wd_user w in
  match e with
  | FApi a => full_finish w (kapi_call z a)
  | FRun =>
      match ks_queue z with
      | [] => Ret (w, [])
      | c :: q => full_finish w (run_kclosure (with_kqueue z q) c)
      end
  | FExpire j t => full_finish w (poll_step z j (SExpire t))
  | FFire j t => full_finish w (poll_step z j (SFire t))
  | FWorld (WClient (TApi _)) => Ret (w, [])
  | FWorld e =>
      let! (w, l) := world_step (on_completion user) pol w e in
      let z := close_sessions (wd_user w) (channel_shows l) in
      Ret (with_wd_user w (with_log z []), map FW l ++ map FK (ks_log z))
  end.

Fixpoint full_run (w : world (sessions W)) (es : list fevent) : outcome (world (sessions W) * list fmark) :=
  match es with
  | [] => Ret (w, [])
  | e :: es' =>
      let! (w, l) := full_step w e in
      let! (w, l') := full_run w es' in
      Ret (w, l ++ l')
  end.
End Full.
