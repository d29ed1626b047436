(** Model of the timers that users of a session start: ClientSessionImpl::start
    (lib/src/client/session/ClientSessionImpl.cpp:231-239) and the objects it returns
    (lib/src/TimerWrapper.cpp).

    The timers themselves are those of the executor (see DESIGN.md): a timer that has
    expired has its action queued and can no longer be cancelled
    (lib/include/modbus/ITimer.h:39-45). Timers are numbered in the order in which they
    are started. *)
From Verif Require Import Prelude.

Inductive icall : Type :=
| StartIn (d : N)                                (* start with a duration, ClientSessionImpl.cpp:231-234 *)
| StartAt (t : N)                                (* start with a time, ClientSessionImpl.cpp:236-239 *)
| CancelTimer (i : nat)                          (* ITimer::cancel, TimerWrapper.cpp:27-30 *)
| DropTimer (i : nat)                            (* the ITimer is destroyed *)
| EndSession.                                    (* IClientSession::shutdown *)

Inductive ievent : Type :=
| ICall (a : icall)                              (* a call from any thread *)
| IPass (d : N)                                  (* time passes *)
| IExpire (i : nat)                              (* timer [i] expires *)
| IRun (i : nat).                                (* its action is executed *)

Inductive ioutput : Type :=
| Begun (i : nat) (t : N)                        (* timer [i] was started; when it will expire *)
| Cancelled (i : nat)
| Ended                                          (* the session was shut down *)
| Acted (i : nat) (n : N).                       (* the action of timer [i] is executed, and when *)

(** The time, the timers that wait with the times at which they expire, the actions that
    are queued, and the objects that users have. *)
Record itimers : Type := {
  it_now : N;
  it_armed : list (nat * N);
  it_queued : list nat;
  it_handles : list (nat * N);
  it_next : nat
}.

Definition itimers_init (now : N) : itimers :=
  {| it_now := now; it_armed := []; it_queued := []; it_handles := []; it_next := 0 |}.

Definition without (i : nat) (l : list (nat * N)) : list (nat * N) := filter (fun x => negb (Nat.eqb (fst x) i)) l.

Fixpoint lookup (i : nat) (l : list (nat * N)) : option N :=
  match l with
  | [] => None
  | (j, t) :: l' => if Nat.eqb j i then Some t else lookup i l'
  end.

(** ClientSessionImpl.cpp:233, :238, TimerWrapper.cpp:21-25 *)
Definition start_timer (s : itimers) (t : N) : itimers * list ioutput :=
  ({| it_now := it_now s; it_armed := it_armed s ++ [(it_next s, t)]; it_queued := it_queued s;
      it_handles := it_handles s ++ [(it_next s, t)]; it_next := S (it_next s) |}, [Begun (it_next s) t]).

(** An object that was destroyed cannot be used.  Destroying it does not cancel the
    timer.  ClientSessionImpl::shutdown (ClientSessionImpl.cpp:55-65) concerns scheduled
    requests only. *)
Definition do_call (s : itimers) (a : icall) : outcome (itimers * list ioutput) :=
  match a with
  | StartIn d => Ret (start_timer s (it_now s + d))
  | StartAt t => Ret (start_timer s t)
  | CancelTimer i =>
      match lookup i (it_handles s) with
      | Some _ =>
          Ret ({| it_now := it_now s; it_armed := without i (it_armed s); it_queued := it_queued s;
                  it_handles := it_handles s; it_next := it_next s |}, [Cancelled i])
      | None => UB
      end
  | DropTimer i =>
      match lookup i (it_handles s) with
      | Some _ =>
          Ret ({| it_now := it_now s; it_armed := it_armed s; it_queued := it_queued s;
                  it_handles := without i (it_handles s); it_next := it_next s |}, [])
      | None => UB
      end
  | EndSession => Ret (s, [Ended])
  end.

(** TimerWrapper.cpp:32-35 *)
Definition expires_at (s : itimers) (i : nat) : outcome N :=
  match lookup i (it_handles s) with Some t => Ret t | None => UB end.

Fixpoint do_calls (s : itimers) (l : list icall) : outcome (itimers * list ioutput) :=
  match l with
  | [] => Ret (s, [])
  | a :: l' =>
      let! (s, o) := do_call s a in
      let! (s, o') := do_calls s l' in
      Ret (s, o ++ o')
  end.

Section UserTimers.
Context {W : Type}.
Context (action : nat -> W -> W * list icall).

Definition itimers_step (s : itimers) (w : W) (e : ievent) : outcome (itimers * W * list ioutput) :=
  match e with
  | ICall a => let! (s, o) := do_call s a in Ret (s, w, o)
  | IPass d =>
      Ret ({| it_now := it_now s + d; it_armed := it_armed s; it_queued := it_queued s; it_handles := it_handles s;
              it_next := it_next s |}, w, [])
  | IExpire i =>
      match lookup i (it_armed s) with
      | Some t =>
          if t <=? it_now s
          then Ret ({| it_now := it_now s; it_armed := without i (it_armed s); it_queued := it_queued s ++ [i];
                       it_handles := it_handles s; it_next := it_next s |}, w, [])
          else Ret (s, w, [])
      | None => Ret (s, w, [])
      end
  | IRun i =>
      if existsb (Nat.eqb i) (it_queued s)
      then
        let '(w, l) := action i w in
        let! (s', o) := do_calls {| it_now := it_now s; it_armed := it_armed s;
                                    it_queued := filter (fun x => negb (Nat.eqb x i)) (it_queued s);
                                    it_handles := it_handles s; it_next := it_next s |} l in
        Ret (s', w, Acted i (it_now s) :: o)
      else Ret (s, w, [])
  end.

Fixpoint itimers_run (s : itimers) (w : W) (es : list ievent) : outcome (itimers * W * list ioutput) :=
  match es with
  | [] => Ret (s, w, [])
  | e :: es' =>
      let! (s, w, o) := itimers_step s w e in
      let! (s, w, o') := itimers_run s w es' in
      Ret (s, w, o ++ o')
  end.
End UserTimers.
