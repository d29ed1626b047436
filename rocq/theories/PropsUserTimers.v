(** The timers that users of a session start. *)
From Verif Require Import Prelude UserTimers SpecUserTimers UserTimersFacts.

(** ** C137: the timers of users

    The actions of timers may start and cancel timers themselves.  The action of a timer is
    executed at most once. *)
Theorem C137_once : forall {W : Type} (action : nat -> W -> W * list icall) now w es s w' os,
  itimers_run action (itimers_init now) w es = Ret (s, w', os) -> NoDup (acted os).
Proof. exact @acted_once. Qed.
Print Assumptions C137_once.

(** It is not executed before the time at which the timer was to expire. *)
Theorem C137_not_early : forall {W : Type} (action : nat -> W -> W * list icall) now w es s w' os i n,
  itimers_run action (itimers_init now) w es = Ret (s, w', os) -> In (Acted i n) os ->
  exists t, In (Begun i t) os /\ t <= n.
Proof. exact @acted_late. Qed.
Print Assumptions C137_not_early.

(** That is the time given to [start], or the duration given to it after now, and what
    [expires_at] says from then on. *)
Theorem C137_start : forall {W : Type} now (w : W) es s w' os (action : nat -> W -> W * list icall),
  itimers_run action (itimers_init now) w es = Ret (s, w', os) -> forall a s1 o, do_call s a = Ret (s1, o) ->
  match a with
  | StartIn d => o = [Begun (it_next s) (it_now s + d)] /\ expires_at s1 (it_next s) = Ret (it_now s + d)
  | StartAt t => o = [Begun (it_next s) t] /\ expires_at s1 (it_next s) = Ret t
  | _ => True
  end.
Proof. exact @start_tells. Qed.
Print Assumptions C137_start.

Theorem C137_expires_at : forall {W : Type} (action : nat -> W -> W * list icall) now w es s w' os i,
  itimers_run action (itimers_init now) w es = Ret (s, w', os) ->
  match expires_at s i with Ret t => In (Begun i t) os | UB => ~ In i (map fst (it_handles s)) end.
Proof. exact @told_expiry. Qed.
Print Assumptions C137_expires_at.

(** A timer whose action is not yet queued when it is cancelled never acts. *)
Theorem C137_cancel : forall {W : Type} (action : nat -> W -> W * list icall) now w es1 s1 w1 o1 i es2 s2 w2 o2,
  itimers_run action (itimers_init now) w es1 = Ret (s1, w1, o1) -> ~ In i (it_queued s1) ->
  itimers_run action s1 w1 (ICall (CancelTimer i) :: es2) = Ret (s2, w2, o2) -> ~ In i (acted o2).
Proof. exact @cancelled_in_time. Qed.
Print Assumptions C137_cancel.

(** A timer that was neither cancelled nor has acted can expire when its time has come,
    whatever became of the object and of the session. *)
Theorem C137_not_forgotten : forall {W : Type} (action : nat -> W -> W * list icall) now w es s w' os i t,
  itimers_run action (itimers_init now) w es = Ret (s, w', os) ->
  In (Begun i t) os -> ~ In (Cancelled i) os -> ~ In i (acted os) ->
  exists s1, itimers_run action s w' [IPass (t - it_now s); IExpire i] = Ret (s1, w', []) /\ In i (it_queued s1).
Proof. exact @not_forgotten. Qed.
Print Assumptions C137_not_forgotten.

(** So an action can be executed although its timer was cancelled, and after the session
    was shut down. *)
Theorem C137_cancelled_late : exists es1 es2 s w os,
  itimers_run passive_action (itimers_init 0) tt (es1 ++ ICall (CancelTimer 0) :: es2) = Ret (s, w, os) /\
  os = [Begun 0 5; Cancelled 0; Acted 0 5].
Proof. exact cancelled_too_late. Qed.
Print Assumptions C137_cancelled_late.

Theorem C137_after_shutdown : exists es s w os, itimers_run passive_action (itimers_init 0) tt es = Ret (s, w, os) /\
  os = [Begun 0 5; Ended; Acted 0 6].
Proof. exact acts_after_shutdown. Qed.
Print Assumptions C137_after_shutdown.

(** An action that starts its timer again does so without end after the session was shut
    down and although nobody calls anything any more, so the threads that the destructor of
    the manager joins (ModbusManagerImpl.cpp:37-40) are never out of work. *)
Theorem C137_forever : forall n, exists es s os, (forall a, ~ In (ICall a) es) /\
  itimers_run polling_action (itimers_init 0) tt ([ICall (StartIn 10); ICall EndSession] ++ es) = Ret (s, tt, [Begun 0 10; Ended] ++ os) /\
  List.length (acted os) = n /\ it_armed s <> [].
Proof. exact polls_forever. Qed.
Print Assumptions C137_forever.

(** An action that starts its timer again, the way to poll. *)
Example C137_case : exists s, itimers_run (fun i (w : nat) => (S w, [StartIn 10])) (itimers_init 100) 0%nat
    [ICall (StartIn 5); IPass 5; IExpire 0; IRun 0; IPass 9; IExpire 1; IPass 2; IExpire 1; ICall (DropTimer 0); IRun 1] =
  Ret (s, 2%nat, [Begun 0 105; Acted 0 105; Begun 1 115; Acted 1 116; Begun 2 126]).
Proof. eexists. vm_compute. reflexivity. Qed.

(** A timer that was cancelled in time, and one whose object no longer exists. *)
Example C137_cancel_case : exists s, itimers_run passive_action (itimers_init 0) tt
    [ICall (StartAt 5); ICall (StartIn 3); ICall (CancelTimer 0); ICall (DropTimer 1); IPass 9; IExpire 0; IExpire 1; IRun 0; IRun 1] =
  Ret (s, tt, [Begun 0 5; Begun 1 3; Cancelled 0; Acted 1 9]).
Proof. eexists. vm_compute. reflexivity. Qed.

Example C137_dropped_case : itimers_run passive_action (itimers_init 0) tt [ICall (StartIn 3); ICall (DropTimer 0); ICall (CancelTimer 0)] = UB.
Proof. reflexivity. Qed.
