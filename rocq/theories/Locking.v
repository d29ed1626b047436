(** The in-memory database used from several threads.

    Every entry point of InMemoryDatabase.cpp (:23-56, :58-188) starts with
    [std::lock_guard<std::mutex> lock{m_mutex};].  Threads are interleaved at the
    granularity of the primitive map operations of Database.v.

    [std::mutex] (mutual exclusion, any waiting thread may get the lock, memory
    accesses under the lock are not reordered out of it) is an assumption of the
    model.  A transaction that calls back into a locking entry point would lock
    the mutex twice; [transaction] programs cannot do that. *)
From Verif Require Import Prelude Messages SpecPdu Database SpecDb.

(** A call is identified by a number given at its invocation. *)
Inductive event : Type :=
| Inv (id : nat) (thread : nat) (c : call)
| Res (id : nat) (r : result).

Inductive phase : Type :=
| Idle
| Waiting (id : nat) (c : call)                    (* before the lock is taken *)
| Inside (id : nat) (c : call) (p : prog result)   (* [p] remains to be executed *)
| Leaving (id : nat) (r : result).                 (* the lock has been released *)

Record cstate : Type := {
  c_db : db;
  c_lock : option nat;           (* the thread holding [m_mutex] *)
  c_phase : nat -> phase;
  c_next : nat;
  c_hist : list event;
  c_ub : bool
}.

Definition cstate_init : cstate :=
  {| c_db := db_empty; c_lock := None; c_phase := fun _ => Idle; c_next := 0;
     c_hist := []; c_ub := false |}.

Definition set_phase (f : nat -> phase) (th : nat) (p : phase) : nat -> phase :=
  fun x => if Nat.eqb x th then p else f x.

Inductive cstep : cstate -> cstate -> Prop :=
(** a thread calls an entry point with well-typed arguments *)
| step_invoke d l f n h u th c :
    f th = Idle -> typed_call c ->
    cstep {| c_db := d; c_lock := l; c_phase := f; c_next := n; c_hist := h; c_ub := u |}
          {| c_db := d; c_lock := l; c_phase := set_phase f th (Waiting n c);
             c_next := S n; c_hist := h ++ [Inv n th c]; c_ub := u |}
(** the constructor of the lock guard *)
| step_lock d f n h u th id c :
    f th = Waiting id c ->
    cstep {| c_db := d; c_lock := None; c_phase := f; c_next := n; c_hist := h; c_ub := u |}
          {| c_db := d; c_lock := Some th; c_phase := set_phase f th (Inside id c (call_body c));
             c_next := n; c_hist := h; c_ub := u |}
(** one primitive operation of the body *)
| step_act d l f n h u th id c R (a : act R) k d' r :
    f th = Inside id c (PAct a k) -> act_step a d = Ret (d', r) ->
    cstep {| c_db := d; c_lock := l; c_phase := f; c_next := n; c_hist := h; c_ub := u |}
          {| c_db := d'; c_lock := l; c_phase := set_phase f th (Inside id c (k r));
             c_next := n; c_hist := h; c_ub := u |}
| step_ub d l f n h u th id c R (a : act R) k :
    f th = Inside id c (PAct a k) -> act_step a d = UB ->
    cstep {| c_db := d; c_lock := l; c_phase := f; c_next := n; c_hist := h; c_ub := u |}
          {| c_db := d; c_lock := l; c_phase := f; c_next := n; c_hist := h; c_ub := true |}
| step_pub d l f n h u th id c :
    f th = Inside id c PUB ->
    cstep {| c_db := d; c_lock := l; c_phase := f; c_next := n; c_hist := h; c_ub := u |}
          {| c_db := d; c_lock := l; c_phase := f; c_next := n; c_hist := h; c_ub := true |}
(** the destructor of the lock guard *)
| step_unlock d l f n h u th id c r :
    f th = Inside id c (PRet r) ->
    cstep {| c_db := d; c_lock := l; c_phase := f; c_next := n; c_hist := h; c_ub := u |}
          {| c_db := d; c_lock := None; c_phase := set_phase f th (Leaving id r);
             c_next := n; c_hist := h; c_ub := u |}
(** the call returns to its caller *)
| step_return d l f n h u th id r :
    f th = Leaving id r ->
    cstep {| c_db := d; c_lock := l; c_phase := f; c_next := n; c_hist := h; c_ub := u |}
          {| c_db := d; c_lock := l; c_phase := set_phase f th Idle;
             c_next := n; c_hist := h ++ [Res id r]; c_ub := u |}.

Inductive creachable : cstate -> Prop :=
| creach_init : creachable cstate_init
| creach_step s s' : creachable s -> cstep s s' -> creachable s'.
