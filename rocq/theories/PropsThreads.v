(** Data races and deadlocks. *)
From Verif Require Import Prelude Threads SpecThreads ThreadsFacts ThreadsRaces ThreadsCases.

(** ** C101: which calls race

    Calls from different threads do not race if every channel is used by one thread of
    the application only, which does nothing with it any more after it has shut it down,
    if scheduled requests are asked for their state by handlers only and the values of
    databases are accessed in transactions.  Otherwise the races are those of [racing],
    each of which happens. *)
Theorem C101_thread_safe_partial : forall es s tr user e f,
  executes es s tr -> in_transactions tr -> orderly tr user -> ~ race tr e f.
Proof. exact orderly_safe. Qed.
Print Assumptions C101_thread_safe_partial.

Theorem C101_races : forall es s tr e f,
  executes es s tr -> in_transactions tr -> race tr e f -> racing e f \/ racing f e.
Proof. exact races_only. Qed.
Print Assumptions C101_races.

Theorem C101_races_happen : forall e f, racing e f -> exists es s tr, executes es s tr /\ in_transactions tr /\ race tr e f.
Proof. exact racing_races. Qed.
Print Assumptions C101_races_happen.

Theorem C101_thread_safe_refuted : exists es s tr e f, executes es s tr /\ in_transactions tr /\ race tr e f.
Proof. exact not_thread_safe. Qed.
Print Assumptions C101_thread_safe_refuted.

Theorem C101_database_refuted : exists s tr, executes outside_events s tr /\
  race tr (at_event (App 0) (GetValue 0) (ORead (Tables 0))) (at_event (Strand 0) (Request 0) (OWrite (Tables 0))).
Proof. exact not_thread_safe_database. Qed.
Print Assumptions C101_database_refuted.

Example C101_example : executes orderly_events (fst (thread_run threads_init orderly_events)) orderly_trace /\
  in_transactions orderly_trace /\ orderly orderly_trace (fun _ => 0%nat) /\
  exists e f, In e orderly_trace /\ In f orderly_trace /\ ev_thread e <> ev_thread f /\ conflict e f.
Proof. exact (conj orderly_executes (conj orderly_in_transactions (conj orderly_orderly orderly_conflicts))). Qed.
Print Assumptions C101_example.

(** ** C102: transactions are atomic, and locks do not deadlock

    While a thread has the mutex of a database, as it has in transactions, only that
    thread accesses its values.  Unless transactions call functions that lock a mutex,
    some thread can always go on if any has something to do, and a strand that has nothing
    to do takes the next closure.  A transaction that adds a value to its own database
    waits for ever, and so does every request to that database then. *)
Theorem C102_atomic_partial : forall es s tr t d i e,
  executes es s tr -> in_transactions tr -> has_mutex tr t (DatabaseMutex d) i -> nth_error tr i = Some e ->
  (exists w, accessed (ev_op e) = Some (Tables d, w)) -> ev_thread e = t.
Proof. exact transactions_atomic. Qed.
Print Assumptions C102_atomic_partial.

Theorem C102_exclusive : forall es s tr t u m i,
  executes es s tr -> (i <= List.length tr)%nat -> has_mutex tr t m i -> has_mutex tr u m i -> t = u.
Proof. exact mutex_exclusive. Qed.
Print Assumptions C102_exclusive.

Theorem C102_no_deadlock_partial : forall es s tr t,
  executes es s tr -> simple_transactions es -> th_stack s t <> [] -> exists u, can_go_on s u.
Proof. exact no_deadlock. Qed.
Print Assumptions C102_no_deadlock_partial.

Theorem C102_strands : forall s c n f, In (n, c, f) (th_queue s) -> th_stack s (Strand c) = [] ->
  exists m g, snd (thread_step s (Dequeue c)) = [at_event (Strand c) g (OBegin m)].
Proof. exact strand_dequeues. Qed.
Print Assumptions C102_strands.

Theorem C102_no_deadlock_refuted : exists s tr, executes deadlock_events s tr /\ th_stack s (App 0) <> [] /\ (forall t, ~ can_go_on s t) /\
  forall es' s' tr', thread_run s es' = (s', tr') -> th_stack s' (App 0) = th_stack s (App 0) /\
    forall e, In e tr' -> ev_op e <> OAcquire (DatabaseMutex 0).
Proof. exact deadlock_stays. Qed.
Print Assumptions C102_no_deadlock_refuted.

Example C102_example : has_mutex orderly_trace (App 1) (DatabaseMutex 0) 14%nat /\
  nth_error orderly_trace 14%nat = Some (at_event (App 1) (SetValue 0) (OWrite (Tables 0))).
Proof. exact (conj (orderly_in_transactions 14%nat _ 0%nat eq_refl (or_intror eq_refl)) eq_refl). Qed.
Print Assumptions C102_example.
