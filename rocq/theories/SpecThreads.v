(** Specification of data races and deadlocks. *)
From Verif Require Import Prelude Threads.
From Coq Require Import Relations.

Definition executes (es : list choice) (s : threads) (tr : list event) : Prop := thread_run threads_init es = (s, tr).

(** ** Data races *)

(** Event [i] synchronises with event [j]: they are of one thread, or a mutex is released
    and acquired, or a closure is posted and begins. *)
Definition before (tr : list event) (i j : nat) : Prop :=
  (i < j)%nat /\ exists e f, nth_error tr i = Some e /\ nth_error tr j = Some f /\
    (ev_thread e = ev_thread f \/
     (exists m, ev_op e = ORelease m /\ ev_op f = OAcquire m) \/
     (exists n g, ev_op e = OPost n g /\ ev_op f = OBegin n)).
Definition happens_before (tr : list event) : nat -> nat -> Prop := clos_trans nat (before tr).

Definition accessed (o : operation) : option (location * bool) :=
  match o with ORead l => Some (l, false) | OWrite l => Some (l, true) | _ => None end.

(** Two accesses to the same location, one of which writes. *)
Definition conflict (e f : event) : Prop :=
  exists l a b, accessed (ev_op e) = Some (l, a) /\ accessed (ev_op f) = Some (l, b) /\ (a = true \/ b = true).

(** The accesses [e] and [f] race. *)
Definition race (tr : list event) (e f : event) : Prop :=
  exists i j, (i < j)%nat /\ nth_error tr i = Some e /\ nth_error tr j = Some f /\ conflict e f /\ ~ happens_before tr i j.

(** Thread [t] has mutex [m] at event [i]. *)
Definition has_mutex (tr : list event) (t : thread) (m : mutex) (i : nat) : Prop :=
  exists k e, (k < i)%nat /\ nth_error tr k = Some e /\ ev_thread e = t /\ ev_op e = OAcquire m /\
    forall j e', (k < j < i)%nat -> nth_error tr j = Some e' -> ev_op e' <> ORelease m.

(** The pairs of accesses that race. *)
Definition at_event (t : thread) (f : function) (o : operation) : event := {| ev_thread := t; ev_function := f; ev_op := o |}.

Inductive racing : event -> event -> Prop :=
| race_create_shutdown c xs t : t <> Strand c ->
    racing (at_event t (CreateSession c) (ORead (ClientIsShutdown c)))
           (at_event (Strand c) (DoChannelShutdown c xs) (OWrite (ClientIsShutdown c)))
| race_send_shutdown c xs t : t <> Strand c ->
    racing (at_event t (SendRequest c) (ORead (ClientIsShutdown c)))
           (at_event (Strand c) (DoChannelShutdown c xs) (OWrite (ClientIsShutdown c)))
| race_create_create c t u : t <> u ->
    racing (at_event t (CreateSession c) (OWrite (ClientSessions c))) (at_event u (CreateSession c) (OWrite (ClientSessions c)))
| race_create_sessions c xs t o : t <> Strand c -> o = ORead (ClientSessions c) \/ o = OWrite (ClientSessions c) ->
    racing (at_event t (CreateSession c) (OWrite (ClientSessions c))) (at_event (Strand c) (DoChannelShutdown c xs) o)
| race_running c j t f : t <> Strand c -> f = DoStart c j \/ f = DoStop c j ->
    racing (at_event t (IsRunning c j) (ORead (Running c j))) (at_event (Strand c) f (OWrite (Running c j)))
| race_frequency c j t : t <> Strand c ->
    racing (at_event t (GetFrequency c j) (ORead (Frequency c j))) (at_event (Strand c) (DoSetFrequency c j) (OWrite (Frequency c j)))
| race_server_start c t : t <> Strand c ->
    racing (at_event t (ServerStart c) (ORead (ServerIsShutdown c))) (at_event (Strand c) (DoServerShutdown c) (OWrite (ServerIsShutdown c)))
| race_server_add c t : t <> Strand c ->
    racing (at_event t (AddSession c) (ORead (ServerIsShutdown c))) (at_event (Strand c) (DoServerShutdown c) (OWrite (ServerIsShutdown c))).

(** The values of a database are accessed through [IDatabase] with its mutex, as they are
    in transactions. *)
Definition in_transactions (tr : list event) : Prop :=
  forall i e d, nth_error tr i = Some e -> ev_function e = GetValue d \/ ev_function e = SetValue d ->
  has_mutex tr (ev_thread e) (DatabaseMutex d) i.

(** Each channel is used by one thread of the application, which does nothing with it
    any more once it has shut it down, and by its own handlers, which create no sessions;
    and scheduled requests are only asked for their state by handlers. *)
Definition uses_channel (f : function) : option nat :=
  match f with CreateSession c | SendRequest c | ServerStart c | AddSession c => Some c | _ => None end.
Definition shuts_channel (o : operation) : option nat :=
  match o with OPost _ (DoChannelShutdown c _) | OPost _ (DoServerShutdown c) => Some c | _ => None end.

Record orderly (tr : list event) (user : nat -> nat) : Prop := {
  or_one : forall e c, In e tr -> uses_channel (ev_function e) = Some c -> ev_thread e = App (user c) \/ ev_thread e = Strand c;
  or_create : forall e c, In e tr -> ev_function e = CreateSession c -> ev_thread e = App (user c);
  or_asked : forall e c j, In e tr -> ev_function e = IsRunning c j \/ ev_function e = GetFrequency c j -> ev_thread e = Strand c;
  or_shut : forall e c, In e tr -> shuts_channel (ev_op e) = Some c -> ev_thread e = App (user c);
  or_after : forall i j e f c, nth_error tr i = Some e -> nth_error tr j = Some f -> shuts_channel (ev_op e) = Some c ->
    uses_channel (ev_function f) = Some c -> (i < j)%nat -> ev_thread f = Strand c
}.

(** ** Deadlocks *)

(** Thread [t] can go on. *)
Definition can_go_on (s : threads) (t : thread) : Prop :=
  match th_stack s t with
  | [] => False
  | (_, Acquire m :: _) :: _ => th_owner s m = None
  | _ => True
  end.

Definition takes_mutex (f : function) : bool :=
  existsb (fun a => match a with Acquire _ => true | _ => false end) (body f).

(** No function that locks a mutex is called by a transaction. *)
Definition simple_transactions (es : list choice) : Prop :=
  forall es1 t f es2, es = es1 ++ Enter t f :: es2 -> takes_mutex f = true ->
  forall m, th_owner (fst (thread_run threads_init es1)) m <> Some t.
