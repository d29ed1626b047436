(** Histories of client sessions in time.  Every output has the time at which it is
    observed.  Timers, of the channel and of scheduled requests, do not expire before
    they are due; how late things happen is bounded by [eps]. *)
From Verif Require Import Prelude Ser4 Messages Mbap SpecMbap Client SpecClient SpecClientTime Scheduled SpecScheduled SessionCall Session SpecSession.

Definition kstamped : Type := (N * koutput)%type.

(** What the channel shows, and when. *)
Definition channel_stamps (os : list kstamped) : list stamped :=
  flat_map (fun x => match snd x with Channel o => [(fst x, o)] | _ => [] end) os.

(** A timer can expire. *)
Definition kdue (now : N) (os : list kstamped) (e : kevent) : Prop :=
  match e with
  | KChannel e => due now (channel_stamps os) e
  | KExpire j t => forall a f, In (a, Polled j (Wait t f)) os -> a + f <= now
  | _ => True
  end.

(** The times at which the closures in the queue of the sessions were posted, after an
    event at time [now]. *)
Definition ages_after {W : Type} (now : N) (e : kevent) (k : stack W) (ages : list N) : list N :=
  let left := match e with KRun => tl ages | _ => ages end in
  left ++ repeat now (List.length (ks_queue (st_rest k)) - List.length left).

(** At time [now] nothing waits for longer than [eps]: no closure, and no action of a
    timer. *)
Definition kon_time {W : Type} (eps now : N) (k : stack W) (ages : list N) (os : list kstamped) : Prop :=
  on_time eps now (st_channel k) (channel_stamps os) /\
  Forall (fun c => now <= c + eps) ages /\
  (forall a j t f p, In (a, Polled j (Wait t f)) os -> nth_error (ks_polls (st_rest k)) j = Some p ->
     In t (sr_armed (po_sched p) ++ sr_expired (po_sched p)) -> now <= a + f + eps).

(** An output is about what the methods of scheduled request [j] were called for. *)
Definition concerns (j : nat) (o : koutput) : bool :=
  match o with Scheduled j' _ _ _ _ => Nat.eqb j' j | Asked (OnSchedule j' _) => Nat.eqb j' j | _ => false end.

Section Time.
Context {W : Type}.
Context (user : users W).
Context (pol : copy_policy).

Inductive timed_sessions (eps : N) : N -> stack W -> list N -> list kstamped -> Prop :=
| SBegins buf w : good_buf buf -> timed_sessions eps 0 (stack_init buf w) [] []
| SHappens now k ages os e k' o : timed_sessions eps now k ages os ->
    typed_kevent e -> kdue now os e -> stack_step user pol k e = Ret (k', o) ->
    timed_sessions eps now k' (ages_after now e k' ages) (os ++ map (pair now) o)
| SPasses now now' k ages os : timed_sessions eps now k ages os -> now <= now' -> kon_time eps now' k ages os ->
    timed_sessions eps now' k ages os.
End Time.

(** When call [k] of the channel, which is made at time [c] after [a] was observed, is
    completed at the latest. *)
Definition call_limit (eps : N) (a : list kstamped) (c : N) (k : call) : N :=
  if im_valid (k_msg k) then time_limit eps (channel_stamps a) c (k_timeout k) else c + eps.
