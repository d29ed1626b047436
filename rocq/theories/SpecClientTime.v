(** Histories of a client channel in time.  Every output has the time at which it is
    observed.  Timers do not expire before they are due; how late things happen is
    bounded by [eps]. *)
From Verif Require Import Prelude Ser4 Messages Mbap SpecMbap Client SpecClient.

Definition stamped : Type := (N * coutput)%type.

(** A timer [t] that was started at [a] for [d] can expire. *)
Definition due (now : N) (os : list stamped) (e : cevent) : Prop :=
  match e with CExpire t => forall a i d, In (a, Armed i t d) os -> a + d <= now | _ => True end.

(** At time [now] no closure of a request waits for longer than [eps], and no action of a
    timer. *)
Definition on_time (eps now : N) (s : client) (os : list stamped) : Prop :=
  (forall c i k, In (c, Called i k) os -> In i (qids (cc_queue s)) -> now <= c + eps) /\
  (forall a i t d, In (a, Armed i t d) os -> In t (cc_armed s ++ cc_expired s) -> now <= a + d + eps).

Section Time.
Context {W : Type}.
Context (handler : nat -> W -> expected (list N) -> W * list capi).
Context (pol : copy_policy).

(** [prompt]: the action of a timer is executed as soon as it expires, before anything
    else happens. *)
Inductive timed_history (prompt : bool) (eps : N) : N -> client -> W -> list stamped -> Prop :=
| Begins buf w : good_buf buf -> timed_history prompt eps 0 (client_init buf) w []
| Happens now s w os e s' w' o : timed_history prompt eps now s w os ->
    typed_cevent e -> due now os e -> (prompt = true -> cc_expired s <> [] -> exists t, e = CFire t) ->
    client_step handler pol s w e = Ret (s', w', o) ->
    timed_history prompt eps now s' w' (os ++ map (pair now) o)
| Passes now now' s w os : timed_history prompt eps now s w os -> now <= now' -> on_time eps now' s os ->
    timed_history prompt eps now' s w os.
End Time.

(** The timeouts of the valid requests that were made and have not been completed. *)
Definition unanswered (a : list stamped) : list N :=
  flat_map (fun x => match snd x with
                     | Called j k =>
                         if im_valid (k_msg k) && negb (existsb (Nat.eqb j) (completed_ids (map snd a))) then [k_timeout k] else []
                     | _ => []
                     end) a.

Fixpoint sum (l : list N) : N := match l with [] => 0 | x :: l' => x + sum l' end.

(** When a request with [timeout] that is made at time [c] is completed at the latest,
    after [a] was observed. *)
Definition time_limit (eps : N) (a : list stamped) (c timeout : N) : N :=
  c + eps + sum (map (fun d => d + eps) (unanswered a)) + (timeout + eps).
