(** Independent specification of a scheduled request, over the outputs of a history. *)
From Verif Require Import Prelude Scheduled.

Section Observations.
Context {R : Type}.

(** Requests sent, in order. *)
Definition requested (os : list (soutput R)) : list nat :=
  flat_map (fun o => match o with Request i => [i] | _ => [] end) os.

Definition starts (os : list (soutput R)) : nat :=
  List.length (filter (fun o => match o with Started => true | _ => false end) os).

Definition answered (i : nat) (os : list (soutput R)) : bool :=
  existsb (fun o => match o with Response j _ => Nat.eqb j i | _ => false end) os.

(** Requests sent and not answered. *)
Definition unanswered (os : list (soutput R)) : list nat :=
  filter (fun i => negb (answered i os)) (requested os).

(** Whether the last change was a start. *)
Definition polling (os : list (soutput R)) : bool :=
  fold_left (fun b o => match o with Started => true | Stopped => false | _ => b end) os false.

(** The last frequency set. *)
Definition frequency_of (f0 : N) (os : list (soutput R)) : N :=
  fold_left (fun f o => match o with Frequency f' => f' | _ => f end) os f0.

(** What calls of start, stop and set_frequency, one after the other, are meant to do. *)
Definition after_calls (calls : list sapi) (x : bool * N) : bool * N :=
  fold_left (fun '(b, f) a => match a with Start => (true, f) | Stop => (false, f) | SetFrequency g => (b, g) end) calls x.

(** Every (re)start happens when all the requests sent so far are answered. *)
Definition restarts_when_answered (os : list (soutput R)) : Prop :=
  forall a b i, os = a ++ Started :: b -> In (Request i) a -> exists r, In (Response i r) a.

(** The action of a timer is executed as soon as the timer expires. *)
Inductive prompt_timers : list (sevent R) -> Prop :=
| prompt_nil : prompt_timers []
| prompt_other es e :
    (forall t, e <> SExpire t) -> (forall t, e <> SFire t) -> prompt_timers es -> prompt_timers (es ++ [e])
| prompt_expiry es t : prompt_timers es -> prompt_timers (es ++ [SExpire t; SFire t]).

(** [os] is what is observed when the events [es] happen to a new scheduled request
    of frequency [f]. *)
Definition schedule {W : Type} (handler : nat -> W -> R -> W * list sapi)
    (f : N) (es : list (sevent R)) (s : sched) (w : W) (os : list (soutput R)) : Prop :=
  exists w0, sched_run handler (sched_init f) w0 es = (s, w, os).
End Observations.
