(** Observations of the timers of users. *)
From Verif Require Import Prelude UserTimers.

(** The timers whose actions were executed, in order. *)
Definition acted (os : list ioutput) : list nat := flat_map (fun o => match o with Acted i _ => [i] | _ => [] end) os.
Definition cancelled (os : list ioutput) : list nat := flat_map (fun o => match o with Cancelled i => [i] | _ => [] end) os.
