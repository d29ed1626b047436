(** Independent specification of what a client channel keeps. *)
From Verif Require Import Prelude Ser4 Messages Mbap Client SpecClient.

(** The requests of a channel: the one that was sent, those that wait for their turn, and
    those whose calls are still posted. *)
Definition held (s : client) : list nat :=
  map pr_id (match cc_current s with Some p => [p] | None => [] end ++ cc_pending s) ++ qids (cc_queue s).

(** The calls that are not completed, in order. *)
Definition open_calls (os : list coutput) : list nat :=
  filter (fun i => negb (existsb (Nat.eqb i) (completed_ids os))) (called_ids os).
