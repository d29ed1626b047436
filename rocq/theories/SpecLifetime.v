(** Specification of what is left of a client channel. *)
From Verif Require Import Prelude Ser4 Messages Mbap Client Scheduled SessionCall Session SpecSession Lifetime.
From Coq Require Import Relations.

Section Spec.
Context {W : Type}.
Implicit Types (k : stack W) (os : list koutput).

(** Nothing but what the application can get to exists. *)
Definition only_reachable k os (app : object -> Prop) : Prop :=
  forall alive, not_destroyed k os app alive ->
  forall o, alive o -> exists h, app h /\ clos_refl_trans object (refers k os) h o.

(** Nothing exists once the application holds nothing. *)
Definition all_freed k os : Prop := forall alive, not_destroyed k os (fun _ => False) alive -> forall o, ~ alive o.
End Spec.

(** A request was scheduled on a session that was not shut down since. *)
Definition left_scheduled (os : list koutput) : Prop :=
  exists a j x r t f b, os = a ++ Scheduled j x r t f :: b /\ ~ In (Asked (CloseSession x)) b.
