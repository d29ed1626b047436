(** Independent specification of the connection attempts of a client. *)
From Verif Require Import Prelude AsyncWrite ClientConn SpecConn.

(** The closing of an earlier connection is not executed during an attempt to make the next. *)
Definition timely_closing (s : cconn) (e : nevent) : Prop :=
  e = NRun -> forall q, cn_queue s = NDoClose :: q -> cn_resolves s = 0%nat /\ cn_connects s = [].

(** Attempts under way. *)
Definition attempts (s : cconn) : nat := (cn_resolves s + List.length (cn_connects s))%nat.
