(** What becomes of late answers (C110). *)
From Verif Require Import Prelude Ser4 Messages Mbap Client Server Database System.
From Verif Require Import AsyncWrite ClientConn ClientTcp Listener ServerConn ServerTcp World.
From Verif Require Import SpecPdu SpecMbap SpecClient SpecDb SpecSystem SpecWorld.
From Verif Require Import ClientCases SystemCases SystemWrap SpecWorld WorldWrap.

(** ** C110: a late answer is not taken for that to another request

    A session reports only responses to requests that were executed, as long as no
    request has timed out or at most 65536 have been made (over the network:
    [C96_only_answered]). *)
Theorem C110_late_answer_partial :
  forall {W : Type} (handler : nat -> W -> expected (list N) -> W * list capi) pol units d es y os,
  happens handler pol units d es y os -> timely es os -> only_answered os.
Proof. exact @system_answered. Qed.
Print Assumptions C110_late_answer_partial.

(** Transaction identifiers are used again after 65536 requests
    (TransactionIdentifier.cpp:43-47).  If all of them time out while the answer to the
    first is under way, this is reported as the response to the next, which nobody
    has executed. *)
Theorem C110_late_answer_refuted : ~ (forall (handler : nat -> unit -> expected (list N) -> unit * list capi) pol units d es y os,
  happens handler pol units d es y os -> only_answered os).
Proof. exact timely_needed. Qed.
Print Assumptions C110_late_answer_refuted.

(** The same over the network, in an orderly history. *)
Theorem C110_over_the_network_refuted : ~ (forall (handler : nat -> unit -> expected (list N) -> unit * list capi) pol units d w0 es w l,
  world_history handler pol units d w0 es w l -> orderly handler pol w0 es l -> only_answered (observed l)).
Proof. exact few_calls_needed. Qed.
Print Assumptions C110_over_the_network_refuted.

Example C110_case : exists y os, happens idle Truncate [9] three_registers byte_by_byte y os /\ timely byte_by_byte os /\
  exists d1 d2, results (client_outputs os) = [(0%nat, Value d1); (1%nat, Value d2)].
Proof. exact in_time. Qed.

Example C110_case_late : exists n y a x b, N.of_nat n = 65535 /\
  happens idle Truncate [9] three_registers (come_round n) y (a ++ YC (Completed (n + 1) (Value x)) :: b) /\
  In (YC (Called (n + 1) (session_call 9 (ReadHoldingRegisters 6 1) 1000))) a /\ db_calls a = [CRequest (ReadHoldingRegisters 5 1)].
Proof. exact too_late. Qed.
