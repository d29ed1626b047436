(** After [shutdown] everything comes to an end (C109). *)
From Verif Require Import Prelude Ser4 Messages Mbap Client SpecClient AsyncWrite ClientConn SpecConn ClientTcp SpecClientTcp TcpCases SpecEnd TcpEnd TcpEndCases.

(** ** C109: after [shutdown] nothing keeps the threads of the pool from returning

    The destructor of the manager shuts down every channel and then joins the threads of
    the pool (ModbusManagerImpl.cpp:37-40, :88-103; ModbusManagerImpl.h:45): they return when nothing is posted and no
    operation and no timer is outstanding.  Once the closures that [shutdown] leads to have
    been executed, everything that can still happen to a client channel and its connection,
    in whatever order and with whatever result, is well defined and ends, and it ends only
    when nothing at all is left. *)
Theorem C109_client_ends :
  forall {W : Type} (handler : nat -> W -> expected (list N) -> W * list capi) pol es s l es1 s1 l1 es2 s2 l2,
  tcp_history handler pol es s l -> In (TApi Client.Shutdown) es -> Forall typed_tevent (es1 ++ es2) ->
  tcp_run handler pol s es1 = Ret (s1, l1) -> (List.length (tc_order s) <= truns es1)%nat ->
  tcp_run handler pol s1 es2 = Ret (s2, l2) -> (List.length (tc_order s1) <= truns es2)%nat ->
  tcp_ends handler pol s2.
Proof. exact @client_ends. Qed.
Print Assumptions C109_client_ends.

Example C109_client_example : exists es s l s1 l1 s2 l2, tcp_history passive AllOrNothing es s l /\ In (TApi Client.Shutdown) es /\
  tcp_run passive AllOrNothing s [TRun []] = Ret (s1, l1) /\ (List.length (tc_order s) <= truns [TRun []])%nat /\
  tcp_run passive AllOrNothing s1 [TRun []] = Ret (s2, l2) /\ (List.length (tc_order s1) <= truns [TRun []])%nat /\
  tcp_ends passive AllOrNothing s2 /\ ~ tcp_idle s2.
Proof. exact unanswered_ends. Qed.

(** From the call of [shutdown] on, no infinite sequence of events executes posted
    closures again and again. *)
Theorem C109_client_fair :
  forall {W : Type} (handler : nat -> W -> expected (list N) -> W * list capi) pol es0 l ss es,
  tcp_history handler pol es0 (ss 0%nat) l -> In (TApi Client.Shutdown) es0 -> tcp_goes_on_forever handler pol ss es -> ~ closures_run es.
Proof. exact @ends_if_run. Qed.
Print Assumptions C109_client_fair.
