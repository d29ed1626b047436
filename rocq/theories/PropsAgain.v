(** Shutting down more than once. *)
From Verif Require Import Prelude Ser4 Messages Mbap SpecPdu SpecMbap Client SpecClient ClientCases AsyncWrite ClientConn SpecConn AgainFacts.

(** ** C133: shutting down again changes nothing

    A further shutdown of a channel that is shut down only passes the call on to its
    connection: no request is completed, no timer changes, and the state stays as it is. *)
Theorem C133_channel : forall {W : Type} (handler : nat -> W -> expected (list N) -> W * list capi) pol es s w os q,
  history handler pol es s w os -> In TcpShutdown os -> cc_queue s = DoShutdown :: q ->
  client_step handler pol s w CRun = Ret (with_queue s q (cc_calls s), w, [TcpShutdown]).
Proof. exact @channel_again. Qed.
Print Assumptions C133_channel.

(** A further shutdown of a connection that is shut down does nothing. *)
Theorem C133_connection : forall es s os q, conn_run cconn_init es = Ret (s, os) -> cn_shutdown s = true -> cn_queue s = NDoShutdown :: q ->
  conn_step s NRun = Ret (with_nqueue s q, []).
Proof. exact connection_again. Qed.
Print Assumptions C133_connection.

Example C133_case : exists s w os, client_run idle Truncate (client_init (repeat 0 260)) tt
    [CApi (Submit read_call); CRun; CApi Shutdown; CApi Shutdown; CRun] = Ret (s, w, os) /\
  In TcpShutdown os /\ cc_queue s = [DoShutdown].
Proof. do 3 eexists. split; [vm_compute; reflexivity|]. split; [cbn; tauto|reflexivity]. Qed.

Example C133_connection_case : exists s os, conn_run cconn_init [NShutdown; NShutdown; NRun] = Ret (s, os) /\
  cn_shutdown s = true /\ cn_queue s = [NDoShutdown].
Proof. do 2 eexists. split; [vm_compute; reflexivity|]. split; reflexivity. Qed.
