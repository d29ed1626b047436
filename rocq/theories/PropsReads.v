(** The read buffer of a client connection. *)
From Verif Require Import Prelude Ser4 Messages Mbap Client SpecClient SessionCases AsyncWrite ClientConn SpecConn ConnCases SpecReads ClientTcp SpecClientTcp TcpCases
  ReadFacts ReadCases.

(** ** C130: one read at a time uses the read buffer

    Refuted by the handler of a read that succeeded on a connection that was closed and
    replaced before the handler was executed: it begins a second read of the new one. *)
Theorem C130_one_read_refuted : exists es s l g, tcp_history passive AllOrNothing es s l /\
  cn_socket (tc_conn s) = Some g /\ List.length (reads_on (tc_conn s) g) = 2%nat.
Proof. exact second_read. Qed.
Print Assumptions C130_one_read_refuted.

(** If handlers of connects and reads that succeeded are executed before their socket is
    closed, there is never a second read of a socket. *)
Theorem C130_connection_partial : forall es s os g, conn_run cconn_init es = Ret (s, os) -> always prompt_success cconn_init es ->
  (List.length (reads_on s g) <= 1)%nat.
Proof. exact one_read. Qed.
Print Assumptions C130_connection_partial.

Theorem C130_client_partial : forall {W : Type} (handler : nat -> W -> expected (list N) -> W * list capi) pol es s l g,
  tcp_history handler pol es s l -> always prompt_success cconn_init (conn_ins l) -> (List.length (reads_on (tc_conn s) g) <= 1)%nat.
Proof. exact @tcp_one_read. Qed.
Print Assumptions C130_client_partial.

Example C130_case : let es := [NSend [1] setup_ok; NResolved true; NConnected 1 true; NRead 0 (RData [7]); NWritten 0 false; NRun;
             NSend [2] setup_ok; NResolved true; NConnected 3 true; NRead 1 RError; NRead 2 (RData [8])] in exists s os,
  conn_run cconn_init es = Ret (s, os) /\ always prompt_success cconn_init es /\ received_data os = [[7]; [8]] /\ reads_on s 3 = [3%nat].
Proof.
  do 2 eexists. split; [vm_compute; reflexivity|]. split; [settle|split; vm_compute; reflexivity].
Qed.
