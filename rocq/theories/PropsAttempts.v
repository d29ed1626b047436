(** The connection attempts of a client. *)
From Verif Require Import Prelude Ser4 Messages Mbap Client SpecClient SessionCases AsyncWrite ClientConn SpecConn ConnCases SpecAttempts ClientTcp SpecClientTcp TcpCases
  AttemptFacts AttemptCases.

(** ** C131: a client makes one connection attempt at a time

    Refuted by one failed write: the read that is aborted when the connection is closed
    closes the socket of the attempt that the next request began, and the request after
    that begins a second one. *)
Theorem C131_one_attempt_refuted : exists es s l, tcp_history passive AllOrNothing es s l /\ attempts (tc_conn s) = 2%nat /\
  sent_ids (channel_outs l) = [0%nat; 1%nat; 2%nat] /\
  results (channel_outs l) = [(0%nat, Error (EConnection "reset")); (1%nat, Error (EConnection "aborted"))].
Proof. exact second_attempt. Qed.
Print Assumptions C131_one_attempt_refuted.

(** It is true as long as closings are not executed during attempts. *)
Theorem C131_connection_partial : forall es s os, conn_run cconn_init es = Ret (s, os) -> always timely_closing cconn_init es ->
  (attempts s <= 1)%nat.
Proof. exact one_attempt. Qed.
Print Assumptions C131_connection_partial.

(** Then an attempt begins only after the attempt before has failed or succeeded. *)
Theorem C131_separated_partial : forall es s os a b c, conn_run cconn_init es = Ret (s, os) -> always timely_closing cconn_init es ->
  os = a ++ Attempt :: b ++ Attempt :: c -> In Failed b \/ exists g, In (Established g) b.
Proof. exact attempts_separated. Qed.
Print Assumptions C131_separated_partial.

Theorem C131_client_partial : forall {W : Type} (handler : nat -> W -> expected (list N) -> W * list capi) pol es s l,
  tcp_history handler pol es s l -> always timely_closing cconn_init (conn_ins l) -> (attempts (tc_conn s) <= 1)%nat.
Proof. exact @tcp_one_attempt. Qed.
Print Assumptions C131_client_partial.

Example C131_case : let es := [NSend [1] setup_ok; NResolved true; NConnected 1 false; NRun; NSend [2] setup_ok] in exists s os,
  conn_run cconn_init es = Ret (s, os) /\ always timely_closing cconn_init es /\
  os = [Attempt; Failed; SocketClosed 1; Attempt] /\ attempts s = 1%nat.
Proof.
  do 2 eexists. split; [vm_compute; reflexivity|].
  split; [|split; vm_compute; reflexivity].
  repeat (split; [intros X q Q; first [discriminate X|discriminate Q|vm_compute; split; reflexivity]|]; intros ? ? HE; vm_compute in HE; injection HE as <- <-);
    exact Logic.I.
Qed.
