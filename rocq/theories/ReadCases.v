(** Concrete histories with reads that complete late. *)
From Verif Require Import Prelude Ser4 Messages Mbap SpecPdu SpecMbap Client SpecClient SystemCases SessionCases
  AsyncWrite ClientConn SpecConn ConnCases SpecReads ClientTcp SpecClientTcp TcpFacts TcpCases ReadFacts.
From Coq Require Import Lia.

(** A write fails; the connection is closed and another one is made; then the handler of a
    read of the old connection is executed, which had received the response. *)
Definition late_read : list tevent :=
  connecting ++ connected ++ [TWritten 0 false "reset"; TRun []] ++
  connecting ++ [TResolved true ""; TConnected 3 true ""; TRead 0 (RData (reply 0)) "" []].

Lemma late_read_twice : exists s l, tcp_history passive AllOrNothing late_read s l /\
  cn_socket (tc_conn s) = Some 3%nat /\ reads_on (tc_conn s) 3 = [1%nat; 2%nat].
Proof.
  exists (fst (played_tcp passive late_read)), (snd (played_tcp passive late_read)).
  split; [apply performed; [unfold late_read, connecting, connected; typed|vm_compute; reflexivity]|].
  vm_compute. split; reflexivity.
Qed.

Lemma second_read : exists es s l g, tcp_history passive AllOrNothing es s l /\
  cn_socket (tc_conn s) = Some g /\ List.length (reads_on (tc_conn s) g) = 2%nat.
Proof. destruct late_read_twice as (s & l & H & A & B). exists late_read, s, l, 3%nat. rewrite B. auto. Qed.
