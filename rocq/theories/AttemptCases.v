(** A concrete history with two connection attempts at once. *)
From Verif Require Import Prelude Ser4 Messages Mbap SpecPdu SpecMbap Client SpecClient SystemCases SessionCases
  AsyncWrite ClientConn SpecConn ConnCases SpecAttempts ClientTcp SpecClientTcp TcpFacts TcpCases.

(** A write fails and the connection is closed; a request is made; the read that was
    aborted thereby reports a second failure, which closes what the request has begun;
    another request is made. *)
Definition failed_twice : list tevent :=
  connecting ++ connected ++ [TWritten 0 false "reset"; TRun []] ++
  connecting ++ [TRead 0 RError "aborted" []; TRun []] ++ connecting.

Lemma second_attempt : exists es s l, tcp_history passive AllOrNothing es s l /\ attempts (tc_conn s) = 2%nat /\
  sent_ids (channel_outs l) = [0%nat; 1%nat; 2%nat] /\
  results (channel_outs l) = [(0%nat, Error (EConnection "reset")); (1%nat, Error (EConnection "aborted"))].
Proof.
  exists failed_twice, (fst (played_tcp passive failed_twice)), (snd (played_tcp passive failed_twice)).
  split; [apply performed; [unfold failed_twice, connecting, connected; typed|vm_compute; reflexivity]|].
  vm_compute. repeat split; reflexivity.
Qed.
