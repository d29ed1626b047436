(** What makes a client connect. *)
From Verif Require Import Prelude Ser4 Messages Mbap SpecPdu SpecMbap Client SpecClient SystemCases SessionCases
  AsyncWrite ClientConn SpecConn ConnCases ClientTcp SpecClientTcp TcpCases DemandFacts.

(** ** C132: a client connects only for a request

    Every attempt to connect begins with the sending of a request that is not completed. *)
Theorem C132_for_request : forall {W : Type} (handler : nat -> W -> expected (list N) -> W * list capi) pol es s l a b,
  tcp_history handler pol es s l -> l = a ++ ConnOut Attempt :: b ->
  exists a' i u t f x, a = a' ++ [ChannelOut (Sent i u t f); ConnIn (NSend (frame_data f) x)] /\ ~ In i (completed_ids (channel_outs a)).
Proof. exact @attempt_for_request. Qed.
Print Assumptions C132_for_request.

(** Without requests there is no connection and nothing is transmitted. *)
Theorem C132_unused : forall {W : Type} (handler : nat -> W -> expected (list N) -> W * list capi) pol es s l,
  tcp_history handler pol es s l -> sent_ids (channel_outs l) = [] ->
  ~ In Attempt (conn_outs l) /\ started (writes (conn_outs l)) = [].
Proof. exact @unused_unconnected. Qed.
Print Assumptions C132_unused.

Example C132_case : exists b, snd (played_tcp passive cut_off) =
  [ChannelIn (CApi (Submit read_call)); ChannelOut (Called 0 read_call); ChannelIn CRun;
   ChannelOut (Sent 0 1 0 (map Some (frame_bytes 0 1 [3; 0; 0; 0; 1])));
   ConnIn (NSend (frame_bytes 0 1 [3; 0; 0; 0; 1]) setup_ok)] ++ ConnOut Attempt :: b.
Proof. eexists. vm_compute. reflexivity. Qed.

Example C132_unused_case : defined passive [TApi Shutdown; TRun []; TRun []] = true /\
  conn_outs (snd (played_tcp passive [TApi Shutdown; TRun []; TRun []])) = [].
Proof. vm_compute. split; reflexivity. Qed.
