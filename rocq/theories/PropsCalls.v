(** What the callers of a client channel's methods do themselves. *)
From Verif Require Import Prelude Ser4 Messages Mbap Client SpecClient ClientCases AsyncWrite ClientConn ClientTcp SpecClientTcp CallFacts.

(** ** C136: calls of the API do nothing but post

    In any state, a call returns without undefined behaviour, calls no handler, sends
    nothing and leaves the connection alone; it posts at most one closure. *)
Theorem C136_client : forall {W : Type} (handler : nat -> W -> expected (list N) -> W * list capi) pol (s : tclient W) a,
  exists s' l q n, tcp_step handler pol s (TApi a) = Ret (s', l) /\
  tc_user s' = tc_user s /\ tc_conn s' = tc_conn s /\ tc_channel s' = with_queue (tc_channel s) (cc_queue (tc_channel s) ++ q) n /\
  (List.length q <= 1)%nat /\ conn_outs l = [] /\ sent_ids (channel_outs l) = [] /\ completed_ids (channel_outs l) = [].
Proof. exact @client_call. Qed.
Print Assumptions C136_client.

(** An invalid request, too, is only rejected later. *)
Example C136_case : exists s l, tcp_step idle Truncate (tclient_init (repeat 0 260) tt)
    (TApi (Submit bad_call)) = Ret (s, l) /\
  cc_queue (tc_channel s) = [DoReject 0].
Proof. do 2 eexists. split; reflexivity. Qed.
