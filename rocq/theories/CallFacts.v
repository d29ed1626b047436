(** Proofs about what the callers of the API do themselves: client channels. *)
From Verif Require Import Prelude Ser4 Messages Mbap Client SpecClient AsyncWrite ClientConn ClientTcp SpecClientTcp.

Section Calls.
Context {W : Type}.
Context (handler : nat -> W -> expected (list N) -> W * list capi).

Lemma client_call pol (s : tclient W) a : exists s' l q n, tcp_step handler pol s (TApi a) = Ret (s', l) /\
  tc_user s' = tc_user s /\ tc_conn s' = tc_conn s /\ tc_channel s' = with_queue (tc_channel s) (cc_queue (tc_channel s) ++ q) n /\
  (List.length q <= 1)%nat /\ conn_outs l = [] /\ sent_ids (channel_outs l) = [] /\ completed_ids (channel_outs l) = [].
Proof.
  destruct s as [ch u c o]. unfold tcp_step, channel_turn. cbn [tc_channel tc_user tc_conn tc_order client_step].
  destruct a as [k|]; cbn [capi_call obind to_conn].
  - exists {| tc_channel := fst (capi_call ch (Submit k)); tc_user := u; tc_conn := c;
             tc_order := o ++ posted ChannelTurn (List.length (cc_queue ch) - 0) (List.length (cc_queue (fst (capi_call ch (Submit k)))))
                           ++ posted ConnTurn (List.length (cn_queue c)) (List.length (cn_queue c)) |}.
    exists [ChannelIn (CApi (Submit k)); ChannelOut (Called (cc_calls ch) k)].
    exists (if cc_shutdown ch then [] else if im_valid (k_msg k) then [DoSend (cc_calls ch) k] else [DoReject (cc_calls ch)]), (S (cc_calls ch)).
    split; [reflexivity|]. split; [reflexivity|]. split; [reflexivity|]. split.
    { cbn [tc_channel capi_call fst]. destruct (cc_shutdown ch); [rewrite app_nil_r; reflexivity|]. destruct (im_valid (k_msg k)); reflexivity. }
    split; [|repeat split]. destruct (cc_shutdown ch); [auto|]. destruct (im_valid (k_msg k)); auto.
  - do 2 eexists. exists [DoShutdown], (cc_calls ch). split; [reflexivity|]. cbn. repeat split. auto.
Qed.
End Calls.
