(** Concrete histories of a client channel over its TCP connection. *)
From Verif Require Import Prelude Ser4 Messages Mbap SpecPdu SpecMbap MbapFacts Client SpecClient SystemCases SessionCases
  AsyncWrite ClientConn SpecConn ConnRecover ConnCases ClientTcp SpecClientTcp TcpWire TcpOrder TcpLemmas TcpBehaviour TcpShutdown TcpAnswer TcpNetwork.
From Coq Require Import Lia.

(** A read of one register; a handler that does nothing, and one that repeats a request that failed, once. *)
Definition read_call : call := {| k_unit := 1; k_msg := request_message (ReadHoldingRegisters 0 1); k_timeout := 1000 |}.
Definition passive (i : nat) (w : bool) (r : expected (list N)) : bool * list capi := (w, []).
Definition repeats (i : nat) (w : bool) (r : expected (list N)) : bool * list capi :=
  match r with Error _ => if w then (w, []) else (true, [Submit read_call]) | _ => (w, []) end.

Section Play.
Context (handler : nat -> bool -> expected (list N) -> bool * list capi).

Definition perform (es : list tevent) : outcome (tclient bool * list mark) := tcp_run handler AllOrNothing (tclient_init zeros false) es.
Definition defined (es : list tevent) : bool := match perform es with Ret _ => true | UB => false end.
Definition played_tcp (es : list tevent) : tclient bool * list mark :=
  match perform es with Ret x => x | UB => (tclient_init zeros false, []) end.

Lemma performed : forall es, Forall typed_tevent es -> defined es = true ->
  tcp_history handler AllOrNothing es (fst (played_tcp es)) (snd (played_tcp es)).
Proof.
  intros es T D. exists zeros, false. split; [exact zeros_good|]. split; [exact T|]. unfold defined in D. unfold played_tcp. fold (perform es).
  destruct (perform es) as [[s l]|]; [reflexivity|discriminate].
Qed.

Lemma performed_step : forall es e, defined (es ++ [e]) = true ->
  exists l', tcp_step handler AllOrNothing (fst (played_tcp es)) e = Ret (fst (played_tcp (es ++ [e])), l') /\ snd (played_tcp (es ++ [e])) = snd (played_tcp es) ++ l'.
Proof.
  intros es e D. unfold defined, played_tcp, perform in *. rewrite run_app_tcp in *. destruct (tcp_run _ _ _ es) as [[s l]|]; cbn [obind fst] in *; [|discriminate].
  cbn [tcp_run] in *. destruct (tcp_step _ _ s e) as [[s' l']|]; cbn [obind] in *; [|discriminate]. exists l'. rewrite app_nil_r. split; reflexivity.
Qed.

End Play.

Ltac typed := repeat (constructor; try exact Logic.I); cbn; repeat constructor.

(** The channel is created, a request submitted and its connection made. *)
Definition connecting : list tevent := [TApi (Submit read_call); TRun []].
Definition connected : list tevent := [TResolved true ""; TConnected 1 true ""].
Definition written (w : nat) : list tevent := [TTransfer w 12; TWritten w true ""].
Definition reply (t : N) : list N := frame_bytes t 1 [3; 2; 0; 7].

(** The request times out before the connection is made. *)
Definition late : list tevent := connecting ++ [TExpire 0; TFire 0 []] ++ connected.

Lemma completed_transmitted : exists es s l a w i u t f b, tcp_history passive AllOrNothing es s l /\
  l = a ++ ConnOut (Write (WStarted w (frame_data f))) :: b /\ sent_ids (channel_outs l) = [i] /\
  In (ChannelOut (Sent i u t f)) a /\ In (ChannelOut (Completed i (Error ETimeout))) a.
Proof.
  set (f := map Some (frame_bytes 0 1 [3; 0; 0; 0; 1])).
  exists late, (fst (played_tcp passive late)), (snd (played_tcp passive late)), (firstn 13 (snd (played_tcp passive late))), 0%nat, 0%nat, 1, 0, f,
    (skipn 14 (snd (played_tcp passive late))).
  assert (L : nth_error (snd (played_tcp passive late)) 13 = Some (ConnOut (Write (WStarted 0 (frame_data f))))) by (vm_compute; reflexivity).
  split; [apply performed; [unfold late, connecting, connected; typed|vm_compute; reflexivity]|].
  split; [exact (cut _ _ _ L)|]. split; [vm_compute; reflexivity|]. split.
  - apply (present _ 3). vm_compute. reflexivity.
  - apply (present _ 9). vm_compute. reflexivity.
Qed.

(** The first of two requests times out while its frame is being written. *)
Definition overtaken : list tevent :=
  [TApi (Submit read_call); TApi (Submit read_call); TRun []; TRun []] ++ connected ++ [TExpire 0; TFire 0 []; TTransfer 0 12].

Lemma time_out_while_writing : Forall typed_tevent overtaken /\ tcp_run passive AllOrNothing (tclient_init zeros false) overtaken = UB.
Proof. split; [unfold overtaken, connected; typed|]. vm_compute. reflexivity. Qed.

(** The peer closes the connection instead of answering. *)
Definition closed_by_peer : list tevent := connecting ++ connected ++ written 0 ++ [TRead 0 REof "" []; TRun []].

Lemma close_not_reported : exists es s l, tcp_history passive AllOrNothing es s l /\
  In (ConnOut (PeerClosed 1)) l /\ In (ConnOut (SocketClosed 1)) l /\ tc_order s = [] /\
  called_ids (channel_outs l) = [0%nat] /\ completed_ids (channel_outs l) = [].
Proof.
  exists closed_by_peer, (fst (played_tcp passive closed_by_peer)), (snd (played_tcp passive closed_by_peer)).
  split; [apply performed; [unfold closed_by_peer, connecting, connected, written; typed|vm_compute; reflexivity]|].
  split; [apply in_conn_outs; vm_compute; tauto|]. split; [apply in_conn_outs; vm_compute; tauto|]. repeat split; vm_compute; reflexivity.
Qed.

(** A request is answered, then the channel is shut down. *)
Definition shut_down : list tevent :=
  connecting ++ connected ++ written 0 ++ [TRead 0 (RData (reply 0)) "" []; TApi Shutdown; TRun []; TRun []].

Lemma socket_not_closed : exists es s l, tcp_history passive AllOrNothing es s l /\ In (TApi Shutdown) es /\ tc_order s = [] /\
  results (channel_outs l) = [(0%nat, Value [3; 2; 0; 7])] /\ cn_shutdown (tc_conn s) = true /\
  forall es' s' l', tcp_run passive AllOrNothing s es' = Ret (s', l') -> cn_socket (tc_conn s') = Some 1%nat /\ conn_outs l' = [].
Proof.
  exists shut_down, (fst (played_tcp passive shut_down)), (snd (played_tcp passive shut_down)).
  assert (H : tcp_history passive AllOrNothing shut_down (fst (played_tcp passive shut_down)) (snd (played_tcp passive shut_down)))
    by (apply performed; [unfold shut_down, connecting, connected, written; typed|vm_compute; reflexivity]).
  assert (D : cn_shutdown (tc_conn (fst (played_tcp passive shut_down))) = true) by (vm_compute; reflexivity).
  split; [exact H|]. split; [unfold shut_down; apply in_or_app; right; cbn; tauto|]. split; [vm_compute; reflexivity|]. split; [vm_compute; reflexivity|]. split; [exact D|].
  intros es' s' l' R. destruct (socket_stays _ _ _ _ _ _ _ _ H D R) as [A B]. split; [|exact B]. rewrite A. vm_compute. reflexivity.
Qed.

(** The peer closes the connection within a response; the next response arrives on the next connection. *)
Definition cut_off : list tevent :=
  connecting ++ connected ++ written 0 ++ [TRead 0 (RData (firstn 9 (reply 0))) "" []; TRead 1 REof "" []; TRun []; TExpire 0; TFire 0 []] ++
  connecting ++ [TResolved true ""; TConnected 3 true ""] ++ written 1 ++ [TRead 2 (RData (reply 1)) "" []].

Lemma whole_response_lost : exists es s l a b f, tcp_history passive AllOrNothing es s l /\ always reads_settled cconn_init (conn_ins l) /\
  conn_outs l = a ++ Established 3 :: b /\ ~ In Failed (conn_outs l) /\ received_data b = [frame_bytes 1 1 [3; 2; 0; 7]] /\
  In (ChannelOut (Sent 1 1 1 f)) l /\ results (channel_outs l) = [(0%nat, Error ETimeout)].
Proof.
  exists cut_off, (fst (played_tcp passive cut_off)), (snd (played_tcp passive cut_off)).
  exists (firstn 10 (conn_outs (snd (played_tcp passive cut_off)))), (skipn 11 (conn_outs (snd (played_tcp passive cut_off)))),
    (map Some (frame_bytes 1 1 [3; 0; 0; 0; 1])).
  split; [apply performed; [unfold cut_off, connecting, connected, written; typed|vm_compute; reflexivity]|].
  assert (I : conn_ins (snd (played_tcp passive cut_off)) =
    [NSend (frame_bytes 0 1 [3; 0; 0; 0; 1]) setup_ok; NResolved true; NConnected 1 true; NTransfer 0 12; NWritten 0 true; NRead 0 (RData (firstn 9 (reply 0))); NRead 1 REof;
     ClientConn.NRun; NSend (frame_bytes 1 1 [3; 0; 0; 0; 1]) setup_ok; NResolved true; NConnected 3 true; NTransfer 1 12; NWritten 1 true; NRead 2 (RData (reply 1))])
    by (vm_compute; reflexivity).
  split; [rewrite I; settle|]. split; [vm_compute; reflexivity|]. split; [vm_compute; intuition discriminate|]. split; [vm_compute; reflexivity|].
  split; [|vm_compute; reflexivity]. apply (present _ 29). vm_compute. reflexivity.
Qed.

(** The name cannot be resolved; the handler repeats the request. *)
Definition unresolved : list tevent := connecting ++ [TResolved false "host not found"].

Lemma retry_after_resolve_failure : exists es s l e msg s1 l1, no_shutdown_handler repeats /\ ~ In (TApi Shutdown) es /\
  tcp_history repeats AllOrNothing es s l /\ tc_order s = [] /\ fails (tc_conn s) e msg /\ tcp_step repeats AllOrNothing s e = Ret (s1, l1) /\
  cn_resolves (tc_conn s1) = 0%nat /\ cn_connects (tc_conn s1) = [] /\ In (ChannelOut (Called 1 read_call)) l1 /\ im_valid (k_msg read_call) = true /\
  forall es' s2 l2, tcp_run repeats AllOrNothing s1 es' = Ret (s2, l2) -> Forall (fun o => o = SetupFailed) (conn_outs l2).
Proof.
  assert (NH : no_shutdown_handler repeats).
  { intros i w r w' calls E K. unfold repeats in E. destruct r as [v|x]; [injection E as <- <-; destruct K|]. destruct w; injection E as <- <-; [destruct K|]. destruct K as [K|[]]. discriminate. }
  assert (H : tcp_history repeats AllOrNothing connecting (fst (played_tcp repeats connecting)) (snd (played_tcp repeats connecting)))
    by (apply performed; [unfold connecting; typed|vm_compute; reflexivity]).
  destruct (performed_step repeats connecting (TResolved false "host not found") ltac:(vm_compute; reflexivity)) as (l1 & S1 & E1).
  exists connecting, (fst (played_tcp repeats connecting)), (snd (played_tcp repeats connecting)), (TResolved false "host not found"), "host not found"%string,
    (fst (played_tcp repeats unresolved)), l1.
  split; [exact NH|]. split; [cbn; intuition discriminate|]. split; [exact H|]. split; [vm_compute; reflexivity|].
  split; [split; [reflexivity|vm_compute; discriminate]|]. split; [exact S1|]. split; [vm_compute; reflexivity|]. split; [vm_compute; reflexivity|].
  split.
  { assert (K : nth_error (snd (played_tcp repeats (connecting ++ [TResolved false "host not found"]))) 11 = Some (ChannelOut (Called 1 read_call))) by reflexivity.
    rewrite E1, nth_error_app2 in K by (vm_compute; lia). apply nth_error_In in K. exact K. }
  split; [reflexivity|].
  intros es' s2 l2 R. destruct (stuck_run (conn_ins l2) (tc_conn (fst (played_tcp repeats unresolved)))) as (c & os & E & F).
  - unfold stuck. split; [vm_compute; reflexivity|]. split; [exists 0%nat; vm_compute; reflexivity|]. repeat split; vm_compute; auto.
  - pose proof (tcp_conn_run _ _ _ _ _ _ R) as C. rewrite E in C. injection C as _ <-. exact F.
Qed.

(** Positive cases: an answered request; a connection that fails while a request is
    outstanding and another one is queued; a request that is repeated; and two exchanges
    with answers in pieces. *)
Definition served : list tevent := connecting ++ connected ++ written 0 ++ [TRead 0 (RData (firstn 9 (reply 0))) "" []].
Definition broken : list tevent := connecting ++ connecting ++ connected ++ written 0.
Definition exchanges : list exchange :=
  [{| x_call := read_call; x_request := [3; 0; 0; 0; 1]; x_reply := [3; 2; 0; 7]; x_chunks := [firstn 5 (reply 0); skipn 5 (reply 0)] |};
   {| x_call := read_call; x_request := [3; 0; 0; 0; 1]; x_reply := [3; 2; 0; 7]; x_chunks := [reply 1] |}].

Lemma exchanges_answered : all_answered 0 exchanges.
Proof.
  assert (K : forall j x, x_call x = read_call -> x_request x = [3; 0; 0; 0; 1] -> x_reply x = [3; 2; 0; 7] -> Forall (fun c => c <> []) (x_chunks x) ->
    List.concat (x_chunks x) = frame_bytes (tx_of j) 1 [3; 2; 0; 7] -> answered j x).
  { intros j x E1 E2 E3 E4 E5. unfold answered. rewrite E1, E2, E3. split.
    - exists (ReadHoldingRegisters 0 1). split; [reflexivity|]. split; [|reflexivity]. split; [split; exact eq_refl|]. cbn. lia.
    - split; [exact eq_refl|]. split; [repeat constructor|]. split; [unfold size; cbn; lia|]. split; [exact E4|exact E5]. }
  cbn [all_answered exchanges]. split; [|split; [|exact Logic.I]]; apply K; try reflexivity; repeat constructor; discriminate.
Qed.
