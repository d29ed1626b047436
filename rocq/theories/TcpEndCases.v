(** A channel that is shut down while a request is unanswered. *)
From Verif Require Import Prelude Ser4 Messages Mbap SpecPdu SpecMbap Client SpecClient SystemCases AsyncWrite ClientConn SpecConn
  ClientTcp SpecClientTcp TcpWire TcpOrder TcpShutdown TcpCases SpecEnd TcpEnd.
From Coq Require Import Lia.

Definition shut_unanswered : list tevent := served ++ [TApi Client.Shutdown].

Lemma unanswered_ends : exists es s l s1 l1 s2 l2, tcp_history passive AllOrNothing es s l /\ In (TApi Client.Shutdown) es /\
  tcp_run passive AllOrNothing s [TRun []] = Ret (s1, l1) /\ (List.length (tc_order s) <= truns [TRun []])%nat /\
  tcp_run passive AllOrNothing s1 [TRun []] = Ret (s2, l2) /\ (List.length (tc_order s1) <= truns [TRun []])%nat /\
  tcp_ends passive AllOrNothing s2 /\ ~ tcp_idle s2.
Proof.
  exists shut_unanswered, (fst (played_tcp passive shut_unanswered)), (snd (played_tcp passive shut_unanswered)).
  assert (H : tcp_history passive AllOrNothing shut_unanswered (fst (played_tcp passive shut_unanswered)) (snd (played_tcp passive shut_unanswered)))
    by (apply performed; [unfold shut_unanswered, served, connecting, TcpCases.connected, TcpCases.written; typed|vm_compute; reflexivity]).
  assert (D1 : defined passive (shut_unanswered ++ [TRun []]) = true) by (vm_compute; reflexivity).
  assert (D2 : defined passive ((shut_unanswered ++ [TRun []]) ++ [TRun []]) = true) by (vm_compute; reflexivity).
  destruct (performed_step _ _ _ D1) as (l1 & E1 & _). destruct (performed_step _ _ _ D2) as (l2 & E2 & _).
  assert (R1 : forall (s s' : tclient bool) l e, tcp_step passive AllOrNothing s e = Ret (s', l) -> tcp_run passive AllOrNothing s [e] = Ret (s', l)).
  { intros s s' l e E. cbn [tcp_run]. rewrite E. cbn [obind]. rewrite app_nil_r. reflexivity. }
  assert (L1 : (List.length (tc_order (fst (played_tcp passive shut_unanswered))) <= truns [TRun []])%nat) by (vm_compute; lia).
  assert (L2 : (List.length (tc_order (fst (played_tcp passive (shut_unanswered ++ [TRun []])))) <= truns [TRun []])%nat) by (vm_compute; lia).
  assert (I : In (TApi Client.Shutdown) shut_unanswered) by (unfold shut_unanswered; apply in_or_app; right; cbn; tauto).
  exists (fst (played_tcp passive (shut_unanswered ++ [TRun []]))), l1, (fst (played_tcp passive ((shut_unanswered ++ [TRun []]) ++ [TRun []]))), l2.
  split; [exact H|]. split; [exact I|]. split; [exact (R1 _ _ _ _ E1)|]. split; [exact L1|]. split; [exact (R1 _ _ _ _ E2)|]. split; [exact L2|]. split.
  - eapply client_ends; [exact H|exact I| |exact (R1 _ _ _ _ E1)|exact L1|exact (R1 _ _ _ _ E2)|exact L2]. typed.
  - intros X. assert (J : cn_reads (tc_conn (fst (played_tcp passive ((shut_unanswered ++ [TRun []]) ++ [TRun []])))) = []) by apply X.
    vm_compute in J. discriminate J.
Qed.
