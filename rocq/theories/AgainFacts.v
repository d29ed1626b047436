(** Proofs about channels and connections that are shut down more than once. *)
From Verif Require Import Prelude Ser4 Messages Mbap SpecPdu SpecMbap Client SpecClient ClientFacts ClientLemmas ClientShutdown TimerFacts
  AsyncWrite ClientConn SpecConn.
From Coq Require Import Lia.

(** ** The client channel *)
Section Channel.
Context {W : Type}.
Context (handler : nat -> W -> expected (list N) -> W * list capi).

Definition forgot (s : client) : Prop := cc_shutdown s = true -> cc_timer s = None.

Lemma forgot_step pol s w e s' w' o : forgot s -> client_step handler pol s w e = Ret (s', w', o) -> forgot s'.
Proof.
  intros F E D. destruct (cc_shutdown s) eqn:S0.
  - assert (T : cc_timer s = None) by exact (F S0). clear F.
    destruct e as [a| |d|msg|x|x]; cbn [client_step] in E.
    + destruct (capi_call s a) as [s1 o1] eqn:A. injection E as <- _ _. destruct a; injection A as <- _; exact T.
    + destruct (cc_queue s) as [|t q]; [injection E as <- _ _; exact T|].
      destruct t as [i k|i|]; cbn [run_ctask with_queue cc_shutdown] in E.
      * rewrite S0 in E. injection E as <- _ _. exact T.
      * injection E as E. destruct (handler_same _ _ _ _ _ _ _ _ E) as (_ & X & _). rewrite X. exact T.
      * injection E as <- _ _. reflexivity.
    + unfold on_receive in E. rewrite S0 in E. injection E as <- _ _. exact T.
    + unfold on_error in E. rewrite S0 in E. injection E as <- _ _. exact T.
    + destruct (existsb _ _); injection E as <- _ _; exact T.
    + destruct (existsb _ _); [|injection E as <- _ _; exact T].
      unfold on_timeout in E. cbn [with_timers cc_shutdown] in E. rewrite S0 in E. injection E as <- _ _. exact T.
  - destruct (proj1 (step_shutdown _ _ _ _ _ _ _ _ E) D) as [X|X]; [congruence|].
    assert (O := shutdown_step _ _ _ _ _ _ _ _ E S0 X). subst o.
    destruct e as [a| |d|msg|x|x]; cbn [client_step] in E.
    2:{ destruct (cc_queue s) as [|t q]; [discriminate E|].
        destruct t as [i k|i|]; cbn [run_ctask with_queue cc_shutdown] in E.
        - rewrite S0 in E. match type of E with context [check_pending_requests ?y] => destruct (check_pending_requests y) as [s1 o1] eqn:C end.
          injection E as <- _ ->. destruct (check_keeps _ _ _ C) as (K & _). cbn in K. congruence.
        - injection E as E. destruct (handler_keeps _ _ _ _ _ _ _ _ E) as (K & _). cbn in K. congruence.
        - injection E as <- _. reflexivity. }
    all: exfalso.
    + destruct a; discriminate E.
    + unfold on_receive in E. rewrite S0 in E. destruct (mbap_parse pol (cc_parser s) d) as [[p ms]|]; cbn [obind] in E; [|discriminate].
      injection E as E. destruct (responses_keep _ _ _ _ _ _ _ E) as (K & _). cbn in K. congruence.
    + assert (Y := step_shutdown handler pol s w (CError msg) s' w' [TcpShutdown] E). clear Y.
      unfold on_error in E. rewrite S0 in E. unfold cancel_all_pending_requests in E.
      match type of E with context [fail_all handler ?a ?b ?c ?d] => destruct (fail_all handler a b c d) as [[s1 w1] o1] eqn:A end.
      destruct (fail_keeps _ _ _ _ _ _ _ _ A) as (K & _). cbn in K.
      destruct (cc_current (with_pending s1 [])) as [p|].
      * injection E as E. match type of E with context [call_handler handler ?a ?b ?c ?d] => destruct (call_handler handler a b c d) as [[s2 w2] o2] eqn:B end.
        destruct (cancel_current_request s2) as [s3 o3] eqn:C. injection E as <- _ _.
        destruct (handler_keeps _ _ _ _ _ _ _ _ B) as (K2 & _). destruct (cancel_keeps _ _ _ C) as (K3 & _). cbn in K2. congruence.
      * injection E as <- _ _. cbn in D. congruence.
    + destruct (existsb _ _); discriminate E.
    + destruct (existsb _ _); [|discriminate E]. injection E as E. unfold on_timeout in E. cbn [with_timers cc_shutdown] in E. rewrite S0 in E.
      match type of E with context [cc_current ?z] => destruct (cc_current z) as [p|] end; [|discriminate E].
      match type of E with context [call_handler handler ?a ?b ?c ?d] => destruct (call_handler handler a b c d) as [[s2 w2] o2] eqn:B end.
      destruct (cancel_current_request s2) as [s3 o3] eqn:C. injection E as <- _ _.
      destruct (handler_keeps _ _ _ _ _ _ _ _ B) as (K2 & _). destruct (cancel_keeps _ _ _ C) as (K3 & _). cbn in K2. congruence.
Qed.

Lemma forgot_run pol es : forall s w s' w' o, forgot s -> client_run handler pol s w es = Ret (s', w', o) -> forgot s'.
Proof.
  induction es as [|e es IH]; intros s w s' w' o H E; cbn [client_run] in E; [injection E as <- _ _; exact H|].
  destruct (client_step handler pol s w e) as [[[s1 w1] o1]|] eqn:E1; cbn [obind] in E; [|discriminate].
  destruct (client_run handler pol s1 w1 es) as [[[s2 w2] o2]|] eqn:E2; cbn [obind] in E; [|discriminate].
  injection E as <- _ _. exact (IH _ _ _ _ _ (forgot_step _ _ _ _ _ _ _ H E1) E2).
Qed.

Lemma channel_again pol es s w os q : history handler pol es s w os -> In TcpShutdown os -> cc_queue s = DoShutdown :: q ->
  client_step handler pol s w CRun = Ret (with_queue s q (cc_calls s), w, [TcpShutdown]).
Proof.
  intros H D Q. assert (S0 := proj2 (history_shutdown _ _ _ _ _ _ H) D).
  destruct (history_reached _ _ _ _ _ _ H) as (C & _). destruct (co_down _ _ C S0) as (C1 & C2).
  assert (A := no_timer_left _ _ _ _ _ _ H (or_intror D)).
  destruct H as (buf & w0 & _ & _ & E). assert (F : forgot (client_init buf)) by (intros X; discriminate X).
  assert (T := forgot_run _ _ _ _ _ _ _ F E S0).
  cbn [client_step]. rewrite Q. cbn [run_ctask]. f_equal. f_equal. f_equal.
  destruct s as [a b c d e f g h i j k]. cbn in *. subst. reflexivity.
Qed.
End Channel.

(** ** The client connection *)
Definition all_aborted (s : cconn) : Prop := cn_shutdown s = true -> w_abort (cn_writer s) = cn_writer s.

Lemma abort_twice c : w_abort (w_abort c) = w_abort c.
Proof. destruct c as [b l n m]. unfold w_abort, set_op. cbn. rewrite map_map. reflexivity. Qed.

Lemma abort_ops c : w_abort c = c <-> Forall (fun x => w_aborted x = true) (wr_ops c).
Proof.
  destruct c as [b l n m]. unfold w_abort, set_op. cbn. split.
  - intros E. injection E as E. induction l as [|x l IH]; [constructor|]. cbn in E. injection E as E1 E2. constructor; [rewrite <- E1; reflexivity|auto].
  - intros F. f_equal. induction F as [|x l X F IH]; [reflexivity|]. cbn. rewrite IH. destruct x. cbn in *. subst. reflexivity.
Qed.

Lemma find_op_in l w o : find_op l w = Some o -> In o l.
Proof. induction l as [|x l IH]; cbn [find_op]; [discriminate|]. destruct (Nat.eqb (w_id x) w); [intros E; injection E as ->; left; reflexivity|right; auto]. Qed.

Lemma delete_incl l w : incl (delete_op l w) l.
Proof. unfold delete_op. intros x X. apply filter_In in X. exact (proj1 X). Qed.

Lemma aborted_step s e s' o : all_aborted s -> conn_step s e = Ret (s', o) -> all_aborted s'.
Proof.
  intros F E D. destruct (cn_shutdown s) eqn:S0.
  - assert (A : w_abort (cn_writer s) = cn_writer s) by exact (F S0). clear F.
    destruct e as [d x| | |ok|g ok|r x|w n|w ok]; cbn [conn_step] in E.
    + unfold conn_send in E. rewrite S0 in E. injection E as <- _. exact A.
    + injection E as <- _. exact A.
    + destruct (cn_queue s) as [|[|] q]; [injection E as <- _; exact A| |].
      * unfold do_close in E. cbn [with_nqueue cn_shutdown] in E. rewrite S0 in E. injection E as <- _. exact A.
      * injection E as <- _. apply abort_twice.
    + destruct (cn_resolves s); [injection E as <- _; exact A|]. unfold resolve_handler in E. cbn [with_resolves cn_shutdown] in E. rewrite S0 in E.
      injection E as <- _. exact A.
    + destruct (existsb _ _); [|injection E as <- _; exact A]. unfold connect_handler in E. cbn [with_connects cn_shutdown] in E. rewrite S0 in E.
      injection E as <- _. exact A.
    + destruct (find_read _ _) as [h|]; [|injection E as <- _; exact A]. destruct (possible h x); [|injection E as <- _; exact A].
      unfold read_handler in E. cbn [with_reads cn_shutdown] in E. rewrite S0 in E. injection E as <- _. exact A.
    + unfold w_transfer in E. destruct (find_op (wr_ops (cn_writer s)) w) as [p|] eqn:P.
      * apply abort_ops in A. rewrite Forall_forall in A. rewrite (A _ (find_op_in _ _ _ P)) in E. cbn [orb obind] in E. injection E as <- _.
        apply abort_ops. apply Forall_forall. exact A.
      * cbn [obind] in E. injection E as <- _. exact A.
    + injection E as E. unfold write_handler in E. destruct (w_complete _ _ _) as [[c x]|]; [|injection E as <- _; exact A].
      rewrite S0 in E. injection E as <- _. apply abort_ops. apply abort_ops in A. rewrite Forall_forall in A. apply Forall_forall.
      cbn [with_writer cn_writer set_op wr_ops]. intros y Y. exact (A _ (delete_incl _ _ _ Y)).
  - clear F. destruct e as [d x| | |ok|g ok|r x|w n|w ok]; cbn [conn_step] in E.
    3:{ destruct (cn_queue s) as [|[|] q]; [injection E as <- _; congruence| |].
        - exfalso. unfold do_close in E. cbn [with_nqueue cn_shutdown] in E. rewrite S0 in E. injection E as E.
          cbv zeta in E. destruct (cn_socket _); injection E as <- _; cbn in D; congruence.
        - injection E as <- _. apply abort_twice. }
    all: exfalso.
    + injection E as E. unfold conn_send in E. rewrite S0 in E. cbn [cn_status with_writer cn_socket] in E.
      destruct (cn_status s); [| |]; unfold send_buffer in E; cbn [with_writer cn_shutdown] in E; rewrite ?S0 in E.
      * destruct (negb (su_address x)); [injection E as <- _; cbn in D; congruence|].
        destruct (negb (su_open x) || _); [injection E as <- _; cbn in D; congruence|].
        destruct (negb (su_bind x)); injection E as <- _; cbn in D; congruence.
      * injection E as <- _. cbn in D. congruence.
      * destruct (w_start _ _) as [c y]. injection E as <- _. cbn in D. congruence.
    + injection E as <- _. cbn in D. congruence.
    + destruct (cn_resolves s); [injection E as <- _; congruence|]. injection E as E. unfold resolve_handler in E. cbn [with_resolves cn_shutdown] in E. rewrite S0 in E.
      destruct (negb ok); injection E as <- _; cbn in D; congruence.
    + destruct (existsb _ _); [|injection E as <- _; congruence]. injection E as E. unfold connect_handler in E. cbn [with_connects cn_shutdown] in E. rewrite S0 in E.
      destruct (negb ok); [injection E as <- _; unfold conn_close in D; cbn in D; rewrite S0 in D; cbn in D; congruence|].
      unfold send_buffer in E. cbn [with_status with_connects cn_shutdown] in E. rewrite S0 in E.
      destruct (w_start _ _) as [c y]. injection E as <- _. unfold begin_read in D. cbn in D. rewrite S0 in D. cbn in D. congruence.
    + destruct (find_read _ _) as [h|]; [|injection E as <- _; congruence]. destruct (possible h x); [|injection E as <- _; congruence].
      injection E as E. unfold read_handler in E. cbn [with_reads cn_shutdown] in E. rewrite S0 in E.
      destruct x, h; injection E as <- _; unfold begin_read, conn_close in D; cbn in D; rewrite ?S0 in D; cbn in D; congruence.
    + destruct (w_transfer _ _ _) as [[c y]|]; cbn [obind] in E; [|discriminate]. injection E as <- _. cbn in D. congruence.
    + injection E as E. unfold write_handler in E. destruct (w_complete _ _ _) as [[c x]|]; [|injection E as <- _; congruence].
      rewrite S0 in E. destruct ok; injection E as <- _; unfold conn_close in D; cbn in D; rewrite ?S0 in D; cbn in D; congruence.
Qed.

Lemma aborted_run es : forall s s' os, all_aborted s -> conn_run s es = Ret (s', os) -> all_aborted s'.
Proof.
  induction es as [|e es IH]; intros s s' os A E; cbn [conn_run] in E; [injection E as <- _; exact A|].
  destruct (conn_step s e) as [[s1 o1]|] eqn:E1; cbn [obind] in E; [|discriminate].
  destruct (conn_run s1 es) as [[s2 o2]|] eqn:E2; cbn [obind] in E; [|discriminate]. injection E as <- _.
  exact (IH _ _ _ (aborted_step _ _ _ _ A E1) E2).
Qed.

Lemma connection_again es s os q : conn_run cconn_init es = Ret (s, os) -> cn_shutdown s = true -> cn_queue s = NDoShutdown :: q ->
  conn_step s NRun = Ret (with_nqueue s q, []).
Proof.
  intros E D Q. assert (A : all_aborted cconn_init) by (intros X; discriminate X). assert (B := aborted_run _ _ _ _ A E D).
  cbn [conn_step]. rewrite Q. unfold do_shutdown. cbn [with_nqueue cn_writer cn_status cn_socket cn_resolves cn_connects cn_reads cn_queue cn_next_socket cn_next_read].
  rewrite B. unfold with_nqueue. rewrite D. reflexivity.
Qed.
