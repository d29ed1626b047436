(** Proofs about Full.v: after the shutdown of the channel everything at the client,
    sessions and scheduled requests included, comes to an end. *)
From Verif Require Import Prelude Ser4 Messages Mbap SpecPdu SpecMbap Client SpecClient ClientFacts ClientShutdown AsyncWrite ClientConn SpecConn ConnFacts
  ClientTcp SpecClientTcp TcpFacts TcpWire TcpOrder TcpShutdown SpecEnd TcpEnd.
From Verif Require Import Server Database System Listener ServerConn ServerTcp World Scheduled SessionCall Session Full.
From Verif Require Import SpecSession SpecWorld SpecFull SpecFullEnd.
From Coq Require Import Lia.

(** ** A client that was shut down *)
Section Down.
Context {W : Type}.
Context (handler : nat -> W -> expected (list N) -> W * list capi).
Context (pol : copy_policy).

Lemma call_grows (s : client) a : exists q, cc_queue (fst (capi_call s a)) = cc_queue s ++ q.
Proof.
  destruct a; cbn [capi_call]; [|exists [DoShutdown]; reflexivity]. destruct (cc_shutdown s); [exists []; symmetry; apply app_nil_r|].
  repeat match goal with |- context [match ?x with _ => _ end] => destruct x end; cbn; eauto; exists []; symmetry; apply app_nil_r.
Qed.

Lemma calls_grow l : forall s s' o, capi_calls s l = (s', o) -> exists q, cc_queue s' = cc_queue s ++ q.
Proof.
  induction l as [|a l IH]; intros s s' o E; cbn [capi_calls] in E.
  - injection E as <- <-. exists []. symmetry. apply app_nil_r.
  - destruct (call_grows s a) as (q1 & Q1). destruct (capi_call s a) as [s1 o1]. destruct (capi_calls s1 l) as [s2 o2] eqn:E2. injection E as <- <-.
    destruct (IH _ _ _ E2) as (q2 & Q2). exists (q1 ++ q2). cbn [fst] in Q1. rewrite Q2, Q1, app_assoc. reflexivity.
Qed.

(** What a step of the channel does to its queue and to the users. *)
Lemma down_step s w e s' w' o : cc_shutdown s = true -> client_step handler pol s w e = Ret (s', w', o) ->
  (exists q, cc_queue s' = (match e with CRun => tl (cc_queue s) | _ => cc_queue s end) ++ q) /\
  (w' = w \/ exists i q calls, e = CRun /\ cc_queue s = DoReject i :: q /\ handler i w (Error EMalformedRequest) = (w', calls)).
Proof.
  intros D E. destruct e as [a| |d|msg|t|t]; cbn [client_step] in E.
  - destruct (call_grows s a) as (q & Q). destruct (capi_call s a) as [s1 o1]. injection E as <- <- <-. split; [|auto]. exists q. exact Q.
  - destruct (cc_queue s) as [|x q] eqn:Q; [injection E as <- <- <-; split; [exists []; exact Q|auto]|]. unfold run_ctask in E. destruct x as [i k|i|].
    + cbn [with_queue cc_shutdown] in E. rewrite D in E. injection E as <- <- <-. split; [|auto]. exists []. symmetry. apply app_nil_r.
    + unfold call_handler in E. destruct (handler i w (Error EMalformedRequest)) as [w1 c] eqn:C. destruct (capi_calls _ c) as [s1 o1] eqn:C1.
      injection E as <- <- <-. split; [exact (calls_grow _ _ _ _ C1)|]. right. exists i, q, c. auto.
    + injection E as <- <- <-. split; [|auto]. exists []. symmetry. apply app_nil_r.
  - unfold on_receive in E. rewrite D in E. injection E as <- <- <-. split; [|auto]. exists []. symmetry. apply app_nil_r.
  - unfold on_error in E. rewrite D in E. injection E as <- <- <-. split; [|auto]. exists []. symmetry. apply app_nil_r.
  - destruct (existsb _ _); injection E as <- <- <-; (split; [|auto]); exists []; symmetry; apply app_nil_r.
  - destruct (existsb _ _); [|injection E as <- <- <-; (split; [|auto]); exists []; symmetry; apply app_nil_r].
    unfold on_timeout in E. cbn [with_timers cc_shutdown] in E. rewrite D in E. injection E as <- <- <-. split; [|auto]. exists []. symmetry. apply app_nil_r.
Qed.

Definition user_kept (s s' : tclient W) : Prop :=
  tc_user s' = tc_user s \/
  exists i x calls, (rejects (cc_queue (tc_channel s')) < rejects (cc_queue (tc_channel s)))%nat /\ handler i (tc_user s) x = (tc_user s', calls).

Lemma down_channel_turn (s : tclient W) q e xs s' l : cc_shutdown (tc_channel s) = true -> dead (tc_conn s) ->
  turns ChannelTurn q = List.length (match e with CRun => tl (cc_queue (tc_channel s)) | _ => cc_queue (tc_channel s) end) ->
  turns ConnTurn q = List.length (cn_queue (tc_conn s)) -> (e = CRun -> cc_queue (tc_channel s) <> []) ->
  channel_turn handler pol s q e xs = Ret (s', l) -> ordered s' /\ user_kept s s'.
Proof.
  intros D1 D2 O1 O2 NE E. unfold channel_turn in E.
  destruct (client_step _ _ _ _ e) as [[[ch w] os]|] eqn:S1; cbn [obind] in E; [|discriminate].
  destruct (to_conn _ os xs) as [[c l1]|] eqn:R; cbn [obind] in E; [|discriminate]. injection E as <- <-.
  destruct (down_step _ _ _ _ _ _ D1 S1) as ((q1 & Q1) & U). destruct (to_conn_queue _ _ _ _ _ R) as (q3 & Q3). split.
  - apply (appended_ordered s q (match e with CRun => tl (cc_queue (tc_channel s)) | _ => cc_queue (tc_channel s) end) (cn_queue (tc_conn s))); [|exact O1|exact O2].
    exists q1, [], q3. cbn [tc_channel tc_conn tc_order List.length repeat app]. split; [exact Q1|]. split; [exact Q3|]. unfold posted. rewrite Q1, Q3, !app_length.
    do 2 f_equal; [|do 2 f_equal; lia]. f_equal.
    destruct e; cbn [Nat.sub]; try lia. destruct (cc_queue (tc_channel s)); [destruct (NE eq_refl eq_refl)|]. cbn [tl List.length]. lia.
  - destruct U as [->|(i & q0 & c0 & -> & Q & H)]; [left; reflexivity|]. right. exists i, (Error EMalformedRequest), c0. split; [|exact H].
    destruct (channel_ends _ _ _ _ _ _ _ _ D1 S1 Logic.I) as (_ & [(-> & _ & K)|[(_ & K & _)|[(_ & K1 & K2 & K3)|(K & _)]]]); cbn [tc_channel].
    + rewrite K in Q. discriminate Q.
    + exact K.
    + cbn [client_step] in S1. rewrite Q in S1. unfold run_ctask, call_handler in S1. rewrite H in S1. destruct (capi_calls _ _) as [s1 o1] in S1.
      injection S1 as _ S1. destruct K3 as [[_ K3]|[_ K3]]; rewrite K3 in S1; discriminate S1.
    + destruct (K eq_refl).
Qed.

Lemma down_conn_turn (s : tclient W) q e msg xs s' l : dead (tc_conn s) ->
  turns ChannelTurn q = List.length (cc_queue (tc_channel s)) ->
  turns ConnTurn q = List.length (match e with NRun => tl (cn_queue (tc_conn s)) | _ => cn_queue (tc_conn s) end) -> (e = NRun -> cn_queue (tc_conn s) <> []) ->
  conn_turn handler pol s q e msg xs = Ret (s', l) -> ordered s' /\ user_kept s s'.
Proof.
  intros D O1 O2 NE E. unfold conn_turn in E. destruct (dead_step _ e D) as (c & S1 & _). rewrite S1 in E. cbn [obind callbacks] in E. injection E as <- _.
  split; [|left; reflexivity]. destruct (ConnFacts.step_queue _ _ _ _ S1) as (q2 & Q2).
  apply (appended_ordered s q (cc_queue (tc_channel s)) (match e with NRun => tl (cn_queue (tc_conn s)) | _ => cn_queue (tc_conn s) end)); [|exact O1|exact O2].
  exists [], q2, []. cbn [tc_channel tc_conn tc_order List.length repeat app]. rewrite !app_nil_r. split; [reflexivity|]. split; [exact Q2|]. unfold posted.
  rewrite Q2, app_length. do 2 f_equal. destruct e; try lia. destruct (cn_queue (tc_conn s)); [destruct (NE eq_refl eq_refl)|]. cbn [tl List.length]. lia.
Qed.

Lemma down_tcp_step (s : tclient W) e s' l : cc_shutdown (tc_channel s) = true -> dead (tc_conn s) -> ordered s -> tcp_step handler pol s e = Ret (s', l) ->
  ordered s' /\ user_kept s s'.
Proof.
  intros D1 D2 [O1 O2] E.
  assert (P : forall x xs, x <> CRun -> channel_turn handler pol s (tc_order s) x xs = Ret (s', l) -> ordered s' /\ user_kept s s').
  { intros x xs Nx. apply down_channel_turn; auto. destruct x; try exact O1; congruence. }
  assert (Q : forall x msg xs, x <> NRun -> conn_turn handler pol s (tc_order s) x msg xs = Ret (s', l) -> ordered s' /\ user_kept s s').
  { intros x msg xs Nx. apply down_conn_turn; auto. destruct x; try exact O2; congruence. }
  destruct e as [a|xs|t|t xs|ok msg|g ok msg|r x msg xs|w n|w ok msg]; cbn [ClientTcp.tcp_step] in E;
    try (eapply P; [|exact E]; discriminate); try (eapply Q; [|exact E]; discriminate).
  destruct (tc_order s) as [|[|] q] eqn:O.
  - injection E as <- _. split; [split; rewrite O; assumption|left; reflexivity].
  - unfold turns in O1, O2. cbn in O1, O2. destruct (cc_queue (tc_channel s)) as [|y ys] eqn:Y; [discriminate O1|].
    apply (down_channel_turn _ _ _ _ _ _ D1 D2) in E; [exact E|rewrite Y; cbn [tl List.length] in *; unfold turns; lia|exact O2|intros _; rewrite Y; discriminate].
  - unfold turns in O1, O2. cbn in O1, O2. destruct (cn_queue (tc_conn s)) as [|y ys] eqn:Y; [discriminate O2|].
    apply (down_conn_turn _ _ _ _ _ _ _ D2) in E; [exact E|exact O1|rewrite Y; cbn [tl List.length] in *; unfold turns; lia|intros _; rewrite Y; discriminate].
Qed.

(** A call after the shutdown is dropped. *)
Lemma submit_dropped (s : tclient W) k : cc_shutdown (tc_channel s) = true ->
  exists s' l, tcp_step handler pol s (TApi (Submit k)) = Ret (s', l) /\ tc_user s' = tc_user s /\ tc_conn s' = tc_conn s /\ tc_order s' = tc_order s /\
    cc_queue (tc_channel s') = cc_queue (tc_channel s) /\ cc_armed (tc_channel s') = cc_armed (tc_channel s) /\
    cc_expired (tc_channel s') = cc_expired (tc_channel s) /\ cc_shutdown (tc_channel s') = true.
Proof.
  intros D. cbn [ClientTcp.tcp_step]. unfold channel_turn. cbn [client_step capi_call]. rewrite D. cbn [obind to_conn].
  eexists. eexists. split; [reflexivity|]. cbn. unfold posted. rewrite !Nat.sub_diag, Nat.sub_0_r, Nat.sub_diag. cbn. rewrite !app_nil_r. repeat split; auto.
Qed.
End Down.

(** ** What is left to do at the sessions *)
Definition timers (p : poll) : nat := (2 * List.length (sr_armed (po_sched p)) + List.length (sr_expired (po_sched p)))%nat.
Fixpoint total {A} (f : A -> nat) (l : list A) : nat := match l with [] => 0 | x :: l' => f x + total f l' end.

Lemma total_app {A} (f : A -> nat) a b : total f (a ++ b) = (total f a + total f b)%nat.
Proof. induction a as [|x a IH]; cbn [app total]; lia. Qed.
Lemma total_update {A} (f : A -> nat) l : forall j p q, nth_error l j = Some p -> (total f (update l j q) + f p = total f l + f q)%nat.
Proof. induction l as [|x l IH]; intros [|j] p q E; try discriminate E; cbn in E |- *; [injection E as ->; lia|]. specialize (IH _ _ q E). lia. Qed.
Lemma total_at {A} (f : A -> nat) l : forall j p, nth_error l j = Some p -> (f p <= total f l)%nat.
Proof. induction l as [|x l IH]; intros [|j] p E; try discriminate E; cbn in E |- *; [injection E as ->; lia|]. specialize (IH _ _ E). lia. Qed.
Lemma total_le {A} (f g : A -> nat) l : (forall x, f x <= g x)%nat -> (total f l <= total g l)%nat.
Proof. intros H. induction l as [|x l IH]; cbn; [lia|]. specialize (H x). lia. Qed.

Definition registers (c : kclosure) : nat := match c with Register _ _ => 1 | _ => 0 end.
Definition closure_work (n : nat) (c : kclosure) : nat := match c with StopAll _ => S n | _ => 1 end.

Section Sessions.
Context {W : Type}.
Implicit Type z : sessions W.

(** The scheduled requests that sessions will stop, at most. *)
Definition listed z : nat := (total (fun s => List.length (ss_listed s)) (ks_sessions z) + total registers (ks_queue z))%nat.
Definition session_work z : nat := (total (closure_work (listed z)) (ks_queue z) + total timers (ks_polls z))%nat.

Definition closed z : Prop := ks_shutdown z = true /\ ks_open z = [].
Definition submit (a : capi) : Prop := match a with Submit _ => True | Client.Shutdown => False end.

Lemma poll_requests_facts j p o : forall z z' c, poll_requests z j p o = (z', c) ->
  Forall submit c /\ ks_shutdown z' = ks_shutdown z /\ ks_open z' = ks_open z /\ ks_sessions z' = ks_sessions z /\ ks_queue z' = ks_queue z /\ ks_polls z' = ks_polls z.
Proof.
  induction o as [|x o IH]; intros z z' c E; cbn [poll_requests] in E; [injection E as <- <-; repeat split; constructor|].
  destruct x; try exact (IH _ _ _ E). destruct (poll_requests _ j p o) as [z1 c1] eqn:R. injection E as <- <-.
  destruct (IH _ _ _ R) as (A & B). split; [constructor; [exact Logic.I|exact A]|exact B].
Qed.

Lemma without_le x l : (List.length (without x l) <= List.length l)%nat.
Proof. apply filter_le. Qed.
Lemma without_lt x l : In x l -> (List.length (without x l) < List.length l)%nat.
Proof. intros H. apply (filter_lt _ _ x H). rewrite Nat.eqb_refl. reflexivity. Qed.

(** No step of a scheduled request but an answer starts a timer. *)
Lemma poll_step_facts z j e z' c : match e with SRun | SExpire _ | SFire _ => True | _ => False end -> poll_step z j e = (z', c) ->
  Forall submit c /\ ks_shutdown z' = ks_shutdown z /\ ks_open z' = ks_open z /\ ks_sessions z' = ks_sessions z /\ ks_queue z' = ks_queue z /\
  (total timers (ks_polls z') <= total timers (ks_polls z))%nat /\
  (forall p, nth_error (ks_polls z) j = Some p -> match e with SExpire t => In t (sr_armed (po_sched p)) | SFire t => In t (sr_expired (po_sched p)) | _ => False end ->
     (total timers (ks_polls z') < total timers (ks_polls z))%nat).
Proof.
  intros He. unfold poll_step. destruct (nth_error (ks_polls z) j) as [p|] eqn:P.
  2: { intros E. injection E as <- <-. repeat (split; [solve [constructor|reflexivity]|]). intros p K. discriminate K. }
  destruct (sched_step no_calls (po_sched p) tt e) as [[s u] o] eqn:S. intros E.
  destruct (poll_requests_facts _ _ _ _ _ _ E) as (A1 & A2 & A3 & A4 & A5 & A6). cbn [show with_log set_sched with_polls ks_shutdown ks_open ks_sessions ks_queue ks_polls] in *.
  split; [exact A1|]. split; [exact A2|]. split; [exact A3|]. split; [exact A4|]. split; [exact A5|]. rewrite A6.
  assert (U := total_update timers _ _ _ {| po_session := po_session p; po_request := po_request p; po_timeout := po_timeout p; po_sched := s |} P).
  unfold timers at 2 4 in U. cbn [po_sched] in U.
  destruct e as [a| |i r|t|t]; try contradiction; cbn [sched_step] in S.
  - split; [|intros ? ? []]. destruct (sr_queue (po_sched p)) as [|a q]; [injection S as <- _ _; lia|].
    destruct a; cbn [run_sapi with_squeue sr_running sr_timer sr_armed] in S.
    + destruct (sr_running (po_sched p)); injection S as <- _ _; cbn in U; lia.
    + destruct (sr_running (po_sched p)); injection S as <- _ _; cbn [sr_armed sr_expired with_squeue] in U; [|lia].
      destruct (sr_timer (po_sched p)) as [t|]; [assert (X := without_le t (sr_armed (po_sched p)))|]; lia.
    + injection S as <- _ _. cbn in U. lia.
  - destruct (existsb (Nat.eqb t) (sr_armed (po_sched p))) eqn:X.
    + apply existsb_in in X. assert (Y := without_lt _ _ X). injection S as <- _ _. cbn [with_stimers sr_armed sr_expired] in U.
      rewrite app_length in U. cbn [List.length] in U. split; [lia|]. intros; lia.
    + injection S as <- _ _. split; [lia|]. intros p' K1 K2. injection K1 as <-. apply existsb_in in K2. congruence.
  - destruct (existsb (Nat.eqb t) (sr_expired (po_sched p))) eqn:X.
    + apply existsb_in in X. assert (Y := without_lt _ _ X). injection S as <- _ _. cbn [with_stimers execute fst sr_armed sr_expired] in U. split; [lia|]. intros; lia.
    + injection S as <- _ _. split; [lia|]. intros p' K1 K2. injection K1 as <-. apply existsb_in in K2. congruence.
Qed.

Lemma update_polls_same j p s l : nth_error l j = Some p -> sr_armed s = sr_armed (po_sched p) -> sr_expired s = sr_expired (po_sched p) ->
  total timers (update l j {| po_session := po_session p; po_request := po_request p; po_timeout := po_timeout p; po_sched := s |}) = total timers l.
Proof.
  intros P A B. assert (U := total_update timers _ _ _ {| po_session := po_session p; po_request := po_request p; po_timeout := po_timeout p; po_sched := s |} P).
  unfold timers at 2 4 in U. cbn [po_sched] in U. rewrite A, B in U. lia.
Qed.

(** A session stops its scheduled requests. *)
Lemma stops_facts l : forall z z' c, kapi_calls z (map (fun j => OnSchedule j Stop) l) = (z', c) ->
  c = [] /\ ks_shutdown z' = ks_shutdown z /\ ks_open z' = ks_open z /\ ks_sessions z' = ks_sessions z /\ total timers (ks_polls z') = total timers (ks_polls z) /\
  exists js, ks_queue z' = ks_queue z ++ map RunPoll js /\ (List.length js <= List.length l)%nat.
Proof.
  induction l as [|j l IH]; intros z z' c E; cbn [map kapi_calls] in E.
  - injection E as <- <-. repeat split. exists []. rewrite app_nil_r. split; [reflexivity|]. cbn. lia.
  - destruct (kapi_call z (OnSchedule j Stop)) as [z1 c1] eqn:E1. destruct (kapi_calls z1 _) as [z2 c2] eqn:E2. injection E as <- <-.
    destruct (IH _ _ _ E2) as (-> & A2 & A3 & A4 & A5 & js & A6 & A7). cbn [kapi_call] in E1. injection E1 as <- <-. revert A2 A3 A4 A5 A6.
    unfold post_poll. cbn [show with_log ks_polls]. destruct (nth_error (ks_polls z) j) as [p|] eqn:P; cbn; intros A2 A3 A4 A5 A6.
    + rewrite (update_polls_same _ _ _ _ P) in A5 by reflexivity. repeat split; auto. exists (j :: js). rewrite A6, <- app_assoc. split; [reflexivity|]. cbn. lia.
    + repeat split; auto. exists js. split; [exact A6|]. lia.
Qed.

Lemma run_closure_facts z c q z' cs : ks_queue z = c :: q -> run_kclosure (with_kqueue z q) c = (z', cs) -> closed z ->
  Forall submit cs /\ closed z' /\ (session_work z' < session_work z)%nat.
Proof.
  intros Q E [C1 C2]. unfold session_work. rewrite Q. destruct c as [j|x j|x]; cbn [run_kclosure] in E.
  - destruct (poll_step_facts _ _ SRun _ _ Logic.I E) as (A1 & A2 & A3 & A4 & A5 & A6 & _). cbn [with_kqueue ks_shutdown ks_open ks_sessions ks_queue ks_polls] in *.
    split; [exact A1|]. split; [split; congruence|]. unfold listed. rewrite A4, A5, Q. cbn [total registers closure_work Nat.add]. lia.
  - destruct (nth_error (ks_sessions (with_kqueue z q)) x) as [s|] eqn:X; injection E as <- <-; (split; [constructor|]); (split; [split; assumption|]);
      cbn [with_kqueue with_sessions ks_queue ks_sessions ks_polls] in *.
    + assert (U := total_update (fun s => List.length (ss_listed s)) _ _ _ {| ss_unit := ss_unit s; ss_timeout := ss_timeout s; ss_listed := ss_listed s ++ [j] |} X).
      cbn [ss_listed] in U. rewrite app_length in U. cbn [List.length] in U. unfold listed. cbn [with_kqueue with_sessions ks_queue ks_sessions]. rewrite Q.
      cbn [total registers closure_work Nat.add].
      match goal with |- (total (closure_work ?a) q + _ < ?r)%nat => match r with context [total (closure_work ?b) q] => replace b with a by lia end end. lia.
    + unfold listed. cbn [with_kqueue ks_queue ks_sessions]. rewrite Q. cbn [total registers closure_work Nat.add].
      match goal with |- (total (closure_work ?a) q + _ < ?r)%nat => match r with context [total (closure_work ?b) q] =>
        assert (L := total_le (closure_work a) (closure_work b) q ltac:(intros []; cbn; lia)) end end. lia.
  - destruct (nth_error (ks_sessions (with_kqueue z q)) x) as [s|] eqn:X.
    + destruct (kapi_calls (with_kqueue z q) _) as [z1 c1] eqn:E1. injection E as <- <-. destruct (stops_facts _ _ _ _ E1) as (-> & A2 & A3 & A4 & A5 & js & A6 & A7).
      cbn [with_kqueue ks_shutdown ks_open ks_sessions ks_queue ks_polls] in *. split; [constructor|]. split; [split; cbn; congruence|].
      cbn [with_sessions ks_queue ks_polls]. rewrite A5. unfold listed. cbn [with_sessions ks_queue ks_sessions]. rewrite A4, A6, Q. rewrite !total_app. cbn [total registers closure_work Nat.add].
      assert (U := total_update (fun s => List.length (ss_listed s)) _ _ _ {| ss_unit := ss_unit s; ss_timeout := ss_timeout s; ss_listed := [] |} X).
      cbn [ss_listed List.length] in U.
      assert (R : total registers (map RunPoll js) = 0%nat) by (clear; induction js; cbn; auto).
      rewrite R. assert (K : forall n, total (closure_work n) (map RunPoll js) = List.length js) by (clear; induction js as [|y js IH]; intros n; cbn; [reflexivity|rewrite IH; reflexivity]).
      rewrite K. assert (B := total_at (fun s => List.length (ss_listed s)) _ _ _ X). cbn beta in B.
      match goal with |- (total (closure_work ?a) q + _ + _ < ?r)%nat => match r with context [total (closure_work ?b) q] =>
        assert (L := total_le (closure_work a) (closure_work b) q ltac:(intros []; cbn; lia)) end end. lia.
    + injection E as <- <-. split; [constructor|]. split; [split; assumption|]. unfold listed. cbn [with_kqueue ks_queue ks_sessions ks_polls]. rewrite Q.
      cbn [total registers closure_work Nat.add]. lia.
Qed.

(** The calls of a handler. *)
Lemma call_closed z a z' c : kapi_call z a = (z', c) -> closed z -> closed z'.
Proof.
  intros E [A B]. destruct a as [u t|x r t|x r t f|j a|x|]; cbn [kapi_call] in E.
  - cbn [show with_log ks_shutdown] in E. rewrite A in E. injection E as <- <-. split; assumption.
  - destruct (nth_error _ x); injection E as <- <-; split; assumption.
  - destruct (nth_error _ x); injection E as <- <-; [|split; assumption]. unfold post_poll. destruct (nth_error _ _); split; assumption.
  - injection E as <- <-. unfold post_poll. destruct (nth_error _ _); split; assumption.
  - destruct (nth_error _ x); injection E as <- <-; split; assumption.
  - injection E as <- <-. split; assumption.
Qed.

Lemma calls_closed l : forall z z' c, kapi_calls z l = (z', c) -> closed z -> closed z'.
Proof.
  induction l as [|a l IH]; intros z z' c E C; cbn [kapi_calls] in E; [injection E as <- <-; exact C|].
  destruct (kapi_call z a) as [z1 c1] eqn:E1. destruct (kapi_calls z1 l) as [z2 c2] eqn:E2. injection E as <- <-. eapply IH; [exact E2|]. eapply call_closed; eauto.
Qed.

Lemma poll_closed z j e z' c : poll_step z j e = (z', c) -> closed z -> closed z'.
Proof.
  unfold poll_step. destruct (nth_error (ks_polls z) j) as [p|]; [|intros E; injection E as <- <-; auto].
  destruct (sched_step _ _ _ _) as [[s u] o]. intros E [A B]. destruct (poll_requests_facts _ _ _ _ _ _ E) as (_ & A2 & A3 & _). split; cbn in A2, A3; congruence.
Qed.

Context (user : users W).
Lemma completion_closed i z x z' c : on_completion user i z x = (z', c) -> closed z -> closed z'.
Proof.
  unfold on_completion. intros E C. destruct (nth_error (ks_owners z) i) as [[r|j n]|]; [| |injection E as <- <-; exact C].
  - destruct (session_result r x) as [v|]; [|injection E as <- <-; exact C].
    destruct (user (Once i) (ks_user z) v) as [w calls]. eapply calls_closed; [exact E|exact C].
  - destruct (nth_error (ks_polls z) j) as [p|]; [|injection E as <- <-; exact C]. destruct (session_result (po_request p) x) as [v|]; [|injection E as <- <-; exact C].
    destruct (user (Polling j n) (ks_user z) v) as [w calls]. destruct (poll_step _ j _) as [z1 c1] eqn:P. destruct (kapi_calls z1 calls) as [z2 c2] eqn:K. injection E as <- <-.
    eapply calls_closed; [exact K|]. eapply poll_closed; [exact P|exact C].
Qed.

Lemma close_closed z o : closed z -> closed (close_sessions z o) /\ session_work (with_log (close_sessions z o) []) = session_work z.
Proof. intros [A B]. unfold close_sessions. destruct (existsb _ o); [rewrite B|]; (split; [split; auto|reflexivity]). Qed.
End Sessions.

(** ** The client as a whole *)
Section Client.
Context {W : Type}.
Context (user : users W).
Context (pol : copy_policy).
Notation handler := (on_completion user).

Record over (s : tclient (sessions W)) : Prop := {
  ov_channel : cc_shutdown (tc_channel s) = true;
  ov_conn : dead (tc_conn s);
  ov_order : ordered s;
  ov_sessions : closed (tc_user s)
}.

(** Rejections come first: their handlers can make any calls. *)
Definition left_to_do (s : tclient (sessions W)) : nat := (to_do s + session_work (tc_user s))%nat.
Definition nearer (s' s : tclient (sessions W)) : Prop :=
  (rejects (cc_queue (tc_channel s')) < rejects (cc_queue (tc_channel s)))%nat \/
  rejects (cc_queue (tc_channel s')) = rejects (cc_queue (tc_channel s)) /\ (left_to_do s' < left_to_do s)%nat.

Lemma submits_dropped c : forall (w : world (sessions W)), Forall submit c -> over (wd_client w) -> exists w' l,
  world_run handler pol w (map (fun a => WClient (TApi a)) c) = Ret (w', l) /\ over (wd_client w') /\ wd_user w' = wd_user w /\
  rejects (cc_queue (tc_channel (wd_client w'))) = rejects (cc_queue (tc_channel (wd_client w))) /\ to_do (wd_client w') = to_do (wd_client w).
Proof.
  induction c as [|a c IH]; intros w F O; cbn [map world_run]; [exists w, []; auto|].
  inversion F as [|? ? Fa Fc]; subst. destruct a as [k|]; [|contradiction]. cbn [world_step]. unfold client_turn.
  destruct (submit_dropped handler pol (wd_client w) k (ov_channel _ O)) as (s & l & E & A1 & A2 & A3 & A4 & A5 & A6 & A7). rewrite E. cbn [obind].
  set (w1 := {| wd_client := s; wd_server := _; wd_links := _; wd_up := _; wd_down := _ |}).
  destruct (IH w1 Fc) as (w' & l' & R & B1 & B2 & B3 & B4).
  { constructor; cbn [w1 wd_client]; [exact A7|rewrite A2; apply O| |rewrite A1; apply O]. destruct (ov_order _ O) as [O1 O2]. split; rewrite A3, ?A4, ?A2; assumption. }
  exists w', (map WC l ++ l'). rewrite R. cbn [obind]. split; [reflexivity|]. split; [exact B1|]. unfold wd_user in *. cbn [w1 wd_client] in *.
  split; [congruence|]. split; [rewrite B3, A4; reflexivity|]. rewrite B4. unfold to_do, channel_work. rewrite A2, A3, A4, A5, A6. reflexivity.
Qed.

Lemma finish_ends (w : world (sessions W)) z c : over (wd_client w) -> Forall submit c -> closed z -> (session_work z < session_work (wd_user w))%nat ->
  exists w' l, full_finish user pol w (z, c) = Ret (w', l) /\ over (wd_client w') /\ nearer (wd_client w') (wd_client w).
Proof.
  intros O F C L. unfold full_finish. destruct (submits_dropped c (with_wd_user w (with_log z [])) F) as (w' & l & E & A1 & A2 & A3 & A4).
  { destruct O as [O1 O2 O3 O4]. constructor; assumption. }
  rewrite E. cbn [obind]. exists w', (map FW l ++ map FK (ks_log z)). split; [reflexivity|]. split; [exact A1|]. right. split; [exact A3|].
  unfold left_to_do. rewrite A4. unfold wd_user in *. rewrite A2. cbn [with_wd_user with_tc_user wd_client tc_user].
  change (session_work (with_log z [])) with (session_work z). change (to_do (with_tc_user (wd_client w) (with_log z []))) with (to_do (wd_client w)). lia.
Qed.

Lemma tcp_ends_here (w : world (sessions W)) e : over (wd_client w) -> tcp_enabled (wd_client w) e -> world_step handler pol w (WClient e) = client_turn handler pol w e ->
  exists w' l, (let! (w1, l1) := world_step handler pol w (WClient e) in
                let z := close_sessions (wd_user w1) (channel_shows l1) in Ret (with_wd_user w1 (with_log z []), map FW l1 ++ map FK (ks_log z))) = Ret (w', l) /\
    over (wd_client w') /\ nearer (wd_client w') (wd_client w).
Proof.
  intros [O1 O2 O3 O4] He ->. unfold client_turn. destruct (dead_tcp_step handler pol (wd_client w) e O1 O2) as (s & l & E & D). rewrite E. cbn [obind]. cbv zeta.
  cbn [wd_user wd_client]. destruct (tcp_step_ends handler pol _ _ _ _ (conj O1 (proj1 O2)) He E) as ([D1 _] & M).
  destruct (down_tcp_step handler pol _ _ _ _ O1 O2 O3 E) as (D3 & U).
  assert (C : closed (tc_user s)). { destruct U as [->|(i & x & c & _ & H)]; [exact O4|]. eapply completion_closed; [exact H|exact O4]. }
  destruct (close_closed (tc_user s) (channel_shows (map WC l)) C) as (C1 & C2).
  eexists. eexists. split; [reflexivity|]. cbn [with_wd_user wd_client]. split.
  - constructor; cbn [with_tc_user tc_channel tc_conn tc_user]; assumption.
  - unfold nearer, left_to_do, wd_user. cbn [with_tc_user tc_channel tc_conn tc_user wd_client]. rewrite C2.
    change (to_do (with_tc_user s _)) with (to_do s). destruct M as [M|[M1 M2]]; [left; exact M|]. right. split; [exact M1|].
    destruct U as [->|(i & x & c & K & _)]; lia.
Qed.

Lemma full_step_ends (w : world (sessions W)) e : over (wd_client w) -> client_enabled w e ->
  exists w' l, full_step user pol w e = Ret (w', l) /\ over (wd_client w') /\ nearer (wd_client w') (wd_client w).
Proof.
  intros O He. destruct e as [a| |j t|j t|e]; cbn [client_enabled full_step] in *.
  - contradiction.
  - destruct (ks_queue (wd_user w)) as [|c q] eqn:Q; [destruct (He eq_refl)|]. destruct (run_kclosure (with_kqueue (wd_user w) q) c) as [z cs] eqn:R.
    destruct (run_closure_facts _ _ _ _ _ Q R (ov_sessions _ O)) as (A & B & C). apply finish_ends; assumption.
  - destruct He as (p & P & I). destruct (poll_step (wd_user w) j (SExpire t)) as [z cs] eqn:R.
    destruct (poll_step_facts _ _ (SExpire t) _ _ Logic.I R) as (A1 & A2 & A3 & A4 & A5 & _ & A6). specialize (A6 _ P I).
    destruct (ov_sessions _ O) as [C1 C2]. fold (wd_user w) in C1, C2. apply finish_ends; [exact O|exact A1|split; congruence|]. unfold session_work, listed. rewrite A4, A5. lia.
  - destruct He as (p & P & I). destruct (poll_step (wd_user w) j (SFire t)) as [z cs] eqn:R.
    destruct (poll_step_facts _ _ (SFire t) _ _ Logic.I R) as (A1 & A2 & A3 & A4 & A5 & _ & A6). specialize (A6 _ P I).
    destruct (ov_sessions _ O) as [C1 C2]. fold (wd_user w) in C1, C2. apply finish_ends; [exact O|exact A1|split; congruence|]. unfold session_work, listed. rewrite A4, A5. lia.
  - destruct e as [e|e|g c buf|c]; try contradiction.
    destruct e as [a|xs|t|t xs|ok msg|g ok msg|r x msg xs|o n|o ok msg]; [destruct He|..]; try (apply tcp_ends_here; [exact O|exact He|reflexivity]).
    destruct He as [He K]. apply tcp_ends_here; [exact O|exact He|]. cbn [world_step]. rewrite K. reflexivity.
Qed.

(** When nothing can happen, nothing is left. *)
Lemma no_event_left (w : world (sessions W)) : ordered (wd_client w) -> (forall e, typed_fevent e -> ~ client_enabled w e) -> client_idle (wd_client w).
Proof.
  intros O N. split; [|split].
  - apply no_event_error; [exact O|]. intros e T R He. apply (N (FWorld (WClient e))); [destruct e; [destruct He|exact T..]|]. cbn [client_enabled].
    destruct e as [a|xs|t|t xs|ok msg|g ok msg|r x msg xs|o n|o ok msg]; try exact He. split; [exact He|]. rewrite (R _ _ _ _ eq_refl).
    unfold can_read. destruct (reads_from (tc_conn (wd_client w)) r); reflexivity.
  - fold (wd_user w). destruct (ks_queue (wd_user w)) as [|c q] eqn:Q; [reflexivity|]. destruct (N FRun Logic.I). cbn [client_enabled]. rewrite Q. discriminate.
  - fold (wd_user w). apply Forall_forall. intros p H. apply In_nth_error in H as (j & P). split.
    + destruct (sr_armed (po_sched p)) as [|t l] eqn:E; [reflexivity|]. destruct (N (FExpire j t) Logic.I). exists p. rewrite E. split; [exact P|left; reflexivity].
    + destruct (sr_expired (po_sched p)) as [|t l] eqn:E; [reflexivity|]. destruct (N (FFire j t) Logic.I). exists p. rewrite E. split; [exact P|left; reflexivity].
Qed.

Lemma over_ends s : over s -> comes_to_end user pol s.
Proof.
  remember (rejects (cc_queue (tc_channel s))) as n eqn:Hn. revert s Hn. induction n as [n IHn] using (well_founded_induction lt_wf). intros s Hn.
  remember (left_to_do s) as m eqn:Hm. revert s Hn Hm. induction m as [m IHm] using (well_founded_induction lt_wf). intros s Hn Hm O.
  constructor.
  - intros w e <- T He. destruct (full_step_ends w e O He) as (w' & l & E & O' & X). exists w', l. split; [exact E|]. destruct X as [X|[X Y]].
    + eapply IHn; [|reflexivity|exact O']. lia.
    + eapply IHm; [|rewrite X; exact Hn|reflexivity|exact O']. lia.
  - intros w <- N. apply no_event_left; [apply O|exact N].
Qed.
End Client.
