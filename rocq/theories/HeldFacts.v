(** Proofs about what a client channel keeps. *)
From Verif Require Import Prelude Ser4 Messages Mbap SpecPdu SpecMbap Client SpecClient SpecHeld ClientFacts ClientLemmas ClientShutdown
  AsyncWrite ClientConn SpecConn ClientTcp SpecClientTcp TcpWire TcpLemmas.
From Coq Require Import Lia.

Lemma sorted_same a : forall b, sorted a -> sorted b -> (forall x, In x a <-> In x b) -> a = b.
Proof.
  induction a as [|x a IH]; intros [|y b] A B E; [reflexivity|exfalso; apply (E y); left; reflexivity|exfalso; apply (E x); left; reflexivity|].
  apply StronglySorted_inv in A as [A A1]. apply StronglySorted_inv in B as [B B1]. rewrite Forall_forall in A1, B1.
  assert (x = y) as <-.
  { destruct (proj1 (E x) (or_introl eq_refl)) as [X|X]; [congruence|]. destruct (proj2 (E y) (or_introl eq_refl)) as [Y|Y]; [exact Y|].
    apply B1 in X. apply A1 in Y. lia. }
  f_equal. apply IH; [exact A|exact B|]. intro z. split; intros Z.
  - destruct (proj1 (E z) (or_intror Z)) as [<-|X]; [apply A1 in Z; lia|exact X].
  - destruct (proj2 (E z) (or_intror Z)) as [<-|X]; [apply B1 in Z; lia|exact X].
Qed.

Lemma sorted_filter f l : sorted l -> sorted (filter f l).
Proof.
  induction 1 as [|x l S1 IH F]; [constructor|]. cbn [filter]. destruct (f x); [|exact IH]. constructor; [exact IH|].
  rewrite Forall_forall in *. intros y Y. apply filter_In in Y as [Y _]. exact (F _ Y).
Qed.

Lemma held_live s : held s = live s.
Proof. unfold held, live, curid. destruct (cc_current s); reflexivity. Qed.

Lemma in_open os i : In i (open_calls os) <-> In i (called_ids os) /\ ~ In i (completed_ids os).
Proof.
  unfold open_calls. rewrite filter_In. split; intros [A B]; split; auto.
  - intro C. apply existsb_in in C. rewrite C in B. discriminate.
  - apply negb_true_iff. destruct (existsb (Nat.eqb i) (completed_ids os)) eqn:X; [|reflexivity].
    apply existsb_exists in X as (j & J & Y). apply Nat.eqb_eq in Y as <-. contradiction.
Qed.

Section Held.
Context {W : Type}.
Context (handler : nat -> W -> expected (list N) -> W * list capi).

Lemma held_exactly pol es s w os : history handler pol es s w os -> ~ In TcpShutdown os -> held s = open_calls os.
Proof.
  intros H D. assert (Z := not_down _ _ _ _ _ _ H D). destruct (history_reached _ _ _ _ _ _ H) as (C & _). rewrite held_live.
  apply sorted_same; [exact (co_live _ _ C)|apply sorted_filter; rewrite (co_called _ _ C); apply sorted_seq|].
  intro i. rewrite in_open, (co_called _ _ C), in_seq. split.
  - intros X. split.
    + split; [lia|]. apply (co_below _ _ C). apply in_or_app. right. exact X.
    + intro Y. exact (co_gone _ _ C _ Y X).
  - intros ((_ & X) & Y). destruct (in_app_or _ _ _ (co_all _ _ C Z i X)) as [K|K]; [contradiction|exact K].
Qed.

Lemma held_never_closed pol es s w os i : history handler pol es s w os -> In i (held s) -> In i (open_calls os).
Proof.
  intros H X. destruct (history_reached _ _ _ _ _ _ H) as (C & _). rewrite held_live in X.
  rewrite in_open, (co_called _ _ C), in_seq. split.
  - split; [lia|]. apply (co_below _ _ C). apply in_or_app. right. exact X.
  - intro Y. exact (co_gone _ _ C _ Y X).
Qed.

Lemma held_down pol es s w os : history handler pol es s w os -> In TcpShutdown os -> held s = qids (cc_queue s).
Proof.
  intros H D. apply (history_shutdown _ _ _ _ _ _ H) in D. destruct (history_reached _ _ _ _ _ _ H) as (C & _).
  destruct (co_down _ _ C D) as [A B]. unfold held. rewrite A, B. reflexivity.
Qed.

Lemma never_idle pol es s w os : history handler pol es s w os -> incl (sent_ids os) (completed_ids os) -> held s = qids (cc_queue s).
Proof.
  intros H D. destruct (history_reached _ _ _ _ _ _ H) as (C & S1 & _). destruct (cc_current s) as [p|] eqn:P.
  - exfalso. assert (X := co_current _ _ C _ P). apply (co_gone _ _ C (pr_id p)); [|unfold live; rewrite P; left; reflexivity].
    apply D. apply in_sent. eauto.
  - unfold held. rewrite P, (S1 P). reflexivity.
Qed.

Lemma tcp_held pol es s l : tcp_history handler pol es s l -> ~ In TcpShutdown (channel_outs l) ->
  held (tc_channel s) = open_calls (channel_outs l).
Proof. intros H D. exact (held_exactly _ _ _ _ _ (channel_view _ _ _ _ _ H) D). Qed.
End Held.
