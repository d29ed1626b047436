(** Proofs about ClientConn.v: connection attempts. *)
From Verif Require Import Prelude Mbap Client AsyncWrite ClientConn SpecConn SpecAttempts ClientTcp SpecClientTcp TcpWire TcpLemmas.
From Coq Require Import Lia.

(** An attempt has begun, and neither failed nor succeeded since. *)
Definition attempting (x : bool) (os : list noutput) : bool :=
  fold_left (fun x o => match o with Attempt => true | Failed | Established _ => false | _ => x end) os x.

Definition orderly (s : cconn) (x : bool) : Prop :=
  (attempts s = 0%nat \/ attempts s = 1%nat /\ cn_status s = Connecting) /\
  (x = true -> cn_shutdown s = true \/ attempts s = 1%nat).

Lemma attempting_writes o x : attempting x (map Write o) = x.
Proof. induction o; [reflexivity|exact IHo]. Qed.

Lemma attempting_app a b x : attempting x (a ++ b) = attempting (attempting x a) b.
Proof. apply fold_left_app. Qed.

Lemma orderly_like s s' x : cn_status s' = cn_status s -> cn_resolves s' = cn_resolves s -> cn_connects s' = cn_connects s ->
  (cn_shutdown s = true -> cn_shutdown s' = true) -> orderly s x -> orderly s' x.
Proof. unfold orderly, attempts. intros A B C D (P & Q). rewrite A, B, C. split; [exact P|]. intros X. destruct (Q X); auto. Qed.

Lemma send_buffer_keeps s s' o : send_buffer s = (s', o) -> cn_status s' = cn_status s /\ cn_resolves s' = cn_resolves s /\
  cn_connects s' = cn_connects s /\ cn_shutdown s' = cn_shutdown s /\ exists w, o = map Write w.
Proof.
  unfold send_buffer. destruct (cn_shutdown s) eqn:D; [intros E; injection E as <- <-; repeat split; auto; exists []; reflexivity|].
  destruct (w_start _ _) as [c x]. intros E. injection E as <- <-. repeat split; auto. eauto.
Qed.

Lemma orderly_close s x : orderly s x -> orderly (conn_close s) x.
Proof. unfold conn_close. destruct (cn_shutdown s) eqn:D; [auto|]. apply orderly_like; auto. Qed.

Lemma orderly_read s x : orderly s x -> orderly (begin_read s) x.
Proof. unfold begin_read. destruct (cn_shutdown s) eqn:D; [auto|]. apply orderly_like; auto. Qed.

Lemma orderly_false s x : orderly s x -> orderly s false.
Proof. intros (P & _). split; [exact P|discriminate]. Qed.

Lemma filter_no_longer {A} (f : A -> bool) l : (List.length (filter f l) <= List.length l)%nat.
Proof. induction l as [|a l IH]; cbn; [lia|]. destruct (f a); cbn; lia. Qed.

Lemma filter_shorter g l : In g l -> (List.length (filter (fun x => negb (Nat.eqb x g)) l) < List.length l)%nat.
Proof.
  induction l as [|a l IH]; [intros []|]. intros [->|H]; cbn [filter].
  - rewrite Nat.eqb_refl. cbn [negb List.length]. assert (X := filter_no_longer (fun x => negb (Nat.eqb x g)) l). lia.
  - specialize (IH H). destruct (negb (Nat.eqb a g)); cbn [List.length]; lia.
Qed.

Lemma orderly_step s e s' o x : orderly s x -> timely_closing s e -> conn_step s e = Ret (s', o) ->
  orderly s' (attempting x o) /\ (In Attempt o -> o = [Attempt] /\ (x = false \/ cn_shutdown s = true) /\ cn_shutdown s = false).
Proof.
  assert (K : forall o1 x1, (In Attempt o1 -> False) -> In Attempt o1 -> o1 = [Attempt] /\ (x1 = false \/ cn_shutdown s = true) /\ cn_shutdown s = false) by tauto.
  assert (N0 : In Attempt [] -> False) by (intros []).
  assert (NW : forall w, In Attempt (map Write w) -> False) by (intros w X; apply in_map_iff in X; destruct X as (? & X & _); discriminate X).
  intros A P E. destruct e as [d y| | |ok|g ok|r y|w n|w ok]; cbn [conn_step] in E.
  - injection E as E. unfold conn_send in E. destruct (cn_shutdown s) eqn:D; [injection E as <- <-; split; [exact A|apply K, N0]|].
    assert (A1 : orderly (with_writer s (w_replace (cn_writer s) d)) x) by (revert A; apply orderly_like; auto).
    assert (D1 : cn_shutdown (with_writer s (w_replace (cn_writer s) d)) = false) by exact D.
    revert E A1 D1. generalize (with_writer s (w_replace (cn_writer s) d)). intros s1 E A1 D1.
    destruct (cn_status s1) eqn:T.
    + assert (N1 : In Attempt [SetupFailed] -> False) by (intros [X|[]]; discriminate X).
      destruct (negb (su_address y)); [injection E as <- <-; split; [exact A1|apply K, N1]|].
      destruct (negb (su_open y) || _)%bool; [injection E as <- <-; split; [exact A1|apply K, N1]|].
      destruct (negb (su_bind y)); injection E as <- <-; [split; [revert A1; apply orderly_like; auto|apply K, N1]|].
      destruct A1 as ([Z|(_ & Z)] & Q); [|congruence]. split.
      * unfold orderly, attempts in *. cbn [with_resolves with_status open_socket cn_resolves cn_connects cn_status]. split; [right; split; [lia|reflexivity]|].
        intros _. right. lia.
      * intros _. split; [reflexivity|]. split; [|reflexivity]. left. destruct x; [|reflexivity]. destruct (Q eq_refl); congruence.
    + injection E as <- <-. split; [exact A1|apply K, N0].
    + destruct (send_buffer_keeps _ _ _ E) as (L1 & L2 & L3 & L4 & o1 & ->). rewrite attempting_writes. split; [|apply K, NW].
      revert A1. apply orderly_like; auto. congruence.
  - injection E as <- <-. split; [|apply K, N0]. revert A. apply orderly_like; auto.
  - destruct (cn_queue s) as [|c q] eqn:Q; [injection E as <- <-; split; [exact A|apply K, N0]|]. destruct c.
    + injection E as E. destruct (P eq_refl q Q) as (Z1 & Z2).
      unfold do_close in E. cbn [with_nqueue cn_shutdown] in E.
      destruct (cn_shutdown s) eqn:D; [injection E as <- <-; split; [revert A; apply orderly_like; auto|apply K, N0]|].
      assert (Z : x = false).
      { destruct x; [|reflexivity]. destruct (proj2 A eq_refl) as [X|X]; [congruence|]. unfold attempts in X. rewrite Z1, Z2 in X. discriminate X. }
      subst x. destruct (cn_socket (with_status (with_nqueue s q) NotConnected)); injection E as <- <-;
        (split; [|apply K; cbn; intuition discriminate]); (split; [|discriminate]); left; unfold attempts; cbn; rewrite Z1, Z2; reflexivity.
    + injection E as <- <-. split; [|apply K, N0]. revert A. apply orderly_like; auto.
  - destruct (cn_resolves s) as [|n] eqn:R; [injection E as <- <-; split; [exact A|apply K, N0]|]. injection E as E.
    destruct A as ([A|(A & T)] & Q); unfold attempts in A; rewrite R in A; [discriminate A|].
    assert (n = 0%nat) by lia. subst n. assert (C : cn_connects s = []) by (destruct (cn_connects s); [reflexivity|cbn in A; lia]).
    unfold resolve_handler in E. cbn [with_resolves cn_shutdown] in E. destruct (cn_shutdown s) eqn:D.
    + injection E as <- <-. split; [|apply K, N0]. unfold orderly, attempts. cbn [with_resolves cn_resolves cn_connects cn_shutdown]. rewrite C, D.
      split; [left; reflexivity|auto].
    + destruct (negb ok); injection E as <- <-.
      * split; [|apply K; cbn; intuition discriminate]. split; [|discriminate]. left. unfold attempts. cbn. rewrite C. reflexivity.
      * split; [|apply K, N0]. unfold orderly, attempts.
        cbn [with_connects with_resolves open_socket close_socket cn_resolves cn_connects cn_shutdown cn_status cn_socket]. rewrite C, T. cbn. split; [right; auto|auto].
  - destruct (existsb (Nat.eqb g) (cn_connects s)) eqn:X; [|injection E as <- <-; split; [exact A|apply K, N0]]. injection E as E.
    apply existsb_exists in X. destruct X as (g' & G & X). apply Nat.eqb_eq in X. subst g'. assert (F := filter_shorter _ _ G).
    destruct A as ([A|(A & T)] & Q); unfold attempts in A; [lia|].
    assert (C : filter (fun x => negb (Nat.eqb x g)) (cn_connects s) = []) by (destruct (filter _ _); [reflexivity|cbn in F; lia]).
    rewrite C in E. assert (R : cn_resolves s = 0%nat) by lia.
    unfold connect_handler in E. cbn [with_connects cn_shutdown] in E. destruct (cn_shutdown s) eqn:D.
    + injection E as <- <-. split; [|apply K, N0]. unfold orderly, attempts. cbn [with_connects cn_resolves cn_connects cn_shutdown]. rewrite R, D. cbn. auto.
    + destruct ok; cbn [negb] in E.
      * match type of E with context [send_buffer ?y] => destruct (send_buffer y) as [s1 o1] eqn:B end. injection E as <- <-.
        destruct (send_buffer_keeps _ _ _ B) as (L1 & L2 & L3 & L4 & w & ->). split.
        -- change (Established g :: map Write w) with ([Established g] ++ map Write w). rewrite attempting_app, attempting_writes. cbn [attempting fold_left].
           apply orderly_read. split; [|discriminate]. left. unfold attempts. rewrite L2, L3. cbn. rewrite R. reflexivity.
        -- apply K. intros [X|X]; [discriminate X|exact (NW _ X)].
      * injection E as <- <-. split; [|apply K; cbn; intuition discriminate]. apply orderly_close. split; [|discriminate].
        left. unfold attempts. cbn. rewrite R. reflexivity.
  - destruct (find_read (cn_reads s) r) as [g|]; [|injection E as <- <-; split; [exact A|apply K, N0]].
    destruct (possible g y); [|injection E as <- <-; split; [exact A|apply K, N0]]. injection E as E.
    match type of E with read_handler ?z _ _ = _ => assert (A1 : orderly z x) by (revert A; apply orderly_like; auto); revert E A1; generalize z end.
    intros s1 E A1. unfold read_handler in E.
    destruct (cn_shutdown s1); [injection E as <- <-; split; [exact A1|apply K, N0]|].
    destruct y as [d| |]; destruct g as [g|]; injection E as <- <-; (split; [|apply K; cbn; intuition discriminate]);
      try exact A1; try exact (orderly_read _ _ A1); try exact (orderly_close _ _ A1); exact (orderly_close _ _ (orderly_false _ _ A1)).
  - destruct (w_transfer (cn_writer s) w n) as [[c y]|]; cbn [obind] in E; [|discriminate]. injection E as <- <-.
    rewrite attempting_writes. split; [|apply K, NW]. revert A. apply orderly_like; auto.
  - injection E as E. unfold write_handler in E. destruct (w_complete (cn_writer s) w ok) as [[c y]|]; [|injection E as <- <-; split; [exact A|apply K, N0]].
    destruct (cn_shutdown s) eqn:D; [|destruct ok]; injection E as <- <-.
    + split; [|apply K, N0]. revert A. apply orderly_like; auto.
    + rewrite attempting_app, attempting_writes. split; [revert A; apply orderly_like; auto|].
      apply K. intros X. apply in_app_or in X. destruct X as [X|[X|[]]]; [exact (NW _ X)|discriminate X].
    + rewrite attempting_app, attempting_writes. split.
      * cbn [attempting fold_left]. apply orderly_close. apply orderly_false in A. revert A. apply orderly_like; auto.
      * apply K. intros X. apply in_app_or in X. destruct X as [X|[X|[]]]; [exact (NW _ X)|discriminate X].
Qed.

Lemma orderly_run es : forall s s' os x, orderly s x -> always timely_closing s es -> conn_run s es = Ret (s', os) ->
  orderly s' (attempting x os) /\ (forall a b, os = a ++ Attempt :: b -> attempting x a = false).
Proof.
  induction es as [|e es IH]; intros s s' os x A P E; cbn [conn_run] in E.
  - injection E as <- <-. split; [exact A|]. intros [|] b X; discriminate X.
  - destruct (conn_step s e) as [[s1 o1]|] eqn:E1; cbn [obind] in E; [|discriminate].
    destruct (conn_run s1 es) as [[s2 o2]|] eqn:E2; cbn [obind] in E; [|discriminate]. injection E as <- <-.
    destruct P as (P & Q). destruct (orderly_step _ _ _ _ _ A P E1) as (B & C).
    destruct (IH _ _ _ _ B (Q _ _ E1) E2) as (F & G). rewrite attempting_app. split; [exact F|].
    intros a b X. apply app_eq_app in X. destruct X as (l & [(X & Y)|(X & Y)]).
    + destruct l as [|z l].
      * rewrite app_nil_r in X. subst a. cbn in Y. apply (G [] b). symmetry. exact Y.
      * injection Y as <- Y. destruct C as (C & [D|D] & D'); [rewrite X; apply in_or_app; right; left; reflexivity| |congruence].
        rewrite X in C. destruct a as [|w a]; [exact D|]. injection C as _ C. destruct a; discriminate C.
    + subst a. rewrite attempting_app. exact (G _ _ Y).
Qed.

Lemma init_orderly : orderly cconn_init false.
Proof. split; [left; reflexivity|discriminate]. Qed.

Lemma one_attempt es s os : conn_run cconn_init es = Ret (s, os) -> always timely_closing cconn_init es -> (attempts s <= 1)%nat.
Proof.
  intros E P. destruct (orderly_run _ _ _ _ _ init_orderly P E) as (([X|(X & _)] & _) & _); lia.
Qed.

Lemma attempting_ends b : attempting true b = false -> In Failed b \/ exists g, In (Established g) b.
Proof.
  induction b as [|o b IH]; [discriminate|]. cbn [attempting fold_left]. fold (attempting (match o with Attempt => true | Failed | Established _ => false | _ => true end) b).
  destruct o; intros H; try (destruct (IH H) as [X|(g' & X)]; [left; right; exact X|right; exists g'; right; exact X]).
  - right. exists g. left. reflexivity.
  - left. left. reflexivity.
Qed.

Lemma attempts_separated es s os a b c : conn_run cconn_init es = Ret (s, os) -> always timely_closing cconn_init es ->
  os = a ++ Attempt :: b ++ Attempt :: c -> In Failed b \/ exists g, In (Established g) b.
Proof.
  intros E P X. destruct (orderly_run _ _ _ _ _ init_orderly P E) as (_ & G).
  apply attempting_ends. assert (Y := G (a ++ Attempt :: b) c). rewrite <- app_assoc in Y. specialize (Y X).
  rewrite attempting_app in Y. exact Y.
Qed.

Lemma tcp_one_attempt {W : Type} (handler : nat -> W -> expected (list N) -> W * list capi) pol es s l :
  tcp_history handler pol es s l -> always timely_closing cconn_init (conn_ins l) -> (attempts (tc_conn s) <= 1)%nat.
Proof. intros H. exact (one_attempt _ _ _ (conn_view _ _ _ _ _ H)). Qed.
