(** Proofs about ClientConn.v: the reads in progress. *)
From Verif Require Import Prelude Mbap Client AsyncWrite ClientConn SpecConn SpecReads ClientTcp SpecClientTcp TcpWire TcpLemmas.
From Coq Require Import Lia Sorting.Permutation.

Definition sockets (l : list (nat * option nat)) : list nat :=
  flat_map (fun x => match snd x with Some g => [g] | None => [] end) l.

Lemma sockets_app a b : sockets (a ++ b) = sockets a ++ sockets b.
Proof. apply flat_map_app. Qed.

Definition drop_read (r : nat) (l : list (nat * option nat)) := filter (fun x => negb (Nat.eqb (fst x) r)) l.

Lemma drop_in r l g : In g (sockets (drop_read r l)) -> In g (sockets l).
Proof.
  unfold sockets. rewrite !in_flat_map. intros (x & A & B). apply filter_In in A. destruct A. eauto.
Qed.

Lemma drop_nodup r l : NoDup (sockets l) -> NoDup (sockets (drop_read r l)).
Proof.
  induction l as [|[r' g] l IH]; [auto|]. change ((r', g) :: l) with ([(r', g)] ++ l). rewrite sockets_app. intros H.
  assert (H2 : NoDup (sockets l)) by (destruct g; [exact (proj2 (proj1 (NoDup_cons_iff _ _) H))|exact H]).
  cbn [app drop_read filter fst]. fold (drop_read r l). destruct (negb (Nat.eqb r' r)); [|auto].
  change ((r', g) :: drop_read r l) with ([(r', g)] ++ drop_read r l). rewrite sockets_app. destruct g as [g|]; [|exact (IH H2)].
  cbn [sockets flat_map snd app] in H |- *. constructor; [|exact (IH H2)].
  intro X. apply NoDup_cons_iff in H. apply (proj1 H). exact (drop_in _ _ _ X).
Qed.

Lemma found_in r l g : find_read l r = Some (Some g) -> In g (sockets l).
Proof.
  induction l as [|[r' g'] l IH]; cbn [find_read]; [discriminate|]. intros H. change ((r', g') :: l) with ([(r', g')] ++ l).
  rewrite sockets_app. apply in_or_app. destruct (Nat.eqb r' r); [|auto]. injection H as ->. left. left. reflexivity.
Qed.

Lemma found_gone r l g : NoDup (sockets l) -> find_read l r = Some (Some g) -> ~ In g (sockets (drop_read r l)).
Proof.
  induction l as [|[r' g'] l IH]; cbn [find_read]; [discriminate|]. intros D H X.
  change ((r', g') :: l) with ([(r', g')] ++ l) in D. rewrite sockets_app in D.
  assert (D2 : NoDup (sockets l)) by (destruct g'; [exact (proj2 (proj1 (NoDup_cons_iff _ _) D))|exact D]).
  cbn [drop_read filter fst] in X. fold (drop_read r l) in X. destruct (Nat.eqb r' r); cbn [negb] in X.
  - injection H as ->. apply NoDup_cons_iff in D. exact (proj1 D (drop_in _ _ _ X)).
  - change ((r', g') :: drop_read r l) with ([(r', g')] ++ drop_read r l) in X. rewrite sockets_app in X.
    apply in_app_or in X. destruct X as [X|X]; [|exact (IH D2 H X)].
    destruct g' as [g'|]; [|exact X]. cbn in X. destruct X as [<-|[]]. apply NoDup_cons_iff in D. exact (proj1 D (found_in _ _ _ H)).
Qed.

Record apart (s : cconn) : Prop := {
  ap_nodup : NoDup (sockets (cn_reads s));
  ap_connects : forall g, In g (cn_connects s) -> ~ In g (sockets (cn_reads s));
  ap_reads_old : forall g, In g (sockets (cn_reads s)) -> (g < cn_next_socket s)%nat;
  ap_connects_old : forall g, In g (cn_connects s) -> (g < cn_next_socket s)%nat;
  ap_socket_old : forall g, cn_socket s = Some g -> (g < cn_next_socket s)%nat
}.

(** Nothing of this changes. *)
Definition like (s s' : cconn) : Prop :=
  cn_reads s' = cn_reads s /\ incl (cn_connects s') (cn_connects s) /\ cn_next_socket s' = cn_next_socket s /\
  (cn_socket s' = cn_socket s \/ cn_socket s' = None).

Lemma apart_like s s' : like s s' -> apart s -> apart s'.
Proof.
  intros (A & B & C & D) [P Q R T U]. constructor; rewrite ?A, ?C.
  - exact P.
  - intros g G. exact (Q g (B _ G)).
  - exact R.
  - intros g G. exact (T g (B _ G)).
  - intros g G. destruct D as [D|D]; rewrite D in G; [auto|discriminate].
Qed.

Lemma like_refl s : like s s.
Proof. repeat split; auto. apply incl_refl. Qed.

Lemma send_buffer_like s s' o : send_buffer s = (s', o) -> like s s' /\ cn_socket s' = cn_socket s /\ cn_shutdown s' = cn_shutdown s.
Proof.
  unfold send_buffer. destruct (cn_shutdown s) eqn:D; [intros E; injection E as <- _; split; [apply like_refl|auto]|].
  destruct (w_start _ _) as [c x]. intros E. injection E as <- _. repeat split; auto. apply incl_refl.
Qed.

Lemma close_like s : like s (conn_close s).
Proof. unfold conn_close. destruct (cn_shutdown s); [apply like_refl|]. repeat split; auto. apply incl_refl. Qed.

Lemma apart_open s : apart s -> apart (open_socket s).
Proof.
  intros [P Q R T U]. constructor; cbn [open_socket cn_reads cn_connects cn_next_socket cn_socket].
  - exact P.
  - exact Q.
  - intros g G. specialize (R _ G). lia.
  - intros g G. specialize (T _ G). lia.
  - intros g G. injection G as <-. lia.
Qed.

Lemma apart_read s : apart s -> (forall g, cn_socket s = Some g -> ~ In g (sockets (cn_reads s)) /\ ~ In g (cn_connects s)) ->
  apart (begin_read s).
Proof.
  intros [P Q R T U] H. unfold begin_read. destruct (cn_shutdown s); [constructor; auto|].
  assert (X : forall g, In g (sockets (cn_reads s ++ [(cn_next_read s, cn_socket s)])) -> In g (sockets (cn_reads s)) \/ cn_socket s = Some g).
  { intros g G. rewrite sockets_app in G. apply in_app_or in G. destruct G as [G|G]; [auto|].
    destruct (cn_socket s); cbn in G; [destruct G as [<-|[]]; auto|destruct G]. }
  constructor; cbn [with_reads cn_reads cn_connects cn_next_socket cn_socket]; auto.
  - rewrite sockets_app. destruct (cn_socket s) as [g|] eqn:E; cbn [sockets flat_map snd app]; [|rewrite app_nil_r; exact P].
    destruct (H g eq_refl) as (N & _).
    apply (Permutation_NoDup (Permutation_cons_append _ _)). constructor; assumption.
  - intros g G K. destruct (X _ K) as [K'|K']; [exact (Q _ G K')|]. exact (proj2 (H _ K') G).
  - intros g G. destruct (X _ G) as [K|K]; auto.
Qed.

Lemma apart_step s e s' o : apart s -> prompt_success s e -> conn_step s e = Ret (s', o) -> apart s'.
Proof.
  intros A P E. destruct e as [d x| | |ok|g ok|r x|w n|w ok]; cbn [conn_step] in E.
  - injection E as E. unfold conn_send in E. destruct (cn_shutdown s); [injection E as <- _; exact A|].
    assert (A1 : apart (with_writer s (w_replace (cn_writer s) d))) by (apply (apart_like s); [|exact A]; repeat split; auto; apply incl_refl).
    revert E A1. generalize (with_writer s (w_replace (cn_writer s) d)). clear. intros s E A.
    destruct (cn_status s).
    + destruct (negb (su_address x)); [injection E as <- _; exact A|].
      destruct (negb (su_open x) || _)%bool; [injection E as <- _; exact A|].
      destruct (negb (su_bind x)); injection E as <- _; [exact (apart_open _ A)|].
      apply (apart_like (open_socket s)); [|exact (apart_open _ A)]. repeat split; auto. apply incl_refl.
    + injection E as <- _. exact A.
    + destruct (send_buffer_like _ _ _ E) as (L & _). exact (apart_like _ _ L A).
  - injection E as <- _. apply (apart_like s); [|exact A]. repeat split; auto. apply incl_refl.
  - destruct (cn_queue s) as [|c q]; [injection E as <- _; exact A|].
    assert (A1 : apart (with_nqueue s q)) by (apply (apart_like s); [|exact A]; repeat split; auto; apply incl_refl).
    revert E A1. generalize (with_nqueue s q). clear. intros s E A. destruct c.
    + injection E as E. unfold do_close in E. destruct (cn_shutdown s); [injection E as <- _; exact A|].
      destruct (cn_socket (with_status s NotConnected)); injection E as <- _;
        (apply (apart_like s); [|exact A]; repeat split; auto; apply incl_refl).
    + injection E as <- _. apply (apart_like s); [|exact A]. repeat split; auto. apply incl_refl.
  - destruct (cn_resolves s) as [|n]; [injection E as <- _; exact A|]. injection E as E.
    assert (A1 : apart (with_resolves s n)) by (apply (apart_like s); [|exact A]; repeat split; auto; apply incl_refl).
    revert E A1. generalize (with_resolves s n). clear. intros s E A. unfold resolve_handler in E.
    destruct (cn_shutdown s); [injection E as <- _; exact A|].
    destruct (negb ok); injection E as <- _; [apply (apart_like s); [|exact A]; repeat split; auto; apply incl_refl|].
    destruct A as [P Q R T U].
    constructor; cbn [with_connects open_socket close_socket cn_reads cn_connects cn_next_socket cn_socket].
    + exact P.
    + intros g G. apply in_app_or in G. destruct G as [G|[<-|[]]]; [auto|]. intro X. specialize (R _ X). lia.
    + intros g G. specialize (R _ G). lia.
    + intros g G. apply in_app_or in G. destruct G as [G|[<-|[]]]; [|lia]. specialize (T _ G). lia.
    + intros g G. injection G as <-. lia.
  - destruct (existsb (Nat.eqb g) (cn_connects s)) eqn:X; [|injection E as <- _; exact A]. injection E as E.
    apply existsb_exists in X. destruct X as (g' & G & X). apply Nat.eqb_eq in X. subst g'.
    assert (N := ap_connects _ A _ G).
    assert (A1 : apart (with_connects s (filter (fun x => negb (Nat.eqb x g)) (cn_connects s)))).
    { apply (apart_like s); [|exact A]. repeat split; auto. intros y Y. apply filter_In in Y. exact (proj1 Y). }
    assert (N1 : ~ In g (filter (fun x => negb (Nat.eqb x g)) (cn_connects s))).
    { intro Y. apply filter_In in Y. destruct Y as (_ & Y). rewrite Nat.eqb_refl in Y. discriminate. }
    unfold connect_handler in E.
    destruct (cn_shutdown _); [injection E as <- _; exact A1|].
    destruct ok; cbn [negb] in E; [|injection E as <- _; exact (apart_like _ _ (close_like _) A1)].
    match type of E with context [send_buffer ?y] => destruct (send_buffer y) as [s1 o1] eqn:B end.
    injection E as <- _. destruct (send_buffer_like _ _ _ B) as (L & K & _).
    assert (A2 : apart s1).
    { apply (apart_like _ _ L). apply (apart_like (with_connects s (filter (fun x => negb (Nat.eqb x g)) (cn_connects s)))); [|exact A1].
      repeat split; auto. apply incl_refl. }
    apply apart_read; [exact A2|]. intros y Y. rewrite K in Y. cbn in P, Y. rewrite P in Y. injection Y as <-.
    destruct L as (L1 & L2 & _). rewrite L1. split; [exact N|]. intro Y. exact (N1 (L2 _ Y)).
  - destruct (find_read (cn_reads s) r) as [g|] eqn:F; [|injection E as <- _; exact A].
    destruct (possible g x) eqn:Z; [|injection E as <- _; exact A]. injection E as E.
    fold (drop_read r (cn_reads s)) in E.
    assert (A1 : apart (with_reads s (drop_read r (cn_reads s)) (cn_next_read s))).
    { destruct A as [P1 Q R T U]. constructor; cbn [with_reads cn_reads cn_connects cn_next_socket cn_socket]; auto.
      - exact (drop_nodup _ _ P1).
      - intros y Y W. exact (Q _ Y (drop_in _ _ _ W)).
      - intros y Y. exact (R _ (drop_in _ _ _ Y)). }
    unfold read_handler in E. destruct (cn_shutdown _); [injection E as <- _; exact A1|].
    destruct x as [d| |]; destruct g as [g|]; try discriminate Z; injection E as <- _;
      try exact (apart_like _ _ (close_like _) A1).
    cbn [prompt_success] in P. rewrite F in P. destruct P as [P|P]; [discriminate|]. injection P as P.
    apply apart_read; [exact A1|]. cbn [with_reads cn_reads cn_connects cn_socket]. intros y Y. rewrite Y in P. injection P as ->.
    split; [exact (found_gone _ _ _ (ap_nodup _ A) F)|].
    intro W. exact (ap_connects _ A _ W (found_in _ _ _ F)).
  - destruct (w_transfer (cn_writer s) w n) as [[c x]|]; cbn [obind] in E; [|discriminate]. injection E as <- _.
    apply (apart_like s); [|exact A]. repeat split; auto. apply incl_refl.
  - injection E as E. unfold write_handler in E. destruct (w_complete (cn_writer s) w ok) as [[c x]|]; [|injection E as <- _; exact A].
    destruct (cn_shutdown s); [|destruct ok]; injection E as <- _;
      try (apply (apart_like s); [|exact A]; repeat split; auto; apply incl_refl).
    apply (apart_like _ _ (close_like _)). apply (apart_like s); [|exact A]. repeat split; auto. apply incl_refl.
Qed.

Lemma apart_run es : forall s s' os, apart s -> always prompt_success s es -> conn_run s es = Ret (s', os) -> apart s'.
Proof.
  induction es as [|e es IH]; intros s s' os A P E; cbn [conn_run] in E; [injection E as <- _; exact A|].
  destruct (conn_step s e) as [[s1 o1]|] eqn:E1; cbn [obind] in E; [|discriminate].
  destruct (conn_run s1 es) as [[s2 o2]|] eqn:E2; cbn [obind] in E; [|discriminate]. injection E as <- _.
  destruct P as (P & Q). exact (IH _ _ _ (apart_step _ _ _ _ A P E1) (Q _ _ E1) E2).
Qed.

Lemma reads_on_count s g : List.length (reads_on s g) = count_occ Nat.eq_dec (sockets (cn_reads s)) g.
Proof.
  unfold reads_on, sockets. induction (cn_reads s) as [|[r [g'|]] l IH]; cbn [flat_map snd fst app]; [reflexivity| |exact IH].
  cbn [count_occ]. destruct (Nat.eq_dec g' g) as [->|N].
  - rewrite Nat.eqb_refl. cbn. rewrite IH. reflexivity.
  - apply Nat.eqb_neq in N. rewrite N. exact IH.
Qed.

Lemma one_read es s os g : conn_run cconn_init es = Ret (s, os) -> always prompt_success cconn_init es ->
  (List.length (reads_on s g) <= 1)%nat.
Proof.
  intros E P. rewrite reads_on_count. apply NoDup_count_occ. apply (ap_nodup s).
  refine (apart_run _ _ _ _ _ P E). constructor; cbn; intros; try contradiction; try discriminate. constructor.
Qed.

Lemma tcp_one_read {W : Type} (handler : nat -> W -> expected (list N) -> W * list capi) pol es s l g :
  tcp_history handler pol es s l -> always prompt_success cconn_init (conn_ins l) -> (List.length (reads_on (tc_conn s) g) <= 1)%nat.
Proof. intros H. exact (one_read _ _ _ _ (conn_view _ _ _ _ _ H)). Qed.
