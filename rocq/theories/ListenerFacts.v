(** Invariants of the accepting server. *)
From Verif Require Import Prelude Tac Listener SpecListener.

(** ** Lists *)
Lemma in_delete c d l : In d (delete c l) <-> In d l /\ d <> c.
Proof. unfold delete. rewrite filter_In. destruct (Nat.eqb_spec d c); cbn [negb]; intuition congruence. Qed.

Lemma delete_notin c l : ~ In c l -> delete c l = l.
Proof.
  induction l as [|d l IH]; intros H; [reflexivity|]. unfold delete in *. cbn [filter].
  destruct (Nat.eqb_spec d c) as [->|E]; cbn [negb]; [destruct H; left; reflexivity|].
  f_equal. apply IH. intros I. apply H. right. exact I.
Qed.

Lemma delete_app c l1 l2 : delete c (l1 ++ l2) = delete c l1 ++ delete c l2.
Proof. apply filter_app. Qed.

Lemma delete_nodup c l : NoDup l -> NoDup (delete c l).
Proof. apply NoDup_filter. Qed.

Lemma delete_length c l : NoDup l -> In c l -> S (List.length (delete c l)) = List.length l.
Proof.
  induction l as [|d l IH]; intros N I; [destruct I|]. inversion N as [|? ? N1 N2]; subst. unfold delete in *. cbn [filter].
  destruct (Nat.eqb_spec d c) as [->|E]; cbn [negb].
  - change (filter _ l) with (delete c l). rewrite delete_notin by exact N1. reflexivity.
  - destruct I as [->|I]; [contradiction|]. cbn [List.length]. rewrite IH by assumption. reflexivity.
Qed.

Lemma delete_length_le c l : (List.length (delete c l) <= List.length l)%nat.
Proof. induction l as [|d l IH]; [reflexivity|]. unfold delete in *. cbn [filter]. destruct (negb _); cbn [List.length]; lia. Qed.

Lemma member_in c l : member c l = true <-> In c l.
Proof.
  unfold member. rewrite existsb_exists. split; [intros (d & I & E); apply Nat.eqb_eq in E; subst; exact I|].
  intros I. exists c. split; [exact I|apply Nat.eqb_refl].
Qed.

Lemma member_notin c l : member c l = false <-> ~ In c l.
Proof. rewrite <- member_in. destruct (member c l); intuition congruence. Qed.

Lemma nodup_add (l : list nat) x : NoDup l -> ~ In x l -> NoDup (l ++ [x]).
Proof.
  intros N H. rewrite <- (rev_involutive (l ++ [x])). apply NoDup_rev. rewrite rev_app_distr.
  cbn [rev app]. constructor; [rewrite <- in_rev; exact H|apply NoDup_rev; exact N].
Qed.

(** ** Outputs *)
Definition live_step (l : list nat) (o : aoutput) : list nat :=
  match o with Accepted c => l ++ [c] | Removed c => delete c l | ShutDown => [] | _ => l end.
Lemma live_app os o : live (os ++ o) = fold_left live_step o (live os).
Proof. apply fold_left_app. Qed.

Definition open_step (l : list nat) (o : aoutput) : list nat :=
  match o with Accepted c => l ++ [c] | Closed c => delete c l | _ => l end.
Lemma open_app os o : open_sockets (os ++ o) = fold_left open_step o (open_sockets os).
Proof. apply fold_left_app. Qed.

Lemma count_app p os o : count p (os ++ o) = (count p os + count p o)%nat.
Proof. unfold count. rewrite filter_app, app_length. reflexivity. Qed.

Definition sa (q : list aclosure) : nat := List.length (filter (fun a => match a with StartAccept => true | _ => false end) q).
Lemma sa_app q1 q2 : sa (q1 ++ q2) = (sa q1 + sa q2)%nat.
Proof. unfold sa. rewrite filter_app, app_length. reflexivity. Qed.

Lemma sa_close l : sa (map Close l) = 0%nat.
Proof. unfold sa. induction l; [reflexivity|exact IHl]. Qed.

Lemma starts_app es e : starts_of (es ++ [e]) = (starts_of es + match e with AStart => 1 | _ => 0 end)%nat.
Proof. unfold starts_of. rewrite filter_app, app_length. destruct e; reflexivity. Qed.

(** ** Histories *)
Lemma arun_app es1 : forall es2 s,
  aserver_run s (es1 ++ es2) =
  let! (s1, o1) := aserver_run s es1 in let! (s2, o2) := aserver_run s1 es2 in Ret (s2, o1 ++ o2).
Proof.
  induction es1 as [|e es1 IH]; intros es2 s; cbn [app aserver_run obind].
  - destruct (aserver_run s es2) as [[s2 o2]|]; reflexivity.
  - destruct (aserver_step s e) as [[s1 o1]|]; [|reflexivity]. cbn [obind]. rewrite IH.
    destruct (aserver_run s1 es1) as [[s2 o2]|]; [|reflexivity]. cbn [obind].
    destruct (aserver_run s2 es2) as [[s3 o3]|]; [|reflexivity]. cbn [obind]. rewrite app_assoc. reflexivity.
Qed.

Lemma arun_one s e : aserver_run s [e] = aserver_step s e.
Proof. cbn [aserver_run]. destruct (aserver_step s e) as [[? ?]|]; [|reflexivity]. cbn [obind]. rewrite app_nil_r. reflexivity. Qed.

Lemma arun_snoc s es e s' os : aserver_run s (es ++ [e]) = Ret (s', os) ->
  exists s1 o1 o2, aserver_run s es = Ret (s1, o1) /\ aserver_step s1 e = Ret (s', o2) /\ os = o1 ++ o2.
Proof.
  rewrite arun_app. destruct (aserver_run s es) as [[s1 o1]|]; [|discriminate]. cbn [obind]. rewrite arun_one.
  destruct (aserver_step s1 e) as [[s2 o2]|] eqn:E2; [|discriminate]. cbn [obind]. intros E. injection E as <- <-.
  exists s1, o1, o2. split; [reflexivity|]. split; [exact E2|reflexivity].
Qed.

Lemma serves_ind max (P : list aevent -> aserver -> list aoutput -> Prop) :
  P [] (aserver_init max) [] ->
  (forall es e s os s' o, serves max es s os -> P es s os -> aserver_step s e = Ret (s', o) -> P (es ++ [e]) s' (os ++ o)) ->
  forall es s os, serves max es s os -> P es s os.
Proof.
  intros H0 HS es. induction es as [|e es IH] using rev_ind; intros s os H.
  - injection H as <- <-. exact H0.
  - apply arun_snoc in H. destruct H as (s1 & o1 & o2 & E1 & E2 & ->).
    apply (HS es e s1 o1 s o2); [exact E1|exact (IH _ _ E1)|exact E2].
Qed.

Lemma serves_extend max es s os e s' o : serves max es s os -> aserver_step s e = Ret (s', o) -> serves max (es ++ [e]) s' (os ++ o).
Proof. intros H E. unfold serves. rewrite arun_app, H. cbn [obind]. rewrite arun_one, E. reflexivity. Qed.

Ltac afields := cbn [as_shutdown as_num as_max as_list as_pending as_open as_active as_next as_queue] in *.

(** ** All histories: every accept error ends a loop *)
Record loops_inv (s : aserver) (os : list aoutput) : Prop := {
  l_shut : as_shutdown s = true <-> In ShutDown os;
  l_pend_nodup : NoDup (as_pending s);
  l_pend_fresh : forall c, In c (as_pending s) -> (c < as_next s)%nat;
  l_count : as_shutdown s = false -> (List.length (as_pending s) + sa (as_queue s) + accept_errors os = loops_started os)%nat
}.

Ltac close_out := unfold accept_errors, loops_started in *; rewrite ?count_app, ?app_nil_r.

Lemma remove_connection_spec s c s' o : remove_connection s c = (s', o) ->
  as_shutdown s' = as_shutdown s /\ as_pending s' = as_pending s /\ as_next s' = as_next s /\ sa (as_queue s') = sa (as_queue s) /\
  (o = [] \/ o = [Removed c]).
Proof.
  unfold remove_connection. destruct (member c (as_list s)); intros E; injection E as <- <-; afields; cbn [apost as_shutdown as_pending as_next as_queue].
  - repeat (split; [reflexivity|]). split; [rewrite sa_app; cbn; lia|right; reflexivity].
  - repeat (split; [reflexivity|]). left. reflexivity.
Qed.

Lemma not_shut_out os o : (forall x, In x o -> x <> ShutDown) -> In ShutDown (os ++ o) <-> In ShutDown os.
Proof. intros H. rewrite in_app_iff. split; [intros [I|I]; [exact I|destruct (H _ I eq_refl)]|left; assumption]. Qed.

Lemma loops_step s os e s' o : loops_inv s os -> aserver_step s e = Ret (s', o) -> loops_inv s' (os ++ o).
Proof.
  intros [L1 L2 L3 L4] E. destruct e as [| | |c ok|c]; cbn [aserver_step] in E.
  - injection E as <- <-. unfold start_accept. destruct (as_shutdown s) eqn:SH.
    + rewrite app_nil_r. constructor; [rewrite SH; exact L1|assumption|assumption|congruence].
    + constructor; cbn [apost as_shutdown as_pending as_next as_queue].
      * rewrite SH. rewrite not_shut_out; [exact L1|]. intros x [<-|[]]. discriminate.
      * assumption.
      * assumption.
      * intros _. specialize (L4 eq_refl). rewrite sa_app. unfold accept_errors, loops_started in *. rewrite !count_app. cbn. lia.
  - injection E as <- <-. rewrite app_nil_r. constructor; cbn [apost as_shutdown as_pending as_next as_queue]; try assumption.
    intros SH. specialize (L4 SH). rewrite sa_app. cbn. lia.
  - destruct (as_queue s) as [|[| |c] q] eqn:Q.
    + injection E as <- <-. rewrite app_nil_r. constructor; try assumption. rewrite Q. exact L4.
    + unfold do_accept in E. afields. destruct (as_shutdown s) eqn:SH; injection E as <- <-.
      * rewrite app_nil_r. constructor; afields; try rewrite SH; try assumption. intros X. congruence.
      * constructor; afields; try rewrite SH.
        -- rewrite not_shut_out; [exact L1|]. intros x [<-|[]]. discriminate.
        -- apply nodup_add; [assumption|]. intros I. apply L3 in I. lia.
        -- intros c I. apply in_app_or in I. destruct I as [I|[<-|[]]]; [apply L3 in I|]; lia.
        -- intros _. specialize (L4 eq_refl). unfold accept_errors, loops_started in *. rewrite !count_app, app_length.
           change (sa (StartAccept :: q)) with (S (sa q)) in L4. cbn. lia.
    + unfold do_shutdown in E. injection E as <- <-. constructor; cbn [apost as_shutdown as_pending as_next as_queue] in *; try assumption.
      * split; [intros _; apply in_or_app; right; left; reflexivity|reflexivity].
      * discriminate.
    + unfold do_close in E. afields. destruct (member c (as_open s)).
      * destruct (remove_connection _ c) as [s1 o1] eqn:RC. injection E as <- <-.
        apply remove_connection_spec in RC. afields. destruct RC as (R1 & R2 & R3 & R4 & R5).
        constructor; rewrite ?R1, ?R2, ?R3, ?R4.
        -- rewrite not_shut_out; [exact L1|]. intros x [<-|I]; [discriminate|]. destruct R5 as [-> | ->]; [destruct I|destruct I as [<-|[]]; discriminate].
        -- assumption.
        -- assumption.
        -- intros SH. specialize (L4 SH). change (sa (Close c :: q)) with (sa q) in L4. unfold accept_errors, loops_started in *. rewrite !count_app.
           destruct R5 as [-> | ->]; cbn; lia.
      * injection E as <- <-. rewrite app_nil_r. constructor; afields; assumption.
  - destruct (member c (as_pending s)) eqn:M; [|injection E as <- <-; rewrite app_nil_r; constructor; assumption].
    apply member_in in M. pose proof (delete_length c _ L2 M) as DL. unfold handle_accept in E. afields.
    destruct (as_shutdown s) eqn:SH.
    + injection E as <- <-. rewrite app_nil_r. constructor; afields; try rewrite SH; try assumption; [apply delete_nodup; assumption| |congruence].
      intros d I. apply in_delete in I. apply L3. tauto.
    + destruct ok; cbn [negb] in E.
      * match type of E with obind ?e _ = _ => destruct e as [[s1 o1]|] eqn:X; [|discriminate] end. cbn [obind] in E. injection E as <- <-.
        assert (Y : as_shutdown s1 = false /\ as_pending s1 = delete c (as_pending s) /\ as_next s1 = as_next s /\ sa (as_queue s1) = sa (as_queue s) /\
          (forall x, In x o1 -> exists d, x = Removed d)).
        { destruct (as_max s <? _).
          - destruct (as_list s) as [|d l]; [discriminate|]. injection X as X.
            apply remove_connection_spec in X. afields. destruct X as (R1 & R2 & R3 & R4 & R5).
            rewrite R1, R2, R3, R4. repeat (split; [assumption || reflexivity|]). intros x I. destruct R5 as [-> | ->]; [destruct I|].
            destruct I as [<-|[]]. exists d. reflexivity.
          - injection X as <- <-. afields. repeat (split; [assumption || reflexivity|]). intros x []. }
        destruct Y as (Y1 & Y2 & Y3 & Y4 & Y5). unfold start_accept. afields. rewrite Y1.
        constructor; cbn [apost as_shutdown as_pending as_next as_queue]; rewrite ?Y1, ?Y2, ?Y3.
        -- rewrite not_shut_out; [exact L1|]. intros x [<-|I]; [discriminate|]. apply in_app_or in I. destruct I as [I|[<-|[]]]; [|discriminate].
           destruct (Y5 _ I) as [d ->]. discriminate.
        -- apply delete_nodup; assumption.
        -- intros d I. apply in_delete in I. apply L3. tauto.
        -- intros _. specialize (L4 eq_refl). rewrite sa_app, Y4. unfold accept_errors, loops_started in *. rewrite !count_app.
           assert (Z : forall p, (forall x, In x o1 -> p x = false) -> count p o1 = 0%nat).
           { clear. intros p H. unfold count. induction o1 as [|x o1 IH]; [reflexivity|]. cbn [filter]. rewrite (H x (or_introl eq_refl)). apply IH.
             intros y I. apply H. right. exact I. }
           change (Accepted c :: o1 ++ [Serving c]) with ([Accepted c] ++ o1 ++ [Serving c]). rewrite !count_app.
           rewrite !(Z _); [cbn; lia|intros x I; destruct (Y5 _ I) as [d ->]; reflexivity|intros x I; destruct (Y5 _ I) as [d ->]; reflexivity].
      * destruct (remove_connection _ c) as [s1 o1] eqn:RC. injection E as <- <-.
        apply remove_connection_spec in RC. afields. destruct RC as (R1 & R2 & R3 & R4 & R5).
        constructor; rewrite ?R1, ?R2, ?R3, ?R4, ?SH.
        -- rewrite not_shut_out; [exact L1|]. intros x [<-|I]; [discriminate|]. destruct R5 as [-> | ->]; [destruct I|destruct I as [<-|[]]; discriminate].
        -- apply delete_nodup; assumption.
        -- intros d I. apply in_delete in I. apply L3. tauto.
        -- intros _. specialize (L4 eq_refl). unfold accept_errors, loops_started in *. rewrite !count_app.
           destruct R5 as [-> | ->]; cbn; lia.
  - destruct (member c (as_active s)); [|injection E as <- <-; rewrite app_nil_r; constructor; assumption].
    unfold connection_error in E. destruct (remove_connection _ c) as [s1 o1] eqn:RC. injection E as <- <-.
    apply remove_connection_spec in RC. cbn [apost as_shutdown as_pending as_next as_queue] in RC. destruct RC as (R1 & R2 & R3 & R4 & R5).
    rewrite sa_app in R4. change (sa [Close c]) with 0%nat in R4.
    constructor; rewrite ?R1, ?R2, ?R3, ?R4; try assumption.
    + rewrite not_shut_out; [exact L1|]. intros x I. destruct R5 as [-> | ->]; [destruct I|destruct I as [<-|[]]; discriminate].
    + intros SH. specialize (L4 SH). unfold accept_errors, loops_started in *. rewrite !count_app. destruct R5 as [-> | ->]; cbn; lia.
Qed.

Lemma serves_loops max es s os : serves max es s os -> loops_inv s os.
Proof.
  apply (serves_ind max (fun es s os => loops_inv s os)).
  - constructor; cbn; try constructor; try contradiction; try discriminate; intros; reflexivity.
  - intros. eapply loops_step; eassumption.
Qed.
