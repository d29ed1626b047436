(** What the environment provides reaches the channel and the connection. *)
From Verif Require Import Prelude Ser4 Messages Mbap SpecPdu SpecMbap Client SpecClient AsyncWrite ClientConn SpecConn ClientTcp SpecClientTcp TcpFacts.
From Coq Require Import Lia.

Definition padded (n : nat) (xs : list setup) : list setup := firstn n (xs ++ repeat all_succeed n).

Lemma padded_cons n xs : padded (S n) xs = next_setup xs :: padded n (tl xs).
Proof.
  unfold padded. destruct xs as [|x xs]; [reflexivity|]. cbn [app firstn tl next_setup]. f_equal.
  replace (S n) with (n + 1)%nat by lia. rewrite repeat_app, app_assoc. rewrite firstn_app.
  replace (n - List.length (xs ++ repeat all_succeed n))%nat with O by (rewrite app_length, repeat_length; lia).
  cbn [firstn]. apply app_nil_r.
Qed.

Lemma used_app a b : used_setups (a ++ b) = used_setups a ++ used_setups b.
Proof. apply flat_map_app. Qed.
Lemma used_out o : used_setups (map ConnOut o) = [].
Proof. induction o; [reflexivity|exact IHo]. Qed.
Lemma texts_app a b : error_texts (a ++ b) = error_texts a ++ error_texts b.
Proof. apply flat_map_app. Qed.
Lemma texts_out o : error_texts (map ConnOut o) = [].
Proof. induction o; [reflexivity|exact IHo]. Qed.

Lemma to_conn_used : forall os c xs c' l, to_conn c os xs = Ret (c', l) ->
  used_setups l = padded (List.length (used_setups l)) xs /\ error_texts l = [].
Proof.
  induction os as [|o os IH]; intros c xs c' l E; cbn [to_conn] in E.
  - injection E as <- <-. split; reflexivity.
  - assert (Hother : forall o, (let! (c, l) := to_conn c os xs in Ret (c, ChannelOut o :: l)) = Ret (c', l) ->
      used_setups l = padded (List.length (used_setups l)) xs /\ error_texts l = []).
    { intros o' E'. destruct (to_conn c os xs) as [[c1 l1]|] eqn:E1; cbn [obind] in E'; [|discriminate]. injection E' as <- <-. exact (IH _ _ _ _ E1). }
    destruct o as [i k|i u t f|i t d|i y|]; try exact (Hother _ E).
    + destruct (conn_step c (NSend (frame_data f) (next_setup xs))) as [[c1 o1]|]; cbn [obind] in E; [|discriminate].
      destruct (to_conn c1 os (tl xs)) as [[c2 l2]|] eqn:E2; cbn [obind] in E; [|discriminate]. injection E as <- <-.
      destruct (IH _ _ _ _ E2) as [A B]. split.
      * change (used_setups (ChannelOut (Sent i u t f) :: ConnIn (NSend (frame_data f) (next_setup xs)) :: map ConnOut o1 ++ l2))
          with (next_setup xs :: used_setups (map ConnOut o1 ++ l2)). rewrite used_app, used_out. cbn [app List.length].
        rewrite padded_cons. f_equal. exact A.
      * change (error_texts (map ConnOut o1 ++ l2) = []). rewrite texts_app, texts_out. exact B.
    + destruct (conn_step c NShutdown) as [[c1 o1]|]; cbn [obind] in E; [|discriminate].
      destruct (to_conn c1 os xs) as [[c2 l2]|] eqn:E2; cbn [obind] in E; [|discriminate]. injection E as <- <-.
      destruct (IH _ _ _ _ E2) as [A B]. split.
      * change (used_setups (map ConnOut o1 ++ l2) = padded (List.length (used_setups (map ConnOut o1 ++ l2))) xs).
        rewrite used_app, used_out. exact A.
      * change (error_texts (map ConnOut o1 ++ l2) = []). rewrite texts_app, texts_out. exact B.
Qed.

Section Results.
Context {W : Type}.
Context (handler : nat -> W -> expected (list N) -> W * list capi).
Context (pol : copy_policy).

Lemma channel_turn_used s order e xs s' l : channel_turn handler pol s order e xs = Ret (s', l) ->
  used_setups l = padded (List.length (used_setups l)) xs /\
  error_texts l = match e with CError msg => [msg] | _ => [] end /\ exists l', l = ChannelIn e :: l'.
Proof.
  unfold channel_turn. destruct (client_step handler pol (tc_channel s) (tc_user s) e) as [[[ch w] os]|]; cbn [obind]; [|discriminate].
  destruct (to_conn (tc_conn s) os xs) as [[c l1]|] eqn:E; cbn [obind]; [|discriminate]. intros H. injection H as <- <-.
  destruct (to_conn_used _ _ _ _ _ E) as [A B]. split; [exact A|]. split; [|eauto].
  destruct e; cbn; fold (error_texts l1); rewrite B; reflexivity.
Qed.

Lemma callbacks_calm os : forall s msg xs s' l, Forall calm_out os -> callbacks handler pol s os msg xs = Ret (s', l) -> l = map ConnOut os.
Proof.
  induction os as [|o os IH]; intros s msg xs s' l H E; cbn [callbacks] in E; [injection E as <- <-; reflexivity|].
  inversion H as [|? ? H1 H2]; subst. destruct o; try destruct H1; cbn [obind] in E;
    (destruct (callbacks handler pol s os msg xs) as [[s1 l1]|] eqn:E1; cbn [obind] in E; [|discriminate]; injection E as <- <-;
     cbn [map app]; f_equal; exact (IH _ _ _ _ _ H2 E1)).
Qed.

Lemma callbacks_one os cb : forall s msg xs s' l, Forall calm_out os -> callbacks handler pol s (os ++ [cb]) msg xs = Ret (s', l) ->
  used_setups l = padded (List.length (used_setups l)) xs /\ incl (error_texts l) [msg].
Proof.
  induction os as [|o os IH]; intros s msg xs s' l H E; cbn [callbacks app] in E.
  - assert (Hc : forall e, (let! (s, l) := channel_turn handler pol s (tc_order s) e xs in let! (s, l') := Ret (s, []) in Ret (s, ConnOut cb :: l ++ l')) = Ret (s', l) ->
      (e = CError msg \/ forall m, e <> CError m) -> used_setups l = padded (List.length (used_setups l)) xs /\ incl (error_texts l) [msg]).
    { intros e E' He. destruct (channel_turn handler pol s (tc_order s) e xs) as [[s1 l1]|] eqn:E1; cbn [obind] in E'; [|discriminate].
      injection E' as <- <-. destruct (channel_turn_used _ _ _ _ _ _ E1) as (A & B & _). rewrite app_nil_r. split; [exact A|].
      change (incl (error_texts l1) [msg]). rewrite B. destruct He as [->|He]; [apply incl_refl|]. destruct e; try (intros x []; fail). destruct (He _ eq_refl). }
    destruct cb; try (cbn [obind] in E; injection E as <- <-; split; [reflexivity|intros y []]; fail).
    + apply (Hc _ E). right. discriminate.
    + apply (Hc _ E). left. reflexivity.
  - inversion H as [|? ? H1 H2]; subst. destruct o; try destruct H1; cbn [obind] in E;
    (destruct (callbacks handler pol s (os ++ [cb]) msg xs) as [[s1 l1]|] eqn:E1; cbn [obind] in E; [|discriminate]; injection E as <- <-;
     exact (IH _ _ _ _ _ H2 E1)).
Qed.

Lemma conn_turn_used s order e msg xs s' l : (forall d x, e <> NSend d x) -> conn_turn handler pol s order e msg xs = Ret (s', l) ->
  used_setups l = padded (List.length (used_setups l)) xs /\ incl (error_texts l) [msg] /\ exists l', l = ConnIn e :: l'.
Proof.
  intros He. unfold conn_turn. destruct (conn_step (tc_conn s) e) as [[c os]|] eqn:E; cbn [obind]; [|discriminate].
  match goal with |- context [callbacks handler pol ?a os msg xs] => set (s1 := a) end.
  destruct (callbacks handler pol s1 os msg xs) as [[s2 l2]|] eqn:E2; cbn [obind]; [|discriminate]. intros H. injection H as <- <-.
  assert (K : used_setups l2 = padded (List.length (used_setups l2)) xs /\ incl (error_texts l2) [msg]).
  { destruct (callback_last _ _ _ _ E) as [Hc|(o1 & cb & -> & Hc & _)].
    - rewrite (callbacks_calm _ _ _ _ _ _ Hc E2), used_out, texts_out. split; [reflexivity|intros y []].
    - exact (callbacks_one _ _ _ _ _ _ _ Hc E2). }
  destruct K as [A B]. split; [|split; [|eauto]].
  - destruct e; try exact A. destruct (He _ _ eq_refl).
  - destruct e; exact B.
Qed.

Lemma run_used s order s' l : conn_turn handler pol s order NRun "" [] = Ret (s', l) -> used_setups l = [] /\ error_texts l = [] /\ exists l', l = ConnIn NRun :: l'.
Proof.
  unfold conn_turn. destruct (conn_step (tc_conn s) NRun) as [[c os]|] eqn:E; cbn [obind]; [|discriminate].
  match goal with |- context [callbacks handler pol ?a os "" []] => set (s1 := a) end.
  destruct (callbacks handler pol s1 os "" []) as [[s2 l2]|] eqn:E2; cbn [obind]; [|discriminate]. intros H. injection H as <- <-.
  assert (Hc : Forall calm_out os).
  { cbn [conn_step] in E. destruct (cn_queue (tc_conn s)) as [|[|] q]; [injection E as <- <-; constructor| |]; apply ret_inj in E.
    - unfold do_close in E. destruct (cn_shutdown _); [injection E as <- <-; constructor|].
      cbv zeta in E. destruct (cn_socket _); injection E as <- <-; repeat constructor.
    - injection E as <- <-. constructor. }
  rewrite (callbacks_calm _ _ _ _ _ _ Hc E2). split; [exact (used_out os)|]. split; [exact (texts_out os)|eauto].
Qed.

Lemma step_given s e s' l : tcp_step handler pol s e = Ret (s', l) ->
  used_setups l = firstn (List.length (used_setups l)) (given_setups e ++ repeat all_succeed (List.length (used_setups l))) /\
  incl (error_texts l) [given_text e] /\
  (l = [] /\ (exists xs, e = TRun xs) /\ tc_order s = [] \/ exists m l', l = m :: l' /\ happens e m).
Proof.
  assert (Hch : forall order c xs, (forall m, c <> CError m) -> channel_turn handler pol s order c xs = Ret (s', l) ->
    used_setups l = padded (List.length (used_setups l)) xs /\ incl (error_texts l) [given_text e] /\ exists l', l = ChannelIn c :: l').
  { intros order c xs Hc E. destruct (channel_turn_used _ _ _ _ _ _ E) as (A & B & C). split; [exact A|]. split; [|exact C].
    rewrite B. destruct c; try (intros x []; fail). destruct (Hc _ eq_refl). }
  intros E. destruct e as [a|xs|t|t xs|ok m|g ok m|r x m xs|w n|w ok m]; cbn [tcp_step] in E.
  - apply Hch in E; [|discriminate]. destruct E as (A & B & l' & C). split; [exact A|]. split; [exact B|]. right. do 2 eexists. split; [exact C|reflexivity].
  - destruct (tc_order s) as [|[|] q] eqn:Eq.
    + injection E as <- <-. split; [reflexivity|]. split; [intros x []|]. left. eauto.
    + apply Hch in E; [|discriminate]. destruct E as (A & B & l' & C). split; [exact A|]. split; [exact B|]. right. do 2 eexists. split; [exact C|left; reflexivity].
    + apply run_used in E. destruct E as (A & B & l' & C). rewrite A, B. split; [reflexivity|]. split; [intros x []|]. right. do 2 eexists. split; [exact C|right; reflexivity].
  - apply Hch in E; [|discriminate]. destruct E as (A & B & l' & C). split; [exact A|]. split; [exact B|]. right. do 2 eexists. split; [exact C|reflexivity].
  - apply Hch in E; [|discriminate]. destruct E as (A & B & l' & C). split; [exact A|]. split; [exact B|]. right. do 2 eexists. split; [exact C|reflexivity].
  - apply conn_turn_used in E; [|discriminate]. destruct E as (A & B & l' & C). split; [exact A|]. split; [exact B|]. right. do 2 eexists. split; [exact C|reflexivity].
  - apply conn_turn_used in E; [|discriminate]. destruct E as (A & B & l' & C). split; [exact A|]. split; [exact B|]. right. do 2 eexists. split; [exact C|reflexivity].
  - apply conn_turn_used in E; [|discriminate]. destruct E as (A & B & l' & C). split; [exact A|]. split; [exact B|]. right. do 2 eexists. split; [exact C|reflexivity].
  - apply conn_turn_used in E; [|discriminate]. destruct E as (A & B & l' & C). split; [exact A|]. split; [exact B|]. right. do 2 eexists. split; [exact C|reflexivity].
  - apply conn_turn_used in E; [|discriminate]. destruct E as (A & B & l' & C). split; [exact A|]. split; [exact B|]. right. do 2 eexists. split; [exact C|reflexivity].
Qed.
End Results.
