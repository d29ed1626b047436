(** Consequences of the invariants of the accepting server. *)
From Verif Require Import Prelude Tac Listener SpecListener ListenerFacts ListenerOnce.

Definition accepting_step (l : list nat) (o : aoutput) : list nat :=
  match o with Accepting c => l ++ [c] | Accepted c | AcceptFailed c => delete c l | _ => l end.

Lemma accepting_app os o : accepting (os ++ o) = fold_left accepting_step o (accepting os).
Proof. unfold accepting. rewrite fold_left_app. reflexivity. Qed.

(** What each step puts out. *)
Inductive step_out (s : aserver) : aevent -> aserver -> list aoutput -> Prop :=
| so_listen s' : as_shutdown s = false -> s' = start_accept s -> step_out s AStart s' [Listening]
| so_nothing e s' : as_pending s' = as_pending s \/ as_shutdown s' = true -> as_shutdown s' = as_shutdown s -> step_out s e s' []
| so_accepting s' : as_shutdown s = false -> as_shutdown s' = false -> as_pending s' = as_pending s ++ [as_next s] -> step_out s ARun s' [Accepting (as_next s)]
| so_shutdown s' : as_shutdown s' = true -> In Shutdown (as_queue s) -> step_out s ARun s' [ShutDown]
| so_closed c s' : In (Close c) (as_queue s) -> as_pending s' = as_pending s -> as_shutdown s' = as_shutdown s -> step_out s ARun s' [Closed c]
| so_closed_removed c s' : In (Close c) (as_queue s) -> In c (as_list s) -> as_pending s' = as_pending s -> as_shutdown s' = as_shutdown s -> step_out s ARun s' [Closed c; Removed c]
| so_failed c s' o : In c (as_pending s) -> as_shutdown s = false -> as_shutdown s' = false -> as_pending s' = delete c (as_pending s) ->
    o = (if member c (as_list s) then [Removed c] else []) -> step_out s (AAccept c false) s' (AcceptFailed c :: o)
| so_room c s' : In c (as_pending s) -> as_shutdown s = false -> as_shutdown s' = false -> as_pending s' = delete c (as_pending s) ->
    uint32 (as_num s + 1) <= as_max s -> step_out s (AAccept c true) s' [Accepted c; Serving c]
| so_full c d l s' : In c (as_pending s) -> as_shutdown s = false -> as_shutdown s' = false -> as_pending s' = delete c (as_pending s) ->
    as_max s < uint32 (as_num s + 1) -> as_list s = d :: l -> step_out s (AAccept c true) s' [Accepted c; Removed d; Serving c]
| so_error c s' : In c (as_active s) -> In c (as_list s) -> as_pending s' = as_pending s -> as_shutdown s' = as_shutdown s -> step_out s (AFail c) s' [Removed c].

Lemma step_outputs s e s' o : aserver_step s e = Ret (s', o) -> step_out s e s' o.
Proof.
  intros E. destruct e as [| | |c ok|c]; cbn [aserver_step] in E.
  - injection E as <- <-. unfold start_accept. destruct (as_shutdown s) eqn:SH.
    + apply so_nothing; [left|]; reflexivity.
    + apply so_listen; [exact SH|unfold start_accept; rewrite SH; reflexivity].
  - injection E as <- <-. apply so_nothing; [left|]; reflexivity.
  - destruct (as_queue s) as [|a q] eqn:Q; [injection E as <- <-; apply so_nothing; [left|]; reflexivity|].
    destruct a as [| |c].
    + unfold do_accept in E. afields. destruct (as_shutdown s) eqn:SH; injection E as <- <-; afields.
      * apply so_nothing; afields; [left; reflexivity|congruence].
      * apply so_accepting; afields; congruence.
    + injection E as <- <-. apply so_shutdown; [reflexivity|rewrite Q; left; reflexivity].
    + unfold do_close, remove_connection in E. afields. destruct (member c (as_open s)).
      * destruct (member c (as_list s)) eqn:M; injection E as <- <-.
        -- apply so_closed_removed; [rewrite Q; left; reflexivity|apply member_in; exact M|reflexivity|reflexivity].
        -- apply so_closed; [rewrite Q; left; reflexivity|reflexivity|reflexivity].
      * injection E as <- <-. apply so_nothing; [left|]; reflexivity.
  - destruct (member c (as_pending s)) eqn:M; [|injection E as <- <-; apply so_nothing; [left|]; reflexivity].
    apply member_in in M. unfold handle_accept in E. afields. destruct (as_shutdown s) eqn:SH.
    + injection E as <- <-. apply so_nothing; afields; [right|]; congruence.
    + destruct ok; cbn [negb] in E.
      * destruct (as_max s <? uint32 (as_num s + 1)) eqn:CMP.
        -- destruct (as_list s) as [|d l] eqn:LE; [discriminate|].
           destruct (remove_connection _ d) as [s1 o1] eqn:RC. cbn [obind] in E. injection E as <- <-.
           pose proof (remove_connection_spec _ _ _ _ RC) as (R1 & R2 & R3 & _). unfold remove_connection in RC. afields. rewrite ?LE in RC.
           assert (MD : member d (d :: l) = true) by (apply member_in; left; reflexivity). rewrite MD in RC. injection RC as _ <-.
           unfold start_accept. afields. rewrite R1. afields.
           apply so_full with (l := l); afields; try assumption; try reflexivity; apply N.ltb_lt; exact CMP.
        -- cbn [obind] in E. injection E as <- <-. unfold start_accept. afields.
           apply so_room; afields; try assumption; try reflexivity; apply N.ltb_ge; exact CMP.
      * destruct (remove_connection _ c) as [s1 o1] eqn:RC. injection E as <- <-.
        pose proof (remove_connection_spec _ _ _ _ RC) as (R1 & R2 & R3 & _). afields.
        unfold remove_connection in RC. afields.
        apply so_failed; try congruence. destruct (member c (as_list s)); injection RC as _ <-; reflexivity.
  - destruct (member c (as_active s)) eqn:M; [injection E as E|injection E as <- <-; apply so_nothing; [left|]; reflexivity].
    unfold connection_error, remove_connection in E. afields. destruct (member c (as_list s)) eqn:ML; injection E as <- <-.
    + apply so_error; [apply member_in; exact M|apply member_in; exact ML|reflexivity|reflexivity].
    + apply so_nothing; [left|]; reflexivity.
Qed.

Lemma pending_accepting max es s os : serves max es s os -> as_shutdown s = false -> as_pending s = accepting os.
Proof.
  apply (serves_ind max (fun es s os => as_shutdown s = false -> as_pending s = accepting os)); [reflexivity|].
  clear. intros es e s os s' o H IH E SH. pose proof (step_outputs _ _ _ _ E) as S. rewrite accepting_app.
  inversion S; subst; cbn [fold_left accepting_step].
  - rewrite <- IH by assumption. unfold start_accept. rewrite H0. reflexivity.
  - destruct H0 as [X|X]; [rewrite X; apply IH; congruence|congruence].
  - rewrite <- IH by assumption. assumption.
  - congruence.
  - rewrite <- IH by congruence. assumption.
  - rewrite <- IH by congruence. assumption.
  - rewrite <- IH by assumption. destruct (member c (as_list s)); cbn [fold_left accepting_step]; assumption.
  - rewrite <- IH by assumption. assumption.
  - rewrite <- IH by assumption. assumption.
  - rewrite <- IH by congruence. assumption.
Qed.

(** Splitting a history at one of its outputs. *)
Lemma output_at max es s os : serves max es s os -> forall a x b, os = a ++ x :: b ->
  exists es1 e es2 s1 o1 s2 o p q r,
    es = es1 ++ e :: es2 /\ serves max es1 s1 o1 /\ aserver_step s1 e = Ret (s2, o) /\
    o = p ++ x :: q /\ a = o1 ++ p /\ b = q ++ r.
Proof.
  apply (serves_ind max (fun es s os => forall a x b, os = a ++ x :: b ->
    exists es1 e es2 s1 o1 s2 o p q r,
    es = es1 ++ e :: es2 /\ serves max es1 s1 o1 /\ aserver_step s1 e = Ret (s2, o) /\
    o = p ++ x :: q /\ a = o1 ++ p /\ b = q ++ r)).
  - intros a x b X. destruct a; discriminate.
  - clear. intros es e s os s' o H IH E a x b X.
    assert (C : (exists b', os = a ++ x :: b' /\ b = b' ++ o) \/ exists p, a = os ++ p /\ o = p ++ x :: b).
    { clear - X. revert os X. induction a as [|y a IHa]; intros os X.
      - destruct os as [|z os]; [right; exists []; split; [reflexivity|exact X]|].
        injection X as <- <-. left. exists os. split; reflexivity.
      - destruct os as [|z os]; [right; exists (y :: a); split; [reflexivity|exact X]|].
        injection X as <- X. destruct (IHa _ X) as [(b' & -> & ->)|(p & -> & ->)]; [left; exists b'; split; reflexivity|right; exists p; split; reflexivity]. }
    destruct C as [(b' & OS & B)|(p & A & O)].
    + destruct (IH _ _ _ OS) as (es1 & f & es2 & s1 & o1 & s2 & o2 & p & q & r & H1 & H2 & H3 & H4 & H5 & H6).
      exists es1, f, (es2 ++ [e]), s1, o1, s2, o2, p, q, (r ++ o). repeat (split; [assumption || (subst; rewrite <- !app_assoc; reflexivity)|]).
      subst. rewrite app_assoc. reflexivity.
    + exists es, e, [], s, os, s', o, p, b, []. rewrite app_nil_r. repeat (split; [assumption || reflexivity|]). reflexivity.
Qed.

Lemma starts_prefix es1 es2 : (starts_of (es1 ++ es2) = starts_of es1 + starts_of es2)%nat.
Proof. unfold starts_of. rewrite filter_app, app_length. reflexivity. Qed.

Lemma within_limit max es s os :
  serves max es s os -> (starts_of es <= 1)%nat -> max < 2 ^ 32 - 1 -> N.of_nat (List.length (live os)) <= max.
Proof. intros H ST MX. exact (o_limit _ _ _ (serves_once _ _ _ _ H ST MX)). Qed.

Lemma live_length_num max s os :
  once_inv max s os -> as_shutdown s = false -> accept_errors os = 0%nat -> max < 2 ^ 32 - 1 ->
  as_num s = N.of_nat (List.length (live os)).
Proof.
  intros O SH AE MX. rewrite (o_num _ _ _ O SH), AE. change (N.of_nat 0) with 0. rewrite N.sub_0_r. pose proof (o_limit _ _ _ O).
  unfold uint32. replace (N.of_nat (List.length (live os)) + 2 ^ 32) with (N.of_nat (List.length (live os)) + 1 * 2 ^ 32) by lia.
  rewrite N.mod_add by discriminate. apply N.mod_small. change (2 ^ 32) with 4294967296 in *. lia.
Qed.

Lemma pending_no_errors s os c : loops_inv s os -> (loops_started os <= 1)%nat -> as_shutdown s = false -> In c (as_pending s) ->
  accept_errors os = 0%nat /\ as_pending s = [c].
Proof.
  intros L L1 SH M. pose proof (l_count _ _ L SH) as LC.
  destruct (as_pending s) as [|x [|y l]]; [destruct M|destruct M as [->|[]]; cbn [List.length] in LC; split; [lia|reflexivity]|cbn [List.length] in LC; lia].
Qed.

Lemma accept_outputs max es s a c b :
  serves max es s (a ++ Accepted c :: b) -> (starts_of es <= 1)%nat -> max < 2 ^ 32 - 1 ->
  (N.of_nat (List.length (live a)) < max /\ exists b', b = Serving c :: b') \/
  (N.of_nat (List.length (live a)) = max /\
   exists d rest b', live a ++ [c] = d :: rest /\ b = Removed d :: Serving c :: b').
Proof.
  intros H ST MX. destruct (output_at _ _ _ _ H _ _ _ eq_refl) as (es1 & e & es2 & s1 & o1 & s2 & o & p & q & r & -> & H1 & E & EO & -> & ->).
  rewrite starts_prefix in ST. assert (ST1 : (starts_of es1 <= 1)%nat) by lia.
  pose proof (serves_once _ _ _ _ H1 ST1 MX) as O. pose proof (serves_loops _ _ _ _ H1) as L.
  pose proof (loops_bounded _ _ _ _ H1) as LB. assert (LB1 : (loops_started o1 <= 1)%nat) by lia.
  pose proof (step_outputs _ _ _ _ E) as SO. revert EO. clear E. destruct SO as [s0 A B|e0 s0 A B|s0 A B C|s0 A B|c0 s0 A B C|c0 s0 IQ IL PE SH|c0 s0 o0 IP SH SH' PE OE|c0 s0 IP SH SH' PE NM|c0 d l s0 IP SH SH' PE NM LE|c0 s0 IA IL PE SH]; intros X.
  1-6: repeat (destruct p as [|? p]; cbn [app] in *; try discriminate).
  1: { subst o0. destruct (member c0 (as_list s1)); repeat (destruct p as [|? p]; cbn [app] in *; try discriminate). }
  3: { repeat (destruct p as [|? p]; cbn [app] in *; try discriminate). }
  - destruct p as [|? p]; cbn [app] in X; [|repeat (destruct p as [|? p]; cbn [app] in *; try discriminate)]. injection X as -> <-. rewrite app_nil_r.
    destruct (pending_no_errors _ _ _ L LB1 SH IP) as [AE _]. pose proof (live_length_num _ _ _ O SH AE MX) as NUM.
    pose proof (o_limit _ _ _ O). left. rewrite (o_max _ _ _ O), NUM, uint32_small in NM by (change (2 ^ 32) with 4294967296 in *; lia).
    split; [lia|]. exists r. reflexivity.
  - destruct p as [|? p]; cbn [app] in X; [|repeat (destruct p as [|? p]; cbn [app] in *; try discriminate)]. injection X as -> <-. rewrite app_nil_r.
    destruct (pending_no_errors _ _ _ L LB1 SH IP) as [AE PE0]. pose proof (live_length_num _ _ _ O SH AE MX) as NUM.
    pose proof (o_limit _ _ _ O). right. rewrite (o_max _ _ _ O), NUM, uint32_small in NM by (change (2 ^ 32) with 4294967296 in *; lia).
    split; [lia|]. exists d, l, r. split; [|reflexivity]. rewrite <- LE, (o_list _ _ _ O SH), PE0. reflexivity.
Qed.

(** Where a removal comes from. *)
Lemma removal_outputs max es s a d b :
  serves max es s (a ++ Removed d :: b) -> (starts_of es <= 1)%nat -> max < 2 ^ 32 - 1 ->
  (exists a' c rest, a = a' ++ [Accepted c] /\ N.of_nat (List.length (live a')) = max /\ live a' ++ [c] = d :: rest) \/
  (exists a', a = a' ++ [AcceptFailed d]) \/
  (exists es1 es2 s1, es = es1 ++ AFail d :: es2 /\ serves max es1 s1 a /\ In d (live a)).
Proof.
  intros H ST MX. destruct (output_at _ _ _ _ H _ _ _ eq_refl) as (es1 & e & es2 & s1 & o1 & s2 & o & p & q & r & ES & H1 & E & EO & -> & ->).
  assert (ST1 : (starts_of es1 <= 1)%nat) by (rewrite ES, starts_prefix in ST; lia).
  pose proof (serves_once _ _ _ _ H1 ST1 MX) as O. pose proof (serves_loops _ _ _ _ H1) as L.
  pose proof (loops_bounded _ _ _ _ H1) as LB. assert (LB1 : (loops_started o1 <= 1)%nat) by lia.
  pose proof (step_outputs _ _ _ _ E) as SO. revert EO ES. clear E H. destruct SO as [s0 A B|e0 s0 A B|s0 A B C|s0 A B|c0 s0 A B C|c0 s0 IQ IL PE SH|c0 s0 o0 IP SH SH' PE OE|c0 s0 IP SH SH' PE NM|c0 d0 l s0 IP SH SH' PE NM LE|c0 s0 IA IL PE SH]; intros X ES.
  1-5: repeat (destruct p as [|? p]; cbn [app] in *; try discriminate).
  - exfalso. exact (o_dead _ _ _ O _ IQ IL).
  - destruct p as [|x p]; cbn [app] in X; [discriminate|]. injection X as <- X. subst o0. destruct (member c0 (as_list s1)); [|destruct p; discriminate].
    destruct p as [|y p]; cbn [app] in X; [|destruct p; discriminate]. injection X as <- <-. right. left. exists o1. reflexivity.
  - repeat (destruct p as [|? p]; cbn [app] in *; try discriminate).
  - left. destruct p as [|x p]; cbn [app] in X; [discriminate|]. injection X as <- X.
    destruct p as [|y p]; cbn [app] in X; [|injection X as _ X; repeat (destruct p as [|? p]; cbn [app] in *; try discriminate)].
    injection X as -> <-. destruct (pending_no_errors _ _ _ L LB1 SH IP) as [AE PE0]. pose proof (live_length_num _ _ _ O SH AE MX) as NUM.
    pose proof (o_limit _ _ _ O). rewrite (o_max _ _ _ O), NUM, uint32_small in NM by (change (2 ^ 32) with 4294967296 in *; lia).
    exists o1, c0, l. split; [reflexivity|]. split; [lia|]. rewrite <- LE, (o_list _ _ _ O SH), PE0. reflexivity.
  - destruct p as [|x p]; cbn [app] in X; [|destruct p; discriminate]. injection X as -> <-. rewrite app_nil_r.
    right. right. exists es1, es2, s1. split; [exact ES|]. split; [exact H1|].
    assert (SF : as_shutdown s1 = false) by (destruct (as_shutdown s1) eqn:SF; [destruct (o_down _ _ _ O SF) as [Y _]; rewrite Y in IL; destruct IL|reflexivity]).
    rewrite (o_list _ _ _ O SF) in IL. apply in_app_or in IL. destruct IL as [IL|IL]; [exact IL|].
    exfalso. exact (o_accepted _ _ _ O d (or_intror IA) IL).
Qed.

Lemma shut_flag max es s os : serves max es s os -> In ShutDown os -> as_shutdown s = true.
Proof. intros H I. apply (l_shut _ _ (serves_loops _ _ _ _ H)). exact I. Qed.

Lemma not_shut_flag max es s os : serves max es s os -> ~ In ShutDown os -> as_shutdown s = false.
Proof. intros H I. destruct (as_shutdown s) eqn:SH; [|reflexivity]. exfalso. apply I. apply (l_shut _ _ (serves_loops _ _ _ _ H)). exact SH. Qed.

Lemma number_spec max es s os :
  serves max es s os -> (starts_of es <= 1)%nat -> max < 2 ^ 32 - 1 -> ~ In ShutDown os -> accept_errors os = 0%nat ->
  as_num s = N.of_nat (List.length (live os)).
Proof.
  intros H ST MX NS AE. exact (live_length_num _ _ _ (serves_once _ _ _ _ H ST MX) (not_shut_flag _ _ _ _ H NS) AE MX).
Qed.

(** Every accepted connection that is not in service any more is closed by the time
    the posted work is done. *)
Lemma closed_when_quiet max es s os :
  serves max es s os -> (starts_of es <= 1)%nat -> max < 2 ^ 32 - 1 -> as_queue s = [] ->
  forall c, In c (open_sockets os) -> In c (live os).
Proof.
  intros H ST MX Q c I. pose proof (serves_once _ _ _ _ H ST MX) as O. rewrite <- (o_open _ _ _ O) in I.
  destruct (o_closing _ _ _ O c I) as [J|J]; [|rewrite Q in J; destruct J].
  destruct (as_shutdown s) eqn:SH; [destruct (o_down _ _ _ O SH) as [X _]; rewrite X in J; destruct J|].
  rewrite (o_list _ _ _ O SH) in J. apply in_app_or in J. destruct J as [J|J]; [exact J|].
  exfalso. exact (o_accepted _ _ _ O c (or_introl I) J).
Qed.

(** Started once, the server never touches the front of an empty list. *)
Lemma no_ub max : max < 2 ^ 32 - 1 -> forall es, (starts_of es <= 1)%nat -> exists s os, serves max es s os.
Proof.
  intros MX es. induction es as [|e es IH] using rev_ind; intros ST; [exists (aserver_init max), []; reflexivity|].
  rewrite starts_prefix in ST. assert (ST1 : (starts_of es <= 1)%nat) by lia. destruct (IH ST1) as (s & os & H). clear IH.
  enough (X : exists s' o, aserver_step s e = Ret (s', o)) by (destruct X as (s' & o & X); exists s', (os ++ o); apply (serves_extend _ _ _ _ _ _ _ H X)).
  pose proof (serves_once _ _ _ _ H ST1 MX) as O.
  destruct e as [| | |c ok|c]; cbn [aserver_step].
  - do 2 eexists; reflexivity.
  - do 2 eexists; reflexivity.
  - destruct (as_queue s) as [|a q]; [do 2 eexists; reflexivity|]. destruct a.
    + destruct (do_accept _) as [s' o]. exists s', o; reflexivity.
    + do 2 eexists; reflexivity.
    + destruct (do_close _ c) as [s' o]. exists s', o; reflexivity.
  - destruct (member c (as_pending s)) eqn:M; [|do 2 eexists; reflexivity]. apply member_in in M.
    unfold handle_accept. afields. destruct (as_shutdown s) eqn:SH; [do 2 eexists; reflexivity|].
    destruct ok; cbn [negb]; [|destruct (remove_connection _ c) as [s' o]; do 2 eexists; reflexivity].
    assert (NE : as_list s <> []).
    { rewrite (o_list _ _ _ O SH). intros X. apply app_eq_nil in X. destruct X as [_ X]. rewrite X in M. destruct M. }
    destruct (as_max s <? _); [|do 2 eexists; reflexivity].
    destruct (as_list s) as [|d l]; [congruence|]. destruct (remove_connection _ d) as [s' o]. do 2 eexists; reflexivity.
  - destruct (member c (as_active s)); [|do 2 eexists; reflexivity]. destruct (connection_error s c) as [s' o]. do 2 eexists; reflexivity.
Qed.

(** Shutdown. *)
Lemma shutdown_posted max es s os : serves max es s os -> In AShutdown es -> In Shutdown (as_queue s) \/ In ShutDown os.
Proof.
  apply (serves_ind max (fun es s os => In AShutdown es -> In Shutdown (as_queue s) \/ In ShutDown os)); [intros []|].
  clear. intros es e s os s' o H IH E I.
  assert (K : In Shutdown (as_queue s) \/ In ShutDown os -> In Shutdown (as_queue s') \/ In ShutDown (os ++ o)).
  { intros [J|J]; [|right; apply in_or_app; left; exact J].
    assert (RC : forall s c s' o, remove_connection s c = (s', o) -> In Shutdown (as_queue s) -> In Shutdown (as_queue s')).
    { intros s0 c s1 o1 X Y. unfold remove_connection in X. destruct (member c (as_list s0)); injection X as <- _; [|exact Y].
      afields. apply in_or_app. left. exact Y. }
    destruct e as [| | |c ok|c]; cbn [aserver_step] in E.
    - injection E as <- <-. left. unfold start_accept. destruct (as_shutdown s); [exact J|]. afields. apply in_or_app. left. exact J.
    - injection E as <- <-. left. afields. apply in_or_app. left. exact J.
    - destruct (as_queue s) as [|a q] eqn:Q; [injection E as <- <-; left; rewrite Q; exact J|].
      destruct a as [| |c].
      + unfold do_accept in E. afields. left. destruct J as [J|J]; [discriminate|]. destruct (as_shutdown s); injection E as <- <-; afields; exact J.
      + injection E as _ <-. right. apply in_or_app. right. left. reflexivity.
      + unfold do_close in E. afields. destruct J as [J|J]; [discriminate|]. destruct (member c (as_open s)).
        * destruct (remove_connection _ c) as [s1 o1] eqn:X. injection E as <- <-. left. apply (RC _ _ _ _ X). exact J.
        * injection E as <- <-. left. exact J.
    - destruct (member c (as_pending s)); [|injection E as <- <-; left; exact J]. unfold handle_accept in E. afields.
      destruct (as_shutdown s) eqn:SH; [injection E as <- <-; left; exact J|]. destruct ok; cbn [negb] in E.
      + match type of E with obind ?e _ = _ => destruct e as [[s1 o1]|] eqn:X; [|discriminate] end. cbn [obind] in E. injection E as <- <-. left.
        assert (Y : In Shutdown (as_queue s1)).
        { destruct (as_max s <? _); [destruct (as_list s); [discriminate|injection X as X; exact (RC _ _ _ _ X J)]|injection X as <- _; exact J]. }
        unfold start_accept. afields. destruct (as_shutdown s1); afields; [exact Y|apply in_or_app; left; exact Y].
      + destruct (remove_connection _ c) as [s1 o1] eqn:X. injection E as <- <-. left. exact (RC _ _ _ _ X J).
    - destruct (member c (as_active s)); [injection E as E|injection E as <- <-; left; exact J]. left. unfold connection_error in E.
      apply (RC _ _ _ _ E). afields. apply in_or_app. left. exact J. }
  apply in_app_or in I. destruct I as [I|[->|[]]]; [exact (K (IH I))|].
  cbn [aserver_step] in E. injection E as <- <-. left. afields. apply in_or_app. right. left. reflexivity.
Qed.

(** Without further events the posted work comes to an end. *)
Definition work (s : aserver) : nat := (List.length (as_queue s) + List.length (as_list s) + sa (as_queue s))%nat.

Lemma work_step max s os s' o : once_inv max s os -> as_queue s <> [] -> aserver_step s ARun = Ret (s', o) -> (work s' < work s)%nat.
Proof.
  intros O NE E. cbn [aserver_step] in E. unfold work. destruct (as_queue s) as [|a q] eqn:Q; [congruence|]. clear NE.
  change (sa (a :: q)) with (sa ([a] ++ q)). rewrite sa_app. destruct a as [| |c].
  - unfold do_accept in E. afields. change (sa [StartAccept]) with 1%nat. cbn [List.length]. destruct (as_shutdown s); injection E as <- <-; afields; rewrite ?app_length; cbn [List.length]; lia.
  - injection E as <- <-. unfold apost. afields. change (sa [Shutdown]) with 0%nat. rewrite app_length, map_length, sa_app, sa_close. cbn [List.length]. lia.
  - change (sa [Close c]) with 0%nat. cbn [List.length]. unfold do_close, remove_connection in E. afields.
    assert (NL : ~ In c (as_list s)) by (apply (o_dead _ _ _ O); rewrite Q; left; reflexivity). apply member_notin in NL. rewrite NL in E.
    destruct (member c (as_open s)); injection E as <- <-; afields; lia.
Qed.

Lemma drain max es s os : serves max es s os -> (starts_of es <= 1)%nat -> max < 2 ^ 32 - 1 ->
  exists n s' o, aserver_run s (repeat ARun n) = Ret (s', o) /\ as_queue s' = [].
Proof.
  intros H ST MX. remember (work s) as w eqn:W. revert es s os H ST W.
  induction w as [w IH] using (well_founded_induction Wf_nat.lt_wf). intros es s os H ST W.
  destruct (as_queue s) as [|a q] eqn:Q; [exists 0%nat, s, []; split; [reflexivity|exact Q]|].
  pose proof (serves_once _ _ _ _ H ST MX) as O.
  assert (ST' : (starts_of (es ++ [ARun]) <= 1)%nat) by (rewrite starts_app; lia).
  destruct (no_ub max MX _ ST') as (s1 & os1 & H1). unfold serves in H, H1.
  destruct (arun_snoc _ _ _ _ _ H1) as (s0 & o0 & o1 & R & E & ->). rewrite H in R. injection R as <- <-.
  assert (NE : as_queue s <> []) by (rewrite Q; discriminate).
  pose proof (work_step _ _ _ _ _ O NE E) as LT.
  destruct (IH (work s1) ltac:(lia) _ _ _ H1 ST' eq_refl) as (n & s2 & o2 & R2 & Q2).
  exists (S n), s2, (o1 ++ o2). split; [|exact Q2]. cbn [repeat aserver_run]. rewrite E. cbn [obind]. rewrite R2. reflexivity.
Qed.

Lemma starts_run n : starts_of (repeat ARun n) = 0%nat.
Proof. induction n; [reflexivity|]. exact IHn. Qed.

Lemma shutdown_closes max es s os :
  serves max es s os -> (starts_of es <= 1)%nat -> max < 2 ^ 32 - 1 -> In AShutdown es ->
  exists n s' o, aserver_run s (repeat ARun n) = Ret (s', o) /\
    forall es' s'' o', starts_of es' = 0%nat -> aserver_run s' es' = Ret (s'', o') ->
      live (os ++ o ++ o') = [] /\ open_sockets (os ++ o ++ o') = [].
Proof.
  intros H ST MX I. destruct (drain _ _ _ _ H ST MX) as (n & s' & o & R & Q). exists n, s', o. split; [exact R|].
  intros es' s'' o' Z R'.
  assert (H' : serves max (es ++ repeat ARun n) s' (os ++ o)).
  { unfold serves. rewrite arun_app. unfold serves in H. rewrite H. cbn [obind]. rewrite R. reflexivity. }
  assert (ST' : (starts_of (es ++ repeat ARun n) <= 1)%nat) by (rewrite starts_prefix, starts_run; lia).
  assert (SD : In ShutDown (os ++ o)).
  { destruct (shutdown_posted _ _ _ _ H' (in_or_app _ _ _ (or_introl I))) as [J|J]; [rewrite Q in J; destruct J|exact J]. }
  assert (OP : open_sockets (os ++ o) = []).
  { destruct (open_sockets (os ++ o)) as [|c l] eqn:OP; [reflexivity|].
    assert (J : In c (live (os ++ o))) by (apply (closed_when_quiet _ _ _ _ H' ST' MX Q); rewrite OP; left; reflexivity).
    rewrite (proj2 (o_down _ _ _ (serves_once _ _ _ _ H' ST' MX) (shut_flag _ _ _ _ H' SD))) in J. destruct J. }
  assert (H'' : serves max ((es ++ repeat ARun n) ++ es') s'' ((os ++ o) ++ o')).
  { unfold serves. rewrite arun_app. unfold serves in H'. rewrite H'. cbn [obind]. rewrite R'. reflexivity. }
  assert (ST'' : (starts_of ((es ++ repeat ARun n) ++ es') <= 1)%nat) by (rewrite starts_prefix; lia).
  rewrite app_assoc. pose proof (serves_once _ _ _ _ H'' ST'' MX) as O.
  split; [apply (proj2 (o_down _ _ _ O (shut_flag _ _ _ _ H'' (in_or_app _ _ _ (or_introl SD)))))|].
  clear O H'' ST'' Z Q R ST' H ST. revert s' s'' o' R' H' OP SD. revert os o. generalize (es ++ repeat ARun n) as es0. clear.
  intros es0 os o. generalize (os ++ o) as os0. clear os o. revert es0.
  induction es' as [|e es' IH]; intros es0 os0 s' s'' o' R' H' OP SD.
  - injection R' as <- <-. rewrite app_nil_r. exact OP.
  - cbn [aserver_run] in R'. destruct (aserver_step s' e) as [[s1 o1]|] eqn:E; [|discriminate]. cbn [obind] in R'.
    destruct (aserver_run s1 es') as [[s2 o2]|] eqn:R2; [|discriminate]. cbn [obind] in R'. injection R' as <- <-.
    rewrite app_assoc. apply (IH (es0 ++ [e]) (os0 ++ o1) s1 s2 o2 R2).
    + apply (serves_extend _ _ _ _ _ _ _ H' E).
    + pose proof (step_outputs _ _ _ _ E) as SO. pose proof (shut_flag _ _ _ _ H' SD) as SH. rewrite open_app, OP.
      inversion SO; subst; try congruence; try reflexivity.
    + apply in_or_app. left. exact SD.
Qed.

(** After the shutdown nothing is accepted. *)
Lemma nothing_after_shutdown max es s a b :
  serves max es s (a ++ ShutDown :: b) -> forall c, ~ In (Accepting c) b /\ ~ In (Accepted c) b /\ ~ In (Serving c) b.
Proof.
  intros H.
  assert (X : forall x, In x b -> match x with Accepting _ | Accepted _ | Serving _ => False | _ => True end).
  { intros x I. apply in_split in I. destruct I as (b1 & b2 & ->).
    assert (H0 : serves max es s ((a ++ ShutDown :: b1) ++ x :: b2)) by (rewrite <- app_assoc; exact H).
    destruct (output_at _ _ _ _ H0 _ _ _ eq_refl) as (es1 & e & es2 & s1 & o1 & s2 & o & p & q & r & ES & H1 & E & EO & A & B).
    pose proof (step_outputs _ _ _ _ E) as SO.
    assert (C : In ShutDown o1 \/ In ShutDown p).
    { apply in_app_or. rewrite <- A. apply in_or_app. right. left. reflexivity. }
    destruct C as [C|C].
    - pose proof (shut_flag _ _ _ _ H1 C) as SH. assert (IX : In x o) by (rewrite EO; apply in_or_app; right; left; reflexivity).
      clear EO E. destruct SO; try congruence; cbn [In] in IX; intuition (subst; auto).
    - assert (IX : In ShutDown o) by (rewrite EO; apply in_or_app; left; exact C).
      revert EO. clear E. destruct SO as [s0 A1 A2|e0 s0 A1 A2|s0 A1 A2 A3|s0 A1 A2|c0 s0 A1 A2 A3|c0 s0 IQ IL PE SH|c0 s0 o0 IP SH SH' PE OE|c0 s0 IP SH SH' PE NM|c0 d l s0 IP SH SH' PE NM LE|c0 s0 IA IL PE SH];
        intros EO; cbn [In] in IX; try (exfalso; intuition discriminate).
      + exfalso. destruct p as [|y p]; [destruct C|]. cbn [app] in EO. injection EO as _ EO. destruct p; discriminate.
      + exfalso. destruct IX as [IX|IX]; [discriminate|]. subst o0. destruct (member c0 (as_list s1)); cbn [In] in IX; [destruct IX as [IX|[]]; discriminate|exact IX]. }
  intros c. split; [intros I; exact (X _ I)|]. split; intros I; exact (X _ I).
Qed.

(** The accept loop. *)
Lemma keeps_accepting max es s os :
  serves max es s os -> ~ In ShutDown os -> (accept_errors os < loops_started os)%nat ->
  accepting os <> [] \/ In StartAccept (as_queue s).
Proof.
  intros H NS LT. pose proof (not_shut_flag _ _ _ _ H NS) as SH. pose proof (l_count _ _ (serves_loops _ _ _ _ H) SH) as LC.
  rewrite (pending_accepting _ _ _ _ H SH) in LC. destruct (accepting os) as [|c l]; [right|left; discriminate].
  cbn [List.length] in LC. unfold sa in LC. destruct (filter _ (as_queue s)) as [|a q] eqn:F; [cbn [List.length] in LC; lia|].
  assert (I : In a (filter (fun a => match a with StartAccept => true | _ => false end) (as_queue s))) by (rewrite F; left; reflexivity).
  apply filter_In in I. destruct I as [I J]. destruct a; try discriminate. exact I.
Qed.

Lemma as_many_as_loops max es s os :
  serves max es s os -> ~ In ShutDown os -> (List.length (accepting os) + accept_errors os <= loops_started os)%nat.
Proof.
  intros H NS. pose proof (not_shut_flag _ _ _ _ H NS) as SH. pose proof (l_count _ _ (serves_loops _ _ _ _ H) SH) as LC.
  rewrite (pending_accepting _ _ _ _ H SH) in LC. lia.
Qed.

(** One accept error per loop and the server is deaf. *)
Lemma deaf max es s os es' s' o' :
  serves max es s os -> ~ In ShutDown os -> accept_errors os = loops_started os -> starts_of es' = 0%nat ->
  aserver_run s es' = Ret (s', o') -> forall c, ~ In (Accepting c) o' /\ ~ In (Accepted c) o'.
Proof.
  intros H NS EQ Z R.
  assert (SH : as_shutdown s = false) by exact (not_shut_flag _ _ _ _ H NS).
  assert (G : (In ShutDown os -> False) \/ True) by (right; exact I). clear G.
  assert (D : In ShutDown os \/ accept_errors os = loops_started os) by (right; exact EQ).
  clear NS EQ SH. revert es s os s' o' H D R. induction es' as [|e es' IH]; intros es s os s' o' H D R c.
  - injection R as <- <-. split; intros [].
  - cbn [aserver_run] in R. destruct (aserver_step s e) as [[s1 o1]|] eqn:E; [|discriminate]. cbn [obind] in R.
    destruct (aserver_run s1 es') as [[s2 o2]|] eqn:R2; [|discriminate]. cbn [obind] in R. injection R as <- <-.
    pose proof (serves_extend _ _ _ _ _ _ _ H E) as H'.
    assert (Z' : starts_of es' = 0%nat) by (destruct e; unfold starts_of in *; cbn [filter List.length] in Z; congruence).
    assert (NS : e <> AStart) by (intros ->; unfold starts_of in Z; discriminate).
    assert (QQ : as_shutdown s = true \/ as_shutdown s = false /\ as_pending s = [] /\ sa (as_queue s) = 0%nat).
    { destruct (as_shutdown s) eqn:SH; [left; reflexivity|right; split; [reflexivity|]]. pose proof (l_count _ _ (serves_loops _ _ _ _ H) SH) as LC.
      destruct D as [D|D]; [apply (shut_flag _ _ _ _ H) in D; congruence|]. destruct (as_pending s); cbn [List.length] in LC; [split; [reflexivity|lia]|lia]. }
    assert (O1 : forall x, In x o1 -> match x with Accepting _ | Accepted _ | AcceptFailed _ | Listening => False | _ => True end).
    { intros x IX. pose proof (step_outputs _ _ _ _ E) as SO.
      revert E NS. destruct SO as [s0 A B|e0 s0 A B|s0 A B C|s0 A B|c0 s0 A B C|c0 s0 IQ IL PE SH|c0 s0 o0 IP SH SH' PE OE|c0 s0 IP SH SH' PE NM|c0 d l s0 IP SH SH' PE NM LE|c0 s0 IA IL PE SH]; intros E NS; cbn [In] in IX; try (intuition (subst; auto); fail).
      - destruct QQ as [QQ|(QQ & QP & QS)]; [congruence|]. cbn [aserver_step] in E.
        destruct (as_queue s) as [|a q] eqn:Q; [discriminate|]. destruct a as [| |c0]; [unfold sa in QS; discriminate| |].
        + discriminate.
        + unfold do_close, remove_connection in E. afields. destruct (member c0 (as_open s)); [destruct (member c0 (as_list s))|]; discriminate.
      - destruct QQ as [QQ|(QQ & QP & QS)]; [congruence|]. rewrite QP in IP. destruct IP.
      - destruct QQ as [QQ|(QQ & QP & QS)]; [congruence|]. rewrite QP in IP. destruct IP.
      - destruct QQ as [QQ|(QQ & QP & QS)]; [congruence|]. rewrite QP in IP. destruct IP. }
    assert (D' : In ShutDown (os ++ o1) \/ accept_errors (os ++ o1) = loops_started (os ++ o1)).
    { destruct D as [D|D]; [left; apply in_or_app; left; exact D|right].
      rewrite errors_other by (intros x IX; specialize (O1 x IX); destruct x; auto). rewrite D. unfold loops_started. rewrite count_app.
      replace (count _ o1) with 0%nat; [lia|]. unfold count. clear - O1. induction o1 as [|x o1 IH]; [reflexivity|]. cbn [filter].
      pose proof (O1 x (or_introl eq_refl)) as X. destruct x; try contradiction; apply IH; intros y J; apply O1; right; exact J. }
    destruct (IH Z' _ _ _ _ _ H' D' R2 c) as [I1 I2].
    split; intros I; apply in_app_or in I; destruct I as [I|I]; [exact (O1 _ I)|exact (I1 I)|exact (O1 _ I)|exact (I2 I)].
Qed.
