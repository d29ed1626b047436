(** The whole as sessions with their channel, and as a world whose handlers follow a
    script. *)
From Verif Require Import Prelude Ser4 Messages Mbap Client Server Database System.
From Verif Require Import AsyncWrite ClientConn ClientTcp Listener ServerConn ServerTcp World.
From Verif Require Import Scheduled SessionCall Session Full.
From Verif Require Import SpecPdu SpecMbap SpecClient SpecServer SpecDb SpecConn SpecClientTcp SpecServerTcp SpecSystem SpecSession SpecWorld SpecFull.
From Verif Require Import ClientView TcpFacts TcpWire SessionLift FullSim.
From Coq Require Import Lia.

Lemma world_marks_app a b : world_marks (a ++ b) = world_marks a ++ world_marks b.
Proof. apply flat_map_app. Qed.
Lemma session_outputs_app a b : session_outputs (a ++ b) = session_outputs a ++ session_outputs b.
Proof. apply flat_map_app. Qed.
Lemma world_marks_world l : world_marks (map FW l) = l.
Proof. induction l as [|x l IH]; [reflexivity|]. cbn. f_equal. exact IH. Qed.
Lemma world_marks_sessions l : world_marks (map FK l) = [].
Proof. induction l as [|x l IH]; [reflexivity|]. exact IH. Qed.
Lemma session_outputs_sessions l : session_outputs (map FK l) = l.
Proof. induction l as [|x l IH]; [reflexivity|]. cbn. f_equal. exact IH. Qed.
Lemma session_outputs_world l : session_outputs (map FW l) = map Channel (channel_shows l).
Proof. induction l as [|x l IH]; [reflexivity|]. destruct x as [[]| | |]; cbn [map session_outputs channel_shows flat_map app]; try exact IH. f_equal. exact IH. Qed.
Lemma channel_shows_client l : channel_shows (map WC l) = channel_outs l.
Proof. induction l as [|x l IH]; [reflexivity|]. destruct x; cbn; try exact IH. f_equal. exact IH. Qed.
Lemma channel_shows_app a b : channel_shows (a ++ b) = channel_shows a ++ channel_shows b.
Proof. apply flat_map_app. Qed.

Lemma with_log_same {W} (z : sessions W) : ks_log z = [] -> with_log z [] = z.
Proof. destruct z. cbn. intros ->. reflexivity. Qed.
Lemma with_wd_user_same {A} (w : world A) : with_wd_user w (wd_user w) = w.
Proof. destruct w as [[]]. reflexivity. Qed.

(** ** Types *)
Section Typed.
Context {W : Type}.
Context (user : users W).
Context (Hu : typed_user user).
Implicit Type z : sessions W.

Definition typed_sessions z : Prop :=
  Forall (fun s => u8 (ss_unit s)) (ks_sessions z) /\ Forall (fun p => typed_request (po_request p)) (ks_polls z) /\
  Forall (fun o => match o with ByUser r => typed_request r | ByPoll _ _ => True end) (ks_owners z).

Lemma update_forall {A} (P : A -> Prop) l : forall n a, Forall P l -> P a -> Forall P (update l n a).
Proof. induction l as [|x l IH]; intros n a F H; [exact F|]. inversion F; subst. destruct n; cbn [update]; constructor; auto. Qed.

Lemma nth_forall {A} (P : A -> Prop) l n a : Forall P l -> nth_error l n = Some a -> P a.
Proof. intros F E. rewrite Forall_forall in F. apply F. eapply nth_error_In; eauto. Qed.

Lemma post_poll_typed z j a : typed_sessions z -> typed_sessions (post_poll z j a).
Proof.
  intros (A & B & O). unfold post_poll. destruct (nth_error (ks_polls z) j) as [p|] eqn:E; [|split; [|split]; assumption].
  split; [exact A|]. split; [|exact O]. cbn [ks_polls kpost set_sched with_kqueue with_polls]. apply update_forall; [exact B|]. exact (nth_forall _ _ _ _ B E).
Qed.

Lemma kapi_call_typed z a z' c : typed_sessions z -> typed_kapi a -> kapi_call z a = (z', c) -> typed_sessions z' /\ Forall by_session c.
Proof.
  intros (A & B & O) Ta. destruct a as [u t|x r t|x r t f|j a|x|]; cbn [kapi_call]; set (z1 := show z _);
    assert (T1 : typed_sessions z1) by (split; [|split]; assumption).
  - change (ks_shutdown z1) with (ks_shutdown z). destruct (ks_shutdown z); intros E; injection E as <- <-; (split; [|constructor]); [exact T1|].
    split; [|split; [exact B|exact O]]. cbn [ks_sessions show with_log with_sessions]. apply Forall_app. split; [exact A|]. constructor; [exact Ta|constructor].
  - change (ks_sessions z1) with (ks_sessions z). destruct (nth_error (ks_sessions z) x) as [s|] eqn:E0; intros E; injection E as <- <-; [|split; [exact T1|constructor]].
    split; [split; [exact A|split; [exact B|cbn [ks_owners with_owner]; apply Forall_app; split; [exact O|constructor; [exact Ta|constructor]]]]|].
    constructor; [|constructor]. exists (ss_unit s), r, (match t with Some t => t | None => ss_timeout s end).
    split; [exact (nth_forall _ _ _ _ A E0)|]. split; [exact Ta|reflexivity].
  - change (ks_sessions z1) with (ks_sessions z). destruct (nth_error (ks_sessions z) x) as [s|] eqn:E0; intros E; injection E as <- <-; (split; [|constructor]); [|exact T1].
    match goal with |- typed_sessions (kpost ?y _) => change (typed_sessions y) end. apply post_poll_typed.
    split; [exact A|]. split; [|exact O]. cbn [ks_polls show with_log with_polls]. apply Forall_app. split; [exact B|]. constructor; [exact Ta|constructor].
  - intros E; injection E as <- <-. split; [apply post_poll_typed, T1|constructor].
  - change (ks_sessions z1) with (ks_sessions z). destruct (nth_error (ks_sessions z) x); intros E; injection E as <- <-; (split; [exact T1|constructor]).
  - intros E; injection E as <- <-. split; [exact T1|]. constructor; [exact Logic.I|constructor].
Qed.

Lemma kapi_calls_typed l : forall z z' c, typed_sessions z -> Forall typed_kapi l -> kapi_calls z l = (z', c) -> typed_sessions z' /\ Forall by_session c.
Proof.
  induction l as [|a l IH]; intros z z' c T F; cbn [kapi_calls]; [intros E; injection E as <- <-; auto|].
  destruct (kapi_call z a) as [z1 c1] eqn:E1. destruct (kapi_calls z1 l) as [z2 c2] eqn:E2. intros E. injection E as <- <-.
  inversion F as [|? ? F1 F2]; subst. destruct (kapi_call_typed _ _ _ _ T F1 E1) as [T1 B1]. destruct (IH _ _ _ T1 F2 E2) as [T2 B2].
  split; [exact T2|]. apply Forall_app. auto.
Qed.

Lemma poll_requests_typed j p o : forall z z' c, typed_sessions z -> typed_request (po_request p) -> poll_requests z j p o = (z', c) ->
  typed_sessions z' /\ Forall by_session c.
Proof.
  induction o as [|x o IH]; intros z z' c T Tp; cbn [poll_requests]; [intros E; injection E as <- <-; auto|].
  destruct x; try exact (IH _ _ _ T Tp).
  match goal with |- context [poll_requests ?a j p o] => destruct (poll_requests a j p o) as [z1 c1] eqn:E1; assert (Ta : typed_sessions a); [|specialize (IH a _ _ Ta Tp E1)] end.
  { destruct T as (A & B & O). split; [exact A|]. split; [exact B|]. cbn [ks_owners with_owner]. apply Forall_app. split; [exact O|]. repeat constructor. }
  destruct IH as [T1 B1]. intros E. injection E as <- <-. split; [exact T1|]. constructor; [|exact B1].
  eexists _, _, _. split; [|split; [exact Tp|reflexivity]]. destruct T1 as [A1 _].
  destruct (nth_error (ks_sessions z1) (po_session p)) as [s|] eqn:E0; [exact (nth_forall _ _ _ _ A1 E0)|]. unfold u8. lia.
Qed.

Lemma poll_step_typed z j e z' c : typed_sessions z -> poll_step z j e = (z', c) -> typed_sessions z' /\ Forall by_session c.
Proof.
  intros T. unfold poll_step. destruct (nth_error (ks_polls z) j) as [p|] eqn:E0; [|intros E; injection E as <- <-; auto].
  destruct (sched_step no_calls (po_sched p) tt e) as [[s u] o]. destruct T as (A & B & O). pose proof (nth_forall _ _ _ _ B E0) as Tp. apply poll_requests_typed; [|exact Tp].
  split; [exact A|]. split; [|exact O]. cbn [ks_polls show with_log set_sched with_polls]. apply update_forall; [exact B|exact Tp].
Qed.

Lemma on_completion_typed i z x z' c : typed_sessions z -> on_completion user i z x = (z', c) -> typed_sessions z' /\ Forall by_session c.
Proof.
  intros T. unfold on_completion. destruct (nth_error (ks_owners z) i) as [[r|j n]|]; [| |intros E; injection E as <- <-; auto].
  - destruct (session_result r x) as [v|]; [|intros E; injection E as <- <-; auto].
    destruct (user (Once i) (ks_user z) v) as [w calls] eqn:U. apply kapi_calls_typed; [exact T|exact (Hu _ _ _ _ _ U)].
  - destruct (nth_error (ks_polls z) j) as [p|]; [|intros E; injection E as <- <-; auto].
    destruct (session_result (po_request p) x) as [v|]; [|intros E; injection E as <- <-; auto].
    destruct (user (Polling j n) (ks_user z) v) as [w calls] eqn:U.
    destruct (poll_step (with_user z w) j (SAnswer n v)) as [z1 c1] eqn:E1. destruct (kapi_calls z1 calls) as [z2 c2] eqn:E2. intros E. injection E as <- <-.
    destruct (poll_step_typed (with_user z w) _ _ _ _ T E1) as [T1 B1].
    destruct (kapi_calls_typed _ _ _ _ T1 (Hu _ _ _ _ _ U) E2) as [T2 B2]. split; [exact T2|]. apply Forall_app. auto.
Qed.

Lemma run_kclosure_typed z q z' c : typed_sessions z -> run_kclosure z q = (z', c) -> typed_sessions z' /\ Forall by_session c.
Proof.
  intros T. destruct q as [j|x j|x]; cbn [run_kclosure].
  - apply poll_step_typed, T.
  - destruct (nth_error (ks_sessions z) x) as [s|] eqn:E0; intros E; injection E as <- <-; (split; [|constructor]); [|exact T].
    destruct T as (A & B & O). split; [|split; [exact B|exact O]]. cbn [ks_sessions with_sessions]. apply update_forall; [exact A|]. exact (nth_forall _ _ _ _ A E0).
  - destruct (nth_error (ks_sessions z) x) as [s|] eqn:E0; [|intros E; injection E as <- <-; auto].
    destruct (kapi_calls z _) as [z1 c1] eqn:E1. intros E. injection E as <- <-. pose proof (nth_forall _ _ _ _ (proj1 T) E0) as Ts. cbn beta in Ts.
    eapply kapi_calls_typed in E1 as [T1 B1]; [|exact T|].
    + split; [|exact B1]. destruct T1 as (A & B & O). split; [|split; [exact B|exact O]]. cbn [ks_sessions with_sessions]. apply update_forall; [exact A|exact Ts].
    + apply Forall_forall. intros a H. apply in_map_iff in H as (y & <- & _). exact Logic.I.
Qed.

Lemma close_sessions_typed z o : typed_sessions z -> typed_sessions (close_sessions z o).
Proof.
  intros T. unfold close_sessions. destruct (existsb _ o); [|exact T].
  destruct (kapi_calls (with_closed z) (map CloseSession (ks_open z))) as [z1 c1] eqn:E. cbn [fst].
  apply (kapi_calls_typed _ (with_closed z) _ _ T) in E; [exact (proj1 E)|].
  apply Forall_forall. intros a H. apply in_map_iff in H as (y & <- & _). exact Logic.I.
Qed.
End Typed.

(** ** Calls of the channel *)
Section Calls.
Context {A B : Type}.
Context (hA : nat -> A -> expected (list N) -> A * list capi) (hB : nat -> B -> expected (list N) -> B * list capi).
Context (pol : copy_policy).

Definition calls (c : list capi) : list wevent := map (fun a => WClient (TApi a)) c.

Lemma call_alike (w : world A) a w' l (b : B) : world_step hA pol w (WClient (TApi a)) = Ret (w', l) ->
  wd_user w' = wd_user w /\ world_step hB pol (with_wd_user w b) (WClient (TApi a)) = Ret (with_wd_user w' b, l) /\
  tc_channel (wd_client w') = fst (capi_call (tc_channel (wd_client w)) a) /\ channel_shows l = snd (capi_call (tc_channel (wd_client w)) a) /\
  channel_ins (client_marks l) = [CApi a].
Proof.
  cbn [world_step]. unfold client_turn. cbn [tcp_step with_wd_user wd_client with_tc_user tc_channel tc_user tc_conn tc_order].
  destruct (channel_turn hA pol (wd_client w) (tc_order (wd_client w)) (CApi a) []) as [[t m]|] eqn:T; cbn [obind]; [|discriminate].
  intros E. injection E as <- <-. destruct (channel_turn_views _ _ _ _ _ _ _ _ T) as (l' & -> & _ & I & V). cbn [client_step] in V.
  unfold channel_turn in T |- *. cbn [client_step tc_channel tc_user tc_conn tc_order with_tc_user] in T |- *.
  destruct (capi_call (tc_channel (wd_client w)) a) as [s1 o1] eqn:C. cbn [obind] in T |- *.
  destruct (to_conn (tc_conn (wd_client w)) o1 []) as [[c1 m1]|]; cbn [obind] in T |- *; [|discriminate].
  injection T as <- <-. cbn [wd_user wd_client tc_user tc_channel fst snd]. split; [reflexivity|]. split; [reflexivity|]. split; [reflexivity|].
  injection V as V. rewrite channel_shows_client. split; [exact (eq_sym V)|].
  replace (client_marks (map WC (ChannelIn (CApi a) :: m1))) with (ChannelIn (CApi a) :: m1); [cbn [channel_ins flat_map app]; f_equal; exact I|].
  generalize (ChannelIn (CApi a) :: m1). intros k. induction k as [|x k IH]; [reflexivity|]. cbn. f_equal. exact IH.
Qed.
End Calls.

Lemma client_marks_app a b : client_marks (a ++ b) = client_marks a ++ client_marks b.
Proof. apply flat_map_app. Qed.
Lemma client_marks_client l : client_marks (map WC l) = l.
Proof. induction l as [|x l IH]; [reflexivity|]. cbn. f_equal. exact IH. Qed.
Lemma not_api_calls l : filter not_api (map CApi l) = [].
Proof. induction l as [|x l IH]; [reflexivity|]. exact IH. Qed.

Lemma calls_alike {A B} (hA : nat -> A -> expected (list N) -> A * list capi) (hB : nat -> B -> expected (list N) -> B * list capi) pol c :
  forall (w : world A) w' l (b : B), world_run hA pol w (calls c) = Ret (w', l) ->
  wd_user w' = wd_user w /\ world_run hB pol (with_wd_user w b) (calls c) = Ret (with_wd_user w' b, l) /\
  capi_calls (tc_channel (wd_client w)) c = (tc_channel (wd_client w'), channel_shows l) /\ channel_ins (client_marks l) = map CApi c.
Proof.
  induction c as [|a c IH]; intros w w' l b; cbn [calls map world_run capi_calls].
  - intros E. injection E as <- <-. repeat split.
  - change (map (fun a => WClient (TApi a)) c) with (calls c). destruct (world_step hA pol w (WClient (TApi a))) as [[w1 l1]|] eqn:S1; cbn [obind]; [|discriminate].
    destruct (world_run hA pol w1 (calls c)) as [[w2 l2]|] eqn:R; cbn [obind]; [|discriminate]. intros E. injection E as <- <-.
    destruct (call_alike hA hB pol _ _ _ _ b S1) as (A1 & A2 & A3 & A4 & A5). destruct (IH _ _ _ b R) as (B1 & B2 & B3 & B4).
    rewrite A2. cbn [obind]. rewrite B2. cbn [obind]. split; [congruence|]. split; [reflexivity|].
    destruct (capi_call (tc_channel (wd_client w)) a) as [s1 o1]. cbn [fst snd] in A3, A4. subst s1. rewrite B3.
    rewrite channel_shows_app, A4, client_marks_app, channel_ins_app, A5, B4. repeat split.
Qed.

(** ** The channel takes at most one turn *)
Section Turn.
Context {A : Type}.
Context (h : nat -> A -> expected (list N) -> A * list capi).
Context (pol : copy_policy).

Definition one_turn (s : tclient A) (s' : tclient A) (l : list mark) : Prop :=
  (channel_ins l = [] /\ channel_outs l = [] /\ tc_channel s' = tc_channel s /\ tc_user s' = tc_user s) \/
  exists e, channel_ins l = [e] /\ not_api e = true /\ client_step h pol (tc_channel s) (tc_user s) e = Ret (tc_channel s', tc_user s', channel_outs l).

Lemma tcp_one_turn s e s' l : (forall a, e <> TApi a) -> tcp_step h pol s e = Ret (s', l) -> one_turn s s' l.
Proof.
  intros Na.
  assert (P : forall q c xs, not_api c = true -> channel_turn h pol s q c xs = Ret (s', l) -> one_turn s s' l).
  { intros q c xs Hc E. destruct (channel_turn_views _ _ _ _ _ _ _ _ E) as (l' & -> & _ & I & V). right. exists c. views. rewrite I. auto. }
  assert (Q : forall q c msg xs, conn_turn h pol s q c msg xs = Ret (s', l) -> one_turn s s' l).
  { intros q c msg xs E. destruct (conn_turn_cases _ _ _ _ _ _ _ _ _ E) as [(k & os & _ & _ & -> & ->)|(k & os & cb & ce & l' & _ & _ & Bk & _ & T & ->)].
    - left. views. repeat split.
    - destruct (channel_turn_views _ _ _ _ _ _ _ _ T) as (l2 & E2 & _ & I & V). injection E2 as <-. right. exists ce. views. rewrite I.
      split; [reflexivity|]. split; [destruct Bk; reflexivity|exact V]. }
  destruct e as [a|xs|t|t xs|ok msg|g ok msg|r x msg xs|w n|w ok msg]; cbn [tcp_step]; try (intros E; eapply Q; exact E).
  - exfalso. exact (Na a eq_refl).
  - destruct (tc_order s) as [|[|] q]; [intros E; injection E as <- <-; left; repeat split|intros E; eapply P; [|exact E]; reflexivity|intros E; eapply Q; exact E].
  - intros E. eapply P; [|exact E]. reflexivity.
  - intros E. eapply P; [|exact E]. reflexivity.
Qed.

Lemma server_shows (w : world A) e l : channel_shows (map (server_mark w e) l) = [] /\ client_marks (map (server_mark w e) l) = [].
Proof.
  induction l as [|x l [A1 A2]]; [split; reflexivity|]. cbn [map]. unfold server_mark at 1 3.
  destruct e as [| | |c r y| |]; try (split; assumption). destruct (by_others w c); split; assumption.
Qed.

Lemma server_turn_client (w : world A) e w' l : server_turn pol w e = Ret (w', l) -> wd_client w' = wd_client w /\ channel_shows l = [] /\ client_marks l = [].
Proof.
  unfold server_turn. destruct (userver_step _ _ _ _ _) as [[s k]|]; cbn [obind]; [|discriminate]. intros E. injection E as <- <-.
  split; [reflexivity|]. apply server_shows.
Qed.

Lemma world_one_turn (w : world A) e w' l : typed_wevent e -> (forall a, e <> WClient (TApi a)) -> world_step h pol w e = Ret (w', l) ->
  one_turn (wd_client w) (wd_client w') (client_marks l) /\ channel_shows l = channel_outs (client_marks l) /\ Forall typed_cevent (channel_ins (client_marks l)).
Proof.
  intros Te Na.
  assert (Same : Ret (w, []) = Ret (w', l) -> one_turn (wd_client w) (wd_client w') (client_marks l) /\ channel_shows l = channel_outs (client_marks l) /\
                 Forall typed_cevent (channel_ins (client_marks l))).
  { intros E. injection E as <- <-. split; [left; repeat split|]. split; [reflexivity|constructor]. }
  assert (Serve : forall (w1 : world A) u, wd_client w1 = wd_client w -> server_turn pol w1 u = Ret (w', l) ->
            one_turn (wd_client w) (wd_client w') (client_marks l) /\ channel_shows l = channel_outs (client_marks l) /\ Forall typed_cevent (channel_ins (client_marks l))).
  { intros w1 u Ew E. destruct (server_turn_client _ _ _ _ E) as (C1 & C2 & C3). rewrite C1, C2, C3, Ew. split; [left; repeat split|]. split; [reflexivity|constructor]. }
  assert (Client : forall u, (forall a, u <> TApi a) -> typed_tevent u -> client_turn h pol w u = Ret (w', l) ->
            one_turn (wd_client w) (wd_client w') (client_marks l) /\ channel_shows l = channel_outs (client_marks l) /\ Forall typed_cevent (channel_ins (client_marks l))).
  { intros u Nu Tu. unfold client_turn. destruct (tcp_step h pol (wd_client w) u) as [[s k]|] eqn:E1; cbn [obind]; [|discriminate].
    intros E. injection E as <- <-. rewrite client_marks_client, channel_shows_client. cbn [wd_client].
    split; [eapply tcp_one_turn; eauto|]. split; [reflexivity|]. apply (run_typed h pol [u] (wd_client w) s).
    - constructor; [exact Tu|constructor].
    - cbn [tcp_run]. rewrite E1. cbn [obind]. rewrite app_nil_r. reflexivity. }
  destruct e as [e|e|g c buf|c]; cbn [world_step].
  - destruct e as [a|xs|t|t xs|ok msg|g ok msg|r x msg xs|o n|o ok msg]; try (apply Client; [discriminate|exact Te]).
    + exfalso. exact (Na a eq_refl).
    + destruct (can_read _ _ _); [|exact Same]. apply Client; [discriminate|exact Te].
  - destruct e as [| | |c r y| |]; try (apply Serve; reflexivity). destruct (_ || _); [|exact Same]. apply Serve; reflexivity.
  - destruct (_ && _); [|exact Same]. apply Serve. reflexivity.
  - destruct (run _ _) as [[d r]|]; cbn [obind]; [|discriminate]. intros E. injection E as <- <-. split; [left; repeat split|]. split; [reflexivity|constructor].
Qed.
End Turn.

(** ** Histories of the whole *)
Section Project.
Context {W : Type}.
Context (user : users W).
Context (pol : copy_policy).
Context (Hu : typed_user user).
Notation handler := (on_completion user).
Notation fworld := (world (sessions W)).

Lemma full_finish_parts (w : fworld) z c w' l : full_finish user pol w (z, c) = Ret (w', l) ->
  wd_user w' = with_log z [] /\
  (forall (rest : list (list scall)), world_run calls_scripted pol (with_wd_user w rest) (calls c) = Ret (with_wd_user w' rest, world_marks l)) /\
  capi_calls (tc_channel (wd_client w)) c = (tc_channel (wd_client w'), channel_shows (world_marks l)) /\
  session_outputs l = map Channel (channel_shows (world_marks l)) ++ ks_log z /\
  channel_ins (client_marks (world_marks l)) = map CApi c.
Proof.
  unfold full_finish. fold (calls c). destruct (world_run _ _ _ _) as [[w1 l1]|] eqn:R; cbn [obind]; [|discriminate]. intros E. injection E as <- <-.
  rewrite world_marks_app, world_marks_world, world_marks_sessions, app_nil_r, session_outputs_app, session_outputs_world, session_outputs_sessions.
  destruct (calls_alike handler calls_scripted pol c _ _ _ [] R) as (A1 & _ & A3 & A4). cbn [with_wd_user wd_user wd_client with_tc_user tc_user tc_channel] in A1, A3.
  split; [exact A1|]. split; [|split; [exact A3|split; [reflexivity|exact A4]]].
  intros rest. destruct (calls_alike handler calls_scripted pol c _ _ _ rest R) as (_ & B & _). exact B.
Qed.

(** What a step of the whole is below the sessions and above the connection. *)
Definition step_parts (w : fworld) (e : fevent) (w' : fworld) (l : list fmark) : Prop :=
  (exists wes script, Forall typed_wevent wes /\
     (wes = [] /\ (forall e1, e = FWorld e1 -> exists a, e1 = WClient (TApi a)) \/
      (exists e1, e = FWorld e1 /\ (forall a, e1 <> WClient (TApi a)) /\ wes = [e1]) \/ exists c, wes = calls c /\ forall e1, e <> FWorld e1) /\
     forall rest, world_run calls_scripted pol (with_wd_user w (script ++ rest)) wes = Ret (with_wd_user w' rest, world_marks l)) /\
  (exists kes, Forall typed_kevent kes /\ stack_run user pol (stack_of w) kes = Ret (stack_of w', session_outputs l) /\
     stack_only kes = session_only [e] /\ channel_only kes = filter not_api (channel_ins (client_marks (world_marks l)))).

Lemma finish_parts w e x w' l ke : full_finish user pol w x = Ret (w', l) -> typed_sessions (fst x) /\ Forall by_session (snd x) ->
  (forall e1, e <> FWorld e1) -> session_only [e] = [ke] -> stack_only [ke] = [ke] -> channel_only [ke] = [] -> typed_kevent ke ->
  stack_step user pol (stack_of w) ke = Session.finish (st_channel (stack_of w)) x ->
  typed_sessions (wd_user w') /\ ks_log (wd_user w') = [] /\ step_parts w e w' l.
Proof.
  destruct x as [z c]. intros E [T Bc] Ne So Sk Ck Tk St. cbn [fst snd] in T, Bc.
  destruct (full_finish_parts _ _ _ _ _ E) as (A1 & A2 & A3 & A4 & A5). rewrite A1. split; [exact T|]. split; [reflexivity|]. split.
  - exists (calls c), []. split; [|split; [right; right; exists c; auto|exact A2]]. apply Forall_forall. intros y H. apply in_map_iff in H as (a & <- & Ha).
    rewrite Forall_forall in Bc. exact (Bc a Ha).
  - exists [ke]. split; [constructor; [exact Tk|constructor]|]. split.
    + cbn [stack_run]. rewrite St. unfold Session.finish. cbn [st_channel stack_of]. rewrite A3. cbn [obind]. rewrite app_nil_r, A4.
      unfold stack_of. rewrite A1. reflexivity.
    + split; [rewrite So, Sk; reflexivity|]. rewrite Ck, A5, not_api_calls. reflexivity.
Qed.

Lemma full_step_parts w e w' l : typed_sessions (wd_user w) -> ks_log (wd_user w) = [] -> typed_fevent e -> full_step user pol w e = Ret (w', l) ->
  typed_sessions (wd_user w') /\ ks_log (wd_user w') = [] /\ step_parts w e w' l.
Proof.
  intros T L Te.
  assert (Same : session_only [e] = [] /\ (exists a, e = FWorld (WClient (TApi a))) \/ session_only [e] = [KRun] /\ ks_queue (wd_user w) = [] -> Ret (w, []) = Ret (w', l) ->
            typed_sessions (wd_user w') /\ ks_log (wd_user w') = [] /\ step_parts w e w' l).
  { intros So E. injection E as <- <-. split; [exact T|]. split; [exact L|]. split.
    - exists [], []. split; [constructor|]. split; [|intros rest; reflexivity]. left. split; [reflexivity|]. intros e1 ->.
      destruct So as [(_ & a & K)|[K _]]; [injection K as ->; eauto|discriminate K].
    - destruct So as [[So _]|[So Q]].
      + exists []. split; [constructor|]. split; [reflexivity|]. split; [symmetry; exact So|reflexivity].
      + exists [KRun]. split; [constructor; [exact Logic.I|constructor]|]. split; [|split; [symmetry; exact So|reflexivity]].
        cbn [stack_run stack_step stack_of st_rest]. rewrite Q. reflexivity. }
  assert (World : forall e1, e = FWorld e1 -> (forall a, e1 <> WClient (TApi a)) ->
            (let! (w1, l1) := world_step handler pol w e1 in
             let z := close_sessions (wd_user w1) (channel_shows l1) in Ret (with_wd_user w1 (with_log z []), map FW l1 ++ map FK (ks_log z))) = Ret (w', l) ->
            typed_sessions (wd_user w') /\ ks_log (wd_user w') = [] /\ step_parts w e w' l).
  { intros e1 -> Na. cbn [typed_fevent] in Te. destruct (world_step handler pol w e1) as [[w1 l1]|] eqn:E1; cbn [obind]; [|discriminate]. cbv zeta.
    intros E. injection E as <- <-.
    assert (HP : forall i z x z' c, typed_sessions z -> on_completion user i z x = (z', c) -> typed_sessions z' /\ Forall by_session c)
      by (intros i z z' x c; apply on_completion_typed, Hu).
    destruct (world_step_script handler typed_sessions HP pol _ _ _ _ T E1) as (T1 & script & F).
    destruct (world_one_turn handler pol _ _ _ _ Te Na E1) as (O & S & Tc).
    split; [exact (close_sessions_typed _ _ T1)|]. split; [reflexivity|].
    unfold step_parts. rewrite world_marks_app, world_marks_world, world_marks_sessions, app_nil_r, session_outputs_app, session_outputs_world, session_outputs_sessions.
    split.
    - exists [e1], script. split; [constructor; [exact Te|constructor]|]. split; [right; left; eauto|]. intros rest. cbn [world_run].
      rewrite F. cbn [obind]. rewrite app_nil_r. reflexivity.
    - rewrite S. destruct O as [(I & Os & Ec & Eu)|(c & I & Nc & St)].
      + exists []. split; [constructor|]. split; [|split; [reflexivity|rewrite I; reflexivity]]. rewrite Os. cbn [map app].
        unfold close_sessions. cbn [existsb stack_run]. fold (wd_user w1) in Eu. fold (wd_user w) in Eu. rewrite Eu, L.
        rewrite (with_log_same (wd_user w) L). unfold stack_of. cbn [with_wd_user wd_client with_tc_user tc_channel wd_user tc_user]. rewrite Ec. reflexivity.
      + rewrite I in Tc. inversion Tc as [|? ? Tc1 _]; subst. exists [KChannel c]. split; [constructor; [exact Tc1|constructor]|].
        split; [|split; [reflexivity|cbn [channel_only flat_map app filter]; rewrite I; cbn [filter]; rewrite Nc; reflexivity]].
        fold (wd_user w) in St. fold (wd_user w1) in St.
        destruct c as [x| |d|msg|t|t]; [discriminate Nc|..]; cbn [stack_run stack_step stack_of st_channel st_rest]; rewrite St; cbn [obind]; rewrite app_nil_r; reflexivity. }
  destruct e as [a| |j t|j t|e1]; cbn [full_step].
  - intros E. eapply finish_parts; [exact E| |discriminate|reflexivity|reflexivity|reflexivity|exact Logic.I|reflexivity].
    destruct (kapi_call (wd_user w) a) as [z c] eqn:K. exact (kapi_call_typed _ _ _ _ T Te K).
  - destruct (ks_queue (wd_user w)) as [|q qs] eqn:Eq; [apply Same; auto|].
    intros E. eapply finish_parts; [exact E| |discriminate|reflexivity|reflexivity|reflexivity|exact Logic.I|cbn [stack_step stack_of st_rest]; rewrite Eq; reflexivity].
    destruct (run_kclosure _ q) as [z c] eqn:K. exact (run_kclosure_typed (with_kqueue (wd_user w) qs) _ _ _ T K).
  - intros E. eapply finish_parts; [exact E| |discriminate|reflexivity|reflexivity|reflexivity|exact Logic.I|reflexivity].
    destruct (poll_step (wd_user w) j _) as [z c] eqn:K. exact (poll_step_typed _ _ _ _ _ T K).
  - intros E. eapply finish_parts; [exact E| |discriminate|reflexivity|reflexivity|reflexivity|exact Logic.I|reflexivity].
    destruct (poll_step (wd_user w) j _) as [z c] eqn:K. exact (poll_step_typed _ _ _ _ _ T K).
  - destruct e1 as [[a| | | | | | | | ]| | | ]; try (intros E; eapply World; [reflexivity|discriminate|exact E]). apply Same. left. split; [reflexivity|eauto].
Qed.

Lemma stack_then k es1 k1 o1 es2 k2 o2 : stack_run user pol k es1 = Ret (k1, o1) -> stack_run user pol k1 es2 = Ret (k2, o2) ->
  stack_run user pol k (es1 ++ es2) = Ret (k2, o1 ++ o2).
Proof.
  revert k k1 o1. induction es1 as [|e es1 IH]; intros k k1 o1 R1 R2; cbn [stack_run app] in *.
  - injection R1 as <- <-. exact R2.
  - destruct (stack_step user pol k e) as [[k' o]|]; cbn [obind] in *; [|discriminate].
    destruct (stack_run user pol k' es1) as [[k'' o']|] eqn:R; cbn [obind] in *; [|discriminate]. injection R1 as <- <-.
    rewrite (IH _ _ _ R R2). cbn [obind]. rewrite app_assoc. reflexivity.
Qed.

Lemma world_then {A} (h : nat -> A -> expected (list N) -> A * list capi) w es1 w1 l1 es2 w2 l2 : world_run h pol w es1 = Ret (w1, l1) ->
  world_run h pol w1 es2 = Ret (w2, l2) -> world_run h pol w (es1 ++ es2) = Ret (w2, l1 ++ l2).
Proof.
  revert w w1 l1. induction es1 as [|e es1 IH]; intros w w1 l1 R1 R2; cbn [world_run app] in *.
  - injection R1 as <- <-. exact R2.
  - destruct (world_step h pol w e) as [[w' o]|]; cbn [obind] in *; [|discriminate].
    destruct (world_run h pol w' es1) as [[w'' o']|] eqn:R; cbn [obind] in *; [|discriminate]. injection R1 as <- <-.
    rewrite (IH _ _ _ R R2). cbn [obind]. rewrite app_assoc. reflexivity.
Qed.

Lemma walways_then {A} (h : nat -> A -> expected (list N) -> A * list capi) (Q : world A -> wevent -> Prop) w es1 w1 l1 es2 :
  world_run h pol w es1 = Ret (w1, l1) -> walways h pol Q w es1 -> walways h pol Q w1 es2 -> walways h pol Q w (es1 ++ es2).
Proof.
  revert w w1 l1. induction es1 as [|e es1 IH]; intros w w1 l1 R1 Q1 Q2; cbn [world_run app walways] in *.
  - injection R1 as <- <-. exact Q2.
  - destruct Q1 as [Q1 Q3]. split; [exact Q1|]. intros w' l E. rewrite E in R1. cbn [obind] in R1.
    destruct (world_run h pol w' es1) as [[w'' o']|] eqn:R; cbn [obind] in *; [|discriminate]. injection R1 as <- <-. eapply IH; [exact R|exact (Q3 _ _ E)|exact Q2].
Qed.

Lemma walways_calls {A} (h : nat -> A -> expected (list N) -> A * list capi) (Q : world A -> wevent -> Prop) c :
  (forall w a, Q w (WClient (TApi a))) -> forall w, walways h pol Q w (calls c).
Proof. intros HQ. induction c as [|a c IH]; intros w; cbn [calls map walways]; [exact Logic.I|]. split; [apply HQ|]. intros w' l _. apply IH. Qed.

(** What a property of the world becomes for scripted handlers. *)
Definition carries (Q1 : fworld -> wevent -> Prop) (Q2 : world (list (list scall)) -> wevent -> Prop) : Prop :=
  (forall w b e, Q1 w e -> Q2 (with_wd_user w b) e) /\ forall w a, Q2 w (WClient (TApi a)).

Definition run_parts (w : fworld) (es : list fevent) (w' : fworld) (l : list fmark) : Prop :=
  (exists wes script, Forall typed_wevent wes /\
     (forall e, In e wes -> (exists a, e = WClient (TApi a)) \/ In (FWorld e) es) /\
     (forall rest, world_run calls_scripted pol (with_wd_user w (script ++ rest)) wes = Ret (with_wd_user w' rest, world_marks l)) /\
     (forall Q1 Q2 rest, carries Q1 Q2 -> falways user pol Q1 w es -> walways calls_scripted pol Q2 (with_wd_user w (script ++ rest)) wes)) /\
  (exists kes, Forall typed_kevent kes /\ stack_run user pol (stack_of w) kes = Ret (stack_of w', session_outputs l) /\
     stack_only kes = session_only es /\ channel_only kes = filter not_api (channel_ins (client_marks (world_marks l)))).

Lemma full_run_parts es : forall w w' l, typed_sessions (wd_user w) -> ks_log (wd_user w) = [] -> Forall typed_fevent es -> full_run user pol w es = Ret (w', l) ->
  typed_sessions (wd_user w') /\ ks_log (wd_user w') = [] /\ run_parts w es w' l.
Proof.
  induction es as [|e es IH]; intros w w' l T L F; cbn [full_run].
  - intros E. injection E as <- <-. split; [exact T|]. split; [exact L|]. split.
    + exists [], []. split; [constructor|]. split; [intros ? []|]. split; [reflexivity|]. intros Q1 Q2 rest _ _. exact Logic.I.
    + exists []. split; [constructor|]. repeat split.
  - destruct (full_step user pol w e) as [[w1 l1]|] eqn:S1; cbn [obind]; [|discriminate].
    destruct (full_run user pol w1 es) as [[w2 l2]|] eqn:R; cbn [obind]; [|discriminate]. intros E. injection E as <- <-.
    inversion F as [|? ? Fe Fs]; subst. destruct (full_step_parts _ _ _ _ T L Fe S1) as (T1 & L1 & (wes1 & sc1 & A1 & A2 & A3) & (kes1 & B1 & B2 & B3 & B4)).
    destruct (IH _ _ _ T1 L1 Fs R) as (T2 & L2 & (wes2 & sc2 & C1 & C2 & C3 & C4) & (kes2 & D1 & D2 & D3 & D4)).
    split; [exact T2|]. split; [exact L2|]. unfold run_parts. rewrite world_marks_app, session_outputs_app, client_marks_app, channel_ins_app, filter_app. split.
    + exists (wes1 ++ wes2), (sc1 ++ sc2). split; [apply Forall_app; auto|]. split.
      { intros y H. apply in_app_or in H as [H|H]; [|destruct (C2 _ H); [auto|right; right; assumption]].
        destruct A2 as [[-> _]|[(e1 & -> & Na & ->)|(c & -> & Ne)]]; [destruct H| |].
        - destruct H as [<-|[]]. right. left. reflexivity.
        - apply in_map_iff in H as (a & <- & _). left. eauto. }
      split.
      { intros rest. rewrite <- app_assoc. eapply world_then; [apply A3|apply C3]. }
      intros Q1 Q2 rest K [K1 K2]. rewrite <- app_assoc. eapply walways_then; [apply A3| |].
      * destruct A2 as [[-> _]|[(e1 & -> & Na & ->)|(c & -> & Ne)]]; [exact Logic.I| |apply walways_calls, K].
        cbn [walways]. split; [apply K, K1|]. intros; exact Logic.I.
      * apply (C4 Q1 Q2); [exact K|]. exact (K2 _ _ S1).
    + exists (kes1 ++ kes2). split; [apply Forall_app; auto|]. split; [eapply stack_then; eauto|].
      split; [unfold stack_only in *; rewrite filter_app, B3, D3; cbn [session_only flat_map]; rewrite app_nil_r; reflexivity|].
      unfold channel_only in *. rewrite flat_map_app, B4, D4. reflexivity.
Qed.

(** ** What a step shows *)
Lemma clean_log b (z : sessions W) : clean b z -> inner (ks_log z) = ks_log z /\ clean b (with_log z []).
Proof. intros (A & B & C). split; [exact A|]. split; [reflexivity|]. split; [exact B|exact C]. Qed.

Definition shape (l : list fmark) : Prop := exists m k, l = map FW m ++ map FK k /\ inner k = k.

Lemma finish_shape w x w' l b : full_finish user pol w x = Ret (w', l) -> clean b (fst x) -> clean b (wd_user w') /\ shape l.
Proof.
  destruct x as [z c]. intros E C. cbn [fst] in C. destruct (clean_log _ _ C) as [C1 C2]. destruct (full_finish_parts _ _ _ _ _ E) as (-> & _). split; [exact C2|].
  unfold full_finish in E. destruct (world_run _ _ _ _) as [[w1 l1]|]; cbn [obind] in E; [|discriminate]. injection E as _ <-. exists l1, (ks_log z). auto.
Qed.

Lemma full_step_shape w e w' l b : typed_sessions (wd_user w) -> clean b (wd_user w) -> full_step user pol w e = Ret (w', l) ->
  (exists b', clean b' (wd_user w')) /\ shape l.
Proof.
  intros T C.
  assert (Same : Ret (w, []) = Ret (w', l) -> (exists b', clean b' (wd_user w')) /\ shape l).
  { intros E. injection E as <- <-. split; [eauto|]. exists [], []. auto. }
  assert (Fin : forall x, full_finish user pol w x = Ret (w', l) -> clean b (fst x) -> (exists b', clean b' (wd_user w')) /\ shape l).
  { intros x E K. destruct (finish_shape _ _ _ _ _ E K). split; [eauto|assumption]. }
  assert (World : forall e1,
            (let! (w1, l1) := world_step handler pol w e1 in
             let z := close_sessions (wd_user w1) (channel_shows l1) in Ret (with_wd_user w1 (with_log z []), map FW l1 ++ map FK (ks_log z))) = Ret (w', l) ->
            (exists b', clean b' (wd_user w')) /\ shape l).
  { intros e1. destruct (world_step handler pol w e1) as [[w1 l1]|] eqn:E1; cbn [obind]; [|discriminate]. cbv zeta.
    intros E. injection E as <- <-.
    assert (HP : forall i z x z' c, typed_sessions z /\ clean b z -> on_completion user i z x = (z', c) -> (typed_sessions z' /\ clean b z') /\ Forall by_session c).
    { intros i z x z' c [A B] K. destruct (on_completion_typed user Hu _ _ _ _ _ A K) as [A' F]. split; [|exact F]. split; [exact A'|].
      eapply completion_clean; eauto. }
    destruct (world_step_script handler (fun z => typed_sessions z /\ clean b z) HP pol _ _ _ _ (conj T C) E1) as ((_ & C1) & _).
    apply close_clean with (o := channel_shows l1) in C1. destruct (clean_log _ _ C1) as [C2 C3]. split; [eauto|].
    eexists _, _. split; [reflexivity|exact C2]. }
  destruct e as [a| |j t|j t|e1]; cbn [full_step].
  - intros E. eapply Fin; [exact E|]. destruct (kapi_call (wd_user w) a) as [z c] eqn:K. eapply api_clean; eauto.
  - destruct (ks_queue (wd_user w)) as [|q qs] eqn:Eq; [exact Same|]. intros E. eapply Fin; [exact E|].
    destruct (run_kclosure _ q) as [z c] eqn:K. eapply (closure_clean b (with_kqueue (wd_user w) qs)); eauto.
  - intros E. eapply Fin; [exact E|]. destruct (poll_step (wd_user w) j _) as [z c] eqn:K. eapply poll_clean; eauto.
  - intros E. eapply Fin; [exact E|]. destruct (poll_step (wd_user w) j _) as [z c] eqn:K. eapply poll_clean; eauto.
  - destruct e1 as [[a| | | | | | | | ]| | | ]; try (intros E; eapply World; exact E). exact Same.
Qed.
End Project.

Lemma shape_channel l : shape l -> of_channel (session_outputs l) = channel_shows (world_marks l).
Proof.
  intros (m & k & -> & K). rewrite session_outputs_app, session_outputs_world, session_outputs_sessions, world_marks_app, world_marks_world, world_marks_sessions, app_nil_r.
  unfold of_channel. rewrite flat_map_app. fold (of_channel k). rewrite (of_channel_inner _ K), app_nil_r.
  induction (channel_shows m) as [|x y IH]; [reflexivity|]. cbn [map flat_map app]. f_equal. exact IH.
Qed.
