(** What the whole does, over the network. *)
From Verif Require Import Prelude Ser4 Messages Mbap Client Server Database System.
From Verif Require Import AsyncWrite ClientConn ClientTcp Listener ServerConn ServerTcp World.
From Verif Require Import SpecPdu SpecMbap SpecClient SpecServer SpecDb SpecConn SpecClientTcp SpecServerTcp SpecSystem SpecWorld.
From Verif Require Import ClientFacts DatabaseFacts DbLemmas SystemFacts SystemSteps SystemServe NetFacts WorldConn WorldSim WorldServe WorldOther WorldLink WorldParts.
From Verif Require Import ServerFacts ServerTcpTurns.

Lemma ends_prefix a b : ends_at_failure (a ++ b) -> ends_at_failure a.
Proof. intros H x m d y E. apply (H x m d (y ++ b)). rewrite E. rewrite <- !app_assoc. cbn [app]. rewrite <- app_assoc. reflexivity. Qed.

Section Lemmas.
Context {strict : bool}.
Context {W : Type}.
Context (handler : nat -> W -> expected (list N) -> W * list capi).
Context (pol : copy_policy).

Record sim (w : world W) (n : net W) (l : list wmark) : Prop := {
  sm_client : @cpart strict W (wd_client w) n;
  sm_turn : turn_state None (conn_outs (client_marks l)) = turned n;
  sm_server : spart (wd_server w) (wd_links w) n (server_marks l);
  sm_up : forall g, wd_up w g = n_up n g;
  sm_down : forall g, wd_down w g = n_down n g
}.

Lemma spart_same s links (n n' : net W) sm : spart s links n sm -> same_server n n' -> spart s links n' sm.
Proof.
  intros [P1 P2 P3 P4 P5 P6 P9 P7 P8] (H1 & H2 & H3 & H4 & H5). constructor; try congruence.
  - intros g x E. rewrite H3 in E. exact (P3 g x E).
  - intros c v g E Eg. rewrite H3. exact (P4 c v g E Eg).
  - intros c v M E. rewrite H4. exact (P5 c v M E).
  - exact P6.
  - exact P9.
  - exact P7.
  - intros c E. rewrite H5 in E. exact (P8 c E).
Qed.

Lemma cpart_same (t : tclient W) n n' : @cpart strict W t n -> same_client n n' -> @cpart strict W t n'.
Proof. intros [P1 P2 P3 P4 P5] (H1 & H2 & H3 & H4 & H5). constructor; rewrite ?H1, ?H2, ?H3, ?H4, ?H5; auto. Qed.

Lemma turned_same (n n' : net W) : same_client n n' -> turned n' = turned n.
Proof. intros (H1 & H2 & H3 & H4 & H5). unfold turned. rewrite H3, H4. reflexivity. Qed.

Lemma sim_step w n l0 e w' l : sim w n l0 -> world_step handler pol w e = Ret (w', l) ->
  typed_wevent e -> @careful strict W w e ->
  wf (us_user (wd_server w)) -> conns_ok pol (us_channel (wd_server w)) -> alive (wd_server w) ->
  in_turn None (conn_outs (client_marks (l0 ++ l))) ->
  (forall c, mine (wd_links w) c -> ends_at_failure (peer_outs c (server_marks (l0 ++ l)))) ->
  exists n' os, observed_with_others l os /\ nsteps handler pol n os n' /\ sim w' n' (l0 ++ l).
Proof.
  intros [C T S U D] E Ty Ca Hwf Hok Hal Ht He.
  assert (Skip : Ret (w, []) = Ret (w', l) -> exists n' os, observed_with_others l os /\ nsteps handler pol n os n' /\ sim w' n' (l0 ++ l)).
  { intros K. injection K as <- <-. exists n, []. split; [exists []; split; [constructor|reflexivity]|]. split; [constructor|]. rewrite app_nil_r. constructor; assumption. }
  assert (Client : forall e0, e = WClient e0 ->
    match e0 with TRead r x _ _ => can_read (wd_down w) (reads_from (tc_conn (wd_client w)) r) x = true | _ => True end ->
    client_turn handler pol w e0 = Ret (w', l) -> exists n' os, observed_with_others l os /\ nsteps handler pol n os n' /\ sim w' n' (l0 ++ l)).
  { intros e0 -> Hr K. unfold client_turn in K. destruct (tcp_step handler pol (wd_client w) e0) as [[t' m]|] eqn:Et; [|discriminate K].
    cbn [obind] in K. injection K as <- <-. rewrite client_marks_app, marks_wc, conn_outs_app, in_turn_app, T in Ht.
    destruct (client_turn_sim handler pol w n (client_marks l0) e0 t' m C T U D Ty Ca Hr Et (proj2 Ht)) as (n' & N1 & N2 & N3 & N4 & N5 & N6).
    exists n', (map YC (channel_outs m)). split; [apply others_wc|]. split; [exact N1|]. constructor; cbn [wd_client wd_server wd_links wd_up wd_down]; try assumption.
    - rewrite client_marks_app, marks_wc. exact N3.
    - rewrite server_marks_app, marks_wc', app_nil_r. exact (spart_same _ _ _ _ _ S N6). }
  assert (Server : forall e0, e = WServer e0 ->
    match e0 with
    | URead c r x => by_others w c || can_read (wd_up w) (gets_from w c r) x = true
    | UAccept _ true _ => False
    | _ => True
    end -> server_turn pol w e0 = Ret (w', l) -> exists n' os, observed_with_others l os /\ nsteps handler pol n os n' /\ sim w' n' (l0 ++ l)).
  { intros e0 -> Hr K. unfold server_turn in K. destruct (userver_step db_session db_shutdown pol (wd_server w) e0) as [[s' m]|] eqn:Es; [|discriminate K].
    cbn [obind] in K. injection K as <- <-.
    assert (He' : forall c, mine (wd_links w) c -> ends_at_failure (peer_outs c (server_marks l0 ++ m))) by (intros c M; specialize (He c M); rewrite server_marks_app, server_marks_server in He; exact He).
    destruct (server_turn_sim handler pol w n (server_marks l0) e0 s' m S U D Ca Ty Hwf Hok Hal Hr Es He') as (n' & os & N0 & N1 & N2 & N3 & N4 & N5).
    exists n', os. split; [exact N0|]. split; [exact N1|]. constructor; cbn [wd_client wd_server wd_links wd_up wd_down]; try assumption.
    - exact (cpart_same _ _ _ C N5).
    - rewrite client_marks_app, client_marks_server, app_nil_r, T. symmetry. apply turned_same. exact N5.
    - rewrite server_marks_app, server_marks_server. exact N2. }
  destruct e as [e0|e0|g c buf|c]; cbn [world_step] in E.
  - destruct e0 as [a|xs|t|t xs|ok msg|g ok msg|r x msg xs|o k|o ok msg]; try (eapply Client; [reflexivity|exact Logic.I|exact E]).
    destruct (can_read (wd_down w) (reads_from (tc_conn (wd_client w)) r) x) eqn:Er; [|exact (Skip E)].
    eapply Client; [reflexivity|exact Er|exact E].
  - destruct e0 as [a| |c ok buf|c r x|c o k|c o ok]; try (eapply Server; [reflexivity|exact Logic.I|exact E]).
    + destruct ok; [|eapply Server; [reflexivity|exact Logic.I|exact E]].
      unfold server_turn in E. destruct (userver_step db_session db_shutdown pol (wd_server w) (UAccept c true buf)) as [[s' m]|] eqn:Es; [|discriminate E].
      cbn [obind server_mark] in E. injection E as <- <-.
      destruct (member c (as_pending (us_listener (wd_server w)))) eqn:Hc.
      * destruct (accept_sim handler pol w n (server_marks l0) None c buf s' m S U D Ty Logic.I Hc Es) as (n' & os & N0 & N1 & N2 & N3 & N4 & N5).
        exists n', os. split; [exact N0|]. split; [exact N1|]. constructor; cbn [wd_client wd_server wd_links wd_up wd_down]; try assumption.
        -- exact (cpart_same _ _ _ C N5).
        -- rewrite client_marks_app, marks_ws', app_nil_r, T. symmetry. apply turned_same. exact N5.
        -- rewrite server_marks_app, marks_ws. exact N2.
      * cbn [userver_step] in Es. unfold listener_turn in Es. cbn [aserver_step] in Es. rewrite Hc in Es. cbn [obind listener_outputs] in Es. injection Es as <- <-.
        exists n, []. split; [apply (others_ws [ListenIn (AAccept c true)])|]. split; [constructor|].
        constructor; cbn [wd_client wd_server wd_links wd_up wd_down]; try assumption.
        -- rewrite client_marks_app. cbn [map client_marks flat_map]. rewrite app_nil_r. exact T.
        -- rewrite server_marks_app. eapply (spart_still handler); [exact S|]. apply hush_mark; [|reflexivity].
           apply hush_listener. apply agrow_same; reflexivity.
    + destruct (by_others w c || can_read (wd_up w) (gets_from w c r) x) eqn:Er; [|exact (Skip E)]. eapply Server; [reflexivity|exact Er|exact E].
  - destruct (Nat.ltb g (cn_next_socket (tc_conn (wd_client w))) && negb (existsb (fun x => Nat.eqb (fst x) g) (wd_links w))
         && member c (as_pending (us_listener (wd_server w)))) eqn:Eg; [|exact (Skip E)].
    apply andb_true_iff in Eg. destruct Eg as [Eg Hc]. apply andb_true_iff in Eg. destruct Eg as [_ Hg]. apply negb_true_iff in Hg.
    unfold server_turn in E. cbn [wd_server wd_client wd_links wd_up wd_down] in E.
    destruct (userver_step db_session db_shutdown pol (wd_server w) (UAccept c true buf)) as [[s' m]|] eqn:Es; [|discriminate E].
    cbn [obind] in E. injection E as <- <-.
    destruct (accept_sim handler pol w n (server_marks l0) (Some g) c buf s' m S U D Ty Hg Hc Es) as (n' & os & N0 & N1 & N2 & N3 & N4 & N5).
    exists n', os. split; [exact N0|]. split; [exact N1|]. constructor; cbn [wd_client wd_server wd_links wd_up wd_down]; try assumption.
    + exact (cpart_same _ _ _ C N5).
    + rewrite client_marks_app, marks_ws', app_nil_r, T. symmetry. apply turned_same. exact N5.
    + rewrite server_marks_app, marks_ws. exact N2.
  - destruct (run (call_body c) (us_user (wd_server w))) as [[d r]|] eqn:Ed; [|discriminate E]. cbn [obind] in E. injection E as <- <-.
    exists (set_server n (n_server n) d), [YD c r]. split; [apply (others_none [WD c r]); intros m [K|[]]; discriminate K|]. split.
    + apply nsteps_one. apply (N_local handler pol n c d r Ty). rewrite (sp_user _ _ _ _ S). exact Ed.
    + constructor; cbn [wd_client wd_server wd_links wd_up wd_down].
      * destruct C as [C1 C2 C3 C4 C5]. constructor; assumption.
      * rewrite client_marks_app. cbn [client_marks flat_map]. rewrite app_nil_r. exact T.
      * rewrite server_marks_app. eapply (spart_move handler) with (os := []); [exact S| |reflexivity|reflexivity|auto].
        cbn [set_server n_server n_db]. rewrite (sp_channel _ _ _ _ S). apply hush_refl; [reflexivity|constructor].
      * exact U.
      * exact D.
Qed.

Lemma step_links w e w' l : world_step handler pol w e = Ret (w', l) -> forall c, mine (wd_links w') c ->
  mine (wd_links w) c \/ exists g buf, e = WAccept g c buf.
Proof.
  intros E c M.
  assert (Skip : Ret (w, []) = Ret (w', l) -> mine (wd_links w) c) by (intros K; injection K as <- _; exact M).
  assert (Client : forall x, client_turn handler pol w x = Ret (w', l) -> mine (wd_links w) c).
  { intros x K. unfold client_turn in K. destruct (tcp_step handler pol (wd_client w) x) as [[t k]|]; [|discriminate K].
    cbn [obind] in K. injection K as <- _. exact M. }
  assert (Server : forall w0 x, server_turn pol w0 x = Ret (w', l) -> wd_links w' = wd_links w0).
  { intros w0 x K. unfold server_turn in K. destruct (userver_step db_session db_shutdown pol (wd_server w0) x) as [[t k]|]; [|discriminate K].
    cbn [obind] in K. injection K as <- _. reflexivity. }
  assert (Server' : forall x, server_turn pol w x = Ret (w', l) -> mine (wd_links w) c) by (intros x K; rewrite <- (Server _ _ K); exact M).
  destruct e as [x|x|g c' b|k]; cbn [world_step] in E.
  - left. destruct x; try exact (Client _ E). destruct (can_read _ _ _); [exact (Client _ E)|exact (Skip E)].
  - left. destruct x; try exact (Server' _ E). destruct (_ || _); [exact (Server' _ E)|exact (Skip E)].
  - destruct (_ && _); [|left; exact (Skip E)]. destruct (Nat.eq_dec c c') as [->|Ne]; [right; eauto|]. left.
    unfold mine in *. rewrite (Server _ _ E) in M. cbn [wd_links] in M. rewrite socket_ne in M by exact Ne. exact M.
  - left. destruct (run (call_body k) (us_user (wd_server w))) as [[d r]|]; [|discriminate E]. cbn [obind] in E. injection E as <- _. exact M.
Qed.

Lemma sim_run units max buf u es : forall es0 w n l0 w' l, sides handler pol units max buf u es0 w l0 -> sim w n l0 -> world_run handler pol w es = Ret (w', l) ->
  Forall typed_wevent es -> walways handler pol (@careful strict W) w es ->
  in_turn None (conn_outs (client_marks (l0 ++ l))) ->
  (forall c, mine (wd_links w) c \/ (exists g b, In (WAccept g c b) es) -> ends_at_failure (peer_outs c (server_marks (l0 ++ l)))) ->
  exists n' os, observed_with_others l os /\ nsteps handler pol n os n' /\ sim w' n' (l0 ++ l).
Proof.
  induction es as [|e es IH]; intros es0 w n l0 w' l Sd S E Ty Ca Ht He; cbn [world_run] in E.
  - injection E as <- <-. exists n, []. split; [exists []; split; [constructor|reflexivity]|]. split; [constructor|]. rewrite app_nil_r. exact S.
  - destruct (world_step handler pol w e) as [[w1 l1]|] eqn:E1; [|discriminate E]. cbn [obind] in E.
    destruct (world_run handler pol w1 es) as [[w2 l2]|] eqn:E2; [|discriminate E]. cbn [obind] in E. injection E as <- <-.
    inversion Ty as [|? ? T1 T2]; subst. cbn [walways] in Ca. destruct Ca as [C1 C2]. rewrite app_assoc in Ht, He.
    destruct (sides_history _ _ _ _ _ _ _ _ _ Sd) as [Hok Hal].
    destruct (sim_step w n l0 e w1 l1 S E1 T1 C1 (sd_wf _ _ _ _ _ _ _ _ _ Sd) Hok Hal) as (n1 & os1 & O1 & N1 & S1).
    { rewrite client_marks_app, conn_outs_app, in_turn_app in Ht. exact (proj1 Ht). }
    { intros c M. specialize (He c (or_introl M)). rewrite server_marks_app, peer_outs_app in He. exact (ends_prefix _ _ He). }
    destruct (IH _ w1 n1 (l0 ++ l1) w2 l2 (sides_step _ _ _ _ _ _ _ _ _ _ _ _ Sd T1 E1) S1 E2 T2 (C2 _ _ E1) Ht) as (n2 & os2 & O2 & N2 & S2).
    { intros c [M|(g & b & M)]; apply He.
      - destruct (step_links _ _ _ _ E1 c M) as [K|(g & b & ->)]; [left; exact K|right; exists g, b; left; reflexivity].
      - right. exists g, b. right. exact M. }
    exists n2, (os1 ++ os2). split; [apply others_app; assumption|]. rewrite app_assoc. split; [exact (nsteps_app _ _ _ _ _ _ _ N1 N2)|exact S2].
Qed.

Lemma careful_always es : forall w, walways handler pol whole_frames w es -> walways handler pol one_attempt w es ->
  (strict = true -> walways handler pol timely_writes w es) -> walways handler pol (@careful strict W) w es.
Proof.
  induction es as [|e es IH]; intros w A B D; [exact Logic.I|]. destruct A as [A1 A2], B as [B1 B2].
  split; [exact (careful_both _ _ A1 B1 (fun K => proj1 (D K)))|]. intros w' l E. exact (IH w' (A2 _ _ E) (B2 _ _ E) (fun K => proj2 (D K) _ _ E)).
Qed.

Lemma sim_init units max d buf u : sim (world_init units max d buf u) (net_init units d buf u) [].
Proof.
  constructor; cbn [world_init wd_client wd_server wd_links wd_up wd_down]; try reflexivity.
  - constructor; try reflexivity.
    + cbn [tclient_init tc_conn net_init n_cur n_out]. constructor; cbn; try apply wl_init; try lia; try discriminate; try contradiction.
      * intros _ [K|K]; congruence.
      * intros _ [K|K]; congruence.
    + intros K. cbn in K. unfold goes_down in K. cbn in K. intuition discriminate.
    + unfold upright. cbn. intros (_ & K & _). discriminate K.
  - constructor; cbn; try reflexivity; try discriminate; try contradiction.
Qed.

Hypothesis sess : session_handler handler.

Lemma world_sound units max d F0 buf u es w l : Forall u8 units -> good_buf buf -> reachable_db d -> holds d F0 -> Forall typed_wevent es ->
  world_run handler pol (world_init units max d buf u) es = Ret (w, l) -> orderly handler pol (world_init units max d buf u) es l ->
  (strict = true -> walways handler pol timely_writes (world_init units max d buf u) es) ->
  exists n os, observed_with_others l os /\ sim w n l /\ sound handler pol units F0 n os.
Proof.
  intros Hu Hb Hd Hh Ty E (Oa & Ob & O2 & O3) Oc. assert (O1 := careful_always _ _ Oa Ob Oc).
  destruct (sim_run units max buf u es [] _ _ [] _ _ (sides_init handler pol units max d buf u Hu (reachable_wf _ Hd)) (sim_init units max d buf u) E Ty O1 O2) as (n & os & On & N & S).
  { intros c [K|(g & b & K)]; [destruct (K eq_refl)|exact (O3 _ _ _ K)]. }
  exists n, os. split; [exact On|]. split; [exact S|].
  apply (nsteps_sound handler pol units F0 sess _ _ _ N []). apply net_init_sound; [exact Hb|apply reachable_wf; exact Hd|exact Hh].
Qed.
End Lemmas.

(** Without what others do. *)
Inductive thin : list youtput -> list youtput -> Prop :=
| thin_nil : thin [] []
| thin_keep o a b : thin a b -> thin (o :: a) (o :: b)
| thin_drop c r a b : thin a b -> thin (YD c r :: a) b.

Lemma thin_refl l : thin l l.
Proof. induction l; constructor; assumption. Qed.

Lemma thin_app a b c d : thin a b -> thin c d -> thin (a ++ c) (b ++ d).
Proof. induction 1; intros K; cbn [app]; [exact K| |]; constructor; auto. Qed.

Lemma others_thin l os : observed_with_others l os -> thin os (observed l).
Proof.
  intros (parts & F & ->). induction F as [|m p l parts H _ IH]; [constructor|].
  change (m :: l) with ([m] ++ l). rewrite observed_app. cbn [List.concat]. apply thin_app; [|exact IH].
  destruct m as [m|m|m|c r]; try (cbn [shows] in H; subst p; apply thin_refl).
  destruct m; cbn [shows] in H; try (subst p; apply thin_refl). destruct o; try (subst p; apply thin_refl).
  destruct H as (v & ->). cbn. apply thin_drop. constructor.
Qed.

Lemma thin_client a b : thin a b -> client_outputs a = client_outputs b.
Proof. induction 1 as [|o a b _ IH|c r a b _ IH]; [reflexivity| |exact IH]. unfold client_outputs in *. cbn [flat_map]. rewrite IH. reflexivity. Qed.

Lemma thin_consults a b : thin a b -> consults a = consults b.
Proof. induction 1 as [|o a b _ IH|c r a b _ IH]; [reflexivity| |exact IH]. unfold consults in *. cbn [flat_map]. rewrite IH. reflexivity. Qed.

Lemma thin_in a b o : thin a b -> In (YC o) a <-> In (YC o) b.
Proof.
  induction 1 as [|o' a b _ IH|c r a b _ IH]; [reflexivity| |]; cbn [In]; [rewrite IH; reflexivity|].
  rewrite IH. split; [intros [K|K]; [discriminate K|exact K]|auto].
Qed.

Lemma thin_split x y : thin x y -> forall a o b, y = a ++ o :: b -> exists a' b', x = a' ++ o :: b' /\ thin a' a /\ thin b' b.
Proof.
  induction 1 as [|o' x y T IH|c r x y T IH]; intros a o b E.
  - destruct a; discriminate E.
  - destruct a as [|a0 a]; cbn [app] in E; injection E as -> E.
    + subst y. exists [], x. split; [reflexivity|]. split; [constructor|exact T].
    + destruct (IH a o b E) as (a' & b' & -> & K1 & K2). exists (a0 :: a'), b'. split; [reflexivity|]. split; [constructor; exact K1|exact K2].
  - destruct (IH a o b E) as (a' & b' & -> & K1 & K2). exists (YD c r :: a'), b'. split; [reflexivity|]. split; [constructor; exact K1|exact K2].
Qed.

Lemma few_thin l os : thin os (observed l) -> few_calls l -> few os.
Proof. intros T. unfold few_calls, few. rewrite (thin_client _ _ T). auto. Qed.

Lemma over_the_network {W} (handler : nat -> W -> expected (list N) -> W * list capi) pol units d F0 w0 es w l : Forall u8 units ->
  world_history handler pol units d w0 es w l -> orderly handler pol w0 es l -> holds d F0 ->
  exists os log F, observed_with_others l os /\ holds (us_user (wd_server w)) F /\ accesses os log /\
    calls_spec F0 (map x_call log) (map x_result log) F /\
    NoDup (executed log) /\
    (few_calls l -> forall a i x b, os = a ++ YC (Completed i (Value x)) :: b ->
       exists u r t n v, In (YC (Called i (session_call u r t))) a /\ legal_request r /\
         nth_error log n = Some {| x_call := CRequest r; x_result := RResponse v; x_by := Some i |} /\
         (n < List.length (db_calls a))%nat /\ session_result r (Value x) = Ret v).
Proof.
  intros Hun ((max & buf & u0 & Hb & ->) & Hd & Ty & Hs & E) O Hh.
  destruct (world_sound (strict := false) handler pol Hs units max d F0 buf u0 es w l Hun Hb Hd Hh Ty E O ltac:(discriminate)) as (n & os & On & S & ces & wait & pend & log & V).
  exists os, log, (contents (us_user (wd_server w))). split; [exact On|]. split; [apply holds_contents|].
  split; [apply (nv_log _ _ _ _ _ _ _ _ _ _ V)|].
  split; [rewrite <- (sp_user _ _ _ _ (sm_server _ _ _ S)); apply (nv_calls _ _ _ _ _ _ _ _ _ _ V)|].
  split; [apply (nv_once _ _ _ _ _ _ _ _ _ _ V)|].
  intros Hf a i x b Ea. destruct (nv_done _ _ _ _ _ _ _ _ _ _ V (few_thin _ _ (others_thin _ _ On) Hf) _ _ _ _ Ea) as (q & k & v & Hq & Hw & [H1 H2] & H3).
  destruct Hw as ((_ & _ & Hl) & t & f & Hc & _). subst i. exists (q_unit q), (q_req q), t, k, v. auto 6.
Qed.

Lemma consults_app a b : consults (a ++ b) = consults a ++ consults b.
Proof. apply flat_map_app. Qed.

Lemma snoc_split {A} (a b c : list A) (x y : A) : a ++ [x] = b ++ y :: c -> (c = [] /\ a = b /\ x = y) \/ exists c', c = c' ++ [x] /\ a = b ++ y :: c'.
Proof.
  intros E. destruct (exists_last (l := y :: c)) as (c' & z & Ez); [discriminate|].
  rewrite Ez in E. rewrite app_assoc in E. apply app_inj_tail in E. destruct E as [-> <-].
  destruct c' as [|y' c'].
  - injection Ez as -> ->. left. rewrite app_nil_r. auto.
  - injection Ez as -> ->. right. eauto.
Qed.

Lemma accesses_requested os log : accesses os log -> only_requested os.
Proof.
  intros H. induction H as [|os log o _ IH Ho|os log c r _ IH|os log i u r t tx f x v _ IH Hc Hs].
  - intros a x r b E. destruct a; discriminate E.
  - intros a x r b E. apply snoc_split in E. destruct E as [(-> & -> & ->)|(b' & -> & E)]; [discriminate Ho|]. exact (IH _ _ _ _ E).
  - intros a x r' b E. apply snoc_split in E. destruct E as [(-> & -> & E)|(b' & -> & E)]; [discriminate E|]. exact (IH _ _ _ _ E).
  - intros a x' r' b E. apply snoc_split in E. destruct E as [(-> & -> & E)|(b' & -> & E)]; [|exact (IH _ _ _ _ E)].
    injection E as -> ->. eauto.
Qed.

Lemma accesses_executed os log : accesses os log ->
  Forall2 (fun r i => exists u t, In (YC (Called i (session_call u r t))) os) (consults os) (executed log).
Proof.
  assert (More : forall os o rs l, Forall2 (fun r i => exists u t, In (YC (Called i (session_call u r t))) os) rs l ->
    Forall2 (fun r i => exists u t, In (YC (Called i (session_call u r t))) (os ++ [o])) rs l).
  { intros os0 o rs l F. induction F as [|r i rs l (u & t & H) F IH]; constructor; [|exact IH]. exists u, t. apply in_app_iff. left. exact H. }
  intros H. induction H as [|os log o _ IH Ho|os log c r _ IH|os log i u r t tx f x v _ IH Hc Hs].
  - constructor.
  - rewrite consults_app. replace (consults [o]) with (@nil request); [rewrite app_nil_r; apply More; exact IH|].
    destruct o as [o|[]|]; try reflexivity. discriminate Ho.
  - rewrite consults_app, executed_app. cbn. rewrite !app_nil_r. apply More. exact IH.
  - rewrite consults_app, executed_app. apply Forall2_app; [apply More; exact IH|]. constructor; [|constructor].
    exists u, t. apply in_app_iff. left. exact Hc.
Qed.

Lemma accesses_nth os log : accesses os log -> forall n r v i,
  nth_error log n = Some {| x_call := CRequest r; x_result := v; x_by := Some i |} ->
  exists a x b, os = a ++ YS (OConsult x r) :: b /\ List.length (db_calls a) = n.
Proof.
  intros H. induction H as [|os log o A IH Ho|os log c r A IH|os log i u r t tx f x v A IH Hc Hs]; intros m r' v' i' E.
  - destruct m; discriminate E.
  - destruct (IH _ _ _ _ E) as (a & x & b & -> & L). exists a, x, (b ++ [o]). rewrite <- app_assoc. auto.
  - destruct (Nat.lt_ge_cases m (List.length log)) as [K|K].
    + rewrite nth_error_app1 in E by exact K. destruct (IH _ _ _ _ E) as (a & x & b & -> & L). exists a, x, (b ++ [YD c r]). rewrite <- app_assoc. auto.
    + rewrite nth_error_app2 in E by exact K. destruct (m - List.length log)%nat as [|[|k]]; discriminate E.
  - destruct (Nat.lt_ge_cases m (List.length log)) as [K|K].
    + rewrite nth_error_app1 in E by exact K. destruct (IH _ _ _ _ E) as (a & y & b & -> & L). exists a, y, (b ++ [YS (OConsult x r)]). rewrite <- app_assoc. auto.
    + rewrite nth_error_app2 in E by exact K. destruct (m - List.length log)%nat as [|[|k]] eqn:Em; try discriminate E.
      injection E as -> _ _. exists os, x, []. split; [reflexivity|]. rewrite (accesses_length _ _ A). lia.
Qed.

Lemma consult_before a : forall b a' b' o y r, a ++ o :: b = a' ++ YS (OConsult y r) :: b' ->
  (List.length (db_calls a') < List.length (db_calls a))%nat -> In r (consults a).
Proof.
  induction a as [|x a IH]; intros b a' b' o y r E L; [cbn in L; lia|]. destruct a' as [|x' a'].
  - cbn [app] in E. injection E as -> _. left. reflexivity.
  - cbn [app] in E. injection E as <- E. change (x :: a) with ([x] ++ a). rewrite consults_app. apply in_app_iff. right.
    change (x :: a') with ([x] ++ a') in L. change (x :: a) with ([x] ++ a) in L. rewrite !db_calls_app, !app_length in L.
    apply (IH b a' b' o y r E). lia.
Qed.

Section Simple.
Context {W : Type} (handler : nat -> W -> expected (list N) -> W * list capi) (pol : copy_policy).

Lemma network_requested units d w0 es w l : Forall u8 units ->
  world_history handler pol units d w0 es w l -> orderly handler pol w0 es l -> only_requested (observed l).
Proof.
  intros Hu H O. destruct (over_the_network handler pol units d _ w0 es w l Hu H O (holds_contents d)) as (os & log & F & On & _ & A & _).
  intros a x r b E. destruct (thin_split _ _ (others_thin _ _ On) a _ b E) as (a' & b' & E' & T & _).
  destruct (accesses_requested _ _ A a' x r b' E') as (i & u & t & K). exists i, u, t. apply (thin_in _ _ _ T). exact K.
Qed.

Lemma network_once units d w0 es w l : Forall u8 units ->
  world_history handler pol units d w0 es w l -> orderly handler pol w0 es l -> at_most_once (observed l).
Proof.
  intros Hu H O. destruct (over_the_network handler pol units d _ w0 es w l Hu H O (holds_contents d)) as (os & log & F & On & _ & A & _ & N & _).
  exists (executed log). split; [exact N|]. assert (T := others_thin _ _ On). rewrite <- (thin_consults _ _ T).
  clear N. induction (accesses_executed _ _ A) as [|r i rs js (u & t & K) _ IH]; [constructor|]. constructor; [|exact IH]. exists u, t. apply (thin_in _ _ _ T). exact K.
Qed.

Lemma network_answered units d w0 es w l : Forall u8 units ->
  world_history handler pol units d w0 es w l -> orderly handler pol w0 es l -> few_calls l -> only_answered (observed l).
Proof.
  intros Hu H O Hf. destruct (over_the_network handler pol units d _ w0 es w l Hu H O (holds_contents d)) as (os & log & F & On & _ & A & _ & _ & D).
  intros a i x b E. destruct (thin_split _ _ (others_thin _ _ On) a _ b E) as (a' & b' & E' & T & _).
  destruct (D Hf a' i x b' E') as (u & r & t & n & v & H1 & _ & H3 & H4 & _). exists u, r, t. split; [apply (thin_in _ _ _ T); exact H1|].
  rewrite <- (thin_consults _ _ T).
  destruct (accesses_nth _ _ A _ _ _ _ H3) as (a2 & y & b2 & E2 & L). rewrite E' in E2. clear -E2 L H4.
  exact (consult_before a' b' a2 b2 _ y r E2 ltac:(lia)).
Qed.
End Simple.
