(** Proofs about the bytes received over several connections (ClientConn.v). *)
From Verif Require Import Prelude Ser4 Mbap SpecPdu SpecMbap MbapFacts MbapLemmas AsyncWrite ClientConn ServerConn SpecConn WriteFacts ConnFacts ConnRecover.
From Coq Require Import Lia.

(** What was received since the last reset of the parser. *)
Definition recent (os : list noutput) : list (nat * list N) :=
  fold_left (fun acc o => match o with Received g d => acc ++ [(g, d)] | Failed => [] | _ => acc end) os [].

Lemma recent_app : forall a b, recent (a ++ b) =
  fold_left (fun acc o => match o with Received g d => acc ++ [(g, d)] | Failed => [] | _ => acc end) b (recent a).
Proof. intros. apply fold_left_app. Qed.

Definition quiet (o : noutput) : Prop := match o with Received _ _ | Failed => False | _ => True end.

Lemma recent_quiet : forall b a, Forall quiet b -> recent (a ++ b) = recent a.
Proof.
  intros b a H. rewrite recent_app. generalize (recent a) as l. clear a.
  induction H as [|x b Hx H IH]; intro l; [reflexivity|]. cbn. rewrite IH. destruct x; cbn in Hx; tauto.
Qed.

Lemma quiet_writes : forall ow, Forall quiet (map Write ow).
Proof. induction ow; cbn; constructor; cbn; auto. Qed.

Record stream_inv (s : cconn) (os : list noutput) : Prop := {
  si_one : (List.length (cn_reads s) <= 1)%nat;
  si_recent : cn_shutdown s = false -> forall g d, In (g, d) (recent os) ->
                exists r x, cn_reads s = [(r, x)] /\ (x = None \/ x = Some g);
  si_socket : forall r g, In (r, Some g) (cn_reads s) -> cn_socket s = Some g \/ cn_socket s = None;
  si_sep : forall a g d m g' d' b, os = a ++ Received g d :: m ++ Received g' d' :: b -> g' <> g -> In Failed m
}.

Lemma one_read : forall l r g, (List.length l <= 1)%nat -> find_read l r = Some g -> l = [(r, g)].
Proof.
  intros [|[r' g'] [|]] r g L F; cbn in L, F; try discriminate; try lia.
  destruct (Nat.eqb_spec r' r); [|discriminate]. congruence.
Qed.

Lemma sep_quiet : forall os o, (forall a g d m g' d' b, os = a ++ Received g d :: m ++ Received g' d' :: b -> g' <> g -> In Failed m) ->
  (forall g d, ~ In (Received g d) o) ->
  forall a g d m g' d' b, os ++ o = a ++ Received g d :: m ++ Received g' d' :: b -> g' <> g -> In Failed m.
Proof.
  intros os o H Q a g d m g' d' b E N.
  replace (a ++ Received g d :: m ++ Received g' d' :: b) with ((a ++ Received g d :: m) ++ Received g' d' :: b) in E
    by (rewrite <- app_assoc; reflexivity).
  apply split_app in E as [(b' & E & _)|(a' & E & _)].
  - eapply H; [|exact N]. rewrite E, <- app_assoc. reflexivity.
  - exfalso. apply (Q g' d'). rewrite E. apply in_elt.
Qed.

(** If nothing failed after it, what was received is recent. *)
Lemma recent_In : forall m a g d, ~ In Failed m -> In (g, d) (recent (a ++ Received g d :: m)).
Proof.
  intros m a g d H. replace (a ++ Received g d :: m) with ((a ++ [Received g d]) ++ m) by (rewrite <- app_assoc; reflexivity).
  rewrite recent_app.
  assert (K : In (g, d) (recent (a ++ [Received g d]))) by (rewrite recent_app; cbn; apply in_or_app; right; left; reflexivity).
  revert K. generalize (recent (a ++ [Received g d])) as l. clear a.
  induction m as [|x m IH]; intros l K; [exact K|]. cbn. apply IH; [intro Z; apply H; right; exact Z|].
  destruct x; auto; [apply in_or_app; auto|]. exfalso. apply H. left. reflexivity.
Qed.

Lemma stream_same : forall s s' os o, stream_inv s os -> Forall quiet o -> cn_reads s' = cn_reads s ->
  (cn_shutdown s' = false -> cn_shutdown s = false) ->
  (cn_socket s' = cn_socket s \/ cn_socket s' = None \/ cn_reads s = []) -> stream_inv s' (os ++ o).
Proof.
  intros s s' os o [I1 I2 I3 I4] Q R SD SK. constructor.
  - rewrite R. exact I1.
  - intros Z g d H. rewrite recent_quiet in H by exact Q. rewrite R. eauto.
  - intros r g H. rewrite R in H. destruct SK as [SK | [SK | SK]]; [rewrite SK; eauto|auto|rewrite SK in H; destruct H].
  - apply sep_quiet; [exact I4|]. intros g d K. rewrite Forall_forall in Q. exact (Q _ K).
Qed.

(** A failure clears everything. *)
Lemma stream_failed : forall s s' os o, stream_inv s os -> Forall quiet o ->
  (List.length (cn_reads s') <= 1)%nat ->
  (forall r g, In (r, Some g) (cn_reads s') -> cn_socket s' = Some g \/ cn_socket s' = None) ->
  stream_inv s' (os ++ o ++ [Failed]).
Proof.
  intros s s' os o [I1 I2 I3 I4] Q R SK. constructor; [exact R| |exact SK|].
  - intros _ g d H. rewrite app_assoc, recent_app in H. cbn in H. destruct H.
  - apply sep_quiet; [exact I4|]. intros g d K. apply in_app_or in K as [K|[K|[]]]; [|discriminate K].
    rewrite Forall_forall in Q. exact (Q _ K).
Qed.

Lemma in_dec_failed : forall m, In Failed m \/ ~ In Failed m.
Proof.
  induction m as [|x m IH]; [right; intros []|]. destruct IH as [IH|IH]; [left; right; exact IH|].
  destruct x; try (left; left; reflexivity); right; intros [K|K]; try discriminate K; exact (IH K).
Qed.

Lemma stream_step : forall s os e s' o, stream_inv s os -> reads_settled s e -> conn_step s e = Ret (s', o) ->
  (forall g, ~ In (PeerClosed g) o) -> stream_inv s' (os ++ o).
Proof.
  intros s os e s' o I A E NP.
  assert (IR := I). destruct IR as [I1 I2 I3 I4].
  destruct e as [d x| | |ok|g ok|r x|w n|w ok]; cbn [conn_step] in E; cbn in A.
  - unret s E. unfold conn_send in E. destruct (cn_shutdown s) eqn:SD.
    { injection E as <- <-. apply (stream_same s); auto. }
    cbn [cn_status with_writer] in E. destruct (cn_status s) eqn:ST.
    + specialize (A eq_refl). destruct (negb (su_address x)); [injection E as <- <-; apply (stream_same s); cbn; auto; repeat constructor|].
      destruct (negb (su_open x) || _); [injection E as <- <-; apply (stream_same s); cbn; auto; repeat constructor|].
      destruct (negb (su_bind x)); injection E as <- <-; apply (stream_same s); cbn; auto; repeat constructor.
    + injection E as <- <-. apply (stream_same s); cbn; auto.
    + apply send_buffer_frame in E as (ow & -> & _ & _ & E3 & _ & E5 & _ & E7 & _). cbn in E3, E5, E7.
      apply (stream_same s); auto; [apply quiet_writes].
  - injection E as <- <-. apply (stream_same s); cbn; auto.
  - destruct (cn_queue s) as [|[|] q]; [injection E as <- <-; apply (stream_same s); auto| |].
    + unret s E. unfold do_close in E. cbn [cn_shutdown with_nqueue cn_socket with_status] in E. destruct (cn_shutdown s) eqn:SD.
      * injection E as <- <-. apply (stream_same s); cbn; auto.
      * destruct (cn_socket s) eqn:SK; injection E as <- <-; apply (stream_same s); cbn; auto; repeat constructor.
    + injection E as <- <-. apply (stream_same s); cbn; auto. discriminate.
  - destruct (cn_resolves s); [injection E as <- <-; apply (stream_same s); auto|]. unret s E. unfold resolve_handler in E.
    cbn [cn_shutdown with_resolves] in E. destruct (cn_shutdown s) eqn:SD; [injection E as <- <-; apply (stream_same s); cbn; auto|].
    destruct ok; cbn [negb] in E; injection E as <- <-.
    + apply (stream_same s); cbn; auto.
    + apply (stream_failed s _ os []); cbn; auto.
  - destruct (existsb _ _); [|injection E as <- <-; apply (stream_same s); auto]. unret s E. unfold connect_handler in E.
    cbn [cn_shutdown with_connects] in E. destruct (cn_shutdown s) eqn:SD; [injection E as <- <-; apply (stream_same s); cbn; auto|].
    destruct ok; cbn [negb] in E.
    + destruct (send_buffer _) as [s1 o1] eqn:B. injection E as <- <-.
      apply send_buffer_frame in B as (ow & -> & _ & _ & E3 & _ & E5 & _ & E7 & _). cbn in E3, E5, E7.
      assert (Q : Forall quiet (Established g :: map Write ow)) by (constructor; [exact Logic.I|apply quiet_writes]).
      assert (RN : recent os = []).
      { destruct (recent os) as [|[g0 d0] l] eqn:RC; [reflexivity|]. destruct (I2 eq_refl g0 d0) as (r & y & R & _); [left; reflexivity|].
        rewrite A in R. discriminate R. }
      unfold begin_read. rewrite E7, SD. constructor.
      * cbn. rewrite E3, A. cbn. lia.
      * intros _ g0 d0 H. rewrite recent_quiet in H by exact Q. rewrite RN in H. destruct H.
      * intros r g0 H. cbn in H |- *. rewrite E3, A in H. cbn in H. destruct H as [H|[]]. injection H as _ H. auto.
      * apply sep_quiet; [exact I4|]. intros g0 d0 K. rewrite Forall_forall in Q. exact (Q _ K).
    + injection E as <- <-. apply (stream_failed s _ os []); auto; unfold conn_close; cbn [cn_shutdown with_connects]; rewrite SD; cbn; auto.
  - destruct (find_read _ _) as [g|] eqn:F; [|injection E as <- <-; apply (stream_same s); auto].
    destruct (possible g x) eqn:P; [|injection E as <- <-; apply (stream_same s); auto].
    apply one_read in F; [|exact I1].
    unret s E. unfold read_handler in E. cbn [cn_shutdown with_reads] in E. rewrite F in E. cbn [filter fst] in E.
    rewrite Nat.eqb_refl in E. cbn [negb] in E.
    destruct (cn_shutdown s) eqn:SD.
    { injection E as <- <-. constructor; cbn; try lia; try tauto; [congruence|]. rewrite app_nil_r. exact I4. }
    destruct x as [d| |]; destruct g as [g|]; try discriminate P.
    + injection E as <- <-. unfold begin_read. cbn [cn_shutdown with_reads]. rewrite SD.
      assert (G : forall g0 d0, In (g0, d0) (recent os) -> g0 = g).
      { intros g0 d0 H. destruct (I2 eq_refl _ _ H) as (r0 & y & R & Y). rewrite F in R. injection R as <- <-. destruct Y as [Y|Y]; congruence. }
      assert (SK : cn_socket s = Some g \/ cn_socket s = None) by (apply (I3 r); rewrite F; left; reflexivity).
      constructor.
      * cbn. lia.
      * intros _ g0 d0 H. rewrite recent_app in H. cbn in H. cbn. exists (cn_next_read s), (cn_socket s). split; [reflexivity|].
        assert (g0 = g); [|subst; tauto]. apply in_app_or in H as [H|[H|[]]]; [eauto|congruence].
      * cbn. intros r0 g0 [H|[]]. injection H as _ H. auto.
      * intros a g0 d0 m g' d' b EO N.
        replace (a ++ Received g0 d0 :: m ++ Received g' d' :: b) with ((a ++ Received g0 d0 :: m) ++ Received g' d' :: b) in EO
          by (rewrite <- app_assoc; reflexivity).
        apply split_app in EO as [(b' & EO & _)|(a' & EO & EA)].
        -- eapply I4; [|exact N]. rewrite EO, <- app_assoc. reflexivity.
        -- destruct a' as [|z a']; [|destruct a'; discriminate EO]. injection EO as <- <- <-. rewrite app_nil_r in EA. subst os.
           destruct (in_dec_failed m) as [K|K]; [exact K|]. exfalso. apply N. symmetry. apply (G g0 d0). apply recent_In, K.
    + injection E as <- <-. exfalso. apply (NP g). left. reflexivity.
    + injection E as <- <-. apply (stream_failed s _ os []); auto; unfold conn_close; cbn [cn_shutdown with_reads]; rewrite SD; cbn; try lia; tauto.
    + injection E as <- <-. apply (stream_failed s _ os []); auto; unfold conn_close; cbn [cn_shutdown with_reads]; rewrite SD; cbn; try lia; tauto.
  - destruct (w_transfer (cn_writer s) w n) as [[c ow]|] eqn:W; cbn [obind] in E; [|discriminate]. injection E as <- <-.
    apply (stream_same s); cbn; auto. apply quiet_writes.
  - unret s E. unfold write_handler in E.
    destruct (w_complete (cn_writer s) w ok) as [[c ow]|] eqn:W; [|injection E as <- <-; apply (stream_same s); auto].
    destruct (cn_shutdown s) eqn:SD; [injection E as <- <-; apply (stream_same s); cbn; auto|].
    destruct ok; injection E as <- <-.
    + apply (stream_same s); cbn; auto. apply Forall_app. split; [apply quiet_writes|repeat constructor].
    + apply (stream_failed s); auto; [apply quiet_writes| |]; unfold conn_close; cbn [cn_shutdown with_writer]; rewrite SD; cbn; auto.
Qed.

Lemma stream_run : forall es s os, conn_run cconn_init es = Ret (s, os) -> always reads_settled cconn_init es ->
  (forall g, ~ In (PeerClosed g) os) -> stream_inv s os.
Proof.
  intros es s os E A NP.
  assert (K : (forall g, ~ In (PeerClosed g) ([] ++ os)) -> stream_inv s ([] ++ os)).
  { apply (run_ind reads_settled (fun s os => (forall g, ~ In (PeerClosed g) os) -> stream_inv s os)) with (es := es) (s := cconn_init) (os := []); auto.
    - intros s1 os1 e s' o I P St N. eapply stream_step; eauto.
      + apply I. intros g K. apply (N g), in_or_app. auto.
      + intros g K. apply (N g), in_or_app. auto.
    - intros _. constructor; cbn; try lia; try tauto. intros a g d m g' d' b Z. destruct a; discriminate Z. }
  exact (K NP).
Qed.

Theorem connections_separated : forall es s os, conn_run cconn_init es = Ret (s, os) -> always reads_settled cconn_init es ->
  (forall g, ~ In (PeerClosed g) os) ->
  forall a g d m g' d' b, os = a ++ Received g d :: m ++ Received g' d' :: b -> g' <> g -> In Failed m.
Proof. intros es s os E A NP. exact (si_sep _ _ (stream_run _ _ _ E A NP)). Qed.

(** ** Decoding on a new connection *)
Lemma output_at : forall es s0 s os a x b, conn_run s0 es = Ret (s, os) -> os = a ++ x :: b ->
  exists es1 e es2 s1 s2 o1 a2 b2, es = es1 ++ e :: es2 /\ conn_run s0 es1 = Ret (s1, o1) /\
    conn_step s1 e = Ret (s2, a2 ++ x :: b2) /\ a = o1 ++ a2.
Proof.
  induction es as [|e es IH]; intros s0 s os a x b E EO; cbn [conn_run] in E.
  - injection E as <- <-. destruct a; discriminate EO.
  - destruct (conn_step s0 e) as [[s1 o1]|] eqn:S; cbn [obind] in E; [|discriminate].
    destruct (conn_run s1 es) as [[s2 o2]|] eqn:R; cbn [obind] in E; [|discriminate]. injection E as <- <-.
    apply split_app in EO as [(b' & EO & _)|(a' & EO & ->)].
    + exists [], e, es, s0, s1, [], a, b'. rewrite <- EO. repeat split; auto.
    + destruct (IH _ _ _ _ _ _ R EO) as (es1 & e' & es2 & s3 & s4 & o3 & a2 & b2 & -> & R1 & S1 & ->).
      exists (e :: es1), e', es2, s3, s4, (o1 ++ o3), a2, b2. repeat split; auto.
      * cbn [conn_run]. rewrite S. cbn [obind]. rewrite R1. reflexivity.
      * apply app_assoc.
Qed.

Lemma established_step : forall s e s' a g b, conn_step s e = Ret (s', a ++ Established g :: b) ->
  (exists ok, e = NConnected g ok) /\ a = [] /\ cn_shutdown s = false.
Proof.
  intros s e s' a g b E. assert (H : In (Established g) (a ++ Established g :: b)) by apply in_elt. remember (a ++ Established g :: b) as o eqn:EO.
  destruct e as [d x| | |ok|g' ok|r x|w n|w ok]; cbn [conn_step] in E.
  - exfalso. unret s E. unfold conn_send in E. destruct (cn_shutdown s); [injection E as <- <-; destruct H|].
    cbn [cn_status with_writer] in E. destruct (cn_status s).
    + destruct (negb (su_address x)); [injection E as <- <-; destruct H as [H|[]]; discriminate H|].
      destruct (negb (su_open x) || _); [injection E as <- <-; destruct H as [H|[]]; discriminate H|].
      destruct (negb (su_bind x)); injection E as <- <-; destruct H as [H|[]]; discriminate H.
    + injection E as <- <-. destruct H.
    + apply send_buffer_frame in E as (ow & -> & _). apply in_map_iff in H as (y & K & _). discriminate K.
  - injection E as <- <-. destruct H.
  - exfalso. destruct (cn_queue s) as [|[|] q]; [injection E as <- <-; destruct H| |].
    + unret s E. unfold do_close in E. cbn [cn_shutdown with_nqueue cn_socket with_status] in E.
      destruct (cn_shutdown s); [injection E as <- <-; destruct H|].
      destruct (cn_socket s); injection E as <- <-; [destruct H as [H|[]]; discriminate H|destruct H].
    + injection E as <- <-. destruct H.
  - exfalso. destruct (cn_resolves s); [injection E as <- <-; destruct H|]. unret s E. unfold resolve_handler in E.
    cbn [cn_shutdown with_resolves] in E. destruct (cn_shutdown s); [injection E as <- <-; destruct H|].
    destruct ok; cbn [negb] in E; injection E as <- <-; [destruct H|destruct H as [H|[]]; discriminate H].
  - destruct (existsb _ _); [|injection E as <- <-; destruct H]. unret s E. unfold connect_handler in E.
    cbn [cn_shutdown with_connects] in E. destruct (cn_shutdown s) eqn:SD; [injection E as <- <-; destruct H|].
    destruct ok; cbn [negb] in E; [|injection E as <- <-; destruct H as [H|[]]; discriminate H].
    destruct (send_buffer _) as [s1 o1] eqn:B. injection E as <- <-. apply send_buffer_frame in B as (ow & -> & _).
    destruct a as [|z a]; cbn [app] in EO.
    + injection EO as <- _. eauto.
    + exfalso. injection EO as _ EO. assert (K : In (Established g) (map Write ow)) by (rewrite EO; apply in_elt).
      apply in_map_iff in K as (y & K & _). discriminate K.
  - exfalso. destruct (find_read _ _) as [g'|]; [|injection E as <- <-; destruct H].
    destruct (possible g' x); [|injection E as <- <-; destruct H].
    unret s E. unfold read_handler in E. cbn [cn_shutdown with_reads] in E. destruct (cn_shutdown s); [injection E as <- <-; destruct H|].
    destruct x, g'; injection E as <- <-; cbn in H; destruct H as [H|[]] || destruct H; discriminate H.
  - exfalso. destruct (w_transfer (cn_writer s) w n) as [[c ow]|] eqn:W; cbn [obind] in E; [|discriminate]. injection E as <- <-.
    apply in_map_iff in H as (y & K & _). discriminate K.
  - exfalso. unret s E. unfold write_handler in E. destruct (w_complete (cn_writer s) w ok) as [[c ow]|]; [|injection E as <- <-; destruct H].
    destruct (cn_shutdown s); [injection E as <- <-; destruct H|].
    destruct ok; injection E as <- <-; apply in_app_or in H as [H|[H|[]]]; try discriminate H; apply in_map_iff in H as (y & K & _); discriminate K.
Qed.

Lemma established_fresh : forall es s os a g b, conn_run cconn_init es = Ret (s, os) -> always reads_settled cconn_init es ->
  (forall g, ~ In (PeerClosed g) os) -> os = a ++ Established g :: b -> recent a = [].
Proof.
  intros es s os a g b E A NP EO.
  destruct (output_at _ _ _ _ _ _ _ E EO) as (es1 & e & es2 & s1 & s2 & o1 & a2 & b2 & -> & R & S & ->).
  destruct (always_app _ _ _ _ _ _ A R) as [A1 [A2 _]].
  destruct (established_step _ _ _ _ _ _ S) as ((ok & ->) & -> & SD). cbn in A2. rewrite app_nil_r in *.
  assert (I : stream_inv s1 o1).
  { apply (stream_run es1); auto. intros h K. apply (NP h). rewrite EO. apply in_or_app. auto. }
  destruct (recent o1) as [|[g0 d0] l] eqn:RC; [reflexivity|].
  destruct (si_recent _ _ I SD g0 d0) as (r & y & R0 & _); [rewrite RC; left; reflexivity|]. rewrite A2 in R0. discriminate R0.
Qed.

Lemma fresh_ops : forall a, recent a = [] -> parser_ops a = [] \/ exists l, parser_ops a = l ++ [Reset].
Proof.
  induction a as [|x a IH] using rev_ind; intro H; [left; reflexivity|].
  unfold parser_ops in *. rewrite flat_map_app. rewrite recent_app in H. cbn in H.
  destruct x; cbn; rewrite ?app_nil_r; auto; [|right; eexists; reflexivity].
  destruct (recent a); discriminate H.
Qed.

Lemma ops_data : forall b, ~ In Failed b -> parser_ops b = map Chunk (received_data b).
Proof.
  induction b as [|x b IH]; intro H; [reflexivity|]. assert (K : ~ In Failed b) by (intro Z; apply H; right; exact Z).
  specialize (IH K). unfold parser_ops, received_data in *. destruct x; cbn; rewrite ?IH; auto. exfalso. apply H. left. reflexivity.
Qed.

Lemma parser_ops_app : forall a b, parser_ops (a ++ b) = parser_ops a ++ parser_ops b.
Proof. intros. apply flat_map_app. Qed.

Lemma ops_typed : forall os, Forall bytes (received_data os) -> Forall op_bytes (parser_ops os).
Proof.
  induction os as [|x os IH]; intro H; [constructor|]. unfold parser_ops, received_data in *. cbn in H |- *.
  apply Forall_app in H as [H1 H2]. apply Forall_app. split; [|auto]. destruct x; try constructor; cbn; auto.
  inversion H1; subst; auto.
Qed.

Lemma received_app : forall a b, received_data (a ++ b) = received_data a ++ received_data b.
Proof. intros. apply flat_map_app. Qed.

Theorem fresh_decoding : forall es s os a g b c pol buf items tail,
  conn_run cconn_init es = Ret (s, os) -> always reads_settled cconn_init es -> (forall g, ~ In (PeerClosed g) os) ->
  os = a ++ Established g :: b ++ c -> ~ In Failed b ->
  good_buf buf -> Forall bytes (received_data os) -> framed (List.concat (received_data b)) items tail -> no_long items ->
  exists st st' outs,
    mbap_run pol (mbap_new buf) (parser_ops a) = Ret (st, outs) /\
    mbap_run pol (mbap_new buf) (parser_ops (a ++ Established g :: b))
      = Ret (st', outs ++ map item_message (filter deliverable (settled items tail))).
Proof.
  intros es s os a g b c pol buf items tail E A NP EO NF G T F L.
  assert (H := established_fresh _ _ _ _ _ _ E A NP EO).
  assert (TA : Forall bytes (received_data a) /\ Forall bytes (received_data b)).
  { subst os. rewrite received_app in T. apply Forall_app in T as [T1 T2]. split; [exact T1|].
    change (Established g :: b ++ c) with ([Established g] ++ b ++ c) in T2. rewrite !received_app in T2. cbn [received_data flat_map app] in T2.
    apply Forall_app in T2 as [T2 _]. exact T2. }
  destruct TA as [TA TB].
  rewrite parser_ops_app. change (parser_ops (Established g :: b)) with (parser_ops b). rewrite (ops_data b NF).
  destruct (mixed_stream pol buf _ items tail G TB F L) as (st0 & E0).
  destruct (fresh_ops a H) as [O|(l & O)]; rewrite O.
  - do 3 eexists. split; [reflexivity|]. exact E0.
  - assert (TL : Forall op_bytes l). { apply ops_typed in TA. rewrite O in TA. apply Forall_app in TA. tauto. }
    destruct (reset_forgets pol buf buf l (received_data b) items tail G G TL TB F L) as (st & st1 & st2 & o1 & o2 & E1 & E2 & E3).
    rewrite E0 in E2. injection E2 as <- <-. rewrite <- app_assoc. cbn [app].
    do 3 eexists. split; [|exact E3]. rewrite MbapLemmas.run_app, E1. cbn [obind mbap_run]. rewrite app_nil_r. reflexivity.
Qed.
