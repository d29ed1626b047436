(** The accepting server when it is started once. *)
From Verif Require Import Prelude Tac Listener SpecListener ListenerFacts.

Ltac afields := cbn [apost as_shutdown as_num as_max as_list as_pending as_open as_active as_next as_queue] in *.

Lemma loops_bounded max es s os : serves max es s os -> (loops_started os <= starts_of es)%nat.
Proof.
  apply (serves_ind max (fun es s os => (loops_started os <= starts_of es)%nat)).
  - reflexivity.
  - clear. intros es e s os s' o H IH E. pose proof (serves_loops _ _ _ _ H) as L. pose proof (loops_step _ _ _ _ _ L E) as L'.
    rewrite starts_app. unfold loops_started in *. rewrite count_app.
    enough (count (fun o0 => match o0 with Listening => true | _ => false end) o <= match e with AStart => 1 | _ => 0 end)%nat by lia.
    clear - E. unfold count.
    assert (Z : forall s c s' o, remove_connection s c = (s', o) -> filter (fun o0 => match o0 with Listening => true | _ => false end) o = []).
    { intros s0 c s1 o1 X. apply remove_connection_spec in X. destruct X as (_ & _ & _ & _ & [-> | ->]); reflexivity. }
    destruct e as [| | |c ok|c]; cbn [aserver_step] in E.
    + injection E as _ <-. destruct (as_shutdown s); cbn; lia.
    + injection E as _ <-. cbn. lia.
    + destruct (as_queue s) as [|[| |c] q]; [injection E as _ <-; cbn; lia| | |].
      * unfold do_accept in E. afields. destruct (as_shutdown s); injection E as _ <-; cbn; lia.
      * injection E as _ <-. cbn. lia.
      * unfold do_close in E. afields. destruct (member c (as_open s)); [|injection E as _ <-; cbn; lia].
        destruct (remove_connection _ c) as [s1 o1] eqn:RC. injection E as _ <-. cbn [filter]. rewrite (Z _ _ _ _ RC). cbn. lia.
    + destruct (member c (as_pending s)); [|injection E as _ <-; cbn; lia]. unfold handle_accept in E. afields.
      destruct (as_shutdown s); [injection E as _ <-; cbn; lia|]. destruct ok; cbn [negb] in E.
      * match type of E with obind ?e _ = _ => destruct e as [[s1 o1]|] eqn:X; [|discriminate] end. cbn [obind] in E. injection E as _ <-.
        cbn [filter]. rewrite filter_app. replace (filter _ o1) with (@nil aoutput); [cbn; lia|].
        destruct (as_max s <? _); [destruct (as_list s); [discriminate|injection X as X; symmetry; exact (Z _ _ _ _ X)]|injection X as _ <-; reflexivity].
      * destruct (remove_connection _ c) as [s1 o1] eqn:RC. injection E as _ <-. cbn [filter]. rewrite (Z _ _ _ _ RC). cbn. lia.
    + destruct (member c (as_active s)); [|injection E as _ <-; cbn; lia]. unfold connection_error in E. injection E as E. rewrite (Z _ _ _ _ E). cbn. lia.
Qed.

Record once_inv (max : N) (s : aserver) (os : list aoutput) : Prop := {
  o_max : as_max s = max;
  o_list : as_shutdown s = false -> as_list s = live os ++ as_pending s;
  o_down : as_shutdown s = true -> as_list s = [] /\ live os = [];
  o_nodup : NoDup (as_list s);
  o_fresh : forall c, In c (as_list s) \/ In c (as_open s) \/ In c (as_active s) \/ In (Close c) (as_queue s) -> (c < as_next s)%nat;
  o_open : as_open s = open_sockets os;
  o_open_nodup : NoDup (as_open s);
  o_closing : forall c, In c (as_open s) -> In c (as_list s) \/ In (Close c) (as_queue s);
  o_dead : forall c, In (Close c) (as_queue s) -> ~ In c (as_list s);
  o_accepted : forall c, In c (as_open s) \/ In c (as_active s) -> ~ In c (as_pending s);
  o_num : as_shutdown s = false -> as_num s = uint32 (N.of_nat (List.length (live os)) + 2 ^ 32 - N.of_nat (accept_errors os));
  o_limit : N.of_nat (List.length (live os)) <= max
}.

Lemma once_init max : once_inv max (aserver_init max) [].
Proof.
  constructor; cbn; try reflexivity; try constructor; try tauto; try discriminate; try lia.
Qed.

Lemma uint32_small n : n < 2 ^ 32 -> uint32 n = n.
Proof. intros H. apply N.mod_small. exact H. Qed.

Lemma live_other os o : (forall x, In x o -> match x with Accepted _ | Removed _ | ShutDown => False | _ => True end) -> live (os ++ o) = live os.
Proof.
  intros H. rewrite live_app. generalize (live os). induction o as [|x o IH]; intros l; [reflexivity|].
  cbn [fold_left]. replace (live_step l x) with l; [apply IH; intros y I; apply H; right; exact I|].
  specialize (H x (or_introl eq_refl)). destruct x; try reflexivity; contradiction.
Qed.

Lemma open_other os o : (forall x, In x o -> match x with Accepted _ | Closed _ => False | _ => True end) -> open_sockets (os ++ o) = open_sockets os.
Proof.
  intros H. rewrite open_app. generalize (open_sockets os). induction o as [|x o IH]; intros l; [reflexivity|].
  cbn [fold_left]. replace (open_step l x) with l; [apply IH; intros y I; apply H; right; exact I|].
  specialize (H x (or_introl eq_refl)). destruct x; try reflexivity; contradiction.
Qed.

Lemma errors_other os o : (forall x, In x o -> match x with AcceptFailed _ => False | _ => True end) -> accept_errors (os ++ o) = accept_errors os.
Proof.
  intros H. unfold accept_errors. rewrite count_app. replace (count _ o) with 0%nat; [lia|]. unfold count.
  induction o as [|x o IH]; [reflexivity|]. cbn [filter]. pose proof (H x (or_introl eq_refl)) as X.
  destruct x; try contradiction; apply IH; intros y I; apply H; right; exact I.
Qed.

(** Removing a connection that was accepted. *)
Lemma remove_step max s os c s' o :
  once_inv max s os -> accept_errors os = 0%nat \/ (accept_errors os <= 1)%nat -> max < 2 ^ 32 - 1 ->
  ~ In c (as_pending s) -> remove_connection s c = (s', o) -> once_inv max s' (os ++ o).
Proof.
  intros [O1 O2 O3 O4 O5 O6 O7 O8 O9 O10 O11 O12] AE MX NP E. unfold remove_connection in E.
  destruct (member c (as_list s)) eqn:M; injection E as <- <-; [|rewrite app_nil_r; constructor; assumption].
  apply member_in in M. assert (SH : as_shutdown s = false) by (destruct (as_shutdown s); [destruct (O3 eq_refl) as [X _]; rewrite X in M; destruct M|reflexivity]).
  specialize (O2 SH). specialize (O11 SH).
  assert (LV : live (os ++ [Removed c]) = delete c (live os)) by (rewrite live_app; reflexivity).
  assert (IL : In c (live os)) by (rewrite O2 in M; apply in_app_or in M; tauto).
  assert (ND : NoDup (live os)) by (rewrite O2 in O4; clear - O4; induction (live os) as [|x l IH]; [constructor|]; inversion O4; subst; constructor; [intros I; apply H1, in_or_app; left; exact I|apply IH; assumption]).
  pose proof (delete_length c _ ND IL) as DL.
  assert (ER : accept_errors (os ++ [Removed c]) = accept_errors os) by (apply errors_other; intros x [<-|[]]; exact I).
  constructor; afields.
  - exact O1.
  - intros _. rewrite LV, O2, delete_app, (delete_notin c (as_pending s)) by assumption. reflexivity.
  - congruence.
  - apply delete_nodup. exact O4.
  - intros d [I|[I|[I|I]]]; apply O5; [left; apply in_delete in I; tauto|tauto|tauto|].
    apply in_app_or in I. destruct I as [I|[I|[]]]; [tauto|]. injection I as <-. left. exact M.
  - rewrite O6. symmetry. apply open_other. intros x [<-|[]]. exact I.
  - exact O7.
  - intros d I. destruct (Nat.eq_dec d c) as [->|N]; [right; apply in_or_app; right; left; reflexivity|].
    destruct (O8 _ I) as [J|J]; [left; apply in_delete; split; assumption|right; apply in_or_app; left; exact J].
  - intros d I J. apply in_delete in J. destruct J as [J N]. apply in_app_or in I. destruct I as [I|[I|[]]]; [exact (O9 _ I J)|congruence].
  - exact O10.
  - intros _. rewrite ER, LV, O11. unfold uint32.
    assert (Z : 1 <= N.of_nat (List.length (live os))) by lia.
    assert (EQ : N.of_nat (List.length (delete c (live os))) = N.of_nat (List.length (live os)) - 1) by lia.
    rewrite EQ. set (n := N.of_nat (List.length (live os))) in *. set (a := N.of_nat (accept_errors os)).
    assert (A : a <= 1) by (unfold a; lia). clearbody n a. clear - Z A O12 MX.
    change (2 ^ 32) with 4294967296 in *.
    assert (C : a = 0 \/ a = 1) by lia. destruct C as [-> | ->].
    + rewrite N.sub_0_r. replace (n + 4294967296) with (n + 1 * 4294967296) by lia. rewrite N.mod_add by discriminate.
      rewrite (N.mod_small n) by lia. rewrite N.sub_0_r. try reflexivity; f_equal; lia.
    + assert (D : n = 1 \/ 2 <= n) by lia. destruct D as [->|D]; [reflexivity|].
      replace (n + 4294967296 - 1) with (n - 1 + 1 * 4294967296) by lia. rewrite N.mod_add by discriminate.
      rewrite (N.mod_small (n - 1)) by lia. try reflexivity; f_equal; lia.
  - rewrite LV. lia.
Qed.

Lemma once_start_accept max s os : once_inv max s os -> once_inv max (start_accept s) os.
Proof.
  intros O. unfold start_accept. destruct (as_shutdown s) eqn:SH; [exact O|]. destruct O as [O1 O2 O3 O4 O5 O6 O7 O8 O9 O10 O11 O12].
  constructor; afields; try assumption.
  - intros c [I|[I|[I|I]]]; apply O5; try tauto. apply in_app_or in I. destruct I as [I|[I|[]]]; [tauto|discriminate].
  - intros c I. destruct (O8 _ I) as [J|J]; [left; exact J|right; apply in_or_app; left; exact J].
  - intros c I. apply in_app_or in I. destruct I as [I|[I|[]]]; [exact (O9 _ I)|discriminate].
Qed.

(** A posted close of a connection that leaves the list anyway. *)
Lemma once_post_close max s os c : once_inv max s os -> ~ In c (as_list s) -> (c < as_next s)%nat -> once_inv max (apost s [Close c]) os.
Proof.
  intros [O1 O2 O3 O4 O5 O6 O7 O8 O9 O10 O11 O12] NI FR. constructor; afields; try assumption.
  - intros d [I|[I|[I|I]]]; [apply O5; tauto|apply O5; tauto|apply O5; tauto|]. apply in_app_or in I. destruct I as [I|[I|[]]]; [apply O5; tauto|].
    injection I as <-. exact FR.
  - intros d I. destruct (O8 _ I) as [J|J]; [left; exact J|right; apply in_or_app; left; exact J].
  - intros d I. apply in_app_or in I. destruct I as [I|[I|[]]]; [exact (O9 _ I)|injection I as <-; exact NI].
Qed.

Lemma other_outputs (os : list aoutput) x : match x with Accepting _ | AcceptFailed _ | Serving _ | Listening => True | _ => False end ->
  live (os ++ [x]) = live os /\ open_sockets (os ++ [x]) = open_sockets os.
Proof. intros H. rewrite live_app, open_app. destruct x; try contradiction; split; reflexivity. Qed.

Lemma once_step max s os e s' o :
  once_inv max s os -> loops_inv s os -> (loops_started os <= 1)%nat -> max < 2 ^ 32 - 1 ->
  aserver_step s e = Ret (s', o) -> once_inv max s' (os ++ o).
Proof.
  intros O L L1 MX E. pose proof (l_count _ _ L) as LC.
  assert (AE : as_shutdown s = false -> (accept_errors os <= 1)%nat) by (intros SH; specialize (LC SH); lia).
  destruct e as [| | |c ok|c]; cbn [aserver_step] in E.
  - injection E as <- <-. apply once_start_accept in O. destruct (as_shutdown s) eqn:SH; [rewrite app_nil_r; exact O|].
    destruct (other_outputs os Listening I) as [A B]. destruct O. constructor; rewrite ?A, ?B; try assumption.
    rewrite errors_other; [assumption|intros x [<-|[]]; exact I].
  - injection E as <- <-. rewrite app_nil_r. destruct O as [O1 O2 O3 O4 O5 O6 O7 O8 O9 O10 O11 O12]. constructor; afields; try assumption.
    + intros c [I|[I|[I|I]]]; apply O5; try tauto. apply in_app_or in I. destruct I as [I|[I|[]]]; [tauto|discriminate].
    + intros c I. destruct (O8 _ I) as [J|J]; [left; exact J|right; apply in_or_app; left; exact J].
    + intros c I. apply in_app_or in I. destruct I as [I|[I|[]]]; [exact (O9 _ I)|discriminate].
  - destruct (as_queue s) as [|a q] eqn:Q; [injection E as <- <-; rewrite app_nil_r; exact O|].
    destruct a as [| |c].
    + destruct O as [O1 O2 O3 O4 O5 O6 O7 O8 O9 O10 O11 O12]. rewrite Q in *.
      assert (O8' : forall c, In c (as_open s) -> In c (as_list s) \/ In (Close c) q)
        by (intros c I; destruct (O8 _ I) as [J|[J|J]]; [left; exact J|discriminate|right; exact J]).
      assert (O9' : forall c, In (Close c) q -> ~ In c (as_list s)) by (intros c I; apply O9; right; exact I).
      assert (O5' : forall c, In c (as_list s) \/ In c (as_open s) \/ In c (as_active s) \/ In (Close c) q -> (c < as_next s)%nat)
        by (intros c I; apply O5; cbn [In]; tauto).
      unfold do_accept in E. afields. destruct (as_shutdown s) eqn:SH; injection E as <- <-.
      * rewrite app_nil_r. constructor; afields; try assumption; try rewrite SH; try assumption.
      * destruct (other_outputs os (Accepting (as_next s)) I) as [A B]. specialize (O2 eq_refl).
        constructor; afields; rewrite ?A, ?B; try rewrite SH; try assumption; try discriminate.
        -- intros _. rewrite O2, <- app_assoc. reflexivity.
        -- apply nodup_add; [exact O4|]. intros I. assert (as_next s < as_next s)%nat by (apply O5; tauto). lia.
        -- intros c [I|I]; [apply in_app_or in I; destruct I as [I|[<-|[]]]; [|lia]|]; apply Nat.lt_lt_succ_r, O5'; tauto.
        -- intros c I. destruct (O8' _ I) as [J|J]; [left; apply in_or_app; left; exact J|right; exact J].
        -- intros c I J. apply in_app_or in J. destruct J as [J|[<-|[]]]; [exact (O9' _ I J)|].
           assert (as_next s < as_next s)%nat by (apply O5'; tauto). lia.
        -- intros c I J. apply in_app_or in J. destruct J as [J|[<-|[]]]; [exact (O10 _ I J)|].
           assert (as_next s < as_next s)%nat by (apply O5'; tauto). lia.
        -- rewrite errors_other; [assumption|intros x [<-|[]]; exact I].
    + unfold do_shutdown in E. injection E as <- <-. destruct O as [O1 O2 O3 O4 O5 O6 O7 O8 O9 O10 O11 O12]. rewrite Q in *.
      assert (A : live (os ++ [ShutDown]) = []) by (rewrite live_app; reflexivity).
      assert (B : open_sockets (os ++ [ShutDown]) = open_sockets os) by (rewrite open_app; reflexivity).
      assert (CL : forall c, In (Close c) (q ++ map Close (as_list s)) -> In (Close c) q \/ In c (as_list s)).
      { intros c I. apply in_app_or in I. destruct I as [I|I]; [left; exact I|right]. apply in_map_iff in I. destruct I as (d & X & I). injection X as <-. exact I. }
      constructor; afields; rewrite ?A, ?B; try assumption; try discriminate.
      * intros _. split; reflexivity.
      * constructor.
      * intros c [[]|[I|[I|I]]]; [apply O5; tauto|apply O5; tauto|]. apply O5. destruct (CL _ I) as [J|J]; [right; right; right; right; exact J|left; exact J].
      * intros c I. right. apply in_or_app. destruct (O8 _ I) as [J|[J|J]]; [right; apply in_map; exact J|discriminate|left; exact J].
      * intros c I [].
      * cbn. lia.
    + assert (O' : as_open s = delete c (as_open s) /\ member c (as_open s) = false \/ In c (as_open s) /\ member c (as_open s) = true).
      { destruct (member c (as_open s)) eqn:M; [right; split; [apply member_in; exact M|reflexivity]|left; split; [symmetry; apply delete_notin, member_notin; exact M|reflexivity]]. }
      destruct O as [O1 O2 O3 O4 O5 O6 O7 O8 O9 O10 O11 O12]. rewrite Q in *.
      assert (NL : ~ In c (as_list s)) by (apply O9; left; reflexivity).
      assert (O9' : forall d, In (Close d) q -> ~ In d (as_list s)) by (intros d I; apply O9; right; exact I).
      assert (O5' : forall d, In d (as_list s) \/ In d (as_open s) \/ In d (as_active s) \/ In (Close d) q -> (d < as_next s)%nat)
        by (intros d I; apply O5; cbn [In]; tauto).
      unfold do_close in E. afields. destruct O' as [[DEL M]|[IN M]]; rewrite M in E.
      * injection E as <- <-. rewrite app_nil_r. constructor; afields; try assumption.
        intros d I. destruct (O8 _ I) as [J|[J|J]]; [left; exact J| |right; exact J]. injection J as <-.
        apply member_notin in M. contradiction.
      * unfold remove_connection in E. afields. apply member_notin in NL. rewrite NL in E. apply member_notin in NL. injection E as <- <-.
        assert (A : live (os ++ [Closed c]) = live os) by (rewrite live_app; reflexivity).
        assert (B : open_sockets (os ++ [Closed c]) = delete c (open_sockets os)) by (rewrite open_app; reflexivity).
        constructor; afields; rewrite ?A, ?B; try assumption.
        -- intros d [I|[I|[I|I]]]; apply O5'; try tauto. apply in_delete in I. tauto.
        -- rewrite O6. reflexivity.
        -- apply delete_nodup. exact O7.
        -- intros d I. apply in_delete in I. destruct I as [I N]. destruct (O8 _ I) as [J|[J|J]]; [left; exact J|congruence|right; exact J].
        -- intros d [I|I]; apply O10; [left; apply in_delete in I; tauto|right; exact I].
        -- rewrite errors_other; [assumption|intros x [<-|[]]; exact I].
  - destruct (member c (as_pending s)) eqn:M; [|injection E as <- <-; rewrite app_nil_r; exact O].
    apply member_in in M. pose proof (l_pend_nodup _ _ L) as PN. pose proof (delete_length c _ PN M) as DL.
    pose proof (l_pend_fresh _ _ L c M) as PF.
    destruct O as [O1 O2 O3 O4 O5 O6 O7 O8 O9 O10 O11 O12].
    unfold handle_accept in E. afields. destruct (as_shutdown s) eqn:SH.
    + injection E as <- <-. rewrite app_nil_r. constructor; afields; try rewrite SH; try assumption; try discriminate.
      intros d I J. apply in_delete in J. destruct J as [J _]. exact (O10 _ I J).
    + specialize (LC eq_refl). specialize (O2 eq_refl). specialize (O11 eq_refl). specialize (AE eq_refl).
      assert (PE : as_pending s = [c]).
      { destruct (as_pending s) as [|x [|y l]]; [destruct M|destruct M as [->|[]]; reflexivity|cbn [List.length] in LC; lia]. }
      assert (AE0 : accept_errors os = 0%nat) by (rewrite PE in LC; cbn [List.length] in LC; lia).
      rewrite PE in *. assert (DE : delete c [c] = []) by (unfold delete; cbn [filter]; rewrite Nat.eqb_refl; reflexivity).
      rewrite DE in *. assert (ML : In c (as_list s)) by (rewrite O2; apply in_or_app; right; left; reflexivity).
      assert (NC : ~ In c (live os)).
      { rewrite O2 in O4. intros I. apply NoDup_remove_2 in O4. apply O4. rewrite app_nil_r. exact I. }
      destruct ok; cbn [negb] in E.
      * set (s0 := {| as_shutdown := false; as_num := uint32 (as_num s + 1); as_max := as_max s; as_list := as_list s; as_pending := [];
                      as_open := as_open s ++ [c]; as_active := as_active s; as_next := as_next s; as_queue := as_queue s |}) in *.
        assert (LA : live (os ++ [Accepted c]) = live os ++ [c]) by (rewrite live_app; reflexivity).
        assert (OA : open_sockets (os ++ [Accepted c]) = open_sockets os ++ [c]) by (rewrite open_app; reflexivity).
        assert (EA : accept_errors (os ++ [Accepted c]) = 0%nat) by (rewrite errors_other; [exact AE0|intros x [<-|[]]; exact I]).
        assert (NUM : as_num s0 = N.of_nat (List.length (live os)) + 1).
        { unfold s0. afields. rewrite O11, AE0. change (N.of_nat 0) with 0. rewrite N.sub_0_r. unfold uint32.
          replace (N.of_nat (List.length (live os)) + 2 ^ 32) with (N.of_nat (List.length (live os)) + 1 * 2 ^ 32) by lia.
          rewrite N.mod_add by discriminate. change (2 ^ 32) with 4294967296 in *. rewrite (N.mod_small (N.of_nat _)) by lia. apply N.mod_small. lia. }
        assert (BIG : max < as_num s0 \/ as_num s0 <= max) by lia.
        assert (P0 : as_num s0 <= max -> once_inv max s0 (os ++ [Accepted c])).
        { intros LE. constructor; unfold s0; afields; rewrite ?LA, ?OA; try assumption; try discriminate.
          - intros _. rewrite O2, app_nil_r. reflexivity.
          - intros d [I|[I|[I|I]]]; try (apply O5; tauto). apply in_app_or in I. destruct I as [I|[<-|[]]]; [apply O5; tauto|exact PF].
          - rewrite O6. reflexivity.
          - apply nodup_add; [exact O7|]. intros I. apply (O10 c); [left; exact I|left; reflexivity].
          - intros d I. apply in_app_or in I. destruct I as [I|[<-|[]]]; [exact (O8 _ I)|left; exact ML].
          - intros d _ [].
          - intros _. change (uint32 (as_num s + 1)) with (as_num s0). rewrite NUM, app_length, EA. cbn [List.length]. change (N.of_nat 0) with 0. rewrite N.sub_0_r. unfold uint32.
            replace (N.of_nat (List.length (live os) + 1) + 2 ^ 32) with (N.of_nat (List.length (live os)) + 1 + 1 * 2 ^ 32) by lia.
            rewrite N.mod_add by discriminate. rewrite N.mod_small; [reflexivity|]. change (2 ^ 32) with 4294967296 in *. lia.
          - rewrite app_length. cbn [List.length]. lia. }
        match type of E with obind ?e _ = _ => destruct e as [[s1 o1]|] eqn:X; [|discriminate] end. cbn [obind] in E. injection E as <- <-.
        assert (O1' : once_inv max s1 (os ++ [Accepted c] ++ o1)).
        { destruct (as_max s <? uint32 (as_num s + 1)) eqn:CMP.
          - (* full *)
            apply N.ltb_lt in CMP. rewrite O1 in CMP. change (uint32 (as_num s + 1)) with (as_num s0) in CMP.
            destruct (as_list s) as [|d l] eqn:LE; [discriminate|]. injection X as X. unfold remove_connection in X. unfold s0 in X. afields. try rewrite LE in X.
            assert (MD : member d (d :: l) = true) by (apply member_in; left; reflexivity). rewrite MD in X. set (K := delete d (d :: l)) in X. injection X as <- <-. clear MD. change K with (delete d (d :: l)). clear K.
            assert (LF : live (os ++ [Accepted c] ++ [Removed d]) = delete d (d :: l)).
            { rewrite app_assoc, live_app, LA, <- O2. reflexivity. }
            assert (OF : open_sockets (os ++ [Accepted c] ++ [Removed d]) = open_sockets os ++ [c]) by (rewrite open_app; reflexivity).
            assert (EF : accept_errors (os ++ [Accepted c] ++ [Removed d]) = 0%nat) by (rewrite errors_other; [exact AE0|intros x [<-|[<-|[]]]; exact I]).
            pose proof (delete_length d (d :: l) O4 (or_introl eq_refl)) as DD.
            assert (LN : List.length (d :: l) = S (List.length (live os))) by (rewrite O2, app_length; cbn; lia).
            constructor; afields; rewrite ?LF, ?OF; try assumption; try discriminate.
            + intros _. rewrite app_nil_r. reflexivity.
            + apply delete_nodup. exact O4.
            + intros x [I|[I|[I|I]]].
              * apply in_delete in I. apply O5. tauto.
              * apply in_app_or in I. destruct I as [I|[<-|[]]]; [apply O5; tauto|exact PF].
              * apply O5; tauto.
              * apply in_app_or in I. destruct I as [I|[I|[]]]; [apply O5; tauto|]. injection I as <-. apply O5. left. left. reflexivity.
            + rewrite O6. reflexivity.
            + apply nodup_add; [exact O7|]. intros I. apply (O10 c); [left; exact I|left; reflexivity].
            + intros x I. destruct (Nat.eq_dec x d) as [->|N]; [right; apply in_or_app; right; left; reflexivity|].
              apply in_app_or in I. destruct I as [I|[<-|[]]].
              * destruct (O8 _ I) as [J|J]; [left; apply in_delete; split; assumption|right; apply in_or_app; left; exact J].
              * left. apply in_delete. split; assumption.
            + intros x I J. apply in_delete in J. destruct J as [J N]. apply in_app_or in I. destruct I as [I|[I|[]]]; [exact (O9 _ I J)|congruence].
            + intros x _ [].
            + intros _. rewrite EF. change (N.of_nat 0) with 0. rewrite N.sub_0_r. change (uint32 (as_num s + 1)) with (as_num s0). rewrite NUM. unfold uint32.
              f_equal. change (2 ^ 32) with 4294967296. lia.
            + lia.
          - injection X as <- <-. rewrite app_nil_r. apply P0. apply N.ltb_ge in CMP. rewrite O1 in CMP. exact CMP. }
        assert (S1 : as_shutdown s1 = false /\ as_pending s1 = [] /\ as_next s1 = as_next s).
        { destruct (as_max s <? _); [destruct (as_list s); [discriminate|]|].
          - injection X as X. apply remove_connection_spec in X. unfold s0 in X. afields. destruct X as (R1 & R2 & R3 & _). rewrite R1, R2, R3. split; [reflexivity|]. split; reflexivity.
          - injection X as <- <-. unfold s0. afields. split; [reflexivity|]. split; reflexivity. }
        destruct S1 as (S1 & S2 & S3).
        apply once_start_accept. replace (os ++ Accepted c :: o1 ++ [Serving c]) with ((os ++ [Accepted c] ++ o1) ++ [Serving c]) by (rewrite <- !app_assoc; reflexivity).
        destruct (other_outputs (os ++ [Accepted c] ++ o1) (Serving c) I) as [A B].
        destruct O1' as [Q1 Q2 Q3 Q4 Q5 Q6 Q7 Q8 Q9 Q10 Q11 Q12]. constructor; afields; rewrite ?A, ?B; try assumption.
        -- intros d [I|[I|[I|I]]]; try (apply Q5; tauto). apply in_app_or in I. destruct I as [I|[<-|[]]]; [apply Q5; tauto|].
           rewrite S3. exact PF.
        -- intros d _. rewrite S2. intros [].
        -- rewrite errors_other; [assumption|intros x [<-|[]]; exact I].
      * unfold remove_connection in E. afields. apply member_in in ML. rewrite ML in E. apply member_in in ML. injection E as <- <-.
        assert (LF : live (os ++ [AcceptFailed c; Removed c]) = live os).
        { rewrite live_app. cbn [fold_left live_step]. apply delete_notin. exact NC. }
        assert (DL' : delete c (as_list s) = live os) by (rewrite O2, delete_app, (delete_notin c (live os)) by exact NC; rewrite DE; apply app_nil_r).
        assert (OF : open_sockets (os ++ [AcceptFailed c; Removed c]) = open_sockets os) by (rewrite open_app; reflexivity).
        assert (EF : accept_errors (os ++ [AcceptFailed c; Removed c]) = 1%nat) by (unfold accept_errors in *; rewrite count_app; cbn; lia).
        constructor; afields; rewrite ?LF, ?OF; try assumption; try discriminate.
        -- intros _. rewrite DL', app_nil_r. reflexivity.
        -- apply delete_nodup. exact O4.
        -- intros x [I|[I|[I|I]]].
           ++ apply in_delete in I. apply O5. tauto.
           ++ apply O5; tauto.
           ++ apply O5; tauto.
           ++ apply in_app_or in I. destruct I as [I|[I|[]]]; [apply O5; tauto|]. injection I as <-. exact PF.
        -- intros x I. destruct (Nat.eq_dec x c) as [->|N]; [right; apply in_or_app; right; left; reflexivity|].
           destruct (O8 _ I) as [J|J]; [left; apply in_delete; split; assumption|right; apply in_or_app; left; exact J].
        -- intros x I J. apply in_delete in J. destruct J as [J N]. apply in_app_or in I. destruct I as [I|[I|[]]]; [exact (O9 _ I J)|congruence].
        -- intros x _ [].
        -- intros _. rewrite EF, O11, AE0. change (N.of_nat 0) with 0. change (N.of_nat 1) with 1. rewrite N.sub_0_r. unfold uint32.
           change (2 ^ 32) with 4294967296 in *. set (n := N.of_nat (List.length (live os))) in *.
           replace (n + 4294967296) with (n + 1 * 4294967296) by lia. rewrite N.mod_add by discriminate. rewrite (N.mod_small n) by lia.
           try reflexivity; f_equal; lia.
  - destruct (member c (as_active s)) eqn:M; [|injection E as <- <-; rewrite app_nil_r; exact O].
    apply member_in in M. unfold connection_error in E. injection E as E.
    assert (NP : ~ In c (as_pending s)) by (apply (o_accepted _ _ _ O); right; exact M).
    assert (FR : (c < as_next s)%nat) by (apply (o_fresh _ _ _ O); tauto).
    (* posting the close first or after makes no difference to the invariant *)
    destruct (member c (as_list s)) eqn:ML.
    + assert (SH : as_shutdown s = false) by (apply member_in in ML; destruct (as_shutdown s) eqn:SH; [destruct (o_down _ _ _ O SH) as [X _]; rewrite X in ML; destruct ML|reflexivity]).
      destruct (remove_connection s c) as [s1 o1] eqn:RC.
      assert (O1 : once_inv max s1 (os ++ o1)) by (apply (remove_step max s os c s1 o1 O (or_intror (AE SH)) MX NP RC)).
      unfold remove_connection in RC, E. afields. rewrite ML in RC, E. injection RC as <- <-. injection E as <- <-.
      destruct O1 as [Q1 Q2 Q3 Q4 Q5 Q6 Q7 Q8 Q9 Q10 Q11 Q12]. afields. constructor; afields; try assumption.
      * intros d [I|[I|[I|I]]]; try (apply Q5; tauto). apply Q5. right. right. right. rewrite <- app_assoc in I. apply in_app_or in I. apply in_or_app.
        destruct I as [I|[I|[I|[]]]]; [left; exact I|right; left; exact I|right; left; exact I].
      * intros d I. destruct (Q8 _ I) as [J|J]; [left; exact J|right]. rewrite <- app_assoc. apply in_app_or in J. apply in_or_app.
        destruct J as [J|[J|[]]]; [left; exact J|right; left; exact J].
      * intros d I. apply Q9. rewrite <- app_assoc in I. apply in_app_or in I. apply in_or_app.
        destruct I as [I|[I|[I|[]]]]; [left; exact I|right; left; exact I|right; left; exact I].
    + unfold remove_connection in E. afields. rewrite ML in E. injection E as <- <-. rewrite app_nil_r.
      apply once_post_close; [exact O|apply member_notin; exact ML|exact FR].
Qed.

Lemma serves_once max es s os : serves max es s os -> (starts_of es <= 1)%nat -> max < 2 ^ 32 - 1 -> once_inv max s os.
Proof.
  intros H ST MX. revert ST. revert es s os H.
  apply (serves_ind max (fun es s os => (starts_of es <= 1)%nat -> once_inv max s os)).
  - intros _. apply once_init.
  - intros es e s os s' o H IH E ST. rewrite starts_app in ST.
    assert (ST' : (starts_of es <= 1)%nat) by lia.
    apply (once_step max s os e s' o (IH ST') (serves_loops _ _ _ _ H)); [|exact MX|exact E].
    pose proof (loops_bounded _ _ _ _ H). lia.
Qed.
