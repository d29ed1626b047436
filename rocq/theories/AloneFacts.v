(** Proofs about what a client of a server notices of the others. *)
From Verif Require Import Prelude Ser4 Messages Mbap Server SpecServer SpecAlone Database System.

(** ** A server with other parsers *)
Definition with_conns (s : server) (f : N -> option pstate) : server :=
  {| sv_shutdown := sv_shutdown s; sv_started := sv_started s; sv_sessions := sv_sessions s;
     sv_queue := sv_queue s; sv_conns := f |}.

Section Facts.
Context {W : Type}.
Context (on_request : N -> W -> request -> W * expected response * list api).
Context (on_shutdown : N -> W -> W * list api).
Context (pol : copy_policy).

(** What the sessions of the client on [c] know of the state. *)
Context (same : W -> W -> Prop).

(** Requests for which it suffices, and requests that do not change it. *)
Definition seen (x : N) (r : request) : Prop := forall w v w' a calls, same w v -> on_request x w r = (w', a, calls) ->
  exists v', on_request x v r = (v', a, calls) /\ same w' v'.
Definition hidden (x : N) (r : request) : Prop := forall w w' a calls, on_request x w r = (w', a, calls) ->
  calls = [] /\ forall v, same w v -> same w' v.
Context (Hstop : forall x w v w' calls, same w v -> on_shutdown x w = (w', calls) ->
  exists v', on_shutdown x v = (v', calls) /\ same w' v').

Lemma api_call_with s f a : api_call (with_conns s f) a = with_conns (api_call s a) f.
Proof. destruct a; cbn [api_call with_conns sv_shutdown]; try destruct (sv_shutdown s); reflexivity. Qed.

Lemma api_calls_with f l : forall s, api_calls (with_conns s f) l = with_conns (api_calls s l) f.
Proof.
  unfold api_calls. induction l as [|a l IH]; intros s; [reflexivity|]. cbn [fold_left]. rewrite api_call_with. apply IH.
Qed.

Lemma process_with s f w v x m c fc p s1 w1 o1 : same w v ->
  process_message on_request s w x m c fc p = Ret (s1, w1, o1) -> (forall x r, In (OConsult x r) o1 -> seen x r) ->
  exists v1, process_message on_request (with_conns s f) v x m c fc p = Ret (with_conns s1 f, v1, o1) /\ same w1 v1 /\ sv_conns s1 = sv_conns s.
Proof.
  intros Hs E H. unfold process_message in *. destruct (p (mb_data m)) as [[r|er]|]; cbn [obind] in *; [| |discriminate E].
  - destruct (on_request x w r) as [[w' a] calls] eqn:Er.
    assert (Hx : seen x r) by (destruct a as [resp|[]]; injection E as <- <- <-; apply H; left; reflexivity).
    destruct (Hx w v w' a calls Hs Er) as (v' & Ev & Hs'). rewrite Ev, api_calls_with. exists v'.
    assert (K : sv_conns (api_calls s calls) = sv_conns s).
    { assert (K := api_calls_with (sv_conns s) calls s). replace (with_conns s (sv_conns s)) with s in K by (destruct s; reflexivity).
      rewrite K. reflexivity. }
    destruct a as [resp|[]]; injection E as <- <- <-; auto.
  - exists v. destruct er; injection E as <- <- <-; auto.
Qed.

Lemma on_mbap_with s f w v c m s1 w1 o1 : same w v ->
  on_mbap on_request s w c m = Ret (s1, w1, o1) -> (forall x r, In (OConsult x r) o1 -> seen x r) ->
  exists v1, on_mbap on_request (with_conns s f) v c m = Ret (with_conns s1 f, v1, o1) /\ same w1 v1 /\ sv_conns s1 = sv_conns s.
Proof.
  intros Hs E H. unfold on_mbap in *. cbn [with_conns sv_shutdown sv_sessions].
  destruct (sv_shutdown s); [injection E as <- <- <-; eauto|].
  destruct (find_session (sv_sessions s) (mb_unit m)); [|injection E as <- <- <-; eauto].
  destruct (size (mb_data m) <? 1); [injection E as <- <- <-; eauto|].
  destruct (mb_data m) as [|fc rest] eqn:Em; cbn [rd8 read_u8] in *; [discriminate E|].
  destruct (request_parser fc); [eapply process_with; eassumption|injection E as <- <- <-; eauto].
Qed.

Lemma on_messages_with f c ms : forall s w v s1 w1 o1, same w v ->
  on_messages on_request s w c ms = Ret (s1, w1, o1) -> (forall x r, In (OConsult x r) o1 -> seen x r) ->
  exists v1, on_messages on_request (with_conns s f) v c ms = Ret (with_conns s1 f, v1, o1) /\ same w1 v1 /\ sv_conns s1 = sv_conns s.
Proof.
  induction ms as [|m ms IH]; intros s w v s1 w1 o1 Hs E H; cbn [on_messages] in *; [injection E as <- <- <-; eauto|].
  destruct (on_mbap on_request s w c m) as [[[s2 w2] o2]|] eqn:E1; [|discriminate E]. cbn [obind] in E.
  destruct (on_messages on_request s2 w2 c ms) as [[[s3 w3] o3]|] eqn:E2; [|discriminate E]. cbn [obind] in E.
  injection E as <- <- <-.
  destruct (on_mbap_with s f w v c m _ _ _ Hs E1) as (v2 & -> & Hs2 & K2); [intros x r Hi; apply H, in_or_app; auto|]. cbn [obind].
  destruct (IH _ _ _ _ _ _ Hs2 E2) as (v3 & -> & Hs3 & K3); [intros x r Hi; apply H, in_or_app; auto|]. cbn [obind].
  exists v3. split; [reflexivity|]. split; [exact Hs3|]. congruence.
Qed.

Lemma shutdown_sessions_with f l : forall s w v s1 w1 o1, same w v ->
  shutdown_sessions on_shutdown s w l = (s1, w1, o1) ->
  exists v1, shutdown_sessions on_shutdown (with_conns s f) v l = (with_conns s1 f, v1, o1) /\ same w1 v1 /\ sv_conns s1 = sv_conns s.
Proof.
  induction l as [|[u x] l IH]; intros s w v s1 w1 o1 Hs E; cbn [shutdown_sessions] in *; [injection E as <- <- <-; eauto|].
  destruct (on_shutdown x w) as [w2 calls] eqn:Ex. destruct (Hstop _ _ _ _ _ Hs Ex) as (v2 & -> & Hs2).
  rewrite api_calls_with.
  destruct (shutdown_sessions on_shutdown (api_calls s calls) w2 l) as [[s3 w3] o3] eqn:E3. injection E as <- <- <-.
  destruct (IH _ _ _ _ _ _ Hs2 E3) as (v3 & -> & Hs3 & K). exists v3. split; [reflexivity|]. split; [exact Hs3|].
  rewrite K. assert (Q := api_calls_with (sv_conns s) calls s). replace (with_conns s (sv_conns s)) with s in Q by (destruct s; reflexivity).
  rewrite Q. reflexivity.
Qed.

Lemma run_task_with s f w v t s1 w1 o1 : same w v -> run_task on_shutdown s w t = (s1, w1, o1) ->
  exists v1, run_task on_shutdown (with_conns s f) v t = (with_conns s1 f, v1, o1) /\ same w1 v1 /\ sv_conns s1 = sv_conns s.
Proof.
  intros Hs E. destruct t; cbn [run_task with_conns sv_shutdown sv_started sv_sessions sv_queue sv_conns] in *;
    try (destruct (sv_shutdown s); injection E as <- <- <-; eauto; fail).
  destruct (shutdown_sessions _ _ _ _) as [[s2 w2] o2] eqn:E2. injection E as <- <- <-.
  destruct (shutdown_sessions_with f _ _ _ _ _ _ _ Hs E2) as (v2 & E3 & Hs2 & K).
  match goal with |- context[shutdown_sessions on_shutdown ?a v (sv_sessions s)] =>
    change a with (with_conns {| sv_shutdown := true; sv_started := false; sv_sessions := sv_sessions s;
      sv_queue := sv_queue s; sv_conns := sv_conns s |} f) end.
  rewrite E3. exists v2. split; [reflexivity|]. split; [exact Hs2|]. exact K.
Qed.

(** ** Steps *)

(** The same but for the other connections. *)
Definition like (c : N) (s t : server) : Prop := t = with_conns s (sv_conns t) /\ sv_conns t c = sv_conns s c.

Lemma like_refl c s : like c s s.
Proof. split; [destruct s|]; reflexivity. Qed.

Lemma own_step c s t w v e s1 w1 o1 :
  like c s t -> same w v -> of_others c e = false ->
  server_step on_request on_shutdown pol s w e = Ret (s1, w1, o1) -> (forall x r, In (OConsult x r) o1 -> seen x r) ->
  exists t1 v1, server_step on_request on_shutdown pol t v e = Ret (t1, v1, o1) /\ like c s1 t1 /\ same w1 v1.
Proof.
  intros [Ht Hc] Hs He E H. set (f := sv_conns t) in *. destruct e as [a| |c' buf|c' d|c']; cbn [server_step of_others] in *.
  - injection E as <- <- <-. exists (with_conns (api_call s a) f), v. rewrite Ht, api_call_with. split; [reflexivity|].
    split; [|exact Hs]. split; [reflexivity|]. cbn [with_conns sv_conns]. rewrite Hc. destruct a; cbn; try destruct (sv_shutdown s); reflexivity.
  - rewrite Ht. cbn [with_conns sv_queue]. destruct (sv_queue s) as [|k q].
    { injection E as <- <- <-. do 2 eexists. split; [reflexivity|]. split; [|exact Hs]. split; [reflexivity|exact Hc]. }
    change (set_queue (with_conns s f) q) with (with_conns (set_queue s q) f).
    injection E as E. destruct (run_task_with _ f _ v _ _ _ _ Hs E) as (v1 & -> & Hs1 & K).
    do 2 eexists. split; [reflexivity|]. split; [|exact Hs1]. split; [reflexivity|]. rewrite K. exact Hc.
  - injection E as <- <- <-. do 2 eexists. split; [reflexivity|]. split; [|exact Hs]. split.
    + rewrite Ht. reflexivity.
    + cbn [set_conn sv_conns]. fold f. rewrite Hc. reflexivity.
  - apply Bool.negb_false_iff, N.eqb_eq in He. subst c'. fold f. rewrite Hc.
    destruct (sv_conns s c) as [p|] eqn:Ep.
    2:{ injection E as <- <- <-. exists t, v. split; [reflexivity|]. split; [|exact Hs]. split; [exact Ht|]. fold f. rewrite Hc, Ep. reflexivity. }
    destruct (mbap_parse pol p d) as [[p' ms]|]; [|discriminate E]. cbn [obind] in *.
    replace (set_conn t c (Some p')) with (with_conns (set_conn s c (Some p')) (fun x => if x =? c then Some p' else f x)).
    2:{ rewrite Ht. reflexivity. }
    destruct (on_messages_with (fun x => if x =? c then Some p' else f x) _ _ _ _ v _ _ _ Hs E H) as (v1 & -> & Hs1 & K).
    do 2 eexists. split; [reflexivity|]. split; [|exact Hs1]. split; [reflexivity|].
    rewrite K. cbn [with_conns set_conn sv_conns]. rewrite N.eqb_refl. reflexivity.
  - apply Bool.negb_false_iff, N.eqb_eq in He. subst c'. fold f. rewrite Hc.
    destruct (sv_conns s c) as [p|] eqn:Ep.
    2:{ injection E as <- <- <-. exists t, v. split; [reflexivity|]. split; [|exact Hs]. split; [exact Ht|]. fold f. rewrite Hc, Ep. reflexivity. }
    injection E as <- <- <-. do 2 eexists. split; [reflexivity|]. split; [|exact Hs]. split.
    + rewrite Ht. reflexivity.
    + cbn [set_conn sv_conns]. rewrite N.eqb_refl. reflexivity.
Qed.

Definition elsewhere (c : N) (o : output) : Prop :=
  match o with OConsult _ _ => True | OSend c' _ => c' <> c | _ => False end.

Lemma mbap_hidden c c' s w m s1 w1 o1 : c' <> c ->
  on_mbap on_request s w c' m = Ret (s1, w1, o1) -> (forall x r, In (OConsult x r) o1 -> hidden x r) ->
  s1 = s /\ (forall v, same w v -> same w1 v) /\ Forall (elsewhere c) o1.
Proof.
  intros Hc E H. unfold on_mbap in E. destruct (sv_shutdown s); [injection E as <- <- <-; auto|].
  destruct (find_session (sv_sessions s) (mb_unit m)) as [x|]; [|injection E as <- <- <-; auto].
  destruct (size (mb_data m) <? 1); [injection E as <- <- <-; auto|].
  destruct (mb_data m) as [|fc rest] eqn:Em; cbn [rd8 read_u8] in E; [discriminate E|].
  destruct (request_parser fc) as [p|].
  2:{ injection E as <- <- <-. split; [reflexivity|]. split; [auto|]. constructor; [exact Hc|constructor]. }
  unfold process_message in E. destruct (p (mb_data m)) as [[r|er]|]; cbn [obind] in E; [| |discriminate E].
  - destruct (on_request x w r) as [[w' a] calls] eqn:Er.
    assert (Hh : hidden x r).
    { destruct a as [resp|[]]; injection E as <- <- <-; apply H; left; reflexivity. }
    destruct (Hh _ _ _ _ Er) as (-> & Hw). cbn [api_calls fold_left] in E.
    destruct a as [resp|[]]; injection E as <- <- <-; (split; [reflexivity|]; split; [exact Hw|]); repeat constructor; exact Hc.
  - destruct er; injection E as <- <- <-; (split; [reflexivity|]; split; [auto|]); repeat constructor; exact Hc.
Qed.

Lemma messages_hidden c c' ms : c' <> c -> forall s w s1 w1 o1,
  on_messages on_request s w c' ms = Ret (s1, w1, o1) -> (forall x r, In (OConsult x r) o1 -> hidden x r) ->
  s1 = s /\ (forall v, same w v -> same w1 v) /\ Forall (elsewhere c) o1.
Proof.
  intros Hc. induction ms as [|m ms IH]; intros s w s1 w1 o1 E H; cbn [on_messages] in E.
  { injection E as <- <- <-. auto. }
  destruct (on_mbap on_request s w c' m) as [[[s2 w2] o2]|] eqn:E1; [|discriminate E]. cbn [obind] in E.
  destruct (on_messages on_request s2 w2 c' ms) as [[[s3 w3] o3]|] eqn:E2; [|discriminate E]. cbn [obind] in E.
  injection E as <- <- <-.
  destruct (mbap_hidden c c' _ _ _ _ _ _ Hc E1) as (-> & S1 & F1); [intros x r Hi; apply H, in_or_app; auto|].
  destruct (IH _ _ _ _ _ E2) as (-> & S2 & F2); [intros x r Hi; apply H, in_or_app; auto|].
  split; [reflexivity|]. split; [auto|]. apply Forall_app. auto.
Qed.

Lemma like_set c c' s t p : like c s t -> c' <> c -> like c (set_conn s c' p) t.
Proof.
  intros [Ht Hc] Hne. split.
  - rewrite Ht. reflexivity.
  - cbn [set_conn sv_conns]. rewrite (proj2 (N.eqb_neq c c')) by auto. exact Hc.
Qed.

Lemma others_step c s t w e s1 w1 o1 :
  like c s t -> of_others c e = true ->
  server_step on_request on_shutdown pol s w e = Ret (s1, w1, o1) ->
  (forall x r, In (OConsult x r) o1 -> hidden x r) ->
  like c s1 t /\ (forall v, same w v -> same w1 v) /\ Forall (elsewhere c) o1.
Proof.
  intros L He E H. destruct e as [a| |c' buf|c' d|c']; cbn [server_step of_others] in *; try discriminate He;
    apply Bool.negb_true_iff, N.eqb_neq in He.
  - injection E as <- <- <-. split; [|auto]. apply like_set; auto.
  - destruct (sv_conns s c') as [p|]; [|injection E as <- <- <-; auto].
    destruct (mbap_parse pol p d) as [[p' ms]|]; [|discriminate E]. cbn [obind] in E.
    destruct (messages_hidden c c' ms He _ _ _ _ _ E H) as (-> & S1 & F). split; [|auto]. apply like_set; auto.
  - destruct (sv_conns s c') as [p|]; [|injection E as <- <- <-; auto].
    injection E as <- <- <-. split; [|auto]. apply like_set; auto.
Qed.

Lemma elsewhere_silent c os : Forall (elsewhere c) os ->
  sends_on c os = [] /\ filter (fun o => negb (by_frame o)) os = [].
Proof.
  induction 1 as [|o os Ho _ [IH1 IH2]]; [auto|]. cbn [sends_on flat_map filter] in *.
  destruct o; cbn [elsewhere] in Ho; try contradiction; cbn [by_frame negb]; [auto|].
  rewrite (proj2 (N.eqb_neq conn c)) by exact Ho. auto.
Qed.

(** ** Histories *)
Definition fair (own : bool) (x : N) (r : request) : Prop := if own then seen x r else hidden x r.

Lemma run_alone c es : forall s t w v s1 w1 o1,
  like c s t -> same w v -> asks_only on_request on_shutdown fair pol c s w es ->
  server_run on_request on_shutdown pol s w es = Ret (s1, w1, o1) ->
  exists t1 v1 o2, server_run on_request on_shutdown pol t v (alone c es) = Ret (t1, v1, o2) /\ like c s1 t1 /\ same w1 v1 /\
    sends_on c o2 = sends_on c o1 /\ filter (fun o => negb (by_frame o)) o2 = filter (fun o => negb (by_frame o)) o1.
Proof.
  induction es as [|e es IH]; intros s t w v s1 w1 o1 L Hs U E.
  { cbn in E |- *. injection E as <- <- <-. exists t, v, []. auto. }
  cbn [server_run] in E. destruct (server_step on_request on_shutdown pol s w e) as [[[s2 w2] o2]|] eqn:E1; [|discriminate E].
  cbn [obind] in E. destruct (server_run on_request on_shutdown pol s2 w2 es) as [[[s3 w3] o3]|] eqn:E2; [|discriminate E].
  cbn [obind] in E. injection E as <- <- <-.
  assert (U2 : asks_only on_request on_shutdown fair pol c s2 w2 es).
  { intros es1 e' es2 sa wa oa sb wb ob -> Ea Eb. apply (U (e :: es1) e' es2 sa wa (o2 ++ oa) sb wb ob); [reflexivity| |exact Eb].
    cbn [server_run]. rewrite E1. cbn [obind]. rewrite Ea. reflexivity. }
  pose proof (U [] e es s w [] _ _ _ eq_refl eq_refl E1) as U1. unfold fair in U1.
  unfold alone. cbn [filter]. fold (alone c es). destruct (of_others c e) eqn:Eo; cbn [negb] in *.
  - destruct (others_step _ _ _ _ _ _ _ _ L Eo E1 U1) as (L2 & S0 & F).
    destruct (IH _ _ _ _ _ _ _ L2 (S0 v Hs) U2 E2) as (t1 & v1 & o4 & R1 & L1 & Hs1 & S1 & S2). exists t1, v1, o4.
    split; [exact R1|]. split; [exact L1|]. split; [exact Hs1|].
    destruct (elsewhere_silent _ _ F) as [F1 F2]. unfold sends_on in *. rewrite flat_map_app, filter_app, F1, F2. auto.
  - destruct (own_step _ _ _ _ _ _ _ _ _ L Hs Eo E1 U1) as (t2 & v2 & R2 & L2 & Hs2).
    destruct (IH _ _ _ _ _ _ _ L2 Hs2 U2 E2) as (t1 & v1 & o4 & R1 & L1 & Hs1 & S1 & S2). exists t1, v1, (o2 ++ o4).
    cbn [server_run]. rewrite R2. cbn [obind]. rewrite R1. cbn [obind]. split; [reflexivity|]. split; [exact L1|]. split; [exact Hs1|].
    unfold sends_on in *. rewrite !flat_map_app, !filter_app, S1, S2. auto.
Qed.

Lemma as_if_alone_same c w v es s1 w1 o1 : same w v ->
  asks_only on_request on_shutdown fair pol c server_init w es ->
  server_run on_request on_shutdown pol server_init w es = Ret (s1, w1, o1) ->
  exists t1 v1 o2, server_run on_request on_shutdown pol server_init v (alone c es) = Ret (t1, v1, o2) /\ same w1 v1 /\
    sends_on c o2 = sends_on c o1 /\ filter (fun o => negb (by_frame o)) o2 = filter (fun o => negb (by_frame o)) o1 /\
    sv_sessions t1 = sv_sessions s1 /\ sv_shutdown t1 = sv_shutdown s1.
Proof.
  intros Hs U E. destruct (run_alone c es _ _ _ _ _ _ _ (like_refl c server_init) Hs U E) as (t1 & v1 & o2 & R & [L1 L2] & Hs1 & S1 & S2).
  exists t1, v1, o2. split; [exact R|]. split; [exact Hs1|]. split; [exact S1|]. split; [exact S2|].
  rewrite L1. cbn [with_conns sv_sessions sv_shutdown]. auto.
Qed.
End Facts.

Theorem as_if_alone {W : Type} (on_request : N -> W -> request -> W * expected response * list api) (on_shutdown : N -> W -> W * list api) pol c w es s1 w1 o1 :
  undisturbed on_request on_shutdown pol c server_init w es ->
  server_run on_request on_shutdown pol server_init w es = Ret (s1, w1, o1) ->
  exists t1 o2, server_run on_request on_shutdown pol server_init w (alone c es) = Ret (t1, w1, o2) /\
    sends_on c o2 = sends_on c o1 /\ filter (fun o => negb (by_frame o)) o2 = filter (fun o => negb (by_frame o)) o1 /\
    sv_sessions t1 = sv_sessions s1 /\ sv_shutdown t1 = sv_shutdown s1.
Proof.
  intros U E.
  assert (Hst : forall (x : N) (w v w' : W) (calls : list api), w = v -> on_shutdown x w = (w', calls) ->
    exists v', on_shutdown x v = (v', calls) /\ w' = v') by (intros; subst; eauto).
  destruct (as_if_alone_same on_request on_shutdown pol eq Hst c w w es s1 w1 o1 eq_refl) as (t1 & v1 & o2 & R & <- & H); [|exact E|eauto].
  intros es1 e es2 sa wa oa sb wb ob Ee Ea Eb x r Hi. specialize (U es1 e es2 sa wa oa sb wb ob Ee Ea Eb x r Hi).
  unfold fair. destruct (negb (of_others c e)).
  - intros w2 v2 w' a calls -> E'. eauto.
  - destruct U as [U|U]; [discriminate U|]. intros w2 w' a calls E'. destruct (U w2) as (a' & Ea'). rewrite E' in Ea'.
    injection Ea' as -> -> ->. auto.
Qed.

(** ** Separate sessions *)
Theorem apart {S : Type} (handle : N -> S -> request -> S * expected response * list api) (stop : N -> S -> S * list api)
    (mine : N -> bool) pol c w v es s1 w1 o1 :
  (forall x, mine x = false -> calls_nothing handle stop x) -> (forall x, mine x = true -> w x = v x) ->
  asks_only (separately handle) (stop_separately stop) (fun own x r => mine x = own) pol c server_init w es ->
  server_run (separately handle) (stop_separately stop) pol server_init w es = Ret (s1, w1, o1) ->
  exists t1 v1 o2, server_run (separately handle) (stop_separately stop) pol server_init v (alone c es) = Ret (t1, v1, o2) /\
    sends_on c o2 = sends_on c o1 /\ forall x, mine x = true -> v1 x = w1 x.
Proof.
  intros Hn Hv U E.
  set (same := fun w v : N -> S => forall x, mine x = true -> w x = v x).
  assert (K : forall x w v w' calls, same w v -> stop_separately stop x w = (w', calls) ->
    exists v', stop_separately stop x v = (v', calls) /\ same w' v').
  { intros x wa va w' calls Hs. unfold stop_separately. destruct (stop x (wa x)) as [sa ka] eqn:Ea. intros Eq. injection Eq as <- <-.
    destruct (mine x) eqn:Em.
    - rewrite <- (Hs x Em), Ea. eexists. split; [reflexivity|]. intros y Hy. unfold update. destruct (y =? x); [reflexivity|exact (Hs y Hy)].
    - destruct (stop x (va x)) as [sb kb] eqn:Eb. destruct (Hn x Em) as [_ Hst].
      assert (Ka := Hst (wa x)). assert (Kb := Hst (va x)). rewrite Ea in Ka. rewrite Eb in Kb. cbn [snd] in Ka, Kb. subst ka kb. eexists. split; [reflexivity|].
      intros y Hy. unfold update. destruct (N.eqb_spec y x) as [->|]; [congruence|exact (Hs y Hy)]. }
  destruct (as_if_alone_same (separately handle) (stop_separately stop) pol same K c w v es s1 w1 o1 Hv) as (t1 & v1 & o2 & R & Hs1 & S1 & _); [|exact E|].
  2:{ exists t1, v1, o2. split; [exact R|]. split; [exact S1|]. intros x Hx. symmetry. exact (Hs1 x Hx). }
  intros es1 e es2 sa wa oa sb wb ob Ee Ea Eb x r Hi. specialize (U es1 e es2 sa wa oa sb wb ob Ee Ea Eb x r Hi).
  unfold fair. cbv beta in U. destruct (negb (of_others c e)).
  - intros w2 v2 w' a calls Hs E'. unfold separately in *. rewrite <- (Hs x U). destruct (handle x (w2 x) r) as [[s' a'] calls'].
    injection E' as <- <- <-. eexists. split; [reflexivity|]. intros y Hy. unfold update. destruct (y =? x); [reflexivity|exact (Hs y Hy)].
  - intros w2 w' a calls E'. unfold separately in E'. destruct (handle x (w2 x) r) as [[s' a'] calls'] eqn:Eh.
    injection E' as <- <- <-. split; [assert (Kh := proj1 (Hn x U) (w2 x) r); rewrite Eh in Kh; exact Kh|]. intros v2 Hs y Hy. unfold update.
    destruct (N.eqb_spec y x) as [->|]; [congruence|exact (Hs y Hy)].
Qed.

(** ** The database *)
Definition still {A} (p : prog A) : Prop := forall d d' x, Database.run p d = Ret (d', x) -> d' = d.

Lemma still_ret {A} (a : A) : still (PRet a).
Proof. intros d d' x E. injection E as <- <-. reflexivity. Qed.

Lemma still_ub {A} : still (@PUB A).
Proof. intros d d' x E. discriminate E. Qed.

Lemma still_bind {A B} (p : prog A) : forall (f : A -> prog B), still p -> (forall a, still (f a)) -> still (pbind p f).
Proof.
  intros f Hp Hf d d' x E.
  assert (K : forall q : prog A, forall d, Database.run (pbind q f) d = let! (d1, a) := Database.run q d in Database.run (f a) d1).
  { clear. induction q as [a| |R c k IH]; intros d; cbn; try reflexivity.
    destruct (act_step c d) as [[d1 r]|]; cbn [obind]; [apply IH|reflexivity]. }
  rewrite K in E. destruct (Database.run p d) as [[d1 a]|] eqn:E1; [|discriminate E]. cbn [obind] in E.
  apply Hp in E1. subst d1. exact (Hf a _ _ _ E).
Qed.

Ltac still_act := intros d d' x E; cbn in E;
  repeat match type of E with
  | context[match ?y with _ => _ end] => destruct y; cbn in E; try discriminate E
  end; injection E as <- <-; reflexivity.

Lemma still_find t a : still (do (AFind t a)). Proof. still_act. Qed.
Lemma still_next t i : still (do (ANext t i)). Proof. still_act. Qed.
Lemma still_first t i : still (do (AFirst t i)). Proof. still_act. Qed.
Lemma still_second t i : still (do (ASecond t i)). Proof. still_act. Qed.

Create HintDb quiet.
#[local] Hint Resolve still_ret still_ub still_find still_next still_first still_second : quiet.

Lemma still_range fuel t start count : forall current it, still (range_loop fuel t start count current it).
Proof.
  induction fuel as [|fuel IH]; intros current it; cbn [range_loop]; [auto with quiet|].
  destruct (_ && _); [|auto with quiet]. apply still_bind; [auto with quiet|]. intros k.
  destruct (negb _); [auto with quiet|]. apply still_bind; [auto with quiet|]. intros it'. apply IH.
Qed.

Lemma still_valid t start count : still (is_valid_range t start count).
Proof.
  unfold is_valid_range. apply still_bind; [auto with quiet|]. intros it. destruct (not_end it); [|auto with quiet].
  apply still_bind; [auto with quiet|]. intros it'. apply still_bind; [apply still_range|]. intros [cur|]; auto with quiet.
Qed.

Lemma still_get_loop t output : forall it, still (get_loop t it output).
Proof.
  induction output as [|o output IH]; intros it; cbn [get_loop]; [auto with quiet|].
  apply still_bind; [auto with quiet|]. intros v. apply still_bind; [auto with quiet|]. intros it'.
  apply still_bind; [apply IH|]. intros vs. auto with quiet.
Qed.

Lemma still_read t z start qty mk : still (on_read t z start qty mk).
Proof.
  unfold on_read, get_values. apply still_bind.
  - apply still_bind; [apply still_valid|]. intros [|]; cbn [negb]; [|auto with quiet].
    apply still_bind; [auto with quiet|]. intros it. apply still_bind; [apply still_get_loop|]. intros vs. auto with quiet.
  - intros [[|] vs]; cbn [negb]; auto with quiet.
Qed.

Theorem reading_harmless x r : reading r = true -> harmless db_session x r.
Proof.
  intros Hr d. unfold db_session. destruct (Database.run (Database.on_request r) d) as [[d' a]|] eqn:E; [|eauto].
  exists a. assert (Hs : still (Database.on_request r)).
  { destruct r; try discriminate Hr; apply still_read. }
  rewrite (Hs _ _ _ E). reflexivity.
Qed.

Theorem readers_unnoticed pol c d es s1 d1 o1 :
  asks_only db_session db_shutdown (fun own x r => own = true \/ reading r = true) pol c server_init d es ->
  server_run db_session db_shutdown pol server_init d es = Ret (s1, d1, o1) ->
  exists t1 o2, server_run db_session db_shutdown pol server_init d (alone c es) = Ret (t1, d1, o2) /\ sends_on c o2 = sends_on c o1.
Proof.
  intros U E. destruct (as_if_alone db_session db_shutdown pol c d es s1 d1 o1) as (t1 & o2 & R & S1 & _); [|exact E|eauto].
  intros es1 e es2 sa wa oa sb wb ob Ee Ea Eb x r Hi. destruct (U es1 e es2 sa wa oa sb wb ob Ee Ea Eb x r Hi) as [H|H]; [auto|].
  right. apply reading_harmless. exact H.
Qed.
