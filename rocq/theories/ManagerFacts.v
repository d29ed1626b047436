(** The channels of a manager: each behaves as it does alone, and all that were created
    are shut down by [shutdown]. *)
From Verif Require Import Prelude Ser4 Messages Mbap SpecMbap Client AsyncWrite ClientConn ClientTcp SpecClientTcp Server Listener ServerConn ServerTcp SpecServerTcp
  TcpOrder ServerTcpFacts Manager SpecManager.
From Coq Require Import Permutation Lia.

Section Facts.
Context {U V : Type}.
Context (pol : copy_policy).
Implicit Type s : manager U V.

Lemma mrun_app : forall es es' s, manager_run pol s (es ++ es') =
  let! (s1, l1) := manager_run pol s es in let! (s2, l2) := manager_run pol s1 es' in Ret (s2, l1 ++ l2).
Proof.
  induction es as [|e es IH]; intros es' s.
  - cbn [app manager_run obind]. destruct (manager_run pol s es') as [[s2 l2]|]; reflexivity.
  - cbn [app manager_run]. destruct (manager_step pol s e) as [[s1 l1]|]; cbn [obind]; [|reflexivity]. rewrite IH.
    destruct (manager_run pol s1 es) as [[s2 l2]|]; cbn [obind]; [|reflexivity]. destruct (manager_run pol s2 es') as [[s3 l3]|]; cbn [obind]; [|reflexivity].
    rewrite app_assoc. reflexivity.
Qed.

(** ** Lists of channels *)

Lemma put_length : forall l i (c : channel U V), List.length (put i c l) = List.length l.
Proof. induction l as [|x l IH]; intros [|i] c; cbn [put List.length]; try reflexivity. rewrite IH. reflexivity. Qed.
Lemma put_same : forall l i (c d : channel U V), nth_error l i = Some d -> nth_error (put i c l) i = Some c.
Proof. induction l as [|x l IH]; intros [|i] c d E; cbn [put nth_error] in *; try discriminate; [reflexivity|]. exact (IH _ _ _ E). Qed.
Lemma put_other : forall l i j (c : channel U V), j <> i -> nth_error (put i c l) j = nth_error l j.
Proof.
  induction l as [|x l IH]; intros [|i] [|j] c D; cbn [put nth_error]; try reflexivity; [contradiction|]. apply IH. congruence.
Qed.

(** ** One step *)

(** Where channel [i] is afterwards, given what happened to it. *)
Definition moved (e : mevent U V) (i : nat) (a b : option (channel U V)) (l : list mmark) : Prop :=
  match a with
  | Some (ClientSide h c) => exists c', b = Some (ClientSide h c') /\ tcp_run h pol c (client_events i l) = Ret (c', client_marks i l) /\ server_events i l = []
  | Some (ServerSide r d c) => exists c', b = Some (ServerSide r d c') /\ userver_run r d pol c (server_events i l) = Ret (c', server_marks i l) /\ client_events i l = []
  | None => client_events i l = [] /\ server_events i l = [] /\
      client_marks i l = [] /\ server_marks i l = [] /\
      match b with
      | Some (ClientSide h c') => exists buf w, e = MNewClient h buf w /\ c' = tclient_init buf w
      | Some (ServerSide r d c') => exists max w, e = MNewServer r d max w /\ c' = tserver_init max w
      | None => True
      end
  end.

Lemma moved_still : forall e i a l, client_events i l = [] -> server_events i l = [] -> client_marks i l = [] -> server_marks i l = [] ->
  match a with None => True | Some _ => moved e i a a l end.
Proof.
  intros e i [[h c|r d c]|] l E1 E2 E3 E4; cbn [moved]; [exists c|exists c|exact Logic.I]; rewrite ?E1, ?E2, ?E3, ?E4; repeat split; reflexivity.
Qed.

Lemma client_moves : forall s i e s' l, client_event pol s i e = Ret (s', l) ->
  mg_made s' = mg_made s /\ mg_clients s' = mg_clients s /\ mg_servers s' = mg_servers s /\ mg_shutting s' = mg_shutting s /\
  List.length (mg_channels s') = List.length (mg_channels s) /\
  (l = [] /\ s' = s /\ is_client s i = false \/
   exists h c c' x, nth_error (mg_channels s) i = Some (ClientSide h c) /\ tcp_step h pol c e = Ret (c', x) /\
     mg_channels s' = put i (ClientSide h c') (mg_channels s) /\ l = [ClientDid i e x]).
Proof.
  intros s i e s' l E. unfold client_event, is_client in *. destruct (nth_error (mg_channels s) i) as [[h c|r d c]|] eqn:Ni.
  - destruct (tcp_step h pol c e) as [[c' x]|] eqn:Es; cbn [obind] in E; [|discriminate]. injection E as <- <-. cbn [with_channels mg_made mg_clients mg_servers mg_shutting mg_channels].
    rewrite put_length. repeat split. right. exists h, c, c', x. repeat split; reflexivity || exact Es.
  - injection E as <- <-. repeat split. left. repeat split.
  - injection E as <- <-. repeat split. left. repeat split.
Qed.
Lemma server_moves : forall s i e s' l, server_event pol s i e = Ret (s', l) ->
  mg_made s' = mg_made s /\ mg_clients s' = mg_clients s /\ mg_servers s' = mg_servers s /\ mg_shutting s' = mg_shutting s /\
  List.length (mg_channels s') = List.length (mg_channels s) /\
  (l = [] /\ s' = s \/
   exists r d c c' x, nth_error (mg_channels s) i = Some (ServerSide r d c) /\ userver_step r d pol c e = Ret (c', x) /\
     mg_channels s' = put i (ServerSide r d c') (mg_channels s) /\ l = [ServerDid i e x]).
Proof.
  intros s i e s' l E. unfold server_event in *. destruct (nth_error (mg_channels s) i) as [[h c|r d c]|] eqn:Ni.
  - injection E as <- <-. repeat split. left. repeat split.
  - destruct (userver_step r d pol c e) as [[c' x]|] eqn:Es; cbn [obind] in E; [|discriminate]. injection E as <- <-. cbn [with_channels mg_made mg_clients mg_servers mg_shutting mg_channels].
    rewrite put_length. repeat split. right. exists r, d, c, c', x. repeat split; reflexivity || exact Es.
  - injection E as <- <-. repeat split. left. repeat split.
Qed.

(** What a step does to the manager's own members, and what it adds to the history. *)
Inductive did (s : manager U V) : manager U V -> list mmark -> Prop :=
| DNothing : did s s []
| DMade c : did s (fst (make s c)) [Made (List.length (mg_channels s))]
| DRegistered i s' : In i (mg_made s) -> mg_shutting s = None -> mg_shutting s' = None -> mg_channels s' = mg_channels s ->
    mg_made s' = filter (fun j => negb (Nat.eqb i j)) (mg_made s) ->
    (is_client s i = true /\ mg_clients s' = mg_clients s ++ [i] /\ mg_servers s' = mg_servers s \/
     is_client s i = false /\ mg_clients s' = mg_clients s /\ mg_servers s' = mg_servers s ++ [i]) ->
    did s s' [Registered i]
| DLocked s' : mg_shutting s = None -> mg_shutting s' = Some (mg_clients s ++ mg_servers s) -> mg_channels s' = mg_channels s -> mg_made s' = mg_made s ->
    mg_clients s' = mg_clients s -> mg_servers s' = mg_servers s -> did s s' [Locked]
| DReturned s' : mg_shutting s = Some [] -> mg_shutting s' = None -> mg_channels s' = mg_channels s -> mg_made s' = mg_made s ->
    mg_clients s' = [] -> mg_servers s' = [] -> did s s' [Returned]
| DChannel s' m i : mg_made s' = mg_made s -> mg_clients s' = mg_clients s -> mg_servers s' = mg_servers s -> mg_shutting s' = mg_shutting s ->
    List.length (mg_channels s') = List.length (mg_channels s) -> (forall j, is_client s' j = is_client s j) ->
    (exists e x, m = ClientDid i e x) \/ (exists e x, m = ServerDid i e x) -> did s s' [m]
| DTold s' todo i m : mg_shutting s = Some (i :: todo) -> mg_shutting s' = Some todo -> mg_made s' = mg_made s -> mg_clients s' = mg_clients s -> mg_servers s' = mg_servers s ->
    List.length (mg_channels s') = List.length (mg_channels s) -> (forall j, is_client s' j = is_client s j) ->
    m = [] /\ nth_error (mg_channels s) i = None \/ (exists x, m = [x] /\ shut_down_by i x) -> did s s' (Told i :: m).

Lemma is_client_put : forall s s' i c d, nth_error (mg_channels s) i = Some d -> mg_channels s' = put i c (mg_channels s) ->
  match c, d with ClientSide _ _, ClientSide _ _ => True | ServerSide _ _ _, ServerSide _ _ _ => True | _, _ => False end ->
  forall j, is_client s' j = is_client s j.
Proof.
  intros s s' i c d Ni E K j. unfold is_client. rewrite E. destruct (Nat.eq_dec j i) as [->|D].
  - rewrite (put_same _ _ _ _ Ni), Ni. destruct c, d; (reflexivity || contradiction).
  - rewrite (put_other _ _ _ _ D). reflexivity.
Qed.

Lemma step_did : forall s e s' l, manager_step pol s e = Ret (s', l) -> did s s' l.
Proof.
  intros s e s' l E. destruct e as [h buf w|r d max w|i| | |i e|i e]; cbn [manager_step] in E.
  - injection E as <- <-. apply DMade.
  - injection E as <- <-. apply DMade.
  - unfold register in E. destruct (mg_shutting s) eqn:Sh; [injection E as <- <-; apply DNothing|].
    destruct (existsb (Nat.eqb i) (mg_made s)) eqn:X; [|injection E as <- <-; apply DNothing].
    apply existsb_exists in X. destruct X as (j & Ij & Q). apply Nat.eqb_eq in Q. subst j.
    destruct (nth_error (mg_channels s) i) as [[h c|r d c]|] eqn:Ni; injection E as <- <-; [| |apply DNothing].
    + apply DRegistered; try reflexivity; try assumption. left. unfold is_client. rewrite Ni. repeat split.
    + apply DRegistered; try reflexivity; try assumption. right. unfold is_client. rewrite Ni. repeat split.
  - destruct (mg_shutting s) eqn:Sh; injection E as <- <-; [apply DNothing|]. apply DLocked; try reflexivity; exact Sh.
  - unfold next in E. destruct (mg_shutting s) as [[|i todo]|] eqn:Sh; [| |injection E as <- <-; apply DNothing].
    + injection E as <- <-. apply DReturned; try reflexivity; exact Sh.
    + match type of E with context[tell pol ?x i] => set (s1 := x) in E end. unfold tell in E. change (mg_channels s1) with (mg_channels s) in E.
      destruct (nth_error (mg_channels s) i) as [[h c|r d c]|] eqn:Ni.
      * destruct (client_event pol s1 i (TApi Client.Shutdown)) as [[s2 l2]|] eqn:Ec; cbn [obind] in E; [|discriminate]. injection E as <- <-.
        destruct (client_moves _ _ _ _ _ Ec) as (A1 & A2 & A3 & A4 & A5 & [(-> & -> & F)|(h' & c1 & c' & x & N2 & _ & P & ->)]).
        { unfold is_client in F. change (mg_channels s1) with (mg_channels s) in F. rewrite Ni in F. discriminate F. }
        apply DTold with todo; try assumption; [intros j; change (is_client s j) with (is_client s1 j); exact (is_client_put s1 s2 i (ClientSide h' c') (ClientSide h' c1) N2 P Logic.I j)|].
        right. eexists. split; [reflexivity|]. left. eexists. reflexivity.
      * destruct (server_event pol s1 i (UApi ApiShutdown)) as [[s2 l2]|] eqn:Ec; cbn [obind] in E; [|discriminate]. injection E as <- <-.
        assert (Ec' := Ec). unfold server_event in Ec'. change (mg_channels s1) with (mg_channels s) in Ec'. rewrite Ni in Ec'.
        destruct (server_moves _ _ _ _ _ Ec) as (A1 & A2 & A3 & A4 & A5 & [(-> & ->)|(r' & d' & c1 & c' & x & N2 & _ & P & ->)]).
        { destruct (userver_step r d pol c (UApi ApiShutdown)) as [[? ?]|]; cbn [obind] in Ec'; discriminate Ec'. }
        apply DTold with todo; try assumption; [intros j; change (is_client s j) with (is_client s1 j); exact (is_client_put s1 s2 i (ServerSide r' d' c') (ServerSide r' d' c1) N2 P Logic.I j)|].
        right. eexists. split; [reflexivity|]. right. eexists. reflexivity.
      * cbn [obind] in E. injection E as <- <-. apply DTold with todo; try reflexivity; try assumption. left. split; [reflexivity|exact Ni].
  - destruct (client_moves _ _ _ _ _ E) as (A1 & A2 & A3 & A4 & A5 & [(-> & -> & F)|(h' & c1 & c' & x & N2 & _ & P & ->)]); [apply DNothing|].
    apply DChannel with i; try assumption; [exact (is_client_put s s' i (ClientSide h' c') (ClientSide h' c1) N2 P Logic.I)|]. left. do 2 eexists. reflexivity.
  - destruct (server_moves _ _ _ _ _ E) as (A1 & A2 & A3 & A4 & A5 & [(-> & ->)|(r' & d' & c1 & c' & x & N2 & _ & P & ->)]); [apply DNothing|].
    apply DChannel with i; try assumption; [exact (is_client_put s s' i (ServerSide r' d' c') (ServerSide r' d' c1) N2 P Logic.I)|]. right. do 2 eexists. reflexivity.
Qed.

(** ** What each channel goes through *)

Lemma tcp_run_one : forall h (c : tclient U) e c' x, tcp_step h pol c e = Ret (c', x) -> tcp_run h pol c [e] = Ret (c', x).
Proof. intros h c e c' x E. cbn [tcp_run]. rewrite E. cbn [obind]. rewrite app_nil_r. reflexivity. Qed.
Lemma userver_run_one : forall r d (c : tserver V) e c' x, userver_step r d pol c e = Ret (c', x) -> userver_run r d pol c [e] = Ret (c', x).
Proof. intros r d c e c' x E. cbn [userver_run]. rewrite E. cbn [obind]. rewrite app_nil_r. reflexivity. Qed.

Lemma event_moved : forall v s s' i j l,
  (l = [] /\ s' = s \/ exists h c c' e x, nth_error (mg_channels s) i = Some (ClientSide h c) /\ tcp_step h pol c e = Ret (c', x) /\
     mg_channels s' = put i (ClientSide h c') (mg_channels s) /\ l = [ClientDid i e x]) \/
  (exists r d c c' e x, nth_error (mg_channels s) i = Some (ServerSide r d c) /\ userver_step r d pol c e = Ret (c', x) /\
     mg_channels s' = put i (ServerSide r d c') (mg_channels s) /\ l = [ServerDid i e x]) ->
  moved v j (nth_error (mg_channels s) j) (nth_error (mg_channels s') j) l.
Proof.
  intros v. assert (Q : forall s s' j l, nth_error (mg_channels s') j = nth_error (mg_channels s) j -> client_events j l = [] -> server_events j l = [] -> client_marks j l = [] -> server_marks j l = [] ->
              moved v j (nth_error (mg_channels s) j) (nth_error (mg_channels s') j) l).
  { intros s s' j l E E1 E2 E3 E4. rewrite E. pose proof (moved_still v j (nth_error (mg_channels s) j) l E1 E2 E3 E4) as M.
    destruct (nth_error (mg_channels s) j); [exact M|]. cbn [moved]. repeat split; assumption. }
  intros s s' i j l [[(-> & ->)|(h & c & c' & e & x & Ni & Es & P & ->)]|(r & d & c & c' & e & x & Ni & Es & P & ->)].
  - apply Q; reflexivity.
  - destruct (Nat.eq_dec j i) as [->|D].
    + rewrite P, (put_same _ _ _ _ Ni), Ni. cbn [moved]. exists c'. unfold client_events, client_marks, server_events. cbn [flat_map app]. rewrite Nat.eqb_refl, !app_nil_r.
      repeat split. exact (tcp_run_one _ _ _ _ _ Es).
    + apply Nat.eqb_neq in D. assert (D' : Nat.eqb i j = false) by (rewrite Nat.eqb_sym; exact D).
      apply Q; try (unfold client_events, client_marks, server_events, server_marks; cbn [flat_map app]; rewrite ?D'; reflexivity).
      rewrite P. apply put_other. apply Nat.eqb_neq. exact D.
  - destruct (Nat.eq_dec j i) as [->|D].
    + rewrite P, (put_same _ _ _ _ Ni), Ni. cbn [moved]. exists c'. unfold client_events, server_marks, server_events. cbn [flat_map app]. rewrite Nat.eqb_refl, !app_nil_r.
      repeat split. exact (userver_run_one _ _ _ _ _ _ Es).
    + apply Nat.eqb_neq in D. assert (D' : Nat.eqb i j = false) by (rewrite Nat.eqb_sym; exact D).
      apply Q; try (unfold client_events, client_marks, server_events, server_marks; cbn [flat_map app]; rewrite ?D'; reflexivity).
      rewrite P. apply put_other. apply Nat.eqb_neq. exact D.
Qed.

Lemma make_moved : forall e s c j, (match c with ClientSide h c' => exists buf w, e = MNewClient h buf w /\ c' = tclient_init buf w
                                    | ServerSide r d c' => exists max w, e = MNewServer r d max w /\ c' = tserver_init max w end) ->
  moved e j (nth_error (mg_channels s) j) (nth_error (mg_channels s ++ [c]) j) [Made (List.length (mg_channels s))].
Proof.
  intros e s c j K. destruct (Nat.lt_ge_cases j (List.length (mg_channels s))) as [L|L].
  - rewrite nth_error_app1 by exact L. pose proof (moved_still e j (nth_error (mg_channels s) j) [Made (List.length (mg_channels s))] eq_refl eq_refl eq_refl eq_refl) as M.
    destruct (nth_error (mg_channels s) j) eqn:Nj; [exact M|]. apply nth_error_None in Nj. lia.
  - rewrite (proj2 (nth_error_None _ _) L). rewrite nth_error_app2 by exact L. cbn [moved]. repeat split; try reflexivity.
    destruct (j - List.length (mg_channels s))%nat as [|k]; cbn [nth_error]; [|destruct k; exact Logic.I]. destruct c; exact K.
Qed.

Lemma same_moved : forall e s s' j l, mg_channels s' = mg_channels s -> client_events j l = [] -> server_events j l = [] -> client_marks j l = [] -> server_marks j l = [] ->
  moved e j (nth_error (mg_channels s) j) (nth_error (mg_channels s') j) l.
Proof.
  intros e s s' j l -> E1 E2 E3 E4. pose proof (moved_still e j (nth_error (mg_channels s) j) l E1 E2 E3 E4) as M.
  destruct (nth_error (mg_channels s) j); [exact M|]. cbn [moved]. repeat split; assumption.
Qed.

Lemma client_moved : forall v s i e s' l j, client_event pol s i e = Ret (s', l) -> moved v j (nth_error (mg_channels s) j) (nth_error (mg_channels s') j) l.
Proof.
  intros v s i e s' l j E. apply (event_moved v s s' i j l). left. destruct (client_moves _ _ _ _ _ E) as (_ & _ & _ & _ & _ & [(-> & -> & _)|(h & c & c' & x & A & B & C & D)]).
  - left. split; reflexivity.
  - right. exists h, c, c', e, x. repeat split; assumption.
Qed.
Lemma server_moved : forall v s i e s' l j, server_event pol s i e = Ret (s', l) -> moved v j (nth_error (mg_channels s) j) (nth_error (mg_channels s') j) l.
Proof.
  intros v s i e s' l j E. apply (event_moved v s s' i j l). destruct (server_moves _ _ _ _ _ E) as (_ & _ & _ & _ & _ & [(-> & ->)|(r & d & c & c' & x & A & B & C & D)]).
  - left. left. split; reflexivity.
  - right. exists r, d, c, c', e, x. repeat split; assumption.
Qed.

Lemma step_moved : forall s e s' l j, manager_step pol s e = Ret (s', l) -> moved e j (nth_error (mg_channels s) j) (nth_error (mg_channels s') j) l.
Proof.
  intros s v s' l j E. destruct v as [h buf w|r d max w|i| | |i e|i e] eqn:Ev; cbn [manager_step] in E.
  - injection E as <- <-. apply make_moved. exists buf, w. split; reflexivity.
  - injection E as <- <-. apply make_moved. exists max, w. split; reflexivity.
  - unfold register in E. destruct (mg_shutting s); [injection E as <- <-; apply same_moved; reflexivity|].
    destruct (existsb _ _); [|injection E as <- <-; apply same_moved; reflexivity].
    destruct (nth_error (mg_channels s) i) as [[? ?|? ? ?]|]; injection E as <- <-; apply same_moved; reflexivity.
  - destruct (mg_shutting s); injection E as <- <-; apply same_moved; reflexivity.
  - unfold next in E. destruct (mg_shutting s) as [[|i todo]|]; [injection E as <- <-; apply same_moved; reflexivity| |injection E as <- <-; apply same_moved; reflexivity].
    match type of E with context[tell pol ?x i] => set (s1 := x) in E end. change (mg_channels s) with (mg_channels s1).
    destruct (tell pol s1 i) as [[s2 l2]|] eqn:Et; cbn [obind] in E; [|discriminate]. injection E as <- <-.
    assert (M : moved MNext j (nth_error (mg_channels s1) j) (nth_error (mg_channels s2) j) l2).
    { unfold tell in Et. destruct (nth_error (mg_channels s1) i) as [[? ?|? ? ?]|]; [exact (client_moved _ _ _ _ _ _ _ Et)|exact (server_moved _ _ _ _ _ _ _ Et)|].
      injection Et as <- <-. apply same_moved; reflexivity. }
    exact M.
  - exact (client_moved _ _ _ _ _ _ _ E).
  - exact (server_moved _ _ _ _ _ _ _ E).
Qed.

(** ** Histories *)

Lemma client_events_app i a b : client_events i (a ++ b) = client_events i a ++ client_events i b. Proof. apply flat_map_app. Qed.
Lemma client_marks_app i a b : client_marks i (a ++ b) = client_marks i a ++ client_marks i b. Proof. apply flat_map_app. Qed.
Lemma server_events_app i a b : server_events i (a ++ b) = server_events i a ++ server_events i b. Proof. apply flat_map_app. Qed.
Lemma server_marks_app i a b : server_marks i (a ++ b) = server_marks i a ++ server_marks i b. Proof. apply flat_map_app. Qed.
Lemma told_app a b : told (a ++ b) = told a ++ told b. Proof. apply flat_map_app. Qed.
Lemma registered_app a b : registered (a ++ b) = registered a ++ registered b. Proof. apply flat_map_app. Qed.

Lemma history_ind : forall P : list (mevent U V) -> manager U V -> list mmark -> Prop,
  P [] manager_init [] ->
  (forall es s l e s' l', manager_history pol es s l -> P es s l -> typed_mevent e -> manager_step pol s e = Ret (s', l') -> P (es ++ [e]) s' (l ++ l')) ->
  forall es s l, manager_history pol es s l -> P es s l.
Proof.
  intros P P0 PS es. induction es as [|e es IH] using rev_ind; intros s l (T & R).
  - injection R as <- <-. exact P0.
  - rewrite mrun_app in R. destruct (manager_run pol manager_init es) as [[s1 l1]|] eqn:E1; cbn [obind] in R; [|discriminate].
    cbn [manager_run] in R. destruct (manager_step pol s1 e) as [[s2 l2]|] eqn:E2; cbn [obind] in R; [|discriminate]. injection R as <- <-.
    apply Forall_app in T. destruct T as (T1 & T2). inversion T2 as [|? ? T3 _]; subst. rewrite app_nil_r.
    assert (Hy : manager_history pol es s1 l1) by (split; assumption). exact (PS _ _ _ _ _ _ Hy (IH _ _ Hy) T3 E2).
Qed.

(** The run of a channel. *)
Definition ran (i : nat) (a b : option (channel U V)) (l : list mmark) : Prop :=
  match a with
  | Some (ClientSide h c) => exists c', b = Some (ClientSide h c') /\ tcp_run h pol c (client_events i l) = Ret (c', client_marks i l) /\ server_events i l = []
  | Some (ServerSide r d c) => exists c', b = Some (ServerSide r d c') /\ userver_run r d pol c (server_events i l) = Ret (c', server_marks i l) /\ client_events i l = []
  | None => True
  end.

Lemma run_ran : forall es s s' l i, manager_run pol s es = Ret (s', l) -> ran i (nth_error (mg_channels s) i) (nth_error (mg_channels s') i) l.
Proof.
  induction es as [|e es IH]; intros s s' l i R; cbn [manager_run] in R.
  - injection R as <- <-. destruct (nth_error (mg_channels s) i) as [[h c|r d c]|]; cbn [ran]; [| |exact Logic.I]; eexists; repeat split; reflexivity.
  - destruct (manager_step pol s e) as [[s1 l1]|] eqn:E1; cbn [obind] in R; [|discriminate].
    destruct (manager_run pol s1 es) as [[s2 l2]|] eqn:E2; cbn [obind] in R; [|discriminate]. injection R as <- <-.
    pose proof (step_moved _ _ _ _ i E1) as M. specialize (IH _ _ _ i E2).
    destruct (nth_error (mg_channels s) i) as [[h c|r d c]|]; cbn [ran moved] in *; [| |exact Logic.I].
    + destruct M as (c1 & Q & R1 & Z1). rewrite Q in IH. cbn [ran] in IH. destruct IH as (c2 & Q2 & R2 & Z2). exists c2. split; [exact Q2|].
      rewrite client_events_app, client_marks_app, server_events_app, Z1, Z2. split; [|reflexivity]. rewrite TcpOrder.run_app_tcp, R1. cbn [obind]. rewrite R2. reflexivity.
    + destruct M as (c1 & Q & R1 & Z1). rewrite Q in IH. cbn [ran] in IH. destruct IH as (c2 & Q2 & R2 & Z2). exists c2. split; [exact Q2|].
      rewrite client_events_app, server_marks_app, server_events_app, Z1, Z2. split; [|reflexivity]. rewrite ServerTcpFacts.urun_app, R1. cbn [obind]. rewrite R2. reflexivity.
Qed.

(** What happens to a channel is as typed as what happens to the manager. *)
Lemma step_typed : forall s e s' l i, typed_mevent e -> manager_step pol s e = Ret (s', l) -> Forall typed_tevent (client_events i l) /\ Forall typed_uevent (server_events i l).
Proof.
  assert (C : forall s i e s' l j, typed_tevent e -> client_event pol s i e = Ret (s', l) -> Forall typed_tevent (client_events j l) /\ Forall typed_uevent (server_events j l)).
  { intros s i e s' l j T E. destruct (client_moves _ _ _ _ _ E) as (_ & _ & _ & _ & _ & [(-> & _)|(? & ? & ? & ? & _ & _ & _ & ->)]); [split; constructor|].
    unfold client_events, server_events. cbn [flat_map app]. destruct (Nat.eqb i j); split; repeat constructor; exact T. }
  assert (D : forall s i e s' l j, typed_uevent e -> server_event pol s i e = Ret (s', l) -> Forall typed_tevent (client_events j l) /\ Forall typed_uevent (server_events j l)).
  { intros s i e s' l j T E. destruct (server_moves _ _ _ _ _ E) as (_ & _ & _ & _ & _ & [(-> & _)|(? & ? & ? & ? & ? & _ & _ & _ & ->)]); [split; constructor|].
    unfold client_events, server_events. cbn [flat_map app]. destruct (Nat.eqb i j); split; repeat constructor; exact T. }
  intros s v s' l j T E. destruct v as [h buf w|r d max w|i| | |i e|i e] eqn:Ev; cbn [manager_step] in E; [| | | | |exact (C _ _ _ _ _ _ T E)|exact (D _ _ _ _ _ _ T E)].
  - injection E as <- <-. split; constructor.
  - injection E as <- <-. split; constructor.
  - unfold register in E. destruct (mg_shutting s); [injection E as <- <-; split; constructor|]. destruct (existsb _ _); [|injection E as <- <-; split; constructor].
    destruct (nth_error (mg_channels s) i) as [[? ?|? ? ?]|]; injection E as <- <-; split; constructor.
  - destruct (mg_shutting s); injection E as <- <-; split; constructor.
  - unfold next in E. destruct (mg_shutting s) as [[|i todo]|]; [injection E as <- <-; split; constructor| |injection E as <- <-; split; constructor].
    match type of E with context[tell pol ?x i] => set (s1 := x) in E end.
    destruct (tell pol s1 i) as [[s2 l2]|] eqn:Et; cbn [obind] in E; [|discriminate]. injection E as <- <-.
    change (Forall typed_tevent (client_events j l2) /\ Forall typed_uevent (server_events j l2)).
    unfold tell in Et. destruct (nth_error (mg_channels s1) i) as [[? ?|? ? ?]|]; [exact (C s1 i (TApi Client.Shutdown) _ _ _ Logic.I Et)|exact (D s1 i (UApi ApiShutdown) _ _ _ Logic.I Et)|].
    injection Et as <- <-. split; constructor.
Qed.

Lemma run_typed : forall es s s' l i, Forall typed_mevent es -> manager_run pol s es = Ret (s', l) -> Forall typed_tevent (client_events i l) /\ Forall typed_uevent (server_events i l).
Proof.
  induction es as [|e es IH]; intros s s' l i T R; cbn [manager_run] in R.
  - injection R as <- <-. split; constructor.
  - destruct (manager_step pol s e) as [[s1 l1]|] eqn:E1; cbn [obind] in R; [|discriminate].
    destruct (manager_run pol s1 es) as [[s2 l2]|] eqn:E2; cbn [obind] in R; [|discriminate]. injection R as <- <-. inversion T as [|? ? T1 T2]; subst.
    destruct (step_typed _ _ _ _ i T1 E1) as (A & B). destruct (IH _ _ _ i T2 E2) as (A' & B').
    rewrite client_events_app, server_events_app. split; apply Forall_app; split; assumption.
Qed.

(** Each channel has a history of its own. *)
Theorem channels_alone : forall es s l i, manager_history pol es s l ->
  match nth_error (mg_channels s) i with
  | Some (ClientSide h c) => exists buf w, In (MNewClient h buf w) es /\ good_buf buf /\ Forall typed_tevent (client_events i l) /\
      tcp_run h pol (tclient_init buf w) (client_events i l) = Ret (c, client_marks i l) /\ server_events i l = []
  | Some (ServerSide r d c) => exists max w, In (MNewServer r d max w) es /\
      server_history r d pol max w (server_events i l) c (server_marks i l) /\ client_events i l = []
  | None => client_events i l = [] /\ server_events i l = [] /\ client_marks i l = [] /\ server_marks i l = []
  end.
Proof.
  intros es s l i Hy. revert es s l Hy.
  apply (history_ind (fun es s l => match nth_error (mg_channels s) i with
    | Some (ClientSide h c) => exists buf w, In (MNewClient h buf w) es /\ good_buf buf /\ Forall typed_tevent (client_events i l) /\
        tcp_run h pol (tclient_init buf w) (client_events i l) = Ret (c, client_marks i l) /\ server_events i l = []
    | Some (ServerSide r d c) => exists max w, In (MNewServer r d max w) es /\
        server_history r d pol max w (server_events i l) c (server_marks i l) /\ client_events i l = []
    | None => client_events i l = [] /\ server_events i l = [] /\ client_marks i l = [] /\ server_marks i l = []
    end)); [destruct i; repeat split|].
  intros es s l e s' l' _ P T E. pose proof (step_moved _ _ _ _ i E) as M. destruct (step_typed _ _ _ _ i T E) as (T1 & T2).
  rewrite client_events_app, client_marks_app, server_events_app, server_marks_app.
  destruct (nth_error (mg_channels s) i) as [[h c|r d c]|]; cbn [moved] in M.
  - destruct P as (buf & w & I0 & G & T0 & R0 & Z0). destruct M as (c' & -> & R & Z). exists buf, w. split; [apply in_or_app; left; exact I0|]. split; [exact G|].
    split; [apply Forall_app; split; assumption|]. rewrite Z0, Z. split; [|reflexivity]. rewrite TcpOrder.run_app_tcp, R0. cbn [obind]. rewrite R. reflexivity.
  - destruct P as (max & w & I0 & (T0 & R0) & Z0). destruct M as (c' & -> & R & Z). exists max, w. split; [apply in_or_app; left; exact I0|].
    rewrite Z0, Z. split; [|reflexivity]. split; [apply Forall_app; split; assumption|]. rewrite ServerTcpFacts.urun_app, R0. cbn [obind]. rewrite R. reflexivity.
  - destruct P as (-> & -> & -> & ->). destruct M as (-> & -> & -> & -> & M). destruct (nth_error (mg_channels s') i) as [[h c|r d c]|].
    + destruct M as (buf & w & -> & ->). exists buf, w. split; [apply in_or_app; right; left; reflexivity|]. split; [exact T|]. split; [constructor|]. split; reflexivity.
    + destruct M as (max & w & -> & ->). exists max, w. split; [apply in_or_app; right; left; reflexivity|]. split; [|reflexivity]. split; [constructor|reflexivity].
    + repeat split.
Qed.
End Facts.
