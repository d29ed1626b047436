(** Proofs about ClientTcp.v: after the shutdown everything comes to an end. *)
From Verif Require Import Prelude Ser4 Messages Mbap SpecPdu SpecMbap Client SpecClient ClientFacts ClientShutdown AsyncWrite ClientConn SpecConn ConnFacts
  ClientTcp SpecClientTcp TcpFacts TcpWire TcpOrder TcpShutdown SpecEnd.
From Coq Require Import Lia.

Definition rejects (q : list ctask) : nat := List.length (filter (fun t => match t with DoReject _ => true | _ => false end) q).

Definition task_weight (t : ctask) : nat := match t with DoShutdown => 3 | _ => 1 end.
Fixpoint weight (q : list ctask) : nat := match q with [] => 0 | t :: q' => task_weight t + weight q' end.

Lemma weight_app a b : weight (a ++ b) = (weight a + weight b)%nat.
Proof. induction a as [|x a IH]; cbn [app weight]; lia. Qed.
Lemma rejects_app a b : rejects (a ++ b) = (rejects a + rejects b)%nat.
Proof. unfold rejects. rewrite filter_app, app_length. reflexivity. Qed.

Definition untaken (o : wop) : bool := match w_taken o with None => true | Some _ => false end.

Definition conn_work (c : cconn) : nat :=
  (List.length (cn_queue c) + cn_resolves c + List.length (cn_connects c) + List.length (cn_reads c) + List.length (wr_ops (cn_writer c)) +
   List.length (filter untaken (wr_ops (cn_writer c))))%nat.

Definition channel_work (s : client) : nat := (weight (cc_queue s) + 2 * List.length (cc_armed s) + List.length (cc_expired s))%nat.

Lemma filter_le {A} (f : A -> bool) l : (List.length (filter f l) <= List.length l)%nat.
Proof. induction l as [|x l IH]; cbn; [lia|]. destruct (f x); cbn; lia. Qed.

Lemma filter_lt {A} (f : A -> bool) l x : In x l -> f x = false -> (List.length (filter f l) < List.length l)%nat.
Proof.
  induction l as [|y l IH]; intros H E; [destruct H|]. cbn. destruct H as [->|H].
  - rewrite E. assert (X := filter_le f l). lia.
  - specialize (IH H E). destruct (f y); cbn; lia.
Qed.

Lemma existsb_in t l : existsb (Nat.eqb t) l = true <-> In t l.
Proof.
  rewrite existsb_exists. split; [intros (y & H & E); apply Nat.eqb_eq in E; subst; exact H|].
  intros H. exists t. rewrite Nat.eqb_refl. auto.
Qed.

(** ** The connection *)
Lemma abort_untaken l : List.length (filter untaken (map (fun x => {| w_id := w_id x; w_buf := w_buf x; w_taken := w_taken x; w_aborted := true |}) l)) =
  List.length (filter untaken l).
Proof. induction l as [|x l IH]; [reflexivity|]. cbn [map filter].
  change (untaken {| w_id := w_id x; w_buf := w_buf x; w_taken := w_taken x; w_aborted := true |}) with (untaken x).
  destruct (untaken x); cbn [List.length]; lia. Qed.

Lemma filter_filter_le {A} (f g : A -> bool) l : (List.length (filter f (filter g l)) <= List.length (filter f l))%nat.
Proof. induction l as [|x l IH]; cbn; [lia|]. destruct (g x), (f x) eqn:F; cbn; rewrite ?F; cbn; lia. Qed.

Definition take (w n : nat) (x : wop) : wop :=
  if Nat.eqb (w_id x) w then {| w_id := w_id x; w_buf := w_buf x; w_taken := Some n; w_aborted := w_aborted x |} else x.

Lemma take_untaken w n l : (List.length (filter untaken (map (take w n) l)) <= List.length (filter untaken l))%nat.
Proof.
  induction l as [|x l IH]; [cbn; lia|]. cbn [map filter]. assert (X : untaken (take w n x) = true -> untaken x = true).
  { unfold take. destruct (Nat.eqb (w_id x) w); [discriminate|auto]. }
  destruct (untaken (take w n x)), (untaken x); cbn [List.length]; try lia; discriminate X; reflexivity.
Qed.

Lemma take_less w n l : forall o, find_op l w = Some o -> w_taken o = None ->
  (List.length (filter untaken (map (take w n) l)) < List.length (filter untaken l))%nat.
Proof.
  induction l as [|x l IH]; intros o F T; cbn in F; [discriminate|]. cbn [map filter].
  assert (X := take_untaken w n l). destruct (Nat.eqb_spec (w_id x) w) as [D|D].
  - injection F as ->. unfold take at 1. rewrite (proj2 (Nat.eqb_eq _ _) D). assert (U : untaken o = true) by (unfold untaken; rewrite T; reflexivity).
    rewrite U. cbn [untaken w_taken List.length]. lia.
  - specialize (IH o F T). unfold take at 1. rewrite (proj2 (Nat.eqb_neq _ _) D). destruct (untaken x); cbn [List.length]; lia.
Qed.

Lemma find_op_in l w : forall o, find_op l w = Some o -> In o l /\ w_id o = w.
Proof.
  induction l as [|y l IH]; intros o F; cbn in F; [discriminate|].
  destruct (Nat.eqb_spec (w_id y) w) as [Hy|]; [injection F as ->; split; [left; reflexivity|exact Hy]|].
  destruct (IH o F). split; [right|]; assumption.
Qed.

Lemma conn_ends c e c' o : cn_shutdown c = true -> conn_step c e = Ret (c', o) ->
  match e with NSend _ _ | NShutdown => True | _ => conn_enabled c e \/ e = NRun end ->
  match e with
  | NSend _ _ => c' = c /\ o = []
  | NShutdown => cn_shutdown c' = true /\ conn_work c' = S (conn_work c) /\ List.length (cn_queue c') = S (List.length (cn_queue c)) /\ o = []
  | _ => cn_shutdown c' = true /\ (conn_work c' < conn_work c \/ (e = NRun /\ c' = c))%nat /\ (forall x, In x o -> exists y, x = Write y) /\
      List.length (cn_queue c') = (List.length (cn_queue c) - match e with NRun => 1 | _ => 0 end)%nat
  end.
Proof.
  intros Hs E He. destruct e as [d x| | |ok|g ok|r x|w n|w ok]; cbn [conn_step] in E.
  - unfold conn_send in E. rewrite Hs in E. injection E as <- <-. auto.
  - injection E as <- <-. split; [exact Hs|]. unfold conn_work; cbn. rewrite app_length. cbn. repeat split; lia.
  - destruct (cn_queue c) as [|t q] eqn:Hq.
    { injection E as <- <-. repeat split; [exact Hs|auto|intros y []|rewrite Hq; reflexivity]. }
    destruct t.
    + unfold do_close in E. cbn [with_nqueue cn_shutdown] in E. rewrite Hs in E. injection E as <- <-. split; [exact Hs|].
      unfold conn_work; cbn. rewrite Hq. cbn. repeat split; [left; lia|intros y []|lia].
    + injection E as <- <-. split; [reflexivity|].
      unfold conn_work; cbn. rewrite Hq, map_length, abort_untaken. cbn. repeat split; [left; lia|intros y []|lia].
  - destruct He as [He|He]; [|discriminate He]. cbn [conn_enabled] in He. destruct (cn_resolves c) as [|n] eqn:Hr; [destruct (He eq_refl)|].
    unfold resolve_handler in E. cbn [with_resolves cn_shutdown] in E. rewrite Hs in E. injection E as <- <-. split; [exact Hs|].
    unfold conn_work; cbn. rewrite Hr. repeat split; [left; lia|intros y []|lia].
  - destruct He as [He|He]; [|discriminate He]. cbn [conn_enabled] in He. rewrite (proj2 (existsb_in _ _) He) in E.
    unfold connect_handler in E. cbn [with_connects cn_shutdown] in E. rewrite Hs in E. injection E as <- <-. split; [exact Hs|].
    unfold conn_work; cbn.
    assert (X := filter_lt (fun x => negb (Nat.eqb x g)) _ g He ltac:(cbn; rewrite Nat.eqb_refl; reflexivity)). repeat split; [left; lia|intros y []|lia].
  - destruct He as [He|He]; [|discriminate He]. cbn [conn_enabled] in He. destruct He as (g & Hf & Hp). rewrite Hf, Hp in E.
    unfold read_handler in E. cbn [with_reads cn_shutdown] in E. rewrite Hs in E. injection E as <- <-. split; [exact Hs|].
    assert (Hin : In (r, g) (cn_reads c)).
    { clear - Hf. induction (cn_reads c) as [|[r' g'] l IH]; cbn in Hf; [discriminate|].
      destruct (Nat.eqb_spec r' r) as [->|]; [injection Hf as ->; left; reflexivity|right; auto]. }
    unfold conn_work; cbn.
    assert (X := filter_lt (fun x => negb (Nat.eqb (fst x) r)) _ (r, g) Hin ltac:(cbn; rewrite Nat.eqb_refl; reflexivity)). repeat split; [left; lia|intros y []|lia].
  - destruct He as [He|He]; [|discriminate He]. cbn [conn_enabled] in He. destruct He as (op & Hf & Ht & Ha & L1 & L2). unfold w_transfer in E. rewrite Hf, Ht, Ha in E.
    destruct (Nat.eqb_spec n 0); [lia|]. destruct (Nat.ltb_spec (List.length (snd (w_buf op))) n); [lia|]. cbn [orb] in E.
    destruct (match wr_buffer _ with Some _ => _ | None => _ end); cbn [obind] in E; [|discriminate E].
    injection E as <- <-. split; [exact Hs|]. unfold conn_work; cbn. rewrite map_length.
    assert (X := take_less w n _ _ Hf Ht). unfold take in X. repeat split; [left; lia|intros y [<-|[]]; eauto|lia].
  - destruct He as [He|He]; [|discriminate He]. cbn [conn_enabled] in He. unfold write_handler in E. rewrite Hs in E.
    destruct (w_complete (cn_writer c) w ok) as [[wr ow]|] eqn:Hw; [|destruct (He eq_refl)].
    injection E as <- <-. split; [exact Hs|].
    unfold w_complete in Hw. destruct (find_op (wr_ops (cn_writer c)) w) as [op|] eqn:Hf; [|discriminate].
    destruct (find_op_in _ _ _ Hf) as [Hin Hid]. unfold conn_work; cbn. unfold delete_op.
    assert (X := filter_lt (fun o => negb (Nat.eqb (w_id o) w)) _ op Hin ltac:(cbn; rewrite Hid, Nat.eqb_refl; reflexivity)).
    assert (Y := filter_filter_le untaken (fun o => negb (Nat.eqb (w_id o) w)) (wr_ops (cn_writer c))). repeat split; [left; lia|intros y []|lia].
Qed.

(** ** The channel *)
Section End.
Context {W : Type}.
Context (handler : nat -> W -> expected (list N) -> W * list capi).
Context (pol : copy_policy).

Lemma calls_end l : forall s s' o, capi_calls s l = (s', o) -> cc_shutdown s = true ->
  cc_shutdown s' = true /\ cc_armed s' = cc_armed s /\ cc_expired s' = cc_expired s /\ rejects (cc_queue s') = rejects (cc_queue s) /\
  (forall x, In x o -> exists i k, x = Called i k).
Proof.
  induction l as [|a l IH]; intros s s' o E S; cbn [capi_calls] in E.
  - injection E as <- <-. repeat split; auto. intros x [].
  - destruct (capi_call s a) as [s1 o1] eqn:A. destruct (capi_calls s1 l) as [s2 o2] eqn:B. injection E as <- <-.
    assert (X : cc_shutdown s1 = true /\ cc_armed s1 = cc_armed s /\ cc_expired s1 = cc_expired s /\ rejects (cc_queue s1) = rejects (cc_queue s) /\
                (forall x, In x o1 -> exists i k, x = Called i k)).
    { destruct a; cbn [capi_call] in A.
      - rewrite S in A. injection A as <- <-. cbn. repeat split; auto. intros x [<-|[]]. eauto.
      - injection A as <- <-. cbn [with_queue cc_queue cc_armed cc_expired cc_shutdown]. rewrite rejects_app. cbn. repeat split; auto. intros x []. }
    destruct X as (X1 & X2 & X3 & X4 & X5). destruct (IH _ _ _ B X1) as (Y1 & Y2 & Y3 & Y4 & Y5).
    repeat split; try congruence. intros x H. apply in_app_iff in H as [H|H]; auto.
Qed.

Lemma channel_ends s w e s' w' o : cc_shutdown s = true -> client_step handler pol s w e = Ret (s', w', o) ->
  match e with CApi _ => False | CExpire t => In t (cc_armed s) | CFire t => In t (cc_expired s) | _ => True end ->
  cc_shutdown s' = true /\
  ((s' = s /\ o = [] /\ match e with CRun => cc_queue s = [] | CExpire _ | CFire _ => False | _ => True end) \/
   (e = CRun /\ (rejects (cc_queue s') < rejects (cc_queue s))%nat /\ forall x, In x o -> x <> TcpShutdown) \/
   (e = CRun /\ rejects (cc_queue s') = rejects (cc_queue s) /\ S (List.length (cc_queue s')) = List.length (cc_queue s) /\
      ((channel_work s' + 3 <= channel_work s)%nat /\ o = [TcpShutdown] \/ (channel_work s' < channel_work s)%nat /\ o = [])) \/
   (e <> CRun /\ cc_queue s' = cc_queue s /\ (channel_work s' < channel_work s)%nat /\ o = [])).
Proof.
  intros S E He. destruct e as [a| |d|msg|t|t]; cbn [client_step] in E; [destruct He| | | | |].
  - destruct (cc_queue s) as [|x q] eqn:Q; [injection E as <- <- <-; split; [exact S|]; left; auto|].
    unfold run_ctask in E. destruct x as [i k|i|].
    + cbn [with_queue cc_shutdown] in E. rewrite S in E. injection E as <- <- <-. split; [exact S|]. right. right. left.
      unfold channel_work. cbn. rewrite Q. cbn. split; [reflexivity|]. split; [reflexivity|]. split; [reflexivity|]. right. split; [lia|reflexivity].
    + unfold call_handler in E. destruct (handler i w (Error EMalformedRequest)) as [w1 calls]. destruct (capi_calls _ calls) as [s1 o1] eqn:C.
      injection E as <- <- <-. destruct (calls_end _ _ _ _ C S) as (X1 & X2 & X3 & X4 & X5). split; [exact X1|]. right. left.
      split; [reflexivity|]. split.
      * rewrite X4. cbn. unfold rejects. cbn. lia.
      * intros y [<-|H]; [discriminate|]. destruct (X5 _ H) as (? & ? & ->). discriminate.
    + injection E as <- <- <-. split; [reflexivity|]. right. right. left. unfold channel_work. cbn. rewrite Q. cbn. split; [reflexivity|]. split; [reflexivity|]. split; [reflexivity|].
      left. split; [|reflexivity]. destruct (cc_timer s) as [t|]; [assert (X := filter_le (fun x => negb (Nat.eqb x t)) (cc_armed s))|]; lia.
  - unfold on_receive in E. rewrite S in E. injection E as <- <- <-. split; [exact S|]. left. auto.
  - unfold on_error in E. rewrite S in E. injection E as <- <- <-. split; [exact S|]. left. auto.
  - rewrite (proj2 (existsb_in _ _) He) in E. injection E as <- <- <-. split; [exact S|]. right. right. right. split; [discriminate|].
    unfold channel_work. cbn. rewrite app_length. cbn.
    assert (X := filter_lt (fun x => negb (Nat.eqb x t)) _ t He ltac:(cbn; rewrite Nat.eqb_refl; reflexivity)). repeat split; lia.
  - rewrite (proj2 (existsb_in _ _) He) in E. unfold on_timeout in E. cbn [with_timers cc_shutdown] in E. rewrite S in E. injection E as <- <- <-.
    split; [exact S|]. right. right. right. split; [discriminate|]. unfold channel_work. cbn.
    assert (X := filter_lt (fun x => negb (Nat.eqb x t)) _ t He ltac:(cbn; rewrite Nat.eqb_refl; reflexivity)). repeat split; lia.
Qed.

Lemma to_conn_same os : forall c xs c' l, (forall x, In x os -> x <> TcpShutdown) -> cn_shutdown c = true -> to_conn c os xs = Ret (c', l) -> c' = c.
Proof.
  induction os as [|o os IH]; intros c xs c' l H S E; cbn [to_conn] in E; [injection E as <- <-; reflexivity|].
  assert (H' : forall x, In x os -> x <> TcpShutdown) by (intros x K; apply H; right; exact K).
  assert (Ho : o <> TcpShutdown) by (apply H; left; reflexivity).
  destruct o as [i k|i u t f|i t n|i r|]; [| | | |congruence].
  2: { destruct (conn_step c _) as [[c1 o1]|] eqn:N; cbn [obind] in E; [|discriminate E].
       assert (X := conn_ends _ _ _ _ S N Logic.I). destruct X as [-> ->].
       destruct (to_conn c os (tl xs)) as [[c2 l2]|] eqn:T; cbn [obind] in E; [|discriminate E]. injection E as <- <-. exact (IH _ _ _ _ H' S T). }
  all: destruct (to_conn c os xs) as [[c2 l2]|] eqn:T; cbn [obind] in E; [|discriminate E]; injection E as <- <-; exact (IH _ _ _ _ H' S T).
Qed.

Lemma callbacks_same os : forall (s : tclient W) msg xs s' l, (forall x, In x os -> exists y, x = Write y) ->
  callbacks handler pol s os msg xs = Ret (s', l) -> s' = s.
Proof.
  induction os as [|o os IH]; intros s msg xs s' l H E; cbn [callbacks] in E; [injection E as <- <-; reflexivity|].
  destruct (H o (or_introl eq_refl)) as [y ->]. cbn [obind] in E.
  destruct (callbacks handler pol s os msg xs) as [[s2 l2]|] eqn:T; cbn [obind] in E; [|discriminate E]. injection E as <- <-.
  apply (IH _ _ _ _ _ (fun x K => H x (or_intror K)) T).
Qed.

Definition down (s : tclient W) : Prop := cc_shutdown (tc_channel s) = true /\ cn_shutdown (tc_conn s) = true.
Definition to_do (s : tclient W) : nat := (channel_work (tc_channel s) + conn_work (tc_conn s) + List.length (tc_order s))%nat.

Lemma channel_turn_ends s order e xs s' l : down s -> channel_turn handler pol s order e xs = Ret (s', l) ->
  match e with CRun => S (List.length order) = List.length (tc_order s)
             | CExpire t => In t (cc_armed (tc_channel s)) /\ order = tc_order s | CFire t => In t (cc_expired (tc_channel s)) /\ order = tc_order s
             | _ => False end ->
  down s' /\ ((rejects (cc_queue (tc_channel s')) < rejects (cc_queue (tc_channel s)))%nat \/
              rejects (cc_queue (tc_channel s')) = rejects (cc_queue (tc_channel s)) /\ (to_do s' < to_do s)%nat).
Proof.
  intros [D1 D2] E He. unfold channel_turn in E.
  destruct (client_step handler pol (tc_channel s) (tc_user s) e) as [[[ch w] os]|] eqn:C; cbn [obind] in E; [|discriminate E].
  destruct (to_conn (tc_conn s) os xs) as [[c m]|] eqn:T; cbn [obind] in E; [|discriminate E]. injection E as <- _.
  destruct (channel_ends _ _ _ _ _ _ D1 C) as (D1' & X). { destruct e; try contradiction; tauto. }
  unfold down, to_do. cbn [tc_channel tc_conn tc_order].
  destruct X as [(-> & -> & X)|[(-> & X1 & X2)|[(-> & X1 & X2 & X3)|(X1 & X2 & X3 & ->)]]].
  - destruct e; try contradiction. injection T as <- _. repeat split; auto. right. split; [reflexivity|].
    unfold posted. rewrite X, !app_length, !repeat_length. cbn. lia.
  - assert (Y := to_conn_same _ _ _ _ _ X2 D2 T). subst c. repeat split; auto.
  - destruct X3 as [[X3 ->]|[X3 ->]].
    + cbn [to_conn] in T. destruct (conn_step (tc_conn s) NShutdown) as [[c1 o1]|] eqn:N; cbn [obind] in T; [|discriminate T]. injection T as <- _.
      destruct (conn_ends _ _ _ _ D2 N Logic.I) as (Y1 & Y2 & Y3 & Y4). repeat split; auto. right. split; [exact X1|].
      unfold posted. rewrite !app_length, !repeat_length. lia.
    + injection T as <- _. repeat split; auto. right. split; [exact X1|]. unfold posted. rewrite !app_length, !repeat_length. lia.
  - injection T as <- _. repeat split; auto. right. split; [rewrite X2; reflexivity|]. unfold posted. rewrite X2, !app_length, !repeat_length.
    destruct e; try contradiction; try congruence; destruct He as [_ ->]; lia.
Qed.

Lemma conn_turn_ends s order e msg xs s' l : down s -> conn_turn handler pol s order e msg xs = Ret (s', l) ->
  match e with NSend _ _ | NShutdown => False
             | NRun => S (List.length order) = List.length (tc_order s) | _ => conn_enabled (tc_conn s) e /\ order = tc_order s end ->
  down s' /\ rejects (cc_queue (tc_channel s')) = rejects (cc_queue (tc_channel s)) /\ (to_do s' < to_do s)%nat.
Proof.
  intros [D1 D2] E He. unfold conn_turn in E. destruct (conn_step (tc_conn s) e) as [[c os]|] eqn:C; cbn [obind] in E; [|discriminate E].
  destruct (callbacks _ _ _ _ _ _) as [[s1 m]|] eqn:T in E; cbn [obind] in E; [|discriminate E]. injection E as <- _.
  assert (X := conn_ends _ _ _ _ D2 C). destruct e as [d x| | |ok|g ok|r x|w n|w ok]; [contradiction|contradiction| | | | | |].
  1: { destruct X as (X1 & X2 & X3 & X4); [auto|]. apply callbacks_same in T; [|exact X3]. subst s1. unfold down, to_do. cbn [tc_channel tc_conn tc_order].
       split; [auto|]. split; [reflexivity|]. unfold posted. rewrite app_length, repeat_length. destruct X2 as [X2|[_ ->]]; lia. }
  all: destruct He as [He ->]; destruct X as (X1 & X2 & X3 & X4); [auto|]; apply callbacks_same in T; [|exact X3]; subst s1; unfold down, to_do;
    cbn [tc_channel tc_conn tc_order]; split; [auto|]; split; [reflexivity|]; unfold posted; rewrite app_length, repeat_length;
    destruct X2 as [X2|[X2 _]]; [lia|discriminate X2].
Qed.

Lemma tcp_step_ends s e s' l : down s -> tcp_enabled s e -> tcp_step handler pol s e = Ret (s', l) ->
  down s' /\ ((rejects (cc_queue (tc_channel s')) < rejects (cc_queue (tc_channel s)))%nat \/
              rejects (cc_queue (tc_channel s')) = rejects (cc_queue (tc_channel s)) /\ (to_do s' < to_do s)%nat).
Proof.
  intros D He E. destruct e as [a|xs|t|t xs|ok msg|g ok msg|r x msg xs|w n|w ok msg]; cbn [tcp_enabled tcp_step] in He, E; [destruct He|..].
  - destruct (tc_order s) as [|[|] q] eqn:O; [destruct (He eq_refl)| |].
    + apply (channel_turn_ends _ _ _ _ _ _ D E). rewrite O. reflexivity.
    + destruct (conn_turn_ends _ _ _ _ _ _ _ D E) as (A & B & C); [rewrite O; reflexivity|auto].
  - apply (channel_turn_ends _ _ _ _ _ _ D E). auto.
  - apply (channel_turn_ends _ _ _ _ _ _ D E). auto.
  - destruct (conn_turn_ends _ _ _ _ _ _ _ D E) as (A & B & C); auto.
  - destruct (conn_turn_ends _ _ _ _ _ _ _ D E) as (A & B & C); auto.
  - destruct (conn_turn_ends _ _ _ _ _ _ _ D E) as (A & B & C); auto.
  - destruct (conn_turn_ends _ _ _ _ _ _ _ D E) as (A & B & C); auto.
  - destruct (conn_turn_ends _ _ _ _ _ _ _ D E) as (A & B & C); auto.
Qed.

Lemma down_ends s : down s -> Acc (tcp_goes_on handler pol) s.
Proof.
  remember (rejects (cc_queue (tc_channel s))) as n eqn:Hn. revert s Hn. induction n as [n IHn] using (well_founded_induction lt_wf). intros s Hn.
  remember (to_do s) as m eqn:Hm. revert s Hn Hm. induction m as [m IHm] using (well_founded_induction lt_wf). intros s Hn Hm D.
  constructor. intros s' (e & l & He & E). destruct (tcp_step_ends _ _ _ _ D He E) as (D' & [X|[X Y]]).
  - eapply IHn; [|reflexivity|exact D']. lia.
  - eapply IHm; [|rewrite X; exact Hn|reflexivity|exact D']. lia.
Qed.

(** ** Every step is defined *)
Lemma dead_to_conn os : forall c xs, dead c -> exists c' l, to_conn c os xs = Ret (c', l) /\ dead c'.
Proof.
  induction os as [|o os IH]; intros c xs D; cbn [to_conn]; [eauto|].
  destruct o as [i k|i u t f|i t n|i r|].
  2: { destruct (dead_step c (NSend (frame_data f) (next_setup xs)) D) as (c1 & -> & D1). cbn [obind].
       destruct (IH c1 (tl xs) D1) as (c2 & l & -> & D2). cbn [obind]. eauto. }
  4: { destruct (dead_step c NShutdown D) as (c1 & -> & D1). cbn [obind]. destruct (IH c1 xs D1) as (c2 & l & -> & D2). cbn [obind]. eauto. }
  all: destruct (IH c xs D) as (c2 & l & -> & D2); cbn [obind]; eauto.
Qed.

Lemma client_defined s w e : cc_shutdown s = true -> exists r, client_step handler pol s w e = Ret r.
Proof.
  intros D. destruct e; cbn [client_step]; [destruct (capi_call s a)|destruct (cc_queue s)|unfold on_receive; rewrite D| |destruct (existsb _ _)|destruct (existsb _ _)]; eauto.
Qed.

Lemma dead_channel_turn (s : tclient W) order e xs : cc_shutdown (tc_channel s) = true -> dead (tc_conn s) ->
  exists s' l, channel_turn handler pol s order e xs = Ret (s', l) /\ dead (tc_conn s').
Proof.
  intros D1 D2. unfold channel_turn. destruct (client_defined (tc_channel s) (tc_user s) e D1) as ([[ch w] os] & ->). cbn [obind].
  destruct (dead_to_conn os _ xs D2) as (c & l & -> & D). cbn [obind]. eauto.
Qed.

Lemma dead_conn_turn s order e msg xs : dead (tc_conn s) -> exists s' l, conn_turn handler pol s order e msg xs = Ret (s', l) /\ dead (tc_conn s').
Proof. intros D. unfold conn_turn. destruct (dead_step _ e D) as (c & -> & D1). cbn [obind callbacks]. eauto. Qed.

Lemma dead_tcp_step s e : cc_shutdown (tc_channel s) = true -> dead (tc_conn s) ->
  exists s' l, tcp_step handler pol s e = Ret (s', l) /\ dead (tc_conn s').
Proof.
  intros D1 D2. destruct e; cbn [tcp_step]; auto using dead_channel_turn, dead_conn_turn.
  destruct (tc_order s) as [|[|] q]; eauto using dead_channel_turn, dead_conn_turn.
Qed.

(** ** When nothing can happen, nothing is left *)
Lemma no_event_error (s : tclient W) : ordered s ->
  (forall e, typed_tevent e -> (forall r x msg xs, e = TRead r x msg xs -> x = RError) -> ~ tcp_enabled s e) -> tcp_idle s.
Proof.
  intros [O1 O2] N'.
  assert (N : forall e, typed_tevent e -> ~ (match e with TRead _ x _ _ => x = RError | _ => True end /\ tcp_enabled s e)).
  { intros e T [R He]. apply (N' e T); [|exact He]. intros r x msg xs ->. exact R. }
  assert (O : tc_order s = []). { destruct (tc_order s) eqn:E; [reflexivity|]. destruct (N (TRun []) Logic.I). split; [exact Logic.I|]. cbn. rewrite E. discriminate. }
  rewrite O in O1, O2. cbn in O1, O2. apply eq_sym, length_zero_iff_nil in O1, O2.
  split; [exact O|]. split; [exact O1|].
  split. { destruct (cc_armed (tc_channel s)) as [|t l] eqn:E; [reflexivity|]. destruct (N (TExpire t) Logic.I). split; [exact Logic.I|]. cbn. rewrite E. left. reflexivity. }
  split. { destruct (cc_expired (tc_channel s)) as [|t l] eqn:E; [reflexivity|]. destruct (N (TFire t []) Logic.I). split; [exact Logic.I|]. cbn. rewrite E. left. reflexivity. }
  split; [exact O2|].
  split. { destruct (cn_resolves (tc_conn s)) as [|n] eqn:E; [reflexivity|]. destruct (N (TResolved true "") Logic.I). split; [exact Logic.I|]. cbn. rewrite E. discriminate. }
  split. { destruct (cn_connects (tc_conn s)) as [|t l] eqn:E; [reflexivity|]. destruct (N (TConnected t true "") Logic.I). split; [exact Logic.I|]. cbn. rewrite E. left. reflexivity. }
  split. { destruct (cn_reads (tc_conn s)) as [|[r g] l] eqn:E; [reflexivity|]. destruct (N (TRead r RError "" []) Logic.I). split; [reflexivity|]. cbn. exists g. rewrite E. cbn.
           rewrite Nat.eqb_refl. split; [reflexivity|]. destruct g; reflexivity. }
  destruct (wr_ops (cn_writer (tc_conn s))) as [|o l] eqn:E; [reflexivity|]. destruct (N (TWritten (w_id o) false "") Logic.I). split; [exact Logic.I|]. cbn.
  unfold w_complete. rewrite E. cbn. rewrite Nat.eqb_refl. discriminate.
Qed.

Lemma no_event (s : tclient W) : ordered s -> (forall e, typed_tevent e -> ~ tcp_enabled s e) -> tcp_idle s.
Proof. intros O N. apply no_event_error; [exact O|]. intros e T _. exact (N e T). Qed.

Lemma down_all_ends s : down s -> forall es l, tcp_history handler pol es s l -> tcp_ends handler pol s.
Proof.
  intros D. induction (down_ends s D) as [s _ IH]. intros es l H.
  pose proof (down_dead _ _ _ (conn_view _ _ _ _ _ H) (proj2 D)) as DD. constructor.
  - intros e T E. destruct (dead_tcp_step s e (proj1 D) DD) as (s' & l' & S & _). exists s', l'. split; [exact S|].
    apply (IH s' (ex_intro _ e (ex_intro _ l' (conj E S))) (proj1 (tcp_step_ends _ _ _ _ D E S)) (es ++ [e]) (l ++ l')). eapply tcp_extend; eauto.
  - apply no_event. eapply history_ordered; eauto.
Qed.

(** ** From the call of shutdown on *)
Theorem client_ends : forall es s l es1 s1 l1 es2 s2 l2, tcp_history handler pol es s l -> In (TApi Shutdown) es -> Forall typed_tevent (es1 ++ es2) ->
  tcp_run handler pol s es1 = Ret (s1, l1) -> (List.length (tc_order s) <= truns es1)%nat ->
  tcp_run handler pol s1 es2 = Ret (s2, l2) -> (List.length (tc_order s1) <= truns es2)%nat ->
  tcp_ends handler pol s2.
Proof.
  intros es s l es1 s1 l1 es2 s2 l2 H I T R1 L1 R2 L2. apply Forall_app in T as [T1 T2].
  pose proof (channel_goes_down _ _ _ _ _ _ _ _ H I T1 R1 L1) as D1.
  pose proof (tcp_extends _ _ _ _ _ _ _ _ H T1 R1) as H1.
  pose proof (connection_goes_down _ _ _ _ _ _ _ _ H1 D1 T2 R2 L2) as D2.
  eapply down_all_ends; [|eapply tcp_extends; eauto]. split; [|exact (proj1 D2)]. eapply down_stays; eauto.
Qed.

Lemma ends_finite : forall s, tcp_ends handler pol s -> forall ss es n, ss n = s -> tcp_goes_on_forever handler pol ss es -> False.
Proof.
  fix IH 2. intros s [A _] ss es n E F. destruct (F n) as (T & En & l & S). rewrite E in En, S. destruct (A _ T En) as (s' & l' & S' & X).
  rewrite S in S'. injection S' as S' _. eapply (IH s' X ss es (Datatypes.S n)); [congruence|exact F].
Qed.

Lemma forever_run ss es : tcp_goes_on_forever handler pol ss es -> forall n a, exists l, tcp_run handler pol (ss a) (map es (seq a n)) = Ret (ss (a + n)%nat, l).
Proof.
  intros F. induction n as [|n IH]; intros a; cbn [seq map tcp_run]; [rewrite Nat.add_0_r; eauto|].
  destruct (F a) as (_ & _ & l & St). rewrite St. cbn [obind]. destruct (IH (S a)) as (l' & R). rewrite R. cbn [obind].
  replace (a + S n)%nat with (S a + n)%nat by lia. eauto.
Qed.

Lemma forever_typed ss es : tcp_goes_on_forever handler pol ss es -> forall l, Forall typed_tevent (map es l).
Proof. intros F l. apply Forall_forall. intros x H. apply in_map_iff in H as (n & <- & _). apply F. Qed.

Lemma truns_app a b : truns (a ++ b) = (truns a + truns b)%nat.
Proof. unfold truns. rewrite filter_app, app_length. reflexivity. Qed.

Lemma enough_runs es : closures_run es -> forall k a, exists n, (k <= truns (map es (seq a n)))%nat.
Proof.
  intros C. induction k as [|k IH]; intros a; [exists 0%nat; lia|]. destruct (C a) as (m & xs & L & E). destruct (IH (S m)) as (n & Hn).
  exists ((m - a) + S n)%nat. rewrite seq_app, map_app, truns_app. replace (a + (m - a))%nat with m by lia. cbn [seq map]. rewrite E.
  unfold truns at 2. cbn [filter List.length]. unfold truns in Hn. lia.
Qed.

Theorem ends_if_run : forall es0 l ss es, tcp_history handler pol es0 (ss 0%nat) l -> In (TApi Shutdown) es0 ->
  tcp_goes_on_forever handler pol ss es -> ~ closures_run es.
Proof.
  intros es0 l ss es H I F C.
  destruct (enough_runs es C (List.length (tc_order (ss 0%nat))) 0%nat) as (n & Hn). destruct (forever_run _ _ F n 0%nat) as (l1 & R1).
  destruct (enough_runs es C (List.length (tc_order (ss n))) n) as (m & Hm). destruct (forever_run _ _ F m n) as (l2 & R2).
  eapply ends_finite; [|reflexivity|exact F].
  eapply client_ends; [exact H|exact I| |exact R1|exact Hn|exact R2|exact Hm]. rewrite <- map_app. eapply forever_typed. exact F.
Qed.
End End.
