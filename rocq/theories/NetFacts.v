(** A client, a server and its database with a network whose connections lose what
    was not transmitted: the common abstraction of the histories of World.v.  The
    steps, the invariant, and that every step preserves it. *)
From Verif Require Import Prelude Ser4 Messages Mbap Client Server Database System.
From Verif Require Import SpecPdu SpecMbap SpecClient SpecServer SpecDb SpecSystem.
From Verif Require Import Tac BuildFacts CodecLemmas MbapFacts MbapLemmas FrameFacts DatabaseFacts DbLemmas.
From Verif Require Import ClientFacts ClientLemmas ClientTx ClientShutdown ClientResponses ClientOutcomes.
From Verif Require Import SystemServe SystemClient SystemFacts SystemSteps.
From Verif Require SystemLemmas.

(** [n_cur]: the client's current socket; [n_reading]: whether it may receive from it;
    [n_out]: the frame the channel sent last, if it was not transmitted; by socket:
    bytes under way and the server's connection; by connection: the response sent
    last, if it was not transmitted, and whether the connection has failed. *)
Record net (W : Type) : Type := {
  n_client : client;
  n_user : W;
  n_server : server;
  n_db : db;
  n_cur : nat;
  n_reading : bool;
  n_out : option (list N);
  n_up : nat -> list N;
  n_down : nat -> list N;
  n_link : nat -> option N;
  n_sout : N -> option (list N);
  n_dead : N -> bool
}.
Arguments n_client {W}. Arguments n_user {W}. Arguments n_server {W}. Arguments n_db {W}.
Arguments n_cur {W}. Arguments n_reading {W}. Arguments n_out {W}. Arguments n_up {W}.
Arguments n_down {W}. Arguments n_link {W}. Arguments n_sout {W}. Arguments n_dead {W}.

Definition latest (x : option (list N)) (o : list coutput) : option (list N) :=
  fold_left (fun x m => match m with Sent _ _ _ f => Some (written f) | _ => x end) o x.

Definition latest_to (c : N) (x : option (list N)) (o : list output) : option (list N) :=
  fold_left (fun x m => match m with OSend c' f => if c' =? c then Some (written f) else x | _ => x end) o x.

Definition upd {A} (f : nat -> A) (g : nat) (x : A) : nat -> A := fun y => if Nat.eqb y g then x else f y.
Definition updN {A} (f : N -> A) (c : N) (x : A) : N -> A := fun y => if y =? c then x else f y.

Lemma upd_eq {A} (f : nat -> A) g x : upd f g x g = x.
Proof. unfold upd. rewrite Nat.eqb_refl. reflexivity. Qed.
Lemma upd_ne {A} (f : nat -> A) g x y : y <> g -> upd f g x y = f y.
Proof. intros H. unfold upd. apply Nat.eqb_neq in H. rewrite H. reflexivity. Qed.
Lemma updN_eq {A} (f : N -> A) c x : updN f c x c = x.
Proof. unfold updN. rewrite N.eqb_refl. reflexivity. Qed.
Lemma updN_ne {A} (f : N -> A) c x y : y <> c -> updN f c x y = f y.
Proof. intros H. unfold updN. apply N.eqb_neq in H. rewrite H. reflexivity. Qed.

Definition few (os : list youtput) : Prop := N.of_nat (List.length (called_ids (client_outputs os))) <= 65536.

Lemma few_prefix os os' : few (os ++ os') -> few os.
Proof. unfold few. rewrite couts_app, called_app, app_length. lia. Qed.

Section Net.
Context {W : Type}.
Context (handler : nat -> W -> expected (list N) -> W * list capi).
Context (pol : copy_policy).
Context (units : list N).
Context (F0 : tables).
Hypothesis sess : session_handler handler.

Definition plain (e : cevent) : Prop :=
  match e with CApi a => by_session a | CRun | CExpire _ | CFire _ => True | CReceive _ | CError _ => False end.

Definition own (e : event) : Prop := match e with EApi _ | ERun => True | _ => False end.

(** Changes of a part. *)
Definition set_client (n : net W) (s : client) (w : W) (r : bool) (x : option (list N)) : net W :=
  {| n_client := s; n_user := w; n_server := n_server n; n_db := n_db n; n_cur := n_cur n; n_reading := r; n_out := x;
     n_up := n_up n; n_down := n_down n; n_link := n_link n; n_sout := n_sout n; n_dead := n_dead n |}.
Definition set_server (n : net W) (s : server) (d : db) : net W :=
  {| n_client := n_client n; n_user := n_user n; n_server := s; n_db := d; n_cur := n_cur n; n_reading := n_reading n; n_out := n_out n;
     n_up := n_up n; n_down := n_down n; n_link := n_link n; n_sout := n_sout n; n_dead := n_dead n |}.
Definition set_pipes (n : net W) (up down : nat -> list N) : net W :=
  {| n_client := n_client n; n_user := n_user n; n_server := n_server n; n_db := n_db n; n_cur := n_cur n; n_reading := n_reading n; n_out := n_out n;
     n_up := up; n_down := down; n_link := n_link n; n_sout := n_sout n; n_dead := n_dead n |}.
Definition set_conns (n : net W) (link : nat -> option N) (sout : N -> option (list N)) (dead : N -> bool) : net W :=
  {| n_client := n_client n; n_user := n_user n; n_server := n_server n; n_db := n_db n; n_cur := n_cur n; n_reading := n_reading n; n_out := n_out n;
     n_up := n_up n; n_down := n_down n; n_link := link; n_sout := sout; n_dead := dead |}.
Definition set_cur (n : net W) (g : nat) : net W :=
  {| n_client := n_client n; n_user := n_user n; n_server := n_server n; n_db := n_db n; n_cur := g; n_reading := true; n_out := n_out n;
     n_up := n_up n; n_down := n_down n; n_link := n_link n; n_sout := n_sout n; n_dead := n_dead n |}.

Inductive nstep (n : net W) : list youtput -> net W -> Prop :=
| N_client e s w o : plain e -> client_step handler pol (n_client n) (n_user n) e = Ret (s, w, o) ->
    nstep n (map YC o) (set_client n s w (n_reading n) (latest (n_out n) o))
| N_data k s w o : n_reading n = true ->
    client_step handler pol (n_client n) (n_user n) (CReceive (firstn k (n_down n (n_cur n)))) = Ret (s, w, o) ->
    nstep n (map YC o) (set_pipes (set_client n s w true (latest (n_out n) o)) (n_up n) (upd (n_down n) (n_cur n) (skipn k (n_down n (n_cur n)))))
| N_error msg s w o : client_step handler pol (n_client n) (n_user n) (CError msg) = Ret (s, w, o) ->
    nstep n (map YC o) (set_client n s w false (latest (n_out n) o))
| N_stop : n_down n (n_cur n) = [] -> nstep n [] (set_client n (n_client n) (n_user n) false (n_out n))
| N_connect g : n_reading n = false -> (n_cur n < g)%nat -> n_out n <> None -> nstep n [] (set_cur n g)
| N_transmit f : n_out n = Some f ->
    nstep n [] (set_client (set_pipes n (upd (n_up n) (n_cur n) (n_up n (n_cur n) ++ f)) (n_down n)) (n_client n) (n_user n) (n_reading n) None)
| N_accept g c buf s d o : n_link n g = None -> (forall g', n_link n g' <> Some c) -> good_buf buf ->
    server_step db_session db_shutdown pol (n_server n) (n_db n) (EAccept c buf) = Ret (s, d, o) ->
    nstep n (map YS o) (set_conns (set_server n s d) (upd (n_link n) g (Some c)) (updN (n_sout n) c None) (updN (n_dead n) c false))
| N_serve g c k s d o : n_link n g = Some c -> n_dead n c = false ->
    server_step db_session db_shutdown pol (n_server n) (n_db n) (EReceive c (firstn k (n_up n g))) = Ret (s, d, o) ->
    nstep n (map YS o) (set_conns (set_pipes (set_server n s d) (upd (n_up n) g (skipn k (n_up n g))) (n_down n))
                          (n_link n) (fun c' => latest_to c' (n_sout n c') o) (n_dead n))
| N_fail c s d o : server_step db_session db_shutdown pol (n_server n) (n_db n) (EConnError c) = Ret (s, d, o) ->
    nstep n (map YS o) (set_conns (set_server n s d) (n_link n) (n_sout n) (updN (n_dead n) c true))
| N_server e s d o : own e -> server_step db_session db_shutdown pol (n_server n) (n_db n) e = Ret (s, d, o) ->
    nstep n (map YS o) (set_server n s d)
| N_answer g c f : n_link n g = Some c -> n_sout n c = Some f ->
    nstep n [] (set_conns (set_pipes n (n_up n) (upd (n_down n) g (n_down n g ++ f))) (n_link n) (updN (n_sout n) c None) (n_dead n))
| N_lose g k : g <> n_cur n \/ n_reading n = false \/ cc_shutdown (n_client n) = true ->
    nstep n [] (set_pipes n (n_up n) (upd (n_down n) g (skipn k (n_down n g))))
| N_local c d r : typed_call c -> run (call_body c) (n_db n) = Ret (d, r) ->
    nstep n [YD c r] (set_server n (n_server n) d)
| N_other c p : (forall g, n_link n g <> Some c) -> nstep n [] (set_server n (set_conn (n_server n) c p) (n_db n)).

Inductive nsteps : net W -> list youtput -> net W -> Prop :=
| NS_nil n : nsteps n [] n
| NS_cons n o n1 o' n2 : nstep n o n1 -> nsteps n1 o' n2 -> nsteps n (o ++ o') n2.

Lemma nsteps_one n o n' : nstep n o n' -> nsteps n o n'.
Proof. intros H. rewrite <- (app_nil_r o). eapply NS_cons; [exact H|constructor]. Qed.

Lemma nsteps_app n o n1 o' n2 : nsteps n o n1 -> nsteps n1 o' n2 -> nsteps n (o ++ o') n2.
Proof. induction 1 as [|n o n1 o1 n3 S1 _ IH]; intros H; [exact H|]. rewrite <- app_assoc. eapply NS_cons; [exact S1|apply IH; exact H]. Qed.

(** ** The invariant *)
Definition carries (q : sent) (p : prequest) : Prop := q_tx q = pr_tx p /\ q_unit q = pr_unit p.

(** Where the request [p] is: it can still be transmitted, or its connection is gone, or
    it is the last one under way, or its answer is. *)
Definition placed (n : net W) (wait : nat -> list sent) (pend : list (sent * list N)) (p : prequest) : Prop :=
  n_out n <> None \/ n_reading n = false \/ (exists c, n_link n (n_cur n) = Some c /\ n_dead n c = true) \/
  (exists l q, wait (n_cur n) = l ++ [q] /\ carries q p) \/
  (wait (n_cur n) = [] /\ exists c q pdu, n_link n (n_cur n) = Some c /\ n_sout n c = Some (fb (ans_frame (q, pdu))) /\ carries q p) \/
  (exists q pdu, In (q, pdu) pend /\ carries q p).

Record ninv (n : net W) (os : list youtput) (ces : list cevent) (wait : nat -> list sent) (pend : list (sent * list N)) (log : list access) : Prop := {
  nv_hist : history handler pol ces (n_client n) (n_user n) (client_outputs os);
  nv_sess : forall i k, In (YC (Called i k)) os -> by_session (Submit k);
  nv_up : forall g c, n_link n g = Some c -> n_dead n c = false ->
     exists p t, sv_conns (n_server n) c = Some p /\ R pol p t /\ t ++ n_up n g = flat_map fb (map req_frame (wait g));
  nv_raw : forall g, n_link n g = None -> n_up n g = flat_map fb (map req_frame (wait g));
  nv_new : forall g, (n_cur n < g)%nat -> n_up n g = [] /\ n_down n g = [] /\ wait g = [] /\ forall c, n_link n g = Some c -> n_sout n c = None;
  nv_inj : forall g g' c, n_link n g = Some c -> n_link n g' = Some c -> g = g';
  nv_linked : forall c, n_sout n c <> None -> exists g, n_link n g = Some c;
  nv_wait : forall g q, In q (wait g) -> on_wire os q /\ ~ In (q_id q) (executed log);
  nv_wait_once : forall g, NoDup (map q_id (wait g));
  nv_wait_conn : forall g g' q q', In q (wait g) -> In q' (wait g') -> q_id q = q_id q' -> g = g';
  nv_out : forall f, n_out n = Some f -> exists q, f = fb (req_frame q) /\ on_wire os q /\ ~ In (q_id q) (executed log) /\
     (forall g q', In q' (wait g) -> q_id q' <> q_id q) /\ exists l, sent_ids (client_outputs os) = l ++ [q_id q];
  nv_ans : forall c f, n_sout n c = Some f -> exists q pdu, f = fb (ans_frame (q, pdu)) /\ on_wire os q /\ good_pdu pdu /\
     exists k v, explains log q pdu k v;
  nv_down : cc_shutdown (n_client n) = false -> exists t, R pol (cc_parser (n_client n)) t /\
     if n_reading n then t ++ n_down n (n_cur n) = flat_map fb (map ans_frame pend) else t = [];
  nv_pend : forall q pdu, In (q, pdu) pend -> on_wire os q /\ good_pdu pdu /\ exists k v, explains log q pdu k v;
  nv_once : NoDup (executed log);
  nv_executed : forall i, In i (executed log) -> In i (sent_ids (client_outputs os));
  nv_log : accesses os log;
  nv_db : wf (n_db n);
  nv_calls : calls_spec F0 (map x_call log) (map x_result log) (contents (n_db n));
  nv_done : few os -> forall a i d b, os = a ++ YC (Completed i (Value d)) :: b ->
     exists q k v, q_id q = i /\ on_wire a q /\ explains log q d k v /\ (k < List.length (db_calls a))%nat;
  nv_reg : sv_shutdown (n_server n) = false -> forall u, In u units -> find_session (sv_sessions (n_server n)) u <> None;
  nv_lost : cc_shutdown (n_client n) = false -> sv_shutdown (n_server n) = false ->
     forall p, cc_current (n_client n) = Some p -> In (pr_unit p) units -> placed n wait pend p
}.

Definition sound (n : net W) (os : list youtput) : Prop := exists ces wait pend log, ninv n os ces wait pend log.

(** ** Frames sent *)
Lemma latest_none o : sent_ids o = [] -> forall x, latest x o = x.
Proof.
  induction o as [|m o IH]; intros H x; [reflexivity|]. destruct m; try discriminate H; cbn [latest fold_left]; apply IH; exact H.
Qed.

Lemma latest_some o x : x <> None -> latest x o <> None.
Proof.
  revert x. induction o as [|m o IH]; intros x H; [exact H|]. cbn [latest fold_left]. apply IH. destruct m; try exact H. discriminate.
Qed.

Lemma latest_sent i u t f o x : In (Sent i u t f) o -> latest x o <> None.
Proof.
  revert x. induction o as [|m o IH]; intros x H; [destruct H|]. cbn [latest fold_left]. destruct H as [->|H]; [|apply IH; exact H].
  apply latest_some. discriminate.
Qed.

Lemma latest_of ces s w os o x f : history handler pol ces s w (client_outputs os) ->
  (forall i k, In (YC (Called i k)) os -> by_session (Submit k)) -> incl (map YC o) os -> latest x o = Some f ->
  (x = Some f /\ sent_ids o = []) \/ exists q, f = fb (req_frame q) /\ on_wire os q /\ exists l, sent_ids o = l ++ [q_id q].
Proof.
  intros Hh Hs. revert x. induction o as [|m o IH]; intros x Hi E; [left; split; [exact E|reflexivity]|].
  assert (Hi' : incl (map YC o) os) by (intros y Hy; apply Hi; right; exact Hy).
  assert (K : forall x', x' = x -> latest x' o = Some f -> sent_ids [m] = [] ->
    (x = Some f /\ sent_ids (m :: o) = []) \/ exists q, f = fb (req_frame q) /\ on_wire os q /\ exists l, sent_ids (m :: o) = l ++ [q_id q]).
  { intros x' -> E' Hm. change (m :: o) with ([m] ++ o). rewrite sent_app, Hm. exact (IH x Hi' E'). }
  destruct m as [i k|i u t v|i t d|i r|]; [apply (K x eq_refl E eq_refl)| |apply (K x eq_refl E eq_refl)|apply (K x eq_refl E eq_refl)|apply (K x eq_refl E eq_refl)].
  clear K. cbn [latest fold_left] in E. fold (latest (Some (written v)) o) in E.
  destruct (IH _ Hi' E) as [[E1 Hn]|(q & H1 & H2 & l & H3)].
  - assert (Hm : incl (map YC [Sent i u t v]) os) by (intros y [<-|[]]; apply Hi; left; reflexivity).
    destruct (sends_of handler pol _ _ _ _ _ Hh Hs Hm) as (qs & Q1 & Q2 & Q3).
    injection E1 as E1. right. destruct qs as [|q [|q2 qs]]; cbn in Q1; try discriminate Q1. injection Q1 as Q1.
    exists q. cbn [client_bytes flat_map map app] in Q2. rewrite !app_nil_r in Q2. split; [rewrite <- E1; exact Q2|].
    inversion Q3; subst. split; [assumption|]. exists []. change (Sent (q_id q) u t v :: o) with ([Sent (q_id q) u t v] ++ o).
    rewrite sent_app, Hn. reflexivity.
  - right. exists q. split; [exact H1|]. split; [exact H2|]. exists (i :: l). change (Sent i u t v :: o) with ([Sent i u t v] ++ o).
    rewrite sent_app, H3. reflexivity.
Qed.

(** The current request is the one sent last. *)
Lemma current_last s os p l i : core s os -> cc_current s = Some p -> sent_ids os = l ++ [i] -> pr_id p = i.
Proof.
  intros C Hp E. assert (H := co_current _ _ C p Hp). apply in_split in H. destruct H as (a & b & Eo).
  destruct (co_wire _ _ C _ _ _ _ _ _ Eo) as [H|[H _]].
  - exfalso. apply (co_gone _ _ C (pr_id p)); [rewrite Eo, completed_app; apply in_or_app; right; exact H|].
    unfold live. rewrite Hp. left. reflexivity.
  - rewrite Eo in E. change (Sent (pr_id p) (pr_unit p) (pr_tx p) (mbap_build 260 (pr_unit p) (pr_tx p) (pr_msg p)) :: b) with
      ([Sent (pr_id p) (pr_unit p) (pr_tx p) (mbap_build 260 (pr_unit p) (pr_tx p) (pr_msg p))] ++ b) in E.
    rewrite !sent_app, H, app_nil_r in E. apply app_inj_tail in E. apply E.
Qed.

Lemma fb_carries a q pdu p : fb (ans_frame a) = fb (ans_frame (q, pdu)) -> carries q p -> carries (fst a) p.
Proof.
  intros E [H1 H2]. unfold fb in E. rewrite <- (app_nil_r (item_bytes _)) in E. rewrite <- (app_nil_r (item_bytes (frame_item (ans_frame (q, pdu))))) in E.
  apply item_bytes_inj in E. destruct E as [E _]. unfold ans_frame, frame_item, frame in E. cbn [fst snd] in E. injection E as E1 E2 _.
  split; congruence.
Qed.

(** ** Preservation *)
Lemma ndone n os ces wait pend log os' log' : ninv n os ces wait pend log -> few (os ++ os') ->
  forall a i d b, os ++ os' = a ++ YC (Completed i (Value d)) :: b ->
  (exists q k v, q_id q = i /\ on_wire a q /\ explains (log ++ log') q d k v /\ (k < List.length (db_calls a))%nat) \/
  (exists a', a = os ++ a' /\ os' = a' ++ YC (Completed i (Value d)) :: b).
Proof.
  intros V Ht a i d b E. destruct (split_at _ _ _ _ _ E) as [(b1 & E1 & _)|(a2 & -> & E2)].
  - left. destruct (nv_done _ _ _ _ _ _ V (few_prefix _ _ Ht) _ _ _ _ E1) as (q & k & v & H1 & H2 & H3 & H4).
    exists q, k, v. exact (conj H1 (conj H2 (conj (explains_app _ _ _ _ _ _ H3) H4))).
  - right. exists a2. auto.
Qed.

Lemma ninv_client n os ces wait pend log e s' w' o (r : bool) down arrived left :
  ninv n os ces wait pend log ->
  client_step handler pol (n_client n) (n_user n) e = Ret (s', w', o) ->
  typed_cevent e -> (forall a, e = CApi a -> by_session a) ->
  pend = arrived ++ left ->
  (forall g, g <> n_cur n -> down g = n_down n g) ->
  (cc_shutdown s' = false -> exists t, R pol (cc_parser s') t /\
     if r then t ++ down (n_cur n) = flat_map fb (map ans_frame left) else t = []) ->
  (few (os ++ map YC o) -> forall i d, In (Completed i (Value d)) o -> exists q, In (q, d) arrived /\ q_id q = i) ->
  (forall p, cc_current s' = Some p -> In (frame_of p) o \/
     (cc_current (n_client n) = Some p /\ (cc_shutdown (n_client n) = false -> forall a, In a arrived -> ~ carries (fst a) p)) \/ r = false) ->
  (cc_shutdown s' = false -> cc_shutdown (n_client n) = false) -> (n_reading n = false -> r = false) ->
  ninv (set_pipes (set_client n s' w' r (latest (n_out n) o)) (n_up n) down) (os ++ map YC o) (ces ++ [e]) wait left log.
Proof.
  intros V E Ht Ha Ep Hd Hdown Hval Hcur Hsh Hrd.
  destruct (history_extend handler pol ces e _ _ _ (nv_hist _ _ _ _ _ _ V) Ht) as (s1 & w1 & o1 & E1 & Hh).
  rewrite E in E1. injection E1 as <- <- <-.
  assert (Hh' : history handler pol (ces ++ [e]) s' w' (client_outputs (os ++ map YC o))).
  { rewrite couts_app, couts_yc. exact Hh. }
  assert (Hsess : forall i k, In (YC (Called i k)) (os ++ map YC o) -> by_session (Submit k)).
  { intros i k Hi. apply in_app_or in Hi. destruct Hi as [Hi|Hi]; [exact (nv_sess _ _ _ _ _ _ V _ _ Hi)|].
    apply in_map_iff in Hi. destruct Hi as (x & Ex & Hi). injection Ex as ->.
    assert (T := step_session handler sess _ _ _ _ _ _ _ E Ha). rewrite Forall_forall in T. exact (T _ Hi). }
  destruct (history_reached _ _ _ _ _ _ Hh) as (C & _ & _).
  assert (Snd : NoDup (sent_ids (client_outputs os) ++ sent_ids o)).
  { rewrite <- sent_app. apply sorted_nodup. apply (co_sent_sorted _ _ C). }
  apply NoDup_app_parts in Snd. destruct Snd as (_ & Snd & Snew).
  assert (Hold : forall g q, In q (wait g) -> In (q_id q) (sent_ids (client_outputs os))).
  { intros g q Hq. apply wire_sent. apply (nv_wait _ _ _ _ _ _ V _ _ Hq). }
  destruct V as [V1 V2 V3 V4 V5 V6 V7 V8 V9 V10 V11 V12 V13 V14 V15 V16 V17 V18 V19 V20 V21 V22] eqn:EV.
  constructor; cbn [set_pipes set_client n_client n_user n_server n_db n_cur n_reading n_out n_up n_down n_link n_sout n_dead]; auto.
  - intros g Hg. destruct (V5 g Hg) as (H1 & H2 & H3 & H4). rewrite Hd by lia. auto.
  - intros g q Hq. destruct (V8 g q Hq) as [H1 H2]. split; [apply on_wire_app; exact H1|exact H2].
  - intros f Hf. destruct (latest_of _ _ _ _ o _ _ Hh' Hsess ltac:(intros x Hx; apply in_or_app; right; exact Hx) Hf) as [[Hx Hn]|(q & H1 & H2 & l & H3)].
    + destruct (V11 f Hx) as (q & H1 & H2 & H3 & H4 & l & H5). exists q. split; [exact H1|]. split; [apply on_wire_app; exact H2|].
      split; [exact H3|]. split; [exact H4|]. exists l. rewrite couts_app, couts_yc, sent_app, Hn, app_nil_r. exact H5.
    + assert (H4 : In (q_id q) (sent_ids o)) by (rewrite H3; apply in_or_app; right; left; reflexivity).
      exists q. split; [exact H1|]. split; [exact H2|]. split; [|split].
      * intros H. exact (Snew _ (V16 _ H) H4).
      * intros g q' Hq' Eq. apply (Snew _ (Hold _ _ Hq')). rewrite Eq. exact H4.
      * exists (sent_ids (client_outputs os) ++ l). rewrite couts_app, couts_yc, sent_app, H3, app_assoc. reflexivity.
  - intros c f Hf. destruct (V12 c f Hf) as (q & pdu & H1 & H2 & H3 & H4). exists q, pdu.
    split; [exact H1|]. split; [apply on_wire_app; exact H2|]. auto.
  - intros q pdu Hq. destruct (V14 q pdu) as (H1 & H2 & H3).
    { rewrite Ep. apply in_or_app. right. exact Hq. }
    split; [apply on_wire_app; exact H1|]. split; [exact H2|exact H3].
  - intros i Hi. rewrite couts_app, sent_app. apply in_or_app. left. exact (V16 _ Hi).
  - apply accesses_quiet; [exact V17|apply yc_quiet].
  - intros Htm a i d b Eo. clear EV.
    destruct (ndone _ _ _ _ _ _ _ [] V Htm _ _ _ _ Eo) as [(q & k & v & H1 & H2 & H3 & H4)|(a' & -> & Eo')].
    + rewrite app_nil_r in H3. exists q, k, v. exact (conj H1 (conj H2 (conj H3 H4))).
    + destruct (Hval Htm i d) as (q & Hq & Hi).
      { assert (H : In (YC (Completed i (Value d))) (map YC o)) by (rewrite Eo'; apply in_or_app; right; left; reflexivity).
        apply in_map_iff in H. destruct H as (x & Ex & H). injection Ex as ->. exact H. }
      destruct (V14 q d) as (H1 & H2 & k & v & H3).
      { rewrite Ep. apply in_or_app. left. exact Hq. }
      exists q, k, v. split; [exact Hi|]. split; [apply on_wire_app; exact H1|]. split; [exact H3|].
      rewrite db_calls_app, app_length, (accesses_length _ _ V17).
      destruct H3 as [H3 _]. assert (k < List.length log)%nat by (apply nth_error_Some; congruence). lia.
  - intros Hs Hsv p Hp Hu. unfold placed. cbn [set_pipes set_client n_client n_user n_server n_db n_cur n_reading n_out n_up n_down n_link n_sout n_dead].
    destruct (Hcur p Hp) as [Hi|[[Hc Hm]|Hr]]; [left; exact (latest_sent _ _ _ _ _ _ Hi)| |right; left; exact Hr].
    destruct (V22 (Hsh Hs) Hsv p Hc Hu) as [H|[H|[H|[H|[H|(q & pdu & H & Hq)]]]]].
    + left. apply latest_some. exact H.
    + right; left. exact (Hrd H).
    + right; right; left. exact H.
    + right; right; right; left. exact H.
    + right; right; right; right; left. exact H.
    + rewrite Ep in H. apply in_app_or in H. destruct H as [H|H]; [destruct (Hm (Hsh Hs) _ H Hq)|].
      right; right; right; right; right. exists q, pdu. split; [exact H|exact Hq].
Qed.

Lemma n_plain n os e s w o : sound n os -> plain e -> client_step handler pol (n_client n) (n_user n) e = Ret (s, w, o) ->
  sound (set_client n s w (n_reading n) (latest (n_out n) o)) (os ++ map YC o).
Proof.
  intros (ces & wait & pend & log & V) Hp E.
  assert (Hh := nv_hist _ _ _ _ _ _ V). destruct (history_reached _ _ _ _ _ _ Hh) as (C & St & _).
  assert (Hr : forall data, e <> CReceive data) by (intros data ->; exact Hp).
  assert (He : forall msg, e <> CError msg) by (intros msg ->; exact Hp).
  assert (Ht : typed_cevent e) by (destruct e; try exact Logic.I; destruct Hp).
  destruct (step_rest handler pol _ _ _ _ _ _ _ C St E) as [Hsh Hpar]. specialize (Hpar Hr He).
  exists (ces ++ [e]), wait, pend, log.
  apply (ninv_client n os ces wait pend log e s w o (n_reading n) (n_down n) [] pend V E Ht); auto.
  - intros a ->. exact Hp.
  - intros Hs. rewrite Hpar. exact (nv_down _ _ _ _ _ _ V (Hsh Hs)).
  - intros _ i d Hi. destruct (value_source _ _ _ _ _ _ _ _ _ _ _ _ Hh Ht E Hi) as (data & ->). destruct (Hr data eq_refl).
  - intros p Hcp. destruct (step_current handler pol _ _ _ _ _ _ _ E Hcp Hr) as [Hc|Hc]; [right; left|left; exact Hc].
    split; [exact Hc|]. intros _ a [].
Qed.

Lemma npend_ok n os ces wait pend log : ninv n os ces wait pend log -> Forall frame_ok (map ans_frame pend).
Proof.
  intros V. apply Forall_forall. intros f Hf. apply in_map_iff in Hf. destruct Hf as ([q pdu] & <- & Hf).
  destruct (nv_pend _ _ _ _ _ _ V _ _ Hf) as (((H1 & H2 & _) & _) & (H3 & H4) & _).
  exact (conj H1 (conj H2 (conj H3 H4))).
Qed.

Lemma n_data n os k s w o : sound n os -> n_reading n = true ->
  client_step handler pol (n_client n) (n_user n) (CReceive (firstn k (n_down n (n_cur n)))) = Ret (s, w, o) ->
  sound (set_pipes (set_client n s w true (latest (n_out n) o)) (n_up n) (upd (n_down n) (n_cur n) (skipn k (n_down n (n_cur n))))) (os ++ map YC o).
Proof.
  intros (ces & wait & pend & log & V) Hrd E.
  assert (Hh := nv_hist _ _ _ _ _ _ V). destruct (history_reached _ _ _ _ _ _ Hh) as (C & St & _).
  set (down := upd (n_down n) (n_cur n) (skipn k (n_down n (n_cur n)))).
  assert (Hdn : forall g, g <> n_cur n -> down g = n_down n g) by (intros g Hg; apply upd_ne; exact Hg).
  assert (Hds : firstn k (n_down n (n_cur n)) ++ down (n_cur n) = n_down n (n_cur n)).
  { unfold down. rewrite upd_eq. apply firstn_skipn. }
  set (data := firstn k (n_down n (n_cur n))) in *.
  destruct (cc_shutdown (n_client n)) eqn:Es.
  - assert (E0 := E). cbn [client_step] in E0. unfold on_receive in E0. rewrite Es in E0. injection E0 as <- <- <-.
    exists (ces ++ [CReceive []]), wait, pend, log.
    apply (ninv_client n os ces wait pend log (CReceive []) (n_client n) (n_user n) [] true down [] pend V); auto.
    + cbn [client_step]. unfold on_receive. rewrite Es. reflexivity.
    + constructor.
    + intros a Ha. discriminate Ha.
    + congruence.
    + intros _ i d [].
    + congruence.
  - destruct (nv_down _ _ _ _ _ _ V Es) as (t & HR & Et). rewrite Hrd in Et.
    rewrite <- Hds in Et.
    destruct (frames_parse pol _ _ _ _ _ HR (npend_ok _ _ _ _ _ _ V) Et) as (p' & t' & fa & fl & Efs & Epar & HR' & Et').
    destruct (map_split _ _ _ _ Efs) as (arrived & left & Ep & -> & ->).
    assert (Hb : bytes data).
    { assert (B := fbs_bytes _ (npend_ok _ _ _ _ _ _ V)). rewrite <- Et in B. apply bytes_app in B. destruct B as [_ B].
      apply bytes_app in B. apply B. }
    destruct (on_responses_spec handler (map frame_message (map ans_frame arrived))
                (with_parser (n_client n) p') (client_outputs os) (n_user n)
                (core_parser _ _ _ C) St)
      as (s' & w' & o' & Eo & C' & _ & Hsh & Hpar & _ & _ & Hcomp).
    assert (E' : client_step handler pol (n_client n) (n_user n) (CReceive data) = Ret (s', w', o')).
    { cbn [client_step]. unfold on_receive. rewrite Es, Epar. cbn [obind]. rewrite Eo. reflexivity. }
    rewrite E in E'. injection E' as <- <- <-.
    destruct (history_extend handler pol ces (CReceive data) _ _ _ Hh Hb) as (s1 & w1 & o1 & E1 & Hh').
    rewrite E in E1. injection E1 as <- <- <-.
    exists (ces ++ [CReceive data]), wait, left, log.
    apply (ninv_client n os ces wait pend log (CReceive data) s w o true down arrived left V E Hb); auto.
    + intros a Ha. discriminate Ha.
    + intros Hs. exists t'. rewrite Hpar. split; [exact HR'|exact Et'].
    + intros Hfew i d Hi. apply in_split in Hi. destruct Hi as (a & b & Eab).
      destruct (Hcomp _ _ _ _ Eab) as (msg & Hm & Hr & v & Hsent).
      apply frame_messages_in in Hm. destruct Hm as ([q pdu] & Hm & Htx & Hun & Hda).
      cbn [fst snd] in *. injection Hr as ->. rewrite Hda.
      exists q. split; [exact Hm|]. rewrite Htx, Hun in Hsent.
      assert (Hw : on_wire os q).
      { apply (nv_pend _ _ _ _ _ _ V q pdu). rewrite Ep. apply in_or_app. left. exact Hm. }
      destruct Hw as (_ & t0 & f & _ & Hs). apply in_couts in Hs.
      unfold few in Hfew. rewrite couts_app, couts_yc in Hfew.
      apply (few_same handler pol _ _ _ _ (q_id q) (q_unit q) (q_tx q) f i (q_unit q) v Hh' Hfew).
      -- apply in_or_app. left. exact Hs.
      -- rewrite Eab, app_assoc. apply in_or_app. left. exact Hsent.
    + intros p Hp. destruct (responses_current handler _ _ _ _ _ _ _ Eo Hp) as [[Hc Hm]|Hi]; [right; left|left; exact Hi].
      split; [exact Hc|]. intros _ a Ha Hmatch.
      apply (Hm Es (frame_message (ans_frame a))); [apply in_map; apply in_map; exact Ha|exact Hmatch].
    + congruence.
Qed.

Lemma n_error n os msg s w o : sound n os -> client_step handler pol (n_client n) (n_user n) (CError msg) = Ret (s, w, o) ->
  sound (set_client n s w false (latest (n_out n) o)) (os ++ map YC o).
Proof.
  intros (ces & wait & pend & log & V) E.
  assert (Hh := nv_hist _ _ _ _ _ _ V). destruct (history_reached _ _ _ _ _ _ Hh) as (C & St & Tr).
  destruct (on_error_spec handler _ _ (n_user n) msg C St) as (s' & w' & o' & Ee & C' & St' & Hsh & _ & _ & Hdn & Hok).
  assert (E0 := E). cbn [client_step] in E0. rewrite Ee in E0. injection E0 as <- <- <-.
  exists (ces ++ [CError msg]), wait, [], log.
  apply (ninv_client n os ces wait pend log (CError msg) s' w' o' false (n_down n) pend [] V E Logic.I); auto.
  - intros a Ha. discriminate Ha.
  - rewrite app_nil_r. reflexivity.
  - intros Hs. rewrite Hsh in Hs. destruct (Hok Hs) as (Hp & _). exists []. rewrite Hp. split; [|reflexivity].
    destruct Tr as (t & HR & _). apply R_reset. apply HR.
  - intros _ i d Hi. exfalso. destruct (cc_shutdown (n_client n)) eqn:Es; [destruct (Hdn eq_refl) as [_ ->]; destruct Hi|].
    destruct (Hok eq_refl) as (_ & _ & _ & _ & Hr & _). apply (in_results handler) in Hi. rewrite Hr in Hi.
    exact (failed_no_value _ _ _ _ Hi).
  - congruence.
Qed.

Lemma n_stop n os : sound n os -> n_down n (n_cur n) = [] -> sound (set_client n (n_client n) (n_user n) false (n_out n)) os.
Proof.
  intros (ces & wait & pend & log & V) E. exists ces, wait, pend, log.
  assert (D := nv_down _ _ _ _ _ _ V). assert (P := npend_ok _ _ _ _ _ _ V). destruct V.
  constructor; cbn [set_client n_client n_user n_server n_db n_cur n_reading n_out n_up n_down n_link n_sout n_dead]; auto.
  2: { intros Hc Hsv p Hp Hu. right; left. reflexivity. }
  intros Hs. destruct (D Hs) as (t & HR & Et). exists t. split; [exact HR|]. destruct (n_reading n); [|exact Et].
  rewrite E, app_nil_r in Et. assert (N := nothing_left _ _ _ _ HR P Et). rewrite N in Et. exact Et.
Qed.

Lemma n_connect n os g : sound n os -> n_reading n = false -> (n_cur n < g)%nat -> n_out n <> None -> sound (set_cur n g) os.
Proof.
  intros (ces & wait & pend & log & V) E Hg Hout. exists ces, wait, [], log. destruct V as [V1 V2 V3 V4 V5 V6 V7 V8 V9 V10 V11 V12 V13 V14 V15 V16 V17 V18 V19 V20 V21 V22].
  constructor; cbn [set_cur n_client n_user n_server n_db n_cur n_reading n_out n_up n_down n_link n_sout n_dead]; auto.
  - intros g' Hg'. apply V5. lia.
  - intros Hs. destruct (V13 Hs) as (t & HR & Et). rewrite E in Et. exists t. split; [exact HR|]. subst t.
    destruct (V5 g Hg) as (_ & -> & _). reflexivity.
  - intros q pdu [].
  - intros Hc Hsv p Hp Hu. left. exact Hout.
Qed.

Lemma n_transmit n os f : sound n os -> n_out n = Some f ->
  sound (set_client (set_pipes n (upd (n_up n) (n_cur n) (n_up n (n_cur n) ++ f)) (n_down n)) (n_client n) (n_user n) (n_reading n) None) os.
Proof.
  intros (ces & wait & pend & log & V) E. destruct V as [V1 V2 V3 V4 V5 V6 V7 V8 V9 V10 V11 V12 V13 V14 V15 V16 V17 V18 V19 V20 V21 V22].
  destruct (V11 f E) as (q & Ef & Hw & Hx & Hn & l & Hlast).
  exists ces, (upd wait (n_cur n) (wait (n_cur n) ++ [q])), pend, log.
  assert (Hup : forall g, g = n_cur n -> forall t, t ++ n_up n g = flat_map fb (map req_frame (wait g)) ->
     t ++ upd (n_up n) (n_cur n) (n_up n (n_cur n) ++ f) g = flat_map fb (map req_frame (upd wait (n_cur n) (wait (n_cur n) ++ [q]) g))).
  { intros g -> t Et. rewrite !upd_eq, app_assoc, Et, map_app, flat_map_app. cbn [map flat_map]. rewrite app_nil_r, Ef. reflexivity. }
  assert (Hin : forall g q', In q' (upd wait (n_cur n) (wait (n_cur n) ++ [q]) g) -> In q' (wait g) \/ q' = q /\ g = n_cur n).
  { intros g q'. destruct (Nat.eq_dec g (n_cur n)) as [->|Hg]; [rewrite upd_eq|rewrite upd_ne by exact Hg; auto].
    intros H. apply in_app_or in H. destruct H as [H|[<-|[]]]; auto. }
  constructor; cbn [set_client set_pipes n_client n_user n_server n_db n_cur n_reading n_out n_up n_down n_link n_sout n_dead]; auto.
  - intros g c Hl Hd. destruct (V3 g c Hl Hd) as (p & t & H1 & H2 & H3). exists p, t. split; [exact H1|]. split; [exact H2|].
    destruct (Nat.eq_dec g (n_cur n)) as [->|Hg]; [apply Hup; auto|rewrite !upd_ne by exact Hg; exact H3].
  - intros g Hl. destruct (Nat.eq_dec g (n_cur n)) as [->|Hg]; [|rewrite !upd_ne by exact Hg; auto].
    apply (Hup (n_cur n) eq_refl []). exact (V4 _ Hl).
  - intros g Hg. rewrite !upd_ne by lia. auto.
  - intros g q' Hq'. destruct (Hin _ _ Hq') as [H|[-> _]]; [exact (V8 _ _ H)|split; [exact Hw|exact Hx]].
  - intros g. destruct (Nat.eq_dec g (n_cur n)) as [->|Hg]; [|rewrite upd_ne by exact Hg; auto].
    rewrite upd_eq, map_app. apply NoDup_app_intro; [auto|repeat constructor; intros []|].
    intros i Hi [Hi'|[]]. apply in_map_iff in Hi. destruct Hi as (q' & Eq & Hq'). apply (Hn _ _ Hq'). congruence.
  - intros g g' q1 q2 H1 H2 Eq. destruct (Hin _ _ H1) as [H|[-> ->]]; destruct (Hin _ _ H2) as [H'|[-> ->]]; eauto.
    + destruct (Hn _ _ H Eq).
    + destruct (Hn _ _ H' (eq_sym Eq)).
  - intros f' Hf'. discriminate Hf'.
  - intros Hc Hsv p Hp Hu. right; right; right; left. exists (wait (n_cur n)), q. rewrite upd_eq. split; [reflexivity|].
    destruct (history_reached _ _ _ _ _ _ V1) as (C & _ & _). assert (Ei := current_last _ _ _ _ _ C Hp Hlast).
    assert (Hs := co_current _ _ C p Hp). rewrite Ei in Hs. apply in_couts in Hs.
    destruct (wire_unique handler pol _ _ _ _ _ _ _ _ V1 Hw Hs) as [H1 H2]. split; congruence.
Qed.

Lemma n_accept n os g c buf s d o : sound n os -> n_link n g = None -> (forall g', n_link n g' <> Some c) -> good_buf buf ->
  server_step db_session db_shutdown pol (n_server n) (n_db n) (EAccept c buf) = Ret (s, d, o) ->
  sound (set_conns (set_server n s d) (upd (n_link n) g (Some c)) (updN (n_sout n) c None) (updN (n_dead n) c false)) (os ++ map YS o).
Proof.
  intros (ces & wait & pend & log & V) Hg Hc Hb E. cbn [server_step] in E. injection E as <- <- <-. cbn [map]. rewrite app_nil_r.
  exists ces, wait, pend, log. destruct V as [V1 V2 V3 V4 V5 V6 V7 V8 V9 V10 V11 V12 V13 V14 V15 V16 V17 V18 V19 V20 V21 V22].
  constructor; cbn [set_conns set_server n_client n_user n_server n_db n_cur n_reading n_out n_up n_down n_link n_sout n_dead]; auto.
  - intros g' c' Hl Hd. cbn [set_conn sv_conns]. destruct (Nat.eq_dec g' g) as [->|Hne].
    + rewrite upd_eq in Hl. injection Hl as <-. rewrite N.eqb_refl. exists (mbap_new buf), [].
      split; [reflexivity|]. split; [apply R_new; exact Hb|]. exact (V4 _ Hg).
    + rewrite upd_ne in Hl by exact Hne. assert (Hcc : c' <> c) by (intros ->; exact (Hc _ Hl)).
      rewrite updN_ne in Hd by exact Hcc. destruct (c' =? c) eqn:Ec; [apply N.eqb_eq in Ec; congruence|]. exact (V3 _ _ Hl Hd).
  - intros g' Hl. apply V4. destruct (Nat.eq_dec g' g) as [->|Hne]; [exact Hg|]. rewrite upd_ne in Hl by exact Hne. exact Hl.
  - intros g' Hg'. destruct (V5 g' Hg') as (H1 & H2 & H3 & H4). split; [exact H1|]. split; [exact H2|]. split; [exact H3|].
    intros c' Hl. destruct (Nat.eq_dec g' g) as [->|Hne]; [|rewrite upd_ne in Hl by exact Hne].
    2: { destruct (N.eq_dec c' c) as [->|Hcc]; [apply updN_eq|rewrite updN_ne by exact Hcc; exact (H4 _ Hl)]. }
    rewrite upd_eq in Hl. injection Hl as <-. apply updN_eq.
  - intros g1 g2 c' H1 H2. destruct (Nat.eq_dec g1 g) as [->|N1]; destruct (Nat.eq_dec g2 g) as [->|N2]; auto.
    + rewrite upd_eq in H1. injection H1 as <-. rewrite upd_ne in H2 by exact N2. destruct (Hc _ H2).
    + rewrite upd_eq in H2. injection H2 as <-. rewrite upd_ne in H1 by exact N1. destruct (Hc _ H1).
    + rewrite upd_ne in H1 by exact N1. rewrite upd_ne in H2 by exact N2. eauto.
  - intros c' H. assert (Hcc : c' <> c) by (intros ->; rewrite updN_eq in H; congruence). rewrite updN_ne in H by exact Hcc.
    destruct (V7 c' H) as (g1 & H1). exists g1. rewrite upd_ne; [exact H1|]. intros ->. congruence.
  - intros c' f Hf. destruct (N.eq_dec c' c) as [->|Hcc]; [rewrite updN_eq in Hf; discriminate Hf|rewrite updN_ne in Hf by exact Hcc; exact (V12 _ _ Hf)].
  - intros Hcs Hsv p Hp Hu. assert (Hk : forall x, n_link n (n_cur n) = Some x -> upd (n_link n) g (Some c) (n_cur n) = Some x /\ x <> c).
    { intros x Hx. split; [rewrite upd_ne; [exact Hx|intros <-; congruence]|intros ->; exact (Hc _ Hx)]. }
    destruct (V22 Hcs Hsv p Hp Hu) as [H|[H|[(x & Hx & H)|[H|[(H & x & q & pdu & Hx & H')|H]]]]].
    + left; exact H.
    + right; left; exact H.
    + right; right; left. destruct (Hk x Hx) as [H1 H2]. exists x. split; [exact H1|]. cbn [set_conns set_server n_dead]. rewrite updN_ne by exact H2. exact H.
    + right; right; right; left. exact H.
    + right; right; right; right; left. split; [exact H|]. destruct (Hk x Hx) as [H1 H2]. exists x, q, pdu. split; [exact H1|].
      cbn [set_conns set_server n_sout]. rewrite updN_ne by exact H2. exact H'.
    + right; right; right; right; right. exact H.
Qed.

Lemma n_fail n os c s d o : sound n os -> server_step db_session db_shutdown pol (n_server n) (n_db n) (EConnError c) = Ret (s, d, o) ->
  sound (set_conns (set_server n s d) (n_link n) (n_sout n) (updN (n_dead n) c true)) (os ++ map YS o).
Proof.
  intros (ces & wait & pend & log & V) E.
  assert (H : o = [] /\ d = n_db n /\ (sv_shutdown s = sv_shutdown (n_server n) /\ sv_sessions s = sv_sessions (n_server n)) /\
              forall c', c' <> c -> sv_conns s c' = sv_conns (n_server n) c').
  { cbn [server_step] in E. destruct (sv_conns (n_server n) c); injection E as <- <- <-; split; auto; split; auto.
    split; [split; reflexivity|]. intros c' Hc. cbn [set_conn sv_conns]. apply N.eqb_neq in Hc. rewrite Hc. reflexivity. }
  destruct H as (-> & -> & [Hss Hsl] & Hs). cbn [map]. rewrite app_nil_r.
  exists ces, wait, pend, log. destruct V as [V1 V2 V3 V4 V5 V6 V7 V8 V9 V10 V11 V12 V13 V14 V15 V16 V17 V18 V19 V20 V21 V22].
  constructor; cbn [set_conns set_server n_client n_user n_server n_db n_cur n_reading n_out n_up n_down n_link n_sout n_dead]; auto.
  2: { rewrite Hss, Hsl. exact V21. }
  2: { rewrite Hss. intros Hcs Hsv p Hp Hu.
    destruct (V22 Hcs Hsv p Hp Hu) as [H|[H|[(x & Hx & H)|[H|[H|H]]]]]; unfold placed; cbn [set_conns set_server n_client n_user n_server n_db n_cur n_reading n_out n_up n_down n_link n_sout n_dead]; auto 10.
    right; right; left. exists x. split; [exact Hx|]. destruct (N.eq_dec x c) as [->|Hc]; [apply updN_eq|rewrite updN_ne by exact Hc; exact H]. }
  intros g c' Hl Hd. assert (Hc : c' <> c) by (intros ->; rewrite updN_eq in Hd; discriminate Hd).
  rewrite updN_ne in Hd by exact Hc. rewrite Hs by exact Hc. exact (V3 _ _ Hl Hd).
Qed.

Lemma n_own n os e s d o : sound n os -> own e -> server_step db_session db_shutdown pol (n_server n) (n_db n) e = Ret (s, d, o) ->
  sound (set_server n s d) (os ++ map YS o).
Proof.
  intros (ces & wait & pend & log & V) He E.
  destruct (server_quiet pol (n_server n) (n_db n) e He) as (s' & o' & E' & Ho & Hc & Hs).
  rewrite E in E'. injection E' as <- -> <-.
  exists ces, wait, pend, log. assert (V' := V). destruct V as [V1 V2 V3 V4 V5 V6 V7 V8 V9 V10 V11 V12 V13 V14 V15 V16 V17 V18 V19 V20 V21 V22].
  constructor; cbn [set_server n_client n_user n_server n_db n_cur n_reading n_out n_up n_down n_link n_sout n_dead];
    rewrite ?couts_app, ?couts_ys, ?app_nil_r; auto.
  - intros i k Hi. apply in_app_or in Hi. destruct Hi as [Hi|Hi]; [exact (V2 _ _ Hi)|].
    apply in_map_iff in Hi. destruct Hi as (x & Ex & _). discriminate Ex.
  - rewrite Hc. exact V3.
  - intros g q Hq. destruct (V8 _ _ Hq) as [H1 H2]. split; [apply on_wire_app; exact H1|exact H2].
  - intros f Hf. destruct (V11 f Hf) as (q & H1 & H2 & H3). exists q. split; [exact H1|]. split; [apply on_wire_app; exact H2|exact H3].
  - intros c f Hf. destruct (V12 c f Hf) as (q & pdu & H1 & H2 & H3). exists q, pdu. split; [exact H1|]. split; [apply on_wire_app; exact H2|exact H3].
  - intros q pdu Hq. destruct (V14 q pdu Hq) as (H1 & H2). split; [apply on_wire_app; exact H1|exact H2].
  - apply accesses_quiet; [exact V17|apply quiet_calls; exact Ho].
  - intros Htm a i dd b Eo.
    destruct (ndone _ _ _ _ _ _ _ [] V' Htm _ _ _ _ Eo) as [(q & k & v & H1 & H2 & H3 & H4)|(a' & -> & Eo')].
    + rewrite app_nil_r in H3. exists q, k, v. exact (conj H1 (conj H2 (conj H3 H4))).
    + exfalso. assert (H : In (YC (Completed i (Value dd))) (map YS o)) by (rewrite Eo'; apply in_or_app; right; left; reflexivity).
      apply in_map_iff in H. destruct H as (x & Ex & _). discriminate Ex.
  - intros Hsv u Hu. destruct (Hs Hsv) as [H1 H2]. apply H2. exact (V21 H1 u Hu).
  - intros Hcs Hsv. apply (V22 Hcs). apply Hs. exact Hsv.
Qed.

Lemma n_answer n os g c f : sound n os -> n_link n g = Some c -> n_sout n c = Some f ->
  sound (set_conns (set_pipes n (n_up n) (upd (n_down n) g (n_down n g ++ f))) (n_link n) (updN (n_sout n) c None) (n_dead n)) os.
Proof.
  intros (ces & wait & pend & log & V) Hl Hs. destruct V as [V1 V2 V3 V4 V5 V6 V7 V8 V9 V10 V11 V12 V13 V14 V15 V16 V17 V18 V19 V20 V21 V22].
  destruct (V12 c f Hs) as (q & pdu & Ef & Hw & Hg & Hx).
  assert (Hcur : ~ (n_cur n < g)%nat).
  { intros H. destruct (V5 g H) as (_ & _ & _ & H4). rewrite (H4 _ Hl) in Hs. discriminate Hs. }
  exists ces, wait, (if Nat.eqb g (n_cur n) && n_reading n then pend ++ [(q, pdu)] else pend), log.
  constructor; cbn [set_conns set_pipes n_client n_user n_server n_db n_cur n_reading n_out n_up n_down n_link n_sout n_dead]; auto.
  - intros g' Hg'. rewrite upd_ne by lia. destruct (V5 g' Hg') as (H1 & H2 & H3 & H4). split; [exact H1|]. split; [exact H2|]. split; [exact H3|].
    intros c' Hl'. destruct (N.eq_dec c' c) as [->|Hc]; [apply updN_eq|rewrite updN_ne by exact Hc; auto].
  - intros c' Hc. apply V7. destruct (N.eq_dec c' c) as [->|Hne]; [rewrite updN_eq in Hc; congruence|]. rewrite updN_ne in Hc by exact Hne. exact Hc.
  - intros c' f' Hf'. destruct (N.eq_dec c' c) as [->|Hne]; [rewrite updN_eq in Hf'; discriminate Hf'|].
    rewrite updN_ne in Hf' by exact Hne. exact (V12 _ _ Hf').
  - intros Hsh. destruct (V13 Hsh) as (t & HR & Et). exists t. split; [exact HR|].
    destruct (n_reading n); [|exact Et]. rewrite andb_true_r. destruct (Nat.eqb g (n_cur n)) eqn:Eg.
    + apply Nat.eqb_eq in Eg. subst g. rewrite upd_eq, app_assoc, Et, map_app, flat_map_app. cbn [map flat_map]. rewrite app_nil_r, Ef. reflexivity.
    + apply Nat.eqb_neq in Eg. rewrite upd_ne by congruence. exact Et.
  - intros q' pdu' Hq. destruct (_ && _); [|auto]. apply in_app_or in Hq. destruct Hq as [Hq|[Hq|[]]]; [auto|]. injection Hq as <- <-. auto.
  - intros Hcs Hsv p Hp Hu. unfold placed. cbn [set_conns set_pipes n_client n_user n_server n_db n_cur n_reading n_out n_up n_down n_link n_sout n_dead].
    destruct (V22 Hcs Hsv p Hp Hu) as [H|[H|[H|[H|[(H & x & q' & pdu' & Hlx & H1 & H2)|(q' & pdu' & H1 & H2)]]]]]; auto 10.
    + destruct (n_reading n); [|auto]. rewrite andb_true_r. destruct (Nat.eqb g (n_cur n)) eqn:Eg.
      * apply Nat.eqb_eq in Eg. subst g. assert (x = c) by congruence. subst x.
        right; right; right; right; right. exists q, pdu. split; [apply in_or_app; right; left; reflexivity|].
        apply (fb_carries (q, pdu) q' pdu'); [congruence|exact H2].
      * apply Nat.eqb_neq in Eg. right; right; right; right; left. split; [exact H|]. exists x, q', pdu'. split; [exact Hlx|].
        rewrite updN_ne; [split; [exact H1|exact H2]|]. intros ->. apply Eg. exact (V6 _ _ _ Hl Hlx).
    + right; right; right; right; right. exists q', pdu'. split; [|exact H2]. destruct (_ && _); [apply in_or_app; left|]; exact H1.
Qed.

Lemma n_lose n os g k : sound n os -> g <> n_cur n \/ n_reading n = false \/ cc_shutdown (n_client n) = true ->
  sound (set_pipes n (n_up n) (upd (n_down n) g (skipn k (n_down n g)))) os.
Proof.
  intros (ces & wait & pend & log & V) Hg. exists ces, wait, pend, log.
  destruct V as [V1 V2 V3 V4 V5 V6 V7 V8 V9 V10 V11 V12 V13 V14 V15 V16 V17 V18 V19 V20 V21 V22].
  constructor; cbn [set_pipes n_client n_user n_server n_db n_cur n_reading n_out n_up n_down n_link n_sout n_dead]; auto.
  - intros g' Hg'. destruct (V5 g' Hg') as (H1 & H2 & H3). split; [exact H1|]. split; [|exact H3].
    destruct (Nat.eq_dec g' g) as [->|Hne]; [rewrite upd_eq, H2; apply skipn_nil|rewrite upd_ne by exact Hne; exact H2].
  - intros Hs. destruct (V13 Hs) as (t & HR & Et). exists t. split; [exact HR|].
    destruct (n_reading n); [|exact Et]. rewrite upd_ne; [exact Et|]. destruct Hg as [Hg|[Hg|Hg]]; congruence.
Qed.

Lemma n_local n os c d r : sound n os -> typed_call c -> run (call_body c) (n_db n) = Ret (d, r) ->
  sound (set_server n (n_server n) d) (os ++ [YD c r]).
Proof.
  intros (ces & wait & pend & log & V) Hc E.
  destruct (call_body_spec (n_db n) c (nv_db _ _ _ _ _ _ V) Hc) as (d' & r' & E' & Hw & Hsp).
  rewrite E in E'. injection E' as <- <-.
  exists ces, wait, pend, (log ++ [{| x_call := c; x_result := r; x_by := None |}]).
  assert (Ex : executed (log ++ [{| x_call := c; x_result := r; x_by := None |}]) = executed log).
  { rewrite executed_app. cbn. apply app_nil_r. }
  assert (Co : client_outputs (os ++ [YD c r]) = client_outputs os).
  { rewrite couts_app. cbn. apply app_nil_r. }
  assert (V' := V). destruct V as [V1 V2 V3 V4 V5 V6 V7 V8 V9 V10 V11 V12 V13 V14 V15 V16 V17 V18 V19 V20 V21 V22].
  constructor; cbn [set_server n_client n_user n_server n_db n_cur n_reading n_out n_up n_down n_link n_sout n_dead]; rewrite ?Ex, ?Co; auto.
  - intros i k Hi. apply in_app_or in Hi. destruct Hi as [Hi|[Hi|[]]]; [exact (V2 _ _ Hi)|discriminate Hi].
  - intros g q Hq. destruct (V8 _ _ Hq) as [H1 H2]. split; [apply on_wire_app; exact H1|exact H2].
  - intros f Hf. destruct (V11 f Hf) as (q & H1 & H2 & H3). exists q. split; [exact H1|]. split; [apply on_wire_app; exact H2|exact H3].
  - intros c' f Hf. destruct (V12 c' f Hf) as (q & pdu & H1 & H2 & H3 & k & v & H4). exists q, pdu. split; [exact H1|]. split; [apply on_wire_app; exact H2|].
    split; [exact H3|]. exists k, v. apply explains_app. exact H4.
  - intros q pdu Hq. destruct (V14 q pdu Hq) as (H1 & H2 & k & v & H3). split; [apply on_wire_app; exact H1|]. split; [exact H2|].
    exists k, v. apply explains_app. exact H3.
  - apply AC_local. exact V17.
  - rewrite !map_app. apply calls_spec_app with (F1 := contents (n_db n)); [exact V19|].
    cbn [map x_call x_result]. apply CS_cons with (F1 := contents d); [exact Hsp|]. constructor. apply unchanged_refl.
  - intros Htm a i dd b Eo.
    destruct (ndone _ _ _ _ _ _ _ [{| x_call := c; x_result := r; x_by := None |}] V' Htm _ _ _ _ Eo) as [H|(a' & -> & Eo')]; [exact H|].
    exfalso. destruct a' as [|x a']; [discriminate Eo'|]. injection Eo' as _ Eo'. destruct a'; discriminate Eo'.
Qed.

Lemma n_other n os c p : sound n os -> (forall g, n_link n g <> Some c) ->
  sound (set_server n (set_conn (n_server n) c p) (n_db n)) os.
Proof.
  intros (ces & wait & pend & log & V) Hc. exists ces, wait, pend, log.
  destruct V as [V1 V2 V3 V4 V5 V6 V7 V8 V9 V10 V11 V12 V13 V14 V15 V16 V17 V18 V19 V20 V21 V22].
  constructor; cbn [set_server set_conn n_client n_user n_server n_db n_cur n_reading n_out n_up n_down n_link n_sout n_dead sv_conns sv_shutdown sv_sessions]; auto.
  intros g x Hl Hd. destruct (x =? c) eqn:E; [apply N.eqb_eq in E; subst; destruct (Hc _ Hl)|]. exact (V3 _ _ Hl Hd).
Qed.

Lemma last_case {A} (l : list A) : l = [] \/ exists l' x, l = l' ++ [x].
Proof. destruct l as [|x l] using rev_ind; [left; reflexivity|right; exists l, x; reflexivity]. Qed.

Lemma latest_to_answers c answers : forall x f, latest_to c x (flat_map (answer_outputs c) answers) = Some f ->
  x = Some f \/ exists a, In a answers /\ f = fb (ans_frame (a_sent a, a_pdu a)).
Proof.
  induction answers as [|a l IH]; intros x f E; [left; exact E|]. cbn [flat_map answer_outputs app latest_to fold_left] in E.
  rewrite N.eqb_refl, written_some in E. destruct (IH _ _ E) as [H|(a' & H1 & H2)].
  - right. exists a. injection H as <-. split; [left; reflexivity|reflexivity].
  - right. exists a'. split; [right; exact H1|exact H2].
Qed.

Lemma latest_to_others c c' answers x : c' <> c -> latest_to c' x (flat_map (answer_outputs c) answers) = x.
Proof.
  intros H. revert x. induction answers as [|a l IH]; intros x; [reflexivity|]. cbn [flat_map answer_outputs app latest_to fold_left].
  destruct (c =? c') eqn:E; [apply N.eqb_eq in E; congruence|]. exact (IH x).
Qed.

Lemma n_serve n os g c k s d o : sound n os -> n_link n g = Some c -> n_dead n c = false ->
  server_step db_session db_shutdown pol (n_server n) (n_db n) (EReceive c (firstn k (n_up n g))) = Ret (s, d, o) ->
  sound (set_conns (set_pipes (set_server n s d) (upd (n_up n) g (skipn k (n_up n g))) (n_down n))
                          (n_link n) (fun c' => latest_to c' (n_sout n c') o) (n_dead n)) (os ++ map YS o).
Proof.
  intros (ces & wait & pend & log & V) Hl Hdd E. cbn [server_step] in E.
  destruct (nv_up _ _ _ _ _ _ V g c Hl Hdd) as (p & t & Ep & HR & Et). rewrite Ep in E.
  assert (Hd := firstn_skipn k (n_up n g)). set (data := firstn k (n_up n g)) in *. set (rest := skipn k (n_up n g)) in *.
  assert (Hok : Forall frame_ok (map req_frame (wait g))).
  { rewrite Forall_forall. intros f Hf. apply in_map_iff in Hf. destruct Hf as (q & <- & Hq).
    apply req_frame_ok. apply (nv_wait _ _ _ _ _ _ V _ _ Hq). }
  rewrite <- Hd in Et.
  destruct (frames_parse pol _ _ _ _ _ HR Hok Et) as (p' & t' & fa & fl & Efs & Epar & HR' & Et').
  destruct (map_split _ _ _ _ Efs) as (arrived & left & Ew & -> & ->).
  rewrite Epar in E. cbn [obind] in E.
  assert (Hgood : Forall good_sent arrived).
  { rewrite Forall_forall. intros q Hq.
    apply (nv_wait _ _ _ _ _ _ V g q). rewrite Ew. apply in_or_app. left. exact Hq. }
  destruct (serve_batch c arrived (set_conn (n_server n) c (Some p')) (n_db n) (nv_db _ _ _ _ _ _ V) Hgood)
    as (d' & answers & Eb & Hw & Hm & Hcalls & Hga).
  rewrite Eb in E. injection E as <- <- <-.
  assert (Hans : forall q, In q (map a_sent answers) -> In q arrived).
  { intros q Hq. rewrite Hm in Hq. apply filter_In in Hq. apply Hq. }
  assert (Harr : forall q, In q arrived -> In q (wait g)).
  { intros q Hq. rewrite Ew. apply in_or_app. left. exact Hq. }
  assert (Hleft : forall q, In q left -> In q (wait g)).
  { intros q Hq. rewrite Ew. apply in_or_app. right. exact Hq. }
  assert (Hwire : forall q, In q (map a_sent answers) -> on_wire os q /\ ~ In (q_id q) (executed log)).
  { intros q Hq. apply (nv_wait _ _ _ _ _ _ V g). apply Harr, Hans, Hq. }
  assert (Honce := nv_wait_once _ _ _ _ _ _ V g). rewrite Ew, map_app in Honce.
  destruct (NoDup_app_parts _ _ Honce) as (Ha1 & Ha2 & Ha3).
  assert (Hnd : NoDup (map q_id (map a_sent answers))) by (rewrite Hm; apply NoDup_filter_ids; exact Ha1).
  set (wait' := upd wait g left).
  assert (Hwait' : forall x q, In q (wait' x) -> In q (wait x)).
  { intros x q. unfold wait'. destruct (Nat.eq_dec x g) as [->|Hx]; [rewrite upd_eq; apply Hleft|rewrite upd_ne by exact Hx; auto]. }
  assert (Hexp : forall a, In a answers -> exists k v, explains (log ++ map answer_access answers) (a_sent a) (a_pdu a) k v).
  { intros a Ha. apply (answers_explain log answers (a_sent a) (a_pdu a) Hga). apply (in_map (fun a => (a_sent a, a_pdu a))). exact Ha. }
  exists ces, wait', pend, (log ++ map answer_access answers).
  assert (V' := V). destruct V as [V1 V2 V3 V4 V5 V6 V7 V8 V9 V10 V11 V12 V13 V14 V15 V16 V17 V18 V19 V20 V21 V22].
  constructor; cbn [set_conns set_pipes set_server n_client n_user n_server n_db n_cur n_reading n_out n_up n_down n_link n_sout n_dead];
    rewrite ?couts_app, ?couts_ys, ?app_nil_r; auto.
  - intros i j Hi. apply in_app_or in Hi. destruct Hi as [Hi|Hi]; [exact (V2 _ _ Hi)|].
    apply in_map_iff in Hi. destruct Hi as (x & Ex & _). discriminate Ex.
  - intros x c' Hx Hd'. cbn [set_conn sv_conns]. unfold wait'. destruct (Nat.eq_dec x g) as [->|Hne].
    + rewrite !upd_eq. assert (c' = c) by congruence. subst c'. rewrite N.eqb_refl. exists p', t'. auto.
    + rewrite !upd_ne by exact Hne. destruct (c' =? c) eqn:Ec; [|exact (V3 _ _ Hx Hd')].
      apply N.eqb_eq in Ec. subst c'. destruct (Hne (V6 _ _ _ Hx Hl)).
  - intros x Hx. assert (Hne : x <> g) by (intros ->; congruence). unfold wait'. rewrite !upd_ne by exact Hne. auto.
  - intros x Hx. destruct (V5 x Hx) as (H1 & H2 & H3 & H4). unfold wait'. destruct (Nat.eq_dec x g) as [->|Hne].
    + rewrite !upd_eq. rewrite H3 in Ew. symmetry in Ew. apply app_eq_nil in Ew. destruct Ew as [-> ->].
      rewrite H1 in Hd. apply app_eq_nil in Hd. split; [apply Hd|]. split; [exact H2|]. split; [reflexivity|].
      intros c' Hc'. assert (c' = c) by congruence. subst c'.
      destruct answers as [|a l]; [exact (H4 _ Hl)|]. discriminate Hm.
    + rewrite !upd_ne by exact Hne. split; [exact H1|]. split; [exact H2|]. split; [exact H3|].
      intros c' Hc'. rewrite latest_to_others; [auto|]. intros ->. exact (Hne (V6 _ _ _ Hc' Hl)).
  - intros c' Hc. destruct (N.eq_dec c' c) as [->|Hne]; [exists g; exact Hl|]. rewrite latest_to_others in Hc by exact Hne. auto.
  - intros x q Hq. destruct (V8 x q (Hwait' _ _ Hq)) as [H1 H2].
    split; [apply on_wire_app; exact H1|]. rewrite executed_app, answers_executed. intros Hi.
    apply in_app_or in Hi. destruct Hi as [Hi|Hi]; [exact (H2 Hi)|].
    apply in_map_iff in Hi. destruct Hi as (q' & Eq & Hq').
    assert (Ex := V10 g x q' q (Harr _ (Hans _ Hq')) (Hwait' _ _ Hq) Eq). subst x.
    unfold wait' in Hq. rewrite upd_eq in Hq. apply (Ha3 (q_id q)); [|apply in_map; exact Hq].
    rewrite <- Eq. apply in_map. apply Hans. exact Hq'.
  - intros x. unfold wait'. destruct (Nat.eq_dec x g) as [->|Hne]; [rewrite upd_eq; exact Ha2|rewrite upd_ne by exact Hne; auto].
  - intros x x' q q' H1 H2. apply V10; auto.
  - intros f Hf. destruct (V11 f Hf) as (q & H1 & H2 & H3 & H4). exists q. split; [exact H1|]. split; [apply on_wire_app; exact H2|]. split.
    + rewrite executed_app, answers_executed. intros Hi. apply in_app_or in Hi. destruct Hi as [Hi|Hi]; [exact (H3 Hi)|].
      apply in_map_iff in Hi. destruct Hi as (q' & Eq & Hq'). exact (proj1 H4 g q' (Harr _ (Hans _ Hq')) Eq).
    + destruct H4 as [H4 H5]. split; [|exact H5]. intros x q' Hq'. exact (H4 x q' (Hwait' _ _ Hq')).
  - intros c' f Hf.
    assert (K : n_sout n c' = Some f \/ exists a, In a answers /\ f = fb (ans_frame (a_sent a, a_pdu a))).
    { destruct (N.eq_dec c' c) as [->|Hne]; [exact (latest_to_answers _ _ _ _ Hf)|].
      rewrite latest_to_others in Hf by exact Hne. left. exact Hf. }
    destruct K as [K|(a & H1 & H2)].
    + destruct (V12 c' f K) as (q & pdu & H1 & H2 & H3 & j & v & H4). exists q, pdu. split; [exact H1|]. split; [apply on_wire_app; exact H2|].
      split; [exact H3|]. exists j, v. apply explains_app. exact H4.
    + exists (a_sent a), (a_pdu a). split; [exact H2|]. split.
      * apply on_wire_app. apply Hwire. apply in_map. exact H1.
      * rewrite Forall_forall in Hga. split; [apply (Hga a H1)|]. apply Hexp. exact H1.
  - intros q pdu Hq. destruct (V14 q pdu Hq) as (H1 & H2 & j & v & H3). split; [apply on_wire_app; exact H1|]. split; [exact H2|].
    exists j, v. apply explains_app. exact H3.
  - rewrite executed_app, answers_executed. apply NoDup_app_intro; [exact V15|exact Hnd|].
    intros i Hi Hi'. apply in_map_iff in Hi'. destruct Hi' as (q & <- & Hq). exact (proj2 (Hwire _ Hq) Hi).
  - intros i. rewrite executed_app, answers_executed. intros Hi. apply in_app_or in Hi. destruct Hi as [Hi|Hi]; [exact (V16 _ Hi)|].
    apply in_map_iff in Hi. destruct Hi as (q & <- & Hq). apply wire_sent. apply (Hwire _ Hq).
  - apply answers_accesses; [exact V17|]. apply Forall_forall. intros a Ha. apply Hwire. apply in_map. exact Ha.
  - rewrite !map_app. exact (calls_spec_app _ _ _ _ _ _ _ V19 Hcalls).
  - intros Htm a i dd b Eo.
    destruct (ndone _ _ _ _ _ _ _ (map answer_access answers) V' Htm _ _ _ _ Eo) as [H|(a' & -> & Eo')]; [exact H|].
    destruct (quiet_answer_value _ _ _ _ _ _ Eo').
  - intros Hcs Hsv p0 Hp Hu. cbn [set_conn sv_shutdown] in Hsv. unfold placed.
    cbn [set_conns set_pipes set_server n_client n_user n_server n_db n_cur n_reading n_out n_up n_down n_link n_sout n_dead].
    destruct (V22 Hcs Hsv p0 Hp Hu) as [H|[H|[H|[(l & q & H & Hq)|[(H & x & q & pdu & Hx & H1 & H2)|H]]]]]; auto 10.
    + destruct (Nat.eq_dec (n_cur n) g) as [Eg|Hne].
      2: { right; right; right; left. exists l, q. unfold wait'. rewrite upd_ne by exact Hne. split; [exact H|exact Hq]. }
      rewrite Eg in *. unfold wait'. rewrite upd_eq. destruct (last_case left) as [->|(l' & q' & ->)].
      * rewrite app_nil_r in Ew. rewrite Ew in H. rewrite H in Hm.
        right; right; right; right; left. split; [reflexivity|].
        rewrite filter_app in Hm. cbn [filter] in Hm.
        assert (Hreg : registered (set_conn (n_server n) c (Some p')) (q_unit q) = true).
        { unfold registered. cbn [set_conn sv_shutdown sv_sessions]. rewrite Hsv. destruct Hq as [_ ->].
          assert (K := V21 Hsv _ Hu). destruct (find_session _ _); [reflexivity|congruence]. }
        rewrite Hreg in Hm. destruct (map_split _ _ _ _ Hm) as (a1 & a2 & -> & _ & Ha).
        destruct a2 as [|a [|a' a2]]; try discriminate Ha. injection Ha as Ha.
        exists c, (a_sent a), (a_pdu a). split; [exact Hl|]. split; [|rewrite <- Ha; exact Hq].
        rewrite flat_map_app. unfold latest_to. rewrite fold_left_app. cbn [flat_map answer_outputs app fold_left].
        rewrite N.eqb_refl, written_some. reflexivity.
      * right; right; right; left. exists l', q'. split; [reflexivity|]. rewrite Ew, app_assoc in H. apply app_inj_tail in H.
        destruct H as [_ ->]. exact Hq.
    + right; right; right; right; left. destruct (Nat.eq_dec (n_cur n) g) as [Eg|Hne].
      * rewrite Eg in *. rewrite H in Ew. symmetry in Ew. apply app_eq_nil in Ew. destruct Ew as [-> ->]. unfold wait'. rewrite upd_eq.
        split; [reflexivity|]. destruct answers as [|a la]; [|discriminate Hm]. exists x, q, pdu. split; [exact Hx|]. split; [exact H1|exact H2].
      * unfold wait'. rewrite upd_ne by exact Hne. split; [exact H|]. exists x, q, pdu. split; [exact Hx|].
        rewrite latest_to_others; [split; [exact H1|exact H2]|]. intros ->. exact (Hne (V6 _ _ _ Hx Hl)).
Qed.

Lemma nstep_sound n os o n' : sound n os -> nstep n o n' -> sound n' (os ++ o).
Proof.
  intros H St. destruct St; rewrite ?app_nil_r.
  - eapply n_plain; eassumption.
  - eapply n_data; eassumption.
  - eapply n_error; eassumption.
  - apply n_stop; assumption.
  - apply n_connect; assumption.
  - eapply n_transmit; eassumption.
  - eapply n_accept; eassumption.
  - eapply n_serve; eassumption.
  - eapply n_fail; eassumption.
  - eapply n_own; eassumption.
  - eapply n_answer; eassumption.
  - apply n_lose; assumption.
  - apply n_local; assumption.
  - apply n_other; assumption.
Qed.

Lemma nsteps_sound n o n' : nsteps n o n' -> forall os, sound n os -> sound n' (os ++ o).
Proof.
  induction 1 as [|n o n1 o1 n2 S1 _ IH]; intros os H; [rewrite app_nil_r; exact H|].
  rewrite app_assoc. apply IH. eapply nstep_sound; eassumption.
Qed.

(** ** At rest
    Nothing waiting to be transmitted, nothing under way, the connection in order: then
    the channel waits for nothing. *)
Lemma net_quiet n os c : sound n os -> n_out n = None -> n_reading n = true -> n_link n (n_cur n) = Some c -> n_dead n c = false ->
  n_up n (n_cur n) = [] -> n_down n (n_cur n) = [] -> n_sout n c = None -> cc_shutdown (n_client n) = false -> sv_shutdown (n_server n) = false ->
  forall i u tx f, In (YC (Sent i u tx f)) os -> In u units -> exists r, In (YC (Completed i r)) os.
Proof.
  intros (ces & wait & pend & log & V) Ho Hr Hl Hd Hup Hdn Hso Hc Hs i u tx f Hi Hu.
  assert (Hw : wait (n_cur n) = []).
  { destruct (nv_up _ _ _ _ _ _ V _ _ Hl Hd) as (p & t & _ & HR & E).
    rewrite Hup, app_nil_r in E. apply map_eq_nil with (f := req_frame). apply (nothing_left pol p t); [exact HR| |exact E].
    rewrite Forall_forall. intros g Hg. apply in_map_iff in Hg. destruct Hg as (q & <- & Hq).
    apply req_frame_ok. apply (nv_wait _ _ _ _ _ _ V _ _ Hq). }
  assert (Hp : pend = []).
  { destruct (nv_down _ _ _ _ _ _ V Hc) as (t & HR & E). rewrite Hr, Hdn, app_nil_r in E.
    apply map_eq_nil with (f := ans_frame). apply (nothing_left pol _ t _ HR); [|exact E].
    exact (npend_ok _ _ _ _ _ _ V). }
  destruct (history_reached _ _ _ _ _ _ (nv_hist _ _ _ _ _ _ V)) as (C & _ & _).
  assert (Hi2 := proj2 (in_couts _ _) Hi). apply in_split in Hi2. destruct Hi2 as (a & b & E).
  destruct (co_wire _ _ C _ _ _ _ _ _ E) as [Hd'|[_ [Hd'|(p & Ep & Epi)]]].
  - apply in_completed in Hd'. destruct Hd' as (r & Hd'). exists r. apply in_couts. rewrite E. apply in_or_app. right. right. exact Hd'.
  - congruence.
  - exfalso. assert (Hsp := co_current _ _ C _ Ep). rewrite Epi in Hsp.
    assert (Hi2 := proj2 (in_couts _ _) Hi).
    assert (Es := sent_unique _ _ _ _ _ _ _ _ (co_sent_sorted _ _ C) Hi2 Hsp). injection Es as -> _ _.
    destruct (nv_lost _ _ _ _ _ _ V Hc Hs p Ep Hu) as [H|[H|[(x & Hx & H)|[(l & q & H & _)|[(_ & x & q & pdu & Hx & H & _)|(q & pdu & H & _)]]]]].
    + congruence.
    + congruence.
    + congruence.
    + rewrite Hw in H. destruct l; discriminate H.
    + congruence.
    + rewrite Hp in H. destruct H.
Qed.

Definition net_init (units : list N) (d : db) (buf : list N) (w : W) : net W :=
  {| n_client := client_init buf; n_user := w; n_server := server_with units; n_db := d; n_cur := 0; n_reading := false; n_out := None;
     n_up := fun _ => []; n_down := fun _ => []; n_link := fun _ => None; n_sout := fun _ => None; n_dead := fun _ => false |}.
End Net.

Lemma net_init_sound {W} (handler : nat -> W -> expected (list N) -> W * list capi) pol units d F0 buf w :
  good_buf buf -> wf d -> holds d F0 -> sound handler pol units F0 (net_init units d buf w) [].
Proof.
  intros Hb Hw Hd. exists [], (fun _ => []), [], [].
  constructor; cbn [net_init n_client n_user n_server n_db n_cur n_reading n_out n_up n_down n_link n_sout n_dead]; try discriminate.
  - exists buf, w. split; [exact Hb|]. split; [constructor|reflexivity].
  - intros i k [].
  - reflexivity.
  - auto.
  - intros c H. congruence.
  - intros g q [].
  - intros g. constructor.
  - intros g g' q q' [].
  - intros _. exists []. split; [apply R_new; exact Hb|reflexivity].
  - intros q pdu [].
  - constructor.
  - intros i [].
  - constructor.
  - exact Hw.
  - constructor. apply holds_unchanged. exact Hd.
  - intros _ a i dd b E. destruct a; discriminate E.
  - intros _ u Hu. apply SystemLemmas.insert_all. left. exact Hu.
Qed.
