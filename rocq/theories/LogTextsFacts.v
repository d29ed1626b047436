(** Proofs about the wording of log lines. *)
From Verif Require Import Prelude Ids SpecIds IdsFacts Config ConfigFacts AsyncWrite ClientConn ServerConn Messages Mbap Client SpecClient Logs SpecLogs LogsFacts ConnLogs SpecConnLogs ConnLogsFacts LogTexts SpecLogTexts.
From Coq Require Import Ascii String DecimalString DecimalN DecimalPos DecimalFacts.
Open Scope string_scope.

(** ** Strings *)
Lemma append_head p : forall x y, p ++ x = p ++ y -> x = y.
Proof. induction p as [|c p IH]; intros x y H; [exact H|]. cbn in H. injection H as H. exact (IH _ _ H). Qed.

Lemma append_length_inj : forall a b x y, a ++ x = b ++ y -> String.length a = String.length b -> a = b /\ x = y.
Proof.
  induction a as [|c a IH]; intros [|d b] x y H L; try discriminate L; [auto|]. cbn in H, L. injection H as -> H. injection L as L.
  destruct (IH _ _ _ H L) as [-> ->]. auto.
Qed.

Lemma append_assoc (a b c : string) : (a ++ b) ++ c = a ++ b ++ c.
Proof. induction a as [|x a IH]; [reflexivity|]. cbn. rewrite IH. reflexivity. Qed.

Lemma append_tail : forall a b p, a ++ p = b ++ p -> a = b.
Proof.
  induction a as [|c a IH]; intros [|d b] p H; [reflexivity| | |].
  - exfalso. assert (L : String.length p = String.length (String d b ++ p)) by (f_equal; exact H). clear H.
    assert (A : forall u v, String.length (u ++ v) = (String.length u + String.length v)%nat) by (induction u; cbn; auto). rewrite A in L. cbn in L. lia.
  - exfalso. assert (L : String.length (String c a ++ p) = String.length p) by (f_equal; exact H). clear H.
    assert (A : forall u v, String.length (u ++ v) = (String.length u + String.length v)%nat) by (induction u; cbn; auto). rewrite A in L. cbn in L. lia.
  - cbn in H. injection H as -> H. rewrite (IH _ _ H). reflexivity.
Qed.

Lemma append_empty (a : string) : a ++ "" = a.
Proof. induction a as [|x a IH]; [reflexivity|]. cbn. rewrite IH. reflexivity. Qed.

Definition is_digit (c : ascii) : bool := match uint_of_char c (Some Decimal.Nil) with Some _ => true | None => false end.
Fixpoint all_digits (s : string) : bool := match s with "" => true | String c s => is_digit c && all_digits s end.

Lemma digits_until : forall a b c d x y, all_digits a = true -> all_digits b = true -> is_digit c = false -> is_digit d = false ->
  a ++ String c x = b ++ String d y -> a = b /\ x = y.
Proof.
  induction a as [|h a IH]; intros [|k b] c d x y A B C D H; cbn [append all_digits] in *.
  - injection H as _ ->. auto.
  - injection H as -> _. apply andb_prop in B. destruct B as [B _]. congruence.
  - injection H as -> _. apply andb_prop in A. destruct A as [A _]. congruence.
  - injection H as -> H. apply andb_prop in A, B. destruct (IH _ _ _ _ _ (proj2 A) (proj2 B) C D H) as [-> ->]. auto.
Qed.

Lemma uint_digits u : all_digits (NilEmpty.string_of_uint u) = true.
Proof. induction u; cbn [NilEmpty.string_of_uint all_digits]; [reflexivity|..]; rewrite IHu; reflexivity. Qed.

Lemma reads_digits t n : reads t n -> all_digits t = true.
Proof.
  intros [_ H]. destruct (NilEmpty.uint_of_string t) as [u|] eqn:E; [|discriminate H].
  rewrite <- (NilEmpty.sus t u E). apply uint_digits.
Qed.

Lemma reads_head t n : reads t n -> exists c r, t = String c r /\ is_digit c = true.
Proof.
  intros H. assert (D := reads_digits _ _ H). destruct H as [H _]. destruct t as [|c r]; [contradiction|]. exists c, r. split; [reflexivity|].
  cbn [all_digits] in D. apply andb_prop in D. exact (proj1 D).
Qed.

Lemma reads_decimal n : reads (decimal n) n.
Proof.
  split.
  - unfold decimal. intros H. assert (K : NilEmpty.uint_of_string (NilEmpty.string_of_uint (N.to_uint n)) = Some Decimal.Nil) by (rewrite H; reflexivity).
    rewrite NilEmpty.usu in K. injection K as K. destruct n as [|p]; [discriminate K|]. cbn in K. exact (DecimalPos.Unsigned.to_uint_nonnil p K).
  - unfold decimal. rewrite NilEmpty.usu. cbn [option_map]. rewrite DecimalN.Unsigned.of_to. reflexivity.
Qed.

Lemma reads_fun t n m : reads t n -> reads t m -> n = m.
Proof. intros [_ A] [_ B]. congruence. Qed.

Lemma decimal_inj n m : decimal n = decimal m -> n = m.
Proof. intros H. apply (reads_fun (decimal n)); [apply reads_decimal|rewrite H; apply reads_decimal]. Qed.

(** ** Identifiers *)
Lemma string_app a : forall l, string_of_list_ascii (chars a ++ l) = a ++ string_of_list_ascii l.
Proof. induction a as [|c a IH]; intros l; [reflexivity|]. cbn. f_equal. exact (IH l). Qed.

Lemma string_inj a b : string_of_list_ascii a = string_of_list_ascii b -> a = b.
Proof. intros H. rewrite <- (list_ascii_of_string_of_list_ascii a), <- (list_ascii_of_string_of_list_ascii b), H. reflexivity. Qed.

Lemma string_length l : String.length (string_of_list_ascii l) = List.length l.
Proof. induction l as [|c l IH]; [reflexivity|]. cbn. rewrite IH. reflexivity. Qed.

Lemma plain_new : plain new_stream.
Proof. split; [discriminate|]. split; [reflexivity|]. cbn. lia. Qed.

Lemma unit_arg_words u : u8 u -> unit_arg u = unit_words u.
Proof. intros H. unfold unit_arg. rewrite (unit_text _ _ plain_new H). cbn [new_stream os_text List.app]. apply (string_app "0x"). Qed.

Lemma tx_arg_words t : u16 t -> tx_arg t = tx_words t.
Proof. intros H. unfold tx_arg. rewrite (transaction_text _ _ plain_new H). cbn [new_stream os_text List.app]. apply (string_app "0x"). Qed.

Lemma unit_words_inj u v x y : u8 u -> u8 v -> unit_words u ++ x = unit_words v ++ y -> u = v /\ x = y.
Proof.
  intros U V H. apply append_length_inj in H; [|unfold unit_words; cbn [append String.length]; rewrite !string_length, !hex_text_length; reflexivity].
  destruct H as [H ->]. split; [|reflexivity]. unfold unit_words in H. apply append_head, string_inj in H. exact (hex_text_inj 2 _ _ U V H).
Qed.

Lemma tx_words_inj u v x y : u16 u -> u16 v -> tx_words u ++ x = tx_words v ++ y -> u = v /\ x = y.
Proof.
  intros U V H. apply append_length_inj in H; [|unfold tx_words; cbn [append String.length]; rewrite !string_length, !hex_text_length; reflexivity].
  destruct H as [H ->]. split; [|reflexivity]. unfold tx_words in H. apply append_head, string_inj in H. exact (hex_text_inj 4 _ _ U V H).
Qed.

Lemma ids_inj u t v w x y : u8 u -> u16 t -> u8 v -> u16 w -> ids u t ++ x = ids v w ++ y -> (u = v /\ t = w) /\ x = y.
Proof.
  intros U T V X H. unfold ids in H. rewrite !append_assoc in H. apply append_head in H. apply unit_words_inj in H; auto. destruct H as [-> H].
  apply append_head in H. apply tx_words_inj in H; auto. destruct H as [-> ->]. auto.
Qed.

(** ** The channels *)
Lemma reads_until t t' n m c d x y : reads t n -> reads t' m -> t ++ String c x = t' ++ String d y -> is_digit c = false -> is_digit d = false -> n = m /\ x = y.
Proof.
  intros A B H C D. apply digits_until in H; eauto using reads_digits. destruct H as [-> ->]. split; [|reflexivity]. exact (reads_fun _ _ _ A B).
Qed.

Lemma reads_letter t n c x y : reads t n -> t ++ x = String c y -> is_digit c = false -> False.
Proof. intros A H C. destruct (reads_head _ _ A) as (d & r & -> & D). cbn in H. injection H as -> _. congruence. Qed.

Opaque unit_words tx_words unit_arg tx_arg decimal N.div.

Lemma client_text per_ms x : typed_cline x -> exists t, cline_text per_ms x = Some t /\ client_words per_ms x t.
Proof.
  destruct x as [|n| |u t|u t| |u t a n|u t]; cbn [typed_cline]; intros T; eexists; (split; [|econstructor; apply reads_decimal]);
    unfold cline_text, ids; rewrite ?append_assoc; try rewrite (unit_arg_words _ (proj1 T)), (tx_arg_words _ (proj2 T)); reflexivity.
Qed.

Lemma words_told per_ms x y t : typed_cline x -> typed_cline y -> client_words per_ms x t -> client_words per_ms y t -> same_line per_ms x y.
Proof.
  intros Tx Ty A B. remember t as t' eqn:E in B. symmetry in E.
  destruct A as [|n a R| |u v|u v| |u v l n a b R1 R2|u v], B as [|n' a' R'| |u' v'|u' v'| |u' v' l' n' a' b' R1' R2'|u' v'];
    cbn [same_line typed_cline] in *; try reflexivity; try discriminate E.
  - apply append_head in E. destruct (reads_until _ _ _ _ _ _ _ _ R R' E eq_refl eq_refl) as [-> _]. reflexivity.
  - apply (append_head "Received ") in E. destruct (reads_letter _ _ _ _ _ R E eq_refl).
  - apply (append_head "Received ") in E. destruct (reads_letter _ _ _ _ _ R E eq_refl).
  - apply (append_head "Received ") in E. destruct (reads_letter _ _ _ _ _ R E eq_refl).
  - symmetry in E. apply (append_head "Received ") in E. destruct (reads_letter _ _ _ _ _ R' E eq_refl).
  - apply append_head, ids_inj in E; try tauto. destruct E as [[-> ->] _]. reflexivity.
  - symmetry in E. apply (append_head "Received ") in E. destruct (reads_letter _ _ _ _ _ R' E eq_refl).
  - apply append_head, ids_inj in E; try tauto. destruct E as [[-> ->] _]. reflexivity.
  - symmetry in E. apply (append_head "Received ") in E. destruct (reads_letter _ _ _ _ _ R' E eq_refl).
  - apply append_head, ids_inj in E; try tauto. destruct E as [[-> ->] E]. apply append_head in E.
    destruct (reads_until _ _ _ _ _ _ _ _ R1 R1' E eq_refl eq_refl) as [-> E1]. apply (append_head "ms, Length: ") in E1.
    destruct (reads_until _ _ _ _ _ _ _ _ R2 R2' E1 eq_refl eq_refl) as [-> _]. auto.
  - apply append_head, ids_inj in E; try tauto. destruct E as [[-> ->] _]. reflexivity.
Qed.

Lemma same_text per_ms x y : typed_cline x -> typed_cline y -> cline_text per_ms x = cline_text per_ms y <-> same_line per_ms x y.
Proof.
  intros Tx Ty. split.
  - intros E. destruct (client_text per_ms x Tx) as (t & E1 & W1), (client_text per_ms y Ty) as (t' & E2 & W2).
    assert (t = t') by congruence. subst t'. exact (words_told _ _ _ _ Tx Ty W1 W2).
  - intros H. destruct x; cbn [same_line] in H; try (rewrite H; reflexivity). destruct y; try discriminate H.
    destruct H as (-> & -> & H & ->). unfold cline_text. rewrite H. reflexivity.
Qed.

Lemma fraction_lost : ~ (forall per_ms x y, typed_cline x -> typed_cline y -> cline_text per_ms x = cline_text per_ms y -> x = y).
Proof.
  intros H. specialize (H 1000000 (LogSending 1 2 5 5) (LogSending 1 2 6 5)). assert (K : LogSending 1 2 5 5 = LogSending 1 2 6 5); [|discriminate K].
  apply H; [split; reflexivity|split; reflexivity|]. unfold cline_text. reflexivity.
Qed.

(** What happened can be told from the text. *)
Lemma same_texts per_ms l : forall l', Forall typed_cline l -> Forall typed_cline l' ->
  map (cline_text per_ms) l = map (cline_text per_ms) l' -> Forall2 (same_line per_ms) l l'.
Proof.
  induction l as [|x l IH]; intros [|y l'] T T' E; try discriminate E; constructor; apply Forall_cons_iff in T, T'; cbn [map] in E; injection E as E1 E2.
  - apply same_text; tauto.
  - apply IH; tauto.
Qed.

Lemma text_accounts per_ms l l' : well_logged l -> well_logged l' -> Forall typed_cline (log_lines l) -> Forall typed_cline (log_lines l') ->
  map (cline_text per_ms) (log_lines l) = map (cline_text per_ms) (log_lines l') ->
  really_sent l = really_sent l' /\ really_answered l = really_answered l' /\ really_timed_out l = really_timed_out l'.
Proof.
  intros L L' T T' E. apply same_texts in E; auto. destruct (log_accounts _ L) as (<- & <- & <-), (log_accounts _ L') as (<- & <- & <-).
  unfold said_sent, said_answered, said_timed_out. revert E. clear. generalize (log_lines l), (log_lines l').
  induction 1 as [|x y a b S _ (A & B & C)]; [auto|]. cbn [flat_map filter].
  destruct x; cbn [same_line] in S; try (subst y); cbn [app List.length]; rewrite ?A, ?B, ?C; try (repeat split; congruence).
  destruct y; try discriminate S. destruct S as (-> & -> & _ & ->). auto.
Qed.

Lemma server_text x : typed_sline x -> exists t, sline_text x = Some t /\ server_words x t.
Proof.
  destruct x as [|fc|u|]; cbn [typed_sline]; intros T; eexists; (split; [|econstructor; apply reads_decimal]); unfold sline_text;
    try rewrite (unit_arg_words _ T); reflexivity || (cbn [format option_map]; rewrite append_empty; reflexivity).
Qed.

Lemma server_words_told x y t : typed_sline x -> typed_sline y -> server_words x t -> server_words y t -> x = y.
Proof.
  intros Tx Ty A B. remember t as t' eqn:E in B. symmetry in E.
  destruct A as [| |fc a R|u], B as [| |fc' a' R'|u']; cbn [typed_sline] in *; try reflexivity; try discriminate E.
  - apply append_head in E. subst a'. rewrite (reads_fun _ _ _ R R'). reflexivity.
  - apply append_head in E. rewrite <- (append_empty (unit_words u)), <- (append_empty (unit_words u')) in E.
    apply unit_words_inj in E; auto. destruct E as [-> _]. reflexivity.
Qed.

Lemma server_same_text x y : typed_sline x -> typed_sline y -> sline_text x = sline_text y <-> x = y.
Proof.
  intros Tx Ty. split; [|intros ->; reflexivity]. intros E. destruct (server_text x Tx) as (t & E1 & W1), (server_text y Ty) as (t' & E2 & W2).
  assert (t = t') by congruence. subst t'. exact (server_words_told _ _ _ Tx Ty W1 W2).
Qed.

(** ** The connections *)
Fixpoint without (c : ascii) (s : string) : bool := match s with "" => true | String d s => negb (Ascii.eqb d c) && without c s end.

Lemma last_mark c : forall a b x y, without c x = true -> without c y = true -> a ++ String c x = b ++ String c y -> a = b /\ x = y.
Proof.
  assert (N : forall b y d, without c (b ++ String c y) = true -> d = c -> False).
  { induction b as [|k b IH]; intros y d H E; cbn in H; apply andb_prop in H; destruct H as [H H']; [rewrite Ascii.eqb_refl in H; discriminate H|]. exact (IH _ _ H' E). }
  induction a as [|h a IH]; intros [|k b] x y X Y H; cbn [append] in H.
  - injection H as ->. auto.
  - injection H as <- ->. destruct (N _ _ _ X eq_refl).
  - injection H as -> <-. destruct (N _ _ _ Y eq_refl).
  - injection H as -> H. destruct (IH _ _ _ X Y H) as [-> ->]. auto.
Qed.

Lemma digits_without s : all_digits s = true -> without ":" s = true.
Proof.
  induction s as [|c s IH]; [reflexivity|]. cbn [all_digits without]. intros H. apply andb_prop in H. destruct H as [H H']. rewrite (IH H'), andb_true_r.
  destruct (Ascii.eqb_spec c ":") as [->|]; [discriminate H|reflexivity].
Qed.

Definition tail_text (p m : string) : Some (p ++ m ++ "") = Some (p ++ m) := f_equal (fun x => Some (p ++ x)) (append_empty m).

Lemma number_told n m x : decimal n ++ String " " x = decimal m ++ String " " x -> n = m.
Proof. intros H. exact (proj1 (reads_until _ _ _ _ _ _ _ _ (reads_decimal n) (reads_decimal m) H eq_refl eq_refl)). Qed.

Lemma connection_told e e' m m' x y : tline_text e m x = tline_text e' m' y <->
  x = y /\ (x = Establishing -> e = e') /\ (with_message x = true -> m = m').
Proof.
  split.
  - intros E. destruct x, y; unfold tline_text, plain_text in E; try discriminate E; (split; [|split; [intros K; try discriminate K|intros K; try discriminate K]]); try reflexivity.
    all: cbn [format option_map] in E; rewrite ?append_empty in E.
    all: try (injection E as E; exact E).
    + injection E as E. apply last_mark in E; [|apply digits_without, (reads_digits _ _ (reads_decimal _))..]. destruct E as [E1 E2].
      destruct e, e'. cbn in E1, E2. apply decimal_inj in E2. congruence.
    + injection E as E. apply number_told in E. apply Nat2N.inj in E. subst. reflexivity.
    + injection E as E. apply number_told in E. apply Nat2N.inj in E. subst. reflexivity.
  - intros (-> & He & Hm). destruct y; try (rewrite (Hm eq_refl)); try (rewrite (He eq_refl)); reflexivity.
Qed.

Lemma server_connection_told m m' x y t : vline_text m x = Some t -> vline_text m' y = Some t -> x = y /\ (with_message x = true -> m = m').
Proof.
  intros E E'.
  destruct x, y; try discriminate E; try discriminate E'; rewrite <- E' in E; clear E'; unfold vline_text, plain_text in E; try discriminate E; (split; [|intros K; try discriminate K]); try reflexivity.
  all: cbn [format option_map] in E; rewrite ?append_empty in E.
  all: try (injection E as E; exact E).
  all: injection E as E; apply number_told in E; apply Nat2N.inj in E; subst; reflexivity.
Qed.

Lemma connection_text e m x : exists t, tline_text e m x = Some t /\ connection_words e m x t.
Proof.
  destruct x; eexists; (split; [|econstructor; apply reads_decimal]); unfold tline_text, plain_text; cbn [format option_map];
    rewrite ?append_empty; reflexivity.
Qed.

Lemma server_connection_text m es s l : log_vconn_run sconn_init es = Ret (s, l) ->
  Forall (fun x => exists t, vline_text m x = Some t /\ server_connection_words m x t) (said l).
Proof.
  intros H. apply server_connection_logged in H. destruct H as [H _].
  assert (K : forall x, vline_text m x <> None -> exists t, vline_text m x = Some t /\ server_connection_words m x t).
  { intros x N. set (e := {| ep_host := ""; ep_port := 0 |}). destruct (connection_text e m x) as (t & E & W).
    destruct x; try (exfalso; apply N; reflexivity); try (exists t; split; [exact E|]; apply (words_other m e); [discriminate|exact W]).
    exists "New connection established". split; [reflexivity|constructor]. }
  induction H; rewrite ?said_app; [constructor|..]; apply Forall_app; split; auto; cbn; repeat constructor; apply K; discriminate.
Qed.
