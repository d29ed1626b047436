(** Proofs about identifiers and their text. *)
From Verif Require Import Prelude Tac Ids SpecIds.
From Coq Require Import Ascii String.

Definition below (n : nat) : list N := map N.of_nat (seq 0 n).

Lemma in_below n v : v < N.of_nat n -> In v (below n).
Proof.
  intros H. apply in_map_iff. exists (N.to_nat v). split; [apply N2Nat.id|]. apply in_seq. lia.
Qed.

Definition chars_eqb (a b : list ascii) : bool := if list_eq_dec ascii_dec a b then true else false.

(** The number with its padding, computed for every value. *)
Definition padded (k : nat) (v : N) : list ascii :=
  List.repeat "0"%char (k - List.length (digits Hex true v)) ++ digits Hex true v.

Lemma sweep2 : forallb (fun v => chars_eqb (padded 2 v) (hex_text 2 v)) (below 256) = true.
Proof. vm_compute. reflexivity. Qed.

Lemma sweep4 : forallb (fun h => forallb (fun l => chars_eqb (padded 4 (h * 256 + l)) (hex_text 4 (h * 256 + l))) (below 256)) (below 256) = true.
Proof. vm_compute. reflexivity. Qed.

Lemma chars_eqb_eq a b : chars_eqb a b = true -> a = b.
Proof. unfold chars_eqb. destruct (list_eq_dec ascii_dec a b); [trivial|discriminate]. Qed.

Lemma padded2 v : u8 v -> padded 2 v = hex_text 2 v.
Proof.
  intros H. apply chars_eqb_eq. pose proof (proj1 (forallb_forall _ _) sweep2) as S. apply S, in_below. exact H.
Qed.

Lemma padded4 v : u16 v -> padded 4 v = hex_text 4 v.
Proof.
  unfold u16. intros H. apply chars_eqb_eq. pose proof (proj1 (forallb_forall _ _) sweep4 (v / 256)) as S.
  specialize (S (in_below 256 (v / 256) ltac:(change (N.of_nat 256) with 256; lia))).
  pose proof (proj1 (forallb_forall _ _) S (v mod 256)) as S'.
  specialize (S' (in_below 256 (v mod 256) ltac:(change (N.of_nat 256) with 256; lia))). cbv beta in S'.
  replace (v / 256 * 256 + v mod 256) with v in S' by lia. exact S'.
Qed.

Lemma pad_plain st l : (os_width st <= List.length l)%nat -> pad st [] l = l.
Proof.
  intros H. unfold pad. replace (os_width st - (List.length [] + List.length l))%nat with 0%nat by (cbn; lia).
  destruct (os_adjust st); cbn [List.repeat app]; [apply app_nil_r|reflexivity|reflexivity].
Qed.

Lemma text_of st k v : plain st ->
  os_text (put_unsigned (hex (setfill "0"%char (setw k (uppercase (put_text st (chars "0x")))))) v) =
  os_text st ++ chars "0x" ++ padded k v.
Proof.
  destruct st as [text base up sb adj fill w]. unfold plain. cbn [os_adjust os_showbase os_width]. intros (A & -> & C).
  unfold put_text. rewrite pad_plain by exact C.
  unfold put_unsigned, base_prefix, emit, hex, setfill, setw, uppercase.
  cbn [os_text os_showbase os_base os_upper os_adjust os_fill os_width andb]. rewrite <- app_assoc. f_equal. f_equal.
  unfold pad, padded. cbn [os_fill os_width os_adjust os_base os_upper app List.length].
  destruct adj; [destruct (A eq_refl)|reflexivity|reflexivity].
Qed.

Lemma transaction_text st v : plain st -> u16 v ->
  os_text (print_transaction st v) = os_text st ++ chars "0x" ++ hex_text 4 v.
Proof. intros H V. unfold print_transaction. rewrite text_of by exact H. rewrite padded4 by exact V. reflexivity. Qed.

Lemma unit_text st v : plain st -> u8 v ->
  os_text (print_unit st v) = os_text st ++ chars "0x" ++ hex_text 2 v.
Proof. intros H V. unfold print_unit. rewrite text_of by exact H. rewrite padded2 by exact V. reflexivity. Qed.

(** ** Injectivity *)
Lemma hex_char_inj a b : a < 16 -> b < 16 -> hex_char a = hex_char b -> a = b.
Proof.
  intros A B. assert (S : forallb (fun a => forallb (fun b => implb (Ascii.eqb (hex_char a) (hex_char b)) (a =? b)) (below 16)) (below 16) = true)
    by (vm_compute; reflexivity).
  pose proof (proj1 (forallb_forall _ _) S) as S1. specialize (S1 a (in_below 16 a A)). cbv beta in S1.
  pose proof (proj1 (forallb_forall _ _) S1) as S2. specialize (S2 b (in_below 16 b B)). intros E.
  apply Ascii.eqb_eq in E. cbv beta in S2. rewrite E in S2. cbn [implb] in S2. apply N.eqb_eq. exact S2.
Qed.

Lemma hex_text_inj k : forall v w, v < 16 ^ N.of_nat k -> w < 16 ^ N.of_nat k -> hex_text k v = hex_text k w -> v = w.
Proof.
  induction k as [|k IH]; intros v w V W E; [change (16 ^ N.of_nat 0) with 1 in *; lia|].
  rewrite Nat2N.inj_succ, N.pow_succ_r in V, W by lia. cbn [hex_text] in E.
  apply app_inj_tail in E. destruct E as [E1 E2]. apply hex_char_inj in E2; [|apply N.mod_lt; lia|apply N.mod_lt; lia].
  assert (v / 16 = w / 16) by (apply IH; [apply N.div_lt_upper_bound; lia|apply N.div_lt_upper_bound; lia|exact E1]).
  rewrite (N.div_mod v 16), (N.div_mod w 16) by lia. congruence.
Qed.

Lemma hex_text_length k : forall v, List.length (hex_text k v) = k.
Proof. induction k as [|k IH]; intros v; [reflexivity|]. cbn [hex_text]. rewrite app_length, IH. cbn. lia. Qed.

Lemma hex_text_digits k : forall v c, In c (hex_text k v) -> In c (chars "0123456789ABCDEF").
Proof.
  induction k as [|k IH]; intros v c H; [destruct H|]. cbn [hex_text] in H. apply in_app_or in H.
  destruct H as [H|[<-|[]]]; [exact (IH _ _ H)|]. unfold hex_char. apply nth_In.
  change (List.length (chars "0123456789ABCDEF")) with 16%nat. assert (v mod 16 < 16) by (apply N.mod_lt; lia). lia.
Qed.

Lemma transaction_injective st v w : plain st -> u16 v -> u16 w ->
  (os_text (print_transaction st v) = os_text (print_transaction st w) <-> v = w).
Proof.
  intros H V W. rewrite !transaction_text by assumption. split; [|intros ->; reflexivity].
  intros E. apply app_inv_head in E. apply app_inv_head in E. apply (hex_text_inj 4); [exact V|exact W|exact E].
Qed.

Lemma unit_injective st v w : plain st -> u8 v -> u8 w ->
  (os_text (print_unit st v) = os_text (print_unit st w) <-> v = w).
Proof.
  intros H V W. rewrite !unit_text by assumption. split; [|intros ->; reflexivity].
  intros E. apply app_inv_head in E. apply app_inv_head in E. apply (hex_text_inj 2); [exact V|exact W|exact E].
Qed.

Definition left_stream : ostream :=
  {| os_text := []; os_base := Dec; os_upper := false; os_showbase := false; os_adjust := Left; os_fill := " "%char; os_width := 0 |}.

Lemma any_stream_refuted :
  ~ (forall st v w, u16 v -> u16 w -> os_text (print_transaction st v) = os_text (print_transaction st w) -> v = w).
Proof.
  intros H. assert (1 = 4096) by (apply (H left_stream); [reflexivity|reflexivity|vm_compute; reflexivity]). discriminate.
Qed.

Lemma sticky_refuted :
  ~ (forall st v n, plain st -> u8 v ->
     os_text (put_unsigned (print_unit st v) n) = os_text (print_unit st v) ++ digits (os_base st) (os_upper st) n).
Proof.
  intros H. specialize (H new_stream 7 10). assert (E : os_text (put_unsigned (print_unit new_stream 7) 10) =
    os_text (print_unit new_stream 7) ++ digits (os_base new_stream) (os_upper new_stream) 10).
  { apply H; [|reflexivity]. unfold plain. split; [discriminate|]. split; [reflexivity|]. cbn. lia. }
  vm_compute in E. discriminate E.
Qed.

(** Before an identifier is printed, numbers are decimal. *)
Lemma decimal_first n : os_text (put_unsigned new_stream n) = digits Dec false n.
Proof. unfold put_unsigned, base_prefix, emit, pad. cbn [new_stream os_text os_showbase os_adjust os_width os_fill os_base os_upper andb app]. reflexivity. Qed.

(** With std::showbase there are two prefixes, but one for zero. *)
Lemma showbase_unit st v : os_showbase st = true -> os_adjust st = Right -> (os_width st <= 2)%nat ->
  os_text (print_unit st v) = os_text st ++ chars "0x" ++ (if v =? 0 then chars "00" else chars "0X" ++ digits Hex true v).
Proof.
  destruct st as [text base up sb adj fill w]. cbn [os_adjust os_showbase os_width os_text]. intros -> -> C.
  unfold print_unit, put_text. rewrite pad_plain by exact C.
  unfold put_unsigned, base_prefix, emit, hex, setfill, setw, uppercase.
  cbn [os_text os_showbase os_base os_upper os_adjust os_fill os_width andb]. rewrite <- app_assoc. f_equal. f_equal.
  unfold pad. cbn [os_fill os_width os_adjust os_base os_upper app List.length].
  destruct (N.eqb_spec v 0) as [->|H]; [reflexivity|]. cbn [negb List.length Nat.add Nat.sub]. reflexivity.
Qed.

(** ** Increment *)
Lemma increments v : u16 v ->
  fst (pre_increment v) = (v + 1) mod 65536 /\ snd (pre_increment v) = (v + 1) mod 65536 /\
  fst (post_increment v) = (v + 1) mod 65536 /\ snd (post_increment v) = v.
Proof. intros _. split; [reflexivity|]. split; [reflexivity|]. split; reflexivity. Qed.

Fixpoint increment_times (n : nat) (v : N) : N :=
  match n with O => v | S n' => fst (pre_increment (increment_times n' v)) end.

Lemma increment_many n v : u16 v -> increment_times n v = (v + N.of_nat n) mod 65536.
Proof.
  intros V. induction n as [|n IH]; cbn [increment_times].
  - rewrite N.add_0_r, N.mod_small; [reflexivity|exact V].
  - rewrite IH. unfold pre_increment, to_u16. cbn [fst]. rewrite N.add_mod_idemp_l by discriminate.
    f_equal. lia.
Qed.

(** ** Exception messages *)
Lemma messages_injective a b : exception_message a = exception_message b -> a = b.
Proof. destruct a, b; (reflexivity || (intros H; vm_compute in H; discriminate H)). Qed.

(** ** Comparison *)
Lemma identifiers_compare : forall a b, (id_eq a b = true <-> a = b) /\ (id_ne a b = true <-> a <> b).
Proof.
  intros a b. unfold id_eq, id_ne. split; [apply N.eqb_eq|]. rewrite Bool.negb_true_iff. apply N.eqb_neq.
Qed.

Lemma hash_separates : forall h, (forall x y, u8 x -> u8 y -> h x = h y -> x = y) ->
  forall a b, u8 a -> u8 b -> (unit_hash h a = unit_hash h b <-> id_eq a b = true).
Proof.
  intros h H a b A B. rewrite (proj1 (identifiers_compare a b)). unfold unit_hash. split; [apply H; assumption|intros ->; reflexivity].
Qed.
