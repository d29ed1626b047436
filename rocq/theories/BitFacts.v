(** Proofs about bit packing and big-endian integers. *)
From Verif Require Import Tac Ser4 Messages SpecPdu.

(** ** Lists *)
Lemma skipn_nth {A} (d : A) n l i : nth i (skipn n l) d = nth (n + i) l d.
Proof.
  revert l; induction n as [|n IH]; intros [|x l]; simpl; auto.
  destruct i; reflexivity.
Qed.

Lemma firstn_nth {A} (d : A) n l i : (i < n)%nat -> nth i (firstn n l) d = nth i l d.
Proof.
  revert l i; induction n as [|n IH]; intros [|x l] [|i] H; simpl; auto; try lia.
  apply IH; lia.
Qed.

Lemma size_app {A} (a b : list A) : size (a ++ b) = size a + size b.
Proof. unfold size; rewrite app_length; lia. Qed.

Lemma size_cons {A} (a : A) (b : list A) : size (a :: b) = 1 + size b.
Proof. unfold size; simpl List.length; lia. Qed.

Lemma size_nil {A} : size (@nil A) = 0.
Proof. reflexivity. Qed.

(** ** Bytes from bits *)
Fixpoint byte_of_bits (l : list bool) : N :=
  match l with
  | [] => 0
  | b :: l' => N.b2n b + 2 * byte_of_bits l'
  end.

Lemma byte_of_bits_bit l i : N.testbit (byte_of_bits l) (N.of_nat i) = nth i l false.
Proof.
  revert i; induction l as [|b l IH]; intros i.
  - simpl byte_of_bits. rewrite N.bits_0. destruct i; reflexivity.
  - simpl byte_of_bits. destruct i as [|i].
    + change (N.of_nat 0) with 0. rewrite (N.add_comm (N.b2n b)), N.testbit_0_r. reflexivity.
    + rewrite Nat2N.inj_succ.
      rewrite (N.add_comm (N.b2n b)), N.testbit_succ_r. apply IH.
Qed.

Lemma byte_of_bits_lt l : byte_of_bits l < 2 ^ N.of_nat (List.length l).
Proof.
  induction l as [|b l IH]; simpl List.length.
  - simpl. lia.
  - simpl byte_of_bits. rewrite Nat2N.inj_succ, N.pow_succ_r'.
    destruct b; unfold N.b2n; lia.
Qed.

Lemma byte_of_bits_u8 l : (List.length l <= 8)%nat -> u8 (byte_of_bits l).
Proof.
  intros H. unfold u8. eapply N.lt_le_trans; [apply byte_of_bits_lt|].
  change 256 with (2 ^ 8). apply N.pow_le_mono_r; lia.
Qed.

Lemma N_bits_inj_nat a b :
  (forall i : nat, N.testbit a (N.of_nat i) = N.testbit b (N.of_nat i)) -> a = b.
Proof.
  intros H. apply N.bits_inj. intros i.
  rewrite <- (N2Nat.id i). apply H.
Qed.

Lemma lor_next_bit ps b :
  N.lor (byte_of_bits ps) (N.shiftl (N.b2n b) (N.of_nat (List.length ps)))
  = byte_of_bits (ps ++ [b]).
Proof.
  apply N_bits_inj_nat; intros i.
  rewrite N.lor_spec, !byte_of_bits_bit.
  destruct b; simpl N.b2n.
  - rewrite N.shiftl_1_l, N.pow2_bits_eqb.
    destruct (Nat.lt_trichotomy i (List.length ps)) as [H|[H|H]].
    + rewrite app_nth1 by exact H.
      replace (_ =? _) with false by lia. apply orb_false_r.
    + subst i. rewrite app_nth2, Nat.sub_diag by lia.
      rewrite N.eqb_refl. apply orb_true_r.
    + rewrite !nth_overflow by (rewrite ?app_length; simpl; lia).
      replace (_ =? _) with false by lia. reflexivity.
  - rewrite N.shiftl_0_l, N.bits_0, orb_false_r.
    destruct (Nat.lt_ge_cases i (List.length ps)) as [H|H].
    + rewrite app_nth1 by exact H. reflexivity.
    + rewrite (nth_overflow ps) by lia. rewrite app_nth2 by lia.
      destruct (i - List.length ps)%nat as [|[|n]]; reflexivity.
Qed.

Lemma to_u8_id v : u8 v -> to_u8 v = v.
Proof. unfold u8, to_u8; lia. Qed.

Lemma to_u16_id v : u16 v -> to_u16 v = v.
Proof. unfold u16, to_u16; lia. Qed.

(** ** Packing a list of bits into bytes *)
Definition bytes_for (n : nat) : nat := Nat.div (n + 7) 8.

Fixpoint pack_n (n : nat) (l : list bool) : list N :=
  match n with
  | O => []
  | S n' => byte_of_bits (firstn 8 l) :: pack_n n' (skipn 8 l)
  end.

Definition pack (l : list bool) : list N := pack_n (bytes_for (List.length l)) l.

Lemma pack_n_length n l : List.length (pack_n n l) = n.
Proof. revert l; induction n as [|n IH]; intros l; simpl; auto. Qed.

Lemma pack_length l : List.length (pack l) = bytes_for (List.length l).
Proof. apply pack_n_length. Qed.

Lemma pack_nil : pack [] = [].
Proof. reflexivity. Qed.

Lemma pack_app8 a l : List.length a = 8%nat -> pack (a ++ l) = byte_of_bits a :: pack l.
Proof.
  intros H. unfold pack. rewrite app_length, H.
  replace (bytes_for (8 + List.length l)) with (S (bytes_for (List.length l)))
    by (unfold bytes_for; lia).
  cbn [pack_n]. rewrite firstn_app, skipn_app, H.
  rewrite Nat.sub_diag, firstn_O, app_nil_r, skipn_O.
  rewrite firstn_all2 by lia. rewrite skipn_all2 by lia. reflexivity.
Qed.

Lemma pack_short l : (0 < List.length l <= 8)%nat -> pack l = [byte_of_bits l].
Proof.
  intros H. unfold pack.
  replace (bytes_for (List.length l)) with 1%nat by (unfold bytes_for; lia).
  cbn [pack_n]. rewrite firstn_all2 by lia. reflexivity.
Qed.

Lemma pack_n_bytes n l : bytes (pack_n n l).
Proof.
  revert l; induction n as [|n IH]; intros l; cbn [pack_n]; constructor.
  - apply byte_of_bits_u8. rewrite firstn_length; lia.
  - apply IH.
Qed.

Lemma pack_bytes l : bytes (pack l).
Proof. apply pack_n_bytes. Qed.

Lemma byte_count_bytes_for n : byte_count_of_bits (N.of_nat n) = N.of_nat (bytes_for n).
Proof.
  unfold byte_count_of_bits, bytes_for.
  destruct (negb _) eqn:E; lia.
Qed.

(** ** Unpacking *)
Definition bits8 (b : N) : list bool := map (fun i => N.testbit b (N.of_nat i)) (seq 0 8).

Definition unpack (d : list N) : list bool := flat_map bits8 d.

Lemma bits8_length b : List.length (bits8 b) = 8%nat.
Proof. reflexivity. Qed.

Lemma unpack_length d : List.length (unpack d) = (8 * List.length d)%nat.
Proof.
  induction d as [|b d IH]; [reflexivity|].
  unfold unpack in *; cbn [flat_map]. rewrite app_length, IH, bits8_length.
  cbn [List.length]. lia.
Qed.

Lemma bits8_nth b i : (i < 8)%nat -> nth i (bits8 b) false = N.testbit b (N.of_nat i).
Proof.
  intros H. unfold bits8.
  do 8 (destruct i as [|i]; [reflexivity|]). lia.
Qed.

Lemma unpack_nth d i : (i < 8 * List.length d)%nat -> nth i (unpack d) false = field_bit d i.
Proof.
  unfold field_bit. revert i; induction d as [|b d IH]; intros i H.
  - simpl in H; lia.
  - unfold unpack; cbn [flat_map]; fold (unpack d).
    destruct (Nat.lt_ge_cases i 8) as [L|L].
    + rewrite app_nth1 by (rewrite bits8_length; lia).
      rewrite bits8_nth by lia. rewrite Nat.div_small, Nat.mod_small by lia. reflexivity.
    + rewrite app_nth2 by (rewrite bits8_length; lia).
      rewrite bits8_length. cbn [List.length] in H. rewrite IH by lia.
      replace (Nat.div i 8) with (S (Nat.div (i - 8) 8)) by lia.
      replace (Nat.modulo i 8) with (Nat.modulo (i - 8) 8) by lia.
      reflexivity.
Qed.

Lemma bits8_byte_of_bits l :
  (List.length l <= 8)%nat -> bits8 (byte_of_bits l) = l ++ repeat false (8 - List.length l).
Proof.
  intros H. apply (nth_ext _ _ false false).
  - rewrite app_length, repeat_length, bits8_length. lia.
  - intros i Hi. rewrite bits8_length in Hi. rewrite bits8_nth by lia.
    rewrite byte_of_bits_bit.
    destruct (Nat.lt_ge_cases i (List.length l)) as [L|L].
    + rewrite app_nth1 by lia. reflexivity.
    + rewrite nth_overflow by lia. rewrite app_nth2 by lia.
      symmetry. apply nth_repeat.
Qed.

Lemma unpack_pack_n n l :
  (List.length l <= 8 * n)%nat ->
  unpack (pack_n n l) = l ++ repeat false (8 * n - List.length l).
Proof.
  revert l; induction n as [|n IH]; intros l H.
  - destruct l; [reflexivity|simpl in H; lia].
  - cbn [pack_n]. unfold unpack; cbn [flat_map]; fold (unpack (pack_n n (skipn 8 l))).
    rewrite IH by (rewrite skipn_length; lia).
    rewrite bits8_byte_of_bits by (rewrite firstn_length; lia).
    rewrite firstn_length, skipn_length.
    destruct (Nat.le_ge_cases (List.length l) 8) as [L|L].
    + rewrite skipn_all2 by lia. rewrite firstn_all2 by lia. rewrite Nat.min_r by lia.
      rewrite <- app_assoc. f_equal. cbn [app]. rewrite <- repeat_app. f_equal. lia.
    + rewrite Nat.min_l by lia. rewrite Nat.sub_diag. cbn [repeat]. rewrite app_nil_r.
      rewrite app_assoc, firstn_skipn. f_equal. f_equal. lia.
Qed.

Lemma unpack_pack l : firstn (List.length l) (unpack (pack l)) = l.
Proof.
  unfold pack. rewrite unpack_pack_n by (unfold bytes_for; lia).
  rewrite firstn_app, firstn_all, Nat.sub_diag, firstn_O. apply app_nil_r.
Qed.

Lemma pack_field0 l : bit_field0 l (pack l).
Proof.
  split; [apply pack_bytes|]. split; [apply pack_length|].
  intros i H. rewrite <- unpack_nth by exact H.
  rewrite pack_length in H.
  unfold pack. rewrite unpack_pack_n by (unfold bytes_for; lia).
  destruct (Nat.lt_ge_cases i (List.length l)) as [L|L].
  - apply app_nth1; lia.
  - rewrite app_nth2 by lia. rewrite nth_repeat. symmetry. apply nth_overflow. lia.
Qed.

Lemma field0_field l d : bit_field0 l d -> bit_field l d.
Proof.
  intros (Hb & Hl & H). split; [exact Hl|].
  intros i Hi. apply H. rewrite Hl. unfold bits_to_bytes. lia.
Qed.

Lemma bit_field_unpack l d :
  bit_field l d <->
  List.length d = bytes_for (List.length l) /\ firstn (List.length l) (unpack d) = l.
Proof.
  unfold bit_field. change bits_to_bytes with bytes_for.
  split; intros [Hl H]; (split; [exact Hl|]).
  - apply (nth_ext _ _ false false).
    + rewrite firstn_length, unpack_length, Hl. unfold bytes_for; lia.
    + intros i Hi. rewrite firstn_length in Hi.
      rewrite firstn_nth by lia. rewrite unpack_nth.
      * apply H. lia.
      * rewrite Hl. unfold bytes_for. lia.
  - intros i Hi. rewrite <- unpack_nth by (rewrite Hl; unfold bytes_for; lia).
    rewrite <- H at 1. rewrite firstn_nth by lia. reflexivity.
Qed.

(** The encoding of a bit field with zero padding is unique. *)
Lemma byte_eq_bits a b :
  u8 a -> u8 b -> (forall i, (i < 8)%nat -> N.testbit a (N.of_nat i) = N.testbit b (N.of_nat i)) -> a = b.
Proof.
  unfold u8. intros Ha Hb H. apply N_bits_inj_nat. intros i.
  destruct (Nat.lt_ge_cases i 8) as [L|L]; [apply H; exact L|].
  assert (Hz : forall v, v < 256 -> N.testbit v (N.of_nat i) = false).
  { intros v Hv. destruct (N.eq_dec v 0) as [->|Hn]; [apply N.bits_0|].
    apply N.bits_above_log2. apply N.log2_lt_pow2; [lia|].
    eapply N.lt_le_trans; [exact Hv|]. change 256 with (2 ^ 8).
    apply N.pow_le_mono_r; lia. }
  rewrite !Hz by assumption. reflexivity.
Qed.

Lemma field0_unique l d d' : bit_field0 l d -> bit_field0 l d' -> d = d'.
Proof.
  intros (Hb & Hl & H) (Hb' & Hl' & H').
  assert (HL : List.length d = List.length d') by congruence.
  apply (nth_ext _ _ 0 0 HL). intros k Hk.
  apply byte_eq_bits.
  - eapply Forall_forall in Hb; [exact Hb|]. apply nth_In; lia.
  - eapply Forall_forall in Hb'; [exact Hb'|]. apply nth_In; lia.
  - intros i Hi.
    specialize (H (8 * k + i)%nat ltac:(lia)). specialize (H' (8 * k + i)%nat ltac:(lia)).
    unfold field_bit in *.
    replace (Nat.div (8 * k + i) 8) with k in * by lia.
    replace (Nat.modulo (8 * k + i) 8) with i in * by lia.
    congruence.
Qed.

(** ** The code's extraction loops *)
Lemma land_shiftr_bit b i : negb (N.land (N.shiftr b i) 1 =? 0) = N.testbit b i.
Proof.
  replace (N.land (N.shiftr b i) 1) with (N.b2n (N.testbit b i)).
  - destruct (N.testbit b i); reflexivity.
  - rewrite N.testbit_spec'. change 1 with (N.ones 1) at 1.
    rewrite N.land_ones. rewrite N.shiftr_div_pow2. reflexivity.
Qed.

Lemma extract_bits_spec b i n :
  extract_bits b (N.of_nat i) n = map (fun k => N.testbit b (N.of_nat k)) (seq i n).
Proof.
  revert i; induction n as [|n IH]; intros i; [reflexivity|].
  cbn [extract_bits seq map]. rewrite land_shiftr_bit.
  replace (N.of_nat i + 1) with (N.of_nat (S i)) by lia.
  rewrite IH. reflexivity.
Qed.

Lemma extract_bits_firstn b n :
  (n <= 8)%nat -> extract_bits b 0 n = firstn n (bits8 b).
Proof.
  intros H. change 0 with (N.of_nat 0). rewrite extract_bits_spec.
  unfold bits8. rewrite firstn_map. f_equal.
  replace 8%nat with (n + (8 - n))%nat by lia. rewrite seq_app, firstn_app, seq_length.
  rewrite Nat.sub_diag, firstn_O, app_nil_r.
  rewrite firstn_all2 by (rewrite seq_length; lia). reflexivity.
Qed.

Lemma extract_all_bits_spec qty view values :
  (List.length values <= N.to_nat qty)%nat ->
  extract_all_bits qty view values
  = values ++ firstn (N.to_nat qty - List.length values) (unpack view).
Proof.
  revert values; induction view as [|b view IH]; intros values H.
  - cbn. rewrite firstn_nil. symmetry; apply app_nil_r.
  - cbn [extract_all_bits].
    set (n := num_bits_to_extract qty (size values)).
    assert (Hn : n = Nat.min 8 (N.to_nat qty - List.length values)).
    { unfold n, num_bits_to_extract, size_sub, size.
      destruct (_ <=? qty) eqn:E; [|lia]. destruct (8 <? _) eqn:E2; lia. }
    rewrite extract_bits_firstn by lia.
    assert (Hln : List.length (firstn n (bits8 b)) = n)
      by (rewrite firstn_length, bits8_length; lia).
    rewrite IH by (rewrite app_length, Hln; lia).
    rewrite app_length, Hln, <- app_assoc. f_equal.
    unfold unpack; cbn [flat_map]; fold (unpack view).
    rewrite firstn_app, bits8_length.
    destruct (Nat.le_ge_cases 8 (N.to_nat qty - List.length values)) as [L|L].
    + replace n with 8%nat by lia.
      rewrite (firstn_all2 (bits8 b) (n := 8)) by (rewrite bits8_length; lia).
      rewrite (firstn_all2 (bits8 b)) by (rewrite bits8_length; lia).
      f_equal. f_equal. lia.
    + replace n with (N.to_nat qty - List.length values)%nat by lia.
      f_equal. replace (_ - (_ + _))%nat with 0%nat by lia.
      replace (_ - _ - 8)%nat with 0%nat by lia. reflexivity.
Qed.

(** ** Big-endian integers *)
Lemma be16_join v : u16 v -> v / 256 * 256 + v mod 256 = v.
Proof. unfold u16. lia. Qed.

Lemma be16_split hi lo : u8 hi -> u8 lo -> be16 (hi * 256 + lo) = [hi; lo].
Proof. unfold u8, be16. intros. f_equal; [|f_equal]; lia. Qed.

Lemma be16_length v : List.length (be16 v) = 2%nat.
Proof. reflexivity. Qed.

Lemma be16_bytes v : u16 v -> bytes (be16 v).
Proof. unfold u16, be16; intros; repeat constructor; unfold u8; lia. Qed.

Lemma be16s_length vs : List.length (be16s vs) = (2 * List.length vs)%nat.
Proof.
  induction vs as [|v vs IH]; [reflexivity|].
  unfold be16s in *; cbn [flat_map]. rewrite app_length, IH. cbn [List.length be16]. lia.
Qed.

Lemma be16s_bytes vs : Forall u16 vs -> bytes (be16s vs).
Proof.
  induction 1; unfold be16s in *; cbn [flat_map]; [constructor|].
  apply Forall_app; split; [apply be16_bytes|]; assumption.
Qed.

Lemma extract_be16s vs : Forall u16 vs -> extract_registers (be16s vs) = vs.
Proof.
  induction 1 as [|v vs Hv Hvs IH]; [reflexivity|].
  unfold be16s in *; cbn [flat_map be16 app extract_registers].
  rewrite IH, be16_join by assumption. reflexivity.
Qed.

Lemma be16s_extract n d :
  bytes d -> List.length d = (2 * n)%nat -> be16s (extract_registers d) = d.
Proof.
  revert d; induction n as [|n IH]; intros d Hb Hl.
  - destruct d; [reflexivity|simpl in Hl; lia].
  - destruct d as [|hi [|lo d]]; simpl in Hl; try lia.
    inversion Hb as [|? ? Hhi Hb']; subst. inversion Hb' as [|? ? Hlo Hd]; subst.
    cbn [extract_registers]. unfold be16s in *; cbn [flat_map].
    rewrite be16_split by assumption. rewrite IH by (assumption || lia). reflexivity.
Qed.

Lemma extract_registers_length n d :
  List.length d = (2 * n)%nat -> List.length (extract_registers d) = n.
Proof.
  revert d; induction n as [|n IH]; intros d Hl.
  - destruct d; [reflexivity|simpl in Hl; lia].
  - destruct d as [|hi [|lo d]]; simpl in Hl; try lia.
    cbn [extract_registers List.length]. f_equal. apply IH; lia.
Qed.

Lemma extract_registers_u16 d : bytes d -> Forall u16 (extract_registers d).
Proof.
  enough (forall n d, (List.length d <= n)%nat -> bytes d -> Forall u16 (extract_registers d))
    by (intros; eapply H; [apply le_n|assumption]).
  clear d. induction n as [|n IH]; intros d Hl Hb.
  - destruct d; [constructor|simpl in Hl; lia].
  - destruct d as [|hi [|lo d]]; try constructor.
    + inversion Hb as [|? ? Hhi Hb']; subst. inversion Hb' as [|? ? Hlo Hd]; subst.
      unfold u8, u16 in *. lia.
    + apply IH; [simpl in Hl; lia|].
      inversion Hb as [|? ? Hhi Hb']; subst. inversion Hb'; assumption.
Qed.

(** ** Addresses attached to values *)
Lemma with_addresses_snd {A} a (vs : list A) : map snd (with_addresses a vs) = vs.
Proof. revert a; induction vs as [|v vs IH]; intros a; simpl; [reflexivity|]. rewrite IH; reflexivity. Qed.

Lemma with_addresses_length {A} a (vs : list A) : List.length (with_addresses a vs) = List.length vs.
Proof. rewrite <- (map_length snd), with_addresses_snd. reflexivity. Qed.

Lemma with_addresses_consecutive {A} a (vs : list A) :
  u16 a -> consecutive a (with_addresses a vs).
Proof.
  unfold consecutive. intros Ha i. revert a Ha vs.
  induction i as [|i IH]; intros a Ha [|v vs] H; simpl in H; try lia.
  - cbn. unfold u16 in Ha. rewrite N.add_0_r, N.mod_small; auto.
  - cbn [with_addresses map nth]. rewrite IH.
    + unfold to_u16. lia.
    + unfold u16, to_u16. lia.
    + lia.
Qed.

Lemma with_addresses_u16 {A} a (vs : list A) :
  u16 a -> Forall u16 (map fst (with_addresses a vs)).
Proof.
  revert a; induction vs as [|v vs IH]; intros a Ha; simpl; constructor; auto.
  apply IH. unfold u16, to_u16; lia.
Qed.

(** A list with consecutive addresses is determined by its values. *)
Lemma consecutive_unique {A} a (vs : list (N * A)) :
  u16 a -> consecutive a vs -> vs = with_addresses a (map snd vs).
Proof.
  revert a; induction vs as [|[x v] vs IH]; intros a Ha H; [reflexivity|].
  cbn [map snd with_addresses]. f_equal.
  - specialize (H 0%nat ltac:(simpl; lia)). cbn in H. unfold u16 in Ha. f_equal; lia.
  - apply IH; [unfold u16, to_u16; lia|].
    intros i Hi. specialize (H (S i) ltac:(simpl; lia)). cbn [map nth fst] in H.
    rewrite H. unfold to_u16. lia.
Qed.
