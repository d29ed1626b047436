(** The texts and the parsers agree, and say what is wrong. *)
From Verif Require Import Prelude Ser4 Messages SpecPdu ParseReqFacts ParseRespFacts CodecLemmas Texts SpecTexts.

(** ** The parsers *)

Lemma size_lt_1 {A} (x : A) l : (size (x :: l) <? 1) = false.
Proof. unfold size. cbn [List.length]. lia. Qed.

Lemma after_agrees {A} fc data (k : rseq -> outcome (expected A)) kt :
  (forall view, k view = Ret (Error EMalformedResponse) <-> exists t, kt view = Some t) ->
  (after_function_code fc data k = Ret (Error EMalformedResponse) <-> exists t, text_after_function_code fc data kt = Some t).
Proof.
  intros Hk. unfold after_function_code, parse_function_code, text_after_function_code.
  destruct data as [|c data]; [cbn; split; [eauto|reflexivity]|].
  rewrite size_lt_1. cbn [rd8 read_u8 obind].
  destruct (negb (N.land c 127 =? fc)); [cbn; split; [eauto|reflexivity]|].
  destruct (negb (N.land c 128 =? 0)); [|cbn [obind]; apply Hk].
  destruct (negb (size data =? 1)) eqn:E; [cbn; split; [eauto|reflexivity]|].
  destruct data as [|x [|y data]]; [discriminate| |unfold size in E; cbn [List.length] in E; lia].
  cbn. split; [discriminate|intros (t & H); discriminate].
Qed.

Lemma omap_malformed {A B} (f : A -> B) x :
  omap (emap f) x = Ret (Error EMalformedResponse) <-> x = Ret (Error EMalformedResponse).
Proof. destruct x as [[v|e]|]; cbn; split; congruence. Qed.

Ltac some_or_none := cbn; split; [eauto; try discriminate|try reflexivity; intros (? & ?); discriminate].

Lemma bits_agrees fc s q data :
  ReadBitsResponse_parse fc s q data = Ret (Error EMalformedResponse) <-> exists t, ReadBitsResponse_text fc q data = Some t.
Proof.
  apply after_agrees. intros [|n view]; [some_or_none|]. rewrite size_lt_1. cbn [rd8 read_u8].
  destruct (negb (size view =? n)); [some_or_none|]. destruct (negb (n =? byte_count_of_bits q)); some_or_none.
Qed.

Lemma registers_agrees fc s q data :
  ReadRegistersResponse_parse fc s q data = Ret (Error EMalformedResponse) <-> exists t, ReadRegistersResponse_text fc q data = Some t.
Proof.
  apply after_agrees. intros [|n view]; [some_or_none|]. rewrite size_lt_1. cbn [rd8 read_u8].
  destruct (negb (n mod 2 =? 0)); [some_or_none|]. destruct (negb (size view =? 2 * q)); some_or_none.
Qed.

Lemma size_4 {A} (view : list A) : size view = 4 -> exists a b c d, view = [a; b; c; d].
Proof.
  unfold size. intros H. assert (L : List.length view = 4%nat) by lia.
  destruct view as [|a [|b [|c [|d [|e view]]]]]; try discriminate. eauto.
Qed.

Lemma coil_agrees data :
  WriteSingleCoilResponse_parse data = Ret (Error EMalformedResponse) <-> exists t, WriteSingleCoilResponse_text data = Some t.
Proof.
  apply after_agrees. intros view. destruct (N.eq_dec (size view) 4) as [E|E].
  - rewrite E. destruct (size_4 _ E) as (a & b & hi & lo & ->). cbn [rd16 read_u16 negb N.eqb Pos.eqb].
    destruct (hi * 256 + lo =? Coil_ON); [some_or_none|]. destruct (hi * 256 + lo =? Coil_OFF); some_or_none.
  - replace (size view =? 4) with false by lia. cbn [negb]. split; [intros _|reflexivity].
    destruct view as [|a [|b [|c [|d [|e view]]]]]; eauto. contradiction E. reflexivity.
Qed.

Lemma write_agrees {A} fc data (k : rseq -> outcome (expected A)) :
  (forall a b c d, exists v, k [a; b; c; d] = Ret (Value v)) ->
  (after_function_code fc data (fun view => if negb (size view =? 4) then Ret (Error EMalformedResponse) else k view)
   = Ret (Error EMalformedResponse) <-> exists t, WriteResponse_text fc data = Some t).
Proof.
  intros Hk. apply after_agrees. intros view. destruct (negb (size view =? 4)) eqn:E; [some_or_none|].
  assert (E' : size view = 4) by lia. destruct (size_4 _ E') as (a & b & c & d & ->). destruct (Hk a b c d) as (v & ->). some_or_none.
Qed.

Lemma text_iff_malformed r data :
  response_parser r data = Ret (Error EMalformedResponse) <-> exists t, response_text r data = Some t.
Proof.
  destruct r as [s q|s q|s q|s q|a v|a v|s vs|s vs]; cbn [response_parser response_text]; rewrite omap_malformed;
    try apply bits_agrees; try apply registers_agrees; try apply coil_agrees;
    apply write_agrees; intros; eexists; reflexivity.
Qed.

(** ** What they say *)

Lemma after_says fc data kt t : fc < 128 -> bytes data ->
  (text_after_function_code fc data kt = Some t <->
   (data = [] /\ t = text_empty) \/
   (exists c d, data = c :: d /\ c <> fc /\ c <> fc + 128 /\ t = text_function_code) \/
   (exists d, data = fc + 128 :: d /\ List.length d <> 1%nat /\ t = text_exception) \/
   (exists d, data = fc :: d /\ kt d = Some t)).
Proof.
  intros Hfc Hb. destruct data as [|c d]; cbn [text_after_function_code].
  - split; [intros [= <-]; left; auto|]. intros [(_ & ->)|[(? & ? & [=] & _)|[(? & [=] & _)|(? & [=] & _)]]]. reflexivity.
  - inversion Hb as [|? ? Hc Hd]; subst. unfold u8 in Hc. rewrite land_127, land_128 by exact Hc.
    destruct (N.eq_dec c fc) as [->|N1]; [|destruct (N.eq_dec c (fc + 128)) as [->|N2]].
    + replace (fc mod 128 =? fc) with true by lia. replace (128 <=? fc) with false by lia. cbn [negb].
      split; [intros H; do 3 right; eauto|].
      intros [([=] & _)|[(? & ? & [= <- <-] & H & _)|[(? & [=] & _)|(? & [= <-] & H)]]]; [contradiction|lia|exact H].
    + replace ((fc + 128) mod 128 =? fc) with true by lia. replace (128 <=? fc + 128) with true by lia. cbn [negb]. unfold size.
      destruct (negb (N.of_nat (List.length d) =? 1)) eqn:E.
      * split; [intros [= <-]; right; right; left; exists d; repeat split; lia|].
        intros [(K & _)|[(c' & d' & K & _ & K' & _)|[(d' & K & K' & ->)|(d' & K & _)]]]; [discriminate| |reflexivity|];
          injection K as K1 K2; [congruence|lia].
      * split; [discriminate|].
        intros [(K & _)|[(c' & d' & K & _ & K' & _)|[(d' & K & K' & ->)|(d' & K & _)]]]; [discriminate| | |];
          injection K as K1; [congruence|subst d'; lia|lia].
    + replace (c mod 128 =? fc) with false by lia. cbn [negb].
      split; [intros [= <-]; right; left; exists c, d; auto|].
      intros [([=] & _)|[(? & ? & [= <- <-] & _ & H & ->)|[(? & [= -> <-] & H & ->)|(? & [= -> <-] & H)]]]; [reflexivity| |]; contradiction.
Qed.

Lemma odd_mod n : negb (n mod 2 =? 0) = N.odd n.
Proof.
  rewrite <- N.bit0_odd, N.bit0_eqb. assert (H := N.mod_lt n 2 ltac:(lia)).
  destruct (N.eqb_spec (n mod 2) 0), (N.eqb_spec (n mod 2) 1); cbn; lia.
Qed.

Lemma bits_says r q d t : reads_bits r q ->
  (match d with
   | [] => Some text_short
   | n :: view =>
       if negb (size view =? n) then Some text_header
       else if negb (n =? byte_count_of_bits q) then Some text_length
       else None
   end = Some t -> is_wrong r (spec_function_code r :: d) t).
Proof.
  intros Hr. destruct d as [|n d].
  - intros [= <-]. exact (wrong_short r q (or_introl Hr)).
  - destruct (negb (size d =? n)) eqn:E1; [intros [= <-]; apply (wrong_header r q n d Hr); unfold size in E1; lia|].
    destruct (negb (n =? byte_count_of_bits q)) eqn:E2; [|discriminate]. intros [= <-].
    assert (E : n = N.of_nat (List.length d)) by (unfold size in E1; lia). rewrite E.
    apply (wrong_length r q d Hr). intros K.
    assert (X := proj1 (bits_to_bytes_count q n)). rewrite E, Nat2N.id in X. specialize (X K). lia.
Qed.

Lemma registers_says r q d t : reads_registers r q ->
  (match d with
   | [] => Some text_short
   | n :: view =>
       if negb (n mod 2 =? 0) then Some text_even
       else if negb (size view =? 2 * q) then Some text_registers
       else None
   end = Some t -> is_wrong r (spec_function_code r :: d) t).
Proof.
  intros Hr. destruct d as [|n d].
  - intros [= <-]. exact (wrong_short r q (or_intror Hr)).
  - rewrite odd_mod. destruct (N.odd n) eqn:E1; [intros [= <-]; exact (wrong_even r q n d Hr E1)|].
    destruct (negb (size d =? 2 * q)) eqn:E2; [|discriminate]. intros [= <-].
    apply (wrong_registers r q n d Hr E1). unfold size in E2. lia.
Qed.

Lemma code_small r : spec_function_code r < 128.
Proof. destruct r; cbn; lia. Qed.

Lemma says_wrong r data t kt :
  (forall d, bytes d -> kt d = Some t -> is_wrong r (spec_function_code r :: d) t) -> bytes data ->
  text_after_function_code (spec_function_code r) data kt = Some t -> is_wrong r data t.
Proof.
  intros Hk Hb. rewrite (after_says _ _ _ _ (code_small r) Hb).
  intros [(-> & ->)|[(c & d & -> & N1 & N2 & ->)|[(d & -> & N1 & ->)|(d & -> & K)]]].
  - apply wrong_empty.
  - apply wrong_function; assumption.
  - apply wrong_exception; assumption.
  - inversion Hb; subst. apply Hk; assumption.
Qed.

Lemma write_says r d t : is_write r -> (if negb (size d =? 4) then Some text_size else None) = Some t ->
  is_wrong r (spec_function_code r :: d) t.
Proof.
  intros Hw. destruct (negb (size d =? 4)) eqn:E; [|discriminate]. intros [= <-]. apply wrong_size; [exact Hw|]. unfold size in E. lia.
Qed.

Lemma text_says r data t : bytes data -> response_text r data = Some t -> is_wrong r data t.
Proof.
  intros Hb. destruct r as [s q|s q|s q|s q|a v|a v|s vs|s vs]; cbn [response_text];
    match goal with |- _ -> is_wrong ?r _ _ => apply (says_wrong r); [|exact Hb] end;
    intros d Hd; try (apply write_says; exact I).
  - apply bits_says. exists s. auto.
  - apply bits_says. exists s. auto.
  - apply registers_says. exists s. auto.
  - apply registers_says. exists s. auto.
  - destruct (Nat.eq_dec (List.length d) 4) as [L|L].
    + destruct d as [|a1 [|a2 [|hi [|lo [|e d]]]]]; try discriminate. unfold Coil_ON, Coil_OFF.
      inversion Hd as [|? ? _ Hd1]; inversion Hd1 as [|? ? _ Hd2]; inversion Hd2 as [|? ? U1 Hd3]; inversion Hd3 as [|? ? U2 _]; subst.
      unfold u8 in U1, U2.
      destruct (N.eqb_spec (hi * 256 + lo) 65280) as [E1|E1]; [discriminate|].
      destruct (N.eqb_spec (hi * 256 + lo) 0) as [E2|E2]; [discriminate|]. intros [= <-].
      apply (wrong_state _ a1 a2 hi lo a v eq_refl); intros [= -> ->]; [apply E1|apply E2]; reflexivity.
    + intros K. assert (t = text_size) as ->.
      { destruct d as [|a1 [|a2 [|hi [|lo [|e d]]]]]; try (injection K as <-; reflexivity). contradiction L. reflexivity. }
      apply wrong_size; [exact I|exact L].
Qed.

Lemma wrong_says r data t : bytes data -> is_wrong r data t -> response_text r data = Some t.
Proof.
  intros Hb W.
  assert (K : forall kt, (forall d, data = spec_function_code r :: d -> kt d = Some t) ->
    text_after_function_code (spec_function_code r) data kt = Some t).
  { intros kt Hk. rewrite (after_says _ _ _ _ (code_small r) Hb). inversion W; subst; try (right; right; right; eexists; split; [reflexivity|apply Hk; reflexivity]).
    - left. auto.
    - right. left. eauto 8.
    - right. right. left. eauto. }
  assert (Z : forall d, data = spec_function_code r :: d ->
    match r with
    | ReadCoils _ q | ReadDiscreteInputs _ q =>
        match d with [] => Some text_short | n :: view =>
          if negb (size view =? n) then Some text_header else if negb (n =? byte_count_of_bits q) then Some text_length else None end
    | ReadHoldingRegisters _ q | ReadInputRegisters _ q =>
        match d with [] => Some text_short | n :: view =>
          if negb (n mod 2 =? 0) then Some text_even else if negb (size view =? 2 * q) then Some text_registers else None end
    | WriteSingleCoil _ _ =>
        match d with [_; _; hi; lo] =>
          let value := hi * 256 + lo in if value =? Coil_ON then None else if value =? Coil_OFF then None else Some text_state
        | _ => Some text_size end
    | _ => if negb (size d =? 4) then Some text_size else None
    end = Some t).
  { clear K. assert (F := code_small r).
    destruct W as [|c data N1 N2|data N1|q Hr|q n data Hr N1|q data Hr N1|q n data Hr N1|q n data Hr N1 N2|data Hr N1|a b hi lo s v Hr N1 N2];
      intros d Ed; try discriminate Ed.
    - injection Ed as E _. contradiction.
    - injection Ed as E _. lia.
    - injection Ed as <-. destruct Hr as [(s & [->| ->])|(s & [->| ->])]; reflexivity.
    - injection Ed as <-. destruct Hr as (s & [->| ->]); unfold size; replace (N.of_nat (List.length data) =? n) with false by lia; reflexivity.
    - injection Ed as <-. assert (X := proj2 (bits_to_bytes_count q (N.of_nat (List.length data)))). rewrite Nat2N.id in X.
      assert (N.of_nat (List.length data) <> byte_count_of_bits q) by (intros Y; exact (N1 (X Y))).
      destruct Hr as (s & [->| ->]); unfold size; rewrite N.eqb_refl; cbn [negb];
        replace (N.of_nat (List.length data) =? byte_count_of_bits q) with false by lia; reflexivity.
    - injection Ed as <-. destruct Hr as (s & [->| ->]); rewrite odd_mod, N1; reflexivity.
    - injection Ed as <-. destruct Hr as (s & [->| ->]); rewrite odd_mod, N1; unfold size;
        replace (N.of_nat (List.length data) =? 2 * q) with false by lia; reflexivity.
    - injection Ed as <-. destruct r; try contradiction;
        try (unfold size; replace (N.of_nat (List.length data) =? 4) with false by lia; reflexivity).
      destruct data as [|a1 [|a2 [|hi [|lo [|e d]]]]]; try reflexivity. contradiction N1. reflexivity.
    - injection Ed as <-. rewrite Hr. cbn zeta. rewrite Hr in Hb.
      inversion Hb as [|? ? _ Hd]; inversion Hd as [|? ? _ Hd1]; inversion Hd1 as [|? ? _ Hd2]; inversion Hd2 as [|? ? U1 Hd3]; inversion Hd3 as [|? ? U2 _]; subst.
      unfold u8 in U1, U2. unfold Coil_ON, Coil_OFF.
      destruct (N.eqb_spec (hi * 256 + lo) 65280) as [E1|E1]; [contradiction N1; f_equal; [lia|f_equal; lia]|].
      destruct (N.eqb_spec (hi * 256 + lo) 0) as [E2|E2]; [contradiction N2; f_equal; [lia|f_equal; lia]|]. reflexivity. }
  destruct r as [s q|s q|s q|s q|a v|a v|s vs|s vs]; cbn [response_text]; apply K; exact Z.
Qed.

Lemma text_iff_wrong r data t : bytes data -> (response_text r data = Some t <-> is_wrong r data t).
Proof. intros Hb. split; [apply text_says|apply wrong_says]; exact Hb. Qed.

Lemma even_text_misleads :
  ~ (forall r q fc n data, reads_registers r q -> bytes (fc :: n :: data) ->
     response_text r (fc :: n :: data) = Some "Response should contain an even number of register bytes."%string ->
     Nat.odd (List.length data) = true).
Proof.
  intros H. specialize (H (ReadHoldingRegisters 0 2) 2 3 5 [0; 1; 0; 2]).
  discriminate H; [eexists; left; reflexivity|repeat constructor|reflexivity].
Qed.
