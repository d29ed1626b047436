(** Proofs about the server-side request parsers: exact classification. *)
From Verif Require Import Tac Ser4 Messages SpecPdu BitFacts BuildFacts.

Lemma size_is_length {A} (l : list A) n : size l = N.of_nat n -> List.length l = n.
Proof. unfold size. lia. Qed.

Lemma five_bytes data :
  bytes data -> size data = 5 ->
  exists f a b, u8 f /\ u16 a /\ u16 b /\ data = [f] ++ be16 a ++ be16 b.
Proof.
  intros Hb Hs. apply (size_is_length _ 5) in Hs.
  destruct data as [|f [|a1 [|a0 [|b1 [|b0 [|]]]]]]; try discriminate.
  repeat match goal with H : bytes (_ :: _) |- _ => apply Forall_cons_iff in H; destruct H
                    | H : Forall _ (_ :: _) |- _ => apply Forall_cons_iff in H; destruct H end.
  exists f, (a1 * 256 + a0), (b1 * 256 + b0).
  rewrite !be16_split by assumption.
  unfold u8, u16 in *. repeat split; lia.
Qed.

Lemma six_bytes data :
  bytes data -> 6 <= size data ->
  exists f a b c d, u8 f /\ u16 a /\ u16 b /\ u8 c /\ bytes d /\
    data = [f] ++ be16 a ++ be16 b ++ [c] ++ d.
Proof.
  intros Hb Hs. unfold size in Hs.
  destruct data as [|f [|a1 [|a0 [|b1 [|b0 [|c d]]]]]]; try (cbn [List.length] in Hs; lia).
  repeat match goal with H : bytes (_ :: _) |- _ => apply Forall_cons_iff in H; destruct H
                    | H : Forall _ (_ :: _) |- _ => apply Forall_cons_iff in H; destruct H end.
  exists f, (a1 * 256 + a0), (b1 * 256 + b0), c, d.
  rewrite !be16_split by assumption.
  unfold u8, u16 in *. repeat split; try lia. assumption.
Qed.

Lemma size_five f a b : size ([f] ++ be16 a ++ be16 b) = 5.
Proof. reflexivity. Qed.

Lemma size_six f a b c d : size ([f] ++ be16 a ++ be16 b ++ [c] ++ d) = 6 + size d.
Proof. rewrite !size_app. reflexivity || (unfold size; simpl; lia). Qed.

Lemma rd_three {A} f a b rest (k : N -> N -> N -> rseq -> outcome A) :
  u16 a -> u16 b ->
  rd8 ([f] ++ be16 a ++ be16 b ++ rest)
    (fun x v => rd16 v (fun y v => rd16 v (fun z v => k x y z v)))
  = k f a b rest.
Proof.
  intros Ha Hb. cbn [app be16 rd8 read_u8 rd16 read_u16].
  rewrite !be16_join by assumption. reflexivity.
Qed.

(** [rd8] then a test then two [rd16], as in every request parser. *)
Lemma rd_request {A} (test : N -> bool) (bad : outcome A) f a b rest
    (k : N -> N -> rseq -> outcome A) :
  u16 a -> u16 b ->
  rd8 ([f] ++ be16 a ++ be16 b ++ rest)
    (fun x v => if test x then bad else rd16 v (fun y v => rd16 v (fun z v => k y z v)))
  = if test f then bad else k a b rest.
Proof.
  intros Ha Hb. cbn [app be16 rd8 read_u8 rd16 read_u16].
  rewrite !be16_join by assumption. reflexivity.
Qed.

(** ** Function codes 01 to 04 *)
Definition read_request_parse (max fc : N) (data : rseq) : outcome (expected (N * N)) :=
  if negb (size data =? 5) then Ret (Error EMalformedRequest)
  else
    rd8 data (fun read_fc view =>
    if negb (read_fc =? fc) then Ret (Error EMalformedRequest)
    else
      rd16 view (fun start view =>
      rd16 view (fun qty view =>
      if (qty <? 1) || (max <? qty) then Ret (Error (EModbus IllegalDataValue))
      else Ret (Value (start, qty))))).

Lemma read_request_parse_on max fc f s q :
  u16 s -> u16 q ->
  read_request_parse max fc ([f] ++ be16 s ++ be16 q)
  = if negb (f =? fc) then Ret (Error EMalformedRequest)
    else if (q <? 1) || (max <? q) then Ret (Error (EModbus IllegalDataValue))
    else Ret (Value (s, q)).
Proof.
  intros Hs Hq. unfold read_request_parse. rewrite size_five. cbn [N.eqb Pos.eqb negb].
  rewrite <- (app_nil_r (be16 q)).
  exact (rd_request (fun x => negb (x =? fc)) (Ret (Error EMalformedRequest)) f s q []
    (fun s q _ => if (q <? 1) || (max <? q) then Ret (Error (EModbus IllegalDataValue))
                  else Ret (Value (s, q))) Hs Hq).
Qed.

Lemma read_request_parse_short max fc data :
  size data <> 5 -> read_request_parse max fc data = Ret (Error EMalformedRequest).
Proof.
  intros H. unfold read_request_parse. replace (size data =? 5) with false by lia. reflexivity.
Qed.

Lemma WriteSingleCoilRequest_parse_on f a v :
  u16 a -> u16 v ->
  WriteSingleCoilRequest_parse ([f] ++ be16 a ++ be16 v)
  = if negb (f =? 5) then Ret (Error EMalformedRequest)
    else if v =? Coil_ON then Ret (Value (a, true))
    else if v =? Coil_OFF then Ret (Value (a, false))
    else Ret (Error (EModbus IllegalDataValue)).
Proof.
  intros Ha Hv. unfold WriteSingleCoilRequest_parse. rewrite size_five. cbn [N.eqb Pos.eqb negb].
  rewrite <- (app_nil_r (be16 v)).
  exact (rd_request (fun x => negb (x =? 5)) (Ret (Error EMalformedRequest)) f a v []
    (fun a v _ => if v =? Coil_ON then Ret (Value (a, true))
    else if v =? Coil_OFF then Ret (Value (a, false))
    else Ret (Error (EModbus IllegalDataValue))) Ha Hv).
Qed.

Lemma WriteSingleRegisterRequest_parse_on f a v :
  u16 a -> u16 v ->
  WriteSingleRegisterRequest_parse ([f] ++ be16 a ++ be16 v)
  = if negb (f =? 6) then Ret (Error EMalformedRequest) else Ret (Value (a, v)).
Proof.
  intros Ha Hv. unfold WriteSingleRegisterRequest_parse. rewrite size_five. cbn [N.eqb Pos.eqb negb].
  rewrite <- (app_nil_r (be16 v)).
  exact (rd_request (fun x => negb (x =? 6)) (Ret (Error EMalformedRequest)) f a v []
    (fun a v _ => Ret (Value (a, v))) Ha Hv).
Qed.

Lemma WriteMultipleCoilsRequest_parse_on f s q c d :
  u16 s -> u16 q ->
  WriteMultipleCoilsRequest_parse ([f] ++ be16 s ++ be16 q ++ [c] ++ d)
  = if negb (f =? 15) then Ret (Error EMalformedRequest)
    else if (q <? 1) || (WriteMultipleCoils_max <? q) then Ret (Error (EModbus IllegalDataValue))
    else if negb (byte_count_of_bits q =? c) then Ret (Error (EModbus IllegalDataValue))
    else if negb (c =? size d) then Ret (Error EMalformedRequest)
    else Ret (Value (s, firstn (N.to_nat q) (unpack d))).
Proof.
  intros Hs Hq. unfold WriteMultipleCoilsRequest_parse. rewrite size_six.
  replace (6 + size d <? 6) with false by lia.
  rewrite (rd_request (fun x => negb (x =? 15)) (Ret (Error EMalformedRequest)) f s q ([c] ++ d)
    (fun start qty view =>
      if (qty <? 1) || (WriteMultipleCoils_max <? qty) then Ret (Error (EModbus IllegalDataValue))
      else
        rd8 view (fun byte_count view =>
        if negb (byte_count_of_bits qty =? byte_count) then Ret (Error (EModbus IllegalDataValue))
        else if negb (byte_count =? size view) then Ret (Error EMalformedRequest)
        else Ret (Value (start, extract_all_bits qty view [])))) Hs Hq).
  cbn [app rd8 read_u8].
  rewrite extract_all_bits_spec by (simpl; lia).
  cbn [app List.length]. rewrite Nat.sub_0_r. reflexivity.
Qed.

Lemma WriteMultipleRegistersRequest_parse_on f s q c d :
  u16 s -> u16 q ->
  WriteMultipleRegistersRequest_parse ([f] ++ be16 s ++ be16 q ++ [c] ++ d)
  = if negb (f =? 16) then Ret (Error EMalformedRequest)
    else if (q <? 1) || (WriteMultipleRegisters_max <? q) then Ret (Error (EModbus IllegalDataValue))
    else if negb (2 * q =? c) then Ret (Error (EModbus IllegalDataValue))
    else if negb (c =? size d) then Ret (Error EMalformedRequest)
    else Ret (Value (s, extract_registers d)).
Proof.
  intros Hs Hq. unfold WriteMultipleRegistersRequest_parse. rewrite size_six.
  replace (6 + size d <? 6) with false by lia.
  rewrite (rd_request (fun x => negb (x =? 16)) (Ret (Error EMalformedRequest)) f s q ([c] ++ d)
    (fun start qty view =>
      if (qty <? 1) || (WriteMultipleRegisters_max <? qty) then Ret (Error (EModbus IllegalDataValue))
      else
        rd8 view (fun byte_count view =>
        if negb (2 * qty =? byte_count) then Ret (Error (EModbus IllegalDataValue))
        else if negb (byte_count =? size view) then Ret (Error EMalformedRequest)
        else Ret (Value (start, extract_registers view)))) Hs Hq).
  reflexivity.
Qed.

(** ** (A) the PDU of a legal request is parsed to that request *)
Lemma size_u16_coils (vs : list bool) : 1 <= size vs <= 1968 -> u16 (size vs).
Proof. unfold u16; lia. Qed.

Lemma parse_legal r data :
  legal_request r -> request_pdu_any_padding r data ->
  exists p, request_parser (spec_function_code r) = Some p /\ p data = Ret (Value r).
Proof.
  intros [Ht Hq] Hp.
  destruct r; cbn [typed_request quantity_in_range spec_function_code request_pdu_any_padding request_pdu_with] in *;
    (eexists; split; [reflexivity|]); cbn beta.
  - destruct Ht. subst data.
    change (ReadBitsRequest_parse 1) with (read_request_parse ReadBits_max 1).
    rewrite read_request_parse_on by assumption. cbn [N.eqb Pos.eqb negb].
    replace ((qty <? 1) || (ReadBits_max <? qty)) with false by (unfold ReadBits_max; lia).
    reflexivity.
  - destruct Ht. subst data.
    change (ReadBitsRequest_parse 2) with (read_request_parse ReadBits_max 2).
    rewrite read_request_parse_on by assumption. cbn [N.eqb Pos.eqb negb].
    replace ((qty <? 1) || (ReadBits_max <? qty)) with false by (unfold ReadBits_max; lia).
    reflexivity.
  - destruct Ht. subst data.
    change (ReadRegistersRequest_parse 3) with (read_request_parse ReadRegisters_max 3).
    rewrite read_request_parse_on by assumption. cbn [N.eqb Pos.eqb negb].
    replace ((qty <? 1) || (ReadRegisters_max <? qty)) with false by (unfold ReadRegisters_max; lia).
    reflexivity.
  - destruct Ht. subst data.
    change (ReadRegistersRequest_parse 4) with (read_request_parse ReadRegisters_max 4).
    rewrite read_request_parse_on by assumption. cbn [N.eqb Pos.eqb negb].
    replace ((qty <? 1) || (ReadRegisters_max <? qty)) with false by (unfold ReadRegisters_max; lia).
    reflexivity.
  - subst data. rewrite WriteSingleCoilRequest_parse_on by (try apply coil_word_u16; assumption).
    destruct value; reflexivity.
  - destruct Ht. subst data. rewrite WriteSingleRegisterRequest_parse_on by assumption. reflexivity.
  - destruct Hp as (d & Hd & ->).
    rewrite WriteMultipleCoilsRequest_parse_on by (try apply size_u16_coils; assumption).
    cbn [N.eqb Pos.eqb negb].
    replace ((size values <? 1) || (WriteMultipleCoils_max <? size values)) with false
      by (unfold WriteMultipleCoils_max; lia).
    apply bit_field_unpack in Hd. destruct Hd as [Hl Hv].
    assert (Hsd : size d = byte_count_of_bits (size values))
      by (unfold size; rewrite byte_count_bytes_for, Hl; reflexivity).
    rewrite Hsd, !N.eqb_refl. cbn [negb].
    unfold size. rewrite Nat2N.id, Hv. reflexivity.
  - destruct Ht as [Hs Hv]. subst data.
    rewrite WriteMultipleRegistersRequest_parse_on by (try assumption; unfold u16; lia).
    cbn [N.eqb Pos.eqb negb].
    replace ((size values <? 1) || (WriteMultipleRegisters_max <? size values)) with false
      by (unfold WriteMultipleRegisters_max; lia).
    assert (Hsd : size (be16s values) = 2 * size values)
      by (unfold size; rewrite be16s_length; lia).
    rewrite Hsd, !N.eqb_refl. cbn [negb].
    rewrite extract_be16s by exact Hv. reflexivity.
Qed.

(** ** (B) illegal values *)
Lemma bits_to_bytes_count q c :
  N.to_nat c = bits_to_bytes (N.to_nat q) <-> c = byte_count_of_bits q.
Proof.
  rewrite <- (N2Nat.id q) at 2. rewrite byte_count_bytes_for.
  change bits_to_bytes with bytes_for. lia.
Qed.

Lemma parse_illegal fc data p :
  request_parser fc = Some p -> illegal_value_pdu fc data ->
  p data = Ret (Error (EModbus IllegalDataValue)).
Proof.
  intros Hp H.
  destruct H as [[Hfc (s & q & Hs & Hq & Hr & ->)]
                |[[Hfc (s & q & Hs & Hq & Hr & ->)]
                |[[-> (a & v & Ha & Hv & H1 & H0 & ->)]
                |[[-> (s & q & c & d & Hs & Hq & Hc & Hr & ->)]
                 |[-> (s & q & c & d & Hs & Hq & Hc & Hr & ->)]]]]].
  - destruct Hfc as [<-|[<-|[]]]; inversion Hp; subst p; cbn beta.
    + change (ReadBitsRequest_parse 1) with (read_request_parse ReadBits_max 1).
      rewrite read_request_parse_on by assumption. cbn [N.eqb Pos.eqb negb].
      replace ((q <? 1) || (ReadBits_max <? q)) with true by (unfold ReadBits_max; lia).
      reflexivity.
    + change (ReadBitsRequest_parse 2) with (read_request_parse ReadBits_max 2).
      rewrite read_request_parse_on by assumption. cbn [N.eqb Pos.eqb negb].
      replace ((q <? 1) || (ReadBits_max <? q)) with true by (unfold ReadBits_max; lia).
      reflexivity.
  - destruct Hfc as [<-|[<-|[]]]; inversion Hp; subst p; cbn beta.
    + change (ReadRegistersRequest_parse 3) with (read_request_parse ReadRegisters_max 3).
      rewrite read_request_parse_on by assumption. cbn [N.eqb Pos.eqb negb].
      replace ((q <? 1) || (ReadRegisters_max <? q)) with true by (unfold ReadRegisters_max; lia).
      reflexivity.
    + change (ReadRegistersRequest_parse 4) with (read_request_parse ReadRegisters_max 4).
      rewrite read_request_parse_on by assumption. cbn [N.eqb Pos.eqb negb].
      replace ((q <? 1) || (ReadRegisters_max <? q)) with true by (unfold ReadRegisters_max; lia).
      reflexivity.
  - inversion Hp; subst p; cbn beta. rewrite WriteSingleCoilRequest_parse_on by assumption.
    cbn [N.eqb Pos.eqb negb]. unfold Coil_ON, Coil_OFF.
    replace (v =? 65280) with false by lia. replace (v =? 0) with false by lia. reflexivity.
  - inversion Hp; subst p; cbn beta. rewrite WriteMultipleCoilsRequest_parse_on by assumption.
    cbn [N.eqb Pos.eqb negb]. unfold WriteMultipleCoils_max.
    destruct ((q <? 1) || (1968 <? q)) eqn:E; [reflexivity|].
    destruct Hr as [Hr|Hr]; [lia|]. rewrite bits_to_bytes_count in Hr.
    replace (byte_count_of_bits q =? c) with false by lia. reflexivity.
  - inversion Hp; subst p; cbn beta. rewrite WriteMultipleRegistersRequest_parse_on by assumption.
    cbn [N.eqb Pos.eqb negb]. unfold WriteMultipleRegisters_max.
    destruct ((q <? 1) || (123 <? q)) eqn:E; [reflexivity|].
    destruct Hr as [Hr|Hr]; [lia|].
    replace (2 * q =? c) with false by lia. reflexivity.
Qed.

(** ** (C) every outcome is one of the three *)
Definition request_outcomes (fc : N) (data : rseq) (res : outcome (expected request)) : Prop :=
  (exists r, legal_request r /\ spec_function_code r = fc /\
             request_pdu_any_padding r data /\ res = Ret (Value r))
  \/ (illegal_value_pdu fc data /\ res = Ret (Error (EModbus IllegalDataValue)))
  \/ res = Ret (Error EMalformedRequest).

Lemma read_request_cases max fc data :
  bytes data ->
  (exists s q, u16 s /\ u16 q /\ 1 <= q <= max /\ data = [fc] ++ be16 s ++ be16 q /\
      read_request_parse max fc data = Ret (Value (s, q)))
  \/ (exists s q, u16 s /\ u16 q /\ ~ 1 <= q <= max /\ data = [fc] ++ be16 s ++ be16 q /\
      read_request_parse max fc data = Ret (Error (EModbus IllegalDataValue)))
  \/ read_request_parse max fc data = Ret (Error EMalformedRequest).
Proof.
  intros Hb. destruct (N.eq_dec (size data) 5) as [H5|H5].
  2:{ right; right. apply read_request_parse_short; exact H5. }
  destruct (five_bytes data Hb H5) as (f & s & q & Hf & Hs & Hq & ->).
  rewrite read_request_parse_on by assumption.
  destruct (f =? fc) eqn:E; cbn [negb]; [|right; right; reflexivity].
  apply N.eqb_eq in E; subst f.
  destruct ((q <? 1) || (max <? q)) eqn:E2.
  - right; left. exists s, q. repeat split; try assumption; lia.
  - left. exists s, q. repeat split; try assumption; lia.
Qed.

Lemma parse_outcomes fc data p :
  request_parser fc = Some p -> bytes data -> request_outcomes fc data (p data).
Proof.
  intros Hp Hb.
  assert (Hfc : supported fc).
  { unfold request_parser in Hp. unfold supported.
    destruct fc as [|fc]; [discriminate|].
    do 5 (destruct fc as [fc|fc|]; try discriminate; try (simpl; tauto)). }
  unfold supported in Hfc. cbn [In] in Hfc.
  destruct Hfc as [<-|[<-|[<-|[<-|[<-|[<-|[<-|[<-|[]]]]]]]]]; inversion Hp; subst p; clear Hp; cbn beta.
  - change (ReadBitsRequest_parse 1) with (read_request_parse ReadBits_max 1).
    destruct (read_request_cases ReadBits_max 1 data Hb)
      as [(s & q & Hs & Hq & Hr & Hd & ->)|[(s & q & Hs & Hq & Hr & Hd & ->)| -> ]].
    + left. exists (ReadCoils s q). repeat split; try assumption; unfold ReadBits_max in Hr; lia.
    + right; left. split; [|reflexivity]. left. split; [simpl; tauto|]. exists s, q. auto.
    + right; right; reflexivity.
  - change (ReadBitsRequest_parse 2) with (read_request_parse ReadBits_max 2).
    destruct (read_request_cases ReadBits_max 2 data Hb)
      as [(s & q & Hs & Hq & Hr & Hd & ->)|[(s & q & Hs & Hq & Hr & Hd & ->)| -> ]].
    + left. exists (ReadDiscreteInputs s q). repeat split; try assumption; unfold ReadBits_max in Hr; lia.
    + right; left. split; [|reflexivity]. left. split; [simpl; tauto|]. exists s, q. auto.
    + right; right; reflexivity.
  - change (ReadRegistersRequest_parse 3) with (read_request_parse ReadRegisters_max 3).
    destruct (read_request_cases ReadRegisters_max 3 data Hb)
      as [(s & q & Hs & Hq & Hr & Hd & ->)|[(s & q & Hs & Hq & Hr & Hd & ->)| -> ]].
    + left. exists (ReadHoldingRegisters s q). repeat split; try assumption; unfold ReadRegisters_max in Hr; lia.
    + right; left. split; [|reflexivity]. right; left. split; [simpl; tauto|]. exists s, q. auto.
    + right; right; reflexivity.
  - change (ReadRegistersRequest_parse 4) with (read_request_parse ReadRegisters_max 4).
    destruct (read_request_cases ReadRegisters_max 4 data Hb)
      as [(s & q & Hs & Hq & Hr & Hd & ->)|[(s & q & Hs & Hq & Hr & Hd & ->)| -> ]].
    + left. exists (ReadInputRegisters s q). repeat split; try assumption; unfold ReadRegisters_max in Hr; lia.
    + right; left. split; [|reflexivity]. right; left. split; [simpl; tauto|]. exists s, q. auto.
    + right; right; reflexivity.
  - destruct (N.eq_dec (size data) 5) as [H5|H5].
    2:{ right; right. unfold WriteSingleCoilRequest_parse.
        replace (size data =? 5) with false by lia. reflexivity. }
    destruct (five_bytes data Hb H5) as (f & a & v & Hf & Ha & Hv & ->).
    rewrite WriteSingleCoilRequest_parse_on by assumption.
    destruct (f =? 5) eqn:E; cbn [negb]; [|right; right; reflexivity].
    apply N.eqb_eq in E; subst f. unfold Coil_ON, Coil_OFF.
    destruct (v =? 65280) eqn:E1; [|destruct (v =? 0) eqn:E2].
    + apply N.eqb_eq in E1; subst v. left. exists (WriteSingleCoil a true).
      repeat split; assumption.
    + apply N.eqb_eq in E2; subst v. left. exists (WriteSingleCoil a false).
      repeat split; assumption.
    + right; left. split; [|reflexivity]. right; right; left. split; [reflexivity|].
      exists a, v. repeat split; try assumption; lia.
  - destruct (N.eq_dec (size data) 5) as [H5|H5].
    2:{ right; right. unfold WriteSingleRegisterRequest_parse.
        replace (size data =? 5) with false by lia. reflexivity. }
    destruct (five_bytes data Hb H5) as (f & a & v & Hf & Ha & Hv & ->).
    rewrite WriteSingleRegisterRequest_parse_on by assumption.
    destruct (f =? 6) eqn:E; cbn [negb]; [|right; right; reflexivity].
    apply N.eqb_eq in E; subst f. left. exists (WriteSingleRegister a v).
    repeat split; assumption.
  - destruct (N.lt_ge_cases (size data) 6) as [H6|H6].
    { right; right. unfold WriteMultipleCoilsRequest_parse.
      replace (size data <? 6) with true by lia. reflexivity. }
    destruct (six_bytes data Hb H6) as (f & s & q & c & d & Hf & Hs & Hq & Hc & Hd & ->).
    rewrite WriteMultipleCoilsRequest_parse_on by assumption.
    destruct (f =? 15) eqn:E; cbn [negb]; [|right; right; reflexivity].
    apply N.eqb_eq in E; subst f. unfold WriteMultipleCoils_max.
    destruct ((q <? 1) || (1968 <? q)) eqn:E1.
    { right; left. split; [|reflexivity]. right; right; right; left. split; [reflexivity|].
      exists s, q, c, d. repeat split; try assumption. left; lia. }
    destruct (byte_count_of_bits q =? c) eqn:E2; cbn [negb].
    2:{ right; left. split; [|reflexivity]. right; right; right; left. split; [reflexivity|].
        exists s, q, c, d. repeat split; try assumption. right.
        rewrite bits_to_bytes_count. lia. }
    destruct (c =? size d) eqn:E3; cbn [negb]; [|right; right; reflexivity].
    left. exists (WriteMultipleCoils s (firstn (N.to_nat q) (unpack d))).
    apply N.eqb_eq in E2, E3.
    assert (Hl : List.length d = bytes_for (N.to_nat q)).
    { rewrite <- (N2Nat.id q), byte_count_bytes_for in E2. unfold size in E3. lia. }
    assert (Hlen : List.length (firstn (N.to_nat q) (unpack d)) = N.to_nat q).
    { rewrite firstn_length, unpack_length, Hl. unfold bytes_for. lia. }
    assert (Hsz : size (firstn (N.to_nat q) (unpack d)) = q) by (unfold size; lia).
    cbn [legal_request typed_request quantity_in_range spec_function_code
         request_pdu_any_padding request_pdu_with].
    split; [split; [exact Hs|cbn; rewrite Hsz; lia]|].
    split; [reflexivity|]. split; [|reflexivity].
    exists d. rewrite Hsz. split; [|rewrite <- E3; reflexivity].
    apply bit_field_unpack. rewrite Hlen. split; [exact Hl|reflexivity].
  - destruct (N.lt_ge_cases (size data) 6) as [H6|H6].
    { right; right. unfold WriteMultipleRegistersRequest_parse.
      replace (size data <? 6) with true by lia. reflexivity. }
    destruct (six_bytes data Hb H6) as (f & s & q & c & d & Hf & Hs & Hq & Hc & Hd & ->).
    rewrite WriteMultipleRegistersRequest_parse_on by assumption.
    destruct (f =? 16) eqn:E; cbn [negb]; [|right; right; reflexivity].
    apply N.eqb_eq in E; subst f. unfold WriteMultipleRegisters_max.
    destruct ((q <? 1) || (123 <? q)) eqn:E1.
    { right; left. split; [|reflexivity]. right; right; right; right. split; [reflexivity|].
      exists s, q, c, d. repeat split; try assumption. left; lia. }
    destruct (2 * q =? c) eqn:E2; cbn [negb].
    2:{ right; left. split; [|reflexivity]. right; right; right; right. split; [reflexivity|].
        exists s, q, c, d. repeat split; try assumption. right. lia. }
    destruct (c =? size d) eqn:E3; cbn [negb]; [|right; right; reflexivity].
    left. exists (WriteMultipleRegisters s (extract_registers d)).
    apply N.eqb_eq in E2, E3.
    assert (Hl : List.length d = (2 * N.to_nat q)%nat) by (unfold size in E3; lia).
    assert (Hsz : size (extract_registers d) = q)
      by (unfold size; rewrite (extract_registers_length (N.to_nat q)) by exact Hl; lia).
    cbn [legal_request typed_request quantity_in_range spec_function_code
         request_pdu_any_padding request_pdu_with].
    split; [split; [split; [exact Hs|apply extract_registers_u16; exact Hd]|cbn; rewrite Hsz; lia]|].
    split; [reflexivity|]. split; [|reflexivity].
    rewrite Hsz. rewrite (be16s_extract (N.to_nat q)) by assumption. rewrite E2. reflexivity.
Qed.

(** ** The classification as equivalences *)
Lemma request_parser_supported fc : (exists p, request_parser fc = Some p) <-> supported fc.
Proof.
  split.
  - intros [p Hp]. unfold request_parser in Hp. unfold supported.
    destruct fc as [|fc]; [discriminate|].
    do 5 (destruct fc as [fc|fc|]; try discriminate; try (simpl; tauto)).
  - unfold supported. cbn [In].
    intros [<-|[<-|[<-|[<-|[<-|[<-|[<-|[<-|[]]]]]]]]]; eexists; reflexivity.
Qed.

Lemma spec_function_code_supported r : supported (spec_function_code r).
Proof. destruct r; unfold supported; simpl; tauto. Qed.

Lemma parse_accepts_iff fc p data r :
  request_parser fc = Some p -> bytes data ->
  (p data = Ret (Value r) <->
   legal_request r /\ spec_function_code r = fc /\ request_pdu_any_padding r data).
Proof.
  intros Hp Hb. split.
  - intros H. destruct (parse_outcomes fc data p Hp Hb) as [(r' & H1 & H2 & H3 & H4)|[[_ H4]|H4]];
      rewrite H in H4; inversion H4; subst; auto.
  - intros (Hl & Hf & Hd). destruct (parse_legal r data Hl Hd) as (p' & Hp' & Hr).
    rewrite Hf, Hp in Hp'. inversion Hp'; subst; exact Hr.
Qed.

Lemma parse_illegal_iff fc p data :
  request_parser fc = Some p -> bytes data ->
  (p data = Ret (Error (EModbus IllegalDataValue)) <-> illegal_value_pdu fc data).
Proof.
  intros Hp Hb. split.
  - intros H. destruct (parse_outcomes fc data p Hp Hb) as [(r' & H1 & H2 & H3 & H4)|[[H5 H4]|H4]];
      rewrite H in H4; try discriminate. exact H5.
  - apply parse_illegal; exact Hp.
Qed.

Lemma parse_malformed_iff fc p data :
  request_parser fc = Some p -> bytes data ->
  (p data = Ret (Error EMalformedRequest) <->
   ~ illegal_value_pdu fc data /\
   forall r, legal_request r -> spec_function_code r = fc -> ~ request_pdu_any_padding r data).
Proof.
  intros Hp Hb. split.
  - intros H. split.
    + intros Hi. apply (parse_illegal _ _ _ Hp) in Hi. congruence.
    + intros r Hl Hf Hd. assert (H' : p data = Ret (Value r)) by (apply (parse_accepts_iff fc); auto).
      congruence.
  - intros [Hi Hl]. destruct (parse_outcomes fc data p Hp Hb) as [(r' & H1 & H2 & H3 & H4)|[[H5 H4]|H4]].
    + destruct (Hl r' H1 H2 H3).
    + contradiction.
    + exact H4.
Qed.

Lemma request_pdu_padding r d : request_pdu r d -> request_pdu_any_padding r d.
Proof.
  destruct r; cbn; auto. intros (x & Hx & ->). exists x. split; [|reflexivity].
  apply field0_field; exact Hx.
Qed.

Lemma request_round_trip r cap :
  legal_request r -> (253 <= cap)%nat ->
  exists p, request_parser (spec_function_code r) = Some p /\
            p (build_into cap (request_message r)) = Ret (Value r).
Proof.
  intros Hl Hc.
  pose proof (request_length_bound r Hl) as Hb.
  unfold build_into. rewrite build_request; [|exact Hl|].
  - cbn [wapp w_out wseq_new app]. apply parse_legal; [exact Hl|].
    apply request_pdu_padding, enc_request_pdu.
  - cbn. lia.
Qed.

Lemma parse_no_ub fc p data : request_parser fc = Some p -> p data <> UB.
Proof.
  intros Hp.
  assert (Hfc : supported fc) by (apply request_parser_supported; eauto).
  assert (H5 : forall x : rseq, size x = 5 -> exists a b c d e, x = [a; b; c; d; e]).
  { intros x Hx. apply (size_is_length _ 5) in Hx.
    destruct x as [|a [|b [|c [|d [|e [|]]]]]]; try discriminate. repeat eexists. }
  assert (H6 : forall x : rseq, 6 <= size x -> exists a b c d e f y, x = a :: b :: c :: d :: e :: f :: y).
  { intros x Hx. unfold size in Hx.
    destruct x as [|a [|b [|c [|d [|e [|f y]]]]]]; try (cbn [List.length] in Hx; lia). repeat eexists. }
  assert (HR : forall m f, read_request_parse m f data <> UB).
  { intros m f. unfold read_request_parse. destruct (size data =? 5) eqn:E; [|discriminate].
    apply N.eqb_eq in E. destruct (H5 _ E) as (a & b & c & d & e & ->).
    cbn [negb rd8 read_u8 rd16 read_u16].
    destruct (negb _); [discriminate|]. destruct (_ || _); discriminate. }
  assert (HM : forall A B (f : A -> B) x, x <> UB -> omap (emap f) x <> UB).
  { intros A B f [x|] H; [discriminate|contradiction]. }
  unfold supported in Hfc. cbn [In] in Hfc.
  destruct Hfc as [<-|[<-|[<-|[<-|[<-|[<-|[<-|[<-|[]]]]]]]]]; inversion Hp; subst p; clear Hp; cbn beta;
    apply HM.
  - apply (HR ReadBits_max 1).
  - apply (HR ReadBits_max 2).
  - apply (HR ReadRegisters_max 3).
  - apply (HR ReadRegisters_max 4).
  - unfold WriteSingleCoilRequest_parse. destruct (size data =? 5) eqn:E; [|discriminate].
    apply N.eqb_eq in E. destruct (H5 _ E) as (a & b & c & d & e & ->).
    cbn [negb rd8 read_u8 rd16 read_u16].
    destruct (negb _); [discriminate|]. destruct (_ =? _); [discriminate|]. destruct (_ =? _); discriminate.
  - unfold WriteSingleRegisterRequest_parse. destruct (size data =? 5) eqn:E; [|discriminate].
    apply N.eqb_eq in E. destruct (H5 _ E) as (a & b & c & d & e & ->).
    cbn [negb rd8 read_u8 rd16 read_u16].
    destruct (negb _); discriminate.
  - unfold WriteMultipleCoilsRequest_parse. destruct (size data <? 6) eqn:E; [discriminate|].
    destruct (H6 data ltac:(lia)) as (a & b & c & d & e & f & y & ->).
    cbn [negb rd8 read_u8 rd16 read_u16].
    destruct (negb _); [discriminate|]. destruct (_ || _); [discriminate|].
    destruct (negb _); [discriminate|]. destruct (negb _); discriminate.
  - unfold WriteMultipleRegistersRequest_parse. destruct (size data <? 6) eqn:E; [discriminate|].
    destruct (H6 data ltac:(lia)) as (a & b & c & d & e & f & y & ->).
    cbn [negb rd8 read_u8 rd16 read_u16].
    destruct (negb _); [discriminate|]. destruct (_ || _); [discriminate|].
    destruct (negb _); [discriminate|]. destruct (negb _); discriminate.
Qed.
