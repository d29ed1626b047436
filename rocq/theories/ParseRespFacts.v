(** Proofs about the client-side response parsers: exact classification. *)
From Verif Require Import Tac Ser4 Messages SpecPdu BitFacts BuildFacts ParseReqFacts.

(** ** Function code byte *)
Lemma land_127 b : N.land b 127 = b mod 128.
Proof. change 127 with (N.ones 7). rewrite N.land_ones. reflexivity. Qed.

Lemma u8_all (P : N -> bool) :
  forallb P (map N.of_nat (seq 0 256)) = true -> forall b, u8 b -> P b = true.
Proof.
  intros H b Hb. rewrite forallb_forall in H. apply H.
  apply in_map_iff. exists (N.to_nat b). split; [lia|]. apply in_seq. unfold u8 in Hb. lia.
Qed.

Lemma land_128 b : u8 b -> negb (N.land b 128 =? 0) = (128 <=? b).
Proof.
  intros Hb. apply eqb_prop.
  exact (u8_all (fun b => Bool.eqb (negb (N.land b 128 =? 0)) (128 <=? b))
           ltac:(vm_compute; reflexivity) b Hb).
Qed.

Lemma parse_function_code_normal fc view :
  fc < 128 -> parse_function_code fc (fc :: view) = Ret (Value view).
Proof.
  intros Hf. unfold parse_function_code.
  rewrite size_cons. replace (1 + size view <? 1) with false by lia.
  cbn [rd8 read_u8]. rewrite land_127. replace (fc mod 128 =? fc) with true by lia.
  rewrite land_128 by (unfold u8; lia). replace (128 <=? fc) with false by lia. reflexivity.
Qed.

Lemma parse_function_code_exception fc code :
  fc < 128 ->
  parse_function_code fc [fc + 128; code] = Ret (Error (EModbus (parse_exception_type code))).
Proof.
  intros Hf. unfold parse_function_code.
  change (size [fc + 128; code] <? 1) with false. cbn [rd8 read_u8].
  rewrite land_127. replace ((fc + 128) mod 128 =? fc) with true by lia.
  rewrite land_128 by (unfold u8; lia). replace (128 <=? fc + 128) with true by lia.
  reflexivity.
Qed.

Lemma parse_function_code_cases fc data :
  fc < 128 -> bytes data ->
  (exists view, data = fc :: view /\ parse_function_code fc data = Ret (Value view))
  \/ (exists code, u8 code /\ data = [fc + 128; code] /\
        parse_function_code fc data = Ret (Error (EModbus (parse_exception_type code))))
  \/ (parse_function_code fc data = Ret (Error EMalformedResponse)
      /\ (forall view, data <> fc :: view) /\ (forall code, data <> [fc + 128; code])).
Proof.
  intros Hf Hb. destruct data as [|b view].
  { right; right. split; [reflexivity|]. split; intros; discriminate. }
  apply Forall_cons_iff in Hb. destruct Hb as [Hb Hv].
  destruct (N.eq_dec b fc) as [->|Hn].
  { left. exists view. split; [reflexivity|]. apply parse_function_code_normal; exact Hf. }
  destruct (N.eq_dec b (fc + 128)) as [->|Hn2].
  - destruct view as [|code [|x rest]].
    + right; right. split; [|split; intros; try discriminate; intro E; inversion E; lia].
      unfold parse_function_code. change (size [fc + 128] <? 1) with false. cbn [rd8 read_u8].
      rewrite land_127. replace ((fc + 128) mod 128 =? fc) with true by lia.
      rewrite land_128 by (unfold u8; lia). replace (128 <=? fc + 128) with true by lia.
      reflexivity.
    + right; left. exists code. apply Forall_cons_iff in Hv. split; [tauto|].
      split; [reflexivity|]. apply parse_function_code_exception; exact Hf.
    + right; right. split; [|split; intros; try discriminate; intro E; inversion E; lia].
      unfold parse_function_code. rewrite !size_cons.
      replace (1 + (1 + (1 + size rest)) <? 1) with false by lia. cbn [rd8 read_u8].
      rewrite land_127. replace ((fc + 128) mod 128 =? fc) with true by lia.
      rewrite land_128 by (unfold u8; lia). replace (128 <=? fc + 128) with true by lia.
      rewrite !size_cons. replace (1 + (1 + size rest) =? 1) with false by lia. reflexivity.
  - right; right. split; [|split; intros ? E; inversion E; congruence].
    unfold parse_function_code. rewrite size_cons.
    replace (1 + size view <? 1) with false by lia. cbn [rd8 read_u8].
    rewrite land_127. unfold u8 in Hb.
    replace (b mod 128 =? fc) with false by lia. reflexivity.
Qed.

(** ** Exception codes *)
Lemma parse_exception_standard code t :
  standard_code t = Some code -> parse_exception_type code = t.
Proof. destruct t; cbn; intros H; inversion H; reflexivity. Qed.

Lemma parse_exception_means code t : code_means code t <-> parse_exception_type code = t.
Proof.
  split.
  - intros [H|[-> H]]; [apply parse_exception_standard; exact H|].
    unfold parse_exception_type.
    destruct code as [|c]; [reflexivity|].
    repeat (first [ reflexivity | match goal with c : positive |- _ => destruct c as [c|c|] end ]);
      exfalso;
      match goal with
      | H : forall t', standard_code t' <> Some ?n |- _ =>
          first [ exact (H IllegalFunction eq_refl) | exact (H IllegalDataAddress eq_refl)
                | exact (H IllegalDataValue eq_refl) | exact (H ServerDeviceFailure eq_refl)
                | exact (H Acknowledge eq_refl) | exact (H ServerDeviceBusy eq_refl)
                | exact (H MemoryParityError eq_refl) | exact (H GatewayPathUnavailable eq_refl)
                | exact (H GatewayTargetDeviceFailedToRespond eq_refl) ]
      end.
  - intros <-. unfold code_means.
    assert (D : (exists t', standard_code t' = Some code) \/ (forall t', standard_code t' <> Some code)).
    { destruct (in_dec N.eq_dec code [1; 2; 3; 4; 5; 6; 8; 10; 11]) as [I|I].
      - left. cbn [In] in I.
        destruct I as [<-|[<-|[<-|[<-|[<-|[<-|[<-|[<-|[<-|[]]]]]]]]]].
        + exists IllegalFunction; reflexivity.
        + exists IllegalDataAddress; reflexivity.
        + exists IllegalDataValue; reflexivity.
        + exists ServerDeviceFailure; reflexivity.
        + exists Acknowledge; reflexivity.
        + exists ServerDeviceBusy; reflexivity.
        + exists MemoryParityError; reflexivity.
        + exists GatewayPathUnavailable; reflexivity.
        + exists GatewayTargetDeviceFailedToRespond; reflexivity.
      - right. intros t' H. apply I. destruct t'; cbn in H; inversion H; simpl; tauto. }
    destruct D as [[t' H]|H].
    + left. rewrite (parse_exception_standard _ _ H). exact H.
    + right. split; [|exact H].
      unfold parse_exception_type.
      destruct code as [|c]; [reflexivity|].
      repeat (first [ reflexivity | match goal with c : positive |- _ => destruct c as [c|c|] end ]);
        exfalso;
        first [ exact (H IllegalFunction eq_refl) | exact (H IllegalDataAddress eq_refl)
                | exact (H IllegalDataValue eq_refl) | exact (H ServerDeviceFailure eq_refl)
                | exact (H Acknowledge eq_refl) | exact (H ServerDeviceBusy eq_refl)
                | exact (H MemoryParityError eq_refl) | exact (H GatewayPathUnavailable eq_refl)
                | exact (H GatewayTargetDeviceFailedToRespond eq_refl) ].
Qed.

(** ** Per class: the parser on the view after the function code *)
Lemma after_normal {A} fc view (k : rseq -> outcome (expected A)) :
  fc < 128 -> after_function_code fc (fc :: view) k = k view.
Proof. intros H. unfold after_function_code. rewrite parse_function_code_normal by exact H. reflexivity. Qed.

Definition bits_view (start qty : N) (view : rseq) : outcome (expected (list (N * bool))) :=
  if size view <? 1 then Ret (Error EMalformedResponse)
  else
    rd8 view (fun length view =>
    if negb (size view =? length) then Ret (Error EMalformedResponse)
    else if negb (length =? byte_count_of_bits qty) then Ret (Error EMalformedResponse)
    else Ret (Value (with_addresses start (extract_all_bits qty view [])))).

Definition regs_view (start qty : N) (view : rseq) : outcome (expected (list (N * N))) :=
  if size view <? 1 then Ret (Error EMalformedResponse)
  else
    rd8 view (fun length view =>
    if negb (length mod 2 =? 0) then Ret (Error EMalformedResponse)
    else if negb (size view =? 2 * qty) then Ret (Error EMalformedResponse)
    else Ret (Value (with_addresses start (extract_registers view)))).

Definition coil_view (view : rseq) : outcome (expected (N * bool)) :=
  if negb (size view =? 4) then Ret (Error EMalformedResponse)
  else
    rd16 view (fun address view =>
    rd16 view (fun value view =>
    if value =? Coil_ON then Ret (Value (address, true))
    else if value =? Coil_OFF then Ret (Value (address, false))
    else Ret (Error EMalformedResponse))).

Definition pair_view (view : rseq) : outcome (expected (N * N)) :=
  if negb (size view =? 4) then Ret (Error EMalformedResponse)
  else
    rd16 view (fun address view =>
    rd16 view (fun value view =>
    Ret (Value (address, value)))).

Definition view_parser (req : request) (view : rseq) : outcome (expected response) :=
  match req with
  | ReadCoils s q => omap (emap CoilsRead) (bits_view s q view)
  | ReadDiscreteInputs s q => omap (emap DiscreteInputsRead) (bits_view s q view)
  | ReadHoldingRegisters s q => omap (emap HoldingRegistersRead) (regs_view s q view)
  | ReadInputRegisters s q => omap (emap InputRegistersRead) (regs_view s q view)
  | WriteSingleCoil _ _ => omap (emap (fun p => SingleCoilWritten (fst p) (snd p))) (coil_view view)
  | WriteSingleRegister _ _ => omap (emap (fun p => SingleRegisterWritten (fst p) (snd p))) (pair_view view)
  | WriteMultipleCoils _ _ => omap (emap (fun p => MultipleCoilsWritten (fst p) (snd p))) (pair_view view)
  | WriteMultipleRegisters _ _ => omap (emap (fun p => MultipleRegistersWritten (fst p) (snd p))) (pair_view view)
  end.

Lemma omap_after {A B} (f : A -> B) fc data (k : rseq -> outcome (expected A)) :
  omap (emap f) (after_function_code fc data k)
  = after_function_code fc data (fun v => omap (emap f) (k v)).
Proof.
  unfold after_function_code, obind.
  destruct (parse_function_code fc data) as [[v|e]|]; reflexivity.
Qed.

Lemma response_parser_view req data :
  response_parser req data
  = after_function_code (spec_function_code req) data (view_parser req).
Proof.
  destruct req; unfold response_parser, ReadBitsResponse_parse, ReadRegistersResponse_parse,
    WriteSingleCoilResponse_parse, WriteSingleRegisterResponse_parse,
    WriteMultipleCoilsResponse_parse, WriteMultipleRegistersResponse_parse;
    rewrite omap_after; reflexivity.
Qed.

Lemma spec_function_code_lt req : spec_function_code req < 128.
Proof. destruct req; cbn; lia. Qed.

(** Outcome of the view parser. *)
Definition view_ok (req : request) (view : rseq) (resp : response) : Prop :=
  answers_shape req resp /\ typed_response resp /\
  response_pdu_lenient_count resp (spec_function_code req :: view).

Lemma bits_view_cases s q view :
  u16 s -> bytes view ->
  (exists vs d, size vs = q /\ consecutive s vs /\ Forall u16 (map fst vs) /\
      bit_field (map snd vs) d /\ view = size d :: d /\ bits_view s q view = Ret (Value vs))
  \/ bits_view s q view = Ret (Error EMalformedResponse).
Proof.
  intros Hs Hb. destruct view as [|c d]; [right; reflexivity|].
  apply Forall_cons_iff in Hb. destruct Hb as [Hc Hd].
  unfold bits_view. rewrite size_cons. replace (1 + size d <? 1) with false by lia.
  cbn [rd8 read_u8].
  destruct (size d =? c) eqn:E1; cbn [negb]; [|right; reflexivity].
  destruct (c =? byte_count_of_bits q) eqn:E2; cbn [negb]; [|right; reflexivity].
  apply N.eqb_eq in E1, E2. left.
  rewrite extract_all_bits_spec by (cbn; lia). cbn [app List.length]. rewrite Nat.sub_0_r.
  set (bs := firstn (N.to_nat q) (unpack d)).
  assert (Hl : List.length d = bytes_for (N.to_nat q)).
  { rewrite <- (N2Nat.id q), byte_count_bytes_for in E2. unfold size in E1. lia. }
  assert (Hlen : List.length bs = N.to_nat q).
  { unfold bs. rewrite firstn_length, unpack_length, Hl. unfold bytes_for. lia. }
  exists (with_addresses s bs), d.
  split; [unfold size; rewrite with_addresses_length; lia|].
  split; [apply with_addresses_consecutive; exact Hs|].
  split; [apply with_addresses_u16; exact Hs|].
  split.
  { rewrite with_addresses_snd. apply bit_field_unpack. rewrite Hlen. split; [exact Hl|reflexivity]. }
  split; [rewrite E1; reflexivity|reflexivity].
Qed.

Lemma bits_view_accept s vs d :
  u16 s -> consecutive s vs -> bit_field (map snd vs) d ->
  bits_view s (size vs) (size d :: d) = Ret (Value vs).
Proof.
  intros Hs Hc Hf. unfold bits_view. rewrite size_cons. replace (1 + size d <? 1) with false by lia.
  cbn [rd8 read_u8]. rewrite N.eqb_refl. cbn [negb].
  apply bit_field_unpack in Hf. destruct Hf as [Hl Hv]. rewrite map_length in *.
  assert (Hsd : size d = byte_count_of_bits (size vs))
    by (unfold size; rewrite byte_count_bytes_for, Hl; reflexivity).
  rewrite Hsd, N.eqb_refl. cbn [negb].
  rewrite extract_all_bits_spec by (cbn; lia). cbn [app List.length]. rewrite Nat.sub_0_r.
  unfold size. rewrite Nat2N.id, Hv.
  rewrite <- (consecutive_unique s vs Hs Hc). reflexivity.
Qed.

Lemma regs_view_cases s q view :
  u16 s -> bytes view ->
  (exists vs c, size vs = q /\ consecutive s vs /\ Forall u16 (map fst vs) /\ Forall u16 (map snd vs) /\
      u8 c /\ c mod 2 = 0 /\ view = c :: be16s (map snd vs) /\ regs_view s q view = Ret (Value vs))
  \/ regs_view s q view = Ret (Error EMalformedResponse).
Proof.
  intros Hs Hb. destruct view as [|c d]; [right; reflexivity|].
  apply Forall_cons_iff in Hb. destruct Hb as [Hc Hd].
  unfold regs_view. rewrite size_cons. replace (1 + size d <? 1) with false by lia.
  cbn [rd8 read_u8].
  destruct (c mod 2 =? 0) eqn:E1; cbn [negb]; [|right; reflexivity].
  destruct (size d =? 2 * q) eqn:E2; cbn [negb]; [|right; reflexivity].
  apply N.eqb_eq in E1, E2. left.
  assert (Hl : List.length d = (2 * N.to_nat q)%nat) by (unfold size in E2; lia).
  exists (with_addresses s (extract_registers d)), c.
  split; [unfold size; rewrite with_addresses_length, (extract_registers_length (N.to_nat q)) by exact Hl; lia|].
  split; [apply with_addresses_consecutive; exact Hs|].
  split; [apply with_addresses_u16; exact Hs|].
  rewrite with_addresses_snd.
  split; [apply extract_registers_u16; exact Hd|].
  rewrite (be16s_extract (N.to_nat q)) by assumption. auto.
Qed.

Lemma regs_view_accept s vs c :
  u16 s -> consecutive s vs -> Forall u16 (map snd vs) -> c mod 2 = 0 ->
  regs_view s (size vs) (c :: be16s (map snd vs)) = Ret (Value vs).
Proof.
  intros Hs Hc Hv Hev. unfold regs_view. rewrite size_cons.
  replace (1 + _ <? 1) with false by lia. cbn [rd8 read_u8].
  rewrite Hev. cbn [N.eqb negb].
  replace (size (be16s (map snd vs)) =? 2 * size vs) with true
    by (unfold size; rewrite be16s_length, map_length; lia).
  cbn [negb]. rewrite extract_be16s by exact Hv.
  rewrite <- (consecutive_unique s vs Hs Hc). reflexivity.
Qed.

Lemma four_bytes view :
  bytes view -> size view = 4 -> exists a b, u16 a /\ u16 b /\ view = be16 a ++ be16 b.
Proof.
  intros Hb Hs. apply (size_is_length _ 4) in Hs.
  destruct view as [|a1 [|a0 [|b1 [|b0 [|]]]]]; try discriminate.
  repeat match goal with H : bytes (_ :: _) |- _ => apply Forall_cons_iff in H; destruct H
                    | H : Forall _ (_ :: _) |- _ => apply Forall_cons_iff in H; destruct H end.
  exists (a1 * 256 + a0), (b1 * 256 + b0).
  rewrite !be16_split by assumption. unfold u8, u16 in *. repeat split; lia.
Qed.

Lemma pair_view_accept a b : u16 a -> u16 b -> pair_view (be16 a ++ be16 b) = Ret (Value (a, b)).
Proof.
  intros Ha Hb. unfold pair_view. change (size (be16 a ++ be16 b) =? 4) with true.
  cbn [negb be16 app rd16 read_u16]. rewrite !be16_join by assumption. reflexivity.
Qed.

Lemma coil_view_on a v :
  u16 a -> u16 v ->
  coil_view (be16 a ++ be16 v)
  = if v =? Coil_ON then Ret (Value (a, true))
    else if v =? Coil_OFF then Ret (Value (a, false)) else Ret (Error EMalformedResponse).
Proof.
  intros Ha Hb. unfold coil_view. change (size (be16 a ++ be16 v) =? 4) with true.
  cbn [negb be16 app rd16 read_u16]. rewrite !be16_join by assumption. reflexivity.
Qed.

Lemma pair_view_cases view :
  bytes view ->
  (exists a b, u16 a /\ u16 b /\ view = be16 a ++ be16 b /\ pair_view view = Ret (Value (a, b)))
  \/ pair_view view = Ret (Error EMalformedResponse).
Proof.
  intros Hb. destruct (N.eq_dec (size view) 4) as [H4|H4].
  - left. destruct (four_bytes view Hb H4) as (a & b & Ha & Hb' & ->).
    exists a, b. rewrite pair_view_accept by assumption. auto.
  - right. unfold pair_view. replace (size view =? 4) with false by lia. reflexivity.
Qed.

Lemma coil_view_cases view :
  bytes view ->
  (exists a v, u16 a /\ view = be16 a ++ be16 (coil_word v) /\ coil_view view = Ret (Value (a, v)))
  \/ coil_view view = Ret (Error EMalformedResponse).
Proof.
  intros Hb. destruct (N.eq_dec (size view) 4) as [H4|H4].
  - destruct (four_bytes view Hb H4) as (a & b & Ha & Hb' & ->).
    rewrite coil_view_on by assumption. unfold Coil_ON, Coil_OFF.
    destruct (b =? 65280) eqn:E1; [|destruct (b =? 0) eqn:E2; [|right; reflexivity]].
    + apply N.eqb_eq in E1; subst b. left. exists a, true. auto.
    + apply N.eqb_eq in E2; subst b. left. exists a, false. auto.
  - right. unfold coil_view. replace (size view =? 4) with false by lia. reflexivity.
Qed.

Lemma view_parser_cases req view :
  typed_request req -> bytes view ->
  (exists resp, view_ok req view resp /\ view_parser req view = Ret (Value resp))
  \/ view_parser req view = Ret (Error EMalformedResponse).
Proof.
  intros Ht Hb. unfold view_ok.
  destruct req; cbn [typed_request view_parser spec_function_code] in *.
  - destruct Ht as [Hs Hq].
    destruct (bits_view_cases start qty view Hs Hb) as [(vs & d & H1 & H2 & H3 & H4 & H5 & ->)| -> ];
      [left|right; reflexivity].
    exists (CoilsRead vs). cbn. repeat split; auto. exists d. subst view. auto.
  - destruct Ht as [Hs Hq].
    destruct (bits_view_cases start qty view Hs Hb) as [(vs & d & H1 & H2 & H3 & H4 & H5 & ->)| -> ];
      [left|right; reflexivity].
    exists (DiscreteInputsRead vs). cbn. repeat split; auto. exists d. subst view. auto.
  - destruct Ht as [Hs Hq].
    destruct (regs_view_cases start qty view Hs Hb)
      as [(vs & c & H1 & H2 & H3 & H4 & H5 & H6 & H7 & ->)| -> ]; [left|right; reflexivity].
    exists (HoldingRegistersRead vs). cbn. repeat split; auto. exists c. subst view. auto.
  - destruct Ht as [Hs Hq].
    destruct (regs_view_cases start qty view Hs Hb)
      as [(vs & c & H1 & H2 & H3 & H4 & H5 & H6 & H7 & ->)| -> ]; [left|right; reflexivity].
    exists (InputRegistersRead vs). cbn. repeat split; auto. exists c. subst view. auto.
  - destruct (coil_view_cases view Hb) as [(a & v & H1 & H2 & ->)| -> ]; [left|right; reflexivity].
    exists (SingleCoilWritten a v). cbn. subst view. auto.
  - destruct (pair_view_cases view Hb) as [(a & v & H1 & H2 & H3 & ->)| -> ]; [left|right; reflexivity].
    exists (SingleRegisterWritten a v). cbn. subst view. auto.
  - destruct (pair_view_cases view Hb) as [(a & v & H1 & H2 & H3 & ->)| -> ]; [left|right; reflexivity].
    exists (MultipleCoilsWritten a v). cbn. subst view. auto.
  - destruct (pair_view_cases view Hb) as [(a & v & H1 & H2 & H3 & ->)| -> ]; [left|right; reflexivity].
    exists (MultipleRegistersWritten a v). cbn. subst view. auto.
Qed.

Lemma view_parser_accept req view resp :
  typed_request req -> view_ok req view resp -> view_parser req view = Ret (Value resp).
Proof.
  intros Ht (Ha & Hr & Hp).
  destruct req, resp; cbn [answers_shape typed_request typed_response spec_function_code view_parser
       response_pdu_lenient_count response_pdu_any_padding response_pdu_with] in *; try contradiction.
  - destruct Ha as [Hq Hc], Ht as [Hs _], Hp as (d & Hd & E). inversion E; subst.
    rewrite bits_view_accept by assumption. reflexivity.
  - destruct Ha as [Hq Hc], Ht as [Hs _], Hp as (d & Hd & E). inversion E; subst.
    rewrite bits_view_accept by assumption. reflexivity.
  - destruct Ha as [Hq Hc], Ht as [Hs _], Hr as [_ Hv], Hp as (c & Hc8 & Hev & E). inversion E; subst.
    rewrite regs_view_accept by assumption. reflexivity.
  - destruct Ha as [Hq Hc], Ht as [Hs _], Hr as [_ Hv], Hp as (c & Hc8 & Hev & E). inversion E; subst.
    rewrite regs_view_accept by assumption. reflexivity.
  - apply (f_equal (@tl N)) in Hp. cbn [app tl] in Hp. subst view.
    rewrite coil_view_on by (try apply coil_word_u16; exact Hr). destruct value0; reflexivity.
  - apply (f_equal (@tl N)) in Hp. cbn [app tl] in Hp. subst view.
    rewrite pair_view_accept by apply Hr. reflexivity.
  - apply (f_equal (@tl N)) in Hp. cbn [app tl] in Hp. subst view.
    rewrite pair_view_accept by apply Hr. reflexivity.
  - apply (f_equal (@tl N)) in Hp. cbn [app tl] in Hp. subst view.
    rewrite pair_view_accept by apply Hr. reflexivity.
Qed.

(** ** The classification *)
Definition accepted (req : request) (resp : response) (data : rseq) : Prop :=
  answers_shape req resp /\ typed_response resp /\ response_pdu_lenient_count resp data.

Lemma accepted_head req resp data :
  accepted req resp data -> exists view, data = spec_function_code req :: view.
Proof.
  intros (Ha & _ & Hp).
  destruct req, resp; cbn in Ha; try contradiction; cbn in Hp;
    repeat match goal with
      | H : exists _, _ |- _ => destruct H
      | H : _ /\ _ |- _ => destruct H end; subst data; eexists; reflexivity.
Qed.

Lemma response_cases req data :
  typed_request req -> bytes data ->
  (exists resp, accepted req resp data /\ response_parser req data = Ret (Value resp))
  \/ (exists code t, u8 code /\ exception_pdu (spec_function_code req) code data /\
        code_means code t /\ response_parser req data = Ret (Error (EModbus t)))
  \/ (response_parser req data = Ret (Error EMalformedResponse) /\
      forall code, ~ exception_pdu (spec_function_code req) code data).
Proof.
  intros Ht Hb. rewrite response_parser_view.
  pose proof (spec_function_code_lt req) as Hf.
  unfold after_function_code.
  destruct (parse_function_code_cases (spec_function_code req) data Hf Hb)
    as [(view & -> & ->)|[(code & Hc & -> & ->)|(-> & H1 & H2)]]; cbn [obind].
  - apply Forall_cons_iff in Hb. destruct Hb as [_ Hv].
    destruct (view_parser_cases req view Ht Hv) as [(resp & Hok & ->)| -> ].
    + left. exists resp. auto.
    + right; right. split; [reflexivity|]. unfold exception_pdu. intros code E. inversion E; lia.
  - right; left. exists code, (parse_exception_type code).
    repeat split; auto. apply parse_exception_means; reflexivity.
  - right; right. split; [reflexivity|]. exact H2.
Qed.

Lemma response_accept req resp data :
  typed_request req -> accepted req resp data -> response_parser req data = Ret (Value resp).
Proof.
  intros Ht Ha. destruct (accepted_head _ _ _ Ha) as [view ->].
  rewrite response_parser_view, after_normal by apply spec_function_code_lt.
  apply view_parser_accept; assumption.
Qed.

Lemma response_exception req code data :
  exception_pdu (spec_function_code req) code data ->
  response_parser req data = Ret (Error (EModbus (parse_exception_type code))).
Proof.
  intros ->. rewrite response_parser_view. unfold after_function_code.
  rewrite parse_function_code_exception by apply spec_function_code_lt. reflexivity.
Qed.

Lemma response_accepts_iff req resp data :
  typed_request req -> bytes data ->
  (response_parser req data = Ret (Value resp) <-> accepted req resp data).
Proof.
  intros Ht Hb. split.
  - intros H. destruct (response_cases req data Ht Hb) as [(r & Ha & E)|[(c & t & _ & _ & _ & E)|(E & _)]];
      rewrite H in E; inversion E; subst; auto.
  - apply response_accept; exact Ht.
Qed.

Lemma response_exception_iff req t data :
  typed_request req -> bytes data ->
  (response_parser req data = Ret (Error (EModbus t)) <->
   exists code, exception_pdu (spec_function_code req) code data /\ code_means code t).
Proof.
  intros Ht Hb. split.
  - intros H. destruct (response_cases req data Ht Hb) as [(r & Ha & E)|[(c & t' & Hc & Hp & Hm & E)|(E & _)]];
      rewrite H in E; inversion E; subst. eauto.
  - intros (code & Hp & Hm). rewrite (response_exception _ _ _ Hp).
    apply parse_exception_means in Hm. rewrite Hm. reflexivity.
Qed.

Lemma response_malformed_iff req data :
  typed_request req -> bytes data ->
  (response_parser req data = Ret (Error EMalformedResponse) <->
   (forall resp, ~ accepted req resp data) /\
   (forall code, ~ exception_pdu (spec_function_code req) code data)).
Proof.
  intros Ht Hb. split.
  - intros H. split.
    + intros resp Ha. rewrite (response_accept _ _ _ Ht Ha) in H. discriminate.
    + intros code Hp. rewrite (response_exception _ _ _ Hp) in H. discriminate.
  - intros [H1 H2]. destruct (response_cases req data Ht Hb) as [(r & Ha & E)|[(c & t' & Hc & Hp & Hm & E)|(E & _)]].
    + destruct (H1 _ Ha).
    + destruct (H2 _ Hp).
    + exact E.
Qed.

(** Every result of a response parser is one of the three kinds. *)
Lemma response_results req data :
  typed_request req -> bytes data ->
  (exists resp, response_parser req data = Ret (Value resp))
  \/ (exists t, response_parser req data = Ret (Error (EModbus t)))
  \/ response_parser req data = Ret (Error EMalformedResponse).
Proof.
  intros Ht Hb. destruct (response_cases req data Ht Hb)
    as [(r & _ & E)|[(c & t' & _ & _ & _ & E)|(E & _)]]; eauto.
Qed.

Lemma strict_lenient resp data :
  response_fits resp -> response_pdu_any_padding resp data -> response_pdu_lenient_count resp data.
Proof.
  destruct resp; cbn; auto; intros Hf ->; exists (2 * size values); unfold u8; repeat split; lia.
Qed.

Lemma response_pdu_padding r d : response_pdu r d -> response_pdu_any_padding r d.
Proof.
  destruct r; cbn; auto; intros (x & Hx & ->); exists x; (split; [|reflexivity]);
  apply field0_field; exact Hx.
Qed.

Lemma answers_fit req resp :
  quantity_in_range req -> answers_shape req resp -> response_fits resp.
Proof.
  destruct req, resp; cbn; intros Hq Ha; try contradiction; trivial; destruct Ha; lia.
Qed.

Lemma response_round_trip req resp cap :
  legal_request req -> typed_response resp -> answers_shape req resp -> (253 <= cap)%nat ->
  response_parser req (build_into cap (response_message resp)) = Ret (Value resp).
Proof.
  intros [Ht Hq] Hr Ha Hc.
  pose proof (answers_fit req resp Hq Ha) as Hf.
  pose proof (response_length_bound resp Hf) as Hb.
  unfold build_into. rewrite build_response; [|exact Hr|exact Hf|cbn; lia].
  cbn [wapp w_out wseq_new app].
  apply response_accept; [exact Ht|]. split; [exact Ha|]. split; [exact Hr|].
  apply strict_lenient; [exact Hf|]. apply response_pdu_padding, enc_response_pdu.
Qed.

(** No undefined behaviour, on any list at all. *)
Lemma response_no_ub req data : response_parser req data <> UB.
Proof.
  rewrite response_parser_view. unfold after_function_code.
  assert (Hpf : parse_function_code (spec_function_code req) data <> UB).
  { unfold parse_function_code. destruct data as [|b view]; [discriminate|].
    rewrite size_cons. replace (1 + size view <? 1) with false by lia. cbn [rd8 read_u8].
    destruct (negb _); [discriminate|]. destruct (negb _); [|discriminate].
    destruct (size view =? 1) eqn:E; [|discriminate]. cbn [negb].
    destruct view; [discriminate E|discriminate]. }
  destruct (parse_function_code _ _) as [[view|e]|]; cbn [obind]; try discriminate; [|contradiction].
  assert (HM : forall A B (f : A -> B) x, x <> UB -> omap (emap f) x <> UB).
  { intros A B f [x|] H; [discriminate|contradiction]. }
  assert (H4 : forall x : rseq, size x = 4 -> exists a b c d, x = [a; b; c; d]).
  { intros x Hx. apply (size_is_length _ 4) in Hx.
    destruct x as [|a [|b [|c [|d [|]]]]]; try discriminate. repeat eexists. }
  assert (Hbits : forall s q, bits_view s q view <> UB).
  { intros s q. unfold bits_view. destruct view as [|c d]; [discriminate|].
    rewrite size_cons. replace (1 + size d <? 1) with false by lia. cbn [rd8 read_u8].
    destruct (negb _); [discriminate|]. destruct (negb _); discriminate. }
  assert (Hregs : forall s q, regs_view s q view <> UB).
  { intros s q. unfold regs_view. destruct view as [|c d]; [discriminate|].
    rewrite size_cons. replace (1 + size d <? 1) with false by lia. cbn [rd8 read_u8].
    destruct (negb _); [discriminate|]. destruct (negb _); discriminate. }
  assert (Hpair : pair_view view <> UB).
  { unfold pair_view. destruct (size view =? 4) eqn:E; [|discriminate]. apply N.eqb_eq in E.
    destruct (H4 _ E) as (a & b & c & d & ->). discriminate. }
  assert (Hcoil : coil_view view <> UB).
  { unfold coil_view. destruct (size view =? 4) eqn:E; [|discriminate]. apply N.eqb_eq in E.
    destruct (H4 _ E) as (a & b & c & d & ->). cbn [negb rd16 read_u16].
    destruct (_ =? _); [discriminate|]. destruct (_ =? _); discriminate. }
  destruct req; cbn [view_parser]; apply HM; auto.
Qed.

(** ** Exceptions over the wire *)
Lemma exception_round_trip req t cap :
  (2 <= cap)%nat ->
  response_parser req (build_into cap (ExceptionResponse (spec_function_code req) t))
  = Ret (Error (EModbus (if match t with MemoryParityError => true | _ => false end
                         then Unknown else t))).
Proof.
  intros Hc. unfold build_into.
  rewrite build_exception by (try apply spec_function_code_lt; cbn; lia).
  cbn [wapp w_out wseq_new app].
  rewrite (response_exception req (exception_value t)) by reflexivity.
  destruct t; reflexivity.
Qed.
