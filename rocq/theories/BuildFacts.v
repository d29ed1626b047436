(** Proofs about serialisation: what each [build_message] appends. *)
From Verif Require Import Tac Ser4 Messages SpecPdu BitFacts.

(** ** Bounded writes *)
Definition wapp (w : wseq) (l : list N) : wseq := {| w_cap := w_cap w; w_out := w_out w ++ l |}.

Lemma wput_app w l : (List.length l <= w_room w)%nat -> wput w l = wapp w l.
Proof.
  intros H. unfold wput. destruct (Nat.leb_spec (List.length l) (w_room w)); [reflexivity|lia].
Qed.

Lemma wput_full w l : (w_room w < List.length l)%nat -> wput w l = w.
Proof.
  intros H. unfold wput. destruct (Nat.leb_spec (List.length l) (w_room w)); [lia|reflexivity].
Qed.

Lemma wapp_room w l : w_room (wapp w l) = (w_room w - List.length l)%nat.
Proof. unfold w_room, wapp; simpl. rewrite app_length. lia. Qed.

Lemma wapp_wapp w a b : wapp (wapp w a) b = wapp w (a ++ b).
Proof. unfold wapp; simpl. rewrite app_assoc. reflexivity. Qed.

Lemma wapp_nil w : wapp w [] = w.
Proof. destruct w; unfold wapp; simpl. rewrite app_nil_r. reflexivity. Qed.

Lemma write_u8_app w v : (1 <= w_room w)%nat -> u8 v -> write_u8 w v = wapp w [v].
Proof.
  intros H Hv. unfold write_u8. rewrite wput_app by (simpl; lia).
  rewrite to_u8_id by exact Hv. reflexivity.
Qed.

Lemma write_u16_app w v : (2 <= w_room w)%nat -> u16 v -> write_u16 w v = wapp w (be16 v).
Proof.
  intros H Hv. unfold write_u16. rewrite wput_app by (simpl; lia).
  unfold to_u8, be16, u16 in *. f_equal. f_equal. lia.
Qed.

Lemma u8_lit n : (n <? 256) = true -> u8 n.
Proof. unfold u8; lia. Qed.

(** ** Loops *)
Lemma fold_write_u16 {A} (f : A -> N) vs w :
  Forall u16 (map f vs) -> (2 * List.length vs <= w_room w)%nat ->
  fold_left (fun w v => write_u16 w (f v)) vs w = wapp w (be16s (map f vs)).
Proof.
  revert w; induction vs as [|v vs IH]; intros w Hv Hr.
  - symmetry; apply wapp_nil.
  - cbn [map] in Hv. inversion Hv; subst. cbn [List.length] in Hr.
    cbn [fold_left map]. rewrite write_u16_app by (assumption || lia).
    rewrite IH by (try assumption; rewrite wapp_room, be16_length; lia).
    rewrite wapp_wapp. reflexivity.
Qed.

Definition bits_finish (st : wseq * N * N) : wseq :=
  let '(w, current_byte, current_offset) := st in
  if negb (current_offset =? 0) then write_u8 w current_byte else w.

Lemma bits_fold vs : forall ps w,
  (List.length ps < 8)%nat ->
  (bytes_for (List.length ps + List.length vs) <= w_room w)%nat ->
  bits_finish (fold_left ReadBitsResponse_bit vs (w, byte_of_bits ps, N.of_nat (List.length ps)))
  = wapp w (pack (ps ++ map snd vs)).
Proof.
  induction vs as [|[a v] vs IH]; intros ps w Hps Hr.
  - cbn [fold_left map List.length] in *. rewrite app_nil_r. unfold bits_finish.
    destruct (negb _) eqn:E.
    + rewrite pack_short by lia. apply write_u8_app.
      * unfold bytes_for in Hr. lia.
      * apply byte_of_bits_u8; lia.
    + destruct ps; [|simpl in E; lia]. rewrite pack_nil, wapp_nil. reflexivity.
  - cbn [fold_left map snd].
    assert (Hstep : (if v then to_u8 (N.lor (byte_of_bits ps) (N.shiftl 1 (N.of_nat (List.length ps))))
                     else byte_of_bits ps) = byte_of_bits (ps ++ [v])).
    { pose proof (lor_next_bit ps v) as Hl.
      assert (Hu : u8 (byte_of_bits (ps ++ [v])))
        by (apply byte_of_bits_u8; rewrite app_length; simpl; lia).
      destruct v.
      - cbn [N.b2n] in Hl. rewrite Hl. apply to_u8_id; exact Hu.
      - cbn [N.b2n] in Hl. rewrite N.shiftl_0_l, N.lor_0_r in Hl. exact Hl. }
    cbn [ReadBitsResponse_bit snd]. rewrite Hstep.
    assert (Hoff : to_u8 (N.of_nat (List.length ps) + 1) = N.of_nat (List.length (ps ++ [v]))).
    { rewrite app_length. simpl List.length. unfold to_u8. lia. }
    rewrite Hoff. cbn [List.length] in Hr.
    destruct (N.of_nat (List.length (ps ++ [v])) =? 8) eqn:E.
    + assert (H8 : List.length (ps ++ [v]) = 8%nat) by lia.
      rewrite write_u8_app by
        (try (apply byte_of_bits_u8; lia); unfold bytes_for in Hr; lia).
      pose proof (IH [] (wapp w [byte_of_bits (ps ++ [v])])) as IH0.
      change (byte_of_bits []) with 0 in IH0. change (N.of_nat (List.length (@nil bool))) with 0 in IH0.
      rewrite IH0.
      * rewrite wapp_wapp. f_equal.
        replace (ps ++ v :: map snd vs) with ((ps ++ [v]) ++ map snd vs)
          by (rewrite <- app_assoc; reflexivity).
        rewrite (pack_app8 (ps ++ [v])) by exact H8. reflexivity.
      * simpl; lia.
      * rewrite wapp_room. rewrite app_length in H8. simpl List.length in *.
        unfold bytes_for in *. lia.
    + rewrite app_length in E. simpl List.length in E.
      rewrite IH.
      * f_equal. f_equal. rewrite <- app_assoc. reflexivity.
      * rewrite app_length; simpl; lia.
      * rewrite app_length. simpl List.length. unfold bytes_for in *. lia.
Qed.

Lemma coil_byte_spec : forall n values ps,
  (n + List.length ps = 8)%nat ->
  coil_byte values (byte_of_bits ps) (N.of_nat (List.length ps)) n
  = (byte_of_bits (ps ++ firstn n values), skipn n values).
Proof.
  induction n as [|n IH]; intros values ps H.
  - cbn. rewrite app_nil_r. reflexivity.
  - destruct values as [|v values]; cbn [coil_byte firstn skipn].
    + rewrite app_nil_r. reflexivity.
    + rewrite lor_next_bit.
      rewrite to_u8_id by (apply byte_of_bits_u8; rewrite app_length; simpl; lia).
      replace (N.of_nat (List.length ps) + 1) with (N.of_nat (List.length (ps ++ [v])))
        by (rewrite app_length; simpl; lia).
      rewrite IH by (rewrite app_length; simpl; lia).
      rewrite <- app_assoc. reflexivity.
Qed.

Lemma coil_bytes_spec : forall n values w,
  (n <= w_room w)%nat ->
  coil_bytes n values w = wapp w (pack_n n values).
Proof.
  induction n as [|n IH]; intros values w H.
  - symmetry; apply wapp_nil.
  - cbn [coil_bytes pack_n].
    pose proof (coil_byte_spec 8 values [] ltac:(reflexivity)) as E.
    change (byte_of_bits []) with 0 in E. change (N.of_nat (List.length (@nil bool))) with 0 in E.
    rewrite E. cbn [app].
    rewrite write_u8_app by
      (try (apply byte_of_bits_u8; rewrite firstn_length; lia); lia).
    rewrite IH by (rewrite wapp_room; simpl; lia).
    rewrite wapp_wapp. reflexivity.
Qed.

(** ** The bytes of each message *)
Definition enc_request (r : request) : list N :=
  match r with
  | ReadCoils s q => [1] ++ be16 s ++ be16 q
  | ReadDiscreteInputs s q => [2] ++ be16 s ++ be16 q
  | ReadHoldingRegisters s q => [3] ++ be16 s ++ be16 q
  | ReadInputRegisters s q => [4] ++ be16 s ++ be16 q
  | WriteSingleCoil a v => [5] ++ be16 a ++ be16 (coil_word v)
  | WriteSingleRegister a v => [6] ++ be16 a ++ be16 v
  | WriteMultipleCoils s vs => [15] ++ be16 s ++ be16 (size vs) ++ [size (pack vs)] ++ pack vs
  | WriteMultipleRegisters s vs => [16] ++ be16 s ++ be16 (size vs) ++ [2 * size vs] ++ be16s vs
  end.

Definition enc_response (r : response) : list N :=
  match r with
  | CoilsRead vs => [1; size (pack (map snd vs))] ++ pack (map snd vs)
  | DiscreteInputsRead vs => [2; size (pack (map snd vs))] ++ pack (map snd vs)
  | HoldingRegistersRead vs => [3; 2 * size vs] ++ be16s (map snd vs)
  | InputRegistersRead vs => [4; 2 * size vs] ++ be16s (map snd vs)
  | SingleCoilWritten a v => [5] ++ be16 a ++ be16 (coil_word v)
  | SingleRegisterWritten a v => [6] ++ be16 a ++ be16 v
  | MultipleCoilsWritten s q => [15] ++ be16 s ++ be16 q
  | MultipleRegistersWritten s q => [16] ++ be16 s ++ be16 q
  end.

Definition enc_exception (fc : N) (t : exception_type) : list N :=
  [fc + 128; exception_value t].

(** A sequence of writes is turned into one append from the inside out. *)
Ltac wready w := first [ is_var w | match w with wapp _ _ => idtac end ].
Ltac wroom := rewrite ?wapp_room, ?be16_length; cbn [List.length]; lia.
Ltac wstep :=
  match goal with
  | |- context [write_u8 ?w ?v] =>
      wready w;
      rewrite (write_u8_app w v);
      [ | wroom | first [ assumption | (apply u8_lit; reflexivity) | (unfold u8; lia) ] ]
  | |- context [write_u16 ?w ?v] =>
      wready w;
      rewrite (write_u16_app w v);
      [ | wroom | first [ assumption | (unfold u16; lia) ] ]
  end.

Lemma three_writes fc a b w :
  u8 fc -> u16 a -> u16 b -> (5 <= w_room w)%nat ->
  write_u16 (write_u16 (write_u8 w fc) a) b = wapp w ([fc] ++ be16 a ++ be16 b).
Proof.
  intros Hf Ha Hb Hr. do 3 wstep. rewrite !wapp_wapp. reflexivity.
Qed.

Lemma coil_word_u16 v : u16 (coil_word v).
Proof. destruct v; unfold u16; simpl; lia. Qed.

Lemma size_pack vs : size (pack vs) = byte_count_of_bits (size vs).
Proof. unfold size. rewrite pack_length, byte_count_bytes_for. reflexivity. Qed.

Lemma request_valid_range r :
  typed_request r -> im_valid (request_message r) = true -> quantity_in_range r.
Proof.
  destruct r; cbn [typed_request quantity_in_range request_message im_valid];
    unfold ReadBitsRequest_is_valid, ReadBits_request_max,
      ReadRegistersRequest_is_valid, ReadRegisters_request_max,
      WriteMultipleCoilsRequest_is_valid, WriteMultipleCoils_max,
      WriteMultipleRegistersRequest_is_valid, WriteMultipleRegisters_max;
    intros; trivial; lia.
Qed.

Lemma request_range_valid r :
  quantity_in_range r -> im_valid (request_message r) = true.
Proof.
  destruct r; cbn [typed_request quantity_in_range request_message im_valid];
    unfold ReadBitsRequest_is_valid, ReadBits_request_max,
      ReadRegistersRequest_is_valid, ReadRegisters_request_max,
      WriteMultipleCoilsRequest_is_valid, WriteMultipleCoils_max,
      WriteMultipleRegistersRequest_is_valid, WriteMultipleRegisters_max;
    intros; trivial; lia.
Qed.

Lemma enc_request_length r : legal_request r -> size (enc_request r) = im_length (request_message r).
Proof.
  intros [Ht Hq]. destruct r; cbn [enc_request request_message im_length quantity_in_range] in *;
    try reflexivity.
  - unfold WriteMultipleCoilsRequest_length. rewrite <- size_pack.
    rewrite !size_app. change (size [15]) with 1. change (size (be16 start)) with 2.
    change (size (be16 (size values))) with 2. change (size [size (pack values)]) with 1. lia.
  - unfold WriteMultipleRegistersRequest_length.
    rewrite !size_app. change (size [16]) with 1. change (size (be16 start)) with 2.
    change (size (be16 (size values))) with 2. change (size [2 * size values]) with 1.
    unfold size at 1. rewrite be16s_length. unfold size. lia.
Qed.

Lemma request_length_bound r : legal_request r -> im_length (request_message r) <= 253.
Proof.
  intros [Ht Hq]. destruct r; cbn [request_message im_length quantity_in_range] in *; try lia.
  - unfold WriteMultipleCoilsRequest_length, byte_count_of_bits. destruct (negb _) eqn:?; lia.
  - unfold WriteMultipleRegistersRequest_length. lia.
Qed.

Lemma build_request r w :
  legal_request r -> (N.to_nat (im_length (request_message r)) <= w_room w)%nat ->
  im_build (request_message r) w = wapp w (enc_request r).
Proof.
  intros [Ht Hq] Hr.
  assert (Hl := enc_request_length r (conj Ht Hq)).
  rewrite <- Hl in Hr. clear Hl.
  destruct r; cbn [typed_request quantity_in_range] in *; cbn [request_message im_build enc_request] in *.
  - apply three_writes; [apply u8_lit; reflexivity|tauto|tauto|exact Hr].
  - apply three_writes; [apply u8_lit; reflexivity|tauto|tauto|exact Hr].
  - apply three_writes; [apply u8_lit; reflexivity|tauto|tauto|exact Hr].
  - apply three_writes; [apply u8_lit; reflexivity|tauto|tauto|exact Hr].
  - apply three_writes; [apply u8_lit; reflexivity|exact Ht|apply coil_word_u16|exact Hr].
  - apply three_writes; [apply u8_lit; reflexivity|tauto|tauto|exact Hr].
  - unfold WriteMultipleCoilsRequest_build.
    unfold size at 1 in Hr. rewrite Nat2N.id in Hr. rewrite !app_length in Hr.
    cbn [List.length be16] in Hr. rewrite pack_length in Hr.
    assert (Hbc : byte_count_of_bits (size values) <= 246)
      by (unfold byte_count_of_bits; destruct (negb _) eqn:?; lia).
    rewrite <- size_pack in *.
    rewrite (to_u16_id (size values)) by (unfold u16; lia).
    rewrite to_u8_id by (unfold u8; lia).
    do 4 wstep.
    assert (Hnb : N.to_nat (size (pack values)) = bytes_for (List.length values))
      by (unfold size; rewrite Nat2N.id; apply pack_length).
    rewrite coil_bytes_spec; rewrite Hnb.
    + rewrite !wapp_wapp. fold (pack values).
      f_equal.
    + rewrite !wapp_room. cbn [List.length be16]. lia.
  - unfold WriteMultipleRegistersRequest_build. destruct Ht as [Hs Hv].
    unfold size at 1 in Hr. rewrite Nat2N.id in Hr. rewrite !app_length in Hr.
    cbn [List.length be16] in Hr. rewrite be16s_length in Hr.
    rewrite (to_u16_id (size values)) by (unfold u16; lia).
    rewrite to_u8_id by (unfold u8; lia).
    do 4 wstep.
    rewrite (fold_write_u16 (fun v => v)).
    + rewrite map_id, !wapp_wapp. f_equal.
    + rewrite map_id. exact Hv.
    + rewrite !wapp_room. cbn [List.length be16]. lia.
Qed.

Lemma enc_response_length r : size (enc_response r) = im_length (response_message r).
Proof.
  destruct r; cbn [enc_response response_message im_length]; try reflexivity;
    rewrite size_app; unfold ReadBitsResponse_length, ReadRegistersResponse_length.
  - rewrite size_pack. change (size [_; _]) with 2. unfold size. rewrite map_length. reflexivity.
  - rewrite size_pack. change (size [_; _]) with 2. unfold size. rewrite map_length. reflexivity.
  - change (size [_; _]) with 2. unfold size. rewrite be16s_length, map_length. lia.
  - change (size [_; _]) with 2. unfold size. rewrite be16s_length, map_length. lia.
Qed.

Lemma response_length_bound r : response_fits r -> im_length (response_message r) <= 253.
Proof.
  destruct r; cbn [response_message im_length response_fits];
    unfold ReadBitsResponse_length, ReadRegistersResponse_length, byte_count_of_bits; intros; try lia;
    destruct (negb _) eqn:?; lia.
Qed.

Lemma build_bits_response fc vs w :
  u8 fc -> size vs <= 8 * 251 ->
  (N.to_nat (ReadBitsResponse_length vs) <= w_room w)%nat ->
  ReadBitsResponse_build fc vs w
  = wapp w ([fc; size (pack (map snd vs))] ++ pack (map snd vs)).
Proof.
  intros Hf Hs Hr. unfold ReadBitsResponse_build.
  assert (Hsz : size (pack (map snd vs)) = byte_count_of_bits (size vs))
    by (rewrite size_pack; unfold size; rewrite map_length; reflexivity).
  unfold ReadBitsResponse_length in *.
  replace (2 + byte_count_of_bits (size vs) - 2) with (byte_count_of_bits (size vs)) by lia.
  assert (Hbc : byte_count_of_bits (size vs) <= 251)
    by (unfold byte_count_of_bits; destruct (negb _) eqn:?; lia).
  rewrite <- Hsz in *.
  rewrite to_u8_id by (unfold u8; lia).
  do 2 wstep.
  pose proof (bits_fold vs [] (wapp (wapp w [fc]) [size (pack (map snd vs))])) as H.
  cbn [List.length] in H. specialize (H ltac:(lia)).
  unfold size in Hr at 1. rewrite pack_length, map_length in Hr.
  unfold bits_finish in H. change (byte_of_bits []) with 0 in H.
  change (N.of_nat 0) with 0 in H.
  rewrite H.
  - rewrite !wapp_wapp. f_equal.
  - rewrite !wapp_room. cbn [List.length]. unfold bytes_for in *. lia.
Qed.

Lemma build_registers_response fc vs w :
  u8 fc -> size vs <= 125 -> Forall u16 (map snd vs) ->
  (N.to_nat (ReadRegistersResponse_length vs) <= w_room w)%nat ->
  ReadRegistersResponse_build fc vs w
  = wapp w ([fc; 2 * size vs] ++ be16s (map snd vs)).
Proof.
  intros Hf Hs Hv Hr. unfold ReadRegistersResponse_build, ReadRegistersResponse_length in *.
  replace (2 + size vs * 2 - 2) with (2 * size vs) by lia.
  rewrite to_u8_id by (unfold u8; lia).
  unfold size in *.
  do 2 wstep.
  rewrite (fold_write_u16 snd) by (try assumption; rewrite !wapp_room; cbn [List.length]; lia).
  rewrite !wapp_wapp. reflexivity.
Qed.

Lemma build_response r w :
  typed_response r -> response_fits r ->
  (N.to_nat (im_length (response_message r)) <= w_room w)%nat ->
  im_build (response_message r) w = wapp w (enc_response r).
Proof.
  intros Ht Hf Hr.
  destruct r; cbn [typed_response response_fits] in *; cbn [response_message im_build im_length enc_response] in *.
  - apply build_bits_response; [apply u8_lit; reflexivity|exact Hf|exact Hr].
  - apply build_bits_response; [apply u8_lit; reflexivity|exact Hf|exact Hr].
  - apply build_registers_response; [apply u8_lit; reflexivity|exact Hf|tauto|exact Hr].
  - apply build_registers_response; [apply u8_lit; reflexivity|exact Hf|tauto|exact Hr].
  - apply three_writes; [apply u8_lit; reflexivity|exact Ht|apply coil_word_u16|exact Hr].
  - apply three_writes; [apply u8_lit; reflexivity|tauto|tauto|exact Hr].
  - apply three_writes; [apply u8_lit; reflexivity|tauto|tauto|exact Hr].
  - unfold WriteMultipleRegistersResponse_build. rewrite to_u16_id by tauto.
    apply three_writes; [apply u8_lit; reflexivity|tauto|tauto|exact Hr].
Qed.

Lemma lor_128 fc : fc < 128 -> N.lor fc 128 = fc + 128.
Proof.
  intros H. symmetry. rewrite N.add_nocarry_lxor, N.lxor_lor; auto.
  - apply N.bits_inj_0. intros i. rewrite N.land_spec. change 128 with (2 ^ 7).
    rewrite N.pow2_bits_eqb. destruct (7 =? i) eqn:E; [|apply andb_false_r].
    apply N.eqb_eq in E. subst i.
    destruct (N.eq_dec fc 0) as [->|Hn]; [reflexivity|].
    rewrite N.bits_above_log2; [reflexivity|]. apply N.log2_lt_pow2; [lia|]. exact H.
  - apply N.bits_inj_0. intros i. rewrite N.land_spec. change 128 with (2 ^ 7).
    rewrite N.pow2_bits_eqb. destruct (7 =? i) eqn:E; [|apply andb_false_r].
    apply N.eqb_eq in E. subst i.
    destruct (N.eq_dec fc 0) as [->|Hn]; [reflexivity|].
    rewrite N.bits_above_log2; [reflexivity|]. apply N.log2_lt_pow2; [lia|]. exact H.
Qed.

Lemma exception_value_u8 t : u8 (exception_value t).
Proof. destruct t; apply u8_lit; reflexivity. Qed.

Lemma build_exception fc t w :
  fc < 128 -> (2 <= w_room w)%nat ->
  im_build (ExceptionResponse fc t) w = wapp w (enc_exception fc t).
Proof.
  intros Hf Hr. cbn [ExceptionResponse im_build]. unfold ExceptionResponse_build.
  rewrite lor_128 by exact Hf. rewrite to_u8_id by apply exception_value_u8.
  pose proof (exception_value_u8 t). do 2 wstep.
  rewrite wapp_wapp. reflexivity.
Qed.

(** ** Conformance to the specification *)
Lemma enc_request_pdu r : request_pdu r (enc_request r).
Proof.
  destruct r; cbn; try reflexivity.
  exists (pack values). split; [apply pack_field0|reflexivity].
Qed.

Lemma enc_response_pdu r : response_pdu r (enc_response r).
Proof.
  destruct r; cbn [response_pdu response_pdu_with enc_response]; try reflexivity.
  - exists (pack (map snd values)). split; [apply pack_field0|reflexivity].
  - exists (pack (map snd values)). split; [apply pack_field0|reflexivity].
Qed.

Lemma request_pdu_unique r a b : request_pdu r a -> request_pdu r b -> a = b.
Proof.
  destruct r; cbn; try congruence.
  intros (d & Hd & ->) (d' & Hd' & ->). rewrite (field0_unique _ _ _ Hd Hd'). reflexivity.
Qed.

Lemma response_pdu_unique r a b : response_pdu r a -> response_pdu r b -> a = b.
Proof.
  destruct r; cbn; try congruence;
  intros (d & Hd & ->) (d' & Hd' & ->); rewrite (field0_unique _ _ _ Hd Hd'); reflexivity.
Qed.

Lemma enc_request_bytes r : legal_request r -> bytes (enc_request r).
Proof.
  intros [Ht Hq].
  assert (H0 : forall s q fc, u8 fc -> u16 s -> u16 q -> bytes ([fc] ++ be16 s ++ be16 q)).
  { intros s q fc Hf Hs Hq'. apply Forall_app; split; [repeat constructor; exact Hf|].
    apply Forall_app; split; apply be16_bytes; assumption. }
  destruct r; cbn [typed_request quantity_in_range enc_request] in *;
    try (apply H0; [apply u8_lit; reflexivity|tauto|tauto]).
  - apply H0; [apply u8_lit; reflexivity|exact Ht|apply coil_word_u16].
  - rewrite (app_assoc _ (be16 (size values))). rewrite app_assoc.
    apply Forall_app; split; [apply H0; [apply u8_lit; reflexivity|exact Ht|unfold u16; lia]|].
    apply Forall_app; split; [|apply pack_bytes].
    constructor; [|constructor]. rewrite size_pack. unfold u8, byte_count_of_bits. destruct (negb _) eqn:?; lia.
  - destruct Ht. rewrite (app_assoc _ (be16 (size values))). rewrite app_assoc.
    apply Forall_app; split; [apply H0; [apply u8_lit; reflexivity|assumption|unfold u16; lia]|].
    apply Forall_app; split; [|apply be16s_bytes; assumption].
    constructor; [|constructor]. unfold u8; lia.
Qed.

Lemma enc_response_bytes r : typed_response r -> response_fits r -> bytes (enc_response r).
Proof.
  intros Ht Hq.
  assert (H0 : forall s q fc, u8 fc -> u16 s -> u16 q -> bytes ([fc] ++ be16 s ++ be16 q)).
  { intros s q fc Hf Hs Hq'. apply Forall_app; split; [repeat constructor; exact Hf|].
    apply Forall_app; split; apply be16_bytes; assumption. }
  assert (H1 : forall fc (vs : list (N * bool)), u8 fc -> size vs <= 8 * 251 ->
             bytes ([fc; size (pack (map snd vs))] ++ pack (map snd vs))).
  { intros fc vs Hf Hs. apply Forall_app; split; [|apply pack_bytes].
    constructor; [exact Hf|]. constructor; [|constructor].
    rewrite size_pack. unfold size in *. rewrite map_length.
    unfold u8, byte_count_of_bits. destruct (negb _) eqn:?; lia. }
  assert (H2 : forall fc (vs : list (N * N)), u8 fc -> size vs <= 125 -> Forall u16 (map snd vs) ->
             bytes ([fc; 2 * size vs] ++ be16s (map snd vs))).
  { intros fc vs Hf Hs Hv. apply Forall_app; split; [|apply be16s_bytes; exact Hv].
    constructor; [exact Hf|]. constructor; [|constructor]. unfold u8; lia. }
  destruct r; cbn [typed_response response_fits enc_response] in *.
  - apply H1; [apply u8_lit; reflexivity|exact Hq].
  - apply H1; [apply u8_lit; reflexivity|exact Hq].
  - apply H2; [apply u8_lit; reflexivity|exact Hq|tauto].
  - apply H2; [apply u8_lit; reflexivity|exact Hq|tauto].
  - apply H0; [apply u8_lit; reflexivity|exact Ht|apply coil_word_u16].
  - apply H0; [apply u8_lit; reflexivity|tauto|tauto].
  - apply H0; [apply u8_lit; reflexivity|tauto|tauto].
  - apply H0; [apply u8_lit; reflexivity|tauto|tauto].
Qed.
