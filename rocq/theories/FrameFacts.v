(** Proofs about frames built by [mbap_build], including frames of messages that
    do not fit. *)
From Verif Require Import Prelude Ser4 Messages Mbap Tac SpecPdu SpecMbap BitFacts BuildFacts CodecLemmas MbapFacts Server SpecServer.

Definition header_bytes (tx unit len : N) : list N := be16 tx ++ [0; 0] ++ be16 len ++ [unit].

Lemma header_length tx unit len : List.length (header_bytes tx unit len) = 7%nat.
Proof. reflexivity. Qed.

Lemma mbap_header unit tx len :
  u16 tx -> u8 unit -> u16 len ->
  write_u8 (write_u16 (write_u16 (write_u16 (wseq_new 260) tx) 0) len) unit
  = wapp (wseq_new 260) (header_bytes tx unit len).
Proof.
  intros Ht Hu Hl.
  rewrite (write_u16_app (wseq_new 260)) by (assumption || (cbn; lia)).
  rewrite (write_u16_app (wapp _ _) 0) by ((rewrite wapp_room; cbn; lia) || (unfold u16; lia)).
  rewrite wapp_wapp.
  rewrite write_u16_app by (assumption || (rewrite wapp_room; cbn; lia)).
  rewrite wapp_wapp.
  rewrite write_u8_app by (assumption || (rewrite wapp_room; cbn; lia)).
  rewrite wapp_wapp. reflexivity.
Qed.

(** A message that fits. *)
Lemma mbap_build_fits unit tx m enc :
  u16 tx -> u8 unit -> im_length m <= 253 -> size enc = im_length m ->
  (forall w, (N.to_nat (im_length m) <= w_room w)%nat -> im_build m w = wapp w enc) ->
  mbap_build 260 unit tx m = map Some (frame_bytes tx unit enc).
Proof.
  intros Ht Hu Hl Hs Hb. unfold mbap_build.
  replace (253 <? im_length m) with false by lia.
  rewrite mbap_header; [|assumption|assumption|unfold u16, to_u16; lia].
  rewrite Hb by (rewrite wapp_room, header_length; cbn; lia).
  rewrite wapp_wapp. unfold w_storage. cbn [wapp w_out wseq_new app].
  replace (to_u16 (im_length m + 1)) with (1 + im_length m) by (unfold to_u16; lia).
  assert (E : header_bytes tx unit (1 + im_length m) ++ enc = frame_bytes tx unit enc).
  { unfold frame_bytes, item_bytes, frame, header_bytes, announced, body_of.
    cbn [i_tx i_proto i_unit i_body]. rewrite Hs, <- !app_assoc. reflexivity. }
  rewrite E. rewrite firstn_app.
  assert (L : List.length (map Some (frame_bytes tx unit enc)) = N.to_nat (im_length m + 7)).
  { rewrite map_length, <- E, app_length, header_length. unfold size in Hs. lia. }
  rewrite L, Nat.sub_diag, app_nil_r, firstn_all2 by lia. reflexivity.
Qed.

(** ** Writes that may run out of room *)
Lemma sat_u8 w v : exists l, write_u8 w v = wapp w l /\ bytes l /\
  List.length l = Nat.min 1 (w_room w).
Proof.
  unfold write_u8. destruct (Nat.le_gt_cases 1 (w_room w)).
  - exists [to_u8 v]. rewrite wput_app by (cbn; lia). repeat split; [|cbn [List.length]; lia].
    repeat constructor. unfold u8, to_u8. lia.
  - exists []. rewrite wput_full by (cbn; lia). rewrite wapp_nil. repeat split; [constructor|].
    cbn [List.length]. lia.
Qed.

Lemma sat_bits vs : forall w b off, off < 8 ->
  exists l b' off', fold_left ReadBitsResponse_bit vs (w, b, off) = (wapp w l, b', off') /\ bytes l /\
    List.length l = Nat.min (w_room w) (N.to_nat ((off + size vs) / 8)).
Proof.
  induction vs as [|[a v] vs IH]; intros w b off Ho; cbn [fold_left].
  - exists [], b, off. rewrite wapp_nil. repeat split; [constructor|].
    unfold size. cbn [List.length]. lia.
  - rewrite size_cons. unfold ReadBitsResponse_bit at 2. set (cb := if snd (a, v) then _ else b).
    replace (to_u8 (off + 1)) with (off + 1) by (unfold to_u8; lia).
    destruct (N.eqb_spec (off + 1) 8) as [E|E].
    + destruct (sat_u8 w cb) as (l & -> & Hl & Ll).
      destruct (IH (wapp w l) 0 0 ltac:(lia)) as (l' & b' & off' & -> & Hl' & Ll').
      exists (l ++ l'), b', off'. rewrite wapp_wapp. split; [reflexivity|].
      split; [apply Forall_app; auto|]. rewrite app_length, Ll', Ll, wapp_room, Ll.
      replace ((off + (1 + size vs)) / 8) with (1 + (0 + size vs) / 8) by lia. lia.
    + destruct (IH w cb (off + 1) ltac:(lia)) as (l' & b' & off' & -> & Hl' & Ll').
      exists l', b', off'. repeat split; auto. rewrite Ll'. do 2 f_equal. lia.
Qed.

Lemma sat_registers {A} (f : A -> N) vs : forall w,
  exists l, fold_left (fun w v => write_u16 w (f v)) vs w = wapp w l /\ bytes l /\
    List.length l = (2 * Nat.min (List.length vs) (w_room w / 2))%nat.
Proof.
  induction vs as [|v vs IH]; intros w; cbn [fold_left List.length].
  - exists []. rewrite wapp_nil. repeat split; constructor.
  - unfold write_u16 at 2. destruct (Nat.le_gt_cases 2 (w_room w)).
    + rewrite wput_app by (cbn; lia). destruct (IH (wapp w [to_u8 (f v / 256); to_u8 (f v)])) as (l & -> & Hl & Ll).
      exists ([to_u8 (f v / 256); to_u8 (f v)] ++ l). rewrite wapp_wapp. split; [reflexivity|]. split.
      * apply Forall_app. split; [|exact Hl]. repeat constructor; unfold u8, to_u8; lia.
      * rewrite app_length, Ll, wapp_room. cbn [List.length].
        pose proof (Nat.div_mod_eq (w_room w) 2). pose proof (Nat.mod_upper_bound (w_room w) 2 ltac:(lia)).
        pose proof (Nat.div_mod_eq (w_room w - 2) 2). pose proof (Nat.mod_upper_bound (w_room w - 2) 2 ltac:(lia)). lia.
    + rewrite wput_full by (cbn; lia). destruct (IH w) as (l & -> & Hl & Ll). exists l. repeat split; auto.
      rewrite Ll. rewrite (Nat.div_small (w_room w) 2) by lia. lia.
Qed.

Lemma build_bits_sat fc vs w :
  u8 fc -> (2 <= w_room w)%nat -> 8 * N.of_nat (w_room w - 2) < size vs ->
  exists c l, ReadBitsResponse_build fc vs w = wapp w ([fc; c] ++ l) /\ u8 c /\ bytes l /\
    List.length l = (w_room w - 2)%nat.
Proof.
  intros Hf Hr Hn. unfold ReadBitsResponse_build. set (c := to_u8 _).
  assert (Hc : u8 c) by (unfold c, u8, to_u8; lia).
  rewrite (write_u8_app w fc) by (assumption || lia).
  rewrite write_u8_app by (assumption || (rewrite wapp_room; cbn; lia)). rewrite wapp_wapp. cbn [app].
  destruct (sat_bits vs (wapp w [fc; c]) 0 0 ltac:(lia)) as (l & b' & off' & -> & Hl & Ll).
  rewrite wapp_room in Ll. cbn [List.length] in Ll. rewrite Nat.min_l in Ll by lia.
  exists c, l. destruct (negb (off' =? 0)).
  - destruct (sat_u8 (wapp (wapp w [fc; c]) l) b') as (l' & -> & _ & Ll').
    rewrite !wapp_room in Ll'. cbn [List.length] in Ll'. rewrite Ll in Ll'.
    destruct l'; [|cbn [List.length] in Ll'; lia]. rewrite wapp_nil, wapp_wapp. auto.
  - rewrite wapp_wapp. auto.
Qed.

Lemma build_registers_sat fc vs w :
  u8 fc -> w_room w = 253%nat -> 125 < size vs ->
  exists c l, ReadRegistersResponse_build fc vs w = wapp w ([fc; c] ++ l) /\ u8 c /\ bytes l /\
    List.length l = 250%nat.
Proof.
  intros Hf Hr Hn. unfold ReadRegistersResponse_build. set (c := to_u8 _).
  assert (Hc : u8 c) by (unfold c, u8, to_u8; lia).
  rewrite (write_u8_app w fc) by (assumption || lia).
  rewrite write_u8_app by (assumption || (rewrite wapp_room; cbn; lia)). rewrite wapp_wapp. cbn [app].
  destruct (sat_registers snd vs (wapp w [fc; c])) as (l & -> & Hl & Ll).
  rewrite wapp_room, Hr in Ll. cbn [List.length] in Ll.
  change ((253 - 2) / 2)%nat with 125%nat in Ll. unfold size in Hn. rewrite Nat.min_r in Ll by lia.
  exists c, l. rewrite wapp_wapp. auto.
Qed.

Lemma fits_dec r : response_fits r \/ ~ response_fits r.
Proof. destruct r; cbn; try (left; exact I); lia. Qed.

Lemma response_view_fits tx unit r :
  u16 tx -> u8 unit -> typed_response r -> response_fits r ->
  mbap_build 260 unit tx (response_message r) = map Some (frame_bytes tx unit (enc_response r)).
Proof.
  intros Ht Hu Hr Hf. apply mbap_build_fits; auto using response_length_bound, enc_response_length.
  intros w. apply build_response; assumption.
Qed.

Lemma response_view_long tx unit r :
  u16 tx -> u8 unit -> ~ response_fits r ->
  exists pdu, mbap_build 260 unit tx (response_message r)
     = map Some (header_bytes tx unit 254 ++ response_code r :: pdu) ++ (if register_response r then [None] else []) /\
    bytes pdu /\ List.length pdu = if register_response r then 251%nat else 252%nat.
Proof.
  intros Ht Hu Hf.
  assert (B : forall fc (vs : list (N * bool)), u8 fc -> ~ size vs <= 8 * 251 ->
    forall m, m = {| im_valid := true; im_length := ReadBitsResponse_length vs;
                     im_build := ReadBitsResponse_build fc vs |} ->
    exists pdu, mbap_build 260 unit tx m = map Some (header_bytes tx unit 254 ++ fc :: pdu) ++ [] /\
      bytes pdu /\ List.length pdu = 252%nat).
  { intros fc vs Hfc Hn m ->.
    destruct (build_bits_sat fc vs (wapp (wseq_new 260) (header_bytes tx unit 254)) Hfc) as (c & l & E & Hc & Hl & Ll).
    { rewrite wapp_room, header_length; cbn; lia. }
    { rewrite wapp_room, header_length. unfold w_room. cbn [wseq_new w_cap w_out List.length]. lia. }
    rewrite wapp_room, header_length in Ll. cbn in Ll.
    exists (c :: l). split; [|split; [constructor; assumption|cbn [List.length]; lia]].
    unfold mbap_build. cbn [im_length im_build].
    replace (253 <? ReadBitsResponse_length vs) with true
      by (unfold ReadBitsResponse_length, byte_count_of_bits; destruct (negb _) eqn:?; lia).
    change (to_u16 (253 + 1)) with 254. change (N.to_nat (253 + 7)) with 260%nat.
    rewrite mbap_header; [|assumption|assumption|unfold u16; lia].
    rewrite E, wapp_wapp. unfold w_storage. rewrite wapp_room.
    cbn [wapp w_out wseq_new app]. rewrite app_nil_r.
    match goal with |- context[repeat None ?n] => assert (Hz : n = 0%nat) end.
    { rewrite app_length, header_length. unfold w_room. cbn [wseq_new w_cap w_out List.length]. lia. }
    rewrite Hz, app_nil_r. apply firstn_all2.
    rewrite map_length, app_length, header_length. cbn [List.length]. lia. }
  assert (G : forall fc (vs : list (N * N)), u8 fc -> ~ size vs <= 125 ->
    forall m, m = {| im_valid := true; im_length := ReadRegistersResponse_length vs;
                     im_build := ReadRegistersResponse_build fc vs |} ->
    exists pdu, mbap_build 260 unit tx m = map Some (header_bytes tx unit 254 ++ fc :: pdu) ++ [None] /\
      bytes pdu /\ List.length pdu = 251%nat).
  { intros fc vs Hfc Hn m ->.
    destruct (build_registers_sat fc vs (wapp (wseq_new 260) (header_bytes tx unit 254)) Hfc) as (c & l & E & Hc & Hl & Ll).
    { rewrite wapp_room, header_length. reflexivity. }
    { lia. }
    exists (c :: l). split; [|split; [constructor; assumption|cbn [List.length]; lia]].
    unfold mbap_build. cbn [im_length im_build].
    replace (253 <? ReadRegistersResponse_length vs) with true
      by (unfold ReadRegistersResponse_length; lia).
    change (to_u16 (253 + 1)) with 254. change (N.to_nat (253 + 7)) with 260%nat.
    rewrite mbap_header; [|assumption|assumption|unfold u16; lia].
    rewrite E, wapp_wapp. unfold w_storage. rewrite wapp_room.
    cbn [wapp w_out wseq_new app].
    match goal with |- context[repeat None ?n] => assert (Hz : n = 1%nat) end.
    { rewrite app_length, header_length. unfold w_room. cbn [wseq_new w_cap w_out List.length]. lia. }
    rewrite Hz. apply firstn_all2.
    rewrite app_length, map_length, app_length, header_length. cbn [List.length repeat]. lia. }
  destruct r; cbn [response_fits] in Hf; try tauto;
    cbn [response_message response_code register_response];
    [eapply B|eapply B|eapply G|eapply G]; try reflexivity; try exact Hf; apply u8_lit; reflexivity.
Qed.

Lemma lor_top fc : u8 fc -> N.lor fc 128 = fc mod 128 + 128.
Proof.
  intros H. destruct (N.lt_ge_cases fc 128) as [L|L].
  - rewrite lor_128 by exact L. rewrite N.mod_small by exact L. reflexivity.
  - unfold u8 in H. replace fc with (fc - 128 + 128) at 1 by lia.
    rewrite <- (lor_128 (fc - 128)) by lia.
    rewrite <- N.lor_assoc, N.lor_diag, lor_128 by lia.
    replace (fc mod 128) with (fc - 128); [reflexivity|].
    replace fc with ((fc - 128) + 1 * 128) at 2 by lia. rewrite N.mod_add, N.mod_small by lia. reflexivity.
Qed.

Lemma exception_view_build tx unit fc t :
  u16 tx -> u8 unit -> u8 fc ->
  mbap_build 260 unit tx (ExceptionResponse fc t) = exception_view tx unit fc t.
Proof.
  intros Ht Hu Hf. unfold exception_view. apply mbap_build_fits; auto; try reflexivity.
  - cbn. lia.
  - intros w Hw. cbn [ExceptionResponse im_length] in Hw. cbn [ExceptionResponse im_build].
    unfold ExceptionResponse_build. rewrite lor_top by exact Hf.
    rewrite to_u8_id by apply exception_value_u8.
    pose proof (exception_value_u8 t).
    rewrite (write_u8_app w) by (unfold u8 in *; lia).
    rewrite write_u8_app by (try (rewrite wapp_room; cbn); unfold u8 in *; lia).
    rewrite wapp_wapp. reflexivity.
Qed.

Lemma response_view_build tx unit r :
  u16 tx -> u8 unit -> typed_response r ->
  response_view tx unit r (mbap_build 260 unit tx (response_message r)).
Proof.
  intros Ht Hu Hr. split; intros Hf.
  - exists (enc_response r). split; [apply enc_response_pdu|]. apply response_view_fits; assumption.
  - destruct (response_view_long tx unit r Ht Hu Hf) as (pdu & -> & Hp & L).
    split.
    + exists (map Some pdu ++ if register_response r then [None] else []). split.
      * rewrite app_assoc, <- map_app. reflexivity.
      * unfold size. rewrite app_length, map_length, app_length, header_length. cbn [List.length].
        destruct (register_response r); cbn [List.length]; lia.
    + eexists. split; [|reflexivity]. apply Forall_app. split.
      * unfold header_bytes. apply Forall_app. split; [apply be16_bytes; exact Ht|].
        apply Forall_app. split; [repeat constructor|].
        apply Forall_app. split; [apply be16_bytes; unfold u16; lia|]. repeat constructor. exact Hu.
      * constructor; [|exact Hp]. destruct r; unfold u8; cbn; lia.
Qed.
