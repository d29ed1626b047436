(** Lemmas in the form used by PropsCodec.v. *)
From Verif Require Import Tac Ser4 Messages SpecPdu BitFacts BuildFacts ParseReqFacts ParseRespFacts.

(** ** What a serialiser adds, for any field values at all *)
Definition adds (n : nat) (w w' : wseq) : Prop :=
  exists l, List.length l = n /\ bytes l /\ w' = wapp w l.

Lemma adds_refl w : adds 0 w w.
Proof. exists []. rewrite wapp_nil. repeat constructor. Qed.

Lemma adds_trans n m w w1 w2 : adds n w w1 -> adds m w1 w2 -> adds (n + m) w w2.
Proof.
  intros (l1 & H1 & B1 & ->) (l2 & H2 & B2 & ->). exists (l1 ++ l2).
  rewrite app_length, wapp_wapp. repeat split; [lia|]. apply Forall_app; split; assumption.
Qed.

Lemma adds_room n w w' : adds n w w' -> w_room w' = (w_room w - n)%nat.
Proof. intros (l & H & _ & ->). rewrite wapp_room. lia. Qed.

Lemma adds_u8 w v : (1 <= w_room w)%nat -> adds 1 w (write_u8 w v).
Proof.
  intros H. exists [to_u8 v]. split; [reflexivity|]. split.
  - repeat constructor. unfold u8, to_u8. lia.
  - unfold write_u8. rewrite wput_app by (cbn; lia). reflexivity.
Qed.

Lemma adds_u16 w v : (2 <= w_room w)%nat -> adds 2 w (write_u16 w v).
Proof.
  intros H. exists [to_u8 (v / 256); to_u8 v]. split; [reflexivity|]. split.
  - repeat constructor; unfold u8, to_u8; lia.
  - unfold write_u16. rewrite wput_app by (cbn; lia). reflexivity.
Qed.

Lemma adds_registers {A} (f : A -> N) vs w :
  (2 * List.length vs <= w_room w)%nat ->
  adds (2 * List.length vs) w (fold_left (fun w v => write_u16 w (f v)) vs w).
Proof.
  revert w. induction vs as [|v vs IH]; intros w H; cbn [fold_left List.length] in *.
  - apply adds_refl.
  - assert (H1 := adds_u16 w (f v) ltac:(lia)).
    replace (2 * S (List.length vs))%nat with (2 + 2 * List.length vs)%nat by lia.
    apply (adds_trans _ _ _ _ _ H1). apply IH. rewrite (adds_room _ _ _ H1). lia.
Qed.

Lemma adds_coil_bytes n vs w : (n <= w_room w)%nat -> adds n w (coil_bytes n vs w).
Proof.
  revert vs w. induction n as [|n IH]; intros vs w H; cbn [coil_bytes].
  - apply adds_refl.
  - destruct (coil_byte vs 0 0 8) as [b rest].
    assert (H1 := adds_u8 w b ltac:(lia)).
    apply (adds_trans 1 n _ _ _ H1). apply IH. rewrite (adds_room _ _ _ H1). lia.
Qed.

Lemma adds_bits vs w b off :
  off < 8 ->
  (N.to_nat ((off + size vs) / 8) <= w_room w)%nat ->
  match fold_left ReadBitsResponse_bit vs (w, b, off) with
  | (w', _, off') => adds (N.to_nat ((off + size vs) / 8)) w w' /\ off' = (off + size vs) mod 8
  end.
Proof.
  revert w b off. induction vs as [|v vs IH]; intros w b off Ho Hr; cbn [fold_left].
  - replace ((off + size (@nil (N * bool))) / 8) with 0 by (change (size (@nil (N * bool))) with 0; lia).
    split; [apply adds_refl|]. change (size (@nil (N * bool))) with 0. lia.
  - rewrite size_cons in *. unfold ReadBitsResponse_bit at 2.
    assert (Ht : to_u8 (off + 1) = off + 1) by (unfold to_u8; lia). rewrite Ht.
    destruct (off + 1 =? 8) eqn:E; apply N.eqb_eq in E || apply N.eqb_neq in E.
    + assert (H1 := adds_u8 w (if snd v then to_u8 (N.lor b (N.shiftl 1 off)) else b) ltac:(lia)).
      set (w1 := write_u8 _ _) in *.
      specialize (IH w1 0 0 ltac:(lia)).
      destruct (fold_left _ vs (w1, 0, 0)) as [[w' b'] off'].
      destruct IH as [Ha Hm].
      { rewrite (adds_room _ _ _ H1). lia. }
      split; [|lia].
      replace (N.to_nat ((off + (1 + size vs)) / 8)) with (1 + N.to_nat ((0 + size vs) / 8))%nat by lia.
      exact (adds_trans _ _ _ _ _ H1 Ha).
    + specialize (IH w (if snd v then to_u8 (N.lor b (N.shiftl 1 off)) else b) (off + 1) ltac:(lia)).
      destruct (fold_left _ vs _) as [[w' b'] off'].
      destruct IH as [Ha Hm]; [lia|].
      replace (off + (1 + size vs)) with (off + 1 + size vs) by lia. auto.
Qed.

Lemma adds_bits_response fc vs w :
  (N.to_nat (ReadBitsResponse_length vs) <= w_room w)%nat ->
  adds (N.to_nat (ReadBitsResponse_length vs)) w (ReadBitsResponse_build fc vs w).
Proof.
  intros H. unfold ReadBitsResponse_build.
  set (c := to_u8 _). unfold ReadBitsResponse_length, byte_count_of_bits in *.
  assert (H1 := adds_u8 w fc ltac:(lia)).
  assert (H2 := adds_u8 (write_u8 w fc) c ltac:(rewrite (adds_room _ _ _ H1); lia)).
  assert (H12 := adds_trans _ _ _ _ _ H1 H2).
  set (w2 := write_u8 (write_u8 w fc) c) in *. cbn in H12.
  assert (Hroom := adds_room _ _ _ H12).
  pose proof (adds_bits vs w2 0 0 ltac:(lia)) as H3.
  destruct (fold_left _ vs _) as [[w' b'] off'].
  destruct (negb (size vs mod 8 =? 0)) eqn:E.
  - destruct H3 as [Ha Hm]; [rewrite N.add_0_l; lia|]. rewrite N.add_0_l in *.
    replace (negb (off' =? 0)) with true by lia.
    assert (H4 := adds_u8 w' b' ltac:(rewrite (adds_room _ _ _ Ha); lia)).
    replace (N.to_nat (2 + (size vs / 8 + 1))) with (2 + (N.to_nat (size vs / 8) + 1))%nat by lia.
    exact (adds_trans _ _ _ _ _ H12 (adds_trans _ _ _ _ _ Ha H4)).
  - destruct H3 as [Ha Hm]; [rewrite N.add_0_l; lia|]. rewrite N.add_0_l in *.
    replace (negb (off' =? 0)) with false by lia.
    replace (N.to_nat (2 + size vs / 8)) with (2 + N.to_nat (size vs / 8))%nat by lia.
    exact (adds_trans _ _ _ _ _ H12 Ha).
Qed.

Lemma adds_three w a b c :
  (5 <= w_room w)%nat -> adds 5 w (write_u16 (write_u16 (write_u8 w a) b) c).
Proof.
  intros H.
  assert (H1 := adds_u8 w a ltac:(lia)).
  assert (H2 := adds_trans _ _ _ _ _ H1 (adds_u16 _ b ltac:(rewrite (adds_room _ _ _ H1); lia))).
  exact (adds_trans _ _ _ _ _ H2 (adds_u16 _ c ltac:(rewrite (adds_room _ _ _ H2); lia))).
Qed.

Lemma adds_four w a b c d :
  (6 <= w_room w)%nat -> adds 6 w (write_u8 (write_u16 (write_u16 (write_u8 w a) b) c) d).
Proof.
  intros H. assert (H1 := adds_three w a b c ltac:(lia)).
  exact (adds_trans _ _ _ _ _ H1 (adds_u8 _ d ltac:(rewrite (adds_room _ _ _ H1); lia))).
Qed.

Lemma adds_request r w :
  (N.to_nat (im_length (request_message r)) <= w_room w)%nat ->
  adds (N.to_nat (im_length (request_message r))) w (im_build (request_message r) w).
Proof.
  destruct r; cbn [request_message im_length im_build]; intros H;
    try (apply adds_three; exact H).
  - unfold WriteMultipleCoilsRequest_build, WriteMultipleCoilsRequest_length in *.
    assert (H1 := adds_four w 15 start (to_u16 (size values)) (to_u8 (byte_count_of_bits (size values))) ltac:(lia)).
    replace (N.to_nat (6 + byte_count_of_bits (size values)))
      with (6 + N.to_nat (byte_count_of_bits (size values)))%nat by lia.
    apply (adds_trans _ _ _ _ _ H1), adds_coil_bytes. rewrite (adds_room _ _ _ H1). lia.
  - unfold WriteMultipleRegistersRequest_build, WriteMultipleRegistersRequest_length in *.
    unfold size in *.
    assert (H1 := adds_four w 16 start (to_u16 (N.of_nat (List.length values)))
                   (to_u8 (2 * N.of_nat (List.length values))) ltac:(lia)).
    replace (N.to_nat (6 + 2 * N.of_nat (List.length values)))
      with (6 + 2 * List.length values)%nat by lia.
    apply (adds_trans _ _ _ _ _ H1). apply (adds_registers (fun v => v)).
    rewrite (adds_room _ _ _ H1). lia.
Qed.

Lemma adds_registers_response fc vs w :
  (N.to_nat (ReadRegistersResponse_length vs) <= w_room w)%nat ->
  adds (N.to_nat (ReadRegistersResponse_length vs)) w (ReadRegistersResponse_build fc vs w).
Proof.
  intros H. unfold ReadRegistersResponse_build. set (c := to_u8 _).
  unfold ReadRegistersResponse_length, size in *.
  assert (H1 := adds_u8 w fc ltac:(lia)).
  assert (H2 := adds_trans _ _ _ _ _ H1 (adds_u8 (write_u8 w fc) c ltac:(rewrite (adds_room _ _ _ H1); lia))).
  replace (N.to_nat (2 + N.of_nat (List.length vs) * 2)) with (1 + 1 + 2 * List.length vs)%nat by lia.
  apply (adds_trans _ _ _ _ _ H2), adds_registers. rewrite (adds_room _ _ _ H2). lia.
Qed.

Lemma adds_response r w :
  (N.to_nat (im_length (response_message r)) <= w_room w)%nat ->
  adds (N.to_nat (im_length (response_message r))) w (im_build (response_message r) w).
Proof.
  destruct r; cbn [response_message im_length im_build]; intros H;
    try (apply adds_three; exact H);
    try (apply adds_bits_response; exact H); apply adds_registers_response; exact H.
Qed.

Lemma adds_exception fc t w :
  (2 <= w_room w)%nat -> adds 2 w (im_build (ExceptionResponse fc t) w).
Proof.
  intros H. cbn [ExceptionResponse im_build]. unfold ExceptionResponse_build.
  assert (H1 := adds_u8 w (N.lor fc 128) ltac:(lia)).
  exact (adds_trans _ _ _ _ _ H1 (adds_u8 _ _ ltac:(rewrite (adds_room _ _ _ H1); lia))).
Qed.

Lemma adds_build cap n m :
  adds n (wseq_new cap) (im_build m (wseq_new cap)) ->
  List.length (build_into cap m) = n /\ bytes (build_into cap m).
Proof. intros (l & H & B & E). unfold build_into. rewrite E. split; assumption. Qed.

Lemma request_length_exact r cap :
  (N.to_nat (im_length (request_message r)) <= cap)%nat ->
  size (build_into cap (request_message r)) = im_length (request_message r)
  /\ bytes (build_into cap (request_message r)).
Proof.
  intros H. destruct (adds_build cap _ _ (adds_request r (wseq_new cap) ltac:(cbn; lia))) as [L B].
  split; [unfold size; lia|exact B].
Qed.

Lemma response_length_exact r cap :
  (N.to_nat (im_length (response_message r)) <= cap)%nat ->
  size (build_into cap (response_message r)) = im_length (response_message r)
  /\ bytes (build_into cap (response_message r)).
Proof.
  intros H. destruct (adds_build cap _ _ (adds_response r (wseq_new cap) ltac:(cbn; lia))) as [L B].
  split; [unfold size; lia|exact B].
Qed.

Lemma exception_length_exact fc t cap :
  (2 <= cap)%nat ->
  size (build_into cap (ExceptionResponse fc t)) = im_length (ExceptionResponse fc t)
  /\ bytes (build_into cap (ExceptionResponse fc t)).
Proof.
  intros H. destruct (adds_build cap _ _ (adds_exception fc t (wseq_new cap) ltac:(cbn; lia))) as [L B].
  split; [unfold size; cbn [ExceptionResponse im_length]; lia|exact B].
Qed.

Lemma message_length :
  (forall r cap, im_length (request_message r) <= N.of_nat cap ->
     size (build_into cap (request_message r)) = im_length (request_message r)) /\
  (forall r cap, im_length (response_message r) <= N.of_nat cap ->
     size (build_into cap (response_message r)) = im_length (response_message r)) /\
  (forall fc t cap, (2 <= cap)%nat ->
     size (build_into cap (ExceptionResponse fc t)) = im_length (ExceptionResponse fc t)) /\
  (forall r, typed_request r -> im_valid (request_message r) = true ->
     im_length (request_message r) <= 253) /\
  (forall r resp, typed_request r -> im_valid (request_message r) = true -> answers_shape r resp ->
     im_length (response_message resp) <= 253).
Proof.
  split; [intros; apply request_length_exact; lia|].
  split; [intros; apply response_length_exact; lia|].
  split; [intros; apply exception_length_exact; lia|].
  split; intros r.
  - intros Ht Hv. apply request_length_bound. split; [exact Ht|]. apply request_valid_range; assumption.
  - intros resp Ht Hv Ha. apply response_length_bound. apply (answers_fit r); [|exact Ha].
    apply request_valid_range; assumption.
Qed.

(** ** Restated for requests the client accepts as valid *)
Lemma valid_legal r : typed_request r -> im_valid (request_message r) = true -> legal_request r.
Proof. intros Ht Hv. split; [exact Ht|]. apply request_valid_range; assumption. Qed.

Lemma valid_iff r :
  typed_request r -> (im_valid (request_message r) = true <-> quantity_in_range r).
Proof. intros Ht. split; [apply request_valid_range; exact Ht|apply request_range_valid]. Qed.

Lemma valid_round_trip r cap :
  typed_request r -> im_valid (request_message r) = true -> (253 <= cap)%nat ->
  exists p, request_parser (spec_function_code r) = Some p /\
            p (build_into cap (request_message r)) = Ret (Value r).
Proof. intros Ht Hv Hc. apply request_round_trip; [apply valid_legal; assumption|exact Hc]. Qed.

Lemma valid_response_round_trip req resp cap :
  typed_request req -> im_valid (request_message req) = true ->
  typed_response resp -> answers_shape req resp -> (253 <= cap)%nat ->
  response_parser req (build_into cap (response_message resp)) = Ret (Value resp).
Proof. intros Ht Hv. apply response_round_trip, valid_legal; assumption. Qed.

Lemma request_wire r cap bs :
  typed_request r -> im_valid (request_message r) = true -> (253 <= cap)%nat ->
  (build_into cap (request_message r) = bs <-> request_pdu r bs).
Proof.
  intros Ht Hv Hc. assert (Hl := valid_legal r Ht Hv).
  pose proof (request_length_bound r Hl).
  unfold build_into. rewrite build_request; [|exact Hl|cbn; lia].
  cbn [wapp w_out wseq_new app]. split.
  - intros <-. apply enc_request_pdu.
  - intros Hp. apply (request_pdu_unique r); [apply enc_request_pdu|exact Hp].
Qed.

Lemma response_wire r cap bs :
  typed_response r -> response_fits r -> (253 <= cap)%nat ->
  (build_into cap (response_message r) = bs <-> response_pdu r bs).
Proof.
  intros Ht Hf Hc. pose proof (response_length_bound r Hf).
  unfold build_into. rewrite build_response; [|exact Ht|exact Hf|cbn; lia].
  cbn [wapp w_out wseq_new app]. split.
  - intros <-. apply enc_response_pdu.
  - intros Hp. apply (response_pdu_unique r); [apply enc_response_pdu|exact Hp].
Qed.

(** Everything a request parser can say, and when. *)
Lemma request_classification fc p data :
  request_parser fc = Some p -> bytes data ->
  (forall r, p data = Ret (Value r) <->
     legal_request r /\ spec_function_code r = fc /\ request_pdu_any_padding r data) /\
  (p data = Ret (Error (EModbus IllegalDataValue)) <-> illegal_value_pdu fc data) /\
  (p data = Ret (Error EMalformedRequest) <->
     ~ illegal_value_pdu fc data /\
     forall r, legal_request r -> spec_function_code r = fc -> ~ request_pdu_any_padding r data) /\
  ((exists r, p data = Ret (Value r)) \/ p data = Ret (Error (EModbus IllegalDataValue)) \/
   p data = Ret (Error EMalformedRequest)).
Proof.
  intros Hp Hb. split; [intros r; apply parse_accepts_iff; assumption|].
  split; [apply parse_illegal_iff; assumption|].
  split; [apply parse_malformed_iff; assumption|].
  destruct (parse_outcomes fc data p Hp Hb) as [(r & _ & _ & _ & E)|[[_ E]|E]]; eauto.
Qed.

(** A PDU encodes at most one request. *)
Lemma request_pdu_injective r r' bs :
  legal_request r -> legal_request r' ->
  request_pdu_any_padding r bs -> request_pdu_any_padding r' bs -> r = r'.
Proof.
  intros Hl Hl' Hp Hp'.
  destruct (parse_legal r bs Hl Hp) as (p & E & V).
  destruct (parse_legal r' bs Hl' Hp') as (p' & E' & V').
  assert (Hf : spec_function_code r = spec_function_code r').
  { destruct r, r'; try reflexivity; exfalso;
      cbn [request_pdu_any_padding request_pdu_with] in Hp, Hp';
      repeat match goal with
        | H : exists _, _ |- _ => destruct H
        | H : _ /\ _ |- _ => destruct H end; subst bs; discriminate. }
  rewrite Hf, E' in E. inversion E; subst. rewrite V in V'. inversion V'. reflexivity.
Qed.

Lemma response_classification req data :
  typed_request req -> bytes data ->
  (forall resp, response_parser req data = Ret (Value resp) <->
     answers_shape req resp /\ typed_response resp /\ response_pdu_lenient_count resp data) /\
  (forall t, response_parser req data = Ret (Error (EModbus t)) <->
     exists code, exception_pdu (spec_function_code req) code data /\ code_means code t) /\
  (response_parser req data = Ret (Error EMalformedResponse) <->
     (forall resp, answers_shape req resp -> typed_response resp ->
        ~ response_pdu_lenient_count resp data) /\
     (forall code, ~ exception_pdu (spec_function_code req) code data)) /\
  ((exists resp, response_parser req data = Ret (Value resp))
   \/ (exists t, response_parser req data = Ret (Error (EModbus t)))
   \/ response_parser req data = Ret (Error EMalformedResponse)).
Proof.
  intros Ht Hb. split; [intros; apply response_accepts_iff; assumption|].
  split; [intros; apply response_exception_iff; assumption|].
  split; [|apply response_results; assumption].
  rewrite (response_malformed_iff req data Ht Hb).
  unfold accepted. split; intros [H1 H2]; split; auto.
  - intros resp A B C. exact (H1 resp (conj A (conj B C))).
  - intros resp (A & B & C). exact (H1 resp A B C).
Qed.

(** The byte count of a register response, exactly as far as it is honoured. *)
Lemma register_count_parity req data resp :
  typed_request req -> bytes data ->
  (exists s q, req = ReadHoldingRegisters s q \/ req = ReadInputRegisters s q) ->
  response_parser req data = Ret (Value resp) ->
  exists fc c d, data = fc :: c :: d /\ c mod 2 = 0 /\
    exists s q, (req = ReadHoldingRegisters s q \/ req = ReadInputRegisters s q) /\ size d = 2 * q.
Proof.
  intros Ht Hb (s & q & Hr) H. apply response_accepts_iff in H; [|assumption|assumption].
  destruct H as (Ha & Hty & Hp).
  destruct Hr as [-> | -> ]; destruct resp; cbn in Ha; try contradiction; cbn in Hp;
    destruct Hp as (c & _ & Hc & ->); do 2 eexists; exists (be16s (map snd values));
    (split; [reflexivity|]); (split; [exact Hc|]); exists s, q; (split; [auto|]);
    destruct Ha as [<- _]; unfold size; rewrite be16s_length, map_length; lia.
Qed.

(** A response accepted for a read request and a correct byte count is exactly
    the response of the protocol. *)
Lemma parsers_total :
  (forall fc p data, request_parser fc = Some p -> exists r, p data = Ret r) /\
  (forall req data, exists r, response_parser req data = Ret r).
Proof.
  split.
  - intros fc p data Hp. pose proof (parse_no_ub fc p data Hp). destruct (p data); [eauto|contradiction].
  - intros req data. pose proof (response_no_ub req data). destruct (response_parser req data); [eauto|contradiction].
Qed.

Lemma exceptions_survive req t cap :
  t <> MemoryParityError -> (2 <= cap)%nat ->
  response_parser req (build_into cap (ExceptionResponse (spec_function_code req) t))
  = Ret (Error (EModbus t)).
Proof. intros Ht Hc. rewrite exception_round_trip by exact Hc. destruct t; try reflexivity. contradiction. Qed.

Lemma write_echo_refuted :
  (exists a v data resp, legal_request (WriteSingleCoil a v) /\ bytes data /\
     response_parser (WriteSingleCoil a v) data = Ret (Value resp) /\
     ~ echoes (WriteSingleCoil a v) resp) /\
  (exists a v data resp, legal_request (WriteSingleRegister a v) /\ bytes data /\
     response_parser (WriteSingleRegister a v) data = Ret (Value resp) /\
     ~ echoes (WriteSingleRegister a v) resp) /\
  (exists s vs data resp, legal_request (WriteMultipleCoils s vs) /\ bytes data /\
     response_parser (WriteMultipleCoils s vs) data = Ret (Value resp) /\
     ~ echoes (WriteMultipleCoils s vs) resp) /\
  (exists s vs data resp, legal_request (WriteMultipleRegisters s vs) /\ bytes data /\
     response_parser (WriteMultipleRegisters s vs) data = Ret (Value resp) /\
     ~ echoes (WriteMultipleRegisters s vs) resp).
Proof.
  split; [|split; [|split]].
  - exists 1, true, [5; 0; 9; 0; 0], (SingleCoilWritten 9 false).
    repeat split; try (repeat constructor; fail). intros [H _]; discriminate.
  - exists 1, 2, [6; 0; 9; 0; 0], (SingleRegisterWritten 9 0).
    repeat split; try (repeat constructor; fail). intros [H _]; discriminate.
  - exists 1, [true], [15; 0; 9; 0; 5], (MultipleCoilsWritten 9 5).
    repeat split; try (repeat constructor; fail); try (vm_compute; discriminate).
    intros [H _]; discriminate.
  - exists 1, [2], [16; 0; 9; 0; 5], (MultipleRegistersWritten 9 5).
    repeat split; try (repeat constructor; fail); try (vm_compute; discriminate).
    intros [H _]; discriminate.
Qed.

Lemma write_response_ignores_request req req' resp data :
  answers_shape req resp -> answers_shape req' resp ->
  (forall s q, req <> ReadCoils s q /\ req <> ReadDiscreteInputs s q /\
               req <> ReadHoldingRegisters s q /\ req <> ReadInputRegisters s q) ->
  response_parser req data = response_parser req' data.
Proof.
  intros Ha Ha' Hn.
  destruct req, resp; cbn in Ha; try contradiction; destruct req'; cbn in Ha'; try contradiction;
    try reflexivity; exfalso; destruct (Hn start qty) as (A & B & C & D); congruence.
Qed.

Lemma register_count_refuted : exists req data resp,
  legal_request req /\ bytes data /\ response_parser req data = Ret (Value resp) /\
  ~ response_pdu_any_padding resp data.
Proof.
  exists (ReadHoldingRegisters 0 1), [3; 254; 0; 7], (HoldingRegistersRead [(0, 7)]).
  repeat split; try (repeat constructor; fail); try (vm_compute; discriminate).
Qed.

Lemma exception_codes_refuted : exists req t,
  response_parser req (build_into 253 (ExceptionResponse (spec_function_code req) t))
  <> Ret (Error (EModbus t)).
Proof. exists (ReadCoils 0 1), MemoryParityError. vm_compute. discriminate. Qed.

(** ** Validity of responses *)
Lemma function_code_spec r : function_code r = spec_function_code r.
Proof. destruct r; reflexivity. Qed.

Lemma answers_valid req resp :
  legal_request req -> answers_shape req resp -> echoes req resp -> im_valid (response_message resp) = true.
Proof.
  intros [_ Q] H E; destruct req, resp; cbn in *; try contradiction; try reflexivity;
    destruct E as [_ ->]; unfold WriteMultipleCoilsResponse_is_valid, WriteMultipleRegistersResponse_is_valid,
      WriteMultipleCoils_max, WriteMultipleRegisters_max; apply andb_true_iff; split; apply N.leb_le;
      destruct Q; assumption.
Qed.

Lemma valid_answers resp :
  typed_response resp -> im_valid (response_message resp) = true ->
  (forall vs, resp <> CoilsRead vs /\ resp <> DiscreteInputsRead vs) ->
  (forall vs, resp <> HoldingRegistersRead vs /\ resp <> InputRegistersRead vs) ->
  exists req, legal_request req /\ answers_shape req resp /\ echoes req resp.
Proof.
  intros T V B R; destruct resp as [vs|vs|vs|vs|a v|a v|s q|s q].
  1,2: destruct (B vs); congruence. 1,2: destruct (R vs); congruence.
  - exists (WriteSingleCoil a v). cbn in *. repeat split; auto.
  - exists (WriteSingleRegister a v). cbn in *. destruct T. repeat split; auto.
  - exists (WriteMultipleCoils s (repeat true (N.to_nat q))). cbn in *. destruct T.
    unfold WriteMultipleCoilsResponse_is_valid, WriteMultipleCoils_max in V.
    apply andb_true_iff in V as [V1 V2]. apply N.leb_le in V1, V2.
    assert (size (repeat true (N.to_nat q)) = q) as Z by (unfold size; rewrite repeat_length; lia).
    split; [split; [assumption|]|split; [exact Logic.I|split; [reflexivity|]]]; cbn; rewrite Z; [lia|reflexivity].
  - exists (WriteMultipleRegisters s (repeat 0 (N.to_nat q))). cbn in *. destruct T.
    unfold WriteMultipleRegistersResponse_is_valid, WriteMultipleRegisters_max in V.
    apply andb_true_iff in V as [V1 V2]. apply N.leb_le in V1, V2.
    assert (size (repeat 0 (N.to_nat q)) = q) as Z by (unfold size; rewrite repeat_length; apply N2Nat.id).
    split; [split; [split; [assumption|]|]|split; [exact Logic.I|split; [reflexivity|]]].
    + apply Forall_forall; intros x X; apply repeat_spec in X; subst; reflexivity.
    + cbn. rewrite Z. lia.
    + rewrite Z. reflexivity.
Qed.

Lemma valid_read_response_refuted : exists resp,
  typed_response resp /\ im_valid (response_message resp) = true /\
  forall req, legal_request req -> ~ answers_shape req resp.
Proof.
  exists (HoldingRegistersRead []). split; [split; constructor|]. split; [reflexivity|].
  intros req [_ Q] H. destruct req; cbn in *; try contradiction. destruct H as [<- _]. destruct Q as [Q _]. exact (Q eq_refl).
Qed.
