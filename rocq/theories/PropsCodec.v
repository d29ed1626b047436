(** Properties C01 - C11, C60: the message codec. *)
From Verif Require Import Prelude Ser4 Messages SpecPdu BitFacts BuildFacts
  ParseReqFacts ParseRespFacts CodecLemmas.

(** ** C01: request round trip *)
Theorem C01_request_round_trip : forall r cap,
  typed_request r -> im_valid (request_message r) = true -> (253 <= cap)%nat ->
  exists p, request_parser (spec_function_code r) = Some p /\
            p (build_into cap (request_message r)) = Ret (Value r).
Proof. exact valid_round_trip. Qed.
Print Assumptions C01_request_round_trip.

Example C01_case :
  let r := WriteMultipleCoils 65535 [true; false; true; true; false; false; true; false; true] in
  typed_request r /\ im_valid (request_message r) = true /\
  build_into 253 (request_message r) = [15; 255; 255; 0; 9; 2; 77; 1].
Proof. vm_compute. repeat split. Qed.

(** Validity as the client checks it is the protocol's quantity range. *)
Theorem C01_valid_is_protocol_range : forall r,
  typed_request r -> (im_valid (request_message r) = true <-> quantity_in_range r).
Proof. exact valid_iff. Qed.
Print Assumptions C01_valid_is_protocol_range.

Example C01_valid_case :
  im_valid (request_message (ReadHoldingRegisters 0 125)) = true /\
  im_valid (request_message (ReadHoldingRegisters 0 126)) = false /\
  im_valid (request_message (ReadCoils 7 0)) = false.
Proof. vm_compute. repeat split. Qed.

(** ** C02: response round trip *)
Theorem C02_response_round_trip : forall req resp cap,
  typed_request req -> im_valid (request_message req) = true ->
  typed_response resp -> answers_shape req resp -> (253 <= cap)%nat ->
  response_parser req (build_into cap (response_message resp)) = Ret (Value resp).
Proof. exact valid_response_round_trip. Qed.
Print Assumptions C02_response_round_trip.

Example C02_case :
  let req := ReadCoils 65534 3 in
  let resp := CoilsRead [(65534, true); (65535, false); (0, true)] in
  typed_request req /\ im_valid (request_message req) = true /\
  typed_response resp /\ answers_shape req resp.
Proof.
  repeat split; cbn; try (repeat constructor; reflexivity).
  intros [|[|[|i]]] H; try reflexivity. cbn in H. lia.
Qed.

(** ** C03: request wire format *)
Theorem C03_request_wire_format : forall r cap bs,
  typed_request r -> im_valid (request_message r) = true -> (253 <= cap)%nat ->
  (build_into cap (request_message r) = bs <-> request_pdu r bs).
Proof. exact request_wire. Qed.
Print Assumptions C03_request_wire_format.

Example C03_case :
  request_pdu (WriteMultipleRegisters 256 [1; 513]) [16; 1; 0; 0; 2; 4; 0; 1; 2; 1].
Proof. reflexivity. Qed.

(** The function codes. *)
Theorem C03_function_codes : forall r, function_code r = spec_function_code r.
Proof. exact function_code_spec. Qed.
Print Assumptions C03_function_codes.

Example C03_function_code_case : function_code (WriteMultipleCoils 0 [true]) = 15.
Proof. reflexivity. Qed.

(** ** C04: response wire format *)
Theorem C04_response_wire_format : forall r cap bs,
  typed_response r -> response_fits r -> (253 <= cap)%nat ->
  (build_into cap (response_message r) = bs <-> response_pdu r bs).
Proof. exact response_wire. Qed.
Print Assumptions C04_response_wire_format.

Example C04_case :
  let r := CoilsRead [(0, true); (1, true); (2, false); (3, true)] in
  typed_response r /\ response_fits r /\ build_into 260 (response_message r) = [1; 1; 11].
Proof. split; [repeat constructor|]. vm_compute. split; [discriminate|reflexivity]. Qed.

(** ** C05: the request parser *)
Theorem C05_request_parser_classification : forall fc p data,
  request_parser fc = Some p -> bytes data ->
  (forall r, p data = Ret (Value r) <->
     legal_request r /\ spec_function_code r = fc /\ request_pdu_any_padding r data) /\
  (p data = Ret (Error (EModbus IllegalDataValue)) <-> illegal_value_pdu fc data) /\
  (p data = Ret (Error EMalformedRequest) <->
     ~ illegal_value_pdu fc data /\
     forall r, legal_request r -> spec_function_code r = fc -> ~ request_pdu_any_padding r data) /\
  ((exists r, p data = Ret (Value r)) \/ p data = Ret (Error (EModbus IllegalDataValue)) \/
   p data = Ret (Error EMalformedRequest)).
Proof. exact request_classification. Qed.
Print Assumptions C05_request_parser_classification.

Example C05_case : exists p, request_parser 1 = Some p /\
  p [1; 0; 5; 0; 9] = Ret (Value (ReadCoils 5 9)) /\
  p [1; 0; 5; 0; 0] = Ret (Error (EModbus IllegalDataValue)) /\
  p [1; 0; 5; 0] = Ret (Error EMalformedRequest).
Proof. eexists. split; [reflexivity|]. vm_compute. repeat split. Qed.

(** A byte string is the encoding of at most one request. *)
Theorem C05_request_pdu_injective : forall r r' bs,
  legal_request r -> legal_request r' ->
  request_pdu_any_padding r bs -> request_pdu_any_padding r' bs -> r = r'.
Proof. exact request_pdu_injective. Qed.
Print Assumptions C05_request_pdu_injective.

Example C05_injective_case :
  legal_request (ReadCoils 5 9) /\ request_pdu_any_padding (ReadCoils 5 9) [1; 0; 5; 0; 9].
Proof. split; [split; [split; reflexivity|cbn; lia]|reflexivity]. Qed.

(** ** C06: the response parser *)
Theorem C06_response_parser_classification : forall req data,
  typed_request req -> bytes data ->
  (forall resp, response_parser req data = Ret (Value resp) <->
     answers_shape req resp /\ typed_response resp /\ response_pdu_lenient_count resp data) /\
  (forall t, response_parser req data = Ret (Error (EModbus t)) <->
     exists code, exception_pdu (spec_function_code req) code data /\ code_means code t) /\
  (response_parser req data = Ret (Error EMalformedResponse) <->
     (forall resp, answers_shape req resp -> typed_response resp ->
        ~ response_pdu_lenient_count resp data) /\
     (forall code, ~ exception_pdu (spec_function_code req) code data)) /\
  ((exists resp, response_parser req data = Ret (Value resp))
   \/ (exists t, response_parser req data = Ret (Error (EModbus t)))
   \/ response_parser req data = Ret (Error EMalformedResponse)).
Proof. exact response_classification. Qed.
Print Assumptions C06_response_parser_classification.

Example C06_case :
  response_parser (ReadCoils 5 9) [1; 2; 255; 1] =
    Ret (Value (CoilsRead [(5, true); (6, true); (7, true); (8, true); (9, true); (10, true);
                           (11, true); (12, true); (13, true)])) /\
  response_parser (ReadCoils 5 9) [129; 2] = Ret (Error (EModbus IllegalDataAddress)) /\
  response_parser (ReadCoils 5 9) [1; 1; 255] = Ret (Error EMalformedResponse).
Proof. vm_compute. repeat split. Qed.

(** ** C07: byte count of register responses

    Full statement: the accepted PDUs are those of the protocol
    ([response_pdu_any_padding]).  It fails: the byte count is only tested for
    parity.  The part that holds: the number of data bytes is exact and the
    count is even. *)
Theorem C07_register_byte_count_refuted : exists req data resp,
  legal_request req /\ bytes data /\ response_parser req data = Ret (Value resp) /\
  ~ response_pdu_any_padding resp data.
Proof. exact register_count_refuted. Qed.
Print Assumptions C07_register_byte_count_refuted.

Theorem C07_register_byte_count_partial : forall req data resp,
  typed_request req -> bytes data ->
  (exists s q, req = ReadHoldingRegisters s q \/ req = ReadInputRegisters s q) ->
  response_parser req data = Ret (Value resp) ->
  exists fc c d, data = fc :: c :: d /\ c mod 2 = 0 /\
    exists s q, (req = ReadHoldingRegisters s q \/ req = ReadInputRegisters s q) /\ size d = 2 * q.
Proof. exact register_count_parity. Qed.
Print Assumptions C07_register_byte_count_partial.

Example C07_case :
  response_parser (ReadInputRegisters 9 2) [4; 4; 1; 2; 3; 4]
  = Ret (Value (InputRegistersRead [(9, 258); (10, 772)])).
Proof. reflexivity. Qed.

(** ** C08: write responses echo the request

    Full statement: [response_parser req data = Ret (Value resp) -> echoes req
    resp] for every write request.  It fails for all four write requests; what
    does hold for write responses is part of C06 (shape and function code). *)
Theorem C08_write_echo_refuted :
  (exists a v data resp, legal_request (WriteSingleCoil a v) /\ bytes data /\
     response_parser (WriteSingleCoil a v) data = Ret (Value resp) /\
     ~ echoes (WriteSingleCoil a v) resp) /\
  (exists a v data resp, legal_request (WriteSingleRegister a v) /\ bytes data /\
     response_parser (WriteSingleRegister a v) data = Ret (Value resp) /\
     ~ echoes (WriteSingleRegister a v) resp) /\
  (exists s vs data resp, legal_request (WriteMultipleCoils s vs) /\ bytes data /\
     response_parser (WriteMultipleCoils s vs) data = Ret (Value resp) /\
     ~ echoes (WriteMultipleCoils s vs) resp) /\
  (exists s vs data resp, legal_request (WriteMultipleRegisters s vs) /\ bytes data /\
     response_parser (WriteMultipleRegisters s vs) data = Ret (Value resp) /\
     ~ echoes (WriteMultipleRegisters s vs) resp).
Proof. exact write_echo_refuted. Qed.
Print Assumptions C08_write_echo_refuted.

(** The strongest form of the defect: whatever write response is sent, the
    client accepts it for every write request of the same kind. *)
Theorem C08_any_write_response_accepted : forall req req' resp data,
  answers_shape req resp -> answers_shape req' resp ->
  (forall s q, req <> ReadCoils s q /\ req <> ReadDiscreteInputs s q /\
               req <> ReadHoldingRegisters s q /\ req <> ReadInputRegisters s q) ->
  response_parser req data = response_parser req' data.
Proof. exact write_response_ignores_request. Qed.
Print Assumptions C08_any_write_response_accepted.

Example C08_case :
  response_parser (WriteSingleCoil 1 true) [5; 0; 9; 0; 0] = Ret (Value (SingleCoilWritten 9 false)).
Proof. reflexivity. Qed.

(** ** C09: parsers never read past the input *)
Theorem C09_parsers_total :
  (forall fc p data, request_parser fc = Some p -> exists r, p data = Ret r) /\
  (forall req data, exists r, response_parser req data = Ret r).
Proof. exact parsers_total. Qed.
Print Assumptions C09_parsers_total.

Example C09_case : exists p, request_parser 16 = Some p /\ p [16] = Ret (Error EMalformedRequest).
Proof. eexists. split; reflexivity. Qed.

(** ** C10: announced length *)
Theorem C10_message_length :
  (forall r cap, im_length (request_message r) <= N.of_nat cap ->
     size (build_into cap (request_message r)) = im_length (request_message r)) /\
  (forall r cap, im_length (response_message r) <= N.of_nat cap ->
     size (build_into cap (response_message r)) = im_length (response_message r)) /\
  (forall fc t cap, (2 <= cap)%nat ->
     size (build_into cap (ExceptionResponse fc t)) = im_length (ExceptionResponse fc t)) /\
  (forall r, typed_request r -> im_valid (request_message r) = true ->
     im_length (request_message r) <= 253) /\
  (forall r resp, typed_request r -> im_valid (request_message r) = true -> answers_shape r resp ->
     im_length (response_message resp) <= 253).
Proof. exact message_length. Qed.
Print Assumptions C10_message_length.

Example C10_case :
  im_length (request_message (WriteMultipleRegisters 0 (repeat 7 123))) = 252 /\
  im_length (request_message (WriteMultipleCoils 0 (repeat true 1968))) = 252.
Proof. vm_compute. split; reflexivity. Qed.

(** ** C11: exception codes survive the wire

    Full statement: as [C11_exception_codes_partial] without the hypothesis on
    [t].  It fails for memory parity errors, which are sent with code 7 and
    read back as [Unknown]. *)
Theorem C11_exception_codes_refuted : exists req t,
  response_parser req (build_into 253 (ExceptionResponse (spec_function_code req) t))
  <> Ret (Error (EModbus t)).
Proof. exact exception_codes_refuted. Qed.
Print Assumptions C11_exception_codes_refuted.

Theorem C11_exception_codes_partial : forall req t cap,
  t <> MemoryParityError -> (2 <= cap)%nat ->
  response_parser req (build_into cap (ExceptionResponse (spec_function_code req) t))
  = Ret (Error (EModbus t)).
Proof. exact exceptions_survive. Qed.
Print Assumptions C11_exception_codes_partial.

Example C11_case :
  build_into 253 (ExceptionResponse 3 IllegalDataAddress) = [131; 2].
Proof. reflexivity. Qed.

(** ** C60: validity of responses

    Full statement: a response is valid ([is_valid]) exactly when it is an answer to
    some legal request.  It fails for the four read responses, which are always
    valid; it holds from right to left, and for the write responses. *)
Theorem C60_response_validity_refuted : exists resp,
  typed_response resp /\ im_valid (response_message resp) = true /\
  forall req, legal_request req -> ~ answers_shape req resp.
Proof. exact valid_read_response_refuted. Qed.
Print Assumptions C60_response_validity_refuted.

Theorem C60_answers_are_valid : forall req resp,
  legal_request req -> answers_shape req resp -> echoes req resp -> im_valid (response_message resp) = true.
Proof. exact answers_valid. Qed.
Print Assumptions C60_answers_are_valid.

Theorem C60_response_validity_partial : forall resp,
  typed_response resp -> im_valid (response_message resp) = true ->
  (forall vs, resp <> CoilsRead vs /\ resp <> DiscreteInputsRead vs) ->
  (forall vs, resp <> HoldingRegistersRead vs /\ resp <> InputRegistersRead vs) ->
  exists req, legal_request req /\ answers_shape req resp /\ echoes req resp.
Proof. exact valid_answers. Qed.
Print Assumptions C60_response_validity_partial.

Example C60_case :
  im_valid (response_message (MultipleRegistersWritten 7 123)) = true /\
  im_valid (response_message (MultipleRegistersWritten 7 0)) = false /\
  im_valid (response_message (MultipleCoilsWritten 7 1969)) = false.
Proof. vm_compute. repeat split. Qed.
