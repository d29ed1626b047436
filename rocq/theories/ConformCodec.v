(** The repository's unit tests of the message classes, the MBAP frames and the
    identifiers (lib/tests/unit), as evaluations of the model.  One example per
    test section, with the inputs and the expected results of the test. *)
From Verif Require Import Prelude Ser4 Messages Mbap Ids.
From Coq Require Import Ascii.

Definition parse_request (fc : N) (data : list N) : outcome (expected request) :=
  match request_parser fc with Some p => p data | None => UB end.

(** [is_valid], [get_message_length] and what [build_message] writes into a
    buffer of that length. *)
Definition built (m : imessage) : bool * N * list N :=
  (im_valid m, im_length m, build_into (N.to_nat (im_length m)) m).

(** [generate_response] of the Read*ResponseImplTest.cpp files. *)
Definition alternating (n : nat) : list (N * bool) :=
  map (fun i => (N.of_nat i, Nat.even i)) (seq 0 n).
Definition counting (n : nat) : list (N * N) :=
  map (fun i => (N.of_nat i, N.of_nat i)) (seq 0 n).
Definition eight_coils : list bool := [false; true; false; true; false; false; true; true].

(** ** Building *)

(** lib/tests/unit/messages/ReadCoilsRequestImplTest.cpp:38-49 *)
Example ReadCoilsRequest_build_38 :
  built (request_message (ReadCoils 0x1234 4)) = (true, 5, [0x01; 0x12; 0x34; 0x00; 0x04]).
Proof. vm_compute. reflexivity. Qed.

(** lib/tests/unit/messages/ReadCoilsResponseImplTest.cpp:52-63 *)
Example ReadCoilsResponse_build_52 :
  built (response_message (CoilsRead (alternating 17))) = (true, 5, [0x01; 0x03; 0x55; 0x55; 0x01]).
Proof. vm_compute. reflexivity. Qed.

(** lib/tests/unit/messages/ReadCoilsResponseImplTest.cpp:84-95 *)
Example ReadCoilsResponse_build_84 :
  built (response_message (CoilsRead (alternating 24))) = (true, 5, [0x01; 0x03; 0x55; 0x55; 0x55]).
Proof. vm_compute. reflexivity. Qed.

(** lib/tests/unit/messages/ReadDiscreteInputsRequestImplTest.cpp:38-49 *)
Example ReadDiscreteInputsRequest_build_38 :
  built (request_message (ReadDiscreteInputs 0x1234 4)) = (true, 5, [0x02; 0x12; 0x34; 0x00; 0x04]).
Proof. vm_compute. reflexivity. Qed.

(** lib/tests/unit/messages/ReadDiscreteInputsResponseImplTest.cpp:51-62 *)
Example ReadDiscreteInputsResponse_build_51 :
  built (response_message (DiscreteInputsRead (alternating 17))) = (true, 5, [0x02; 0x03; 0x55; 0x55; 0x01]).
Proof. vm_compute. reflexivity. Qed.

(** lib/tests/unit/messages/ReadDiscreteInputsResponseImplTest.cpp:83-94 *)
Example ReadDiscreteInputsResponse_build_83 :
  built (response_message (DiscreteInputsRead (alternating 24))) = (true, 5, [0x02; 0x03; 0x55; 0x55; 0x55]).
Proof. vm_compute. reflexivity. Qed.

(** lib/tests/unit/messages/ReadHoldingRegistersRequestImplTest.cpp:38-49 *)
Example ReadHoldingRegistersRequest_build_38 :
  built (request_message (ReadHoldingRegisters 0x1234 4)) = (true, 5, [0x03; 0x12; 0x34; 0x00; 0x04]).
Proof. vm_compute. reflexivity. Qed.

(** lib/tests/unit/messages/ReadHoldingRegistersResponseImplTest.cpp:51-67 *)
Example ReadHoldingRegistersResponse_build_51 :
  built (response_message (HoldingRegistersRead (counting 4))) = (true, 10, [0x03; 0x08; 0x00; 0x00; 0x00; 0x01; 0x00; 0x02; 0x00; 0x03]).
Proof. vm_compute. reflexivity. Qed.

(** lib/tests/unit/messages/ReadInputRegistersRequestImplTest.cpp:38-49 *)
Example ReadInputRegistersRequest_build_38 :
  built (request_message (ReadInputRegisters 0x1234 4)) = (true, 5, [0x04; 0x12; 0x34; 0x00; 0x04]).
Proof. vm_compute. reflexivity. Qed.

(** lib/tests/unit/messages/ReadInputRegistersResponseImplTest.cpp:51-67 *)
Example ReadInputRegistersResponse_build_51 :
  built (response_message (InputRegistersRead (counting 4))) = (true, 10, [0x04; 0x08; 0x00; 0x00; 0x00; 0x01; 0x00; 0x02; 0x00; 0x03]).
Proof. vm_compute. reflexivity. Qed.

(** lib/tests/unit/messages/WriteMultipleCoilsRequestImplTest.cpp:44-57 *)
Example WriteMultipleCoilsRequest_build_44 :
  built (request_message (WriteMultipleCoils 0x1234 eight_coils)) = (true, 7, [0x0F; 0x12; 0x34; 0x00; 0x08; 0x01; 0xCA]).
Proof. vm_compute. reflexivity. Qed.

(** lib/tests/unit/messages/WriteMultipleCoilsRequestImplTest.cpp:85-99 *)
Example WriteMultipleCoilsRequest_build_85 :
  built (request_message (WriteMultipleCoils 0x1234 (eight_coils ++ [true; false; true]))) = (true, 8, [0x0F; 0x12; 0x34; 0x00; 0x0B; 0x02; 0xCA; 0x05]).
Proof. vm_compute. reflexivity. Qed.

(** lib/tests/unit/messages/WriteMultipleCoilsResponseImplTest.cpp:36-47 *)
Example WriteMultipleCoilsResponse_build_36 :
  built (response_message (MultipleCoilsWritten 0x1234 42)) = (true, 5, [0x0F; 0x12; 0x34; 0x00; 0x2A]).
Proof. vm_compute. reflexivity. Qed.

(** lib/tests/unit/messages/WriteMultipleRegistersRequestImplTest.cpp:47-65 *)
Example WriteMultipleRegistersRequest_build_47 :
  built (request_message (WriteMultipleRegisters 0x1234 [0x1111; 0x1122; 0x1133])) = (true, 12, [0x10; 0x12; 0x34; 0x00; 0x03; 0x06; 0x11; 0x11; 0x11; 0x22; 0x11; 0x33]).
Proof. vm_compute. reflexivity. Qed.

(** lib/tests/unit/messages/WriteMultipleRegistersResponseImplTest.cpp:36-47 *)
Example WriteMultipleRegistersResponse_build_36 :
  built (response_message (MultipleRegistersWritten 0x1234 8)) = (true, 5, [0x10; 0x12; 0x34; 0x00; 0x08]).
Proof. vm_compute. reflexivity. Qed.

(** lib/tests/unit/messages/WriteSingleCoilRequestImplTest.cpp:35-46 *)
Example WriteSingleCoilRequest_build_35 :
  built (request_message (WriteSingleCoil 0x1234 true)) = (true, 5, [0x05; 0x12; 0x34; 0xFF; 0x00]).
Proof. vm_compute. reflexivity. Qed.

(** lib/tests/unit/messages/WriteSingleCoilRequestImplTest.cpp:49-63 *)
Example WriteSingleCoilRequest_build_49 :
  built (request_message (WriteSingleCoil 0x1234 false)) = (true, 5, [0x05; 0x12; 0x34; 0x00; 0x00]).
Proof. vm_compute. reflexivity. Qed.

(** lib/tests/unit/messages/WriteSingleCoilResponseImplTest.cpp:35-46 *)
Example WriteSingleCoilResponse_build_35 :
  built (response_message (SingleCoilWritten 0x1234 true)) = (true, 5, [0x05; 0x12; 0x34; 0xFF; 0x00]).
Proof. vm_compute. reflexivity. Qed.

(** lib/tests/unit/messages/WriteSingleCoilResponseImplTest.cpp:49-63 *)
Example WriteSingleCoilResponse_build_49 :
  built (response_message (SingleCoilWritten 0x1234 false)) = (true, 5, [0x05; 0x12; 0x34; 0x00; 0x00]).
Proof. vm_compute. reflexivity. Qed.

(** lib/tests/unit/messages/WriteSingleRegisterRequestImplTest.cpp:36-47 *)
Example WriteSingleRegisterRequest_build_36 :
  built (request_message (WriteSingleRegister 0x1234 0x6789)) = (true, 5, [0x06; 0x12; 0x34; 0x67; 0x89]).
Proof. vm_compute. reflexivity. Qed.

(** lib/tests/unit/messages/WriteSingleRegisterResponseImplTest.cpp:36-47 *)
Example WriteSingleRegisterResponse_build_36 :
  built (response_message (SingleRegisterWritten 0x1234 0x6789)) = (true, 5, [0x06; 0x12; 0x34; 0x67; 0x89]).
Proof. vm_compute. reflexivity. Qed.

(** ** Validity *)

(** lib/tests/unit/messages/Read*RequestImplTest.cpp:62-79 *)
Example Read_requests_validity :
  map (fun r => im_valid (request_message r))
    [ReadCoils 0x1234 0; ReadCoils 0x1234 2001; ReadDiscreteInputs 0x1234 0; ReadDiscreteInputs 0x1234 2001;
     ReadHoldingRegisters 0x1234 0; ReadHoldingRegisters 0x1234 126;
     ReadInputRegisters 0x1234 0; ReadInputRegisters 0x1234 126] = repeat false 8.
Proof. vm_compute. reflexivity. Qed.

(** lib/tests/unit/messages/WriteMultipleCoilsRequestImplTest.cpp:103-122,
    WriteMultipleRegistersRequestImplTest.cpp:79-98 *)
Example Write_requests_validity :
  map (fun r => im_valid (request_message r))
    [WriteMultipleCoils 0x1234 []; WriteMultipleCoils 0x1234 (map Nat.odd (seq 0 1969));
     WriteMultipleRegisters 0x1234 []; WriteMultipleRegisters 0x1234 (map N.of_nat (seq 0 124))] = repeat false 4.
Proof. vm_compute. reflexivity. Qed.

(** lib/tests/unit/messages/WriteMultipleCoilsResponseImplTest.cpp:50-64,
    WriteMultipleRegistersResponseImplTest.cpp:50-64 *)
Example Write_responses_validity :
  map (fun r => im_valid (response_message r))
    [MultipleCoilsWritten 0x1234 0; MultipleCoilsWritten 0x1234 2001;
     MultipleRegistersWritten 0x1234 0; MultipleRegistersWritten 0x1234 124] = repeat false 4.
Proof. vm_compute. reflexivity. Qed.

(** lib/tests/unit/messages/ExceptionResponseTest.cpp:25-42 *)
Example ExceptionResponse_build_36 :
  built (ExceptionResponse 0x34 IllegalDataAddress) = (true, 2, [0xB4; 0x02]).
Proof. vm_compute. reflexivity. Qed.

(** ** The function code *)

(** lib/tests/unit/messages/IMessageTest.cpp:30-115.  The first test expects the
    rest of the data. *)
Example IMessage_parse_function_code :
  map (parse_function_code 3)
    [[0x03; 0x42; 0x43]; []; [0x01; 0; 0]; [0x81; 0; 0]; [0x83; 0x02; 0x03]; [0x83]; [0x83; 0x02]]
  = [Ret (Value [0x42; 0x43]); Ret (Error EMalformedResponse); Ret (Error EMalformedResponse);
     Ret (Error EMalformedResponse); Ret (Error EMalformedResponse); Ret (Error EMalformedResponse);
     Ret (Error (EModbus IllegalDataAddress))].
Proof. vm_compute. reflexivity. Qed.

(** lib/tests/unit/messages/ExceptionTypeTest.cpp:26-78 *)
Example ExceptionType_parse :
  map parse_exception_type [0x01; 0x02; 0x03; 0x04; 0x05; 0x06; 0x08; 0x0A; 0x0B; 0xFF]
  = [IllegalFunction; IllegalDataAddress; IllegalDataValue; ServerDeviceFailure; Acknowledge; ServerDeviceBusy;
     MemoryParityError; GatewayPathUnavailable; GatewayTargetDeviceFailedToRespond; Unknown].
Proof. vm_compute. reflexivity. Qed.

(** lib/tests/unit/messages/ExceptionTypeTest.cpp:80-148 *)
Example ExceptionType_print :
  map (fun e => string_of_list_ascii (os_text (print_exception new_stream e)))
    [IllegalFunction; IllegalDataAddress; IllegalDataValue; ServerDeviceFailure; Acknowledge; ServerDeviceBusy;
     MemoryParityError; GatewayPathUnavailable; GatewayTargetDeviceFailedToRespond; Unknown]
  = ["Illegal function"; "Illegal data address"; "Illegal data value"; "Server device failure"; "Acknowledge";
     "Server device busy"; "Memory parity error"; "Gateway path unavailable";
     "Gateway target device failed to respond"; "Unknown"]%string.
Proof. vm_compute. reflexivity. Qed.

(** ** Identifiers *)

(** lib/tests/unit/TransactionIdentifierTest.cpp:33-83 *)
Example TransactionIdentifier_tests :
  id_eq 0x1234 0x1234 = true /\ id_ne 0x1234 0x4321 = true
  /\ pre_increment 0x42 = (0x43, 0x43) /\ post_increment 0x42 = (0x43, 0x42)
  /\ snd (pre_increment 0xFFFF) = 0
  /\ string_of_list_ascii (os_text (print_transaction new_stream 0)) = "0x0000"%string
  /\ string_of_list_ascii (os_text (print_transaction new_stream 0x400C)) = "0x400C"%string.
Proof. vm_compute. repeat split. Qed.

(** lib/tests/unit/UnitIdentifierTest.cpp:32-66 *)
Example UnitIdentifier_tests :
  id_eq 0x24 0x24 = true /\ id_ne 0x24 0x42 = true /\ default_unit = 0xFF
  /\ string_of_list_ascii (os_text (print_unit new_stream 0)) = "0x00"%string
  /\ string_of_list_ascii (os_text (print_unit new_stream 0x4C)) = "0x4C"%string.
Proof. vm_compute. repeat split. Qed.

(** ** MBAP *)

(** lib/tests/unit/mocks/IMessageMock.cpp:18-52 *)
Definition IMessageMock (length : nat) (value : N) (valid : bool) : imessage :=
  {| im_valid := valid; im_length := N.of_nat length;
     im_build := fun w => fold_left (fun w _ => write_u8 w value) (seq 0 length) w |}.

(** lib/tests/unit/messages/mbap/MbapMessageTest.cpp:48-73 *)
Example MbapMessage_tests :
  mbap_build 260 0x42 0x1234 (IMessageMock 2 0x76 true)
  = map Some [0x12; 0x34; 0; 0; 0; 3; 0x42; 0x76; 0x76]
  /\ mbap_build 260 0x42 0x1234 (IMessageMock 0 0x42 true) = map Some [0x12; 0x34; 0; 0; 0; 1; 0x42].
Proof. vm_compute. split; reflexivity. Qed.

(** lib/tests/unit/messages/mbap/MbapMessageTest.cpp:75-84 *)
Example MbapMessage_too_large :
  let frame := mbap_build 260 0x42 0x1234 (IMessageMock 400 0x42 true) in
  List.length frame = 260%nat /\ nth 4 frame None = Some 0 /\ nth 5 frame None = Some 0xFE.
Proof. vm_compute. repeat split. Qed.

Definition complete_message : list N := [0x12; 0x34; 0; 0; 0; 3; 0x42; 0x98; 0x76].
Definition complete : mbap_message := {| mb_unit := 0x42; mb_tx := 0x1234; mb_data := [0x98; 0x76] |}.

(** What the sink of the tests receives, whatever [copy_from] does with data
    that does not fit. *)
Definition sunk (ops : list mbap_op) : list (option (list mbap_message)) :=
  map (fun pol => match mbap_run pol (mbap_new (repeat 0 260)) ops with
                  | Ret (_, out) => Some out
                  | UB => None
                  end) [AllOrNothing; Truncate].
Definition sinks (out : list mbap_message) : list (option (list mbap_message)) := [Some out; Some out].

(** lib/tests/unit/messages/mbap/MbapParserTest.cpp:47-100 *)
Example MbapParser_messages :
  sunk [Chunk complete_message] = sinks [complete]
  /\ sunk (map (fun b => Chunk [b]) complete_message) = sinks [complete]
  /\ sunk [Chunk (complete_message ++ complete_message)] = sinks [complete; complete]
  /\ sunk [Chunk (firstn 8 complete_message)] = sinks []
  /\ sunk [Chunk (firstn 8 complete_message); Chunk (skipn 8 complete_message)] = sinks [complete].
Proof. vm_compute. repeat split. Qed.

(** lib/tests/unit/messages/mbap/MbapParserTest.cpp:102-118 *)
Example MbapParser_reset :
  sunk [Chunk [0x45; 0x67; 0; 0; 0; 3]; Reset; Chunk complete_message] = sinks [complete].
Proof. vm_compute. reflexivity. Qed.

(** lib/tests/unit/messages/mbap/MbapParserTest.cpp:120-169 *)
Example MbapParser_rejects :
  sunk [Chunk [0x12; 0x34; 0x42; 0x42; 0; 3; 0x42; 0x98; 0x76]] = sinks []
  /\ sunk [Chunk [0x12; 0x34; 0x42; 0x42; 0; 3; 0x42; 0x98; 0x76]; Chunk complete_message] = sinks [complete]
  /\ sunk [Chunk [0x12; 0x34; 0x42; 0x42; 0; 0; 0x42]] = sinks []
  /\ sunk [Chunk [0x12; 0x34; 0x42; 0x42; 0; 0; 0x42]; Chunk complete_message] = sinks [complete].
Proof. vm_compute. repeat split. Qed.

(** lib/tests/unit/messages/mbap/MbapParserTest.cpp:171-198: the lengths of the
    data received, and the second message. *)
Example MbapParser_too_long :
  let long := [0x12; 0x34; 0; 0; 0xFF; 0xFF; 0x42; 0x76] ++ repeat 0 (N.to_nat 65533) in
  map (option_map (map (fun m => List.length (mb_data m)))) (sunk [Chunk long; Chunk complete_message])
    = [Some [253; 2]; Some [253; 2]]%nat
  /\ map (option_map (skipn 1)) (sunk [Chunk long; Chunk complete_message]) = sinks [complete].
Proof. vm_compute. split; reflexivity. Qed.

(** ** Parsing *)

(** lib/tests/unit/messages/ReadCoilsRequestImplTest.cpp:83-93 "When proper request, then parse it properly" *)
Example ReadCoilsRequest_83 : parse_request 1 [0x01; 0x12; 0x34; 0x01; 0x23] = Ret (Value (ReadCoils 0x1234 0x123)).
Proof. vm_compute. reflexivity. Qed.

(** lib/tests/unit/messages/ReadCoilsRequestImplTest.cpp:99-110 "When quantity of outputs is 0, then parse return ModbusException 0x03" *)
Example ReadCoilsRequest_99 : parse_request 1 [0x01; 0x12; 0x34; 0x00; 0x00] = Ret (Error (EModbus IllegalDataValue)).
Proof. vm_compute. reflexivity. Qed.

(** lib/tests/unit/messages/ReadCoilsRequestImplTest.cpp:113-124 "When quantity of outputs is greater than maximum, then parse return ModbusException 0x03" *)
Example ReadCoilsRequest_113 : parse_request 1 [0x01; 0x12; 0x34; 0x07; 0xD1] = Ret (Error (EModbus IllegalDataValue)).
Proof. vm_compute. reflexivity. Qed.

(** lib/tests/unit/messages/ReadCoilsRequestImplTest.cpp:127-137 "When wrong size request, then return malformed exception" *)
Example ReadCoilsRequest_127 : parse_request 1 [0x01; 0x42; 0x42] = Ret (Error EMalformedRequest).
Proof. vm_compute. reflexivity. Qed.

(** lib/tests/unit/messages/ReadCoilsRequestImplTest.cpp:140-151 "When wrong function code, then return malformed exception" *)
Example ReadCoilsRequest_140 : parse_request 1 [0x42; 0x12; 0x34; 0x01; 0x23] = Ret (Error EMalformedRequest).
Proof. vm_compute. reflexivity. Qed.

(** lib/tests/unit/messages/ReadCoilsResponseImplTest.cpp:106-116 "When proper response, then parse it properly" *)
Example ReadCoilsResponse_106 : response_parser (ReadCoils 0x16 16) [0x01; 0x02; 0x55; 0xF0] = Ret (Value (CoilsRead [(0x16, true); (0x17, false); (0x18, true); (0x19, false); (0x1A, true); (0x1B, false); (0x1C, true); (0x1D, false); (0x1E, false); (0x1F, false); (0x20, false); (0x21, false); (0x22, true); (0x23, true); (0x24, true); (0x25, true)])).
Proof. vm_compute. reflexivity. Qed.

(** lib/tests/unit/messages/ReadCoilsResponseImplTest.cpp:135-150 "When proper response for request with number of bits not a multiple of 8, then parse it properly" *)
Example ReadCoilsResponse_135 : response_parser (ReadCoils 0x16 17) [0x01; 0x03; 0x55; 0xF0; 0x01] = Ret (Value (CoilsRead [(0x16, true); (0x17, false); (0x18, true); (0x19, false); (0x1A, true); (0x1B, false); (0x1C, true); (0x1D, false); (0x1E, false); (0x1F, false); (0x20, false); (0x21, false); (0x22, true); (0x23, true); (0x24, true); (0x25, true); (0x26, true)])).
Proof. vm_compute. reflexivity. Qed.

(** lib/tests/unit/messages/ReadCoilsResponseImplTest.cpp:172-183 "When exception response, then parse report exception" *)
Example ReadCoilsResponse_172 : response_parser (ReadCoils 0x16 16) [0x81; 0x02] = Ret (Error (EModbus IllegalDataAddress)).
Proof. vm_compute. reflexivity. Qed.

(** lib/tests/unit/messages/ReadCoilsResponseImplTest.cpp:186-195 "When size not present, then return malformed exception" *)
Example ReadCoilsResponse_186 : response_parser (ReadCoils 0x16 16) [0x01] = Ret (Error EMalformedResponse).
Proof. vm_compute. reflexivity. Qed.

(** lib/tests/unit/messages/ReadCoilsResponseImplTest.cpp:198-209 "When wrong size response, then return malformed exception" *)
Example ReadCoilsResponse_198 : response_parser (ReadCoils 0x16 16) [0x01; 0x02; 0x42] = Ret (Error EMalformedResponse).
Proof. vm_compute. reflexivity. Qed.

(** lib/tests/unit/messages/ReadCoilsResponseImplTest.cpp:212-223 "When size does not fit with the expectation, then return malformed exception" *)
Example ReadCoilsResponse_212 : response_parser (ReadCoils 0x16 16) [0x01; 0x03; 0x42; 0x43; 0x44] = Ret (Error EMalformedResponse).
Proof. vm_compute. reflexivity. Qed.

(** lib/tests/unit/messages/ReadDiscreteInputsRequestImplTest.cpp:83-93 "When proper request, then parse it properly" *)
Example ReadDiscreteInputsRequest_83 : parse_request 2 [0x02; 0x12; 0x34; 0x01; 0x23] = Ret (Value (ReadDiscreteInputs 0x1234 0x123)).
Proof. vm_compute. reflexivity. Qed.

(** lib/tests/unit/messages/ReadDiscreteInputsRequestImplTest.cpp:99-110 "When quantity of outputs is 0, then parse return ModbusException 0x03" *)
Example ReadDiscreteInputsRequest_99 : parse_request 2 [0x02; 0x12; 0x34; 0x00; 0x00] = Ret (Error (EModbus IllegalDataValue)).
Proof. vm_compute. reflexivity. Qed.

(** lib/tests/unit/messages/ReadDiscreteInputsRequestImplTest.cpp:113-124 "When quantity of outputs is greater than maximum, then parse return ModbusException 0x03" *)
Example ReadDiscreteInputsRequest_113 : parse_request 2 [0x02; 0x12; 0x34; 0x07; 0xD1] = Ret (Error (EModbus IllegalDataValue)).
Proof. vm_compute. reflexivity. Qed.

(** lib/tests/unit/messages/ReadDiscreteInputsRequestImplTest.cpp:127-137 "When wrong size request, then return malformed exception" *)
Example ReadDiscreteInputsRequest_127 : parse_request 2 [0x02; 0x42; 0x42] = Ret (Error EMalformedRequest).
Proof. vm_compute. reflexivity. Qed.

(** lib/tests/unit/messages/ReadDiscreteInputsRequestImplTest.cpp:140-151 "When wrong function code, then return malformed exception" *)
Example ReadDiscreteInputsRequest_140 : parse_request 2 [0x42; 0x12; 0x34; 0x01; 0x23] = Ret (Error EMalformedRequest).
Proof. vm_compute. reflexivity. Qed.

(** lib/tests/unit/messages/ReadDiscreteInputsResponseImplTest.cpp:105-115 "When proper response, then parse it properly" *)
Example ReadDiscreteInputsResponse_105 : response_parser (ReadDiscreteInputs 0x16 16) [0x02; 0x02; 0x55; 0xF0] = Ret (Value (DiscreteInputsRead [(0x16, true); (0x17, false); (0x18, true); (0x19, false); (0x1A, true); (0x1B, false); (0x1C, true); (0x1D, false); (0x1E, false); (0x1F, false); (0x20, false); (0x21, false); (0x22, true); (0x23, true); (0x24, true); (0x25, true)])).
Proof. vm_compute. reflexivity. Qed.

(** lib/tests/unit/messages/ReadDiscreteInputsResponseImplTest.cpp:134-149 "When proper response for request with number of bits not a multiple of 8, then parse it properly" *)
Example ReadDiscreteInputsResponse_134 : response_parser (ReadDiscreteInputs 0x16 17) [0x02; 0x03; 0x55; 0xF0; 0x01] = Ret (Value (DiscreteInputsRead [(0x16, true); (0x17, false); (0x18, true); (0x19, false); (0x1A, true); (0x1B, false); (0x1C, true); (0x1D, false); (0x1E, false); (0x1F, false); (0x20, false); (0x21, false); (0x22, true); (0x23, true); (0x24, true); (0x25, true); (0x26, true)])).
Proof. vm_compute. reflexivity. Qed.

(** lib/tests/unit/messages/ReadDiscreteInputsResponseImplTest.cpp:171-182 "When exception response, then parse report exception" *)
Example ReadDiscreteInputsResponse_171 : response_parser (ReadDiscreteInputs 0x16 16) [0x82; 0x02] = Ret (Error (EModbus IllegalDataAddress)).
Proof. vm_compute. reflexivity. Qed.

(** lib/tests/unit/messages/ReadDiscreteInputsResponseImplTest.cpp:185-194 "When size not present, then return malformed exception" *)
Example ReadDiscreteInputsResponse_185 : response_parser (ReadDiscreteInputs 0x16 16) [0x02] = Ret (Error EMalformedResponse).
Proof. vm_compute. reflexivity. Qed.

(** lib/tests/unit/messages/ReadDiscreteInputsResponseImplTest.cpp:197-208 "When wrong size response, then return malformed exception" *)
Example ReadDiscreteInputsResponse_197 : response_parser (ReadDiscreteInputs 0x16 16) [0x02; 0x02; 0x42] = Ret (Error EMalformedResponse).
Proof. vm_compute. reflexivity. Qed.

(** lib/tests/unit/messages/ReadDiscreteInputsResponseImplTest.cpp:211-222 "When size does not fit with the expectation, then return malformed exception" *)
Example ReadDiscreteInputsResponse_211 : response_parser (ReadDiscreteInputs 0x16 16) [0x02; 0x03; 0x42; 0x43; 0x44] = Ret (Error EMalformedResponse).
Proof. vm_compute. reflexivity. Qed.

(** lib/tests/unit/messages/ReadHoldingRegistersRequestImplTest.cpp:83-93 "When proper request, then parse it properly" *)
Example ReadHoldingRegistersRequest_83 : parse_request 3 [0x03; 0x12; 0x34; 0x00; 0x23] = Ret (Value (ReadHoldingRegisters 0x1234 0x23)).
Proof. vm_compute. reflexivity. Qed.

(** lib/tests/unit/messages/ReadHoldingRegistersRequestImplTest.cpp:99-110 "When quantity of registers is 0, then parse return ModbusException 0x03" *)
Example ReadHoldingRegistersRequest_99 : parse_request 3 [0x03; 0x12; 0x34; 0x00; 0x00] = Ret (Error (EModbus IllegalDataValue)).
Proof. vm_compute. reflexivity. Qed.

(** lib/tests/unit/messages/ReadHoldingRegistersRequestImplTest.cpp:113-124 "When quantity of registers is greater than maximum, then parse return ModbusException 0x03" *)
Example ReadHoldingRegistersRequest_113 : parse_request 3 [0x03; 0x12; 0x34; 0x00; 0x7E] = Ret (Error (EModbus IllegalDataValue)).
Proof. vm_compute. reflexivity. Qed.

(** lib/tests/unit/messages/ReadHoldingRegistersRequestImplTest.cpp:127-137 "When wrong size request, then return malformed exception" *)
Example ReadHoldingRegistersRequest_127 : parse_request 3 [0x03; 0x42; 0x42] = Ret (Error EMalformedRequest).
Proof. vm_compute. reflexivity. Qed.

(** lib/tests/unit/messages/ReadHoldingRegistersRequestImplTest.cpp:140-151 "When wrong function code, then return malformed exception" *)
Example ReadHoldingRegistersRequest_140 : parse_request 3 [0x42; 0x12; 0x34; 0x01; 0x23] = Ret (Error EMalformedRequest).
Proof. vm_compute. reflexivity. Qed.

(** lib/tests/unit/messages/ReadHoldingRegistersResponseImplTest.cpp:85-99 "When proper response, then parse it properly" *)
Example ReadHoldingRegistersResponse_85 : response_parser (ReadHoldingRegisters 0x16 4) [0x03; 0x08; 0x00; 0x01; 0x00; 0x02; 0x00; 0x03; 0x00; 0x04] = Ret (Value (HoldingRegistersRead [(0x16, 1); (0x17, 2); (0x18, 3); (0x19, 4)])).
Proof. vm_compute. reflexivity. Qed.

(** lib/tests/unit/messages/ReadHoldingRegistersResponseImplTest.cpp:113-124 "When exception response, then parse report exception" *)
Example ReadHoldingRegistersResponse_113 : response_parser (ReadHoldingRegisters 0x16 4) [0x83; 0x02] = Ret (Error (EModbus IllegalDataAddress)).
Proof. vm_compute. reflexivity. Qed.

(** lib/tests/unit/messages/ReadHoldingRegistersResponseImplTest.cpp:127-136 "When size not present, then return malformed exception" *)
Example ReadHoldingRegistersResponse_127 : response_parser (ReadHoldingRegisters 0x16 4) [0x03] = Ret (Error EMalformedResponse).
Proof. vm_compute. reflexivity. Qed.

(** lib/tests/unit/messages/ReadHoldingRegistersResponseImplTest.cpp:139-150 "When size is not even, then return malformed exception" *)
Example ReadHoldingRegistersResponse_139 : response_parser (ReadHoldingRegisters 0x16 4) [0x03; 0x03; 0x42; 0x43; 0x44] = Ret (Error EMalformedResponse).
Proof. vm_compute. reflexivity. Qed.

(** lib/tests/unit/messages/ReadHoldingRegistersResponseImplTest.cpp:153-164 "When wrong size response, then return malformed exception" *)
Example ReadHoldingRegistersResponse_153 : response_parser (ReadHoldingRegisters 0x16 4) [0x03; 0x02; 0x42] = Ret (Error EMalformedResponse).
Proof. vm_compute. reflexivity. Qed.

(** lib/tests/unit/messages/ReadInputRegistersRequestImplTest.cpp:83-93 "When proper request, then parse it properly" *)
Example ReadInputRegistersRequest_83 : parse_request 4 [0x04; 0x12; 0x34; 0x00; 0x23] = Ret (Value (ReadInputRegisters 0x1234 0x23)).
Proof. vm_compute. reflexivity. Qed.

(** lib/tests/unit/messages/ReadInputRegistersRequestImplTest.cpp:99-110 "When quantity of registers is 0, then parse return ModbusException 0x03" *)
Example ReadInputRegistersRequest_99 : parse_request 4 [0x04; 0x12; 0x34; 0x00; 0x00] = Ret (Error (EModbus IllegalDataValue)).
Proof. vm_compute. reflexivity. Qed.

(** lib/tests/unit/messages/ReadInputRegistersRequestImplTest.cpp:113-124 "When quantity of registers is greater than maximum, then parse return ModbusException 0x03" *)
Example ReadInputRegistersRequest_113 : parse_request 4 [0x04; 0x12; 0x34; 0x00; 0x7E] = Ret (Error (EModbus IllegalDataValue)).
Proof. vm_compute. reflexivity. Qed.

(** lib/tests/unit/messages/ReadInputRegistersRequestImplTest.cpp:127-137 "When wrong size request, then return malformed exception" *)
Example ReadInputRegistersRequest_127 : parse_request 4 [0x04; 0x42; 0x42] = Ret (Error EMalformedRequest).
Proof. vm_compute. reflexivity. Qed.

(** lib/tests/unit/messages/ReadInputRegistersRequestImplTest.cpp:140-151 "When wrong function code, then return malformed exception" *)
Example ReadInputRegistersRequest_140 : parse_request 4 [0x42; 0x12; 0x34; 0x01; 0x23] = Ret (Error EMalformedRequest).
Proof. vm_compute. reflexivity. Qed.

(** lib/tests/unit/messages/ReadInputRegistersResponseImplTest.cpp:85-99 "When proper response, then parse it properly" *)
Example ReadInputRegistersResponse_85 : response_parser (ReadInputRegisters 0x16 4) [0x04; 0x08; 0x00; 0x01; 0x00; 0x02; 0x00; 0x03; 0x00; 0x04] = Ret (Value (InputRegistersRead [(0x16, 1); (0x17, 2); (0x18, 3); (0x19, 4)])).
Proof. vm_compute. reflexivity. Qed.

(** lib/tests/unit/messages/ReadInputRegistersResponseImplTest.cpp:113-124 "When exception response, then parse report exception" *)
Example ReadInputRegistersResponse_113 : response_parser (ReadInputRegisters 0x16 4) [0x84; 0x02] = Ret (Error (EModbus IllegalDataAddress)).
Proof. vm_compute. reflexivity. Qed.

(** lib/tests/unit/messages/ReadInputRegistersResponseImplTest.cpp:127-136 "When size not present, then return malformed exception" *)
Example ReadInputRegistersResponse_127 : response_parser (ReadInputRegisters 0x16 4) [0x03] = Ret (Error EMalformedResponse).
Proof. vm_compute. reflexivity. Qed.

(** lib/tests/unit/messages/ReadInputRegistersResponseImplTest.cpp:139-150 "When size is not even, then return malformed exception" *)
Example ReadInputRegistersResponse_139 : response_parser (ReadInputRegisters 0x16 4) [0x03; 0x03; 0x42; 0x43; 0x44] = Ret (Error EMalformedResponse).
Proof. vm_compute. reflexivity. Qed.

(** lib/tests/unit/messages/ReadInputRegistersResponseImplTest.cpp:153-164 "When wrong size response, then return malformed exception" *)
Example ReadInputRegistersResponse_153 : response_parser (ReadInputRegisters 0x16 4) [0x03; 0x02; 0x42] = Ret (Error EMalformedResponse).
Proof. vm_compute. reflexivity. Qed.

(** lib/tests/unit/messages/WriteMultipleCoilsRequestImplTest.cpp:126-138 "When proper request, then parse it properly" *)
Example WriteMultipleCoilsRequest_126 : parse_request 15 [0x0F; 0x12; 0x34; 0x00; 0x0C; 0x02; 0x55; 0xF5] = Ret (Value (WriteMultipleCoils 0x1234 [true; false; true; false; true; false; true; false; true; false; true; false])).
Proof. vm_compute. reflexivity. Qed.

(** lib/tests/unit/messages/WriteMultipleCoilsRequestImplTest.cpp:159-171 "When proper request with quantity of outputs multiple of 8, then parse it properly" *)
Example WriteMultipleCoilsRequest_159 : parse_request 15 [0x0F; 0x12; 0x34; 0x00; 0x10; 0x02; 0x55; 0xF5] = Ret (Value (WriteMultipleCoils 0x1234 [true; false; true; false; true; false; true; false; true; false; true; false; true; true; true; true])).
Proof. vm_compute. reflexivity. Qed.

(** lib/tests/unit/messages/WriteMultipleCoilsRequestImplTest.cpp:196-214 "When mismatch between quantity of outputs and byte count, then parse return Modbus exception 0x03" *)
Example WriteMultipleCoilsRequest_196 : parse_request 15 [0x0F; 0x12; 0x34; 0x00; 0x1F; 0x02; 0x42; 0x42; 0x42; 0x42] = Ret (Error (EModbus IllegalDataValue)).
Proof. vm_compute. reflexivity. Qed.

(** lib/tests/unit/messages/WriteMultipleCoilsRequestImplTest.cpp:217-230 "When mismatch between byte count and actual byte count, then parse report exception" *)
Example WriteMultipleCoilsRequest_217 : parse_request 15 [0x0F; 0x12; 0x34; 0x00; 0x0C; 0x02; 0x42; 0x42; 0x42; 0x42] = Ret (Error EMalformedRequest).
Proof. vm_compute. reflexivity. Qed.

(** lib/tests/unit/messages/WriteMultipleCoilsRequestImplTest.cpp:233-245 "When quantity of outputs is 0, then parse return Modbus exception 0x03" *)
Example WriteMultipleCoilsRequest_233 : parse_request 15 [0x0F; 0x12; 0x34; 0x00; 0x00; 0x00] = Ret (Error (EModbus IllegalDataValue)).
Proof. vm_compute. reflexivity. Qed.

(** lib/tests/unit/messages/WriteMultipleCoilsRequestImplTest.cpp:248-260 "When quantity of outputs is greater than maximum, then parse return Modbus exception 0x03" *)
Example WriteMultipleCoilsRequest_248 : parse_request 15 ([0x0F; 0x12; 0x34; 0x07; 0xB1; 0xF7] ++ repeat 0 247) = Ret (Error (EModbus IllegalDataValue)).
Proof. vm_compute. reflexivity. Qed.

(** lib/tests/unit/messages/WriteMultipleCoilsRequestImplTest.cpp:263-275 "When invalid function code, then parse report exception" *)
Example WriteMultipleCoilsRequest_263 : parse_request 15 [0x42; 0x12; 0x34; 0x00; 0x0C; 0x02; 0x55; 0xF5] = Ret (Error EMalformedRequest).
Proof. vm_compute. reflexivity. Qed.

(** lib/tests/unit/messages/WriteMultipleCoilsRequestImplTest.cpp:278-288 "When request is too short, then parse report exception" *)
Example WriteMultipleCoilsRequest_278 : parse_request 15 [0x0F; 0x12; 0x34; 0x00; 0x0C] = Ret (Error EMalformedRequest).
Proof. vm_compute. reflexivity. Qed.

(** lib/tests/unit/messages/WriteMultipleCoilsResponseImplTest.cpp:80-91 "When proper response, then parse it properly" *)
Example WriteMultipleCoilsResponse_80 : response_parser (WriteMultipleCoils 0x1234 []) [0x0F; 0x12; 0x34; 0x00; 0x03] = Ret (Value (MultipleCoilsWritten 0x1234 3)).
Proof. vm_compute. reflexivity. Qed.

(** lib/tests/unit/messages/WriteMultipleCoilsResponseImplTest.cpp:97-108 "When exception response, then parse report exception" *)
Example WriteMultipleCoilsResponse_97 : response_parser (WriteMultipleCoils 0x1234 []) [0x8F; 0x02] = Ret (Error (EModbus IllegalDataAddress)).
Proof. vm_compute. reflexivity. Qed.

(** lib/tests/unit/messages/WriteMultipleCoilsResponseImplTest.cpp:111-120 "When too small, then return malformed exception" *)
Example WriteMultipleCoilsResponse_111 : response_parser (WriteMultipleCoils 0x1234 []) [0x0F] = Ret (Error EMalformedResponse).
Proof. vm_compute. reflexivity. Qed.

(** lib/tests/unit/messages/WriteMultipleCoilsResponseImplTest.cpp:123-135 "When too big, then return malformed exception" *)
Example WriteMultipleCoilsResponse_123 : response_parser (WriteMultipleCoils 0x1234 []) [0x0F; 0x12; 0x34; 0x00; 0x03; 0x42; 0x42] = Ret (Error EMalformedResponse).
Proof. vm_compute. reflexivity. Qed.

(** lib/tests/unit/messages/WriteMultipleRegistersRequestImplTest.cpp:102-115 "When proper request, then parse it properly" *)
Example WriteMultipleRegistersRequest_102 : parse_request 16 [0x10; 0x12; 0x34; 0x00; 0x02; 0x04; 0x12; 0x34; 0x56; 0x78] = Ret (Value (WriteMultipleRegisters 0x1234 [0x1234; 0x5678])).
Proof. vm_compute. reflexivity. Qed.

(** lib/tests/unit/messages/WriteMultipleRegistersRequestImplTest.cpp:126-144 "When mismatch between quantity of registers and byte count, then parse return Modbus exception 0x03" *)
Example WriteMultipleRegistersRequest_126 : parse_request 16 [0x10; 0x12; 0x34; 0x00; 0x02; 0x02; 0x42; 0x42; 0x42; 0x42] = Ret (Error (EModbus IllegalDataValue)).
Proof. vm_compute. reflexivity. Qed.

(** lib/tests/unit/messages/WriteMultipleRegistersRequestImplTest.cpp:147-161 "When mismatch between byte count and actual byte count, then parse report exception" *)
Example WriteMultipleRegistersRequest_147 : parse_request 16 [0x10; 0x12; 0x34; 0x00; 0x02; 0x04; 0x42; 0x42; 0x42; 0x42; 0x42] = Ret (Error EMalformedRequest).
Proof. vm_compute. reflexivity. Qed.

(** lib/tests/unit/messages/WriteMultipleRegistersRequestImplTest.cpp:164-176 "When quantity of registers is 0, then parse return Modbus exception 0x03" *)
Example WriteMultipleRegistersRequest_164 : parse_request 16 [0x10; 0x12; 0x34; 0x00; 0x00; 0x00] = Ret (Error (EModbus IllegalDataValue)).
Proof. vm_compute. reflexivity. Qed.

(** lib/tests/unit/messages/WriteMultipleRegistersRequestImplTest.cpp:179-191 "When invalid quantity of registers, then parse report exception" *)
Example WriteMultipleRegistersRequest_179 : parse_request 16 ([0x10; 0x12; 0x34; 0x00; 0x7C; 0xF8] ++ repeat 0 248) = Ret (Error (EModbus IllegalDataValue)).
Proof. vm_compute. reflexivity. Qed.

(** lib/tests/unit/messages/WriteMultipleRegistersRequestImplTest.cpp:194-207 "When invalid function code, then parse report exception" *)
Example WriteMultipleRegistersRequest_194 : parse_request 16 [0x42; 0x12; 0x34; 0x00; 0x02; 0x04; 0x42; 0x42; 0x42; 0x42] = Ret (Error EMalformedRequest).
Proof. vm_compute. reflexivity. Qed.

(** lib/tests/unit/messages/WriteMultipleRegistersRequestImplTest.cpp:210-220 "When request is too short, then parse report exception" *)
Example WriteMultipleRegistersRequest_210 : parse_request 16 [0x10; 0x12; 0x34; 0x00; 0x02] = Ret (Error EMalformedRequest).
Proof. vm_compute. reflexivity. Qed.

(** lib/tests/unit/messages/WriteMultipleRegistersResponseImplTest.cpp:80-91 "When proper response, then parse it properly" *)
Example WriteMultipleRegistersResponse_80 : response_parser (WriteMultipleRegisters 0x1234 []) [0x10; 0x12; 0x34; 0x00; 0x03] = Ret (Value (MultipleRegistersWritten 0x1234 3)).
Proof. vm_compute. reflexivity. Qed.

(** lib/tests/unit/messages/WriteMultipleRegistersResponseImplTest.cpp:97-108 "When exception response, then parse report exception" *)
Example WriteMultipleRegistersResponse_97 : response_parser (WriteMultipleRegisters 0x1234 []) [0x90; 0x02] = Ret (Error (EModbus IllegalDataAddress)).
Proof. vm_compute. reflexivity. Qed.

(** lib/tests/unit/messages/WriteMultipleRegistersResponseImplTest.cpp:111-120 "When too small, then return malformed exception" *)
Example WriteMultipleRegistersResponse_111 : response_parser (WriteMultipleRegisters 0x1234 []) [0x10] = Ret (Error EMalformedResponse).
Proof. vm_compute. reflexivity. Qed.

(** lib/tests/unit/messages/WriteMultipleRegistersResponseImplTest.cpp:123-135 "When too big, then return malformed exception" *)
Example WriteMultipleRegistersResponse_123 : response_parser (WriteMultipleRegisters 0x1234 []) [0x10; 0x12; 0x34; 0x00; 0x03; 0x42; 0x42] = Ret (Error EMalformedResponse).
Proof. vm_compute. reflexivity. Qed.

(** lib/tests/unit/messages/WriteSingleCoilRequestImplTest.cpp:78-88 "When proper request with output value ON, then parse it properly" *)
Example WriteSingleCoilRequest_78 : parse_request 5 [0x05; 0x12; 0x34; 0xFF; 0x00] = Ret (Value (WriteSingleCoil 0x1234 true)).
Proof. vm_compute. reflexivity. Qed.

(** lib/tests/unit/messages/WriteSingleCoilRequestImplTest.cpp:94-104 "When proper request with output value OFF, then parse it properly" *)
Example WriteSingleCoilRequest_94 : parse_request 5 [0x05; 0x12; 0x34; 0x00; 0x00] = Ret (Value (WriteSingleCoil 0x1234 false)).
Proof. vm_compute. reflexivity. Qed.

(** lib/tests/unit/messages/WriteSingleCoilRequestImplTest.cpp:110-122 "When wrong output value, then return Modbus exception 0x03" *)
Example WriteSingleCoilRequest_110 : parse_request 5 [0x05; 0x12; 0x34; 0x42; 0x42] = Ret (Error (EModbus IllegalDataValue)).
Proof. vm_compute. reflexivity. Qed.

(** lib/tests/unit/messages/WriteSingleCoilRequestImplTest.cpp:125-135 "When wrong size request, then return malformed exception" *)
Example WriteSingleCoilRequest_125 : parse_request 5 [0x05; 0x42; 0x42] = Ret (Error EMalformedRequest).
Proof. vm_compute. reflexivity. Qed.

(** lib/tests/unit/messages/WriteSingleCoilRequestImplTest.cpp:138-149 "When wrong function code, then return malformed exception" *)
Example WriteSingleCoilRequest_138 : parse_request 5 [0x42; 0x12; 0x34; 0xFF; 0x00] = Ret (Error EMalformedRequest).
Proof. vm_compute. reflexivity. Qed.

(** lib/tests/unit/messages/WriteSingleCoilResponseImplTest.cpp:79-90 "When proper ON response, then parse it properly" *)
Example WriteSingleCoilResponse_79 : response_parser (WriteSingleCoil 0x1234 true) [0x05; 0x12; 0x34; 0xFF; 0x00] = Ret (Value (SingleCoilWritten 0x1234 true)).
Proof. vm_compute. reflexivity. Qed.

(** lib/tests/unit/messages/WriteSingleCoilResponseImplTest.cpp:96-109 "When proper OFF response, then parse it properly" *)
Example WriteSingleCoilResponse_96 : response_parser (WriteSingleCoil 0x1234 false) [0x05; 0x12; 0x34; 0x00; 0x00] = Ret (Value (SingleCoilWritten 0x1234 false)).
Proof. vm_compute. reflexivity. Qed.

(** lib/tests/unit/messages/WriteSingleCoilResponseImplTest.cpp:115-126 "When exception response, then parse report exception" *)
Example WriteSingleCoilResponse_115 : response_parser (WriteSingleCoil 0x1234 true) [0x85; 0x02] = Ret (Error (EModbus IllegalDataAddress)).
Proof. vm_compute. reflexivity. Qed.

(** lib/tests/unit/messages/WriteSingleCoilResponseImplTest.cpp:129-138 "When too small, then return malformed exception" *)
Example WriteSingleCoilResponse_129 : response_parser (WriteSingleCoil 0x1234 true) [0x05] = Ret (Error EMalformedResponse).
Proof. vm_compute. reflexivity. Qed.

(** lib/tests/unit/messages/WriteSingleCoilResponseImplTest.cpp:141-153 "When too big, then return malformed exception" *)
Example WriteSingleCoilResponse_141 : response_parser (WriteSingleCoil 0x1234 true) [0x05; 0x12; 0x34; 0x67; 0x89; 0x42; 0x42] = Ret (Error EMalformedResponse).
Proof. vm_compute. reflexivity. Qed.

(** lib/tests/unit/messages/WriteSingleCoilResponseImplTest.cpp:156-167 "When wrong value, then return malformed exception" *)
Example WriteSingleCoilResponse_156 : response_parser (WriteSingleCoil 0x1234 true) [0x05; 0x12; 0x34; 0x42; 0x42] = Ret (Error EMalformedResponse).
Proof. vm_compute. reflexivity. Qed.

(** lib/tests/unit/messages/WriteSingleRegisterRequestImplTest.cpp:65-76 "When proper request, then parse it properly" *)
Example WriteSingleRegisterRequest_65 : parse_request 6 [0x06; 0x12; 0x34; 0x67; 0x89] = Ret (Value (WriteSingleRegister 0x1234 0x6789)).
Proof. vm_compute. reflexivity. Qed.

(** lib/tests/unit/messages/WriteSingleRegisterRequestImplTest.cpp:82-93 "When wrong function code, then parse report exception" *)
Example WriteSingleRegisterRequest_82 : parse_request 6 [0x42; 0x12; 0x34; 0x67; 0x89] = Ret (Error EMalformedRequest).
Proof. vm_compute. reflexivity. Qed.

(** lib/tests/unit/messages/WriteSingleRegisterRequestImplTest.cpp:96-105 "When too small, then return malformed exception" *)
Example WriteSingleRegisterRequest_96 : parse_request 6 [0x06] = Ret (Error EMalformedRequest).
Proof. vm_compute. reflexivity. Qed.

(** lib/tests/unit/messages/WriteSingleRegisterRequestImplTest.cpp:108-120 "When too big, then return malformed exception" *)
Example WriteSingleRegisterRequest_108 : parse_request 6 [0x06; 0x12; 0x34; 0x67; 0x89; 0x42; 0x42] = Ret (Error EMalformedRequest).
Proof. vm_compute. reflexivity. Qed.

(** lib/tests/unit/messages/WriteSingleRegisterResponseImplTest.cpp:64-75 "When proper response, then parse it properly" *)
Example WriteSingleRegisterResponse_64 : response_parser (WriteSingleRegister 0x1234 0x6789) [0x06; 0x12; 0x34; 0x67; 0x89] = Ret (Value (SingleRegisterWritten 0x1234 0x6789)).
Proof. vm_compute. reflexivity. Qed.

(** lib/tests/unit/messages/WriteSingleRegisterResponseImplTest.cpp:81-92 "When exception response, then parse report exception" *)
Example WriteSingleRegisterResponse_81 : response_parser (WriteSingleRegister 0x1234 0x6789) [0x86; 0x02] = Ret (Error (EModbus IllegalDataAddress)).
Proof. vm_compute. reflexivity. Qed.

(** lib/tests/unit/messages/WriteSingleRegisterResponseImplTest.cpp:95-104 "When too small, then return malformed exception" *)
Example WriteSingleRegisterResponse_95 : response_parser (WriteSingleRegister 0x1234 0x6789) [0x06] = Ret (Error EMalformedResponse).
Proof. vm_compute. reflexivity. Qed.

(** lib/tests/unit/messages/WriteSingleRegisterResponseImplTest.cpp:107-119 "When too big, then return malformed exception" *)
Example WriteSingleRegisterResponse_107 : response_parser (WriteSingleRegister 0x1234 0x6789) [0x06; 0x12; 0x34; 0x67; 0x89; 0x42; 0x42] = Ret (Error EMalformedResponse).
Proof. vm_compute. reflexivity. Qed.
