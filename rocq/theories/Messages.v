(** Model of lib/src/messages: validity, length, serialisation and parsing of
    every message class.  Definitions are named after the C++ class and method
    they model. *)
From Verif Require Import Prelude Ser4.

(** ** IMessage (lib/src/messages/IMessage.h:26-39)

    What a channel sees of a message: [is_valid], [get_message_length],
    [build_message]. *)
Record imessage : Type := {
  im_valid : bool;
  im_length : N;
  im_build : wseq -> wseq
}.

(** ** Exception types *)

(** lib/src/messages/ExceptionType.cpp:21-46 *)
Definition parse_exception_type (data : N) : exception_type :=
  match data with
  | 1 => IllegalFunction
  | 2 => IllegalDataAddress
  | 3 => IllegalDataValue
  | 4 => ServerDeviceFailure
  | 5 => Acknowledge
  | 6 => ServerDeviceBusy
  | 8 => MemoryParityError
  | 10 => GatewayPathUnavailable
  | 11 => GatewayTargetDeviceFailedToRespond
  | _ => Unknown
  end.

(** lib/src/messages/ExceptionResponse.cpp:35-49 *)
Definition ExceptionResponse_build (fc : N) (e : exception_type) (w : wseq) : wseq :=
  let w := write_u8 w (N.lor fc 128) in
  write_u8 w (to_u8 (exception_value e)).

Definition ExceptionResponse (fc : N) (e : exception_type) : imessage :=
  {| im_valid := true; im_length := 2; im_build := ExceptionResponse_build fc e |}.

(** lib/src/messages/IMessage.cpp:25-57. The view is passed by reference; on
    success the remaining view is returned in place of [true]. *)
Definition parse_function_code (fc : N) (data : rseq) : outcome (expected rseq) :=
  if size data <? 1 then Ret (Error EMalformedResponse)
  else
    rd8 data (fun read_fc data =>
    if negb (N.land read_fc 127 =? fc) then Ret (Error EMalformedResponse)
    else if negb (N.land read_fc 128 =? 0) then
      if negb (size data =? 1) then Ret (Error EMalformedResponse)
      else rd8 data (fun code _ => Ret (Error (EModbus (parse_exception_type code))))
    else Ret (Value data)).

(** Used by every response parser: continue with the view or pass the error on. *)
Definition after_function_code {A} (fc : N) (data : rseq)
    (k : rseq -> outcome (expected A)) : outcome (expected A) :=
  let! r := parse_function_code fc data in
  match r with
  | Error e => Ret (Error e)
  | Value view => k view
  end.

(** ** Read coils / discrete inputs, request

    lib/src/messages/ReadBitsRequestImpl.{h,cpp}; [fc] is the template
    parameter [function_code] (0x01 or 0x02). *)

(** lib/include/modbus/messages/ReadCoilsRequest.h:44 and
    ReadDiscreteInputsRequest.h:44, used by [is_valid]. *)
Definition ReadBits_request_max : N := 2000.

(** ReadBitsRequestImpl.h:42, used by [parse]. *)
Definition ReadBits_max : N := 2000.

(** ReadBitsRequestImpl.cpp:39-43 *)
Definition ReadBitsRequest_is_valid (qty : N) : bool :=
  (0 <? qty) && (qty <=? ReadBits_request_max).

(** ReadBitsRequestImpl.cpp:52-57 *)
Definition ReadBitsRequest_build (fc start qty : N) (w : wseq) : wseq :=
  let w := write_u8 w fc in
  let w := write_u16 w start in
  write_u16 w qty.

(** ReadBitsRequestImpl.cpp:66-102 *)
Definition ReadBitsRequest_parse (fc : N) (data : rseq) : outcome (expected (N * N)) :=
  if negb (size data =? 5) then Ret (Error EMalformedRequest)
  else
    rd8 data (fun read_fc view =>
    if negb (read_fc =? fc) then Ret (Error EMalformedRequest)
    else
      rd16 view (fun start view =>
      rd16 view (fun qty view =>
      if (qty <? 1) || (ReadBits_max <? qty) then Ret (Error (EModbus IllegalDataValue))
      else Ret (Value (start, qty))))).

(** ** Read coils / discrete inputs, response

    lib/src/messages/ReadBitsResponseImpl.cpp *)

(** ReadBitsResponseImpl.cpp:44-52 (also the expression at :114-118 and
    WriteMultipleCoilsRequestImpl.cpp:145-154) *)
Definition byte_count_of_bits (n : N) : N :=
  let num_bytes := n / 8 in
  if negb (n mod 8 =? 0) then num_bytes + 1 else num_bytes.

Definition ReadBitsResponse_length (values : list (N * bool)) : N :=
  2 + byte_count_of_bits (size values).

(** ReadBitsResponseImpl.cpp:61-77: the loop state is the destination, the byte
    being assembled and the bit offset in it. *)
Definition ReadBitsResponse_bit (st : wseq * N * N) (value : N * bool) : wseq * N * N :=
  let '(w, current_byte, current_offset) := st in
  let current_byte :=
    if snd value then to_u8 (N.lor current_byte (N.shiftl 1 current_offset))
    else current_byte in
  let current_offset := to_u8 (current_offset + 1) in
  if current_offset =? 8 then (write_u8 w current_byte, 0, 0)
  else (w, current_byte, current_offset).

(** ReadBitsResponseImpl.cpp:55-83 *)
Definition ReadBitsResponse_build (fc : N) (values : list (N * bool)) (w : wseq) : wseq :=
  let w := write_u8 w fc in
  let w := write_u8 w (to_u8 (ReadBitsResponse_length values - 2)) in
  let '(w, current_byte, current_offset) :=
    fold_left ReadBitsResponse_bit values (w, 0, 0) in
  if negb (current_offset =? 0) then write_u8 w current_byte else w.

(** The inner loop of ReadBitsResponseImpl.cpp:136-141 and of
    WriteMultipleCoilsRequestImpl.cpp:135-139: bits [i, i + n) of a byte. *)
Fixpoint extract_bits (b : N) (i : N) (n : nat) : list bool :=
  match n with
  | O => []
  | S n' => negb (N.land (N.shiftr b i) 1 =? 0) :: extract_bits b (i + 1) n'
  end.

(** [num_bits_to_extract] at ReadBitsResponseImpl.cpp:130-134 and
    WriteMultipleCoilsRequestImpl.cpp:129-133. *)
Definition num_bits_to_extract (qty have : N) : nat :=
  let n := size_sub qty have in
  N.to_nat (if 8 <? n then 8 else n).

(** ReadBitsResponseImpl.cpp:128-142 without the addresses: one byte per
    iteration until the view is empty. *)
Fixpoint extract_all_bits (qty : N) (view : rseq) (values : list bool) : list bool :=
  match view with
  | [] => values
  | current_value :: view' =>
      extract_all_bits qty view'
        (values ++ extract_bits current_value 0 (num_bits_to_extract qty (size values)))
  end.

(** Pairing with [current_address++] (a [uint16_t], ReadBitsResponseImpl.cpp:126,
    139-140 and ReadRegistersResponseImpl.cpp:96,100-101). *)
Fixpoint with_addresses {A} (current_address : N) (values : list A) : list (N * A) :=
  match values with
  | [] => []
  | v :: values' => (current_address, v) :: with_addresses (to_u16 (current_address + 1)) values'
  end.

(** ReadBitsResponseImpl.cpp:87-145 *)
Definition ReadBitsResponse_parse (fc : N) (start qty : N) (data : rseq)
    : outcome (expected (list (N * bool))) :=
  after_function_code fc data (fun view =>
  if size view <? 1 then Ret (Error EMalformedResponse)
  else
    rd8 view (fun length view =>
    if negb (size view =? length) then Ret (Error EMalformedResponse)
    else if negb (length =? byte_count_of_bits qty) then Ret (Error EMalformedResponse)
    else Ret (Value (with_addresses start (extract_all_bits qty view []))))).

(** ** Read holding / input registers, request

    lib/src/messages/ReadRegistersRequestImpl.{h,cpp}; [fc] is 0x03 or 0x04. *)

(** lib/include/modbus/messages/ReadHoldingRegistersRequest.h:44 and
    ReadInputRegistersRequest.h:44, used by [is_valid]. *)
Definition ReadRegisters_request_max : N := 125.

(** ReadRegistersRequestImpl.h:41, used by [parse]. *)
Definition ReadRegisters_max : N := 125.

(** ReadRegistersRequestImpl.cpp:33-37 *)
Definition ReadRegistersRequest_is_valid (qty : N) : bool :=
  (0 <? qty) && (qty <=? ReadRegisters_request_max).

(** ReadRegistersRequestImpl.cpp:52-57 *)
Definition ReadRegistersRequest_build (fc start qty : N) (w : wseq) : wseq :=
  let w := write_u8 w fc in
  let w := write_u16 w start in
  write_u16 w qty.

(** ReadRegistersRequestImpl.cpp:66-102 *)
Definition ReadRegistersRequest_parse (fc : N) (data : rseq) : outcome (expected (N * N)) :=
  if negb (size data =? 5) then Ret (Error EMalformedRequest)
  else
    rd8 data (fun read_fc view =>
    if negb (read_fc =? fc) then Ret (Error EMalformedRequest)
    else
      rd16 view (fun start view =>
      rd16 view (fun qty view =>
      if (qty <? 1) || (ReadRegisters_max <? qty) then Ret (Error (EModbus IllegalDataValue))
      else Ret (Value (start, qty))))).

(** ** Read holding / input registers, response

    lib/src/messages/ReadRegistersResponseImpl.cpp *)

(** ReadRegistersResponseImpl.cpp:44-47 *)
Definition ReadRegistersResponse_length (values : list (N * N)) : N :=
  2 + size values * 2.

(** ReadRegistersResponseImpl.cpp:50-60 *)
Definition ReadRegistersResponse_build (fc : N) (values : list (N * N)) (w : wseq) : wseq :=
  let w := write_u8 w fc in
  let w := write_u8 w (to_u8 (ReadRegistersResponse_length values - 2)) in
  fold_left (fun w value => write_u16 w (snd value)) values w.

(** The loop [while(UInt16::read_from(view, v))] of
    ReadRegistersResponseImpl.cpp:98-102 and
    WriteMultipleRegistersRequestImpl.cpp:112-115. *)
Fixpoint extract_registers (view : rseq) : list N :=
  match view with
  | hi :: lo :: view' => (hi * 256 + lo) :: extract_registers view'
  | _ => []
  end.

(** ReadRegistersResponseImpl.cpp:64-105. The byte count [length] is only
    checked for parity. *)
Definition ReadRegistersResponse_parse (fc : N) (start qty : N) (data : rseq)
    : outcome (expected (list (N * N))) :=
  after_function_code fc data (fun view =>
  if size view <? 1 then Ret (Error EMalformedResponse)
  else
    rd8 view (fun length view =>
    if negb (length mod 2 =? 0) then Ret (Error EMalformedResponse)
    else if negb (size view =? 2 * qty) then Ret (Error EMalformedResponse)
    else Ret (Value (with_addresses start (extract_registers view))))).

(** ** Write single coil

    lib/src/messages/WriteSingleCoilRequestImpl.{h,cpp} and
    WriteSingleCoilResponseImpl.cpp *)

(** WriteSingleCoilRequestImpl.h:28-29 *)
Definition Coil_ON : N := 65280.  (* 0xFF00 *)
Definition Coil_OFF : N := 0.

(** WriteSingleCoilRequestImpl.cpp:46-57 and, identically,
    WriteSingleCoilResponseImpl.cpp:45-56 *)
Definition WriteSingleCoil_build (address : N) (value : bool) (w : wseq) : wseq :=
  let w := write_u8 w 5 in
  let w := write_u16 w address in
  write_u16 w (if value then Coil_ON else Coil_OFF).

(** WriteSingleCoilRequestImpl.cpp:64-109 *)
Definition WriteSingleCoilRequest_parse (data : rseq) : outcome (expected (N * bool)) :=
  if negb (size data =? 5) then Ret (Error EMalformedRequest)
  else
    rd8 data (fun fc view =>
    if negb (fc =? 5) then Ret (Error EMalformedRequest)
    else
      rd16 view (fun address view =>
      rd16 view (fun value view =>
      if value =? Coil_ON then Ret (Value (address, true))
      else if value =? Coil_OFF then Ret (Value (address, false))
      else Ret (Error (EModbus IllegalDataValue))))).

(** WriteSingleCoilResponseImpl.cpp:58-103; the request is an unused parameter. *)
Definition WriteSingleCoilResponse_parse (data : rseq) : outcome (expected (N * bool)) :=
  after_function_code 5 data (fun view =>
  if negb (size view =? 4) then Ret (Error EMalformedResponse)
  else
    rd16 view (fun address view =>
    rd16 view (fun value view =>
    if value =? Coil_ON then Ret (Value (address, true))
    else if value =? Coil_OFF then Ret (Value (address, false))
    else Ret (Error EMalformedResponse)))).

(** ** Write single register

    lib/src/messages/WriteSingleRegisterRequestImpl.cpp and
    WriteSingleRegisterResponseImpl.cpp *)

(** WriteSingleRegisterRequestImpl.cpp:45-50 and
    WriteSingleRegisterResponseImpl.cpp:45-50 *)
Definition WriteSingleRegister_build (address value : N) (w : wseq) : wseq :=
  let w := write_u8 w 6 in
  let w := write_u16 w address in
  write_u16 w value.

(** WriteSingleRegisterRequestImpl.cpp:57-86 *)
Definition WriteSingleRegisterRequest_parse (data : rseq) : outcome (expected (N * N)) :=
  if negb (size data =? 5) then Ret (Error EMalformedRequest)
  else
    rd8 data (fun fc view =>
    if negb (fc =? 6) then Ret (Error EMalformedRequest)
    else
      rd16 view (fun address view =>
      rd16 view (fun value view =>
      Ret (Value (address, value))))).

(** WriteSingleRegisterResponseImpl.cpp:52-81; the request is unused. *)
Definition WriteSingleRegisterResponse_parse (data : rseq) : outcome (expected (N * N)) :=
  after_function_code 6 data (fun view =>
  if negb (size view =? 4) then Ret (Error EMalformedResponse)
  else
    rd16 view (fun address view =>
    rd16 view (fun value view =>
    Ret (Value (address, value))))).

(** ** Write multiple coils

    lib/src/messages/WriteMultipleCoilsRequestImpl.cpp and
    WriteMultipleCoilsResponseImpl.cpp *)

(** lib/include/modbus/messages/WriteMultipleCoilsRequest.h:45 *)
Definition WriteMultipleCoils_max : N := 1968.

(** WriteMultipleCoilsRequestImpl.cpp:36-40 *)
Definition WriteMultipleCoilsRequest_is_valid (values : list bool) : bool :=
  (0 <? size values) && (size values <=? WriteMultipleCoils_max).

(** WriteMultipleCoilsRequestImpl.cpp:42-45 *)
Definition WriteMultipleCoilsRequest_length (values : list bool) : N :=
  6 + byte_count_of_bits (size values).

(** WriteMultipleCoilsRequestImpl.cpp:60-70: the inner loop over [j].  The
    index [current_bit] is represented by the not yet written suffix of
    [values] ([current_bit >= size] iff the suffix is empty). *)
Fixpoint coil_byte (values : list bool) (value : N) (j : N) (n : nat) {struct n} : N * list bool :=
  match n with
  | O => (value, values)
  | S n' =>
      match values with
      | [] => (value, [])
      | v :: values' =>
          coil_byte values' (to_u8 (N.lor value (N.shiftl (N.b2n v) j))) (j + 1) n'
      end
  end.

(** WriteMultipleCoilsRequestImpl.cpp:58-73: the outer loop over [num_bytes]. *)
Fixpoint coil_bytes (num_bytes : nat) (values : list bool) (w : wseq) : wseq :=
  match num_bytes with
  | O => w
  | S n =>
      let '(value, values) := coil_byte values 0 0 8 in
      coil_bytes n values (write_u8 w value)
  end.

(** WriteMultipleCoilsRequestImpl.cpp:47-74 *)
Definition WriteMultipleCoilsRequest_build (start : N) (values : list bool) (w : wseq) : wseq :=
  let num_bytes := byte_count_of_bits (size values) in
  let w := write_u8 w 15 in
  let w := write_u16 w start in
  let w := write_u16 w (to_u16 (size values)) in
  let w := write_u8 w (to_u8 num_bytes) in
  coil_bytes (N.to_nat num_bytes) values w.

(** WriteMultipleCoilsRequestImpl.cpp:81-143 *)
Definition WriteMultipleCoilsRequest_parse (data : rseq) : outcome (expected (N * list bool)) :=
  if size data <? 6 then Ret (Error EMalformedRequest)
  else
    rd8 data (fun fc view =>
    if negb (fc =? 15) then Ret (Error EMalformedRequest)
    else
      rd16 view (fun start view =>
      rd16 view (fun qty view =>
      if (qty <? 1) || (WriteMultipleCoils_max <? qty) then Ret (Error (EModbus IllegalDataValue))
      else
        rd8 view (fun byte_count view =>
        if negb (byte_count_of_bits qty =? byte_count) then Ret (Error (EModbus IllegalDataValue))
        else if negb (byte_count =? size view) then Ret (Error EMalformedRequest)
        else Ret (Value (start, extract_all_bits qty view [])))))).

(** WriteMultipleCoilsResponseImpl.cpp:35-38 *)
Definition WriteMultipleCoilsResponse_is_valid (qty : N) : bool :=
  (1 <=? qty) && (qty <=? WriteMultipleCoils_max).

(** WriteMultipleCoilsResponseImpl.cpp:45-50 *)
Definition WriteMultipleCoilsResponse_build (start qty : N) (w : wseq) : wseq :=
  let w := write_u8 w 15 in
  let w := write_u16 w start in
  write_u16 w qty.

(** WriteMultipleCoilsResponseImpl.cpp:52-81; the request is unused. *)
Definition WriteMultipleCoilsResponse_parse (data : rseq) : outcome (expected (N * N)) :=
  after_function_code 15 data (fun view =>
  if negb (size view =? 4) then Ret (Error EMalformedResponse)
  else
    rd16 view (fun start view =>
    rd16 view (fun qty view =>
    Ret (Value (start, qty))))).

(** ** Write multiple registers

    lib/src/messages/WriteMultipleRegistersRequestImpl.cpp and
    WriteMultipleRegistersResponseImpl.cpp *)

(** lib/include/modbus/messages/WriteMultipleRegistersRequest.h:45 *)
Definition WriteMultipleRegisters_max : N := 123.

(** WriteMultipleRegistersRequestImpl.cpp:36-40 *)
Definition WriteMultipleRegistersRequest_is_valid (values : list N) : bool :=
  (0 <? size values) && (size values <=? WriteMultipleRegisters_max).

(** WriteMultipleRegistersRequestImpl.cpp:42-45 *)
Definition WriteMultipleRegistersRequest_length (values : list N) : N :=
  6 + 2 * size values.

(** WriteMultipleRegistersRequestImpl.cpp:47-59 *)
Definition WriteMultipleRegistersRequest_build (start : N) (values : list N) (w : wseq) : wseq :=
  let w := write_u8 w 16 in
  let w := write_u16 w start in
  let w := write_u16 w (to_u16 (size values)) in
  let w := write_u8 w (to_u8 (2 * size values)) in
  fold_left (fun w value => write_u16 w value) values w.

(** WriteMultipleRegistersRequestImpl.cpp:66-118 *)
Definition WriteMultipleRegistersRequest_parse (data : rseq) : outcome (expected (N * list N)) :=
  if size data <? 6 then Ret (Error EMalformedRequest)
  else
    rd8 data (fun fc view =>
    if negb (fc =? 16) then Ret (Error EMalformedRequest)
    else
      rd16 view (fun start view =>
      rd16 view (fun qty view =>
      if (qty <? 1) || (WriteMultipleRegisters_max <? qty) then Ret (Error (EModbus IllegalDataValue))
      else
        rd8 view (fun byte_count view =>
        if negb (2 * qty =? byte_count) then Ret (Error (EModbus IllegalDataValue))
        else if negb (byte_count =? size view) then Ret (Error EMalformedRequest)
        else Ret (Value (start, extract_registers view)))))).

(** WriteMultipleRegistersResponseImpl.cpp:35-38 *)
Definition WriteMultipleRegistersResponse_is_valid (qty : N) : bool :=
  (1 <=? qty) && (qty <=? WriteMultipleRegisters_max).

(** WriteMultipleRegistersResponseImpl.cpp:45-50 *)
Definition WriteMultipleRegistersResponse_build (start qty : N) (w : wseq) : wseq :=
  let w := write_u8 w 16 in
  let w := write_u16 w start in
  write_u16 w (to_u16 qty).

(** WriteMultipleRegistersResponseImpl.cpp:52-81; the request is unused. *)
Definition WriteMultipleRegistersResponse_parse (data : rseq) : outcome (expected (N * N)) :=
  after_function_code 16 data (fun view =>
  if negb (size view =? 4) then Ret (Error EMalformedResponse)
  else
    rd16 view (fun start view =>
    rd16 view (fun qty view =>
    Ret (Value (start, qty))))).

(** ** The request and response structs of lib/include/modbus/messages/*.h,
    collected in two types. *)
Inductive request : Type :=
| ReadCoils (start qty : N)
| ReadDiscreteInputs (start qty : N)
| ReadHoldingRegisters (start qty : N)
| ReadInputRegisters (start qty : N)
| WriteSingleCoil (address : N) (value : bool)
| WriteSingleRegister (address value : N)
| WriteMultipleCoils (start : N) (values : list bool)
| WriteMultipleRegisters (start : N) (values : list N).

Inductive response : Type :=
| CoilsRead (values : list (N * bool))
| DiscreteInputsRead (values : list (N * bool))
| HoldingRegistersRead (values : list (N * N))
| InputRegistersRead (values : list (N * N))
| SingleCoilWritten (address : N) (value : bool)
| SingleRegisterWritten (address value : N)
| MultipleCoilsWritten (start qty : N)
| MultipleRegistersWritten (start qty : N).

(** The template arguments in ReadCoilsRequestImpl.h etc. and the literals in
    the write classes. *)
Definition function_code (r : request) : N :=
  match r with
  | ReadCoils _ _ => 1
  | ReadDiscreteInputs _ _ => 2
  | ReadHoldingRegisters _ _ => 3
  | ReadInputRegisters _ _ => 4
  | WriteSingleCoil _ _ => 5
  | WriteSingleRegister _ _ => 6
  | WriteMultipleCoils _ _ => 15
  | WriteMultipleRegisters _ _ => 16
  end.

(** The [IMessage] of each request class. *)
Definition request_message (r : request) : imessage :=
  match r with
  | ReadCoils s q =>
      {| im_valid := ReadBitsRequest_is_valid q; im_length := 5;
         im_build := ReadBitsRequest_build 1 s q |}
  | ReadDiscreteInputs s q =>
      {| im_valid := ReadBitsRequest_is_valid q; im_length := 5;
         im_build := ReadBitsRequest_build 2 s q |}
  | ReadHoldingRegisters s q =>
      {| im_valid := ReadRegistersRequest_is_valid q; im_length := 5;
         im_build := ReadRegistersRequest_build 3 s q |}
  | ReadInputRegisters s q =>
      {| im_valid := ReadRegistersRequest_is_valid q; im_length := 5;
         im_build := ReadRegistersRequest_build 4 s q |}
  | WriteSingleCoil a v =>
      {| im_valid := true; im_length := 5; im_build := WriteSingleCoil_build a v |}
  | WriteSingleRegister a v =>
      {| im_valid := true; im_length := 5; im_build := WriteSingleRegister_build a v |}
  | WriteMultipleCoils s vs =>
      {| im_valid := WriteMultipleCoilsRequest_is_valid vs;
         im_length := WriteMultipleCoilsRequest_length vs;
         im_build := WriteMultipleCoilsRequest_build s vs |}
  | WriteMultipleRegisters s vs =>
      {| im_valid := WriteMultipleRegistersRequest_is_valid vs;
         im_length := WriteMultipleRegistersRequest_length vs;
         im_build := WriteMultipleRegistersRequest_build s vs |}
  end.

(** The [IMessage] of each response class ([is_valid]: *ResponseImpl.cpp:35-41). *)
Definition response_message (r : response) : imessage :=
  match r with
  | CoilsRead vs =>
      {| im_valid := true; im_length := ReadBitsResponse_length vs;
         im_build := ReadBitsResponse_build 1 vs |}
  | DiscreteInputsRead vs =>
      {| im_valid := true; im_length := ReadBitsResponse_length vs;
         im_build := ReadBitsResponse_build 2 vs |}
  | HoldingRegistersRead vs =>
      {| im_valid := true; im_length := ReadRegistersResponse_length vs;
         im_build := ReadRegistersResponse_build 3 vs |}
  | InputRegistersRead vs =>
      {| im_valid := true; im_length := ReadRegistersResponse_length vs;
         im_build := ReadRegistersResponse_build 4 vs |}
  | SingleCoilWritten a v =>
      {| im_valid := true; im_length := 5; im_build := WriteSingleCoil_build a v |}
  | SingleRegisterWritten a v =>
      {| im_valid := true; im_length := 5; im_build := WriteSingleRegister_build a v |}
  | MultipleCoilsWritten s q =>
      {| im_valid := WriteMultipleCoilsResponse_is_valid q; im_length := 5;
         im_build := WriteMultipleCoilsResponse_build s q |}
  | MultipleRegistersWritten s q =>
      {| im_valid := WriteMultipleRegistersResponse_is_valid q; im_length := 5;
         im_build := WriteMultipleRegistersResponse_build s q |}
  end.

(** The server's choice of parser for a function code (the switch of
    lib/src/server/channel/ServerChannelTcp.cpp:114-149); [None] is its
    [default] branch. *)
Definition request_parser (fc : N) : option (rseq -> outcome (expected request)) :=
  match fc with
  | 1 => Some (fun d => omap (emap (fun p => ReadCoils (fst p) (snd p))) (ReadBitsRequest_parse 1 d))
  | 2 => Some (fun d => omap (emap (fun p => ReadDiscreteInputs (fst p) (snd p))) (ReadBitsRequest_parse 2 d))
  | 3 => Some (fun d => omap (emap (fun p => ReadHoldingRegisters (fst p) (snd p))) (ReadRegistersRequest_parse 3 d))
  | 4 => Some (fun d => omap (emap (fun p => ReadInputRegisters (fst p) (snd p))) (ReadRegistersRequest_parse 4 d))
  | 5 => Some (fun d => omap (emap (fun p => WriteSingleCoil (fst p) (snd p))) (WriteSingleCoilRequest_parse d))
  | 6 => Some (fun d => omap (emap (fun p => WriteSingleRegister (fst p) (snd p))) (WriteSingleRegisterRequest_parse d))
  | 15 => Some (fun d => omap (emap (fun p => WriteMultipleCoils (fst p) (snd p))) (WriteMultipleCoilsRequest_parse d))
  | 16 => Some (fun d => omap (emap (fun p => WriteMultipleRegisters (fst p) (snd p))) (WriteMultipleRegistersRequest_parse d))
  | _ => None
  end.

(** The client's parser for the response to a request
    ([TResponseImpl::parse(request, data)],
    lib/src/client/session/ClientSessionImpl.cpp, [meta_send_request]). *)
Definition response_parser (req : request) (data : rseq) : outcome (expected response) :=
  match req with
  | ReadCoils s q => omap (emap CoilsRead) (ReadBitsResponse_parse 1 s q data)
  | ReadDiscreteInputs s q => omap (emap DiscreteInputsRead) (ReadBitsResponse_parse 2 s q data)
  | ReadHoldingRegisters s q => omap (emap HoldingRegistersRead) (ReadRegistersResponse_parse 3 s q data)
  | ReadInputRegisters s q => omap (emap InputRegistersRead) (ReadRegistersResponse_parse 4 s q data)
  | WriteSingleCoil _ _ =>
      omap (emap (fun p => SingleCoilWritten (fst p) (snd p))) (WriteSingleCoilResponse_parse data)
  | WriteSingleRegister _ _ =>
      omap (emap (fun p => SingleRegisterWritten (fst p) (snd p))) (WriteSingleRegisterResponse_parse data)
  | WriteMultipleCoils _ _ =>
      omap (emap (fun p => MultipleCoilsWritten (fst p) (snd p))) (WriteMultipleCoilsResponse_parse data)
  | WriteMultipleRegisters _ _ =>
      omap (emap (fun p => MultipleRegistersWritten (fst p) (snd p))) (WriteMultipleRegistersResponse_parse data)
  end.

(** [build_message] into a buffer of the given capacity. *)
Definition build_into (cap : nat) (m : imessage) : list N :=
  w_out (im_build m (wseq_new cap)).
