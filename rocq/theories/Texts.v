(** Model of the texts of the exceptions about malformed responses, which a user gets from
    [IException::get_message] (lib/include/modbus/exceptions/IException.h:53-56,
    MalformedModbusResponseException.h:40-48).  The parsers of Messages.v leave them out;
    here are their branches again, with the text of each error; [None] is a value or
    another exception. *)
From Verif Require Import Prelude Ser4 Messages.

Definition text_empty : string := "Response is empty.".
Definition text_function_code : string := "Wrong function code.".
Definition text_exception : string := "Modbus exception should have a single byte of data.".
Definition text_short : string := "Response is too short.".
Definition text_header : string := "Response length does not fit with the value in the header.".
Definition text_length : string := "Response does not have the expected length.".
Definition text_even : string := "Response should contain an even number of register bytes.".
Definition text_registers : string := "Response does not contain the expected number of registers.".
Definition text_size : string := "Invalid response size.".
Definition text_state : string := "Invalid coil state.".

(** lib/src/messages/IMessage.cpp:25-57, then the rest of the parser *)
Definition text_after_function_code (fc : N) (data : rseq) (k : rseq -> option string) : option string :=
  match data with
  | [] => Some text_empty
  | read_fc :: data =>
      if negb (N.land read_fc 127 =? fc) then Some text_function_code
      else if negb (N.land read_fc 128 =? 0) then
        if negb (size data =? 1) then Some text_exception else None
      else k data
  end.

(** lib/src/messages/ReadBitsResponseImpl.cpp:87-145 *)
Definition ReadBitsResponse_text (fc qty : N) (data : rseq) : option string :=
  text_after_function_code fc data (fun view =>
  match view with
  | [] => Some text_short
  | length :: view =>
      if negb (size view =? length) then Some text_header
      else if negb (length =? byte_count_of_bits qty) then Some text_length
      else None
  end).

(** lib/src/messages/ReadRegistersResponseImpl.cpp:64-105 *)
Definition ReadRegistersResponse_text (fc qty : N) (data : rseq) : option string :=
  text_after_function_code fc data (fun view =>
  match view with
  | [] => Some text_short
  | length :: view =>
      if negb (length mod 2 =? 0) then Some text_even
      else if negb (size view =? 2 * qty) then Some text_registers
      else None
  end).

(** lib/src/messages/WriteSingleCoilResponseImpl.cpp:58-103 *)
Definition WriteSingleCoilResponse_text (data : rseq) : option string :=
  text_after_function_code 5 data (fun view =>
  match view with
  | [_; _; hi; lo] =>
      let value := hi * 256 + lo in
      if value =? Coil_ON then None else if value =? Coil_OFF then None else Some text_state
  | _ => Some text_size
  end).

(** lib/src/messages/WriteSingleRegisterResponseImpl.cpp:52-81,
    WriteMultipleCoilsResponseImpl.cpp:52-81, WriteMultipleRegistersResponseImpl.cpp:52-81 *)
Definition WriteResponse_text (fc : N) (data : rseq) : option string :=
  text_after_function_code fc data (fun view =>
  if negb (size view =? 4) then Some text_size else None).

(** The parser for the response to each request
    (lib/src/client/session/ClientSessionImpl.cpp, [meta_send_request]). *)
Definition response_text (req : request) (data : rseq) : option string :=
  match req with
  | ReadCoils _ q => ReadBitsResponse_text 1 q data
  | ReadDiscreteInputs _ q => ReadBitsResponse_text 2 q data
  | ReadHoldingRegisters _ q => ReadRegistersResponse_text 3 q data
  | ReadInputRegisters _ q => ReadRegistersResponse_text 4 q data
  | WriteSingleCoil _ _ => WriteSingleCoilResponse_text data
  | WriteSingleRegister _ _ => WriteResponse_text 6 data
  | WriteMultipleCoils _ _ => WriteResponse_text 15 data
  | WriteMultipleRegisters _ _ => WriteResponse_text 16 data
  end.
