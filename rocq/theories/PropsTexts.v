(** C116: the texts of the exceptions about malformed responses. *)
From Verif Require Import Prelude Ser4 Messages SpecPdu Texts SpecTexts TextsFacts.

(** There is a text exactly if the user is told that the response is malformed. *)
Theorem C116_text_iff_malformed : forall r data,
  response_parser r data = Ret (Error EMalformedResponse) <-> exists text, response_text r data = Some text.
Proof. exact text_iff_malformed. Qed.
Print Assumptions C116_text_iff_malformed.

(** A text is given exactly if what it stands for is the case. *)
Theorem C116_text_says_what_is_wrong : forall r data text, bytes data ->
  (response_text r data = Some text <-> is_wrong r data text).
Proof. exact text_iff_wrong. Qed.
Print Assumptions C116_text_says_what_is_wrong.

Example C116_case :
  response_text (ReadHoldingRegisters 0 2) [3; 4; 0; 1; 0; 2] = None /\
  response_text (ReadHoldingRegisters 0 2) [3; 4; 0; 1] = Some "Response does not contain the expected number of registers."%string /\
  response_text (ReadCoils 0 9) [1; 2; 255] = Some "Response length does not fit with the value in the header."%string /\
  response_text (ReadCoils 0 9) [1; 1; 255] = Some "Response does not have the expected length."%string /\
  response_text (WriteSingleCoil 0 true) [5; 0; 0; 1; 0] = Some "Invalid coil state."%string /\
  response_text (WriteSingleRegister 0 1) [134; 2; 0] = Some "Modbus exception should have a single byte of data."%string.
Proof. repeat split. Qed.
Print Assumptions C116_case.

(** The wording is right: refuted, the text about an odd number of register bytes is also
    given for a response with all its registers whose byte count is odd. *)
Theorem C116_wording_refuted :
  ~ (forall r q fc n data, reads_registers r q -> bytes (fc :: n :: data) ->
     response_text r (fc :: n :: data) = Some "Response should contain an even number of register bytes."%string ->
     Nat.odd (List.length data) = true).
Proof. exact even_text_misleads. Qed.
Print Assumptions C116_wording_refuted.
