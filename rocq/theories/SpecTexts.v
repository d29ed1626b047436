(** What the texts of the exceptions about malformed responses mean.  Nothing here uses the
    parsers. *)
From Verif Require Import Prelude Messages SpecPdu.

(** [q] bits, or registers, are read. *)
Definition reads_bits (r : request) (q : N) : Prop :=
  exists s, r = ReadCoils s q \/ r = ReadDiscreteInputs s q.
Definition reads_registers (r : request) (q : N) : Prop :=
  exists s, r = ReadHoldingRegisters s q \/ r = ReadInputRegisters s q.
Definition is_write (r : request) : Prop :=
  match r with
  | WriteSingleCoil _ _ | WriteSingleRegister _ _ | WriteMultipleCoils _ _ | WriteMultipleRegisters _ _ => True
  | _ => False
  end.

(** What is wrong with a response to [r] when the user is told [text]. *)
Inductive is_wrong (r : request) : list N -> string -> Prop :=
| wrong_empty : is_wrong r [] "Response is empty."
| wrong_function c data :
    c <> spec_function_code r -> c <> spec_function_code r + 128 ->
    is_wrong r (c :: data) "Wrong function code."
| wrong_exception data :
    List.length data <> 1%nat ->
    is_wrong r (spec_function_code r + 128 :: data) "Modbus exception should have a single byte of data."
| wrong_short q :
    reads_bits r q \/ reads_registers r q ->
    is_wrong r [spec_function_code r] "Response is too short."
| wrong_header q n data :
    reads_bits r q -> n <> N.of_nat (List.length data) ->
    is_wrong r (spec_function_code r :: n :: data) "Response length does not fit with the value in the header."
| wrong_length q data :
    reads_bits r q -> List.length data <> bits_to_bytes (N.to_nat q) ->
    is_wrong r (spec_function_code r :: N.of_nat (List.length data) :: data) "Response does not have the expected length."
| wrong_even q n data :
    reads_registers r q -> N.odd n = true ->
    is_wrong r (spec_function_code r :: n :: data) "Response should contain an even number of register bytes."
| wrong_registers q n data :
    reads_registers r q -> N.odd n = false -> N.of_nat (List.length data) <> 2 * q ->
    is_wrong r (spec_function_code r :: n :: data) "Response does not contain the expected number of registers."
| wrong_size data :
    is_write r -> List.length data <> 4%nat ->
    is_wrong r (spec_function_code r :: data) "Invalid response size."
| wrong_state a b hi lo s v :
    r = WriteSingleCoil s v -> [hi; lo] <> [255; 0] -> [hi; lo] <> [0; 0] ->
    is_wrong r (spec_function_code r :: [a; b; hi; lo]) "Invalid coil state.".
