(** Independent specification of the Modbus PDUs, written from the MODBUS
    Application Protocol Specification (sections 6 and 7), not from the code.
    It uses nothing of the model but the request and response types. *)
From Verif Require Import Prelude Messages.

(** Two bytes, most significant first. *)
Definition be16 (v : N) : list N := [v / 256; v mod 256].

Definition be16s (vs : list N) : list N := flat_map be16 vs.

(** Number of bytes needed for [n] bits. *)
Definition bits_to_bytes (n : nat) : nat := Nat.div (n + 7) 8.

(** Bit [i] of a bit field: bit [i mod 8] of byte [i / 8]. *)
Definition field_bit (d : list N) (i : nat) : bool :=
  N.testbit (nth (Nat.div i 8) d 0) (N.of_nat (Nat.modulo i 8)).

(** [d] has room for exactly the bits [vs] and holds them LSB first; padding
    bits are unconstrained. *)
Definition bit_field (vs : list bool) (d : list N) : Prop :=
  List.length d = bits_to_bytes (List.length vs) /\
  forall i, (i < List.length vs)%nat -> field_bit d i = nth i vs false.

(** Same, and the padding bits are zero. *)
Definition bit_field0 (vs : list bool) (d : list N) : Prop :=
  bytes d /\ List.length d = bits_to_bytes (List.length vs) /\
  forall i, (i < 8 * List.length d)%nat -> field_bit d i = nth i vs false.

Definition coil_word (v : bool) : N := if v then 65280 else 0.

(** ** Requests *)

(** The fields have the C++ types they are declared with. *)
Definition typed_request (r : request) : Prop :=
  match r with
  | ReadCoils s q | ReadDiscreteInputs s q
  | ReadHoldingRegisters s q | ReadInputRegisters s q => u16 s /\ u16 q
  | WriteSingleCoil a _ => u16 a
  | WriteSingleRegister a v => u16 a /\ u16 v
  | WriteMultipleCoils s _ => u16 s
  | WriteMultipleRegisters s vs => u16 s /\ Forall u16 vs
  end.

(** The quantity is within the limits of the protocol. *)
Definition quantity_in_range (r : request) : Prop :=
  match r with
  | ReadCoils _ q | ReadDiscreteInputs _ q => 1 <= q <= 2000
  | ReadHoldingRegisters _ q | ReadInputRegisters _ q => 1 <= q <= 125
  | WriteSingleCoil _ _ | WriteSingleRegister _ _ => True
  | WriteMultipleCoils _ vs => 1 <= size vs <= 1968
  | WriteMultipleRegisters _ vs => 1 <= size vs <= 123
  end.

Definition legal_request (r : request) : Prop := typed_request r /\ quantity_in_range r.

(** [bs] is the PDU of request [r]; [field] says how coil values are packed. *)
Definition request_pdu_with (field : list bool -> list N -> Prop) (r : request) (bs : list N) : Prop :=
  match r with
  | ReadCoils s q => bs = [1] ++ be16 s ++ be16 q
  | ReadDiscreteInputs s q => bs = [2] ++ be16 s ++ be16 q
  | ReadHoldingRegisters s q => bs = [3] ++ be16 s ++ be16 q
  | ReadInputRegisters s q => bs = [4] ++ be16 s ++ be16 q
  | WriteSingleCoil a v => bs = [5] ++ be16 a ++ be16 (coil_word v)
  | WriteSingleRegister a v => bs = [6] ++ be16 a ++ be16 v
  | WriteMultipleCoils s vs =>
      exists d, field vs d /\ bs = [15] ++ be16 s ++ be16 (size vs) ++ [size d] ++ d
  | WriteMultipleRegisters s vs =>
      bs = [16] ++ be16 s ++ be16 (size vs) ++ [2 * size vs] ++ be16s vs
  end.

(** What a sender must emit (zero padding) and what a receiver must accept. *)
Definition request_pdu := request_pdu_with bit_field0.
Definition request_pdu_any_padding := request_pdu_with bit_field.

(** The request's function code, by type. *)
Definition spec_function_code (r : request) : N :=
  match r with
  | ReadCoils _ _ => 1
  | ReadDiscreteInputs _ _ => 2
  | ReadHoldingRegisters _ _ => 3
  | ReadInputRegisters _ _ => 4
  | WriteSingleCoil _ _ => 5
  | WriteSingleRegister _ _ => 6
  | WriteMultipleCoils _ _ => 15
  | WriteMultipleRegisters _ _ => 16
  end.

Definition supported (fc : N) : Prop := In fc [1; 2; 3; 4; 5; 6; 15; 16].

(** A PDU of the right shape for [fc] whose quantity, byte count or coil value
    is illegal: the protocol answers it with exception code 03. *)
Definition illegal_value_pdu (fc : N) (bs : list N) : Prop :=
  (In fc [1; 2] /\ exists s q, u16 s /\ u16 q /\ ~ 1 <= q <= 2000 /\ bs = [fc] ++ be16 s ++ be16 q)
  \/ (In fc [3; 4] /\ exists s q, u16 s /\ u16 q /\ ~ 1 <= q <= 125 /\ bs = [fc] ++ be16 s ++ be16 q)
  \/ (fc = 5 /\ exists a v, u16 a /\ u16 v /\ v <> 65280 /\ v <> 0 /\ bs = [5] ++ be16 a ++ be16 v)
  \/ (fc = 15 /\ exists s q c d, u16 s /\ u16 q /\ u8 c /\
        (~ 1 <= q <= 1968 \/ N.to_nat c <> bits_to_bytes (N.to_nat q)) /\
        bs = [15] ++ be16 s ++ be16 q ++ [c] ++ d)
  \/ (fc = 16 /\ exists s q c d, u16 s /\ u16 q /\ u8 c /\
        (~ 1 <= q <= 123 \/ c <> 2 * q) /\
        bs = [16] ++ be16 s ++ be16 q ++ [c] ++ d).

(** ** Responses *)

Definition typed_response (r : response) : Prop :=
  match r with
  | CoilsRead vs | DiscreteInputsRead vs => Forall u16 (map fst vs)
  | HoldingRegistersRead vs | InputRegistersRead vs =>
      Forall u16 (map fst vs) /\ Forall u16 (map snd vs)
  | SingleCoilWritten a _ => u16 a
  | SingleRegisterWritten a v => u16 a /\ u16 v
  | MultipleCoilsWritten s q | MultipleRegistersWritten s q => u16 s /\ u16 q
  end.

(** The data fits a PDU of 253 bytes. *)
Definition response_fits (r : response) : Prop :=
  match r with
  | CoilsRead vs | DiscreteInputsRead vs => size vs <= 8 * 251
  | HoldingRegistersRead vs | InputRegistersRead vs => size vs <= 125
  | _ => True
  end.

Definition response_pdu_with (field : list bool -> list N -> Prop) (r : response) (bs : list N) : Prop :=
  match r with
  | CoilsRead vs => exists d, field (map snd vs) d /\ bs = [1; size d] ++ d
  | DiscreteInputsRead vs => exists d, field (map snd vs) d /\ bs = [2; size d] ++ d
  | HoldingRegistersRead vs => bs = [3; 2 * size vs] ++ be16s (map snd vs)
  | InputRegistersRead vs => bs = [4; 2 * size vs] ++ be16s (map snd vs)
  | SingleCoilWritten a v => bs = [5] ++ be16 a ++ be16 (coil_word v)
  | SingleRegisterWritten a v => bs = [6] ++ be16 a ++ be16 v
  | MultipleCoilsWritten s q => bs = [15] ++ be16 s ++ be16 q
  | MultipleRegistersWritten s q => bs = [16] ++ be16 s ++ be16 q
  end.

Definition response_pdu := response_pdu_with bit_field0.
Definition response_pdu_any_padding := response_pdu_with bit_field.

(** Addresses [start], [start + 1], ... modulo 2^16. *)
Definition consecutive {A} (start : N) (vs : list (N * A)) : Prop :=
  forall i, (i < List.length vs)%nat ->
    nth i (map fst vs) 0 = (start + N.of_nat i) mod 65536.

(** [resp] has the type and amount of data that [req] asks for. For writes the
    protocol also demands an echo, which is stated separately below. *)
Definition answers_shape (req : request) (resp : response) : Prop :=
  match req, resp with
  | ReadCoils s q, CoilsRead vs => size vs = q /\ consecutive s vs
  | ReadDiscreteInputs s q, DiscreteInputsRead vs => size vs = q /\ consecutive s vs
  | ReadHoldingRegisters s q, HoldingRegistersRead vs => size vs = q /\ consecutive s vs
  | ReadInputRegisters s q, InputRegistersRead vs => size vs = q /\ consecutive s vs
  | WriteSingleCoil _ _, SingleCoilWritten _ _ => True
  | WriteSingleRegister _ _, SingleRegisterWritten _ _ => True
  | WriteMultipleCoils _ _, MultipleCoilsWritten _ _ => True
  | WriteMultipleRegisters _ _, MultipleRegistersWritten _ _ => True
  | _, _ => False
  end.

Definition echoes (req : request) (resp : response) : Prop :=
  match req, resp with
  | WriteSingleCoil a v, SingleCoilWritten a' v' => a' = a /\ v' = v
  | WriteSingleRegister a v, SingleRegisterWritten a' v' => a' = a /\ v' = v
  | WriteMultipleCoils s vs, MultipleCoilsWritten s' q => s' = s /\ q = size vs
  | WriteMultipleRegisters s vs, MultipleRegistersWritten s' q => s' = s /\ q = size vs
  | _, _ => True
  end.

(** ** Exception responses (section 7 of the protocol) *)

(** The codes of the protocol; code 07 is not assigned, memory parity is 08. *)
Definition standard_code (t : exception_type) : option N :=
  match t with
  | IllegalFunction => Some 1
  | IllegalDataAddress => Some 2
  | IllegalDataValue => Some 3
  | ServerDeviceFailure => Some 4
  | Acknowledge => Some 5
  | ServerDeviceBusy => Some 6
  | MemoryParityError => Some 8
  | GatewayPathUnavailable => Some 10
  | GatewayTargetDeviceFailedToRespond => Some 11
  | Unknown => None
  end.

(** [code] on the wire means [t]; every unassigned code means [Unknown]. *)
Definition code_means (code : N) (t : exception_type) : Prop :=
  standard_code t = Some code \/
  (t = Unknown /\ forall t', standard_code t' <> Some code).

(** ** What the client is expected to accept

    [strict]: exactly the PDU of the protocol (padding ignored).
    [lenient_count]: the same, except that the byte-count field of a register
    response is any even byte. *)
Definition response_pdu_lenient_count (r : response) (bs : list N) : Prop :=
  match r with
  | HoldingRegistersRead vs => exists c, u8 c /\ c mod 2 = 0 /\ bs = [3; c] ++ be16s (map snd vs)
  | InputRegistersRead vs => exists c, u8 c /\ c mod 2 = 0 /\ bs = [4; c] ++ be16s (map snd vs)
  | _ => response_pdu_any_padding r bs
  end.

(** An exception response to a request with function code [fc]. *)
Definition exception_pdu (fc code : N) (bs : list N) : Prop := bs = [fc + 128; code].
