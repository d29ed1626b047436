(** Independent specification of how much a server channel does for how much it
    receives: bytes and frames counted in histories. *)
From Verif Require Import Prelude Ser4 Messages Mbap SpecPdu SpecMbap Server SpecServer AsyncWrite ServerConn SpecConn.

Definition total (l : list nat) : nat := fold_right Nat.add 0%nat l.

(** The bytes that connection [c] receives in a history. *)
Definition received_on (c : N) (es : list event) : nat :=
  total (map (fun e => match e with EReceive c' d => if c' =? c then List.length d else 0%nat | _ => 0%nat end) es).

(** The bytes that all connections receive. *)
Definition received_by_all (es : list event) : nat :=
  total (map (fun e => match e with EReceive _ d => List.length d | _ => 0%nat end) es).

(** The bytes sent on connection [c], written or not, and on all connections. *)
Definition sent_on (c : N) (os : list output) : nat := total (map (@List.length _) (sends_on c os)).

Definition sent_to_all (os : list output) : nat :=
  total (map (fun o => match o with OSend _ v => List.length v | _ => 0%nat end) os).

(** How often sessions are asked. *)
Definition consultations (os : list output) : nat :=
  List.length (filter (fun o => match o with OConsult _ _ => true | _ => false end) os).

(** The answer holds as many values as the request asks for. *)
Definition in_kind (r : request) (resp : response) : Prop :=
  match r, resp with
  | ReadCoils _ q, CoilsRead l | ReadDiscreteInputs _ q, DiscreteInputsRead l => size l = q
  | ReadHoldingRegisters _ q, HoldingRegistersRead l | ReadInputRegisters _ q, InputRegistersRead l => size l = q
  | _, _ => True
  end.

(** Sessions that answer what they are asked. *)
Definition answers_in_kind {W : Type} (on_request : N -> W -> request -> W * expected response * list api) : Prop :=
  forall x w r w' resp calls, on_request x w r = (w', Value resp, calls) -> in_kind r resp.

(** ** On a connection *)

(** The bytes that arrive, and the bytes that the transport takes. *)
Definition bytes_in (os : list voutput) : nat :=
  total (map (fun o => match o with VReceived d => List.length d | _ => 0%nat end) os).

Definition bytes_out (os : list voutput) : nat :=
  total (map (fun o => match o with VWrite (WTook _ x) => List.length x | _ => 0%nat end) os).
