(** Independent specification of [Expected]. *)
From Verif Require Import Prelude Expected.

(** Objects as their constructors make them: only a ModbusException has a type. *)
Definition well_formed (o : eobject) : Prop :=
  eo_type o <> None <-> eo_class o = CModbusException.

(** The class of the errors of the library (Prelude.v). *)
Definition class_of (e : exn) : option eclass :=
  match e with
  | EMalformedRequest => Some CMalformedRequest
  | EMalformedResponse => Some CMalformedResponse
  | EModbus _ => Some CModbusException
  | ETimeout => Some CTimeoutException
  | EConnection _ => Some CConnectionException
  | EOther _ => None
  end.

(** [b] can be reached from [c] by going to base classes. *)
Inductive is_a : eclass -> eclass -> Prop :=
| is_a_refl c : is_a c c
| is_a_base c d b : base c = Some d -> is_a d b -> is_a c b.
