(** Independent specification of the example client. *)
From Verif Require Import Prelude Ser4 Messages Mbap SpecPdu SpecMbap Client SpecClient Scheduled SessionCall Session SpecSession Config ExampleClient.
From Coq Require Import String.

(** C++ types; the input does not end. *)
Definition typed_pevent (e : pevent) : Prop :=
  match e with
  | PStack e => typed_kevent e
  | PCommand c => u8 c
  | PEnd => False
  end.

(** [os] is what is seen of the channel and its sessions and [ls] what is printed when
    the events [es] happen; [buf] is the initial content of the parser's buffer, and
    [text i] what is said about a malformed answer to call [i]. *)
Definition prog_history (text : nat -> string) (pol : copy_policy) (buf : list N) (es : list pevent) (x : prog) (os : list koutput) (ls : list string) : Prop :=
  good_buf buf /\ Forall typed_pevent es /\
  exists x0 o1 p1 o2 p2, prog_init text pol buf = Ret (x0, (o1, p1)) /\ prog_run text pol x0 es = Ret (x, (o2, p2)) /\
    os = o1 ++ o2 /\ ls = p1 ++ p2.

Definition quits (e : pevent) : bool := match e with PCommand c => c =? 113 | _ => false end.

(** The characters typed before 'q'. *)
Fixpoint typed_before_quit (es : list pevent) : list N :=
  match es with
  | [] => []
  | PCommand c :: es' => if c =? 113 then [] else c :: typed_before_quit es'
  | _ :: es' => typed_before_quit es'
  end.

(** How often [c] is among them. *)
Definition typed_times (c : N) (es : list pevent) : nat := count_occ N.eq_dec (typed_before_quit es) c.

(** ** Requests *)

(** The request a character sends, and its timeout if it is not that of the session. *)
Definition asks (c : N) : list (request * option N) :=
  if c =? 114 then [(ReadCoils 36 1, Some 3000)]
  else if c =? 119 then [(WriteMultipleRegisters 36 [11; 22; 33], None)]
  else [].

(** The one-time requests that are seen, with their sessions. *)
Definition sent_once (os : list koutput) : list (nat * (request * option N)) :=
  flat_map (fun o => match o with Issued _ x r t => [(x, (r, t))] | _ => [] end) os.

(** ** Printing *)

(** ExceptionType.h in words. *)
Definition meaning_text (t : exception_type) : string :=
  match t with
  | IllegalFunction => "Illegal function"
  | IllegalDataAddress => "Illegal data address"
  | IllegalDataValue => "Illegal data value"
  | ServerDeviceFailure => "Server device failure"
  | Acknowledge => "Acknowledge"
  | ServerDeviceBusy => "Server device busy"
  | MemoryParityError => "Memory parity error"
  | GatewayPathUnavailable => "Gateway path unavailable"
  | GatewayTargetDeviceFailedToRespond => "Gateway target device failed to respond"
  | Unknown => "Unknown"
  end.

(** What is said about a call of the channel that fails. *)
Definition failure_text (malformed : string) (e : exn) : string :=
  match e with
  | ETimeout => "Timeout reached"
  | EConnection msg => msg
  | EModbus t => meaning_text t
  | EMalformedRequest => "Modbus request is not valid."
  | _ => malformed
  end.

(** What the answer [y] of the channel to the request for the coil is printed as. *)
Inductive coil_line (malformed : string) : expected (list N) -> string -> Prop :=
| coil_timeout : coil_line malformed (Error ETimeout) "Timeout reached."
| coil_failed e : e <> ETimeout -> coil_line malformed (Error e) (failure_text malformed e)
| coil_value b : coil_line malformed (Value [1; 1; b]) (if N.odd b then "36: 1" else "36: 0")
| coil_refused code t : code_means code t -> coil_line malformed (Value [129; code]) (meaning_text t)
| coil_malformed d : (forall b, d <> [1; 1; b]) -> (forall code, d <> [129; code]) -> coil_line malformed (Value d) malformed.

(** The same of the request that writes registers. *)
Inductive write_line (malformed : string) : expected (list N) -> string -> Prop :=
| write_failed e : write_line malformed (Error e) (failure_text malformed e)
| write_done a q : u16 a -> u16 q -> write_line malformed (Value ([16] ++ be16 a ++ be16 q)) ("Write result= " ++ decimal a ++ ": " ++ decimal q)
| write_refused code t : code_means code t -> write_line malformed (Value [144; code]) (meaning_text t)
| write_malformed d : (forall a q, u16 a -> u16 q -> d <> [16] ++ be16 a ++ be16 q) -> (forall code, d <> [144; code]) -> write_line malformed (Value d) malformed.

(** What is printed about an output, one of [os]. *)
Inductive prints (text : nat -> string) (os : list koutput) : koutput -> list string -> Prop :=
| prints_coil i v x t y l :
    In (Issued i x (ReadCoils 36 1) t) os -> In (Channel (Completed i y)) os -> coil_line (text i) y l ->
    prints text os (Answered i v) [l]
| prints_write i v x t y l :
    In (Issued i x (WriteMultipleRegisters 36 [11; 22; 33]) t) os -> In (Channel (Completed i y)) os -> write_line (text i) y l ->
    prints text os (Answered i v) [l]
| prints_polled j n v : prints text os (Polled j (Response n v)) ["Scheduled request received response."%string]
| prints_nothing o :
    (forall i v, o <> Answered i v) -> (forall j n v, o <> Polled j (Response n v)) -> prints text os o [].

(** Whether a handler is called with an answer to the scheduled request. *)
Definition is_response (o : koutput) : bool := match o with Polled _ (Response _ _) => true | _ => false end.

(** ** The scheduled request *)

(** The characters 's' and 'f' are typed only when nothing posted by the session or its
    scheduled request is left to run. *)
Definition patient (text : nat -> string) (pol : copy_policy) (buf : list N) (es : list pevent) : Prop :=
  forall es1 c es2 x os ls, es = es1 ++ PCommand c :: es2 -> c = 115 \/ c = 102 ->
  prog_history text pol buf es1 x os ls -> ks_queue (st_rest (pg_stack x)) = [].
