(** Independent specification of the server channel: what a frame must cause and
    what histories look like, in terms of the wire format (SpecPdu.v, SpecMbap.v)
    and of observable outputs. *)
From Verif Require Import Prelude Ser4 Messages Mbap SpecPdu SpecMbap Server.
From Coq Require Export Sorting.Sorted.

(** ** What one frame must cause *)
Inductive reaction : Type :=
| Silent
| Refuse (t : exception_type)
| Ask (session : N) (r : request).

(** [registry]: which session serves which unit identifier. *)
Inductive decision (registry : N -> option N) (unit : N) (pdu : list N) : reaction -> Prop :=
| unknown_unit : registry unit = None -> decision registry unit pdu Silent
| empty_pdu : pdu = [] -> decision registry unit pdu Silent
| unsupported_function x fc rest :
    registry unit = Some x -> pdu = fc :: rest -> ~ supported fc ->
    decision registry unit pdu (Refuse IllegalFunction)
| illegal_value x fc :
    registry unit = Some x -> supported fc -> illegal_value_pdu fc pdu ->
    decision registry unit pdu (Refuse IllegalDataValue)
| malformed x fc rest :
    registry unit = Some x -> pdu = fc :: rest -> supported fc -> ~ illegal_value_pdu fc pdu ->
    (forall r, legal_request r -> ~ request_pdu_any_padding r pdu) ->
    decision registry unit pdu Silent
| answerable x r :
    registry unit = Some x -> legal_request r -> request_pdu_any_padding r pdu ->
    decision registry unit pdu (Ask x r).

(** ** Frames sent *)
Definition response_code (r : response) : N :=
  match r with
  | CoilsRead _ => 1
  | DiscreteInputsRead _ => 2
  | HoldingRegistersRead _ => 3
  | InputRegistersRead _ => 4
  | SingleCoilWritten _ _ => 5
  | SingleRegisterWritten _ _ => 6
  | MultipleCoilsWritten _ _ => 15
  | MultipleRegistersWritten _ _ => 16
  end.

(** A frame of [6 + len] bytes with these identifiers, whose length field is [len]
    and whose PDU starts with [code]; the rest of the PDU is not described. *)
Definition headed (tx unit len code : N) (view : list (option N)) : Prop :=
  exists rest, view = map Some (be16 tx ++ [0; 0] ++ be16 len ++ [unit; code]) ++ rest /\
    size view = 6 + len.

Definition register_response (r : response) : bool :=
  match r with HoldingRegistersRead _ | InputRegistersRead _ => true | _ => false end.

(** The frame carrying a response: exactly the PDU of the protocol if it fits.
    Otherwise a frame of the maximal size, of which the last byte was not written
    if the data is registers. *)
Definition response_view (tx unit : N) (resp : response) (view : list (option N)) : Prop :=
  (response_fits resp ->
     exists pdu, response_pdu resp pdu /\ view = map Some (frame_bytes tx unit pdu)) /\
  (~ response_fits resp ->
     headed tx unit 254 (response_code resp) view /\
     exists bs, bytes bs /\ view = map Some bs ++ if register_response resp then [None] else []).

(** The function code with its top bit set, then the exception code. *)
Definition exception_view (tx unit fc : N) (t : exception_type) : list (option N) :=
  map Some (frame_bytes tx unit [fc mod 128 + 128; exception_value t]).

(** The outputs seen on connection [c] for one frame, given the session's answer. *)
Definition reply (c tx unit fc : N) (x : expected response) (os : list output) : Prop :=
  match x with
  | Value resp => exists view, response_view tx unit resp view /\ os = [OSend c view]
  | Error (EModbus t) => os = [OSend c (exception_view tx unit fc t)]
  | Error _ => os = []
  end.

Section Spec.
Context {W : Type}.
Context (on_request : N -> W -> request -> W * expected response * list api).

(** C++ types: the response returned for a request is of the matching type. *)
Definition well_typed : Prop :=
  forall x w r w' resp calls, on_request x w r = (w', Value resp, calls) ->
    typed_response resp /\ response_code resp = spec_function_code r.

(** Frame [m] on connection [c] has outputs [os] and takes the sessions from [w]
    to [w']. *)
Inductive serves (registry : N -> option N) (c : N) (m : mbap_message) (w : W)
    : W -> list output -> Prop :=
| serve_silent :
    decision registry (mb_unit m) (mb_data m) Silent -> serves registry c m w w []
| serve_refuse fc rest t :
    decision registry (mb_unit m) (mb_data m) (Refuse t) -> mb_data m = fc :: rest ->
    serves registry c m w w [OSend c (exception_view (mb_tx m) (mb_unit m) fc t)]
| serve_ask x r w' answer calls os :
    decision registry (mb_unit m) (mb_data m) (Ask x r) ->
    on_request x w r = (w', answer, calls) ->
    reply c (mb_tx m) (mb_unit m) (spec_function_code r) answer os ->
    serves registry c m w w' (OConsult x r :: os).

(** The session registered for a unit identifier. *)
Definition registry (s : server) : N -> option N := find_session (sv_sessions s).

(** The same in a state of the channel: after shutdown nothing happens. *)
Definition served (s : server) (c : N) (m : mbap_message) (w w' : W) (os : list output) : Prop :=
  (sv_shutdown s = true -> w' = w /\ os = []) /\
  (sv_shutdown s = false -> serves (registry s) c m w w' os).

(** Frames one after the other. *)
Inductive serves_all (registry : N -> option N) (c : N) : list mbap_message -> W -> W -> list output -> Prop :=
| serves_none w : serves_all registry c [] w w []
| serves_more m ms w w1 w2 os os' :
    serves registry c m w w1 os -> serves_all registry c ms w1 w2 os' ->
    serves_all registry c (m :: ms) w w2 (os ++ os').

(** ** Histories *)

(** C++ types of what the environment provides. *)
Definition typed_event (e : event) : Prop :=
  match e with
  | EAccept _ buf => good_buf buf
  | EReceive _ data => bytes data
  | EApi (ApiAdd u _) => u8 u
  | _ => True
  end.

(** Outputs that a frame can cause; the others come from API calls. *)
Definition by_frame (o : output) : bool :=
  match o with OConsult _ _ | OSend _ _ => true | _ => false end.

Definition sends_on (c : N) (os : list output) : list (list (option N)) :=
  flat_map (fun o => match o with OSend c' v => if c' =? c then [v] else [] | _ => [] end) os.

(** What connection [c] receives in a history. *)
Definition ops_on (c : N) (es : list event) : list mbap_op :=
  flat_map (fun e => match e with
                     | EReceive c' d => if c' =? c then [Chunk d] else []
                     | EConnError c' => if c' =? c then [Reset] else []
                     | _ => [] end) es.

Definition accepts (c : N) (e : event) : bool :=
  match e with EAccept c' _ => c' =? c | _ => false end.

Definition same_connection (c : N) (es : list event) : Prop :=
  Forall (fun e => accepts c e = false) es.

(** One received frame: at which event of the history it was completed, on which
    connection, what it said, and what it caused. *)
Record service : Type := {
  at_event : nat;
  at_conn : N;
  frame_in : mbap_message;
  caused : list output
}.

(** C++ types of a received frame. *)
Definition typed_message (m : mbap_message) : Prop := u8 (mb_unit m) /\ u16 (mb_tx m) /\ bytes (mb_data m).

(** [v] was completed by event number [at_event v] of history [es] and served by
    the sessions registered at that moment. *)
Definition in_history (on_shutdown : N -> W -> W * list api) (pol : copy_policy)
    (s : server) (w : W) (es : list event) (v : service) : Prop :=
  exists sk wk ok, server_run on_request on_shutdown pol s w (firstn (at_event v) es) = Ret (sk, wk, ok) /\
    (exists d, nth_error es (at_event v) = Some (EReceive (at_conn v) d)) /\
    typed_message (frame_in v) /\
    exists w1 w2, served sk (at_conn v) (frame_in v) w1 w2 (caused v).
End Spec.

Definition on_conn (c : N) (v : service) : bool := at_conn v =? c.

(** At most one frame is sent, on the same connection, with the same identifiers
    and function code; its length field tells its length. *)
Definition answered_once (v : service) : Prop :=
  sends_on (at_conn v) (caused v) = [] /\ (forall c view, ~ In (OSend c view) (caused v)) \/
  exists fc rest pre view len code,
    mb_data (frame_in v) = fc :: rest /\ caused v = pre ++ [OSend (at_conn v) view] /\
    (forall c view, ~ In (OSend c view) pre) /\
    headed (mb_tx (frame_in v)) (mb_unit (frame_in v)) len code view /\
    2 <= len <= 254 /\ (code = fc \/ code = fc mod 128 + 128).

Definition session_shutdowns (os : list output) : list N :=
  flat_map (fun o => match o with OSessionShutdown x => [x] | _ => [] end) os.

(** Executions of posted tasks. *)
Definition is_run (e : event) : bool := match e with ERun => true | _ => false end.

(** API calls made meanwhile are only queued. *)
Definition same_but_queue (s s' : server) : Prop :=
  sv_shutdown s' = sv_shutdown s /\ sv_started s' = sv_started s /\
  sv_sessions s' = sv_sessions s /\ sv_conns s' = sv_conns s /\
  exists q, sv_queue s' = sv_queue s ++ q.

