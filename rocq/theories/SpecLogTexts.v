(** Independent specification of the wording of log lines. *)
From Verif Require Import Prelude Ids SpecIds Config Logs ConnLogs.
From Coq Require Import Ascii String DecimalString.
Open Scope string_scope.

(** Identifiers have two (four) hexadecimal digits. *)
Definition unit_words (unit : N) : string := "0x" ++ string_of_list_ascii (hex_text 2 unit).
Definition tx_words (tx : N) : string := "0x" ++ string_of_list_ascii (hex_text 4 tx).
Definition ids (unit tx : N) : string := "UnitId: " ++ unit_words unit ++ ", TransactionId: " ++ tx_words tx.

(** C++ types of what is in a line. *)
Definition typed_cline (x : cline) : Prop :=
  match x with
  | LogResponse unit tx | LogUnexpected unit tx | LogSending unit tx _ _ | LogTimeout unit tx => u8 unit /\ u16 tx
  | _ => True
  end.
Definition typed_sline (x : sline) : Prop :=
  match x with WarnUnsupported fc => u8 fc | WarnUnknown unit => u8 unit | _ => True end.

(** What a client channel says; a number is a text that reads as this number. *)
Definition reads (text : string) (n : N) : Prop :=
  text <> "" /\ option_map N.of_uint (NilEmpty.uint_of_string text) = Some n.

Inductive client_words (per_ms : N) : cline -> string -> Prop :=
| words_shutting_down : client_words per_ms LogShuttingDown "Shutting down."
| words_received n t : reads t n -> client_words per_ms (LogReceived n) ("Received " ++ t ++ " bytes of data.")
| words_error : client_words per_ms LogError "Error from TCP connection, cancelling all pending requests."
| words_response unit tx : client_words per_ms (LogResponse unit tx) ("Received response for pending request. " ++ ids unit tx ++ ".")
| words_unexpected unit tx : client_words per_ms (LogUnexpected unit tx) ("Received unexpected response. " ++ ids unit tx ++ ".")
| words_not_waiting : client_words per_ms LogNotWaiting "Received message while not waiting for any response. Ignoring it."
| words_sending unit tx timeout length ms n : reads ms (timeout / per_ms) -> reads n length ->
    client_words per_ms (LogSending unit tx timeout length) ("Sending request. " ++ ids unit tx ++ ", Timeout: " ++ ms ++ " ms, Length: " ++ n ++ " bytes.")
| words_timeout unit tx : client_words per_ms (LogTimeout unit tx) ("Timeout reached. " ++ ids unit tx ++ ".").

(** What a server channel says. *)
Inductive server_words : sline -> string -> Prop :=
| words_stopping : server_words InfoShuttingDown "Shutting down."
| words_invalid : server_words WarnInvalid "Received invalid message."
| words_unsupported fc t : reads t fc -> server_words (WarnUnsupported fc) ("Received unsupported function code: " ++ t)
| words_unknown unit : server_words (WarnUnknown unit) ("Received message for unknown unit: " ++ unit_words unit).

(** Lines that differ at most in fractions of a millisecond. *)
Definition same_line (per_ms : N) (x y : cline) : Prop :=
  match x, y with
  | LogSending u t a n, LogSending u' t' a' n' => u = u' /\ t = t' /\ a / per_ms = a' / per_ms /\ n = n'
  | _, _ => x = y
  end.

(** Lines with the text of an error code. *)
Definition with_message (x : tline) : bool :=
  match x with
  | AddressError | OpenError | BindError | ResolverError | ConnectionError | ReadError | WriteError => true
  | _ => false
  end.

(** What the connection of a client to [e] says; [m] is the text of the error code. *)
Inductive connection_words (e : endpoint) (m : string) : tline -> string -> Prop :=
| words_establishing port : reads port (ep_port e) -> connection_words e m Establishing ("Establishing connection to " ++ ep_host e ++ ":" ++ port)
| words_address : connection_words e m AddressError ("from_address error: " ++ m)
| words_open : connection_words e m OpenError ("socket open error: " ++ m)
| words_bind : connection_words e m BindError ("socket bind error: " ++ m)
| words_resolver : connection_words e m ResolverError ("IP resolver error: " ++ m)
| words_connection : connection_words e m ConnectionError ("Connection error: " ++ m)
| words_established : connection_words e m EstablishedLine "Connection established"
| words_closed_by_peer : connection_words e m ClosedByPeer "Connection gracefully closed by peer."
| words_read : connection_words e m ReadError ("Read error: " ++ m)
| words_bytes k n : reads k (N.of_nat n) -> connection_words e m (ReceivedBytes n) ("Received " ++ k ++ " bytes")
| words_write : connection_words e m WriteError ("Write error: " ++ m)
| words_sent k n : reads k (N.of_nat n) -> connection_words e m (SentBytes n) ("Sent " ++ k ++ " bytes")
| words_closing : connection_words e m ClosingLine "Closing connection".

(** What a connection of a server says: the same, but for new connections. *)
Inductive server_connection_words (m : string) : tline -> string -> Prop :=
| words_new : server_connection_words m EstablishedLine "New connection established"
| words_other e x t : x <> EstablishedLine -> connection_words e m x t -> server_connection_words m x t.
