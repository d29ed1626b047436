(** The wording of the lines that are logged: the arguments of the calls of [m_logger] that
    Logs.v and ConnLogs.v represent by constructors. *)
From Verif Require Import Prelude Ids Config Logs ConnLogs.
From Coq Require Import Ascii String.
Open Scope string_scope.

(** ** fmt (not in the repository): each replacement field takes the next argument; if there
    is none, an exception is thrown instead.  Further arguments are ignored. *)
Fixpoint format (f : string) (args : list string) : option string :=
  match f with
  | String "{" (String "}" f) =>
      match args with
      | [] => None
      | a :: args => option_map (append a) (format f args)
      end
  | String c f => option_map (String c) (format f args)
  | EmptyString => Some ""
  end.

(** Arguments.  Identifiers are written to a new stream (spdlog/fmt/ostr.h, included in
    logging/Logger.h:23) with their own operators (Ids.v); numbers, also those of type
    [uint8_t], are decimal. *)
Definition unit_arg (unit : N) : string := string_of_list_ascii (os_text (print_unit new_stream unit)).
Definition tx_arg (tx : N) : string := string_of_list_ascii (os_text (print_transaction new_stream tx)).

(** Severities have two methods each: Logger.h:37-65 format, Logger.h:67-72 do not. *)
Definition plain_text (s : string) : option string := Some s.

(** ** The channels *)

(** ClientChannelTcp.cpp; [per_ms] is the number of units of [exe4cpp::duration_t] in a
    millisecond, which [duration_cast] divides by. *)
Definition cline_text (per_ms : N) (x : cline) : option string :=
  match x with
  | LogShuttingDown => plain_text "Shutting down."  (* :97 *)
  | LogReceived n => format "Received {} bytes of data." [decimal n]  (* :118 *)
  | LogError => plain_text "Error from TCP connection, cancelling all pending requests."  (* :127 *)
  | LogResponse unit tx =>  (* :149-150 *)
      format "Received response for pending request. UnitId: {}, TransactionId: {}." [unit_arg unit; tx_arg tx]
  | LogUnexpected unit tx =>  (* :160-161 *)
      format "Received unexpected response. UnitId: {}, TransactionId: {}." [unit_arg unit; tx_arg tx]
  | LogNotWaiting => plain_text "Received message while not waiting for any response. Ignoring it."  (* :166 *)
  | LogSending unit tx timeout length =>  (* :179-183 *)
      format "Sending request. UnitId: {}, TransactionId: {}, Timeout: {} ms, Length: {} bytes."
        [unit_arg unit; tx_arg tx; decimal (timeout / per_ms); decimal length]
  | LogTimeout unit tx =>  (* :200-201 *)
      format "Timeout reached. UnitId: {}, TransactionId: {}." [unit_arg unit; tx_arg tx]
  end.

(** ServerChannelTcp.cpp *)
Definition sline_text (x : sline) : option string :=
  match x with
  | InfoShuttingDown => plain_text "Shutting down."  (* :71 *)
  | WarnInvalid => plain_text "Received invalid message."  (* :109, :162 *)
  | WarnUnsupported fc => format "Received unsupported function code: {}" [decimal fc]  (* :142 *)
  | WarnUnknown unit => format "Received message for unknown unit: {}" [unit_arg unit]  (* :148 *)
  end.

(** ** The connections; [message] is what [ec.message()] returns. *)

(** AsioClientTcpConnection.cpp *)
Definition tline_text (e : endpoint) (message : string) (x : tline) : option string :=
  match x with
  | Establishing => format "Establishing connection to {}:{}" [ep_host e; decimal (ep_port e)]  (* :55 *)
  | AddressError => format "from_address error: {}" [message]  (* :60 *)
  | OpenError => format "socket open error: {}" [message]  (* :66 *)
  | BindError => format "socket bind error: {}" [message]  (* :69 *)
  | ResolverError => format "IP resolver error: {}" [message]  (* :122 *)
  | ConnectionError => format "Connection error: {}" [message]  (* :141 *)
  | EstablishedLine => plain_text "Connection established"  (* :147 *)
  | ClosedByPeer => plain_text "Connection gracefully closed by peer."  (* :162 *)
  | ReadError => format "Read error: {}" [message]  (* :167 *)
  | ReceivedBytes n => format "Received {} bytes" [decimal (N.of_nat n)]  (* :174 *)
  | WriteError => format "Write error: {}" [message]  (* :191 *)
  | SentBytes n => format "Sent {} bytes" [decimal (N.of_nat n)]  (* :197 *)
  | ClosingLine => plain_text "Closing connection"  (* :97 *)
  end.

(** AsioServerTcpConnection.cpp; the other lines do not occur there. *)
Definition vline_text (message : string) (x : tline) : option string :=
  match x with
  | ClosingLine => plain_text "Closing connection"  (* :64 *)
  | EstablishedLine => plain_text "New connection established"  (* :90 *)
  | ReadError => format "Read error: {}" [message]  (* :108 *)
  | ReceivedBytes n => format "Received {} bytes" [decimal (N.of_nat n)]  (* :114 *)
  | WriteError => format "Write error: {}" [message]  (* :130 *)
  | SentBytes n => format "Sent {} bytes" [decimal (N.of_nat n)]  (* :136 *)
  | _ => None
  end.
