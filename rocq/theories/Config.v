(** Endpoints, and what channels are configured with: lib/src/Ipv4Endpoint.cpp:21-47,
    lib/src/logging/Logger.h:74-88, lib/src/logging/LoggingLevelConversion.h:10-22,
    lib/src/logging/LoggerFactory.cpp:28-47, and their uses by the channels. *)
From Verif Require Import Prelude.
From Coq Require Import DecimalString.

(** ** Endpoints *)

(** [ep_port] is a [uint32_t]. *)
Record endpoint : Type := { ep_host : string; ep_port : N }.

(** Ipv4Endpoint.cpp:38-47. *)
Definition ep_eq (a b : endpoint) : bool := (String.eqb (ep_host a) (ep_host b) && (ep_port a =? ep_port b))%bool.
Definition ep_ne (a b : endpoint) : bool := negb (ep_eq a b).

(** The port on which a server listens: [static_cast<unsigned short>], AsioServer.cpp:18. *)
Definition listen_port (e : endpoint) : N := to_u16 (ep_port e).

(** What a client asks the resolver for, with [std::to_string]: AsioClientTcpConnection.cpp:73. *)
Definition decimal (n : N) : string := NilEmpty.string_of_uint (N.to_uint n).
Definition query (e : endpoint) : string * string := (ep_host e, decimal (ep_port e)).

(** The address it binds to: AsioClientTcpConnection.cpp:59. *)
Definition bind_address (adapter : string) : string := if String.eqb adapter "" then "0.0.0.0" else adapter.

(** ** Logging *)

(** A [LoggingLevel] as its underlying integer (include/modbus/logging/LoggingLevel.h:31-39):
    trace, debug, info, warn, error, critical are 0 to 5.  spdlog's [level_enum] numbers
    the same levels in the same way, followed by [off]. *)
Definition to_spdlog_level (level : N) : N :=
  match level with 0 => 0 | 1 => 1 | 2 => 2 | 3 => 3 | 4 => 4 | 5 => 5 | _ => 1 end.

(** A logger writes a message to its sinks if its level is at most that of the message. *)
Record logger (S : Type) : Type := { lg_name : string; lg_level : N; lg_sinks : list S }.
Arguments lg_name {S}.
Arguments lg_level {S}.
Arguments lg_sinks {S}.
Definition emits {S : Type} (l : logger S) (severity : N) : list S := if lg_level l <=? severity then lg_sinks l else [].

(** Logger.h:74-78; the level of a new [spdlog::logger] is info. *)
Definition clone {S : Type} (l : logger S) (name : string) : logger S :=
  {| lg_name := name; lg_level := 2; lg_sinks := lg_sinks l |}.
(** Logger.h:80-85. *)
Definition clone_at {S : Type} (l : logger S) (name : string) (level : N) : logger S :=
  {| lg_name := name; lg_level := to_spdlog_level level; lg_sinks := lg_sinks l |}.

(** LoggerFactory.cpp:35-40 and :42-46.  The sink of a null logger drops everything: it has none here. *)
Definition null_logger {S : Type} (name : string) : logger S := {| lg_name := name; lg_level := 2; lg_sinks := [] |}.
Definition custom_logger {S : Type} (l : logger S) (level : N) : logger S :=
  {| lg_name := lg_name l; lg_level := to_spdlog_level level; lg_sinks := lg_sinks l |}.

(** ModbusManagerImpl.cpp:49, :55 and :72; ClientChannelTcp.cpp:50. *)
Definition connection_logger {S : Type} (base : logger S) (name : string) (level : N) : logger S := clone_at base (name ++ " - Connection") level.
Definition channel_logger {S : Type} (base : logger S) (name : string) (level : N) : logger S := clone_at base name level.
Definition server_logger {S : Type} (base : logger S) (name : string) (level : N) : logger S := clone_at base (name ++ " - Server") level.
Definition session_logger {S : Type} (channel : logger S) : logger S := clone channel "session".
