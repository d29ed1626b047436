(** What a session adds to one request: lib/src/client/session/ClientSessionImpl.cpp. *)
From Verif Require Import Prelude Ser4 Messages Mbap Client.

(** ClientSessionImpl.cpp:241-258 ([meta_send_request]): the call made by a session
    for unit [unit]. *)
Definition session_call (unit : N) (r : request) (timeout : N) : Client.call :=
  {| k_unit := unit; k_msg := request_message r; k_timeout := timeout |}.

(** ClientSessionImpl.cpp:249-256: what the session's handler is given when the
    channel reports [x] for request [r]. *)
Definition session_result (r : request) (x : expected (list N)) : outcome (expected response) :=
  match x with
  | Error e => Ret (Error e)
  | Value d => response_parser r d
  end.
