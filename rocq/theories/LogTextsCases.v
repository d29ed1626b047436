(** Log lines as they are printed. *)
From Verif Require Import Prelude Config Client Logs ConnLogs LogTexts SpecLogTexts.
From Coq Require Import String.
Open Scope string_scope.

Definition some_lines : list cline := [LogSending 7 255 1500000000 5; LogTimeout 7 255; LogReceived 10; LogUnexpected 7 255; LogResponse 255 65535; LogNotWaiting; LogError; LogShuttingDown].

Lemma printed_lines : Forall typed_cline some_lines /\ map (cline_text 1000000) some_lines = map Some [
  "Sending request. UnitId: 0x07, TransactionId: 0x00FF, Timeout: 1500 ms, Length: 5 bytes.";
  "Timeout reached. UnitId: 0x07, TransactionId: 0x00FF.";
  "Received 10 bytes of data.";
  "Received unexpected response. UnitId: 0x07, TransactionId: 0x00FF.";
  "Received response for pending request. UnitId: 0xFF, TransactionId: 0xFFFF.";
  "Received message while not waiting for any response. Ignoring it.";
  "Error from TCP connection, cancelling all pending requests.";
  "Shutting down."] /\
  map sline_text [WarnUnsupported 99; WarnUnknown 12; WarnInvalid] = map Some [
  "Received unsupported function code: 99"; "Received message for unknown unit: 0x0C"; "Received invalid message."] /\
  tline_text {| ep_host := "localhost"; ep_port := 502 |} "Connection refused" Establishing = Some "Establishing connection to localhost:502" /\
  tline_text {| ep_host := "localhost"; ep_port := 502 |} "Connection refused" ConnectionError = Some "Connection error: Connection refused" /\
  vline_text "End of file" ReadError = Some "Read error: End of file".
Proof. split; [repeat constructor|]. vm_compute. auto 10. Qed.
