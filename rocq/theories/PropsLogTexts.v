(** The wording of the log. *)
From Verif Require Import Prelude Config Messages Mbap Client SpecClient Logs SpecLogs ServerConn ConnLogs SpecConnLogs LogTexts SpecLogTexts LogTextsFacts LogTextsCases.
From Coq Require Import String.

(** ** C127: the log can be understood

    Every line has the text it is to have. *)
Theorem C127_client_text : forall per_ms x, typed_cline x -> exists t, cline_text per_ms x = Some t /\ client_words per_ms x t.
Proof. exact client_text. Qed.
Print Assumptions C127_client_text.

Theorem C127_server_text : forall x, typed_sline x -> exists t, sline_text x = Some t /\ server_words x t.
Proof. exact server_text. Qed.
Print Assumptions C127_server_text.

Theorem C127_connection_text : forall e m x, exists t, tline_text e m x = Some t /\ connection_words e m x t.
Proof. exact connection_text. Qed.
Print Assumptions C127_connection_text.

Theorem C127_server_connection_text : forall m es s l, log_vconn_run sconn_init es = Ret (s, l) ->
  Forall (fun x => exists t, vline_text m x = Some t /\ server_connection_words m x t) (said l).
Proof. exact server_connection_text. Qed.
Print Assumptions C127_server_connection_text.

(** Lines with the same text say the same: refuted, timeouts are printed in milliseconds. *)
Theorem C127_told_refuted :
  ~ (forall per_ms x y, typed_cline x -> typed_cline y -> cline_text per_ms x = cline_text per_ms y -> x = y).
Proof. exact fraction_lost. Qed.
Print Assumptions C127_told_refuted.

(** But for this they do. *)
Theorem C127_client_told_partial : forall per_ms x y, typed_cline x -> typed_cline y ->
  (cline_text per_ms x = cline_text per_ms y <-> same_line per_ms x y).
Proof. exact same_text. Qed.
Print Assumptions C127_client_told_partial.

Theorem C127_client_words_told_partial : forall per_ms x y t, typed_cline x -> typed_cline y ->
  client_words per_ms x t -> client_words per_ms y t -> same_line per_ms x y.
Proof. exact words_told. Qed.
Print Assumptions C127_client_words_told_partial.

(** From the text of its log alone one can tell which requests a client has sent, and how
    many were answered and given up. *)
Theorem C127_client_accounts : forall per_ms l l', well_logged l -> well_logged l' -> Forall typed_cline (log_lines l) -> Forall typed_cline (log_lines l') ->
  map (cline_text per_ms) (log_lines l) = map (cline_text per_ms) (log_lines l') ->
  really_sent l = really_sent l' /\ really_answered l = really_answered l' /\ really_timed_out l = really_timed_out l'.
Proof. exact text_accounts. Qed.
Print Assumptions C127_client_accounts.

Theorem C127_server_told : forall x y, typed_sline x -> typed_sline y -> (sline_text x = sline_text y <-> x = y).
Proof. exact server_same_text. Qed.
Print Assumptions C127_server_told.

(** Lines of connections, whatever host names and the texts of error codes are. *)
Theorem C127_connection_told : forall e e' m m' x y, tline_text e m x = tline_text e' m' y <->
  x = y /\ (x = Establishing -> e = e') /\ (with_message x = true -> m = m').
Proof. exact connection_told. Qed.
Print Assumptions C127_connection_told.

Theorem C127_server_connection_told : forall m m' x y t, vline_text m x = Some t -> vline_text m' y = Some t ->
  x = y /\ (with_message x = true -> m = m').
Proof. exact server_connection_told. Qed.
Print Assumptions C127_server_connection_told.

Example C127_case : Forall typed_cline some_lines /\ map (cline_text 1000000) some_lines = map Some [
  "Sending request. UnitId: 0x07, TransactionId: 0x00FF, Timeout: 1500 ms, Length: 5 bytes.";
  "Timeout reached. UnitId: 0x07, TransactionId: 0x00FF.";
  "Received 10 bytes of data.";
  "Received unexpected response. UnitId: 0x07, TransactionId: 0x00FF.";
  "Received response for pending request. UnitId: 0xFF, TransactionId: 0xFFFF.";
  "Received message while not waiting for any response. Ignoring it.";
  "Error from TCP connection, cancelling all pending requests.";
  "Shutting down."]%string /\
  map sline_text [WarnUnsupported 99; WarnUnknown 12; WarnInvalid] = map Some [
  "Received unsupported function code: 99"; "Received message for unknown unit: 0x0C"; "Received invalid message."]%string /\
  tline_text {| ep_host := "localhost"; ep_port := 502 |} "Connection refused" Establishing = Some "Establishing connection to localhost:502"%string /\
  tline_text {| ep_host := "localhost"; ep_port := 502 |} "Connection refused" ConnectionError = Some "Connection error: Connection refused"%string /\
  vline_text "End of file" ReadError = Some "Read error: End of file"%string.
Proof. exact printed_lines. Qed.
Print Assumptions C127_case.
