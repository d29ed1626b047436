(** What the log of a channel has to say, in terms of what happens. *)
From Verif Require Import Prelude Ser4 Messages Mbap SpecPdu SpecMbap Client SpecClient Server SpecServer Logs.

(** ** The client channel *)

(** What happens without the log, and the log. *)
Definition seen (l : list centry) : list coutput :=
  flat_map (fun x => match x with Seen o => [o] | Logged _ => [] end) l.
Definition log_lines (l : list centry) : list cline :=
  flat_map (fun x => match x with Seen _ => [] | Logged x => [x] end) l.

(** How an event that follows [l] may be logged: what was not expected or not asked for is
    noted with a line of its own. *)
Inductive entered (l : list centry) : list centry -> Prop :=
| entered_call i k : entered l [Seen (Called i k)]
| entered_sent i k t tx :
    In (Seen (Called i k)) l ->
    entered l [Logged (LogSending (k_unit k) tx (k_timeout k) (im_length (k_msg k)));
               Seen (Sent i (k_unit k) tx (mbap_build 260 (k_unit k) tx (k_msg k)));
               Seen (Armed i t (k_timeout k))]
| entered_received n : entered l [Logged (LogReceived n)]
| entered_response i unit tx frame data :
    In (Seen (Sent i unit tx frame)) l ->
    entered l [Logged (LogResponse unit tx); Seen (Completed i (Value data))]
| entered_unexpected unit tx : entered l [Logged (LogUnexpected unit tx)]
| entered_not_waiting : entered l [Logged LogNotWaiting]
| entered_timeout i unit tx frame :
    In (Seen (Sent i unit tx frame)) l ->
    entered l [Logged (LogTimeout unit tx); Seen (Completed i (Error ETimeout))]
| entered_error : entered l [Logged LogError]
| entered_failed i msg l1 l2 :
    l = l1 ++ Logged LogError :: map Seen l2 ->
    Forall (fun o => (exists j k, o = Called j k) \/ (exists j, o = Completed j (Error (EConnection msg)))) l2 ->
    entered l [Seen (Completed i (Error (EConnection msg)))]
| entered_rejected i k :
    In (Seen (Called i k)) l -> im_valid (k_msg k) = false ->
    entered l [Seen (Completed i (Error EMalformedRequest))]
| entered_shutdown : entered l [Logged LogShuttingDown; Seen TcpShutdown].

(** A log made of such entries. *)
Inductive well_logged : list centry -> Prop :=
| logged_nothing : well_logged []
| logged_more l l' : well_logged l -> entered l l' -> well_logged (l ++ l').

(** The identifiers of the requests of which the log says that they were sent, answered,
    given up; and those of which it is true. *)
Definition said_sent (l : list centry) : list (N * N) :=
  flat_map (fun x => match x with LogSending u t _ _ => [(u, t)] | _ => [] end) (log_lines l).
Definition really_sent (l : list centry) : list (N * N) :=
  flat_map (fun o => match o with Sent _ u t _ => [(u, t)] | _ => [] end) (seen l).
Definition said_answered (l : list centry) : nat :=
  List.length (filter (fun x => match x with LogResponse _ _ => true | _ => false end) (log_lines l)).
Definition really_answered (l : list centry) : nat :=
  List.length (filter (fun o => match o with Completed _ (Value _) => true | _ => false end) (seen l)).
Definition said_timed_out (l : list centry) : nat :=
  List.length (filter (fun x => match x with LogTimeout _ _ => true | _ => false end) (log_lines l)).
Definition really_timed_out (l : list centry) : nat :=
  List.length (filter (fun o => match o with Completed _ (Error ETimeout) => true | _ => false end) (seen l)).

(** The line about a received frame. *)
Definition about_frame (m : mbap_message) (x : cline) : Prop :=
  x = LogResponse (mb_unit m) (mb_tx m) \/ x = LogUnexpected (mb_unit m) (mb_tx m) \/ x = LogNotWaiting.
Definition on_frame (x : cline) : bool :=
  match x with LogResponse _ _ | LogUnexpected _ _ | LogNotWaiting => true | _ => false end.

(** ** The server channel *)

Definition shown (l : list sentry) : list output :=
  flat_map (fun x => match x with Shown o => [o] | Noted _ => [] end) l.
Definition notes (l : list sentry) : list sline :=
  flat_map (fun x => match x with Shown _ => [] | Noted x => [x] end) l.

(** The warning about a frame: there is none exactly if a session is asked. *)
Inductive warning (registry : N -> option N) (unit : N) (pdu : list N) : list sline -> Prop :=
| warn_unknown : registry unit = None -> warning registry unit pdu [WarnUnknown unit]
| warn_empty x : registry unit = Some x -> pdu = [] -> warning registry unit pdu [WarnInvalid]
| warn_unsupported x fc rest :
    registry unit = Some x -> pdu = fc :: rest -> ~ supported fc ->
    warning registry unit pdu [WarnUnsupported fc]
| warn_invalid x fc rest :
    registry unit = Some x -> pdu = fc :: rest -> supported fc ->
    (forall r, legal_request r -> ~ request_pdu_any_padding r pdu) ->
    warning registry unit pdu [WarnInvalid]
| warn_none x r :
    registry unit = Some x -> legal_request r -> request_pdu_any_padding r pdu ->
    warning registry unit pdu [].

(** ** Which lines an event leads to *)

(** At most one request is sent. *)
Definition may_send (l : list cline) : Prop :=
  l = [] \/ exists unit tx timeout n, l = [LogSending unit tx timeout n].

(** The lines of an event of a client channel in state [s]. *)
Inductive event_lines (pol : copy_policy) (s : client) : cevent -> list cline -> Prop :=
| lines_api a : event_lines pol s (CApi a) []
| lines_expire t : event_lines pol s (CExpire t) []
| lines_stop q : cc_queue s = DoShutdown :: q -> event_lines pol s CRun [LogShuttingDown]
| lines_run l : (forall q, cc_queue s <> DoShutdown :: q) -> may_send l -> (cc_shutdown s = true -> l = []) -> event_lines pol s CRun l
| lines_receive data p ms l :
    cc_shutdown s = false -> mbap_parse pol (cc_parser s) data = Ret (p, ms) ->
    Forall2 about_frame ms (filter on_frame l) ->
    (forall x, In x l -> on_frame x = true \/ exists unit tx timeout n, x = LogSending unit tx timeout n) ->
    event_lines pol s (CReceive data) (LogReceived (size data) :: l)
| lines_error msg l : cc_shutdown s = false -> may_send l -> event_lines pol s (CError msg) (LogError :: l)
| lines_timeout t p l :
    cc_shutdown s = false -> In t (cc_expired s) -> cc_current s = Some p -> may_send l ->
    event_lines pol s (CFire t) (LogTimeout (pr_unit p) (pr_tx p) :: l)
| lines_no_timeout t : cc_current s = None \/ ~ In t (cc_expired s) \/ cc_shutdown s = true -> event_lines pol s (CFire t) []
| lines_down e : cc_shutdown s = true -> e <> CRun -> event_lines pol s e [].
