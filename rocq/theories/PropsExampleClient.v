(** The example client. *)
From Verif Require Import Prelude Ser4 Messages Mbap SpecPdu SpecMbap Server SpecServer Database SpecDb ExampleServer SpecExample ExampleCases.
From Verif Require Import Client SpecClient Scheduled SpecScheduled SessionCall Session SpecSession
  Config Ids ExampleClient SpecExampleClient ExampleClientTheorems ExampleClientServed SystemCases ExampleClientCases.
From Coq Require Import String.

(** ** C105: the example client does what its source says

    Whatever is received, typed and executed when, as long as the input does not end, no
    operation is undefined. *)
Theorem C105_safe_partial :
  forall text pol buf es, good_buf buf -> Forall typed_pevent es -> exists x os ls, prog_history text pol buf es x os ls.
Proof. exact client_defined. Qed.
Print Assumptions C105_safe_partial.

Example C105_safe_example : good_buf zeros /\ Forall typed_pevent using_client.
Proof. exact (conj zeros_good using_client_typed). Qed.

(** At the end of the input the character is used uninitialised. *)
Theorem C105_end :
  forall text pol buf es x os ls, prog_history text pol buf es x os ls -> existsb quits es = false -> prog_step text pol x PEnd = UB.
Proof. exact client_end. Qed.
Print Assumptions C105_end.

Theorem C105_safe_refuted :
  ~ (forall text pol buf es, good_buf buf -> exists x o, prog_init text pol buf = Ret (x, o) /\ prog_run text pol x es <> UB).
Proof. exact client_safe_refuted. Qed.
Print Assumptions C105_safe_refuted.

(** After 'q' nothing happens. *)
Theorem C105_quit :
  forall text pol buf es1 es2 x os ls x' os' ls', prog_history text pol buf es1 x os ls -> existsb quits es1 = true ->
  prog_run text pol x es2 = Ret (x', (os', ls')) -> x' = x /\ os' = [] /\ ls' = [].
Proof. exact client_quit. Qed.
Print Assumptions C105_quit.

(** A session for unit 1 and a scheduled request are created first; no other is. *)
Theorem C105_startup :
  forall text pol buf es x os ls, prog_history text pol buf es x os ls ->
  exists os', os = [Asked (Open 1 3000); Opened 0 1 3000; Asked (Schedule 0 (ReadHoldingRegisters 36 59) None 2000);
                    Scheduled 0 0 (ReadHoldingRegisters 36 59) None 2000] ++ os'.
Proof. exact client_startup. Qed.
Print Assumptions C105_startup.

Theorem C105_nothing_else :
  forall text pol buf es x os ls, prog_history text pol buf es x os ls ->
  (forall s u d, In (Opened s u d) os -> s = 0%nat /\ u = 1 /\ d = 3000) /\
  (forall j s r t f, In (Scheduled j s r t f) os -> j = 0%nat /\ s = 0%nat /\ r = ReadHoldingRegisters 36 59 /\ t = None /\ f = 2000) /\
  (forall i s r t, In (Issued i s r t) os ->
     s = 0%nat /\ ((r = ReadCoils 36 1 /\ t = Some 3000) \/ (r = WriteMultipleRegisters 36 [11; 22; 33] /\ t = None))).
Proof. exact client_made. Qed.
Print Assumptions C105_nothing_else.

(** The one-time requests are those typed before 'q', in order. *)
Theorem C105_requests :
  forall text pol buf es x os ls, prog_history text pol buf es x os ls ->
  sent_once os = map (pair 0%nat) (flat_map asks (typed_before_quit es)).
Proof. exact client_requests. Qed.
Print Assumptions C105_requests.

(** Every call of the channel is for unit 1, waits 3000 ms, and is one of three requests. *)
Theorem C105_calls :
  forall text pol buf es x os ls i c, prog_history text pol buf es x os ls -> In (Channel (Called i c)) os ->
  k_unit c = 1 /\ k_timeout c = 3000 /\
  exists r, In r [ReadHoldingRegisters 36 59; ReadCoils 36 1; WriteMultipleRegisters 36 [11; 22; 33]] /\ k_msg c = request_message r.
Proof. exact client_calls. Qed.
Print Assumptions C105_calls.

(** What is written to the connection for a one-time request is its frame. *)
Theorem C105_frames :
  forall text pol buf es x os ls i s r t u tx v, prog_history text pol buf es x os ls ->
  In (Issued i s r t) os -> In (Channel (Sent i u tx v)) os ->
  u = 1 /\ u16 tx /\ exists pdu, request_pdu r pdu /\ v = map Some (frame_bytes tx 1 pdu).
Proof. exact client_frames. Qed.
Print Assumptions C105_frames.

Example C105_frames_example :
  issued_ids (client_outputs using_client) = [1%nat; 2%nat] /\
  frame_of 1 (client_outputs using_client) = [(1, 1, map Some [0; 1; 0; 0; 0; 6; 1; 1; 0; 36; 0; 1])] /\
  frame_of 2 (client_outputs using_client) = [(1, 2, map Some [0; 2; 0; 0; 0; 13; 1; 16; 0; 36; 0; 3; 6; 0; 11; 0; 22; 0; 33])].
Proof. exact using_client_frames. Qed.

(** Each answer to a one-time request is printed as one line, that says what it is, and
    nothing else is printed, but that the scheduled request was answered. *)
Theorem C105_lines :
  forall text pol buf es x os ls, prog_history text pol buf es x os ls ->
  exists lss, ls = List.concat lss /\ Forall2 (prints text os) os lss.
Proof. exact client_lines. Qed.
Print Assumptions C105_lines.

(** When nothing is left to happen in the channel, as many lines were printed as requests
    were typed, besides those about the scheduled request. *)
Theorem C105_all_answered :
  forall text pol buf es x os ls, prog_history text pol buf es x os ls -> quiescent (st_channel (pg_stack x)) ->
  List.length ls = (List.length (flat_map asks (typed_before_quit es)) + List.length (filter is_response os))%nat.
Proof. exact client_answers. Qed.
Print Assumptions C105_all_answered.

(** The connection is never shut down. *)
Theorem C105_no_shutdown :
  forall text pol buf es x os ls, prog_history text pol buf es x os ls -> ~ In (Channel TcpShutdown) os.
Proof. exact client_no_shutdown. Qed.
Print Assumptions C105_no_shutdown.

(** If 's' and 'f' are typed only when nothing is left to be executed, 's' stops and
    starts the scheduled request in turn, and 'f' changes its frequency between two. *)
Theorem C105_toggle_partial :
  forall text pol buf es x os ls, patient text pol buf es -> prog_history text pol buf es x os ls ->
  ks_queue (st_rest (pg_stack x)) = [] ->
  is_running (pg_stack x) 0 = Nat.even (typed_times 115 es) /\
  frequency (pg_stack x) 0 = if Nat.even (typed_times 102 es) then 2000 else 5000.
Proof. exact client_toggles. Qed.
Print Assumptions C105_toggle_partial.

Example C105_example : patient no_text AllOrNothing zeros using_client /\
  prog_history no_text AllOrNothing zeros using_client (client_state using_client) (client_outputs using_client) (client_output using_client) /\
  client_output using_client = ["Scheduled request received response."; "36: 1"; "Illegal function"]%string /\
  sent_once (client_outputs using_client) = [(0%nat, (ReadCoils 36 1, Some 3000)); (0%nat, (WriteMultipleRegisters 36 [11; 22; 33], None))] /\
  is_running (pg_stack (client_state using_client)) 0 = false /\ frequency (pg_stack (client_state using_client)) 0 = 5000 /\
  ks_queue (st_rest (pg_stack (client_state using_client))) = [].
Proof. exact (conj using_client_patient (conj (client_played _ using_client_typed) using_client_shown)). Qed.

(** Otherwise it may not: typed twice in a row, 's' stops the scheduled request twice. *)
Theorem C105_toggle_refuted :
  ~ (forall text pol buf es x os ls, prog_history text pol buf es x os ls -> ks_queue (st_rest (pg_stack x)) = [] ->
       is_running (pg_stack x) 0 = Nat.even (typed_times 115 es)).
Proof. exact client_toggles_refuted. Qed.
Print Assumptions C105_toggle_refuted.

Theorem C105_frequency :
  forall text pol buf es x os ls, prog_history text pol buf es x os ls -> ks_queue (st_rest (pg_stack x)) = [] ->
  frequency (pg_stack x) 0 = 2000 \/ frequency (pg_stack x) 0 = 5000.
Proof. exact client_frequency. Qed.
Print Assumptions C105_frequency.

(** The example server, when it gets the frame of a one-time request in whatever pieces,
    answers it such that the client prints "36: 1" and "Illegal function". *)
Theorem C105_with_example_server :
  forall text pol buf es x os ls i s r t u tx v pol' es' y os' c buf' chunks,
  prog_history text pol buf es x os ls -> In (Issued i s r t) os -> In (Channel (Sent i u tx v)) os ->
  example_history pol' es' y os' -> In OListen os' -> existsb is_quit es' = false -> good_buf buf' ->
  map Some (List.concat chunks) = v ->
  exists y' d, example_run pol' y (XServer (EAccept c buf') :: receives c chunks) =
      Ret (y', [OConsult 1 r; OSend c (map Some (frame_bytes tx 1 d))]) /\
    (forall m l, r = ReadCoils 36 1 -> coil_line m (Value d) l -> l = "36: 1"%string) /\
    (forall m l, r = WriteMultipleRegisters 36 [11; 22; 33] -> write_line m (Value d) l -> l = "Illegal function"%string).
Proof. exact client_served. Qed.
Print Assumptions C105_with_example_server.

Example C105_with_example_server_example : example_runs server_started = Ret [OListen].
Proof. exact server_starts. Qed.
