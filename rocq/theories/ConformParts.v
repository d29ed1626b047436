(** The repository's unit tests of the database, the channels, the scheduled
    requests, the client's connection and the acceptor (lib/tests/unit), as
    evaluations of the model. *)
From Verif Require Import Config Prelude Ser4 Messages Mbap Database Server Client Scheduled Listener AsyncWrite ClientConn ConformCodec.

(** ** SingleTypeDatabase *)

Definition table_run (os : list (table_op N)) : option (list (table_result N)) :=
  match run_table Holdings os db_empty with Ret (_, l) => Some l | UB => None end.

(** lib/tests/unit/server/db/SingleTypeDatabaseTest.cpp:30-60 *)
Example add_and_get_value :
  table_run [OAdd 0x1234 0x4567; OGet 0x1234 0; OAdd 0x1234 0x9876; OGet 0x1234 0]
    = Some [(true, []); (true, [0x4567]); (false, []); (true, [0x4567])]
  /\ table_run [OAdd 0x1234 0x4567; OGet 0x1234 0; OGet 0x2345 0x4567]
    = Some [(true, []); (true, [0x4567]); (false, [0x4567])].
Proof. vm_compute. split; reflexivity. Qed.

Definition ten : list (table_op N) := map (fun i => OAdd (0x1234 + N.of_nat i) (N.of_nat i)) (seq 0 10).
Definition results_after_ten (os : list (table_op N)) : option (list (table_result N)) :=
  option_map (skipn 10) (table_run (ten ++ os)).

(** lib/tests/unit/server/db/SingleTypeDatabaseTest.cpp:62-88: the results, and
    the values read by the first call. *)
Example get_values_tests :
  option_map (map fst) (results_after_ten
    [OGetMany 0x1234 (repeat 0 10); OGetMany 0x1235 (repeat 0 10); OGetMany 0x1233 (repeat 0 10);
     OAdd 0x123F 0x4242; OGetMany 0x1236 (repeat 0 10)])
    = Some [true; false; false; true; false]
  /\ results_after_ten [OGetMany 0x1234 (repeat 0 10)] = Some [(true, [0; 1; 2; 3; 4; 5; 6; 7; 8; 9])].
Proof. vm_compute. split; reflexivity. Qed.

(** lib/tests/unit/server/db/SingleTypeDatabaseTest.cpp:90-103 *)
Example set_value_tests :
  table_run [OAdd 0x1234 0x4567; OSet 0x1234 0x9876; OGet 0x1234 0; OSet 0x2345 0x4242]
    = Some [(true, []); (true, []); (true, [0x9876]); (false, [])].
Proof. vm_compute. reflexivity. Qed.

(** lib/tests/unit/server/db/SingleTypeDatabaseTest.cpp:105-138 *)
Example set_values_tests :
  let values := [20; 21; 22; 23; 24; 25; 26; 27; 28; 29] in
  results_after_ten [OSetMany 0x1234 values; OGetMany 0x1234 (repeat 0 10); OSetMany 0x1235 values]
    = Some [(true, []); (true, values); (false, [])]
  /\ option_map (map fst) (results_after_ten
       [OGetMany 0x1233 values; OAdd 0x123F 0x4242; OGetMany 0x1236 values]) = Some [false; true; false].
Proof. vm_compute. split; reflexivity. Qed.

(** lib/tests/unit/server/db/SingleTypeDatabaseTest.cpp:140-172 *)
Example is_valid_tests :
  table_run [OAdd 0x1234 0x4567; OValid 0x1234; OValid 0x2345] = Some [(true, []); (true, []); (false, [])]
  /\ results_after_ten [OValidRange 0x1234 10; OValidRange 0x1235 10; OValidRange 0x1233 10;
                        OAdd 0x123F 0x4242; OValidRange 0x1236 10]
    = Some [(true, []); (false, []); (false, []); (true, []); (false, [])].
Proof. vm_compute. split; reflexivity. Qed.

(** ** InMemoryDatabase *)

Definition calls_run (cs : list Database.call) : option (list result) :=
  match run_calls cs db_empty with Ret (_, l) => Some l | UB => None end.

Definition bit (b : bool) : N := if b then 1 else 0.

(** The transaction of the "get/set in transaction" sections: what it finds, what it
    finds after setting, and whether [absent] is there. *)
Definition bits_transaction (t : tid) (get : bool -> val t -> N) (v : val t) (absent : N) : Database.call :=
  CTransaction (TxGet t 0x1234 v (fun b x => TxSet t 0x1234 v (fun _ => TxGet t 0x1234 x (fun _ y =>
    TxGet t absent y (fun b' _ => TxDone [bit b; get b x; get b y; bit b']))))).

(** lib/tests/unit/server/db/InMemoryDatabaseTest.cpp:26-69 *)
Example coils_read :
  calls_run [CAdd Coils 0x1234 true; bits_transaction Coils (fun _ => bit) false 0xFFFF]
    = Some [RBool true; RTransaction [1; 1; 0; 0]]
  /\ calls_run [CAdd Coils 0x1234 true; CRequest (ReadCoils 0x1234 1); CRequest (ReadCoils 0xFFFF 1)]
    = Some [RBool true; RResponse (Value (CoilsRead [(0x1234, true)]));
            RResponse (Error (EModbus IllegalDataAddress))].
Proof. vm_compute. split; reflexivity. Qed.

Definition read_coil (a : N) : Database.call := CTransaction (TxGet Coils a false (fun b x => TxDone [bit b; bit x])).
Definition read_register (a : N) : Database.call := CTransaction (TxGet Holdings a 0 (fun b x => TxDone [bit b; x])).

(** lib/tests/unit/server/db/InMemoryDatabaseTest.cpp:71-128 *)
Example coils_written :
  calls_run [CAdd Coils 0x1234 true; CRequest (WriteSingleCoil 0x1234 false); read_coil 0x1234;
             CRequest (WriteSingleCoil 0xFFFF true)]
    = Some [RBool true; RResponse (Value (SingleCoilWritten 0x1234 false)); RTransaction [1; 0];
            RResponse (Error (EModbus IllegalDataAddress))]
  /\ calls_run [CAdd Coils 0x1234 true; CAdd Coils 0x1235 false;
                CRequest (WriteMultipleCoils 0x1234 [false; true]); read_coil 0x1234; read_coil 0x1235;
                CRequest (WriteMultipleCoils 0xEEEE [true; false])]
    = Some [RBool true; RBool true; RResponse (Value (MultipleCoilsWritten 0x1234 2));
            RTransaction [1; 0]; RTransaction [1; 1]; RResponse (Error (EModbus IllegalDataAddress))].
Proof. vm_compute. split; reflexivity. Qed.

(** lib/tests/unit/server/db/InMemoryDatabaseTest.cpp:130-174, :281-326 *)
Example inputs_read :
  calls_run [CAdd Discretes 0x1234 true; CRequest (ReadDiscreteInputs 0x1234 1); CRequest (ReadDiscreteInputs 0xFFFF 1);
             bits_transaction Discretes (fun _ => bit) false 0xFFFF]
    = Some [RBool true; RResponse (Value (DiscreteInputsRead [(0x1234, true)]));
            RResponse (Error (EModbus IllegalDataAddress)); RTransaction [1; 1; 0; 0]]
  /\ calls_run [CAdd Inputs 0x1234 0x4242; CRequest (ReadInputRegisters 0x1234 1); CRequest (ReadInputRegisters 0xEEEE 1);
                bits_transaction Inputs (fun _ x => x) 0xFFFF 0xEEEE]
    = Some [RBool true; RResponse (Value (InputRegistersRead [(0x1234, 0x4242)]));
            RResponse (Error (EModbus IllegalDataAddress)); RTransaction [1; 0x4242; 0xFFFF; 0]].
Proof. vm_compute. split; reflexivity. Qed.

(** lib/tests/unit/server/db/InMemoryDatabaseTest.cpp:176-279 *)
Example registers_written :
  calls_run [CAdd Holdings 0x1234 0x4242; CRequest (ReadHoldingRegisters 0x1234 1); CRequest (ReadHoldingRegisters 0xFFFF 1);
             CRequest (WriteSingleRegister 0x1234 0x7676); read_register 0x1234; CRequest (WriteSingleRegister 0xFFFF 0x4242)]
    = Some [RBool true; RResponse (Value (HoldingRegistersRead [(0x1234, 0x4242)]));
            RResponse (Error (EModbus IllegalDataAddress)); RResponse (Value (SingleRegisterWritten 0x1234 0x7676));
            RTransaction [1; 0x7676]; RResponse (Error (EModbus IllegalDataAddress))]
  /\ calls_run [CAdd Holdings 0x1234 0x4242; bits_transaction Holdings (fun _ x => x) 0xFFFF 0xFFFF]
    = Some [RBool true; RTransaction [1; 0x4242; 0xFFFF; 0]]
  /\ calls_run [CAdd Holdings 0x1234 0x4242; CAdd Holdings 0x1235 0xAAAA;
                CRequest (WriteMultipleRegisters 0x1234 [0x2222; 0x3333]); read_register 0x1234; read_register 0x1235;
                CRequest (WriteMultipleRegisters 0xEEEE [0x2222; 0x3333])]
    = Some [RBool true; RBool true; RResponse (Value (MultipleRegistersWritten 0x1234 2));
            RTransaction [1; 0x2222]; RTransaction [1; 0x3333]; RResponse (Error (EModbus IllegalDataAddress))].
Proof. vm_compute. repeat split. Qed.

(** ** ServerChannelTcp *)

(** The mock session answers every request with [answer]. *)
Definition mock_session (answer : expected response) (_ : N) (w : unit) (_ : request)
    : unit * expected response * list api := (w, answer, []).
Definition mock_shutdown (_ : N) (w : unit) : unit * list api := (w, []).

(** [start], [add_session] with unit 0x42, then one message. *)
Definition served (answer : expected response) (m : mbap_message) : option (list output) :=
  match server_run (mock_session answer) mock_shutdown Truncate server_init tt
          [EApi ApiStart; ERun; EApi (ApiAdd 0x42 7); ERun] with
  | Ret (s, w, _) =>
      match Server.on_mbap (mock_session answer) s w 1 m with Ret (_, _, o) => Some o | UB => None end
  | UB => None
  end.

Definition message (unit : N) (data : list N) : mbap_message :=
  {| mb_unit := unit; mb_tx := 0x1234; mb_data := data |}.
Definition data_of (r : request) : list N :=
  build_into (N.to_nat (im_length (request_message r))) (request_message r).
Definition reply (data : list N) : output :=
  OSend 1 (map Some ([0x12; 0x34; 0; 0; 0; size data + 1; 0x42] ++ data)).

(** lib/tests/unit/server/channel/ServerChannelTcpTest.cpp:133-158: an unknown unit, an
    empty message and an unknown function code. *)
Example server_odd_messages :
  served (Error ETimeout) (message 0x24 (data_of (ReadCoils 0 0))) = Some []
  /\ served (Error ETimeout) (message 0x42 []) = Some []
  /\ served (Error ETimeout) (message 0x42 [0x42]) = Some [reply [0xC2; 0x01]].
Proof. vm_compute. repeat split. Qed.

(** :160-446, the valid requests: the session is consulted and its answer, or its
    exception, is sent. *)
Definition valid_cases : list (request * response * list N) :=
  [(ReadCoils 0x1234 0x20, CoilsRead [], [0x01; 0]);
   (ReadDiscreteInputs 0x1234 0x20, DiscreteInputsRead [], [0x02; 0]);
   (ReadHoldingRegisters 0x1234 0x20, HoldingRegistersRead [], [0x03; 0]);
   (ReadInputRegisters 0x1234 0x20, InputRegistersRead [], [0x04; 0]);
   (WriteSingleCoil 0 false, SingleCoilWritten 0 false, [0x05; 0; 0; 0; 0]);
   (WriteSingleRegister 0 0, SingleRegisterWritten 0 0, [0x06; 0; 0; 0; 0]);
   (WriteMultipleCoils 0x1234 [true; false], MultipleCoilsWritten 0 0, [0x0F; 0; 0; 0; 0]);
   (WriteMultipleRegisters 0x1234 [0x1234; 0x5678], MultipleRegistersWritten 0 0, [0x10; 0; 0; 0; 0])].

Example server_valid_requests :
  map (fun '(r, answer, _) => served (Value answer) (message 0x42 (data_of r))) valid_cases
  = map (fun '(r, _, data) => Some [OConsult 7 r; reply data]) valid_cases.
Proof. vm_compute. reflexivity. Qed.

Example server_session_exceptions :
  map (fun '(r, _, _) => served (Error (EModbus IllegalDataAddress)) (message 0x42 (data_of r))) valid_cases
  = map (fun '(r, _, data) => Some [OConsult 7 r; reply [hd 0 data + 0x80; 0x02]]) valid_cases.
Proof. vm_compute. reflexivity. Qed.

(** :160-446, the invalid requests: the session is not consulted. *)
Example server_invalid_requests :
  map (fun r => served (Error ETimeout) (message 0x42 (data_of r)))
    [ReadCoils 0x1234 0x07D1; ReadDiscreteInputs 0x1234 0x07D1; ReadHoldingRegisters 0x1234 0x7E;
     ReadInputRegisters 0x1234 0x7E; WriteMultipleCoils 0x1234 []; WriteMultipleRegisters 0x1234 []]
  = map (fun fc => Some [reply [fc; 0x03]]) [0x81; 0x82; 0x83; 0x84; 0x8F; 0x90].
Proof. vm_compute. reflexivity. Qed.

Definition server_outputs (es : list event) : option (list output) :=
  match server_run (mock_session (Error ETimeout)) mock_shutdown Truncate server_init tt es with
  | Ret (_, _, o) => Some o
  | UB => None
  end.

(** lib/tests/unit/server/channel/ServerChannelTcpTest.cpp:111-122, :450-457 *)
Example server_start_and_shutdown :
  server_outputs [EApi ApiStart] = Some []
  /\ server_outputs [EApi ApiStart; ERun] = Some [OListen]
  /\ server_outputs [EApi ApiStart; ERun; EApi ApiShutdown] = Some [OListen]
  /\ server_outputs [EApi ApiStart; ERun; EApi ApiShutdown; ERun] = Some [OListen; OStopListening]
  /\ server_outputs [EApi ApiShutdown; ERun] = Some [].
Proof. vm_compute. repeat split. Qed.

(** lib/tests/unit/server/channel/ServerConnectionListenerTest.cpp:33-48: the message
    reaches the channel (here, the session does not understand it). *)
Example listener_parses :
  server_outputs [EApi ApiStart; ERun; EApi (ApiAdd 0x42 7); ERun; EAccept 1 (repeat 0 260);
                  EReceive 1 [0x12; 0x34; 0; 0; 0; 3; 0x42; 0x98; 0x76]]
  = Some [OListen; reply [0x98; 0x01]].
Proof. vm_compute. reflexivity. Qed.

(** ** ClientChannelTcp *)

Definition count_handler (i : nat) (w : unit) (r : expected (list N)) : unit * list capi := (w, []).

Definition mock_call (value : N) (valid : bool) : cevent :=
  CApi (Submit {| k_unit := 0xFF; k_msg := IMessageMock 1 value valid; k_timeout := 5000 |}).

(** [receive] of the tests: a response with the given identifiers. *)
Definition receive (unit tx : N) : cevent := CReceive ([tx / 256; tx mod 256; 0; 0; 0; 2; unit; 0x42]).

(** What the mock connection gets and what the handlers are told. *)
Inductive visible : Type :=
| VSent (tx value : N)
| VValue (i : nat)
| VTimeout (i : nat)
| VError (i : nat)
| VShutdown.

Definition show (o : coutput) : list visible :=
  match o with
  | Sent _ _ tx f => [VSent tx (match nth 7 f None with Some b => b | None => 0 end)]
  | Completed i (Value _) => [VValue i]
  | Completed i (Error ETimeout) => [VTimeout i]
  | Completed i (Error _) => [VError i]
  | TcpShutdown => [VShutdown]
  | _ => []
  end.

Definition channel_run (es : list cevent) : option (list visible) :=
  match client_run count_handler Truncate (client_init (repeat 0 260)) tt es with
  | Ret (_, _, o) => Some (flat_map show o)
  | UB => None
  end.

(** lib/tests/unit/client/channel/ClientChannelTcpTest.cpp:71-121 *)
Example channel_queuing :
  channel_run [mock_call 0x42 true] = Some []
  /\ channel_run [mock_call 0x42 true; CRun] = Some [VSent 0 0x42]
  /\ channel_run [mock_call 0x42 true; CRun; mock_call 0x42 true; CRun] = Some [VSent 0 0x42]
  /\ channel_run [mock_call 0x42 true; CRun; mock_call 0x42 true; CRun; receive 0xFF 0]
     = Some [VSent 0 0x42; VValue 0; VSent 1 0x42]
  /\ channel_run [mock_call 1 true; mock_call 2 true; mock_call 3 true; CRun; CRun; CRun] = Some [VSent 0 1]
  /\ channel_run [mock_call 1 true; mock_call 2 true; mock_call 3 true; CRun; CRun; CRun; receive 0xFF 0; receive 0xFF 1]
     = Some [VSent 0 1; VValue 0; VSent 1 2; VValue 1; VSent 2 3].
Proof. vm_compute. repeat split. Qed.

(** :123-141, :205-234; the handlers of the pending requests are called first. *)
Example channel_errors :
  channel_run [mock_call 1 true; mock_call 2 true; mock_call 3 true; CRun; CRun; CRun; CError ""; CRun]
    = Some [VSent 0 1; VError 1; VError 2; VError 0]
  /\ channel_run [mock_call 1 true; mock_call 2 true; mock_call 3 true; CRun; CRun; CRun; CError ""; CRun;
                  mock_call 4 true; CRun]
    = Some [VSent 0 1; VError 1; VError 2; VError 0; VSent 3 4]
  /\ channel_run [mock_call 0x42 true; CRun; CError ""; CRun] = Some [VSent 0 0x42; VError 0].
Proof. vm_compute. repeat split. Qed.

(** :145-203 *)
Example channel_messages :
  channel_run [mock_call 0x42 false; CRun] = Some [VError 0]
  /\ channel_run [mock_call 0x42 true; CRun; receive 0xFF 0] = Some [VSent 0 0x42; VValue 0]
  /\ channel_run [mock_call 0x42 true; CRun; receive 0xFF 0xFEFE] = Some [VSent 0 0x42]
  /\ channel_run [mock_call 0x42 true; CRun; receive 0x64 0] = Some [VSent 0 0x42]
  /\ channel_run [mock_call 0x42 true; CRun; CExpire 0; CFire 0] = Some [VSent 0 0x42; VTimeout 0].
Proof. vm_compute. repeat split. Qed.

(** :238-261.  After the shutdown the handler is never called. *)
Example channel_shutdown :
  channel_run [mock_call 0x42 true; CRun; CApi Client.Shutdown; CRun; receive 0xFF 0] = Some [VSent 0 0x42; VShutdown]
  /\ channel_run [CApi Client.Shutdown; CRun; mock_call 0x42 true; CRun] = Some [VShutdown].
Proof. vm_compute. split; reflexivity. Qed.

(** :263-277: what is waiting in the executor. *)
Definition waiting (es : list cevent) : option nat :=
  match client_run count_handler Truncate (client_init (repeat 0 260)) tt es with
  | Ret (s, _, _) => Some (List.length (cc_queue s))
  | UB => None
  end.

Example channel_executor :
  map waiting [[mock_call 0x42 true]; [mock_call 0x42 true; CRun]; [mock_call 0x42 true; CRun; CApi Client.Shutdown];
               [mock_call 0x42 true; CRun; CApi Client.Shutdown; CRun]] = [Some 1; Some 0; Some 1; Some 0]%nat.
Proof. vm_compute. reflexivity. Qed.

(** ** ScheduledRequest *)

Definition quiet (i : nat) (w : unit) (r : expected unit) : unit * list sapi := (w, []).
Definition scheduled_run (es : list (sevent (expected unit))) : bool * list (soutput (expected unit)) :=
  let '(s, _, o) := sched_run quiet (sched_init 2000) tt es in (sr_running s, o).

(** lib/tests/unit/client/session/ScheduledRequestTest.cpp:61-75 *)
Example scheduled_start :
  scheduled_run [SApi Start; SRun] = (true, [Started; Request 0])
  /\ scheduled_run [SApi Start; SRun; SExpire 0; SFire 0; SRun] = (true, [Started; Request 0]).
Proof. vm_compute. split; reflexivity. Qed.

(** :77-111: a response, an exception and a time-out are passed on; the next request
    follows when the timer fires. *)
Example scheduled_answers :
  map (fun r => scheduled_run [SApi Start; SRun; SAnswer 0 r])
    [Value tt; Error (EModbus IllegalDataAddress); Error ETimeout]
  = map (fun r => (true, [Started; Request 0; Response 0 r; Wait 0 2000]))
    [Value tt; Error (EModbus IllegalDataAddress); Error ETimeout]
  /\ scheduled_run [SApi Start; SRun; SAnswer 0 (Value tt); SExpire 0; SFire 0]
     = (true, [Started; Request 0; Response 0 (Value tt); Wait 0 2000; Request 1]).
Proof. vm_compute. split; reflexivity. Qed.

(** :113-124 *)
Example scheduled_frequency :
  scheduled_run [SApi Start; SRun; SApi (SetFrequency 1000); SRun; SAnswer 0 (Value tt); SExpire 0; SFire 0]
  = (true, [Started; Request 0; Frequency 1000; Response 0 (Value tt); Wait 0 1000; Request 1]).
Proof. vm_compute. reflexivity. Qed.

(** :126-162 *)
Example scheduled_stop :
  scheduled_run [SApi Start; SRun; SApi Stop; SRun; SExpire 0] = (false, [Started; Request 0; Stopped])
  /\ scheduled_run [SApi Start; SRun; SApi Stop; SRun; SApi Stop; SRun; SExpire 0] = (false, [Started; Request 0; Stopped])
  /\ scheduled_run [SApi Start; SRun; SApi Stop; SRun; SAnswer 0 (Value tt); SRun; SExpire 0; SFire 0]
     = (false, [Started; Request 0; Stopped; Response 0 (Value tt)])
  /\ scheduled_run [SApi Start; SRun; SApi Stop; SRun; SApi Start; SRun]
     = (true, [Started; Request 0; Stopped; Started; Request 1]).
Proof. vm_compute. repeat split. Qed.

(** ** AsioClientTcpConnection *)

Definition hello : list N := [104; 101; 108; 108; 111; 10].
Definition well : setup := {| su_address := true; su_open := true; su_bind := true |}.
Definition connection_run (es : list nevent) : option (list noutput) :=
  match conn_run cconn_init es with Ret (_, o) => Some o | UB => None end.

(** lib/tests/unit/client/channel/AsioClientTcpConnectionTest.cpp:80-96, :123-141: the
    connection is established once and the data is written; what arrives is reported. *)
Example connection_established :
  connection_run [NSend hello well; NResolved true; NConnected 1 true; NTransfer 0 6; NWritten 0 true]
    = Some [Attempt; Established 1; Write (WStarted 0 hello); Write (WTook 0 hello); Write (WDone 0); WriteDone]
  /\ connection_run [NSend hello well; NResolved true; NConnected 1 true; NTransfer 0 6; NWritten 0 true;
                     NSend hello well; NTransfer 1 6; NWritten 1 true]
    = Some [Attempt; Established 1; Write (WStarted 0 hello); Write (WTook 0 hello); Write (WDone 0); WriteDone;
            Write (WStarted 1 hello); Write (WTook 1 hello); Write (WDone 1); WriteDone]
  /\ connection_run [NSend hello well; NResolved true; NConnected 1 true; NTransfer 0 6; NWritten 0 true; NRead 0 (RData hello)]
    = Some [Attempt; Established 1; Write (WStarted 0 hello); Write (WTook 0 hello); Write (WDone 0); WriteDone;
            Received 1 hello].
Proof. vm_compute. repeat split. Qed.

(** :98-106: the peer closes, and the next data opens a new connection. *)
Example connection_lost :
  connection_run [NSend hello well; NResolved true; NConnected 1 true; NTransfer 0 6; NWritten 0 true; NRead 0 REof; NRun;
                  NSend hello well; NResolved true; NConnected 3 true; NTransfer 1 6; NWritten 1 true]
    = Some [Attempt; Established 1; Write (WStarted 0 hello); Write (WTook 0 hello); Write (WDone 0); WriteDone;
            PeerClosed 1; SocketClosed 1;
            Attempt; Established 3; Write (WStarted 1 hello); Write (WTook 1 hello); Write (WDone 1); WriteDone].
Proof. vm_compute. reflexivity. Qed.

(** :116-121, :143-151: an unreachable server, and a shutdown before the data is sent. *)
Example connection_fails :
  connection_run [NSend hello well; NResolved true; NConnected 1 false] = Some [Attempt; Failed]
  /\ connection_run [NShutdown; NRun; NSend hello well; NResolved true; NConnected 1 true] = Some [].
Proof. vm_compute. split; reflexivity. Qed.

(** ** AsioServer *)

Definition accepts (n : nat) : list aevent :=
  flat_map (fun c => [AAccept c true; ARun]) (seq 0 n).
Definition num_connections (es : list aevent) : option N :=
  match aserver_run (aserver_init 10) es with Ret (s, _) => Some (as_num s) | UB => None end.

(** lib/tests/unit/server/channel/AsioServerTest.cpp:45-88, [get_num_connections] with a
    limit of 10: one connection, none after the client closes it, ten, and still ten after
    the eleventh. *)
Example server_connections :
  num_connections ([AStart; ARun] ++ accepts 1) = Some 1
  /\ num_connections ([AStart; ARun] ++ accepts 1 ++ [AFail 0; ARun]) = Some 0
  /\ num_connections ([AStart; ARun] ++ accepts 10) = Some 10
  /\ num_connections ([AStart; ARun] ++ accepts 11) = Some 10.
Proof. vm_compute. repeat split. Qed.

(** ** Ipv4Endpoint *)

(** lib/tests/unit/Ipv4EndpointTest.cpp:24-42. *)
Example endpoint_tests :
  let e h p := {| ep_host := h; ep_port := p |} in
  ep_host (e "hostname"%string 502) = "hostname"%string /\ ep_port (e "hostname"%string 502) = 502
  /\ ep_eq (e "hostname"%string 502) (e "hostname"%string 502) = true
  /\ ep_ne (e "hostname"%string 502) (e "asdf"%string 502) = true
  /\ ep_ne (e "hostname"%string 502) (e "hostname"%string 500) = true.
Proof. vm_compute. repeat split. Qed.
