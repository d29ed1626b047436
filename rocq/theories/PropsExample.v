(** The example server. *)
From Verif Require Import Prelude Ser4 Messages Mbap SpecPdu SpecMbap Server SpecServer Database SpecDb ExampleServer SpecExample ExampleFacts ExampleLemmas SystemCases ExampleCases.

(** ** C103: the example server serves what its source says

    Whatever is received and typed, as long as the input does not end, no operation is
    undefined; in particular the coil that is flipped exists, so that its value is never
    used uninitialised. *)
Theorem C103_safe_partial :
  forall pol es, Forall typed_xevent es -> exists x os, example_history pol es x os.
Proof. exact example_defined. Qed.
Print Assumptions C103_safe_partial.

Example C103_safe_example : Forall typed_xevent server_asked.
Proof. exact server_asked_typed. Qed.

(** At the end of the input the character is used uninitialised. *)
Theorem C103_end :
  forall pol es x os, example_history pol es x os -> existsb is_quit es = false -> example_step pol x XEnd = UB.
Proof. exact example_end. Qed.
Print Assumptions C103_end.

Theorem C103_safe_refuted :
  ~ (forall pol es, exists x, example_init = Ret x /\ example_run pol x es <> UB).
Proof. exact example_safe_refuted. Qed.
Print Assumptions C103_safe_refuted.

(** Each table starts with the addresses 0 to 99: the bits of odd addresses are set, and
    registers hold their own address; no address is ever added or removed. *)
Theorem C103_initial :
  forall pol, exists x, example_history pol [] x [] /\ holds (x_db x) initial_values.
Proof. exact example_initial. Qed.
Print Assumptions C103_initial.

Theorem C103_hundred :
  forall pol es x os, example_history pol es x os -> exists F, holds (x_db x) F /\ hundred F.
Proof. exact example_data. Qed.
Print Assumptions C103_hundred.

Example C103_initial_example :
  initial_values Coils 3 = Some true /\ initial_values Discretes 98 = Some false /\ initial_values Inputs 99 = Some 99 /\ initial_values Holdings 100 = None.
Proof. vm_compute. auto. Qed.

(** The server listens once its first three closures have run. *)
Theorem C103_listens :
  forall pol es x os, example_history pol es x os -> existsb is_quit es = false ->
  (3 <= List.length (filter is_task es))%nat -> In OListen os.
Proof. exact example_listens. Qed.
Print Assumptions C103_listens.

Example C103_listens_example : example_runs server_started = Ret [OListen].
Proof. exact server_starts. Qed.

(** After 'q' nothing happens. *)
Theorem C103_quit :
  forall pol es1 es2 x os x' os', example_history pol es1 x os -> existsb is_quit es1 = true ->
  example_run pol x es2 = Ret (x', os') -> x' = x /\ os' = [].
Proof. exact example_quit. Qed.
Print Assumptions C103_quit.

(** 'f' negates coil 0 and changes nothing else; other characters change nothing. *)
Theorem C103_flip :
  forall pol es x os F, example_history pol es x os -> existsb is_quit es = false -> holds (x_db x) F ->
  exists x' F', example_step pol x (XCommand 102) = Ret (x', []) /\ holds (x_db x') F' /\ flipped F F'.
Proof. exact command_flip. Qed.
Print Assumptions C103_flip.

Theorem C103_other_command :
  forall pol es x os c F, example_history pol es x os -> c <> 102 -> u8 c -> holds (x_db x) F ->
  exists x', example_step pol x (XCommand c) = Ret (x', []) /\ holds (x_db x') F.
Proof. exact command_other. Qed.
Print Assumptions C103_other_command.

(** From its acceptance on, the frames of a connection are served, each once and in
    their order, whatever other connections and the user do in between; the data are
    changed by them and by the flips only. *)
Theorem C103_served :
  forall pol es1 x os c buf es2 chunks frames tail,
  example_history pol es1 x os -> In OListen os -> existsb is_quit (es1 ++ es2) = false ->
  good_buf buf -> Forall typed_xevent es2 -> same_connection c (channel_events es2) ->
  ops_on c (channel_events es2) = map Chunk chunks ->
  Forall frame_ok frames ->
  List.concat chunks = flat_map (fun '(tx, unit, pdu) => frame_bytes tx unit pdu) frames ++ tail -> incomplete tail ->
  exists x' os' hs F F', example_run pol x (XServer (EAccept c buf) :: es2) = Ret (x', os') /\
    holds (x_db x) F /\ holds (x_db x') F' /\ example_trace F hs F' /\
    os' = flat_map happening_outputs hs /\ flips hs = List.length (filter is_flip es2) /\
    frames_of c hs = map frame_message frames.
Proof. exact example_served. Qed.
Print Assumptions C103_served.

Example C103_served_example : example_runs server_asked =
  Ret [OListen; OConsult 2 (ReadHoldingRegisters 16 3);
       OSend 5 (map Some [0; 7; 0; 0; 0; 9; 2; 3; 6; 0; 16; 0; 17; 0; 18]);
       OConsult 1 (ReadHoldingRegisters 16 3);
       OSend 5 (map Some [0; 8; 0; 0; 0; 3; 1; 131; 1]);
       OConsult 1 (ReadCoils 36 1);
       OSend 5 (map Some [0; 9; 0; 0; 0; 4; 1; 1; 1; 1])].
Proof. exact server_asked_outputs. Qed.

(** Unit 1 answers every request to read coils with one bit that is set, and every other
    request with the exception 1; the data are not changed. *)
Theorem C103_unit_one :
  forall pol es x os c buf chunks tx pdu r,
  example_history pol es x os -> In OListen os -> existsb is_quit es = false ->
  good_buf buf -> frame_ok (tx, 1, pdu) -> List.concat chunks = frame_bytes tx 1 pdu ->
  legal_request r -> request_pdu_any_padding r pdu ->
  exists x', example_run pol x (XServer (EAccept c buf) :: receives c chunks) =
      Ret (x', [OConsult 1 r; OSend c (map Some (frame_bytes tx 1
                  (if spec_function_code r =? 1 then [1; 1; 1] else [spec_function_code r + 128; 1])))]) /\
    forall F, holds (x_db x) F -> holds (x_db x') F.
Proof. exact unit_one. Qed.
Print Assumptions C103_unit_one.

(** Unit 2 answers from the data, as the Modbus specification says. *)
Theorem C103_unit_two :
  forall pol es x os c buf chunks tx pdu r,
  example_history pol es x os -> In OListen os -> existsb is_quit es = false ->
  good_buf buf -> frame_ok (tx, 2, pdu) -> List.concat chunks = frame_bytes tx 2 pdu ->
  legal_request r -> request_pdu_any_padding r pdu ->
  exists x' os' F F' v, example_run pol x (XServer (EAccept c buf) :: receives c chunks) = Ret (x', OConsult 2 r :: os') /\
    holds (x_db x) F /\ holds (x_db x') F' /\ request_spec F r F' v /\ reply c tx 2 (spec_function_code r) v os'.
Proof. exact unit_two. Qed.
Print Assumptions C103_unit_two.

(** Other units do not answer. *)
Theorem C103_other_units :
  forall pol es x os c buf chunks tx u pdu,
  example_history pol es x os -> In OListen os -> existsb is_quit es = false ->
  good_buf buf -> frame_ok (tx, u, pdu) -> List.concat chunks = frame_bytes tx u pdu -> u <> 1 -> u <> 2 ->
  exists x', example_run pol x (XServer (EAccept c buf) :: receives c chunks) = Ret (x', []) /\
    forall F, holds (x_db x) F -> holds (x_db x') F.
Proof. exact other_units. Qed.
Print Assumptions C103_other_units.
