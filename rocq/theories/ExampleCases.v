(** Concrete runs of the example server. *)
From Verif Require Import Prelude Ser4 Messages Mbap SpecPdu SpecMbap Server SpecServer Database SpecDb ExampleServer SpecExample ExampleFacts ExampleLemmas SystemCases.

(** The server is started, a client connects, and sends four requests in three pieces:
    to read 16 to 18 of the holding registers of unit 2; to read the same of unit 1; to
    read coils 36 to 36 of unit 1; to read registers of unit 3.  The user flips the
    coil in between. *)
Definition server_started : list xevent := [XServer ERun; XServer ERun; XServer ERun].

Definition ask_two : list N := [0; 7; 0; 0; 0; 6; 2; 3; 0; 16; 0; 3].
Definition ask_one : list N := [0; 8; 0; 0; 0; 6; 1; 3; 0; 16; 0; 3].
Definition ask_coils : list N := [0; 9; 0; 0; 0; 6; 1; 1; 0; 36; 0; 1].
Definition ask_three : list N := [0; 10; 0; 0; 0; 6; 3; 3; 0; 16; 0; 3].
Definition asked_server : list xevent :=
  [XServer (EReceive 5 (firstn 5 ask_two)); XCommand 102; XServer (EReceive 5 (skipn 5 ask_two ++ ask_one ++ firstn 3 ask_coils)); XCommand 120;
   XServer (EReceive 5 (skipn 3 ask_coils ++ ask_three))].

Definition example_runs (es : list xevent) : outcome (list output) :=
  let! x := example_init in
  let! (_, os) := example_run AllOrNothing x es in
  Ret os.

Definition server_asked : list xevent := server_started ++ XServer (EAccept 5 zeros) :: asked_server.

Lemma server_asked_typed : Forall typed_xevent server_asked.
Proof.
  apply Forall_forall. intros e He. cbn [server_asked server_started asked_server app In] in He.
  repeat (destruct He as [ <- |He]; [first [exact Logic.I|exact zeros_good|cbn; unfold u8; lia|
    cbn [typed_xevent typed_event]; apply Forall_forall; intros b Hb; vm_compute in Hb; unfold u8;
    repeat (destruct Hb as [ <- |Hb]; [lia|]); destruct Hb]|]).
  destruct He.
Qed.

Lemma server_asked_outputs : example_runs server_asked =
  Ret [OListen; OConsult 2 (ReadHoldingRegisters 16 3);
       OSend 5 (map Some [0; 7; 0; 0; 0; 9; 2; 3; 6; 0; 16; 0; 17; 0; 18]);
       OConsult 1 (ReadHoldingRegisters 16 3);
       OSend 5 (map Some [0; 8; 0; 0; 0; 3; 1; 131; 1]);
       OConsult 1 (ReadCoils 36 1);
       OSend 5 (map Some [0; 9; 0; 0; 0; 4; 1; 1; 1; 1])].
Proof. vm_compute. reflexivity. Qed.

Lemma server_starts : example_runs server_started = Ret [OListen].
Proof. vm_compute. reflexivity. Qed.

(** The input ends at once. *)
Lemma example_safe_refuted :
  ~ (forall pol es, exists x, example_init = Ret x /\ example_run pol x es <> UB).
Proof.
  intros H. destruct (H AllOrNothing [XEnd]) as (x & E & K). destruct (example_initial AllOrNothing) as (y & Hy & _).
  apply K. cbn [example_run]. rewrite (example_end AllOrNothing [] x []); [reflexivity| |reflexivity].
  exists x. split; [exact E|]. split; [constructor|reflexivity].
Qed.
