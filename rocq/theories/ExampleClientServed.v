(** The requests of the example client, as the example server answers them. *)
From Verif Require Import Prelude Ser4 Messages Mbap SpecPdu SpecMbap Server SpecServer Database SpecDb ExampleServer SpecExample ExampleFacts ExampleLemmas.
From Verif Require Import Client SpecClient ClientFacts ClientLemmas ClientTx ClientView
  Scheduled SpecScheduled SessionCall Session SpecSession SessionFacts SessionInv SessionLemmas
  Config Ids ExampleClient SpecExampleClient ExampleClientFacts ExampleClientLemmas ExampleClientTheorems.
From Coq Require Import String Lia.

Section Frames.
Context (text : nat -> string) (pol : copy_policy).

(** What is written to the connection for a one-time request. *)
Lemma client_frames buf es x os ls i s r t u tx v : prog_history text pol buf es x os ls ->
  In (Issued i s r t) os -> In (Channel (Sent i u tx v)) os ->
  u = 1 /\ u16 tx /\ exists pdu, request_pdu r pdu /\ v = map Some (frame_bytes tx 1 pdu).
Proof.
  intros H Hi Hs. destruct (client_made text pol _ _ _ _ _ H) as (M1 & M2 & M3).
  destruct (history_ran text pol buf (proj1 H) _ _ _ _ H) as [R _]. destruct (ran_history _ _ _ (proj1 H) _ _ _ _ R) as (kes & K).
  destruct (M3 _ _ _ _ Hi) as [-> Hr].
  assert (T : typed_request r) by (destruct Hr as [[-> _]|[-> _]]; cbn; unfold u16; repeat (split || constructor); lia).
  destruct (issued_call _ _ _ _ _ _ _ _ _ _ _ K Hi (r_open _ _ _ _ _ _ _ R)) as (c & Hc & (C1 & C2 & C3)).
  destruct (channel_history _ _ _ _ _ K) as (ces & script & Hh & _).
  apply in_channel in Hc. apply in_channel in Hs.
  destruct (request_frames _ _ _ _ _ _ _ _ _ _ _ _ Hh Hs Hc C2 T) as (pdu & P & -> & ->); [rewrite C1; unfold u8; lia|].
  rewrite C1. split; [reflexivity|]. split; [|eauto]. rewrite (tx_counts _ _ _ _ _ _ _ _ _ _ Hh Hs). unfold u16. apply N.mod_lt. discriminate.
Qed.
End Frames.

Lemma answered_coil m l : coil_line m (Value [1; 1; 1]) l -> l = "36: 1"%string.
Proof.
  intros H. inversion H as [| |b Hb Hl|code t C Hb Hl|d D1 D2 Hb Hl]; subst; [reflexivity|]. destruct (D1 1 eq_refl).
Qed.

Lemma refused_write m l : write_line m (Value [144; 1]) l -> l = "Illegal function"%string.
Proof.
  intros H. inversion H as [|a q A Q Hb Hl|code t C Hb Hl|d D1 D2 Hb Hl]; subst.
  - destruct C as [C|[_ C]]; [destruct t; cbn in C; try discriminate; reflexivity|destruct (C IllegalFunction eq_refl)].
  - destruct (D2 1 eq_refl).
Qed.

(** What the user sees when the server gets the request, in whatever pieces, and the
    client its answer. *)
Lemma client_served text pol buf es x os ls i s r t u tx v pol' es' y os' c buf' chunks :
  prog_history text pol buf es x os ls -> In (Issued i s r t) os -> In (Channel (Sent i u tx v)) os ->
  example_history pol' es' y os' -> In OListen os' -> existsb is_quit es' = false -> good_buf buf' ->
  map Some (List.concat chunks) = v ->
  exists y' d, example_run pol' y (XServer (EAccept c buf') :: receives c chunks) =
      Ret (y', [OConsult 1 r; OSend c (map Some (frame_bytes tx 1 d))]) /\
    (forall m l, r = ReadCoils 36 1 -> coil_line m (Value d) l -> l = "36: 1"%string) /\
    (forall m l, r = WriteMultipleRegisters 36 [11; 22; 33] -> write_line m (Value d) l -> l = "Illegal function"%string).
Proof.
  intros H Hi Hs He Hl Hq Hg Hc. destruct (client_frames text pol _ _ _ _ _ _ _ _ _ _ _ _ H Hi Hs) as (_ & Ht & pdu & P & Hv).
  assert (Ec : List.concat chunks = frame_bytes tx 1 pdu).
  { rewrite <- Hc in Hv. revert Hv. generalize (List.concat chunks) (frame_bytes tx 1 pdu). induction l as [|a l IH]; intros [|b l2] E; try discriminate; [reflexivity|].
    inversion E. f_equal. apply IH. assumption. }
  destruct (client_made text pol _ _ _ _ _ H) as (_ & _ & M3). destruct (M3 _ _ _ _ Hi) as [_ [[-> _]|[-> _]]]; cbn in P; subst pdu.
  - destruct (unit_one pol' es' y os' c buf' chunks tx [1; 0; 36; 0; 1] (ReadCoils 36 1)) as (y' & E & _); try assumption.
    + split; [exact Ht|]. split; [unfold u8; lia|]. split; [unfold bytes; repeat (apply Forall_cons; [unfold u8; lia|]); apply Forall_nil|split; vm_compute; discriminate].
    + cbn. unfold u16. repeat split; lia.
    + reflexivity.
    + exists y', [1; 1; 1]. split; [exact E|]. split; [intros m l _; apply answered_coil|]. intros m l K. discriminate.
  - destruct (unit_one pol' es' y os' c buf' chunks tx [16; 0; 36; 0; 3; 6; 0; 11; 0; 22; 0; 33] (WriteMultipleRegisters 36 [11; 22; 33])) as (y' & E & _); try assumption.
    + split; [exact Ht|]. split; [unfold u8; lia|]. split; [unfold bytes; repeat (apply Forall_cons; [unfold u8; lia|]); apply Forall_nil|split; vm_compute; discriminate].
    + split; [split; [unfold u16; lia|]; repeat (apply Forall_cons; [unfold u16; lia|]); apply Forall_nil|split; vm_compute; discriminate].
    + reflexivity.
    + exists y', [144; 1]. split; [exact E|]. split; [intros m l K; discriminate|]. intros m l _. apply refused_write.
Qed.
