(** Histories of a server with frames that are for nobody. *)
From Verif Require Import Prelude Ser4 Messages Mbap SpecPdu ParseReqFacts SpecMbap MbapFacts MbapLemmas Server SpecServer ServerLemmas SpecChunks ChunksCases Client SpecStray.

(** What a frame for nobody said is heard when an over-long frame follows that is not copied. *)
Definition lost : item := frame 5 99 [100].

Lemma lost_whole : whole (item_bytes lost) [lost].
Proof. split; [|reflexivity]. constructor; [|constructor]. repeat split; try reflexivity; [constructor; [reflexivity|constructor]|discriminate]. Qed.

Lemma opened_run pol : exists s, server_run (demo 1) demo_shutdown pol server_init 0%nat opened = Ret (s, 0%nat, []) /\ registry s 99 = None /\ registry s 2 = Some 0.
Proof. destruct pol; vm_compute; eauto. Qed.

Lemma nobody_noticed :
  ~ (forall (W : Type) (on_request : N -> W -> request -> W * expected response * list api) (on_shutdown : N -> W -> W * list api), well_typed on_request ->
     forall pol w a c d its items b s0 w0 o0, Forall typed_event (a ++ EReceive c d :: b) -> whole (arrived c [] a) its ->
     server_run on_request on_shutdown pol server_init w a = Ret (s0, w0, o0) -> whole d items -> for_nobody (registry s0) items ->
     exists s t w1 o, server_run on_request on_shutdown pol server_init w (a ++ EReceive c d :: b) = Ret (s, w1, o) /\
       server_run on_request on_shutdown pol server_init w (a ++ b) = Ret (t, w1, o)).
Proof.
  intros H. destruct (opened_run AllOrNothing) as (s0 & E & Hr & _).
  destruct (H nat (demo 1) demo_shutdown (demo_typed 1) AllOrNothing 0%nat opened 9 (item_bytes lost) [] [lost] [EReceive 9 overlong] s0 0%nat []) as (s & t & w & o & E1 & E2).
  - apply Forall_app. split; [exact opened_typed|]. do 2 (constructor; [apply all_bytes; vm_compute; reflexivity|]). constructor.
  - split; [constructor|reflexivity].
  - exact E.
  - exact lost_whole.
  - intros x [<-|[]] _. apply unknown_unit. exact Hr.
  - apply outputs_run in E1, E2. rewrite <- E2 in E1. vm_compute in E1. discriminate E1.
Qed.

(** A request that breaks off. *)
Definition broken : item := frame 6 2 [3; 0].

Lemma broken_silent registry : registry 2 = Some 0 -> decision registry 2 [3; 0] Silent.
Proof.
  intros H. destruct (proj2 (request_parser_supported 3)) as (p & Ep); [cbv; auto 10|].
  assert (K : p [3; 0] = Ret (Error EMalformedRequest)) by (vm_compute in Ep; injection Ep as <-; vm_compute; reflexivity).
  apply (parse_malformed_iff 3 p [3; 0] Ep) in K; [|apply all_bytes; reflexivity]. destruct K as [K1 K2].
  apply (malformed _ _ _ 0 3 [0]); auto; [cbv; auto 10|]. intros r L P. destruct r; try (exact (K2 _ L eq_refl P)); cbn in P; try discriminate P; destruct P as (? & ? & ?); discriminate.
Qed.

Lemma nobody_case :
  for_nobody (fun u => if u =? 2 then Some 0 else None) [lost; broken] /\
  outputs AllOrNothing (opened ++ [EReceive 9 (item_bytes lost ++ item_bytes broken); EReceive 9 asked_twice]) = outputs AllOrNothing at_once /\
  outputs AllOrNothing (opened ++ [EReceive 9 (item_bytes lost); EReceive 9 overlong]) = [OSend 9 (map Some (frame_bytes 1 2 [228; 1]))] /\
  outputs AllOrNothing (opened ++ [EReceive 9 overlong]) = [OSend 9 (map Some (frame_bytes 1 2 [128; 1]))].
Proof. split; [|vm_compute; auto]. intros x [<-|[<-|[]]] _; [apply unknown_unit; reflexivity|]. exact (broken_silent _ eq_refl). Qed.
