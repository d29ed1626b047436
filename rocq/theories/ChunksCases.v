(** Histories of a server in which the same arrives in other pieces. *)
From Verif Require Import Prelude Ser4 Messages Mbap SpecPdu SpecMbap MbapFacts MbapLemmas Server SpecServer ServerLemmas SpecChunks.

Definition outputs (pol : copy_policy) (es : list event) : list output :=
  match server_run (demo 1) demo_shutdown pol server_init 0%nat es with Ret (_, _, o) => o | UB => [] end.

Lemma outputs_run pol es s w o : server_run (demo 1) demo_shutdown pol server_init 0%nat es = Ret (s, w, o) -> outputs pol es = o.
Proof. unfold outputs. intros ->. reflexivity. Qed.

(** An over-long frame in one piece and in two. *)
Definition opened : list event := [EApi (ApiAdd 2 0); ERun; EAccept 9 (repeat 0 260)].
Definition overlong : list N := frame_bytes 1 2 (99 :: repeat 7 253).
Definition in_one : list event := opened ++ [EReceive 9 overlong].
Definition in_two : list event := opened ++ [EReceive 9 (firstn 8 overlong); EReceive 9 (skipn 8 overlong)].

Lemma all_bytes l : forallb (fun x => x <? 256) l = true -> bytes l.
Proof. intros H. apply Forall_forall. intros x Hx. rewrite forallb_forall in H. specialize (H x Hx). apply N.ltb_lt in H. exact H. Qed.

Lemma opened_typed : Forall typed_event opened.
Proof. repeat constructor; try reflexivity. Qed.

Lemma pieces_noticed :
  ~ (forall (W : Type) (on_request : N -> W -> request -> W * expected response * list api) (on_shutdown : N -> W -> W * list api), well_typed on_request ->
     forall pol w es es', rechunked es es' -> Forall typed_event es -> Forall typed_event es' ->
     exists s t w1 o, server_run on_request on_shutdown pol server_init w es = Ret (s, w1, o) /\
       server_run on_request on_shutdown pol server_init w es' = Ret (t, w1, o)).
Proof.
  intros H. destruct (H nat (demo 1) demo_shutdown (demo_typed 1) AllOrNothing 0%nat in_one in_two) as (s & t & w & o & E1 & E2).
  - unfold in_one, in_two, opened. cbn [app]. do 3 constructor. exact (rc_receive 9 [overlong] [firstn 8 overlong; skipn 8 overlong] [] [] eq_refl rc_nil).
  - apply Forall_app. split; [exact opened_typed|]. constructor; [|constructor]. apply all_bytes. vm_compute. reflexivity.
  - apply Forall_app. split; [exact opened_typed|]. do 2 (constructor; [apply all_bytes; vm_compute; reflexivity|]). constructor.
  - apply outputs_run in E1, E2. rewrite <- E2 in E1. vm_compute in E1. discriminate E1.
Qed.

(** Two requests, byte by byte on a connection whose memory held something else. *)
Definition asked_twice : list N := frame_bytes 1 2 [3; 0; 5; 0; 1] ++ frame_bytes 2 2 [99].
Definition at_once : list event := opened ++ [EReceive 9 asked_twice].
Definition bytewise : list event := [EApi (ApiAdd 2 0); ERun; EAccept 9 (repeat 255 260)] ++ map (fun x => EReceive 9 [x]) asked_twice.

Lemma bytewise_case : rechunked at_once bytewise /\ outputs AllOrNothing at_once = outputs AllOrNothing bytewise /\
  outputs AllOrNothing at_once = [OConsult 0 (ReadHoldingRegisters 5 1); OSend 9 (map Some (frame_bytes 1 2 [3; 2; 0; 7])); OSend 9 (map Some (frame_bytes 2 2 [227; 1]))].
Proof.
  split; [|vm_compute; auto].
  apply rc_same, rc_same, rc_accept. cbn [app].
  replace (map (fun x => EReceive 9 [x]) asked_twice) with (map (EReceive 9) (map (fun x => [x]) asked_twice) ++ []) by (vm_compute; reflexivity).
  apply (rc_receive 9 [asked_twice] (map (fun x => [x]) asked_twice) [] []); [vm_compute; reflexivity|constructor].
Qed.

(** A request whose end arrives late is answered late. *)
Definition others_first : list event :=
  opened ++ [EAccept 8 (repeat 0 260); EReceive 9 (firstn 5 asked_twice); EReceive 8 (frame_bytes 7 2 [99]); EReceive 9 (skipn 5 asked_twice)].

Lemma late_case : outputs AllOrNothing others_first = OSend 8 (map Some (frame_bytes 7 2 [227; 1])) :: outputs AllOrNothing at_once /\
  completes_nothing (arrived 9 [] (opened ++ [EAccept 8 (repeat 0 260)])) (firstn 5 asked_twice).
Proof.
  split; [vm_compute; reflexivity|]. intros items tail (F1 & F2 & F3). change (arrived 9 [] (opened ++ [EAccept 8 (repeat 0 260)])) with (@nil N) in *.
  destruct items as [|i items]; [|discriminate F2]. exists (firstn 5 asked_twice). split; [constructor|]. split; [reflexivity|]. left. reflexivity.
Qed.
