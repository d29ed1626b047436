(** Histories with several clients. *)
From Verif Require Import Prelude Ser4 Messages Mbap SpecPdu SpecMbap Server SpecServer ServerLemmas SpecAlone Database System.

Section Asked.
Context {W : Type}.
Context (on_request : N -> W -> request -> W * expected response * list api).
Context (on_shutdown : N -> W -> W * list api).

(** Who asks what in a history. *)
Fixpoint asked_by (pol : copy_policy) (c : N) (s : server) (w : W) (es : list event) : list (bool * N * request) :=
  match es with
  | [] => []
  | e :: es' =>
      match server_step on_request on_shutdown pol s w e with
      | Ret (s1, w1, o) =>
          flat_map (fun x => match x with OConsult y r => [(negb (of_others c e), y, r)] | _ => [] end) o ++ asked_by pol c s1 w1 es'
      | UB => []
      end
  end.

Lemma asked_only (asks : bool -> N -> request -> Prop) pol c es : forall s w,
  Forall (fun p => asks (fst (fst p)) (snd (fst p)) (snd p)) (asked_by pol c s w es) ->
  asks_only on_request on_shutdown asks pol c s w es.
Proof.
  induction es as [|e es IH]; intros s w H es1 e' es2 s1 w1 o1 s2 w2 o2 Ee E1 E2 x r Hi.
  { destruct es1; discriminate Ee. }
  cbn [asked_by] in H. destruct es1 as [|e1 es1].
  - injection Ee as -> ->. cbn in E1. injection E1 as <- <- <-. rewrite E2 in H. apply Forall_app in H. destruct H as [H _].
    rewrite Forall_forall in H. apply (H (negb (of_others c e'), x, r)). apply in_flat_map. exists (OConsult x r).
    split; [exact Hi|left; reflexivity].
  - injection Ee as <- ->. cbn [server_run] in E1.
    destruct (server_step on_request on_shutdown pol s w e) as [[[sa wa] oa]|]; [|discriminate E1]. cbn [obind] in E1.
    destruct (server_run on_request on_shutdown pol sa wa es1) as [[[sb wb] ob]|] eqn:Eb; [|discriminate E1]. cbn [obind] in E1.
    injection E1 as <- <- <-. apply Forall_app in H. destruct H as [_ H].
    exact (IH sa wa H es1 e' es2 sb wb ob s2 w2 o2 eq_refl Eb E2 x r Hi).
Qed.
End Asked.

(** Client 9 writes and reads; client 8 reads in between, and breaks off in the middle of a
    frame. *)
Definition ask (tx : N) (pdu : list N) : list N := frame_bytes tx 5 pdu.
Definition two_readers : list event :=
  [EApi (ApiAdd 5 1); ERun; EAccept 9 (repeat 0 260); EAccept 8 (repeat 0 260);
   EReceive 8 (ask 1 [3; 0; 0; 0; 1]); EReceive 9 (ask 1 [6; 0; 0; 0; 3]); EReceive 8 (ask 2 [3; 0; 0; 0; 1] ++ [0; 3; 0]);
   EReceive 9 (ask 2 [3; 0; 0; 0; 1]); EConnError 8].

(** Client 8 writes. *)
Definition a_writer : list event :=
  [EApi (ApiAdd 5 1); ERun; EAccept 9 (repeat 0 260); EAccept 8 (repeat 0 260);
   EReceive 8 (ask 1 [6; 0; 0; 0; 3]); EReceive 9 (ask 2 [3; 0; 0; 0; 1])].

Definition one_register : db := set_table db_empty Holdings [(0, 7)].

(** Two units, each counting the requests it gets; client 9 talks to unit 5, client 8 to
    unit 6. *)
Definition count_requests (x : N) (n : N) (r : request) : N * expected response * list api :=
  (n + 1, Value (HoldingRegistersRead [(0, n)]), []).
Definition count_on (x : N) (n : N) : N * list api := (n, []).
Definition two_units : list event :=
  [EApi (ApiAdd 5 1); EApi (ApiAdd 6 2); ERun; ERun; EAccept 9 (repeat 0 260); EAccept 8 (repeat 0 260);
   EReceive 8 (frame_bytes 1 6 [3; 0; 0; 0; 1]); EReceive 9 (frame_bytes 1 5 [3; 0; 0; 0; 1]);
   EReceive 8 (frame_bytes 2 6 [3; 0; 0; 0; 1]); EReceive 9 (frame_bytes 2 5 [3; 0; 0; 0; 1])].
