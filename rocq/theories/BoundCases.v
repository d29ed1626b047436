(** Sessions and histories that reach the bounds. *)
From Verif Require Import Prelude Ser4 Messages Mbap SpecPdu SpecMbap Server SpecServer ServerLemmas SpecBound.

(** A session that answers exactly what it is asked. *)
Definition honest (x : N) (w : nat) (r : request) : nat * expected response * list api :=
  (S w, match r with
        | ReadHoldingRegisters _ q => Value (HoldingRegistersRead (repeat (0, 7) (N.to_nat q)))
        | _ => Error (EModbus IllegalFunction)
        end, []).

Lemma honest_typed : well_typed honest.
Proof.
  intros x w r w' resp calls E. unfold honest in E. destruct r; try discriminate.
  injection E as <- <- <-. split; [|reflexivity]. cbn [typed_response].
  split; apply Forall_forall; intros y Hy; apply in_map_iff in Hy; destruct Hy as (z & <- & Hz);
    apply repeat_spec in Hz; subst z; vm_compute; reflexivity.
Qed.

Lemma honest_in_kind : answers_in_kind honest.
Proof.
  intros x w r w' resp calls E. unfold honest in E. destruct r; try discriminate.
  injection E as <- <- <-. cbn [in_kind]. unfold size. rewrite repeat_length. apply N2Nat.id.
Qed.

Definition asked_once (n : N) : list event :=
  [EApi (ApiAdd 5 1); ERun; EAccept 9 (repeat 0 260); EReceive 9 (frame_bytes 1 5 [3; 0; 0; 0; n])].

Lemma asked_once_typed n : n < 256 -> Forall typed_event (asked_once n).
Proof.
  intros H. unfold asked_once. repeat constructor; cbn; unfold u8; try lia.
Qed.

(** An exception costs the client eight bytes. *)
Definition short_request : list event :=
  [EApi (ApiAdd 5 1); ERun; EAccept 9 (repeat 0 260); EReceive 9 (frame_bytes 1 5 [99])].
