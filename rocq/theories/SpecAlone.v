(** Independent specification of what a client of a server notices of the others. *)
From Verif Require Import Prelude Ser4 Messages Mbap Server SpecServer.

(** What happens on other connections than [c]. *)
Definition of_others (c : N) (e : event) : bool :=
  match e with
  | EAccept c' _ | EReceive c' _ | EConnError c' => negb (c' =? c)
  | EApi _ | ERun => false
  end.

(** The history without the other connections. *)
Definition alone (c : N) (es : list event) : list event := filter (fun e => negb (of_others c e)) es.

(** Requests that only read. *)
Definition reading (r : request) : bool :=
  match r with
  | ReadCoils _ _ | ReadDiscreteInputs _ _ | ReadHoldingRegisters _ _ | ReadInputRegisters _ _ => true
  | WriteSingleCoil _ _ | WriteSingleRegister _ _ | WriteMultipleCoils _ _ | WriteMultipleRegisters _ _ => false
  end.

Section Spec.
Context {W : Type}.
Context (on_request : N -> W -> request -> W * expected response * list api).
Context (on_shutdown : N -> W -> W * list api).

(** A request that leaves the sessions as they are, and of which the channel hears
    nothing but the answer. *)
Definition harmless (x : N) (r : request) : Prop := forall w, exists a, on_request x w r = (w, a, []).

(** [asks own x r]: what the client on [c] ([own]) or the others may ask.  In history
    [es] nobody asks anything else. *)
Definition asks_only (asks : bool -> N -> request -> Prop) (pol : copy_policy) (c : N) (s : server) (w : W) (es : list event) : Prop :=
  forall es1 e es2 s1 w1 o1 s2 w2 o2, es = es1 ++ e :: es2 ->
    server_run on_request on_shutdown pol s w es1 = Ret (s1, w1, o1) ->
    server_step on_request on_shutdown pol s1 w1 e = Ret (s2, w2, o2) ->
    forall x r, In (OConsult x r) o2 -> asks (negb (of_others c e)) x r.

(** What sessions are asked by other connections is harmless. *)
Definition undisturbed : copy_policy -> N -> server -> W -> list event -> Prop :=
  asks_only (fun own x r => own = true \/ harmless x r).
End Spec.

(** ** Sessions that have nothing to do with each other: each has a state of its own. *)
Section Separate.
Context {S : Type}.
Context (handle : N -> S -> request -> S * expected response * list api).
Context (stop : N -> S -> S * list api).

Definition update (w : N -> S) (x : N) (s : S) : N -> S := fun y => if y =? x then s else w y.

Definition separately (x : N) (w : N -> S) (r : request) : (N -> S) * expected response * list api :=
  let '(s, a, calls) := handle x (w x) r in (update w x s, a, calls).

Definition stop_separately (x : N) (w : N -> S) : (N -> S) * list api :=
  let '(s, calls) := stop x (w x) in (update w x s, calls).

(** Sessions that do not call the channel. *)
Definition calls_nothing (x : N) : Prop :=
  (forall s r, snd (handle x s r) = []) /\ forall s, snd (stop x s) = [].
End Separate.
