(** Independent specification of the example server. *)
From Verif Require Import Prelude Ser4 Messages Mbap SpecPdu SpecMbap Server SpecServer Database SpecDb ExampleServer.

(** What the database holds when the server starts. *)
Definition initial_values : tables := fun t a =>
  if a <? 100 then
    Some (match t return val t with
          | Coils | Discretes => N.odd a
          | Holdings | Inputs => a
          end)
  else None.

(** Each table has the addresses 0 to 99. *)
Definition hundred (F : tables) : Prop := forall t a, F t a <> None <-> a < 100.

(** Unit 1 is served by session 1, unit 2 by session 2. *)
Definition example_units (u : N) : option N :=
  if u =? 1 then Some 1 else if u =? 2 then Some 2 else None.

(** How they answer. *)
Inductive example_answers (F : tables) : N -> request -> tables -> expected response -> Prop :=
| custom_coils s q F' :
    unchanged F F' -> example_answers F 1 (ReadCoils s q) F' (Value (CoilsRead [(16, true)]))
| custom_other r F' :
    unchanged F F' -> spec_function_code r <> 1 -> example_answers F 1 r F' (Error (EModbus IllegalFunction))
| database r F' v :
    request_spec F r F' v -> example_answers F 2 r F' v.

(** A frame [m] on connection [c] causes the outputs. *)
Inductive example_serves (F : tables) (c : N) (m : mbap_message) : tables -> list output -> Prop :=
| example_silent F' :
    decision example_units (mb_unit m) (mb_data m) Silent -> unchanged F F' -> example_serves F c m F' []
| example_refuse fc rest t F' :
    decision example_units (mb_unit m) (mb_data m) (Refuse t) -> mb_data m = fc :: rest -> unchanged F F' ->
    example_serves F c m F' [OSend c (exception_view (mb_tx m) (mb_unit m) fc t)]
| example_ask x r F' v os :
    decision example_units (mb_unit m) (mb_data m) (Ask x r) -> example_answers F x r F' v ->
    reply c (mb_tx m) (mb_unit m) (spec_function_code r) v os ->
    example_serves F c m F' (OConsult x r :: os).

Inductive example_serves_all (c : N) : tables -> list mbap_message -> tables -> list output -> Prop :=
| example_none F F' : unchanged F F' -> example_serves_all c F [] F' []
| example_more F m F1 ms F2 os os' :
    example_serves F c m F1 os -> example_serves_all c F1 ms F2 os' ->
    example_serves_all c F (m :: ms) F2 (os ++ os').

(** Coil 0 is negated and nothing else changes. *)
Definition flipped (F F' : tables) : Prop :=
  exists b, F Coils 0 = Some b /\ only_writes F Coils 0 [negb b] F'.

(** C++ types; the input does not end. *)
Definition typed_xevent (e : xevent) : Prop :=
  match e with
  | XServer e => typed_event e
  | XCommand c => u8 c
  | XEnd => False
  end.

Definition example_history (pol : copy_policy) (es : list xevent) (x : example) (os : list output) : Prop :=
  exists x0, example_init = Ret x0 /\ Forall typed_xevent es /\ example_run pol x0 es = Ret (x, os).

Definition is_task (e : xevent) : bool := match e with XServer ERun => true | _ => false end.
Definition is_quit (e : xevent) : bool := match e with XCommand c => c =? 113 | _ => false end.
Definition is_flip (e : xevent) : bool := match e with XCommand c => c =? 102 | _ => false end.

(** ** What happens while the server runs *)
Inductive happening : Type :=
| Flip                                                   (* the command 'f' *)
| Serve (c : N) (m : mbap_message) (os : list output).   (* a frame is served *)

Inductive example_trace : tables -> list happening -> tables -> Prop :=
| trace_end F F' : unchanged F F' -> example_trace F [] F'
| trace_flip F F1 hs F' : flipped F F1 -> example_trace F1 hs F' -> example_trace F (Flip :: hs) F'
| trace_serve F c m os F1 hs F' :
    example_serves F c m F1 os -> example_trace F1 hs F' -> example_trace F (Serve c m os :: hs) F'.

Definition happening_outputs (h : happening) : list output :=
  match h with Flip => [] | Serve _ _ os => os end.

Definition flips (hs : list happening) : nat :=
  List.length (filter (fun h => match h with Flip => true | _ => false end) hs).

(** The frames of connection [c]. *)
Definition frames_of (c : N) (hs : list happening) : list mbap_message :=
  flat_map (fun h => match h with Serve c' m _ => if c' =? c then [m] else [] | _ => [] end) hs.

(** The events of the channel. *)
Definition channel_events (es : list xevent) : list event :=
  flat_map (fun e => match e with XServer e => [e] | _ => [] end) es.

(** Data is received on connection [c]. *)
Definition receives (c : N) (chunks : list (list N)) : list xevent := map (fun d => XServer (EReceive c d)) chunks.
