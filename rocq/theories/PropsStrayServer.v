(** Frames that are for nobody, at a server. *)
From Verif Require Import Prelude Ser4 Messages Mbap SpecMbap Server SpecServer SpecChunks SpecStray StrayServer ChunksCases StrayServerCases.

(** ** C124: a server does not notice frames that are for nobody

    A history with and one without whole frames for units that have no session (or with an
    empty or malformed PDU, or not of the Modbus protocol) have the same outputs, and leave
    the sessions and the channel in the same state.  In full, refuted: if copies that do not fit copy
    nothing, an over-long frame that follows is taken for what the frame for nobody said. *)
Theorem C124_nobody_refuted :
  ~ (forall (W : Type) (on_request : N -> W -> request -> W * expected response * list api) (on_shutdown : N -> W -> W * list api), well_typed on_request ->
     forall pol w a c d its items b s0 w0 o0, Forall typed_event (a ++ EReceive c d :: b) -> whole (arrived c [] a) its ->
     server_run on_request on_shutdown pol server_init w a = Ret (s0, w0, o0) -> whole d items -> for_nobody (registry s0) items ->
     exists s t w1 o, server_run on_request on_shutdown pol server_init w (a ++ EReceive c d :: b) = Ret (s, w1, o) /\
       server_run on_request on_shutdown pol server_init w (a ++ b) = Ret (t, w1, o)).
Proof. exact nobody_noticed. Qed.
Print Assumptions C124_nobody_refuted.

(** It holds if copies that do not fit copy what fits, or without over-long frames. *)
Theorem C124_nobody_partial : forall {W : Type} (on_request : N -> W -> request -> W * expected response * list api) (on_shutdown : N -> W -> W * list api),
  forall pol w a c d its items b s0 w0 o0, Forall typed_event (a ++ EReceive c d :: b) ->
  pol = Truncate \/ all_short (a ++ EReceive c d :: b) -> whole (arrived c [] a) its ->
  server_run on_request on_shutdown pol server_init w a = Ret (s0, w0, o0) -> whole d items -> for_nobody (registry s0) items ->
  exists s t w1 o, server_run on_request on_shutdown pol server_init w (a ++ EReceive c d :: b) = Ret (s, w1, o) /\
    server_run on_request on_shutdown pol server_init w (a ++ b) = Ret (t, w1, o) /\ but_parsers s t.
Proof. exact @nobody_unnoticed. Qed.
Print Assumptions C124_nobody_partial.

Example C124_case :
  for_nobody (fun u => if u =? 2 then Some 0 else None) [lost; broken] /\
  outputs AllOrNothing (opened ++ [EReceive 9 (item_bytes lost ++ item_bytes broken); EReceive 9 asked_twice]) = outputs AllOrNothing at_once /\
  outputs AllOrNothing (opened ++ [EReceive 9 (item_bytes lost); EReceive 9 overlong]) = [OSend 9 (map Some (frame_bytes 1 2 [228; 1]))] /\
  outputs AllOrNothing (opened ++ [EReceive 9 overlong]) = [OSend 9 (map Some (frame_bytes 1 2 [128; 1]))].
Proof. exact nobody_case. Qed.
Print Assumptions C124_case.
