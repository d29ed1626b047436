(** In which pieces the bytes arrive at a client. *)
From Verif Require Import Prelude Ser4 Messages Mbap SpecMbap Client SpecClient SpecServer SpecChunks SpecClientChunks ClientChunksFacts ClientCases ClientChunksCases.

(** ** C122: a client does not notice in which pieces the bytes arrive

    Histories that differ in how received bytes are cut into pieces, and in what the memory
    of the channel held, have the same outputs in the same order and leave the handlers and
    the channel in the same state.  In full, refuted: over-long frames can tell, if copies
    that do not fit copy nothing. *)
Theorem C122_pieces_refuted :
  ~ (forall (W : Type) (handler : nat -> W -> expected (list N) -> W * list capi) pol buf buf' w es es', good_buf buf -> good_buf buf' ->
     crechunked es es' -> Forall typed_cevent es -> Forall typed_cevent es' ->
     exists s t w1 o, client_run handler pol (client_init buf) w es = Ret (s, w1, o) /\ client_run handler pol (client_init buf') w es' = Ret (t, w1, o)).
Proof. exact client_pieces_noticed. Qed.
Print Assumptions C122_pieces_refuted.

(** It holds if copies that do not fit copy what fits, or without over-long frames. *)
Theorem C122_pieces_partial : forall {W : Type} (handler : nat -> W -> expected (list N) -> W * list capi) pol buf buf' w es es',
  good_buf buf -> good_buf buf' -> crechunked es es' -> Forall typed_cevent es -> Forall typed_cevent es' -> pol = Truncate \/ call_short es ->
  exists s t w1 o, client_run handler pol (client_init buf) w es = Ret (s, w1, o) /\ client_run handler pol (client_init buf') w es' = Ret (t, w1, o) /\
    t = with_parser s (cc_parser t).
Proof. exact @client_pieces_unnoticed. Qed.
Print Assumptions C122_pieces_partial.

Example C122_case :
  crechunked (waiting ++ [CReceive (answer 0)]) (waiting ++ map (fun x => CReceive [x]) (answer 0)) /\
  ended AllOrNothing (repeat 0 260) (waiting ++ [CReceive (answer 0)]) = [(0%nat, Value [1; 1; 3])] /\
  ended AllOrNothing (repeat 255 260) (waiting ++ map (fun x => CReceive [x]) (answer 0)) = [(0%nat, Value [1; 1; 3])].
Proof. exact client_bytewise. Qed.
Print Assumptions C122_case.

(** Bytes with which no frame ends are not noticed when they arrive: refuted, they are after
    a frame with an empty PDU, which is only delivered then. *)
Theorem C122_postponed_refuted :
  ~ (forall (W : Type) (handler : nat -> W -> expected (list N) -> W * list capi) pol buf w a d e b, good_buf buf -> Forall typed_cevent (a ++ CReceive d :: e :: b) ->
     match e with CReceive _ | CError _ => False | _ => True end -> completes_nothing (carrived [] a) d -> pol = Truncate ->
     exists s t w1 o, client_run handler pol (client_init buf) w (a ++ CReceive d :: e :: b) = Ret (s, w1, o) /\
       client_run handler pol (client_init buf) w (a ++ e :: CReceive d :: b) = Ret (t, w1, o)).
Proof. exact client_postponed_noticed. Qed.
Print Assumptions C122_postponed_refuted.

(** Otherwise they may as well arrive after what the channel does next. *)
Theorem C122_postponed_partial : forall {W : Type} (handler : nat -> W -> expected (list N) -> W * list capi) pol buf buf' w a d e b,
  good_buf buf -> good_buf buf' -> Forall typed_cevent (a ++ CReceive d :: e :: b) ->
  match e with CReceive _ | CError _ => False | _ => True end -> changes_nothing (carrived [] a) d -> pol = Truncate \/ call_short (a ++ CReceive d :: e :: b) ->
  exists s t w1 o, client_run handler pol (client_init buf) w (a ++ CReceive d :: e :: b) = Ret (s, w1, o) /\
    client_run handler pol (client_init buf') w (a ++ e :: CReceive d :: b) = Ret (t, w1, o) /\ t = with_parser s (cc_parser t).
Proof. exact @client_postponed_unnoticed. Qed.
Print Assumptions C122_postponed_partial.

Example C122_postponed_case :
  ended Truncate (repeat 0 260) (answered_empty ++ [CReceive [0]; CFire 0]) = [(0%nat, Value [])] /\
  ended Truncate (repeat 0 260) (answered_empty ++ [CFire 0; CReceive [0]]) = [(0%nat, Error ETimeout)].
Proof. exact noticed_case. Qed.
Print Assumptions C122_postponed_case.
