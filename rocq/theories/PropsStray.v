(** Frames that are for nobody. *)
From Verif Require Import Prelude Ser4 Messages Mbap SpecMbap Client SpecClient SpecClientChunks SpecStray StrayFacts ClientChunksCases StrayCases.

(** ** C123: a client does not notice frames that answer nothing

    A history with and one without whole frames that have not the identifiers of the request
    that is waited for (late answers, answers to others) have the same outputs, and leave the
    handlers and the channel in the same state.  In full, refuted: any frame is noticed after
    an answer with an empty PDU, which is only delivered then. *)
Theorem C123_strays_refuted :
  ~ (forall (W : Type) (handler : nat -> W -> expected (list N) -> W * list capi) pol buf w a d its items b s0 w0 o0, good_buf buf ->
     Forall typed_cevent (a ++ CReceive d :: b) -> pol = Truncate -> whole (carrived [] a) its ->
     client_run handler pol (client_init buf) w a = Ret (s0, w0, o0) -> whole d items -> ~ ends_with_empty items [] -> answers_nothing o0 items ->
     exists s t w1 o, client_run handler pol (client_init buf) w (a ++ CReceive d :: b) = Ret (s, w1, o) /\
       client_run handler pol (client_init buf) w (a ++ b) = Ret (t, w1, o)).
Proof. exact strays_noticed. Qed.
Print Assumptions C123_strays_refuted.

Theorem C123_strays_partial : forall pol {W : Type} (handler : nat -> W -> expected (list N) -> W * list capi) buf buf' w a d items b s0 w0 o0,
  good_buf buf -> good_buf buf' -> Forall typed_cevent (a ++ CReceive d :: b) -> pol = Truncate \/ call_short (a ++ CReceive d :: b) ->
  dealt_with (carrived [] a) -> client_run handler pol (client_init buf) w a = Ret (s0, w0, o0) ->
  whole d items -> ~ ends_with_empty items [] -> answers_nothing o0 items ->
  exists s t w1 o, client_run handler pol (client_init buf) w (a ++ CReceive d :: b) = Ret (s, w1, o) /\
    client_run handler pol (client_init buf') w (a ++ b) = Ret (t, w1, o) /\ t = with_parser s (cc_parser t).
Proof. exact @strays_unnoticed. Qed.
Print Assumptions C123_strays_partial.

(** The answer to a request that has timed out arrives while the next is waited for. *)
Example C123_case :
  dealt_with (carrived [] timed_out_once) /\ answers_nothing (observed_of Truncate timed_out_once) [frame 0 7 [1; 1; 3]] /\
  ended Truncate (repeat 0 260) (timed_out_once ++ [CReceive (item_bytes (frame 0 7 [1; 1; 3])); CReceive (item_bytes (frame 1 7 [1; 1; 2]))]) =
    [(0%nat, Error ETimeout); (1%nat, Value [1; 1; 2])] /\
  ended Truncate (repeat 0 260) (timed_out_once ++ [CReceive (item_bytes (frame 1 7 [1; 1; 2]))]) = [(0%nat, Error ETimeout); (1%nat, Value [1; 1; 2])].
Proof. exact late_answer_case. Qed.
Print Assumptions C123_case.
