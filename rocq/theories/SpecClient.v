(** Independent specification of the client channel, in terms of the observable
    outputs of a history and of the bytes received. *)
From Verif Require Import Prelude Ser4 Messages Mbap SpecPdu SpecMbap Client.
From Coq Require Export Sorting.Sorted.

(** ** Observations *)

(** Calls of [send_request], in order. *)
Definition called_ids (os : list coutput) : list nat :=
  flat_map (fun o => match o with Called i _ => [i] | _ => [] end) os.

(** Requests given to the connection, in order. *)
Definition sent_ids (os : list coutput) : list nat :=
  flat_map (fun o => match o with Sent i _ _ _ => [i] | _ => [] end) os.

(** Calls of completion handlers, in order. *)
Definition completed_ids (os : list coutput) : list nat :=
  flat_map (fun o => match o with Completed i _ => [i] | _ => [] end) os.

Definition results (os : list coutput) : list (nat * expected (list N)) :=
  flat_map (fun o => match o with Completed i r => [(i, r)] | _ => [] end) os.

(** C++ types of what the environment provides. *)
Definition typed_cevent (e : cevent) : Prop :=
  match e with CReceive data => bytes data | _ => True end.

(** ** Histories *)
Section Spec.
Context {W : Type}.
Context (handler : nat -> W -> expected (list N) -> W * list capi).

(** [os] is what is observed when the events [es] happen to a new channel. *)
Definition history (pol : copy_policy) (es : list cevent) (s : client) (w : W) (os : list coutput) : Prop :=
  exists buf w0, good_buf buf /\ Forall typed_cevent es /\
    client_run handler pol (client_init buf) w0 es = Ret (s, w, os).

(** Handlers that do not shut the channel down. *)
Definition no_shutdown_handler : Prop :=
  forall i w r w' calls, handler i w r = (w', calls) -> ~ In Shutdown calls.
End Spec.

Definition no_shutdown (es : list cevent) : Prop := ~ In (CApi Shutdown) es.

(** Nothing is left to happen unless the outside world does something. *)
Definition quiescent (s : client) : Prop :=
  cc_queue s = [] /\ cc_armed s = [] /\ cc_expired s = [].

(** The requests of the closures that are posted and have not run yet. *)
Definition qid (t : ctask) : list nat :=
  match t with DoSend i _ => [i] | DoReject i => [i] | DoShutdown => [] end.

Definition qids (q : list ctask) : list nat := flat_map qid q.

(** Events that happen by themselves: posted closures run, timers expire and their
    actions run. *)
Definition spontaneous (e : cevent) : bool :=
  match e with CRun | CExpire _ | CFire _ => true | _ => false end.

(** ** Received frames *)

(** The bytes received since the last connection error. *)
Definition stream (es : list cevent) : list N :=
  fold_left (fun acc e => match e with CReceive d => acc ++ d | CError _ => [] | _ => acc end) es [].

(** Item [it] is one of the items of the stream, and it is completed by [chunk]:
    it ends inside of it, or it is a frame with an empty PDU that was waiting for
    more bytes. *)
Definition arrives (seg chunk : list N) (it : item) : Prop :=
  exists items after, Forall typed_item (items ++ [it]) /\
    seg ++ chunk = flat_map item_bytes items ++ item_bytes it ++ after /\
    (size after < size chunk \/ i_body it = Some [] /\ size after <= size chunk).

(** ** Timers *)

(** A history where a timer's action is executed as soon as the timer expires. *)
Inductive atomic_timers : list cevent -> Prop :=
| atomic_nil : atomic_timers []
| atomic_other e es :
    (forall t, e <> CExpire t) -> (forall t, e <> CFire t) -> atomic_timers es -> atomic_timers (e :: es)
| atomic_expiry t es : atomic_timers es -> atomic_timers (CExpire t :: CFire t :: es).

(** ** After shutdown *)

(** All that may still be observed: calls, and the rejection of invalid requests
    that were submitted before. *)
Definition quiet (o : coutput) : Prop :=
  match o with
  | Called _ _ => True
  | Completed _ r => r = Error EMalformedRequest
  | TcpShutdown => True
  | Sent _ _ _ _ | Armed _ _ _ => False
  end.

(** ** Transaction identifiers *)

(** How many valid requests were handed to [send_request] before call [i]. *)
Definition valid_before (os : list coutput) (i : nat) : nat :=
  List.length (filter (fun o => match o with Called j k => Nat.ltb j i && im_valid (k_msg k) | _ => false end) os).
