(** Specification of the whole system in terms of what is observed. *)
From Verif Require Import Prelude Ser4 Messages Mbap Client Server Database System.
From Verif Require Import SpecPdu SpecMbap SpecClient SpecDb.

(** ** Observations *)
Definition client_outputs (os : list youtput) : list coutput :=
  flat_map (fun o => match o with YC o => [o] | _ => [] end) os.

(** Accesses to the database, in order. *)
Definition db_calls (os : list youtput) : list Database.call :=
  flat_map (fun o => match o with YS (OConsult _ r) => [CRequest r] | YD c _ => [c] | _ => [] end) os.

(** An access to the database: what, with which result, and for which call of the
    client's [send_request]. *)
Record access : Type := {
  x_call : Database.call;
  x_result : result;
  x_by : option nat
}.

(** [log] explains the accesses seen in [os]: each request the database answers
    was sent before by the client, for call [i] of a session. *)
Inductive accesses : list youtput -> list access -> Prop :=
| AC_nil : accesses [] []
| AC_other os log o : accesses os log -> db_calls [o] = [] -> accesses (os ++ [o]) log
| AC_local os log c r : accesses os log ->
    accesses (os ++ [YD c r]) (log ++ [{| x_call := c; x_result := r; x_by := None |}])
| AC_request os log i u r t tx f x v : accesses os log ->
    In (YC (Called i (session_call u r t))) os -> In (YC (Sent i u tx f)) os ->
    accesses (os ++ [YS (OConsult x r)])
      (log ++ [{| x_call := CRequest r; x_result := RResponse v; x_by := Some i |}]).

(** The calls that were executed. *)
Definition executed (log : list access) : list nat :=
  flat_map (fun x => match x_by x with Some i => [i] | None => [] end) log.

(** ** What the environment provides *)

(** The channel is only used through sessions, whose arguments have their types. *)
Definition by_session (a : capi) : Prop :=
  match a with
  | Submit k => exists u r t, u8 u /\ typed_request r /\ k = session_call u r t
  | Shutdown => True
  end.

Definition session_handler {W} (handler : nat -> W -> expected (list N) -> W * list capi) : Prop :=
  forall i w r w' calls, handler i w r = (w', calls) -> Forall by_session calls.

Definition typed_yevent (e : yevent) : Prop :=
  match e with
  | YCall a => by_session a
  | YLocal c => typed_call c
  | YBreak _ buf => good_buf buf
  | _ => True
  end.

(** From the beginning, with a database that is registered for [units]. *)
Definition happens {W} (handler : nat -> W -> expected (list N) -> W * list capi) (pol : copy_policy)
    (units : list N) (d : db) (es : list yevent) (y : system W) (os : list youtput) : Prop :=
  exists buf sbuf w, good_buf buf /\ good_buf sbuf /\ reachable_db d /\ Forall typed_yevent es /\
    session_handler handler /\
    system_run handler pol (system_init units d buf sbuf w) es = Ret (y, os).

(** No answer can be so late that its transaction identifier is in use again. *)
Definition timely (es : list yevent) (os : list youtput) : Prop :=
  (forall t, ~ In (YFire t) es) \/ N.of_nat (List.length (called_ids (client_outputs os))) <= 65536.

(** Nothing is under way on the current connection. *)
Definition nothing_under_way {W} (y : system W) : Prop :=
  y_up y (y_conn y) = [] /\ y_down y (y_conn y) = [].

(** Nothing is left to do before a timer expires. *)
Definition settled {W} (y : system W) : Prop := cc_queue (y_client y) = [] /\ nothing_under_way y.

(** Nobody shuts down the client or the server. *)
Definition kept_open (e : yevent) : Prop := e <> YCall Shutdown /\ e <> YServe ApiShutdown.

(** Also, no connection fails and no timer's action is executed. *)
Definition undisturbed (e : yevent) : Prop :=
  kept_open e /\ (forall t, e <> YFire t) /\ forall msg buf, e <> YBreak msg buf.
