(** Specification of the whole, from the sessions of the client to the database, in
    terms of what is observed. *)
From Verif Require Import Prelude Ser4 Messages Mbap Client Server Database System.
From Verif Require Import AsyncWrite ClientConn ClientTcp Listener ServerConn ServerTcp World.
From Verif Require Import Scheduled SessionCall Session Full.
From Verif Require Import SpecPdu SpecMbap SpecClient SpecServer SpecDb SpecConn SpecClientTcp SpecServerTcp SpecSystem SpecSession SpecWorld.

(** ** Views of a history *)

(** What happens below the sessions. *)
Definition world_marks (l : list fmark) : list wmark := flat_map (fun m => match m with FW m => [m] | FK _ => [] end) l.

(** What is observed at the sessions and their channel. *)
Definition session_outputs (l : list fmark) : list koutput :=
  flat_map (fun m => match m with FK o => [o] | FW (WC (ChannelOut o)) => [Channel o] | FW _ => [] end) l.

(** The events of the sessions among those of a stack, or of the whole. *)
Definition stack_only (es : list kevent) : list kevent :=
  filter (fun e => match e with KChannel _ => false | _ => true end) es.
Definition session_only (es : list fevent) : list kevent :=
  flat_map (fun e => match e with
                     | FApi a => [KApi a]
                     | FRun => [KRun]
                     | FExpire j t => [KExpire j t]
                     | FFire j t => [KFire j t]
                     | FWorld _ => []
                     end) es.

(** ** What the environment provides *)

(** The arguments have their C++ types. *)
Definition typed_kapi (a : kapi) : Prop :=
  match a with
  | Open u _ => u8 u
  | Send _ r _ | Schedule _ r _ _ => typed_request r
  | _ => True
  end.
Definition typed_user {W : Type} (user : users W) : Prop :=
  forall s w v w' calls, user s w v = (w', calls) -> Forall typed_kapi calls.
Definition typed_fevent (e : fevent) : Prop :=
  match e with FApi a => typed_kapi a | FWorld e => typed_wevent e | _ => True end.

Section Spec.
Context {W : Type}.
Context (user : users W).
Context (pol : copy_policy).

(** From the beginning, with a database that is registered for [units]. *)
Definition full_history (units : list N) (d : db) (w0 : world (sessions W)) (es : list fevent) (w : world (sessions W)) (l : list fmark) : Prop :=
  (exists max buf u, good_buf buf /\ w0 = full_init units max d buf u) /\
  reachable_db d /\ Forall typed_fevent es /\ typed_user user /\ full_run user pol w0 es = Ret (w, l).

(** [P] holds at every event that is not one of the sessions. *)
Fixpoint falways (P : world (sessions W) -> wevent -> Prop) (w : world (sessions W)) (es : list fevent) : Prop :=
  match es with
  | [] => True
  | e :: es' => match e with FWorld e => P w e | _ => True end /\
      forall w' l, full_step user pol w e = Ret (w', l) -> falways P w' es'
  end.

(** As in a history without sessions. *)
Definition forderly (w : world (sessions W)) (es : list fevent) (l : list fmark) : Prop :=
  falways whole_frames w es /\ falways one_attempt w es /\
  in_turn None (conn_outs (client_marks (world_marks l))) /\
  forall g c buf, In (FWorld (WAccept g c buf)) es -> ends_at_failure (peer_outs c (server_marks (world_marks l))).
End Spec.

(** The state of the sessions and their channel. *)
Definition stack_of {W : Type} (w : world (sessions W)) : stack W := {| st_channel := tc_channel (wd_client w); st_rest := wd_user w |}.

(** The same, except for what the handlers know. *)
Definition same_world {A B : Type} (w : world A) (w' : world B) : Prop := w' = with_wd_user w (wd_user w').

(** ** What users are told *)

(** Call [i] of the channel is for request [r], whose answer is given to [s]. *)
Definition request_of (l : list fmark) (s : source) (i : nat) (r : request) : Prop :=
  match s with
  | Once i' => i' = i /\ exists x t, In (FK (Issued i x r t)) l
  | Polling j n => In (FK (Repeated i j n)) l /\ exists x t f, In (FK (Scheduled j x r t f)) l
  end.

(** [v] is what the database answered to request [r], made for call [i], as one of its
    first [m] accesses. *)
Definition from_database (log : list access) (m i : nat) (r : request) (v : expected response) : Prop :=
  exists n, (n < m)%nat /\ nth_error log n = Some {| x_call := CRequest r; x_result := RResponse v; x_by := Some i |}.

(** An invalid request is reported as such; a valid one is answered by the database,
    unless its timeout expired or the connection failed. *)
Definition outcome_of (es : list fevent) (l : list fmark) (log : list access) (m i : nat) (r : request) (v : expected response) : Prop :=
  (~ legal_request r /\ v = Error EMalformedRequest) \/
  (legal_request r /\
    (from_database log m i r v \/
     (v = Error ETimeout /\ exists t xs, In (FWorld (WClient (TFire t xs))) es) \/
     ((exists msg, v = Error (EConnection msg)) /\ In Failed (conn_outs (client_marks (world_marks l)))))).

(** Every session is for one of [units]. *)
Definition sessions_only (units : list N) (l : list fmark) : Prop := forall x u t, In (FK (Opened x u t)) l -> In u units.

(** Every request of a session, scheduled or not, is answered. *)
Definition each_answered (l : list fmark) : Prop :=
  (forall i x r t, In (FK (Issued i x r t)) l -> exists v, In (FK (Answered i v)) l) /\
  (forall i j n, In (FK (Repeated i j n)) l -> exists v, In (FK (Polled j (Response n v))) l).
