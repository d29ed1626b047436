(** Independent specification of client sessions, over the outputs of a history. *)
From Verif Require Import Prelude Ser4 Messages Mbap SpecPdu SpecMbap Client SpecClient Scheduled SpecScheduled SessionCall Session.

(** ** Observations *)

(** What the channel shows. *)
Definition of_channel (os : list koutput) : list coutput :=
  flat_map (fun o => match o with Channel c => [c] | _ => [] end) os.

(** What scheduled request [j] shows. *)
Definition of_poll (j : nat) (os : list koutput) : list (soutput (expected response)) :=
  flat_map (fun o => match o with Polled j' p => if Nat.eqb j' j then [p] else [] | _ => [] end) os.

(** Sessions, scheduled requests and one-time requests, in order of creation. *)
Definition opened_ids (os : list koutput) : list nat :=
  flat_map (fun o => match o with Opened x _ _ => [x] | _ => [] end) os.
Definition scheduled_ids (os : list koutput) : list nat :=
  flat_map (fun o => match o with Scheduled j _ _ _ _ => [j] | _ => [] end) os.
Definition issued_ids (os : list koutput) : list nat :=
  flat_map (fun o => match o with Issued i _ _ _ => [i] | _ => [] end) os.
Definition answered_ids (os : list koutput) : list nat :=
  flat_map (fun o => match o with Answered i _ => [i] | _ => [] end) os.

(** The timeout of a request of a session with default timeout [d]. *)
Definition timeout_or (t : option N) (d : N) : N := match t with Some t => t | None => d end.

(** ** Histories *)

(** What the users' handlers do: they have a state, and call the API. *)
Notation users W := (source -> W -> expected response -> W * list kapi).

Definition typed_kevent (e : kevent) : Prop :=
  match e with KChannel e => typed_cevent e | _ => True end.

Section Spec.
Context {W : Type}.
Context (user : source -> W -> expected response -> W * list kapi).

(** [os] is what is observed when the events [es] happen to a new channel. *)
Definition stack_history (pol : copy_policy) (es : list kevent) (k : stack W) (os : list koutput) : Prop :=
  exists buf w0, good_buf buf /\ Forall typed_kevent es /\ stack_run user pol (stack_init buf w0) es = Ret (k, os).
End Spec.

(** Nothing is left to happen unless the outside world does something: no closure is
    posted, no timer is started, and no action of a timer waits for its execution. *)
Definition resting {W : Type} (k : stack W) : Prop :=
  quiescent (st_channel k) /\ ks_queue (st_rest k) = [] /\
  Forall (fun p => sr_armed (po_sched p) = [] /\ sr_expired (po_sched p) = []) (ks_polls (st_rest k)).

(** ** What handlers are told *)

(** The answer [v] to request [r] that the response PDU [d] means. *)
Definition decodes (r : request) (d : list N) (v : expected response) : Prop :=
  match v with
  | Value resp => answers_shape r resp /\ typed_response resp /\ response_pdu_lenient_count resp d
  | Error (EModbus t) => exists code, exception_pdu (spec_function_code r) code d /\ code_means code t
  | Error EMalformedResponse =>
      (forall resp, answers_shape r resp -> typed_response resp -> ~ response_pdu_lenient_count resp d) /\
      (forall code, ~ exception_pdu (spec_function_code r) code d)
  | _ => False
  end.

(** The answer [v] to request [r] when the channel reports [y]. *)
Definition told (r : request) (y : expected (list N)) (v : expected response) : Prop :=
  match y with
  | Value d => decodes r d v
  | Error e => v = Error e
  end.

(** Call [k] of the channel is for request [r] of a session with unit [u] and default
    timeout [d], and has timeout [t] or the default. *)
Definition call_for (k : call) (u d : N) (r : request) (t : option N) : Prop :=
  k_unit k = u /\ k_msg k = request_message r /\ k_timeout k = timeout_or t d.

(** [e] is an event of the channel that is no API call. *)
Definition not_api (e : cevent) : bool := match e with CApi _ => false | _ => true end.

(** The events of a channel among those of a stack. *)
Definition channel_only (es : list kevent) : list cevent :=
  flat_map (fun e => match e with KChannel e => if not_api e then [e] else [] | _ => [] end) es.

(** ** What handlers do *)

(** The calls of users' handlers that are seen, and with what. *)
Definition tellings (os : list koutput) : list (source * expected response) :=
  flat_map (fun o => match o with Answered i v => [(Once i, v)] | Polled j (Response n v) => [(Polling j n, v)] | _ => [] end) os.

(** The API calls that are seen. *)
Definition asked (os : list koutput) : list kapi :=
  flat_map (fun o => match o with Asked a => [a] | _ => [] end) os.

(** What the handlers do when they are called in turn: their state at the end, and the
    API calls they make. *)
Fixpoint handlers_do {W : Type} (user : source -> W -> expected response -> W * list kapi) (w : W) (l : list (source * expected response)) : W * list kapi :=
  match l with
  | [] => (w, [])
  | (s, v) :: l' =>
      let '(w, c) := user s w v in
      let '(w, c') := handlers_do user w l' in
      (w, c ++ c')
  end.

(** The connection is shut down. *)
Definition shuts_down (os : list koutput) : bool :=
  existsb (fun o => match o with Channel TcpShutdown => true | _ => false end) os.

(** ** What calls of the methods of scheduled requests are meant to do *)

(** Whether scheduled request [j] is to run, and how often, after what is seen: it is
    started when it is created, and then what its methods are called for, in turn. *)
Definition meant_step (j : nat) (x : bool * N) (o : koutput) : bool * N :=
  match o with
  | Scheduled j' _ _ _ f => if Nat.eqb j' j then (true, f) else x
  | Asked (OnSchedule j' a) =>
      if Nat.eqb j' j
      then match a with Start => (true, snd x) | Stop => (false, snd x) | SetFrequency f => (fst x, f) end
      else x
  | _ => x
  end.
Definition meant (j : nat) (os : list koutput) : bool * N := fold_left (meant_step j) os (false, 0).
