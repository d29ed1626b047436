(** Independent specification of the TCP connections, in terms of what they do to
    their listener and to the transport. *)
From Verif Require Import Prelude Ser4 Mbap SpecPdu SpecMbap AsyncWrite ClientConn ServerConn.

(** ** Histories *)

(** [P] holds at every event of the history. *)
Fixpoint always (P : cconn -> nevent -> Prop) (s : cconn) (es : list nevent) : Prop :=
  match es with
  | [] => True
  | e :: es' => P s e /\ forall s' o, conn_step s e = Ret (s', o) -> always P s' es'
  end.

Fixpoint valways (P : sconn -> vevent -> Prop) (s : sconn) (es : list vevent) : Prop :=
  match es with
  | [] => True
  | e :: es' => P s e /\ forall s' o, vconn_step s e = Ret (s', o) -> valways P s' es'
  end.

(** A new connection is set up only after the reads of the old one have completed. *)
Definition reads_settled (s : cconn) (e : nevent) : Prop :=
  match e with
  | NSend _ _ => cn_status s = NotConnected -> cn_reads s = []
  | NResolved _ | NConnected _ _ => cn_reads s = []
  | _ => True
  end.

(** A frame is sent only after the writes of earlier frames have completed. *)
Definition writes_settled (s : cconn) (e : nevent) : Prop :=
  match e with
  | NSend _ _ | NConnected _ true => wr_ops (cn_writer s) = []
  | _ => True
  end.

Definition vwrites_settled (s : sconn) (e : vevent) : Prop :=
  match e with
  | VSend _ | VStart => wr_ops (vn_writer s) = []
  | _ => True
  end.

(** The transport always takes the whole buffer. *)
Definition takes_all (c : writer) (w n : nat) : Prop :=
  forall o, find_op (wr_ops c) w = Some o -> n = List.length (snd (w_buf o)).

Definition whole_transfers (s : cconn) (e : nevent) : Prop :=
  match e with NTransfer w n => takes_all (cn_writer s) w n | _ => True end.

Definition vwhole_transfers (s : sconn) (e : vevent) : Prop :=
  match e with VTransfer w n => takes_all (vn_writer s) w n | _ => True end.

(** All system calls succeed. *)
Definition setup_ok : setup := {| su_address := true; su_open := true; su_bind := true |}.

Definition is_send (e : nevent) : bool := match e with NSend _ _ => true | _ => false end.
Definition good_setup (e : nevent) : Prop := match e with NSend _ x => x = setup_ok | _ => True end.

Definition runs (es : list nevent) : nat :=
  List.length (filter (fun e => match e with NRun => true | _ => false end) es).
Definition vruns (es : list vevent) : nat :=
  List.length (filter (fun e => match e with VRun => true | _ => false end) es).

(** ** Observations *)

Definition count (p : noutput -> bool) (os : list noutput) : nat := List.length (filter p os).
Definition is_failed (o : noutput) : bool := match o with Failed => true | _ => false end.
Definition is_attempt (o : noutput) : bool := match o with Attempt => true | _ => false end.
Definition is_write_failure (o : noutput) : bool := match o with Write (WFailed _) => true | _ => false end.

Definition vcount (p : voutput -> bool) (os : list voutput) : nat := List.length (filter p os).
Definition is_heard (o : voutput) : bool := match o with VReceived _ | VFailed => true | _ => false end.
Definition is_wfailed (o : voutput) : bool := match o with VWrite (WFailed _) => true | _ => false end.

(** What the channel's parser is made to do (ClientChannelTcp.cpp:114-138). *)
Definition parser_ops (os : list noutput) : list mbap_op :=
  flat_map (fun o => match o with Received _ d => [Chunk d] | Failed => [Reset] | _ => [] end) os.

(** The data received. *)
Definition received_data (os : list noutput) : list (list N) :=
  flat_map (fun o => match o with Received _ d => [d] | _ => [] end) os.

(** The operations of the writer, client and server side. *)
Definition writes (os : list noutput) : list woutput :=
  flat_map (fun o => match o with Write w => [w] | _ => [] end) os.
Definition vwrites (os : list voutput) : list woutput :=
  flat_map (fun o => match o with VWrite w => [w] | _ => [] end) os.

(** Data is neither sent nor taken by the transport, and nothing is closed. *)
Definition no_traffic (o : voutput) : Prop :=
  match o with VWrite (WStarted _ _) | VWrite (WTook _ _) | VSocketClosed => False | _ => True end.

(** Frames given to the transport, and the bytes it took. *)
Definition started (os : list woutput) : list (nat * list N) :=
  flat_map (fun o => match o with WStarted w d => [(w, d)] | _ => [] end) os.
Definition took (os : list woutput) : list (nat * list N) :=
  flat_map (fun o => match o with WTook w d => [(w, d)] | _ => [] end) os.

(** Sends that complete do so after some bytes of their frame were taken; the
    bytes are taken from the front of the frame, and once. *)
Definition sound_writes (os : list woutput) : Prop :=
  (forall a w b, os = a ++ WDone w :: b ->
     exists d x y, In (w, d) (started a) /\ In (w, x) (took a) /\ d = x ++ y /\ x <> []) /\
  (forall w x, In (w, x) (took os) -> exists d y, In (w, d) (started os) /\ d = x ++ y) /\
  NoDup (map fst (started os)) /\ NoDup (map fst (took os)).

(** Sends that complete do so after the whole frame was taken. *)
Definition complete_writes (os : list woutput) : Prop :=
  forall a w b, os = a ++ WDone w :: b -> exists d, In (w, d) (started a) /\ In (w, d) (took a).
