(** Independent specification of a server channel over its acceptor and connections. *)
From Verif Require Import Prelude Ser4 Messages Mbap SpecPdu SpecMbap Server SpecServer Listener SpecListener AsyncWrite ServerConn SpecConn ServerTcp.

(** ** Views of a history *)

Definition task_ins (m : list smark) : list event := flat_map (fun x => match x with TaskIn e => [e] | _ => [] end) m.
Definition task_outs (m : list smark) : list output := flat_map (fun x => match x with TaskOut o => [o] | _ => [] end) m.
Definition listen_ins (m : list smark) : list aevent := flat_map (fun x => match x with ListenIn e => [e] | _ => [] end) m.
Definition listen_outs (m : list smark) : list aoutput := flat_map (fun x => match x with ListenOut o => [o] | _ => [] end) m.
Definition peer_ins (c : nat) (m : list smark) : list vevent :=
  flat_map (fun x => match x with PeerIn d e => if Nat.eqb d c then [e] else [] | _ => [] end) m.
Definition peer_outs (c : nat) (m : list smark) : list voutput :=
  flat_map (fun x => match x with PeerOut d o => if Nat.eqb d c then [o] else [] | _ => [] end) m.

(** ** How the parts are connected *)

Definition times {A : Type} (p : A -> bool) (l : list A) : nat := List.length (filter p l).

(** The data given to a connection to send, and what it tells its listener. *)
Definition sent_to (es : list vevent) : list (list N) := flat_map (fun e => match e with VSend d => [d] | _ => [] end) es.
Definition heard (os : list voutput) : list mbap_op :=
  flat_map (fun o => match o with VReceived d => [Chunk d] | VFailed => [Reset] | _ => [] end) os.

(** The channel's calls of [IServer]. *)
Definition acceptor_calls (os : list output) : list aevent :=
  flat_map (fun o => match o with OListen => [AStart] | OStopListening => [AShutdown] | _ => [] end) os.
Definition is_call (e : aevent) : bool := match e with AStart | AShutdown => true | _ => false end.

Definition is_afail (c : nat) (e : aevent) : bool := match e with AFail d => Nat.eqb d c | _ => false end.
Definition is_serving (c : nat) (o : aoutput) : bool := match o with Serving d => Nat.eqb d c | _ => false end.
Definition is_closed (c : nat) (o : aoutput) : bool := match o with Closed d => Nat.eqb d c | _ => false end.
Definition is_vstart (e : vevent) : bool := match e with VStart => true | _ => false end.
Definition is_vfailed (o : voutput) : bool := match o with VFailed => true | _ => false end.
Definition is_vclosed (o : voutput) : bool := match o with VSocketClosed => true | _ => false end.

(** The acceptor is started and shut down as the channel asks.  Connection [c] sends
    the channel's responses for [c], the channel hears what [c] receives, and of its
    failures, of which the acceptor is told too; the connections that start are those
    accepted, the sockets that are closed those of which the acceptor knows. *)
Definition wired (m : list smark) : Prop :=
  filter is_call (listen_ins m) = acceptor_calls (task_outs m) /\
  forall c,
    sent_to (peer_ins c m) = map response_data (sends_on (N.of_nat c) (task_outs m)) /\
    heard (peer_outs c m) = ops_on (N.of_nat c) (task_ins m) /\
    times is_vfailed (peer_outs c m) = times (is_afail c) (listen_ins m) /\
    times (is_serving c) (listen_outs m) = times (accepts (N.of_nat c)) (task_ins m) /\
    times (is_serving c) (listen_outs m) = times is_vstart (peer_ins c m) /\
    times (is_closed c) (listen_outs m) = times is_vclosed (peer_outs c m).

(** ** Histories *)

(** C++ types of what the environment provides. *)
Definition typed_uevent (e : uevent) : Prop :=
  match e with
  | UApi (ApiAdd u _) => u8 u
  | UAccept _ _ buf => good_buf buf
  | URead _ _ (RData d) => bytes d
  | _ => True
  end.

Section Spec.
Context {W : Type}.
Context (on_request : N -> W -> request -> W * expected response * list api).
Context (on_shutdown : N -> W -> W * list api).

(** [m] is what happens when the events [es] happen to a new server for at most [max] connections. *)
Definition server_history (pol : copy_policy) (max : N) (w0 : W) (es : list uevent) (s : tserver W) (m : list smark) : Prop :=
  Forall typed_uevent es /\ userver_run on_request on_shutdown pol (tserver_init max w0) es = Ret (s, m).

(** No session calls [start] on the channel. *)
Definition sessions_do_not_start : Prop :=
  (forall x w r w' a calls, on_request x w r = (w', a, calls) -> ~ In ApiStart calls) /\
  (forall x w w' calls, on_shutdown x w = (w', calls) -> ~ In ApiStart calls).
End Spec.

(** An accepted connection is connected as long as its socket is open; [shutdown] is not called. *)
Definition kept (v : sconn) : Prop := vn_shutdown v = false /\ ~ In VDoShutdown (vn_queue v) /\ vn_connected v = vn_open v.

(** An event of connection [c]. *)
Definition of_peer (c : nat) (e : uevent) : Prop := match e with URead d _ _ | UTransfer d _ _ | UWritten d _ _ => d = c | _ => False end.

Definition is_start (e : uevent) : bool := match e with UApi ApiStart => true | _ => false end.

(** ** One request at a time *)

(** The chunks [cs] are received on connection [c], whose next read is number [r]. *)
Fixpoint reads (c r : nat) (cs : list (list N)) : list uevent :=
  match cs with [] => [] | d :: cs' => URead c r (RData d) :: reads c (S r) cs' end.

(** Requests are received on connection [c], each in some chunks; if one is answered, the
    answer, of the given length, is transmitted at once and completely.  [w]: the number of
    the connection's next write. *)
Fixpoint conversation (c r w : nat) (l : list (list (list N) * option nat)) : list uevent :=
  match l with
  | [] => []
  | (cs, answer) :: l' =>
      reads c r cs ++
      match answer with
      | None => conversation c (r + List.length cs) w l'
      | Some n => UTransfer c w n :: UWritten c w true :: conversation c (r + List.length cs) (S w) l'
      end
  end.
