(** Independent specification of a client channel over its TCP connection. *)
From Verif Require Import Prelude Ser4 Messages Mbap SpecPdu SpecMbap Client SpecClient AsyncWrite ClientConn SpecConn ClientTcp.

(** ** Views of a history *)

Definition channel_ins (l : list mark) : list cevent := flat_map (fun m => match m with ChannelIn e => [e] | _ => [] end) l.
Definition channel_outs (l : list mark) : list coutput := flat_map (fun m => match m with ChannelOut o => [o] | _ => [] end) l.
Definition conn_ins (l : list mark) : list nevent := flat_map (fun m => match m with ConnIn e => [e] | _ => [] end) l.
Definition conn_outs (l : list mark) : list noutput := flat_map (fun m => match m with ConnOut o => [o] | _ => [] end) l.

(** ** Histories *)

(** C++ types of what the environment provides. *)
Definition typed_tevent (e : tevent) : Prop :=
  match e with TRead _ (RData d) _ _ => bytes d | _ => True end.

Section Spec.
Context {W : Type}.
Context (handler : nat -> W -> expected (list N) -> W * list capi).

(** [l] is what happens when the events [es] happen to a new channel with its connection. *)
Definition tcp_history (pol : copy_policy) (es : list tevent) (s : tclient W) (l : list mark) : Prop :=
  exists buf w0, good_buf buf /\ Forall typed_tevent es /\ tcp_run handler pol (tclient_init buf w0) es = Ret (s, l).
End Spec.

(** Every mark that satisfies [p] is directly followed, or preceded, by one that [q] relates to it. *)
Definition followed (q : mark -> mark -> Prop) (p : mark -> Prop) (l : list mark) : Prop :=
  forall a m b, l = a ++ m :: b -> p m -> exists m' b', b = m' :: b' /\ q m m'.
Definition preceded (q : mark -> mark -> Prop) (p : mark -> Prop) (l : list mark) : Prop :=
  forall a m b, l = a ++ m :: b -> p m -> exists a' m', a = a' ++ [m'] /\ q m' m.

Definition sends_frame (m m' : mark) : Prop :=
  exists i u t f x, m = ChannelOut (Sent i u t f) /\ m' = ConnIn (NSend (frame_data f) x).
Definition calls_back (m m' : mark) : Prop :=
  (exists g d, m = ConnOut (Received g d) /\ m' = ChannelIn (CReceive d)) \/
  (exists msg, m = ConnOut Failed /\ m' = ChannelIn (CError msg)).
Definition shuts_down (m m' : mark) : Prop := m = ChannelOut TcpShutdown /\ m' = ConnIn NShutdown.

Definition is_sent (m : mark) : Prop := exists i u t f, m = ChannelOut (Sent i u t f).
Definition is_nsend (m : mark) : Prop := exists d x, m = ConnIn (NSend d x).
Definition is_callback (m : mark) : Prop := m = ConnOut Failed \/ exists g d, m = ConnOut (Received g d).
Definition is_called_back (m : mark) : Prop := exists e, m = ChannelIn e /\ match e with CReceive _ | CError _ => True | _ => False end.
Definition is_tcp_shutdown (m : mark) : Prop := m = ChannelOut TcpShutdown.
Definition is_nshutdown (m : mark) : Prop := m = ConnIn NShutdown.

(** How many closures are executed. *)
Definition truns (es : list tevent) : nat := List.length (filter (fun e => match e with TRun _ => true | _ => false end) es).

(** The failure of something the connection waits for. *)
Definition fails (c : cconn) (e : tevent) (msg : string) : Prop :=
  match e with
  | TResolved false m => m = msg /\ cn_resolves c <> 0%nat
  | TConnected g false m => m = msg /\ In g (cn_connects c)
  | TRead r RError m _ => m = msg /\ find_read (cn_reads c) r <> None
  | TWritten w false m => m = msg /\ find_op (wr_ops (cn_writer c)) w <> None
  | _ => False
  end.

(** ** A working network *)

(** A request, the PDUs of the request and of the answer, and the pieces in which the answer arrives. *)
Record exchange : Type := {
  x_call : call;
  x_request : list N;
  x_reply : list N;
  x_chunks : list (list N)
}.

Definition tx_of (j : nat) : N := N.of_nat j mod 65536.

(** The [j]th exchange: a legal request, answered by a frame with its identifiers. *)
Definition answered (j : nat) (x : exchange) : Prop :=
  (exists r, k_msg (x_call x) = request_message r /\ legal_request r /\ request_pdu r (x_request x)) /\
  u8 (k_unit (x_call x)) /\ bytes (x_reply x) /\ 1 <= size (x_reply x) <= 253 /\
  Forall (fun c => c <> []) (x_chunks x) /\
  List.concat (x_chunks x) = frame_bytes (tx_of j) (k_unit (x_call x)) (x_reply x).

Fixpoint all_answered (j : nat) (xs : list exchange) : Prop :=
  match xs with [] => True | x :: xs' => answered j x /\ all_answered (S j) xs' end.

(** The pieces are read one after another, starting with the [r]th read. *)
Fixpoint reads_of (r : nat) (chunks : list (list N)) : list tevent :=
  match chunks with [] => [] | c :: cs => TRead r (RData c) "" [] :: reads_of (S r) cs end.

(** What happens in an exchange: the request is submitted and its closure runs, before
    the first one the name is resolved and a connection made; the transport takes the
    whole frame; and the answer arrives. *)
Definition request_frame (j : nat) (x : exchange) : list N := frame_bytes (tx_of j) (k_unit (x_call x)) (x_request x).
Definition round (j r : nat) (x : exchange) : list tevent :=
  [TApi (Submit (x_call x)); TRun []] ++
  (if Nat.eqb j 0 then [TResolved true ""; TConnected 1 true ""] else []) ++
  [TTransfer j (List.length (request_frame j x)); TWritten j true ""] ++
  reads_of r (x_chunks x).
Fixpoint rounds (j r : nat) (xs : list exchange) : list tevent :=
  match xs with [] => [] | x :: xs' => round j r x ++ rounds (S j) (r + List.length (x_chunks x)) xs' end.

(** What is expected of them. *)
Fixpoint replies (j : nat) (xs : list exchange) : list (nat * expected (list N)) :=
  match xs with [] => [] | x :: xs' => (j, Value (x_reply x)) :: replies (S j) xs' end.
Fixpoint request_frames_of (j : nat) (xs : list exchange) : list (nat * list N) :=
  match xs with [] => [] | x :: xs' => (j, request_frame j x) :: request_frames_of (S j) xs' end.

(** Nothing fails and nothing is closed. *)
Definition harmless (o : noutput) : Prop :=
  match o with Failed | SetupFailed | PeerClosed _ | SocketClosed _ | Write (WFailed _) => False | _ => True end.

(** ** What the environment provides *)

(** The results of system calls, and the text of an error, that come with an event. *)
Definition given_setups (e : tevent) : list setup :=
  match e with TRun xs | TFire _ xs | TRead _ _ _ xs => xs | _ => [] end.
Definition given_text (e : tevent) : string :=
  match e with TResolved _ m | TConnected _ _ m | TRead _ _ m _ | TWritten _ _ m => m | _ => ""%string end.

(** Those that are used, and the texts of errors reported to the channel. *)
Definition used_setups (l : list mark) : list setup :=
  flat_map (fun m => match m with ConnIn (NSend _ x) => [x] | _ => [] end) l.
Definition error_texts (l : list mark) : list string :=
  flat_map (fun m => match m with ChannelIn (CError t) => [t] | _ => [] end) l.

(** All system calls succeed. *)
Definition all_succeed : setup := {| su_address := true; su_open := true; su_bind := true |}.

(** What an event is for the part it happens to; a closure is executed by the part
    that posted it. *)
Definition happens (e : tevent) (m : mark) : Prop :=
  match e with
  | TApi a => m = ChannelIn (CApi a)
  | TRun _ => m = ChannelIn CRun \/ m = ConnIn NRun
  | TExpire t => m = ChannelIn (CExpire t)
  | TFire t _ => m = ChannelIn (CFire t)
  | TResolved ok _ => m = ConnIn (NResolved ok)
  | TConnected g ok _ => m = ConnIn (NConnected g ok)
  | TRead r x _ _ => m = ConnIn (NRead r x)
  | TTransfer w n => m = ConnIn (NTransfer w n)
  | TWritten w ok _ => m = ConnIn (NWritten w ok)
  end.
