(** Specification of the logs of the TCP connections. *)
From Verif Require Import Prelude AsyncWrite ClientConn ServerConn SpecConn ConnLogs.

Definition did {O : Type} (l : list (tentry O)) : list O :=
  flat_map (fun x => match x with Did o => [o] | Said _ => [] end) l.

Definition said {O : Type} (l : list (tentry O)) : list tline :=
  flat_map (fun x => match x with Did _ => [] | Said x => [x] end) l.

(** Lines about something that failed. *)
Definition error_line (x : tline) : bool :=
  match x with
  | AddressError | OpenError | BindError | ResolverError | ConnectionError | ReadError | WriteError => true
  | _ => false
  end.

(** Of these, those about the attempt to open a socket. *)
Definition setup_line (x : tline) : bool :=
  match x with AddressError | OpenError | BindError => true | _ => false end.

Definition how_many (f : tline -> bool) (l : list tline) : nat := List.length (filter f l).
Definition is_line (x y : tline) : bool :=
  match x, y with
  | Establishing, Establishing | EstablishedLine, EstablishedLine | ClosingLine, ClosingLine | ClosedByPeer, ClosedByPeer => true
  | _, _ => false
  end.

(** What the log of a client's connection looks like: every line is next to what it is
    about, and everything but the start and the progress of a write has a line. *)
Inductive client_log : list (tentry noutput) -> Prop :=
| CL_nothing : client_log []
| CL_attempt l : client_log l -> client_log (l ++ [Said Establishing; Did Attempt])
| CL_setup l x : client_log l -> setup_line x = true -> client_log (l ++ [Said Establishing; Said x; Did SetupFailed])
| CL_failed l x : client_log l -> In x [ResolverError; ConnectionError; ReadError] -> client_log (l ++ [Said x; Did Failed])
| CL_established l g : client_log l -> client_log (l ++ [Said EstablishedLine; Did (Established g)])
| CL_received l g data : client_log l -> client_log (l ++ [Said (ReceivedBytes (List.length data)); Did (Received g data)])
| CL_peer l g : client_log l -> client_log (l ++ [Said ClosedByPeer; Did (PeerClosed g)])
| CL_closed l g : client_log l -> client_log (l ++ [Said ClosingLine; Did (SocketClosed g)])
| CL_started l w data : client_log l -> client_log (l ++ [Did (Write (WStarted w data))])
| CL_took l w data : client_log l -> client_log (l ++ [Did (Write (WTook w data))])
| CL_sent l w data : client_log l -> In (w, data) (took (writes (did l))) ->
    client_log (l ++ [Did (Write (WDone w)); Said (SentBytes (List.length data)); Did WriteDone])
| CL_unsent l w : client_log l -> client_log (l ++ [Did (Write (WFailed w)); Said WriteError; Did Failed]).

(** The same for a server's connection; being shut down is not logged. *)
Inductive server_log : list (tentry voutput) -> Prop :=
| SL_nothing : server_log []
| SL_established l : server_log l -> server_log (l ++ [Said EstablishedLine])
| SL_failed l : server_log l -> server_log (l ++ [Said ReadError; Did VFailed; Did VRemoved])
| SL_received l data : server_log l -> server_log (l ++ [Said (ReceivedBytes (List.length data)); Did (VReceived data)])
| SL_closed l : server_log l -> server_log (l ++ [Said ClosingLine; Did VSocketClosed; Did VRemoved])
| SL_shutdown l : server_log l -> server_log (l ++ [Did VRemoved])
| SL_started l w data : server_log l -> server_log (l ++ [Did (VWrite (WStarted w data))])
| SL_took l w data : server_log l -> server_log (l ++ [Did (VWrite (WTook w data))])
| SL_sent l w data : server_log l -> In (w, data) (took (vwrites (did l))) ->
    server_log (l ++ [Did (VWrite (WDone w)); Said (SentBytes (List.length data)); Did VWriteDone])
| SL_unsent l w : server_log l -> server_log (l ++ [Did (VWrite (WFailed w)); Said WriteError; Did VFailed; Did VRemoved]).

(** Nothing fails: the system calls, the network, or the peer otherwise than by closing. *)
Definition goes_well (e : nevent) : Prop :=
  match e with
  | NSend _ x => x = setup_ok
  | NResolved ok | NConnected _ ok | NWritten _ ok => ok = true
  | NRead _ x => x <> RError
  | _ => True
  end.

Definition vgoes_well (e : vevent) : Prop :=
  match e with
  | VRead _ x => x <> RError
  | VWritten _ ok => ok = true
  | _ => True
  end.

(** What each line is said about. *)
Definition client_cause (x : tline) (e : nevent) : Prop :=
  match x with
  | Establishing => exists d y, e = NSend d y
  | AddressError => exists d y, e = NSend d y /\ su_address y = false
  | OpenError => exists d y, e = NSend d y /\ su_address y = true
  | BindError => exists d y, e = NSend d y /\ su_address y = true /\ su_open y = true /\ su_bind y = false
  | ResolverError => e = NResolved false
  | ConnectionError => exists g, e = NConnected g false
  | EstablishedLine => exists g, e = NConnected g true
  | ClosedByPeer => exists r, e = NRead r REof
  | ReadError => exists r, e = NRead r RError
  | ReceivedBytes n => exists r d, e = NRead r (RData d) /\ n = List.length d
  | WriteError => exists w, e = NWritten w false
  | SentBytes _ => exists w, e = NWritten w true
  | ClosingLine => e = NRun
  end.

Definition server_cause (x : tline) (e : vevent) : Prop :=
  match x with
  | EstablishedLine => e = VStart
  | ReadError => exists r y, e = VRead r y /\ (y = RError \/ y = REof)
  | ReceivedBytes n => exists r d, e = VRead r (RData d) /\ n = List.length d
  | WriteError => exists w, e = VWritten w false
  | SentBytes _ => exists w, e = VWritten w true
  | ClosingLine => e = VRun
  | _ => False
  end.
