(** A client channel and a server channel, each over its TCP connections, with an
    in-memory database behind the server and the network between them.

    The network is modelled by what TCP provides: the bytes taken by the transport
    for a socket are delivered to its peer in order, in pieces of any size and with
    any delay, and the end of the stream only after all of them.  A connection can
    fail at any time on either side, which is the failure of a read or a write there.
    An event that this does not allow does nothing.

    A connection of the server comes from a socket the client has opened, or from
    somebody else, who can send anything on it.
    lib/src/client/channel/AsioClientTcpConnection.cpp:124-132,
    lib/src/server/channel/AsioServer.cpp:68-103. *)
From Verif Require Import Prelude Ser4 Messages Mbap Client Server Database System.
From Verif Require Import AsyncWrite ClientConn ClientTcp Listener ServerConn ServerTcp.

Inductive wevent : Type :=
| WClient (e : tevent)                           (* an event of the client *)
| WServer (e : uevent)                           (* an event of the server; its accepts are of others *)
| WAccept (g c : nat) (buf : list N)             (* the accept of [c] completes with the client's socket [g] *)
| WLocal (c : Database.call).                    (* a local user of the database *)

Inductive wmark : Type :=
| WC (m : mark)
| WS (m : smark)
| WO (m : smark)                                 (* at the server, while it handles what others sent *)
| WD (c : Database.call) (r : result).

(** [wd_links]: the client's socket and the server's connection at the two ends.  By
    socket of the client: the bytes under way to the server, and to the client. *)
Record world (W : Type) : Type := {
  wd_client : tclient W;
  wd_server : tserver db;
  wd_links : list (nat * nat);
  wd_up : nat -> list N;
  wd_down : nat -> list N
}.
Arguments wd_client {W}.
Arguments wd_server {W}.
Arguments wd_links {W}.
Arguments wd_up {W}.
Arguments wd_down {W}.

(** A server channel to which the database was added for [units]. *)
Definition world_init {W : Type} (units : list N) (max : N) (d : db) (buf : list N) (w : W) : world W :=
  {| wd_client := tclient_init buf w;
     wd_server := {| us_channel := server_with units; us_user := d; us_listener := aserver_init max;
                     us_conns := fun _ => None; us_order := [] |};
     wd_links := []; wd_up := fun _ => []; wd_down := fun _ => [] |}.

(** The end of a connection at the client. *)
Fixpoint socket_of (l : list (nat * nat)) (c : nat) : option nat :=
  match l with
  | [] => None
  | (g, c') :: l' => if Nat.eqb c' c then Some g else socket_of l' c
  end.

Fixpoint starts_with (l d : list N) : bool :=
  match d, l with
  | [], _ => true
  | x :: d', y :: l' => (x =? y) && starts_with l' d'
  | _ :: _, [] => false
  end.

Definition pipe_add (p : nat -> list N) (g : option nat) (d : list N) : nat -> list N :=
  fun x => if match g with Some g => Nat.eqb x g | None => false end then p x ++ d else p x.
Definition pipe_drop (p : nat -> list N) (g : option nat) (n : nat) : nat -> list N :=
  fun x => if match g with Some g => Nat.eqb x g | None => false end then skipn n (p x) else p x.

(** What a read of socket [g] can yield, given the bytes under way. *)
Definition can_read (p : nat -> list N) (g : option nat) (x : read_result) : bool :=
  match x, g with
  | RData d, Some g => match d with [] => false | _ => starts_with (p g) d end
  | REof, Some g => match p g with [] => true | _ => false end
  | RError, _ => true
  | _, None => false
  end.

Definition read_length (x : read_result) : nat := match x with RData d => List.length d | _ => 0 end.

(** The socket of the client's read [r]. *)
Definition reads_from (c : cconn) (r : nat) : option nat :=
  match find_read (cn_reads c) r with Some g => g | None => None end.

(** The client's socket from which read [r] of connection [c] gets its bytes. *)
Definition gets_from {W : Type} (w : world W) (c r : nat) : option nat :=
  match us_conns (wd_server w) c with
  | Some v => match find_vread (vn_reads v) r with Some true => socket_of (wd_links w) c | _ => None end
  | None => None
  end.

(** The bytes the transport takes in a step. *)
Definition client_took (l : list mark) : list N :=
  flat_map (fun m => match m with ConnOut (Write (WTook _ d)) => d | _ => [] end) l.
Definition server_took (l : list smark) : list N :=
  flat_map (fun m => match m with PeerOut _ (VWrite (WTook _ d)) => d | _ => [] end) l.

(** Others are at the other end of this connection. *)
Definition by_others {W : Type} (w : world W) (c : nat) : bool :=
  match socket_of (wd_links w) c with Some _ => false | None => true end.

Definition server_mark {W : Type} (w : world W) (e : uevent) : smark -> wmark :=
  match e with URead c _ _ => if by_others w c then WO else WS | _ => WS end.

Section World.
Context {W : Type}.
Context (handler : nat -> W -> expected (list N) -> W * list capi).
Context (pol : copy_policy).

(** An operation the transport can still serve is one of the current socket: the
    others were aborted when theirs was closed. *)
Definition client_turn (w : world W) (e : tevent) : outcome (world W * list wmark) :=
  let c := tc_conn (wd_client w) in
  let! (s, l) := tcp_step handler pol (wd_client w) e in
  Ret ({| wd_client := s; wd_server := wd_server w; wd_links := wd_links w;
          wd_up := pipe_add (wd_up w) (cn_socket c) (client_took l);
          wd_down := match e with TRead r x _ _ => pipe_drop (wd_down w) (reads_from c r) (read_length x) | _ => wd_down w end |},
       map WC l).

Definition server_turn (w : world W) (e : uevent) : outcome (world W * list wmark) :=
  let! (s, l) := userver_step db_session db_shutdown pol (wd_server w) e in
  Ret ({| wd_client := wd_client w; wd_server := s; wd_links := wd_links w;
          wd_up := match e with URead c r x => pipe_drop (wd_up w) (gets_from w c r) (read_length x) | _ => wd_up w end;
          wd_down := match e with UTransfer c _ _ => pipe_add (wd_down w) (socket_of (wd_links w) c) (server_took l) | _ => wd_down w end |},
       map (server_mark w e) l).

Definition world_step (w : world W) (e : wevent) : outcome (world W * list wmark) :=
  match e with
  | WClient (TRead r x msg xs) =>
      if can_read (wd_down w) (reads_from (tc_conn (wd_client w)) r) x then client_turn w (TRead r x msg xs) else Ret (w, [])
  | WClient e => client_turn w e
  | WServer (URead c r x) =>
      if by_others w c || can_read (wd_up w) (gets_from w c r) x then server_turn w (URead c r x) else Ret (w, [])
  | WServer e => server_turn w e
  | WAccept g c buf =>
      if Nat.ltb g (cn_next_socket (tc_conn (wd_client w))) && negb (existsb (fun x => Nat.eqb (fst x) g) (wd_links w))
         && member c (as_pending (us_listener (wd_server w)))
      then server_turn {| wd_client := wd_client w; wd_server := wd_server w; wd_links := wd_links w ++ [(g, c)];
                          wd_up := wd_up w; wd_down := wd_down w |} (UAccept c true buf)
      else Ret (w, [])
  | WLocal c =>
      let s := wd_server w in
      let! (d, r) := run (call_body c) (us_user s) in
      Ret ({| wd_client := wd_client w; wd_server := with_channel s (us_channel s) d; wd_links := wd_links w;
              wd_up := wd_up w; wd_down := wd_down w |}, [WD c r])
  end.

Fixpoint world_run (w : world W) (es : list wevent) : outcome (world W * list wmark) :=
  match es with
  | [] => Ret (w, [])
  | e :: es' =>
      let! (w, l) := world_step w e in
      let! (w, l') := world_run w es' in
      Ret (w, l ++ l')
  end.
End World.
