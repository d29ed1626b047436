(** A client and a server with an in-memory database, and a network between them.

    The network delivers the bytes given to a connection in order, each at most
    once, in pieces of any size and with any delay.  When a connection fails the
    client learns it by an error and continues on a new one; what was under way
    to the server may still arrive.  (The TCP connection classes provide this
    only under conditions, see PropsConn.v.) *)
From Verif Require Import Prelude Ser4 Messages Mbap Client Server Database.
From Verif Require Export SessionCall.

(** lib/include/modbus/server/db/InMemoryDatabase.h:46: the database is a server
    session ([on_request], InMemoryDatabase.cpp:56-188, Database.v).  [shutdown] is
    inherited and does nothing (lib/include/modbus/server/IServerSession.h:105). *)
Definition db_session (x : N) (d : db) (r : request) : db * expected response * list api :=
  match run (Database.on_request r) d with
  | Ret (d', a) => (d', a, [])
  | UB => (d, illegal_address, [])
  end.

Definition db_shutdown (x : N) (d : db) : db * list api := (d, []).

Inductive yevent : Type :=
| YCall (a : capi)                       (* a user of the client *)
| YRun                                   (* the client's next posted closure *)
| YExpire (t : nat)                      (* a timer of the client expires *)
| YFire (t : nat)                        (* its action is executed *)
| YServe (a : api)                       (* a user of the server channel *)
| YTask                                  (* the server's next posted closure *)
| YLocal (c : Database.call)             (* a local user of the database *)
| YUp (c : N) (n : nat)                  (* [n] bytes of connection [c] reach the server *)
| YDown (n : nat)                        (* [n] bytes of the current connection reach the client *)
| YBreak (msg : string) (buf : list N).  (* the current connection fails; the next one *)

Inductive youtput : Type :=
| YC (o : coutput)
| YS (o : output)
| YD (c : Database.call) (r : result).

Record system (W : Type) : Type := {
  y_client : client;
  y_user : W;                            (* state of the users' handlers *)
  y_server : server;
  y_db : db;
  y_conn : N;                            (* the client's current connection *)
  y_up : N -> list N;                    (* bytes under way to the server *)
  y_down : N -> list N                   (* and to the client *)
}.
Arguments y_client {W}. Arguments y_user {W}. Arguments y_server {W}. Arguments y_db {W}.
Arguments y_conn {W}. Arguments y_up {W}. Arguments y_down {W}.

(** The written bytes of a frame. *)
Definition written (f : list (option N)) : list N :=
  map (fun b => match b with Some x => x | None => 0 end) f.

Definition client_bytes (os : list coutput) : list N :=
  flat_map (fun o => match o with Sent _ _ _ f => written f | _ => [] end) os.

Definition server_bytes (c : N) (os : list output) : list N :=
  flat_map (fun o => match o with OSend c' f => if c' =? c then written f else [] | _ => [] end) os.

(** A server channel to which the database was added for [units]. *)
Definition server_with (units : list N) : server :=
  {| sv_shutdown := false; sv_started := false;
     sv_sessions := fold_left (fun l u => insert_session l u 0) units [];
     sv_queue := []; sv_conns := fun _ => None |}.

(** The first connection is accepted; the contents of the buffers are arbitrary. *)
Definition system_init {W : Type} (units : list N) (d : db) (buf sbuf : list N) (w : W) : system W :=
  {| y_client := client_init buf; y_user := w;
     y_server := set_conn (server_with units) 0 (Some (mbap_new sbuf)); y_db := d; y_conn := 0;
     y_up := fun _ => []; y_down := fun _ => [] |}.

Section System.
Context {W : Type}.
Context (handler : nat -> W -> expected (list N) -> W * list capi).
Context (pol : copy_policy).

Definition on_client (y : system W) (e : cevent) : outcome (system W * list youtput) :=
  let! (s, w, o) := client_step handler pol (y_client y) (y_user y) e in
  Ret ({| y_client := s; y_user := w; y_server := y_server y; y_db := y_db y; y_conn := y_conn y;
          y_up := fun c => if c =? y_conn y then y_up y c ++ client_bytes o else y_up y c;
          y_down := y_down y |}, map YC o).

Definition on_server (y : system W) (e : event) : outcome (system W * list youtput) :=
  let! (s, d, o) := server_step db_session db_shutdown pol (y_server y) (y_db y) e in
  Ret ({| y_client := y_client y; y_user := y_user y; y_server := s; y_db := d; y_conn := y_conn y;
          y_up := y_up y; y_down := fun c => y_down y c ++ server_bytes c o |}, map YS o).

Definition system_step (y : system W) (e : yevent) : outcome (system W * list youtput) :=
  match e with
  | YCall a => on_client y (CApi a)
  | YRun => on_client y CRun
  | YExpire t => on_client y (CExpire t)
  | YFire t => on_client y (CFire t)
  | YServe a => on_server y (EApi a)
  | YTask => on_server y ERun
  | YLocal c =>
      let! (d, r) := run (call_body c) (y_db y) in
      Ret ({| y_client := y_client y; y_user := y_user y; y_server := y_server y; y_db := d; y_conn := y_conn y;
              y_up := y_up y; y_down := y_down y |}, [YD c r])
  | YUp c n =>
      on_server
        {| y_client := y_client y; y_user := y_user y; y_server := y_server y; y_db := y_db y; y_conn := y_conn y;
           y_up := fun x => if x =? c then skipn n (y_up y x) else y_up y x; y_down := y_down y |}
        (EReceive c (firstn n (y_up y c)))
  | YDown n =>
      on_client
        {| y_client := y_client y; y_user := y_user y; y_server := y_server y; y_db := y_db y; y_conn := y_conn y;
           y_up := y_up y;
           y_down := fun x => if x =? y_conn y then skipn n (y_down y x) else y_down y x |}
        (CReceive (firstn n (y_down y (y_conn y))))
  | YBreak msg buf =>
      let! (y, o) := on_client y (CError msg) in
      let! (y, o') := on_server y (EAccept (y_conn y + 1) buf) in
      Ret ({| y_client := y_client y; y_user := y_user y; y_server := y_server y; y_db := y_db y;
              y_conn := y_conn y + 1; y_up := y_up y; y_down := y_down y |}, o ++ o')
  end.

Fixpoint system_run (y : system W) (es : list yevent) : outcome (system W * list youtput) :=
  match es with
  | [] => Ret (y, [])
  | e :: es' =>
      let! (y, o) := system_step y e in
      let! (y, o') := system_run y es' in
      Ret (y, o ++ o')
  end.
End System.
