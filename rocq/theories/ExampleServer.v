(** Model of examples/server/main.cpp: a TCP server channel with a custom session for
    unit 1 and an in-memory database for unit 2.

    The events are those of the channel (Server.v) and the characters read from the
    standard input. *)
From Verif Require Import Prelude Ser4 Messages Mbap Server Database System.

(** lib/include/modbus/server/IServerSession.h:114-202: the handlers that a session
    does not override. *)
Definition default_session (r : request) : expected response := Error (EModbus IllegalFunction).

(** examples/server/main.cpp:27-40 *)
Definition custom_session (r : request) : expected response :=
  match r with
  | ReadCoils _ _ => Value (CoilsRead [(16, true)])
  | _ => default_session r
  end.

(** Session 1 is the custom session, session 2 the database. *)
Definition example_session (x : N) (d : db) (r : request) : db * expected response * list api :=
  if x =? 1 then (d, custom_session r, []) else db_session x d r.

(** examples/server/main.cpp:64-67, the body of the loop. *)
Definition add_four (i : N) : list call :=
  [CAdd Coils i (negb (i mod 2 =? 0)); CAdd Discretes i (negb (i mod 2 =? 0)); CAdd Holdings i i; CAdd Inputs i i].

(** examples/server/main.cpp:61-68 *)
Definition example_calls : list call := flat_map (fun i => add_four (N.of_nat i)) (seq 0 100).

(** examples/server/main.cpp:84-88.  [value] is not initialised: its value matters
    only if [get_coil] has set it, otherwise the result is [1]. *)
Definition flip : transaction :=
  TxGet Coils 0 false (fun found value =>
    if found then TxSet Coils 0 (negb value) (fun _ => TxDone []) else TxDone [1]).

Record example : Type := {
  x_server : server;
  x_db : db;
  x_over : bool                          (* [main] has returned *)
}.

(** examples/server/main.cpp:53-72; the closures of the three calls are posted. *)
Definition example_init : outcome example :=
  let! (d, _) := run_calls example_calls db_empty in
  Ret {| x_server := api_calls server_init [ApiAdd 1 1; ApiAdd 2 2; ApiStart]; x_db := d; x_over := false |}.

Inductive xevent : Type :=
| XServer (e : event)                    (* an event of the channel *)
| XCommand (c : N)                       (* [std::cin] provides a character *)
| XEnd.                                  (* [std::cin] is at its end *)

(** examples/server/main.cpp:74-98.  At the end of the input [std::cin >> cmd] leaves
    [cmd] uninitialised.  A connection is accepted only when the server listens; only
    [main] calls the channel. *)
Definition example_step (pol : copy_policy) (x : example) (e : xevent) : outcome (example * list output) :=
  if x_over x then Ret (x, [])
  else
    match e with
    | XServer (EApi _) => Ret (x, [])
    | XServer (EAccept c buf) =>
        if sv_started (x_server x)
        then Ret ({| x_server := set_conn (x_server x) c (Some (mbap_new buf)); x_db := x_db x; x_over := false |}, [])
        else Ret (x, [])
    | XServer e =>
        let! (s, d, os) := server_step example_session db_shutdown pol (x_server x) (x_db x) e in
        Ret ({| x_server := s; x_db := d; x_over := false |}, os)
    | XCommand c =>
        if c =? 102 then                                          (* 'f' *)
          let! (d, l) := run (transaction_body flip) (x_db x) in
          match l with
          | [] => Ret ({| x_server := x_server x; x_db := d; x_over := false |}, [])
          | _ => UB
          end
        else if c =? 113 then                                     (* 'q' *)
          Ret ({| x_server := x_server x; x_db := x_db x; x_over := true |}, [])
        else Ret (x, [])
    | XEnd => UB
    end.

Fixpoint example_run (pol : copy_policy) (x : example) (es : list xevent) : outcome (example * list output) :=
  match es with
  | [] => Ret (x, [])
  | e :: es' =>
      let! (x, o) := example_step pol x e in
      let! (x, o') := example_run pol x es' in
      Ret (x, o ++ o')
  end.
