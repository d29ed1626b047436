(** The write side shared by the two connection classes: the member [m_write_buffer]
    and the operations started with [async_send].

    lib/src/client/channel/AsioClientTcpConnection.cpp:51, :185-206, :218-229 and
    lib/src/server/channel/AsioServerTcpConnection.cpp:49, :124-144, :159-170.

    asio is not part of the repository; the model relies on this much of its
    documentation: [async_send] needs the buffer until the operation completes, it may
    transfer fewer bytes than asked, and closing the socket makes it complete with an
    error without touching the buffer again.  The transfer and the call of the
    completion handler are separate events. *)
From Verif Require Import Prelude.

(** How a read ends: with data, at the end of the peer's stream, or with another error. *)
Inductive read_result := RData (data : list N) | REof | RError.

(** A heap buffer: its identity and its content. *)
Definition buffer : Type := (nat * list N)%type.

(** An operation: its number, its buffer, what the transport took, and whether its
    socket was closed. *)
Record wop : Type := {
  w_id : nat;
  w_buf : buffer;
  w_taken : option nat;
  w_aborted : bool
}.

(** [m_write_buffer] owns its buffer: a buffer that is not in [wr_buffer] is freed. *)
Record writer : Type := {
  wr_buffer : option buffer;
  wr_ops : list wop;
  wr_next_buffer : nat;
  wr_next_op : nat
}.

Definition writer_init : writer := {| wr_buffer := None; wr_ops := []; wr_next_buffer := 0; wr_next_op := 0 |}.

Inductive woutput : Type :=
| WStarted (w : nat) (data : list N)             (* async_send *)
| WTook (w : nat) (data : list N)                (* bytes handed to the transport *)
| WDone (w : nat)                                (* the handler is called with success *)
| WFailed (w : nat).                             (* the handler is called with an error *)

(** [m_write_buffer = std::make_unique<ser4cpp::Buffer>(data)] *)
Definition w_replace (c : writer) (data : list N) : writer :=
  {| wr_buffer := Some (wr_next_buffer c, data); wr_ops := wr_ops c; wr_next_buffer := S (wr_next_buffer c); wr_next_op := wr_next_op c |}.

(** [send_buffer]; on a closed socket the operation fails later. *)
Definition w_start (c : writer) (is_open : bool) : writer * list woutput :=
  match wr_buffer c with
  | Some b =>
      ({| wr_buffer := wr_buffer c;
          wr_ops := wr_ops c ++ [{| w_id := wr_next_op c; w_buf := b; w_taken := None; w_aborted := negb is_open |}];
          wr_next_buffer := wr_next_buffer c; wr_next_op := S (wr_next_op c) |}, [WStarted (wr_next_op c) (snd b)])
  | None => (c, [])
  end.

Definition set_op (c : writer) (l : list wop) : writer :=
  {| wr_buffer := wr_buffer c; wr_ops := l; wr_next_buffer := wr_next_buffer c; wr_next_op := wr_next_op c |}.

Fixpoint find_op (l : list wop) (w : nat) : option wop :=
  match l with
  | [] => None
  | o :: l' => if Nat.eqb (w_id o) w then Some o else find_op l' w
  end.

Definition delete_op (l : list wop) (w : nat) : list wop := filter (fun o => negb (Nat.eqb (w_id o) w)) l.

(** The transport takes [n] bytes (at least one) from the operation's buffer. *)
Definition w_transfer (c : writer) (w n : nat) : outcome (writer * list woutput) :=
  match find_op (wr_ops c) w with
  | None => Ret (c, [])
  | Some o =>
      if w_aborted o || match w_taken o with Some _ => true | None => false end || Nat.eqb n 0 || Nat.ltb (List.length (snd (w_buf o))) n
      then Ret (c, [])
      else if match wr_buffer c with Some b => Nat.eqb (fst b) (fst (w_buf o)) | None => false end
      then Ret (set_op c (map (fun x => if Nat.eqb (w_id x) w
                                        then {| w_id := w_id x; w_buf := w_buf x; w_taken := Some n; w_aborted := w_aborted x |}
                                        else x) (wr_ops c)),
                [WTook w (firstn n (snd (w_buf o)))])
      else UB
  end.

(** The completion handler.  Success needs a transfer; [None] means that no such
    operation can complete this way now. *)
Definition w_complete (c : writer) (w : nat) (ok : bool) : option (writer * list woutput) :=
  match find_op (wr_ops c) w with
  | None => None
  | Some o =>
      if ok then
        match w_taken o with
        | Some _ => Some ({| wr_buffer := None; wr_ops := delete_op (wr_ops c) w; wr_next_buffer := wr_next_buffer c;
                             wr_next_op := wr_next_op c |}, [WDone w])
        | None => None
        end
      else Some (set_op c (delete_op (wr_ops c) w), [WFailed w])
  end.

(** The socket is closed. *)
Definition w_abort (c : writer) : writer :=
  set_op c (map (fun x => {| w_id := w_id x; w_buf := w_buf x; w_taken := w_taken x; w_aborted := true |}) (wr_ops c)).
