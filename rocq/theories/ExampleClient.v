(** Model of examples/client/main.cpp: a TCP client channel with a session for unit 1, a
    scheduled request, and one-time requests sent when the user types commands.

    The events are those of the channel and its sessions (Session.v), the characters
    read from the standard input and its end.  What is written to the standard output is
    a list of lines; what the loggers write is not modelled. *)
From Verif Require Import Prelude Ser4 Messages Mbap Client Scheduled Session Config Ids.
From Coq Require Import String.

(** examples/client/main.cpp:46, :64 and :92 *)
Definition polled_request : request := ReadHoldingRegisters 36 59.
Definition coil_request : request := ReadCoils 36 1.
Definition registers_request : request := WriteMultipleRegisters 36 [11; 22; 33].

(** The handlers only print (examples/client/main.cpp:49-51, :65-87 and :94-102). *)
Definition example_handlers (s : source) (w : unit) (v : expected response) : unit * list kapi := (w, []).

(** ** What is printed *)
Section Printing.
(** The texts of the exceptions about malformed responses (IMessage.cpp:30-47,
    ReadBitsResponseImpl.cpp:102-121, WriteMultipleRegistersResponseImpl.cpp:67) are not
    modelled: [text i] is that of the answer to call [i]. *)
Context (text : nat -> string).

(** [IException::get_message] (IException.h:53-56): ModbusException.h:47-64,
    TimeoutException.h:39, ConnectionException.h:44, ClientChannelTcp.cpp:88. *)
Definition error_message (i : nat) (e : exn) : string :=
  match e with
  | EModbus t => string_of_list_ascii (exception_message t)
  | ETimeout => "Timeout reached"
  | EConnection msg => msg
  | EMalformedRequest => "Modbus request is not valid."
  | EMalformedResponse | EOther _ => text i
  end.

(** examples/client/main.cpp:83-86 *)
Definition print_coil (v : N * bool) : string :=
  (decimal (fst v) ++ ": " ++ if snd v then "1" else "0")%string.

(** examples/client/main.cpp:65-87 *)
Definition print_coils (i : nat) (v : expected response) : list string :=
  match v with
  | Error ETimeout => ["Timeout reached."%string]
  | Error e => [error_message i e]
  | Value (CoilsRead vs) => map print_coil vs
  | Value _ => []
  end.

(** examples/client/main.cpp:94-102 *)
Definition print_written (i : nat) (v : expected response) : list string :=
  match v with
  | Error e => [error_message i e]
  | Value (MultipleRegistersWritten a q) => [("Write result= " ++ decimal a ++ ": " ++ decimal q)%string]
  | Value _ => []
  end.

(** examples/client/main.cpp:49-51 *)
Definition print_polled : list string := ["Scheduled request received response."%string].

(** What the handler prints that is called, if one is; [owners] tells which request a
    call of the channel is for. *)
Definition printed (owners : list owner) (o : koutput) : list string :=
  match o with
  | Answered i v =>
      match nth_error owners i with
      | Some (ByUser (ReadCoils _ _)) => print_coils i v
      | Some (ByUser (WriteMultipleRegisters _ _)) => print_written i v
      | _ => []
      end
  | Polled _ (Response _ _) => print_polled
  | _ => []
  end.

(** ** The program *)
Record prog : Type := {
  pg_stack : stack unit;
  pg_over : bool                         (* [main] has returned *)
}.

(** What is seen: the outputs of the channel and its sessions, and the lines printed. *)
Definition seen : Type := list koutput * list string.

(** A step of the channel and its sessions. *)
Definition stack_part (pol : copy_policy) (x : prog) (e : kevent) : outcome (prog * seen) :=
  let! (k, o) := stack_step example_handlers pol (pg_stack x) e in
  Ret ({| pg_stack := k; pg_over := false |}, (o, flat_map (printed (ks_owners (st_rest k))) o)).

(** examples/client/main.cpp:42-51; the channel is new (:37-38). *)
Definition startup : list kapi := [Open 1 3000; Schedule 0 polled_request None 2000].

(** examples/client/main.cpp:58-135: the calls that a character causes; 'q' is not
    among them. *)
Definition command_calls (k : stack unit) (c : N) : list kapi :=
  if c =? 114 then [Send 0 coil_request (Some 3000)]                               (* 'r' *)
  else if c =? 119 then [Send 0 registers_request None]                            (* 'w' *)
  else if c =? 115 then [OnSchedule 0 (if is_running k 0 then Stop else Start)]    (* 's' *)
  else if c =? 102 then [OnSchedule 0 (SetFrequency (if frequency k 0 =? 2000 then 5000 else 2000))]  (* 'f' *)
  else [].

Fixpoint make_calls (pol : copy_policy) (x : prog) (l : list kapi) : outcome (prog * seen) :=
  match l with
  | [] => Ret (x, ([], []))
  | a :: l' =>
      let! (x, (o, p)) := stack_part pol x (KApi a) in
      let! (x, (o', p')) := make_calls pol x l' in
      Ret (x, (o ++ o', p ++ p'))
  end.

(** examples/client/main.cpp:28-51 *)
Definition prog_init (pol : copy_policy) (buf : list N) : outcome (prog * seen) :=
  make_calls pol {| pg_stack := stack_init buf tt; pg_over := false |} startup.

Inductive pevent : Type :=
| PStack (e : kevent)                    (* an event of the channel or its sessions *)
| PCommand (c : N)                       (* [std::cin] provides a character *)
| PEnd.                                  (* [std::cin] is at its end *)

(** examples/client/main.cpp:53-136.  At the end of the input [std::cin >> cmd] leaves
    [cmd] uninitialised.  Only [main] calls the channel, its session and the scheduled
    request.  What happens after [main] has returned is not modelled here. *)
Definition prog_step (pol : copy_policy) (x : prog) (e : pevent) : outcome (prog * seen) :=
  if pg_over x then Ret (x, ([], []))
  else
    match e with
    | PStack (KApi _) => Ret (x, ([], []))
    | PStack e => stack_part pol x e
    | PCommand c =>
        if c =? 113 then Ret ({| pg_stack := pg_stack x; pg_over := true |}, ([], []))    (* 'q' *)
        else make_calls pol x (command_calls (pg_stack x) c)
    | PEnd => UB
    end.

Fixpoint prog_run (pol : copy_policy) (x : prog) (es : list pevent) : outcome (prog * seen) :=
  match es with
  | [] => Ret (x, ([], []))
  | e :: es' =>
      let! (x, (o, p)) := prog_step pol x e in
      let! (x, (o', p')) := prog_run pol x es' in
      Ret (x, (o ++ o', p ++ p'))
  end.
End Printing.
