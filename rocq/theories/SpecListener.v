(** Independent specification of the server's connections, over the outputs of a
    history. *)
From Verif Require Import Prelude Listener.

(** The connections accepted and neither removed nor shut down, oldest first. *)
Definition live (os : list aoutput) : list nat :=
  fold_left (fun l o => match o with
                        | Accepted c => l ++ [c]
                        | Removed c => delete c l
                        | ShutDown => []
                        | _ => l
                        end) os [].

(** Open sockets of accepted connections. *)
Definition open_sockets (os : list aoutput) : list nat :=
  fold_left (fun l o => match o with
                        | Accepted c => l ++ [c]
                        | Closed c => delete c l
                        | _ => l
                        end) os [].

(** Accept operations in progress. *)
Definition accepting (os : list aoutput) : list nat :=
  fold_left (fun l o => match o with
                        | Accepting c => l ++ [c]
                        | Accepted c | AcceptFailed c => delete c l
                        | _ => l
                        end) os [].

Definition count (p : aoutput -> bool) (os : list aoutput) : nat := List.length (filter p os).
Definition loops_started (os : list aoutput) : nat := count (fun o => match o with Listening => true | _ => false end) os.
Definition accept_errors (os : list aoutput) : nat := count (fun o => match o with AcceptFailed _ => true | _ => false end) os.
Definition is_shut_down (os : list aoutput) : Prop := In ShutDown os.

(** [os] is what is observed when the events [es] happen to a new server with a
    maximum of [max] connections. *)
Definition serves (max : N) (es : list aevent) (s : aserver) (os : list aoutput) : Prop :=
  aserver_run (aserver_init max) es = Ret (s, os).

(** A server that is started once. *)
Definition starts_of (es : list aevent) : nat :=
  List.length (filter (fun e => match e with AStart => true | _ => false end) es).

(** No accept ends with an error. *)
Definition accepts_succeed (es : list aevent) : Prop := forall c, ~ In (AAccept c false) es.
