(** Independent specification of how a client connection uses its one read buffer. *)
From Verif Require Import Prelude AsyncWrite ClientConn SpecConn.

(** Completion handlers of connects and reads that succeeded are executed before the socket
    that they are about is closed. *)
Definition prompt_success (s : cconn) (e : nevent) : Prop :=
  match e with
  | NConnected g true => cn_socket s = Some g
  | NRead r (RData _) => find_read (cn_reads s) r = None \/ find_read (cn_reads s) r = Some (cn_socket s)
  | _ => True
  end.

(** The reads in progress on socket [g]. *)
Definition reads_on (s : cconn) (g : nat) : list nat :=
  flat_map (fun x => match snd x with Some g' => if Nat.eqb g' g then [fst x] else [] | None => [] end) (cn_reads s).
