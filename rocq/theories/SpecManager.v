(** Independent specification of the manager. *)
From Verif Require Import Prelude Ser4 Messages Mbap SpecMbap Client AsyncWrite ClientConn ClientTcp SpecClientTcp Server Listener ServerConn ServerTcp SpecServerTcp Manager.

(** ** Views of a history *)

Definition registered (l : list mmark) : list nat := flat_map (fun m => match m with Registered i => [i] | _ => [] end) l.
Definition told (l : list mmark) : list nat := flat_map (fun m => match m with Told i => [i] | _ => [] end) l.

(** What happened to channel [i], and at its parts. *)
Definition client_events (i : nat) (l : list mmark) : list tevent :=
  flat_map (fun m => match m with ClientDid j e _ => if Nat.eqb j i then [e] else [] | _ => [] end) l.
Definition client_marks (i : nat) (l : list mmark) : list mark :=
  flat_map (fun m => match m with ClientDid j _ x => if Nat.eqb j i then x else [] | _ => [] end) l.
Definition server_events (i : nat) (l : list mmark) : list uevent :=
  flat_map (fun m => match m with ServerDid j e _ => if Nat.eqb j i then [e] else [] | _ => [] end) l.
Definition server_marks (i : nat) (l : list mmark) : list smark :=
  flat_map (fun m => match m with ServerDid j _ x => if Nat.eqb j i then x else [] | _ => [] end) l.

(** ** Histories *)

Definition typed_mevent {U V : Type} (e : mevent U V) : Prop :=
  match e with
  | MNewClient _ buf _ => good_buf buf
  | MClient _ e => typed_tevent e
  | MServer _ e => typed_uevent e
  | _ => True
  end.

Definition manager_history {U V : Type} (pol : copy_policy) (es : list (mevent U V)) (s : manager U V) (l : list mmark) : Prop :=
  Forall typed_mevent es /\ manager_run pol manager_init es = Ret (s, l).

Definition is_client {U V : Type} (s : manager U V) (i : nat) : bool :=
  match nth_error (mg_channels s) i with Some (ClientSide _ _) => true | _ => false end.

(** The client channels first, then the server channels. *)
Definition clients_first {U V : Type} (s : manager U V) (l : list nat) : list nat :=
  filter (is_client s) l ++ filter (fun i => negb (is_client s i)) l.

(** Those of [l] that are not in [done], in their order. *)
Definition remaining (l done : list nat) : list nat := filter (fun i => negb (existsb (Nat.eqb i) done)) l.

(** The channel that an event concerns. *)
Definition concerns {U V : Type} (e : mevent U V) (i : nat) : Prop :=
  match e with MClient j _ | MServer j _ => j = i | _ => False end.

(** Channel [i] was told to shut down when [shutdown] was called on it. *)
Definition shut_down_by (i : nat) (m : mmark) : Prop :=
  (exists l, m = ClientDid i (TApi Client.Shutdown) l) \/ (exists l, m = ServerDid i (UApi ApiShutdown) l).
