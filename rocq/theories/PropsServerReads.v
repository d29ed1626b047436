(** The read buffers of the connections of a server. *)
From Verif Require Import Prelude Ser4 Messages Mbap SpecPdu SpecMbap Server SpecServer ServerLemmas Listener SpecListener AsyncWrite ServerConn SpecConn
  ServerTcp SpecServerTcp ServerTcpCases ServerReads.

(** ** C134: each connection of a server has one read in progress

    Each connection has its own read buffer; unlike at a client (C130), at most one read
    uses it at any time. *)
Theorem C134_one_read : forall {W : Type} (on_request : N -> W -> request -> W * expected response * list api) (on_shutdown : N -> W -> W * list api)
  pol max w0 es h m c v, server_history on_request on_shutdown pol max w0 es h m -> us_conns h c = Some v ->
  (List.length (vn_reads v) <= 1)%nat.
Proof. exact @one_read_each. Qed.
Print Assumptions C134_one_read.

(** As long as its socket is open and no closing is posted, exactly one is in progress. *)
Theorem C134_keeps_reading : forall {W : Type} (on_request : N -> W -> request -> W * expected response * list api) (on_shutdown : N -> W -> W * list api)
  pol max w0 es h m c v, server_history on_request on_shutdown pol max w0 es h m -> us_conns h c = Some v ->
  vn_open v = true -> ~ In VDoClose (vn_queue v) -> exists r, vn_reads v = [(r, true)].
Proof. exact @open_reads. Qed.
Print Assumptions C134_keeps_reading.

Example C134_case : runs 4 two_clients = true /\
  final (fun h => map (fun c => option_map (fun v => (vn_open v, vn_queue v, vn_reads v)) (us_conns h c)) [0; 1; 2]%nat) 4 two_clients =
    Some [Some (true, [], [(2%nat, true)]); Some (false, [], [(1%nat, true)]); None].
Proof. split; vm_compute; reflexivity. Qed.
