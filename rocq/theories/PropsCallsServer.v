(** What the callers of a server channel's methods do themselves. *)
From Verif Require Import Prelude Ser4 Messages Mbap SpecPdu SpecMbap Server SpecServer ServerLemmas Listener AsyncWrite ServerConn ServerTcp SpecServerTcp CallServer.

(** ** C136 for servers: no session is called, the acceptor and the connections are left
    alone, and at most one closure is posted. *)
Theorem C136_server : forall {W : Type} (on_request : N -> W -> request -> W * expected response * list api) (on_shutdown : N -> W -> W * list api)
    pol (h : tserver W) a,
  exists h' q, userver_step on_request on_shutdown pol h (UApi a) = Ret (h', [TaskIn (EApi a)]) /\
  us_user h' = us_user h /\ us_listener h' = us_listener h /\ us_conns h' = us_conns h /\
  us_channel h' = set_queue (us_channel h) (sv_queue (us_channel h) ++ q) /\ (List.length q <= 1)%nat.
Proof. exact @server_call. Qed.
Print Assumptions C136_server.

Example C136_server_case : exists h m, userver_step (demo 1) demo_shutdown Truncate (tserver_init 4 0%nat) (UApi (ApiAdd 5 1)) = Ret (h, m) /\
  sv_queue (us_channel h) = [TaskAdd 5 1] /\ sv_sessions (us_channel h) = [].
Proof. do 2 eexists. split; [reflexivity|]. split; reflexivity. Qed.
