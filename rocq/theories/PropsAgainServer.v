(** Shutting down a server more than once. *)
From Verif Require Import Prelude Ser4 Messages Mbap SpecPdu SpecMbap Server SpecServer ServerLemmas AgainServer.

(** ** C133 for servers: a further shutdown of a server that is shut down does nothing; no
    session is told again. *)
Theorem C133_server : forall {W : Type} (on_request : N -> W -> request -> W * expected response * list api) on_shutdown
    pol w es s w' os q,
  server_run on_request on_shutdown pol server_init w es = Ret (s, w', os) -> sv_shutdown s = true -> sv_queue s = TaskShutdown :: q ->
  server_step on_request on_shutdown pol s w' ERun = Ret (set_queue s q, w', []).
Proof. exact @server_again. Qed.
Print Assumptions C133_server.

Example C133_server_case : exists s w os,
  server_run (demo 1) demo_shutdown Truncate server_init 0%nat
    [EApi (ApiAdd 5 1); EApi ApiStart; ERun; ERun; EApi ApiShutdown; EApi ApiShutdown; ERun] = Ret (s, w, os) /\
  os = [OListen; OStopListening; OSessionShutdown 1] /\ sv_shutdown s = true /\ sv_queue s = [TaskShutdown].
Proof. do 3 eexists. split; [vm_compute; reflexivity|]. split; [|split]; reflexivity. Qed.
