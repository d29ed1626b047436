(** What a client channel keeps. *)
From Verif Require Import Prelude Ser4 Messages Mbap SpecPdu SpecMbap Client SpecClient SpecHeld ClientCases ClientTcp SpecClientTcp HeldFacts.

(** ** C135: a client channel keeps exactly the requests that are not completed

    Until it is shut down it keeps the requests that are not completed, each once and in
    the order in which they were made; nothing is lost and nothing is left behind. *)
Theorem C135_exactly : forall {W : Type} (handler : nat -> W -> expected (list N) -> W * list capi) pol es s w os,
  history handler pol es s w os -> ~ In TcpShutdown os -> held s = open_calls os.
Proof. exact @held_exactly. Qed.
Print Assumptions C135_exactly.

(** Afterwards only calls that are posted are kept. *)
Theorem C135_after_shutdown : forall {W : Type} (handler : nat -> W -> expected (list N) -> W * list capi) pol es s w os,
  history handler pol es s w os -> In TcpShutdown os -> held s = qids (cc_queue s).
Proof. exact @held_down. Qed.
Print Assumptions C135_after_shutdown.

(** A request that is completed is never kept, shut down or not. *)
Theorem C135_not_completed : forall {W : Type} (handler : nat -> W -> expected (list N) -> W * list capi) pol es s w os i,
  history handler pol es s w os -> In i (held s) -> In i (open_calls os).
Proof. exact @held_never_closed. Qed.
Print Assumptions C135_not_completed.

(** No request waits while the requests that were sent are all completed. *)
Theorem C135_never_idle : forall {W : Type} (handler : nat -> W -> expected (list N) -> W * list capi) pol es s w os,
  history handler pol es s w os -> incl (sent_ids os) (completed_ids os) -> held s = qids (cc_queue s).
Proof. exact @never_idle. Qed.
Print Assumptions C135_never_idle.

(** The same with a TCP connection. *)
Theorem C135_tcp : forall {W : Type} (handler : nat -> W -> expected (list N) -> W * list capi) pol es s l,
  tcp_history handler pol es s l -> ~ In TcpShutdown (channel_outs l) -> held (tc_channel s) = open_calls (channel_outs l).
Proof. exact @tcp_held. Qed.
Print Assumptions C135_tcp.

Example C135_case : exists s w os, client_run idle Truncate (client_init (repeat 0 260)) tt
    [CApi (Submit read_call); CApi (Submit read_call); CApi (Submit read_call); CApi (Submit read_call); CRun; CRun; CRun; CReceive (answer 0)] = Ret (s, w, os) /\
  held s = [1; 2; 3]%nat /\ open_calls os = [1; 2; 3]%nat /\ qids (cc_queue s) = [3%nat].
Proof. do 3 eexists. split; [vm_compute; reflexivity|]. repeat split. Qed.

Example C135_idle_case : exists s w os, client_run idle Truncate (client_init (repeat 0 260)) tt
    [CApi (Submit read_call); CApi (Submit read_call); CRun; CReceive (answer 0)] = Ret (s, w, os) /\
  sent_ids os = [0%nat] /\ completed_ids os = [0%nat] /\ held s = [1%nat].
Proof. do 3 eexists. split; [vm_compute; reflexivity|]. repeat split. Qed.
