(** The timers of a client channel. *)
From Verif Require Import Prelude Ser4 Messages Mbap SpecPdu SpecMbap Client SpecClient ClientCases ClientTcp SpecClientTcp TimerFacts.

(** ** C129: no timer is left behind

    At most one timer is armed at any time; it is the timer of the request that was sent
    last, with the time-out given with it, and that request is not completed. *)
Theorem C129_one : forall {W : Type} (handler : nat -> W -> expected (list N) -> W * list capi) pol es s w os,
  history handler pol es s w os -> (List.length (cc_armed s) <= 1)%nat.
Proof. exact @one_timer. Qed.
Print Assumptions C129_one.

Theorem C129_owner : forall {W : Type} (handler : nat -> W -> expected (list N) -> W * list capi) pol es s w os t,
  history handler pol es s w os -> In t (cc_armed s) ->
  exists a i u x f b d k, os = a ++ Sent i u x f :: b /\ sent_ids b = [] /\ ~ In i (completed_ids os) /\ ~ In TcpShutdown os /\
    In (Armed i t d) os /\ In (Called i k) os /\ d = k_timeout k.
Proof. exact @timer_owner. Qed.
Print Assumptions C129_owner.

(** When all requests are completed, or the channel is shut down, none is armed. *)
Theorem C129_none : forall {W : Type} (handler : nat -> W -> expected (list N) -> W * list capi) pol es s w os,
  history handler pol es s w os -> incl (sent_ids os) (completed_ids os) \/ In TcpShutdown os -> cc_armed s = [].
Proof. exact @no_timer_left. Qed.
Print Assumptions C129_none.

(** As long as a request is waited for, its timer is armed or its action is about to run. *)
Theorem C129_kept : forall {W : Type} (handler : nat -> W -> expected (list N) -> W * list capi) pol es s w os i u x f,
  history handler pol es s w os -> ~ In TcpShutdown os -> In (Sent i u x f) os -> ~ In i (completed_ids os) ->
  exists t d, In (Armed i t d) os /\ In t (cc_armed s ++ cc_expired s).
Proof. exact @timer_kept. Qed.
Print Assumptions C129_kept.

(** The same holds with a TCP connection. *)
Theorem C129_tcp : forall {W : Type} (handler : nat -> W -> expected (list N) -> W * list capi) pol es s l,
  tcp_history handler pol es s l -> (List.length (cc_armed (tc_channel s)) <= 1)%nat.
Proof. exact @tcp_one_timer. Qed.
Print Assumptions C129_tcp.

Example C129_case : exists s w os, client_run idle Truncate (client_init (repeat 0 260)) tt
    [CApi (Submit read_call); CApi (Submit read_call); CRun; CRun; CReceive (answer 0)] = Ret (s, w, os) /\
  cc_armed s = [1%nat] /\ sent_ids os = [0%nat; 1%nat] /\ completed_ids os = [0%nat].
Proof. do 3 eexists. split; [vm_compute; reflexivity|]. repeat split. Qed.

Example C129_none_case : exists s w os, client_run idle Truncate (client_init (repeat 0 260)) tt
    [CApi (Submit read_call); CRun; CReceive (answer 0)] = Ret (s, w, os) /\ cc_armed s = [] /\ cc_expired s = [] /\ completed_ids os = [0%nat].
Proof. do 3 eexists. split; [vm_compute; reflexivity|]. repeat split. Qed.
