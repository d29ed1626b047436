(** Histories of the accepting server that break the intended properties. *)
From Verif Require Import Prelude Listener SpecListener.

(** One failed accept and the unsigned counter wraps. *)
Definition failed_accept : list aevent := [AStart; ARun; AAccept 0 false; ARun].

Lemma number_wraps : exists s os,
  serves 10 failed_accept s os /\ ~ In ShutDown os /\ as_num s = 4294967295 /\ live os = [].
Proof.
  do 2 eexists. split; [vm_compute; reflexivity|]. split; [cbn; intuition discriminate|]. split; reflexivity.
Qed.

(** The counter is not reset by the shutdown. *)
Lemma number_after_shutdown : exists s os,
  serves 10 [AStart; ARun; AAccept 0 true; AShutdown; ARun; ARun; ARun; ARun; ARun] s os /\
  as_queue s = [] /\ as_num s = 1 /\ live os = [] /\ open_sockets os = [].
Proof.
  do 2 eexists. split; [vm_compute; reflexivity|]. repeat (split; [reflexivity|]). reflexivity.
Qed.

Lemma deaf_server : exists s os,
  serves 10 failed_accept s os /\ In Listening os /\ ~ In ShutDown os /\ as_queue s = [] /\ accepting os = [] /\
  accept_errors os = loops_started os.
Proof.
  do 2 eexists. split; [vm_compute; reflexivity|]. split; [left; reflexivity|]. split; [cbn; intuition discriminate|].
  repeat (split; [reflexivity|]). reflexivity.
Qed.

(** Started twice: the front of the list can be a connection that is still being
    accepted.  With a maximum of one connection there are two, the newest
    connection can be the one dropped, and a connection survives the shutdown. *)
Definition twice : list aevent :=
  [AStart; AStart; ARun; ARun; AAccept 1 true; ARun; AAccept 2 true; ARun; ARun].

Lemma limit_exceeded : exists s os,
  serves 1 twice s os /\ live os = [1; 2]%nat /\ open_sockets os = [1; 2]%nat /\ as_num s = 1.
Proof. do 2 eexists. split; [vm_compute; reflexivity|]. repeat (split; [reflexivity|]). reflexivity. Qed.

Lemma newest_dropped : exists s os a b,
  serves 1 [AStart; AStart; ARun; ARun; AAccept 1 true; AAccept 0 true] s os /\
  os = a ++ Accepted 0 :: Removed 0 :: b /\ live a = [1]%nat.
Proof.
  do 2 eexists. exists [Listening; Listening; Accepting 0; Accepting 1; Accepted 1; Serving 1], [Serving 0]%nat.
  split; [vm_compute; reflexivity|]. split; reflexivity.
Qed.

Lemma survives_shutdown : exists s os,
  serves 1 (twice ++ [AAccept 0 true; AShutdown; ARun; ARun; ARun; ARun; ARun; ARun; ARun]) s os /\
  In ShutDown os /\ as_queue s = [] /\ open_sockets os = [0]%nat.
Proof.
  do 2 eexists. split; [vm_compute; reflexivity|]. split; [cbn; tauto|]. split; reflexivity.
Qed.

Lemma front_of_empty : exists es, (starts_of es = 4)%nat /\ aserver_run (aserver_init 10) es = UB.
Proof.
  exists [AStart; AStart; AStart; AStart; ARun; ARun; ARun; ARun; AAccept 0 false; AAccept 1 false; AAccept 3 true; AFail 3; AAccept 2 true].
  split; vm_compute; reflexivity.
Qed.
