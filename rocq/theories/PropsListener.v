(** The accepting server: its connection limit, its accept loop, its shutdown. *)
From Verif Require Import Prelude Listener SpecListener ListenerLemmas ListenerCases.

(** ** C50: connection limit *)

(** Started once, the server never has more than [max] connections, whatever accepts,
    errors, closes and shutdowns happen in whatever order. *)
Theorem C50_limit :
  forall max es s os, serves max es s os -> (starts_of es <= 1)%nat -> max < 2 ^ 32 - 1 ->
  N.of_nat (List.length (live os)) <= max.
Proof. exact within_limit. Qed.
Print Assumptions C50_limit.

(** A new connection is served at once.  If there is room no other connection is
    touched, else exactly the oldest is dropped. *)
Theorem C50_oldest_dropped :
  forall max es s a c b,
  serves max es s (a ++ Accepted c :: b) -> (starts_of es <= 1)%nat -> max < 2 ^ 32 - 1 ->
  (N.of_nat (List.length (live a)) < max /\ exists b', b = Serving c :: b') \/
  (N.of_nat (List.length (live a)) = max /\
   exists d rest b', live a ++ [c] = d :: rest /\ b = Removed d :: Serving c :: b').
Proof. exact accept_outputs. Qed.
Print Assumptions C50_oldest_dropped.

(** A connection leaves the server only to make room as the oldest, because its accept
    failed, or because one of its own reads or writes failed. *)
Theorem C50_no_other_removal :
  forall max es s a d b,
  serves max es s (a ++ Removed d :: b) -> (starts_of es <= 1)%nat -> max < 2 ^ 32 - 1 ->
  (exists a' c rest, a = a' ++ [Accepted c] /\ N.of_nat (List.length (live a')) = max /\ live a' ++ [c] = d :: rest) \/
  (exists a', a = a' ++ [AcceptFailed d]) \/
  (exists es1 es2 s1, es = es1 ++ AFail d :: es2 /\ serves max es1 s1 a /\ In d (live a)).
Proof. exact removal_outputs. Qed.
Print Assumptions C50_no_other_removal.

(** Once the posted work is done, every socket that is open belongs to a connection
    the server still has. *)
Theorem C50_dropped_are_closed :
  forall max es s os, serves max es s os -> (starts_of es <= 1)%nat -> max < 2 ^ 32 - 1 -> as_queue s = [] ->
  forall c, In c (open_sockets os) -> In c (live os).
Proof. exact closed_when_quiet. Qed.
Print Assumptions C50_dropped_are_closed.

(** Missing: after an accept error and after a shutdown. *)
Theorem C50_number_partial :
  forall max es s os,
  serves max es s os -> (starts_of es <= 1)%nat -> max < 2 ^ 32 - 1 -> ~ In ShutDown os -> accept_errors os = 0%nat ->
  as_num s = N.of_nat (List.length (live os)).
Proof. exact number_spec. Qed.
Print Assumptions C50_number_partial.

Theorem C50_number_refuted :
  exists es s os, serves 10 es s os /\ starts_of es = 1%nat /\ ~ In ShutDown os /\ as_num s = 4294967295 /\ live os = [].
Proof. exists failed_accept. destruct number_wraps as (s & os & A & B & C & D). exists s, os. exact (conj A (conj eq_refl (conj B (conj C D)))). Qed.
Print Assumptions C50_number_refuted.

Theorem C50_number_after_shutdown_refuted :
  exists es s os, serves 10 es s os /\ as_queue s = [] /\ as_num s = 1 /\ live os = [] /\ open_sockets os = [].
Proof. exact (ex_intro _ _ number_after_shutdown). Qed.
Print Assumptions C50_number_after_shutdown_refuted.

(** A server channel that is started twice runs two accept loops: the limit does not
    hold, the connection dropped can be the newest. *)
Theorem C50_limit_started_twice_refuted :
  exists es s os, serves 1 es s os /\ live os = [1; 2]%nat /\ open_sockets os = [1; 2]%nat /\ as_num s = 1.
Proof. exact (ex_intro _ _ limit_exceeded). Qed.
Print Assumptions C50_limit_started_twice_refuted.

Theorem C50_oldest_started_twice_refuted :
  exists es s os a b, serves 1 es s os /\ os = a ++ Accepted 0 :: Removed 0 :: b /\ live a = [1]%nat.
Proof. exact (ex_intro _ _ newest_dropped). Qed.
Print Assumptions C50_oldest_started_twice_refuted.

(** No history of a server started once is undefined. *)
Theorem C50_defined :
  forall max, max < 2 ^ 32 - 1 -> forall es, (starts_of es <= 1)%nat -> exists s os, serves max es s os.
Proof. exact no_ub. Qed.
Print Assumptions C50_defined.

(** Started more often, it can be: the front of the empty list of connections. *)
Theorem C50_defined_refuted :
  exists es, starts_of es = 4%nat /\ aserver_run (aserver_init 10) es = UB.
Proof. exact front_of_empty. Qed.
Print Assumptions C50_defined_refuted.

Example C50_case : exists s os,
  serves 2 [AStart; ARun; AAccept 0 true; ARun; AAccept 1 true; ARun; AAccept 2 true; ARun; ARun; AFail 1; ARun; ARun] s os /\
  live os = [2]%nat /\ open_sockets os = [2]%nat /\ as_num s = 1 /\ accepting os = [3]%nat /\ as_queue s = [] /\
  os = [Listening; Accepting 0; Accepted 0; Serving 0; Accepting 1; Accepted 1; Serving 1; Accepting 2;
        Accepted 2; Removed 0; Serving 2; Closed 0; Accepting 3; Removed 1; Closed 1]%nat.
Proof. do 2 eexists. split; [vm_compute; reflexivity|]. repeat (split; [reflexivity|]). reflexivity. Qed.

(** ** C51: the server keeps accepting *)

(** Missing: accept errors; each one ends an accept loop for good. *)
Theorem C51_accepting_partial :
  forall max es s os, serves max es s os -> ~ In ShutDown os -> (accept_errors os < loops_started os)%nat ->
  accepting os <> [] \/ In StartAccept (as_queue s).
Proof. exact keeps_accepting. Qed.
Print Assumptions C51_accepting_partial.

(** There are never more accepts in progress than loops started and not ended. *)
Theorem C51_no_more_accepts_than_loops :
  forall max es s os, serves max es s os -> ~ In ShutDown os ->
  (List.length (accepting os) + accept_errors os <= loops_started os)%nat.
Proof. exact as_many_as_loops. Qed.
Print Assumptions C51_no_more_accepts_than_loops.

Theorem C51_accepting_refuted :
  exists es s os, serves 10 es s os /\ In Listening os /\ ~ In ShutDown os /\ as_queue s = [] /\ accepting os = [] /\
  accept_errors os = loops_started os.
Proof. exact (ex_intro _ _ deaf_server). Qed.
Print Assumptions C51_accepting_refuted.

(** As many accept errors as starts and nothing but a new start makes the server
    accept again. *)
Theorem C51_deaf_after_accept_errors :
  forall max es s os es' s' o',
  serves max es s os -> ~ In ShutDown os -> accept_errors os = loops_started os -> starts_of es' = 0%nat ->
  aserver_run s es' = Ret (s', o') -> forall c, ~ In (Accepting c) o' /\ ~ In (Accepted c) o'.
Proof. exact deaf. Qed.
Print Assumptions C51_deaf_after_accept_errors.

Example C51_case : exists s os,
  serves 2 [AStart; ARun; AAccept 0 true; ARun; AFail 0; ARun; ARun; AAccept 1 true] s os /\
  ~ In ShutDown os /\ accept_errors os = 0%nat /\ loops_started os = 1%nat /\ accepting os = [] /\ as_queue s = [StartAccept].
Proof. do 2 eexists. split; [vm_compute; reflexivity|]. split; [cbn; intuition discriminate|]. repeat (split; [reflexivity|]). reflexivity. Qed.

(** ** C55: shutting the server down *)

(** When the work posted so far is done, every connection is closed, and stays so
    whatever happens later. *)
Theorem C55_shutdown_closes_all :
  forall max es s os,
  serves max es s os -> (starts_of es <= 1)%nat -> max < 2 ^ 32 - 1 -> In AShutdown es ->
  exists n s' o, aserver_run s (repeat ARun n) = Ret (s', o) /\
    forall es' s'' o', starts_of es' = 0%nat -> aserver_run s' es' = Ret (s'', o') ->
      live (os ++ o ++ o') = [] /\ open_sockets (os ++ o ++ o') = [].
Proof. exact shutdown_closes. Qed.
Print Assumptions C55_shutdown_closes_all.

(** However often it was started, it accepts nothing after the shutdown. *)
Theorem C55_nothing_accepted_after :
  forall max es s a b,
  serves max es s (a ++ ShutDown :: b) -> forall c, ~ In (Accepting c) b /\ ~ In (Accepted c) b /\ ~ In (Serving c) b.
Proof. exact nothing_after_shutdown. Qed.
Print Assumptions C55_nothing_accepted_after.

(** Started twice, a connection can survive. *)
Theorem C55_started_twice_refuted :
  exists es s os, serves 1 es s os /\ In ShutDown os /\ as_queue s = [] /\ open_sockets os = [0]%nat.
Proof. exact (ex_intro _ _ survives_shutdown). Qed.
Print Assumptions C55_started_twice_refuted.

Example C55_case : exists s os,
  serves 5 [AStart; ARun; AAccept 0 true; ARun; AAccept 1 true; AShutdown; ARun; ARun; ARun; ARun; ARun; AAccept 2 true; AFail 0] s os /\
  os = [Listening; Accepting 0; Accepted 0; Serving 0; Accepting 1; Accepted 1; Serving 1; Accepting 2; ShutDown; Closed 0; Closed 1]%nat /\
  live os = [] /\ open_sockets os = [].
Proof. do 2 eexists. split; [vm_compute; reflexivity|]. repeat (split; [reflexivity|]). reflexivity. Qed.
