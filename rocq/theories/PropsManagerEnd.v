(** C115: the destructor of a manager returns. *)
From Verif Require Import Prelude Ser4 Messages Mbap SpecMbap Client SpecClient AsyncWrite ClientConn SpecConn ClientTcp SpecClientTcp SpecEnd
  Server SpecServer ServerLemmas Listener SpecListener ServerConn ServerTcp SpecServerTcp ServerLifetime SpecServerLifetime SpecServerEnd
  Manager SpecManager SpecManagerEnd ManagerEnd ManagerEndCases.

(** The destructor shuts down every channel and then joins the threads of the pool, which
    return when nothing is posted and no operation and no timer is outstanding
    (ModbusManagerImpl.cpp:37-40, ModbusManagerImpl.h:45).  When every channel was told to
    shut down and the closures that this leads to were executed, whatever still happens to
    the channels, in whatever order, is well defined and ends, and then nothing is left. *)
Theorem C115_manager_ends_partial : forall {U V : Type} pol es (s : manager U V) l es1 s1 l1 es2 s2 l2,
  manager_history pol es s l -> (forall i, (i < List.length (mg_channels s2))%nat -> In i (told l)) ->
  (forall r d max w, In (MNewServer r d max w) (es ++ es1 ++ es2) -> well_typed r /\ max < 2 ^ 32 - 1) ->
  Forall typed_mevent (es1 ++ es2) -> manager_run pol s es1 = Ret (s1, l1) -> manager_run pol s1 es2 = Ret (s2, l2) ->
  (forall i h c, nth_error (mg_channels s) i = Some (ClientSide h c) -> (List.length (tc_order c) <= truns (client_events i l1))%nat) ->
  (forall i h c, nth_error (mg_channels s1) i = Some (ClientSide h c) -> (List.length (tc_order c) <= truns (client_events i l2))%nat) ->
  (forall i r d c, nth_error (mg_channels s2) i = Some (ServerSide r d c) ->
     us_order c = [] /\ (starts_of (listen_ins (server_marks i (l ++ l1 ++ l2))) <= 1)%nat) ->
  manager_ends pol s2.
Proof. exact @manager_comes_to_end. Qed.
Print Assumptions C115_manager_ends_partial.

(** Without the restriction that server channels are started at most once: refuted, one
    connection is read for as long as its peer sends. *)
Theorem C115_manager_ends_refuted :
  ~ (forall (U V : Type) pol es (s : manager U V) l, manager_history pol es s l -> (forall i, (i < List.length (mg_channels s))%nat -> In i (told l)) ->
     (forall i h c, nth_error (mg_channels s) i <> Some (ClientSide h c)) -> (forall i r d c, nth_error (mg_channels s) i = Some (ServerSide r d c) -> us_order c = []) ->
     (forall r d max w, In (MNewServer r d max w) es -> well_typed r /\ max < 2 ^ 32 - 1) -> manager_ends pol s).
Proof. exact not_always_over. Qed.
Print Assumptions C115_manager_ends_refuted.

(** A client channel with a request on its way, one that connects, and a server channel
    with a connection: the resolver is still to answer when the closures were executed. *)
Example C115_case : exists es s l es1 s1 l1 s2 l2, @manager_history bool nat AllOrNothing es s l /\ (forall i, (i < List.length (mg_channels s2))%nat -> In i (told l)) /\
  manager_run AllOrNothing s es1 = Ret (s1, l1) /\ manager_run AllOrNothing s1 es1 = Ret (s2, l2) /\ List.length (mg_channels s2) = 3%nat /\
  manager_enabled s2 (MClient 2 (TResolved true "")) /\ manager_ends AllOrNothing s2.
Proof. exact three_come_to_end. Qed.
Print Assumptions C115_case.
