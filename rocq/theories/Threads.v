(** Which threads use which data: the accesses of the library's functions to the data
    that is not constant, the mutexes they lock and the closures they post.

    Only what is read and written is modelled here, not the values.  A function may do
    all or part of what is listed for it, in this order (it depends on the values which).
    [Write] stands for reading as well.  Data that is set by the constructors only, the
    objects of the application, the executor, the loggers and reference counts are
    left out. *)
From Verif Require Import Prelude.

(** Application threads, and strands: a strand executes one function at a time, each
    after the other (in whichever thread of the pool).  Every channel has its own
    (ModbusManagerImpl.cpp:47, :70). *)
Inductive thread : Type := App (t : nat) | Strand (c : nat).

Inductive mutex : Type :=
| ManagerMutex                       (* ModbusManagerImpl.h:47 *)
| DatabaseMutex (d : nat).           (* InMemoryDatabase.h:126 *)

(** Client and server channels have numbers [c], sessions [x], scheduled requests [j],
    databases [d]. *)
Inductive location : Type :=
| ClientChannels | ServerChannels    (* ModbusManagerImpl.h:48-49 *)
| ClientIsShutdown (c : nat)         (* ClientChannelTcp.h:71 m_is_shutdown *)
| ClientSessions (c : nat)           (* :72 m_sessions *)
| ClientParser (c : nat)             (* :73 m_parser *)
| ClientPending (c : nat)            (* :74 m_pending_requests *)
| ClientCurrent (c : nat)            (* :75 m_current_request *)
| ClientTimer (c : nat)              (* :76 m_current_timer *)
| ClientTransaction (c : nat)        (* :77 m_next_transaction_id *)
| ClientConnection (c : nat)         (* the members of the AsioClientTcpConnection *)
| SessionRequests (c x : nat)        (* ClientSessionImpl.h:150 m_scheduled_requests *)
| Running (c j : nat)                (* ScheduledRequest.h:61 m_running *)
| Frequency (c j : nat)              (* ScheduledRequest.h:59 m_frequency *)
| PollTimer (c j : nat)              (* ScheduledRequest.h:62 m_timer *)
| ServerIsShutdown (c : nat)         (* ServerChannelTcp.h:58 *)
| ServerStarted (c : nat)            (* :59 *)
| ServerSessions (c : nat)           (* :60 *)
| Acceptor (c : nat)                 (* the members of the AsioServer, its connections and their listeners *)
| Tables (d : nat).                  (* InMemoryDatabase.h:127-130 *)

Inductive function : Type :=
(* called by the application, and by its handlers *)
| CreateClient | CreateServer
| ManagerShutdown (clients : list (nat * list (nat * list nat))) (servers : list nat)
| CreateSession (c : nat)
| ChannelShutdown (c : nat) (xs : list (nat * list nat))
| SendRequest (c : nat)
| ScheduleRequest (c x j : nat)
| SessionShutdown (c x : nat) (js : list nat)
| StartRequest (c j : nat) | StopRequest (c j : nat) | SetFrequency (c j : nat)
| GetFrequency (c j : nat) | IsRunning (c j : nat)
| ServerStart (c : nat) | ServerShutdown (c : nat) | AddSession (c : nat)
| AddValue (d : nat) | Transaction (d : nat) | Request (d : nat)
| GetValue (d : nat) | SetValue (d : nat)
(* posted *)
| DoSend (c : nat) | DoReject (c : nat)
| DoChannelShutdown (c : nat) (xs : list (nat * list nat))
| DoSessionShutdown (c x : nat) (js : list nat) | DoRegister (c x j : nat)
| DoStart (c j : nat) | DoStop (c j : nat) | DoSetFrequency (c j : nat)
| ConnectionShutdown (c : nat) | ConnectionClose (c : nat)
| DoServerStart (c : nat) | DoServerShutdown (c : nat) | DoAddSession (c : nat)
| DoAccept (c : nat) | AcceptorShutdown (c : nat) | ServerConnectionClose (c : nat)
(* called by timers and completed operations *)
| OnTimeout (c : nat) | OnReceive (c : nat) | OnError (c : nat) | OnConnection (c : nat)
| OnPollTimer (c j : nat) | OnPollResponse (c j : nat)
| OnAccept (c : nat) | OnServerReceive (c : nat) | OnServerIo (c : nat)
| OnUserTimer (c : nat).

Inductive action : Type :=
| Read (l : location) | Write (l : location)
| Acquire (m : mutex) | Release (m : mutex)
| Post (c : nat) (f : function)
| CallUser.                          (* the application's code is called here *)

(** check_pending_requests, ClientChannelTcp.cpp:170-208, with send of the connection. *)
Definition check_pending (c : nat) : list action :=
  [Read (ClientIsShutdown c); Write (ClientCurrent c); Write (ClientPending c); Write (ClientConnection c); Write (ClientTimer c)].

(** channel->send_request, ClientChannelTcp.cpp:60-92. *)
Definition channel_send (c : nat) : list action :=
  [Read (ClientIsShutdown c); Post c (DoSend c); Post c (DoReject c)].

Definition body (f : function) : list action :=
  match f with
  | CreateClient => [Acquire ManagerMutex; Write ClientChannels; Release ManagerMutex]   (* ModbusManagerImpl.cpp:58-59 *)
  | CreateServer => [Acquire ManagerMutex; Write ServerChannels; Release ManagerMutex]   (* :81-82 *)
  | ManagerShutdown cs ss =>                                                             (* :88-103 *)
      Acquire ManagerMutex :: Read ClientChannels :: map (fun p => Post (fst p) (DoChannelShutdown (fst p) (snd p))) cs ++
      Write ClientChannels :: Read ServerChannels :: map (fun c => Post c (DoServerShutdown c)) ss ++
      [Write ServerChannels; Release ManagerMutex]
  | CreateSession c => [Read (ClientIsShutdown c); Write (ClientSessions c)]             (* ClientChannelTcp.cpp:47-54 *)
  | ChannelShutdown c xs => [Post c (DoChannelShutdown c xs)]                            (* :96 *)
  | SendRequest c => channel_send c                                                      (* ClientSessionImpl.cpp:247 *)
  | ScheduleRequest c x j => [Post c (DoStart c j); Post c (DoRegister c x j)]           (* :272-276 *)
  | SessionShutdown c x js => [Post c (DoSessionShutdown c x js)]                        (* :57 *)
  | StartRequest c j => [Post c (DoStart c j)]                                           (* ScheduledRequest.hpp:49 *)
  | StopRequest c j => [Post c (DoStop c j)]                                             (* :61 *)
  | SetFrequency c j => [Post c (DoSetFrequency c j)]                                    (* :73 *)
  | GetFrequency c j => [Read (Frequency c j)]                                           (* :81 *)
  | IsRunning c j => [Read (Running c j)]                                                (* :87 *)
  | ServerStart c => [Read (ServerIsShutdown c); Post c (DoServerStart c)]               (* ServerChannelTcp.cpp:58-60 *)
  | ServerShutdown c => [Post c (DoServerShutdown c)]                                    (* :70 *)
  | AddSession c => [Read (ServerIsShutdown c); Post c (DoAddSession c)]                 (* :90-92 *)
  | AddValue d => [Acquire (DatabaseMutex d); Write (Tables d); Release (DatabaseMutex d)]   (* InMemoryDatabase.cpp:23-49 *)
  | Transaction d => [Acquire (DatabaseMutex d); CallUser; Release (DatabaseMutex d)]    (* :51-56 *)
  | Request d => [Acquire (DatabaseMutex d); Write (Tables d); Release (DatabaseMutex d)]    (* :58-188 *)
  | GetValue d => [Read (Tables d)]                                                      (* :190, :200, :210, :220 *)
  | SetValue d => [Write (Tables d)]                                                     (* :195, :205, :215, :225 *)
  | DoSend c =>                                                                          (* ClientChannelTcp.cpp:70-84 *)
      [Read (ClientIsShutdown c); Write (ClientTransaction c); Write (ClientPending c)] ++ check_pending c
  | DoReject c => [CallUser]                                                             (* :87-90 *)
  | DoChannelShutdown c xs =>                                                            (* :96-111 *)
      [Write (ClientIsShutdown c); Read (ClientSessions c)] ++ map (fun p => Post c (DoSessionShutdown c (fst p) (snd p))) xs ++
      [Write (ClientSessions c); Write (ClientPending c); Write (ClientCurrent c); Write (ClientTimer c); Post c (ConnectionShutdown c)]
  | DoSessionShutdown c x js =>                                                          (* ClientSessionImpl.cpp:57-64 *)
      Read (SessionRequests c x) :: map (fun j => Post c (DoStop c j)) js ++ [Write (SessionRequests c x)]
  | DoRegister c x j => [Write (SessionRequests c x)]                                    (* :274-276 *)
  | DoStart c j => Write (Running c j) :: channel_send c                                 (* ScheduledRequest.hpp:49-55 *)
  | DoStop c j => [Write (Running c j); Write (PollTimer c j)]                           (* :61-67 *)
  | DoSetFrequency c j => [Write (Frequency c j)]                                        (* :73-75 *)
  | ConnectionShutdown c => [Write (ClientConnection c)]                                 (* AsioClientTcpConnection.cpp:108-113 *)
  | ConnectionClose c => [Write (ClientConnection c)]                                    (* :90-103 *)
  | DoServerStart c =>                                                                   (* ServerChannelTcp.cpp:60-65 *)
      [Read (ServerIsShutdown c); Write (Acceptor c); Post c (DoAccept c); Write (ServerStarted c)]
  | DoServerShutdown c =>                                                                (* :70-85 *)
      [Write (ServerIsShutdown c); Write (ServerStarted c); Post c (AcceptorShutdown c); Read (ServerSessions c); CallUser; Write (ServerSessions c)]
  | DoAddSession c => [Read (ServerIsShutdown c); Write (ServerSessions c)]              (* :92-96 *)
  | DoAccept c => [Write (Acceptor c)]                                                   (* AsioServer.cpp:67-78 *)
  | AcceptorShutdown c => [Write (Acceptor c); Post c (ServerConnectionClose c)]         (* :32-44 *)
  | ServerConnectionClose c => [Write (Acceptor c)]                                      (* AsioServerTcpConnection.cpp:57-71 *)
  | OnTimeout c =>                                                                       (* ClientChannelTcp.cpp:195-207, :210-219 *)
      [Read (ClientIsShutdown c); Write (ClientCurrent c); CallUser; Write (ClientTimer c)] ++ check_pending c
  | OnReceive c =>                                                                       (* AsioClientTcpConnection.cpp:154-183, ClientChannelTcp.cpp:114-168 *)
      [Write (ClientConnection c); Read (ClientIsShutdown c); Write (ClientParser c); Write (ClientCurrent c); Write (ClientTimer c); CallUser] ++
      check_pending c ++ [Write (ClientConnection c)]
  | OnError c =>                                                                         (* AsioClientTcpConnection.cpp:116-206, :231-; ClientChannelTcp.cpp:123-138 *)
      [Write (ClientConnection c); Post c (ConnectionClose c); Read (ClientIsShutdown c); Write (ClientParser c); Write (ClientPending c); CallUser;
       Write (ClientCurrent c); CallUser; Write (ClientTimer c)] ++ check_pending c
  | OnConnection c => [Write (ClientConnection c)]                                       (* AsioClientTcpConnection.cpp:116-206 *)
  | OnPollTimer c j => channel_send c                                                    (* ScheduledRequest.hpp:102-104 *)
  | OnPollResponse c j => [CallUser; Read (Running c j); Read (Frequency c j); Write (PollTimer c j)]   (* :94-106 *)
  | OnAccept c => [Write (Acceptor c); Post c (ServerConnectionClose c); Post c (DoAccept c)]   (* AsioServer.cpp:81-103 *)
  | OnServerReceive c =>                                                                 (* AsioServerTcpConnection.cpp:102-122, ServerChannelTcp.cpp:99-209 *)
      [Write (Acceptor c); Read (ServerIsShutdown c); Read (ServerSessions c); CallUser; Write (Acceptor c)]
  | OnServerIo c => [Write (Acceptor c); Post c (ServerConnectionClose c)]               (* AsioServerTcpConnection.cpp:102-144 *)
  | OnUserTimer c => [CallUser]                                                          (* ClientSessionImpl.cpp:231-239 *)
  end.

(** The functions that any thread can call.  [OnPollResponse] is the handler that
    scheduled requests pass to sessions, and is called where the application's are. *)
Definition callable (t : thread) (f : function) : bool :=
  match f with
  | CreateClient | CreateServer | ManagerShutdown _ _ | CreateSession _ | ChannelShutdown _ _ | SendRequest _
  | ScheduleRequest _ _ _ | SessionShutdown _ _ _ | StartRequest _ _ | StopRequest _ _ | SetFrequency _ _
  | GetFrequency _ _ | IsRunning _ _ | ServerStart _ | ServerShutdown _ | AddSession _
  | AddValue _ | Transaction _ | Request _ | GetValue _ | SetValue _ => true
  | OnTimeout c | OnReceive c | OnError c | OnConnection c | OnPollTimer c _ | OnPollResponse c _
  | OnAccept c | OnServerReceive c | OnServerIo c | OnUserTimer c =>
      match t with Strand c' => Nat.eqb c' c | App _ => false end
  | _ => false
  end.

(** ** Executions *)
Inductive operation : Type :=
| ORead (l : location) | OWrite (l : location)
| OAcquire (m : mutex) | ORelease (m : mutex)
| OPost (n : nat) (f : function)     (* the [n]-th closure posted *)
| OBegin (n : nat).                  (* it begins *)

Record event : Type := { ev_thread : thread; ev_function : function; ev_op : operation }.

(** A thread with the functions it is executing, innermost first, and what they have
    yet to do; the owners of the mutexes; and the closures posted. *)
Record threads : Type := {
  th_stack : thread -> list (function * list action);
  th_owner : mutex -> option thread;
  th_queue : list (nat * nat * function);
  th_posted : nat
}.

Definition threads_init : threads :=
  {| th_stack := fun _ => []; th_owner := fun _ => None; th_queue := []; th_posted := 0 |}.

Definition thread_eqb (a b : thread) : bool :=
  match a, b with App t, App u => Nat.eqb t u | Strand c, Strand d => Nat.eqb c d | _, _ => false end.
Definition mutex_eqb (a b : mutex) : bool :=
  match a, b with ManagerMutex, ManagerMutex => true | DatabaseMutex d, DatabaseMutex e => Nat.eqb d e | _, _ => false end.

Definition set_stack (s : threads) (t : thread) (l : list (function * list action)) : threads :=
  {| th_stack := fun u => if thread_eqb t u then l else th_stack s u; th_owner := th_owner s; th_queue := th_queue s; th_posted := th_posted s |}.
Definition set_owner (s : threads) (m : mutex) (o : option thread) : threads :=
  {| th_stack := th_stack s; th_owner := fun n => if mutex_eqb m n then o else th_owner s n; th_queue := th_queue s; th_posted := th_posted s |}.
Definition set_queue (s : threads) (q : list (nat * nat * function)) (n : nat) : threads :=
  {| th_stack := th_stack s; th_owner := th_owner s; th_queue := q; th_posted := n |}.

(** What the scheduler and the branches decide: thread [t] calls [f]; it does, or leaves
    out, the next thing its function has to do; strand [c] takes the next closure. *)
Inductive choice : Type := Enter (t : thread) (f : function) | Next (t : thread) | Skip (t : thread) | Dequeue (c : nat).

Fixpoint take_first (c : nat) (q : list (nat * nat * function)) : option (nat * function * list (nat * nat * function)) :=
  match q with
  | [] => None
  | (n, c', f) :: q' =>
      if Nat.eqb c' c then Some (n, f, q')
      else match take_first c q' with Some (m, g, r) => Some (m, g, (n, c', f) :: r) | None => None end
  end.

Definition thread_step (s : threads) (e : choice) : threads * list event :=
  match e with
  | Enter t f =>
      let ok := match th_stack s t with [] => true | (_, CallUser :: _) :: _ => true | _ => false end in
      if (ok && callable t f)%bool then (set_stack s t ((f, body f) :: th_stack s t), []) else (s, [])
  | Next t =>
      match th_stack s t with
      | [] => (s, [])
      | (f, []) :: l => (set_stack s t l, [])                                            (* f returns *)
      | (f, a :: r) :: l =>
          let s' := set_stack s t ((f, r) :: l) in
          let did o := [{| ev_thread := t; ev_function := f; ev_op := o |}] in
          match a with
          | Read x => (s', did (ORead x))
          | Write x => (s', did (OWrite x))
          | Acquire m => match th_owner s m with None => (set_owner s' m (Some t), did (OAcquire m)) | Some _ => (s, []) end
          | Release m => (set_owner s' m None, did (ORelease m))
          | Post c g => (set_queue s' (th_queue s ++ [(th_posted s, c, g)]) (S (th_posted s)), did (OPost (th_posted s) g))
          | CallUser => (s', [])
          end
      end
  | Skip t =>
      match th_stack s t with
      | (f, (Read _ | Write _ | Post _ _) :: r) :: l => (set_stack s t ((f, r) :: l), [])
      | _ => (s, [])
      end
  | Dequeue c =>
      match th_stack s (Strand c), take_first c (th_queue s) with
      | [], Some (n, f, q) =>
          (set_stack (set_queue s q (th_posted s)) (Strand c) [(f, body f)],
           [{| ev_thread := Strand c; ev_function := f; ev_op := OBegin n |}])
      | _, _ => (s, [])
      end
  end.

Fixpoint thread_run (s : threads) (es : list choice) : threads * list event :=
  match es with
  | [] => (s, [])
  | e :: es' =>
      let '(s, o) := thread_step s e in
      let '(s, o') := thread_run s es' in
      (s, o ++ o')
  end.
