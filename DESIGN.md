# A formal model of modbus-cpp

The model is written in Rocq/Coq 8.16.1 (standard library only) under
`rocq/theories`. It follows `/repo/lib` function by function: every definition
cites the file and lines it models.

`properties.jsonl` lists the properties, `MANIFEST.json` says which theorems
establish them and how far, `seeded/LOG.jsonl` records the wrong programs the
theorems were tested with.

## Layers

| model | of |
|---|---|
| `Prelude.v` | machine integers (`u8`, `u16` as `N` with explicit wrap), `Expected<T>`, exception classes, the `outcome` type (`Ret` / `UB`) |
| `Ser4.v` | the part of ser4cpp the code uses: read views, bounded write views |
| `Messages.v` | `lib/src/messages/*.cpp`: every `is_valid`, `get_message_length`, `build_message`, `parse`; exception types |
| `Mbap.v` | `MbapMessage::build_message`, `MbapParser` (buffer, view position, bytes still needed) |
| `Database.v` | `SingleTypeDatabase`, `InMemoryDatabase`, as programs over map operations |
| `Locking.v` | the same programs run by several threads under the mutex |
| `Server.v` | `ServerChannelTcp`, `ServerConnectionListener` |
| `Client.v` | `ClientChannelTcp`, `PendingRequest`, posted closures, timers |
| `Scheduled.v` | `ScheduledRequest` |
| `SessionCall.v`, `Session.v` | `ClientSessionImpl`, with the channel and its scheduled requests |
| `Ids.v` | `TransactionIdentifier`, `UnitIdentifier`, printing |
| `Expected.v` | `Expected.h`, the exception classes, slicing |
| `Listener.v` | `AsioServer`: accept loop, connection limit, shutdown |
| `AsyncWrite.v`, `ClientConn.v`, `ServerConn.v` | `AsioClientTcpConnection`, `AsioServerTcpConnection` over a nondeterministic asio |
| `ClientTcp.v` | a client channel over its TCP connection, sharing one strand |
| `ServerTcp.v` | a server channel over its acceptor and connections, sharing one strand |
| `Manager.v` | `ModbusManagerImpl` with the channels it creates, on a pool of threads |
| `Config.v` | `Ipv4Endpoint`, `Logger`, logging levels, and what channels make of them |
| `Texts.v` | the texts of the exceptions about malformed responses |
| `LogTexts.v` | the wording of log lines |
| `Logs.v`, `ConnLogs.v` | `Client.v` and `Server.v`, `ClientConn.v` and `ServerConn.v` again, with the lines they log |
| `System.v` | a client channel, a server channel and a database over a network |
| `Lifetime.v` | the shared pointers among a client channel, its sessions, scheduled requests and connection |
| `ServerLifetime.v` | the shared pointers among a server channel, its acceptor, connections and sessions |
| `UserTimers.v` | timers that users start, cancel and drop, and their actions |
| `Threads.v` | which functions read and write which data on which threads, with their mutexes and posts |
| `ExampleServer.v` | examples/server: a server with a custom session and a database, and a user who types |
| `ExampleClient.v` | examples/client: a channel, a session with a scheduled request, a user who types and what is printed |
| `World.v` | `ClientTcp.v` and `ServerTcp.v` with a database behind the server, TCP between them, and other clients |
| `Full.v` | `World.v` with the sessions and scheduled requests of `Session.v` on its client channel |

`Spec*.v` are specifications independent of the model: the Modbus PDU format,
MBAP framing, the four-table data model, linearizability, and predicates over
what can be observed of a history. `*Facts.v`, `*Lemmas.v` and the remaining
files are proofs, `*Cases.v` concrete histories. `Props*.v` contain the property
theorems only, each closed by `exact lemma`, with `Print Assumptions` beneath and
an `Example` that shows the hypotheses can be met.

Undefined behaviour (use of a variable that a failed read left uninitialised,
dereferencing or advancing an end iterator, freeing a buffer an asynchronous
operation still uses) is a distinct outcome; the theorems show when it cannot
happen or exhibit it.

Concurrency: user callbacks and channel code run on a strand, so the state
machines are driven by an arbitrary sequence of events (API calls from any
thread, execution of the next posted closure, timer expiry, execution of an
expired timer's action, transport events). Theorems quantify over all such
sequences; what they say about the outcome when something is waited for is said
of states in which nothing is left to happen. Handlers supplied by users are
arbitrary functions with a state that may call the API again.

Where the model allows more behaviour than the program (timers of any order,
pieces of any size, two queues of `Session.v` that are one in the program), the
positive theorems hold all the more; the witnesses of `..._refuted` theorems are
chosen such that the program can follow them.

## How the properties are proved

* C01-C06, C09, C10, C60: each message class against an independent relation
  "this byte list is the PDU of this request/response"; parse accepts exactly
  that relation and build produces it.
* C12, C13, C15, C17, C18: the stream parser is related to an abstract
  byte-at-a-time automaton.
* C19-C23: sorted association lists refined to partial functions; iterators are
  suffixes of the list.
* C24: each concurrent history is equal to the sequential execution in the order
  of lock acquisition.
* C25-C30: `on_mbap` against a decision table; induction over frames.
* C32-C42: invariant over all event sequences of the client channel.
* C43-C46, C56-C59: invariants of the connection classes, and of the stream of
  bytes they take.
* C47-C49: invariant of one scheduled request.
* C50, C51, C55: invariant over accept/close/shutdown histories.
* C52-C54: computation on finite domains, case analysis.
* C31: a simulation of client, server and database by the four-table model.
* C61-C67, C90: the channel cannot tell its sessions from a script of API calls, so
  its invariant holds unchanged; a second invariant relates sessions, scheduled
  requests and the channel's calls.
* C68-C78: every history of channel and connection projects to one history of
  each, so their theorems carry over; a trace invariant says what may follow what.
  C78 follows the stream of a whole working session round by round.

* C79: invariant of the reads of one connection.
* C80-C89: as C68-C78, for the server: a history projects to one of the channel, one
  of the acceptor and one of each connection; an invariant links the acceptor's view
  of the sockets to the connections'.  C89 uses a weight of the posted closures.
* C91-C93: a history of a manager projects to one of each channel; an invariant
  relates its lists to those registered and told so far.
* C94, C95: computation.
* C96: the steps of the parts, with all they keep for themselves, are simulated by
  those of a small abstract network (`NetFacts.v`), which has the invariant of C31; the
  simulation needs that histories are orderly on the client's connections.  What arrives
  on others is for the database a sequence of accesses by others (`WorldOther.v`).  C97 shows by histories that violate
  one condition each what can happen otherwise.
* C98: a history of the whole projects to one of each side, where the database is
  replaced by sessions that are given their answers in advance.
* C99: the abstract network of C96 also says where each unanswered request is; at rest
  it can be nowhere (`WorldRest.v`).
* C108: the events of a client channel happen at times, with bounds on how late closures
  and timer actions run (`SpecClientTime.v`); an invariant bounds when each timer is started
  by the timeouts of the unanswered requests before it.
* C110: one turn of the witness, a request that times out, is a lemma over any state; the
  history of 65536 of them is made by induction, not by computation.
* C109: a measure that every event after the shutdown decreases: first the rejections
  still queued, as their handlers may call the API, then what is queued, armed and
  outstanding (`TcpEnd.v`); for servers, connections and their operations (`ServerEnd.v`).
* C111: a history of everything projects to one of sessions and their channel and to one of
  the network, where the sessions are replaced by handlers that are given the calls they
  make in advance (`FullSim.v`, `FullParts.v`); what is told is then followed through both.
* C112: a request is sent only after those before it are completed, and a response is given
  only after its request was executed; what is read after a write follows from the
  four-table model, access by access (`OrderFacts.v`).
* C113: a call of `shutdown` by whomever leaves its closure in the queue (`FullEndRun.v`);
  a lexicographic measure of sessions, scheduled requests and the client of C109 (`FullEnd.v`).
* C114: a timed history of sessions projects to one of their channel, so C108 bounds when a
  call is completed; each step is described as seen by one scheduled request
  (`SessionTime.v`), and the times of timers and closures follow by induction
  (`SessionTimed.v`). That time can pass: what is older than now is dealt with in
  turn, and no step adds anything old (`SessionTimeRun.v`).
* C115: each channel of a manager ends by C109, and a finite list of which one element at
  a time makes a step of a well-founded relation does so finitely often (`ManagerEnd.v`).
* C116: by cases on the request and the length of the response (`TextsFacts.v`).
* C117: the functions of `Logs.v` are those of `Client.v` and `Server.v` once the lines are
  erased, so the invariants of those apply; which lines surround an effect is shown for
  each event (`LogsFacts.v`, `LogsEvents.v`). C118 likewise (`ConnLogsFacts.v`).
* C119: what is sent, plus 260/12 of the bytes waiting in the parsers, is at most 260/12 of
  the bytes received; each step keeps this, as a frame costs its client its own length
  (`BoundFacts.v`). On the wire by the projections of C80 (`BoundTcpFacts.v`).
* C120: a simulation between the history and the one without the other connections: the
  servers differ in the parsers of the others only, the sessions' states in what the client's
  sessions do not know (`AloneFacts.v`).
* C121, C122: a simulation between the two histories: the parsers of a connection have
  received the same bytes, so they hold the same rest of the stream (or one of them an empty
  frame that nobody will notice), and from then on deliver the same (`ChunksFacts.v`,
  `ClientChunksFacts.v`). The channels do not look into the parsers.
* C123, C124: the same simulations; after whole frames a parser is where a new one is, or has
  an empty frame more to deliver, which a server ignores (`StrayFacts.v`, `StrayServer.v`).
* C125, C126: from the four-table model, which says that requests keep the set of addresses
  and change nothing but the addresses that they write; sorted tables with the same values are
  equal (`RepeatFacts.v`). For frames: a parser that
  gets a frame twice is afterwards in the very state in which it was after the first time,
  including the old bytes of its buffer (`RepeatParser.v`, `RepeatServer.v`).
* C127: texts are taken apart from the left: fixed words, identifiers of fixed length, digits up
  to the first character that is none (`LogTextsFacts.v`).
* C128: by induction over the calls of the four-table model, going back from a read to the call
  that wrote; then with C111 (`OriginFacts.v`, `OriginFull.v`).
* C129: an invariant of the channel alone; with TCP from C68 (`TimerFacts.v`).
* C130: an invariant of the connection alone: no two reads of a socket, and none of a socket
  that is being connected (`ReadFacts.v`); with TCP from C68.
* C131: an invariant of the connection alone (`AttemptFacts.v`); with TCP from C68.
* C132: case analysis on what happens at once in the two parts together (`DemandFacts.v`).
* C133: invariants saying that a shutdown leaves nothing for the next one to do (`AgainFacts.v`, `AgainServer.v`).
* C134: the invariant behind C79, carried over to the whole server with C80 (`ServerReads.v`).
* C135: two sorted lists with the same members are equal (`HeldFacts.v`).
* C136: computation (`CallFacts.v`, `CallServer.v`).
* C137: an invariant that relates the timers to what was observed of them (`UserTimersFacts.v`).

A property that is false of the code is a theorem `..._refuted` with a witness,
next to the strongest restriction found to be true (often `..._partial`).

## Checks of the model itself

* `ConformCodec.v` and `ConformParts.v` replay the repository's own unit tests
  (lib/tests/unit) on the model: inputs and expected results are those of the
  tests, with file and line.  All of them agree.  Left out: address-of-copy
  checks after `clone`, `std::hash` inequality of two given identifiers, and the
  test that calls `close` on a client connection (no caller in the library).
* `seeded/LOG.jsonl` lists deliberately wrong variants of the model and the
  theorems that reject them.

## Findings

Deviations of the code from its documentation or from what it evidently intends:

* Register responses: only the parity of the byte count is checked (C07);
  write responses are never compared to the request (C08).
* Exception code 8 is written as 7 by the builder and not read back (C11).
* Over-long MBAP frames are not skipped, and what is delivered can depend on how
  TCP cut the stream (C14); an empty PDU makes the parser deliver a frame when
  the next byte arrives (C16).
* `add_session` keeps the first session of a unit, contrary to its
  documentation (C28); a session registered for two units is shut down twice (C29).
* A session answering more than 125 registers makes the server send a byte that
  was never written (C30).
* Client shutdown drops requests without calling their handlers (C40); an
  expired timer whose action was not executed yet fails the next request (C42).
* A half-received response survives a graceful close by the peer and corrupts the
  first response of the next connection (C43); after a resolve or bind failure
  the client never connects again (C44).
* A second `send` replaces the buffer of a write in progress (C45); partial sends
  drop the rest (C46); the aborted read after a failed write is reported as an
  error of the next connection attempt (C56).
* A read handler that runs only after a reconnection begins a second read of the new
  socket, into the same buffer (C130).
* After one failed write, two attempts to connect can be under way at once (C131).
* Stop and start while a request waits creates a second polling loop (C47), whose
  timer cannot be stopped (C48).
* One accept error ends the accept loop (C51); starting a server twice breaks the
  connection limit (C50, C55).
* Printing an identifier leaves the stream in hexadecimal (C52); slicing of
  exceptions is not detected for the library's own classes (C54).
* The four read responses are always valid (C60).
* Shutting a session down does not cancel its pending requests (C65); restarted
  scheduled requests are not stopped by a second shutdown (C61); requests
  scheduled after the shutdown of the channel run without ever being answered
  (C62, C66).
* A request that timed out while the connection was being made is still
  transmitted (C70); a time-out while a frame is being written frees the buffer
  of the write (C71); a close by the peer is not reported to the outstanding
  request (C72); shutdown leaves the socket open until the destructor runs (C75);
  a request repeated by its handler after a resolve failure leads to no new
  connection attempt (C77).

* A response of which the transport takes only a part is reported as sent (C81); a
  server channel that is shut down without having been started keeps its acceptor,
  which is opened in the constructor (C84); two requests that arrive together can
  free the buffer of a write in progress (C85); `start` can be called twice, with
  the consequences of C50 and C55 for the whole server (C84, C87).
* `IModbusManager::shutdown` does not join the threads, contrary to its
  documentation: handlers may be called after it returned, and channels that are
  being created meanwhile, or later, live on (C93).
* A server listens on the port modulo 65536 (C94); the logger of sessions does not
  have the level of their channel (C95; nothing is logged with it so far).

* Consequences of the above for the whole: a request that is sent in part makes the
  server execute one nobody made; overlapping connection attempts send a request
  twice; a read that completes after a failed write resumes in the middle of a frame,
  by which responses and requests can be invented (C97).
* A successful write completion that is executed after its connection was closed clears
  `m_write_buffer`, and with it the request that waits for the next connection, which
  is then never sent (C99).
* A request that is scheduled after the shutdown of its channel and its session keep
  each other alive for ever, and with them the channel and its connection, whose
  socket is therefore never closed (C100).

* Not all methods of the public API are thread-safe, contrary to the documentation:
  `create_session` races with itself and with the shutdown of the channel, sending a
  request, `start` and `add_session` with the shutdown, `is_running` with starting and
  stopping, `get_frequency` with `set_frequency`; and so do the virtual functions of
  `IDatabase` on an in-memory database, outside of transactions, with its requests
  (C101, with the proof that there are no others).
* A transaction that adds a value to its own database waits for its own mutex for
  ever (C102).
* The timeout of a request counts from when it is sent, not from when it is made: with
  others unanswered before it, its handler is called later; and by the race of C42 it can
  be told that it timed out at the moment when it is sent (C108).
* The "frequency" of a scheduled request is the time from a response to the next request,
  not that between requests; one that is stopped and started again while a request is
  outstanding repeats its request twice as often (C114).
* Transaction identifiers come round after 65536 requests, so an answer that arrives
  after as many timeouts is reported as that to another request (C110).
* A request whose connection failed may still be executed, after later requests that were
  answered: a confirmed write is undone by an older one that was reported as failed (C112).
* The threads of the manager do not return if a server channel was started twice and
  its surviving connection stays open: it is read for ever (C109).
* At the end of their input the examples use an uninitialised character; typically
  they then repeat the last command for ever (C103, C105).
* The example client decides with `is_running` whether 's' stops or starts the
  scheduled request, but both only post: typed twice quickly, 's' stops it twice
  (C105).
* A response with all its registers but an odd byte count is reported as containing an odd
  number of register bytes (C116).
* A request that is refused because it is invalid, and one that a session answers with an
  error that is no Modbus exception, leave no trace in the log (C117).
* A server logs as an error that a client closed its connection, and does not log that it
  shut one down; a client logs that it closes connections that it never established (C118).
* If a copy that does not fit copies nothing, an over-long frame is answered for what an
  earlier frame said, even one for a unit without a session (C124).
* Of the timeout of a request, the log says only the milliseconds (C127).
* Shutting down a session or channel does not cancel the timers that users started. One
  whose action starts it again keeps the destructor of the manager waiting forever (C137).

## Not modelled

Time stamps and layout of log lines; name resolution, address parsing and socket options beyond their
success or failure; real time, except in C108, C114 and C137 (durations are recorded, timers expire at
any moment); memory exhaustion; exceptions thrown by user callbacks; destruction of
objects (shared pointers are assumed to keep everything alive as long as it is
used; `Lifetime.v` and `ServerLifetime.v` say which are left, and C107 that weak
pointers of the server make no difference), including the joining of the threads by the
manager's (C109 and C115 say that there is an end to wait for, provided that users have
started no timers: a shutdown does not cancel those, C137).

## Trusted base

* Coq's kernel (8.16.1). No axioms: `Print Assumptions` is printed under each
  property theorem.
* That the definitions in the model files say what the cited C++ lines do.
* Libraries that are not in the repository:
  * ser4cpp: `rseq_t` is a list of bytes whose `take` and `skip` clamp;
    `UIntN::read_from` fails without consuming anything on a short view;
    `UIntN::write_to` does nothing on a short destination; both are big-endian.
    What `copy_from` does when the destination is too short is not assumed:
    `copy_policy` leaves both readings open and theorems hold for both.
  * `StaticBuffer`: its initial content is arbitrary (`good_buf`).
  * exe4cpp: closures posted to a strand run one at a time in FIFO order, and not
    at the same time as timer actions and completion handlers; a timer is a handle
    whose copies may all be destroyed without cancelling it; an expired timer cannot be
    cancelled any more.
    Whoever posts a closure synchronises with its execution, and what is executed on
    a strand with what is executed on it later (C101).
    Cancelling a timer releases what its action holds, and so does executing a
    closure or an action (C100).
  * asio: `async_send` needs its buffer until completion and may transfer less
    than asked; closing a socket completes its operations with an error without
    touching the buffer again; other operations complete at any time, once.
  * fmt and spdlog: `{}` stands for the next argument, a number in decimal or what an
    identifier writes to a new stream (C127 only).
  * The C++ library: `std::map`, `std::unordered_map`, `std::deque`, `std::mutex`,
    formatted output of `std::ostream`, `typeid`, with the behaviour written next
    to the definitions modelling them.
* C101 and C102 only: the executor, the thread pool, loggers and reference counts may be
  used from several threads; `Threads.v` says nothing about them.
* C109: operations complete eventually, those that `cancel` or `close` abort at once;
  the threads of `exe4cpp::ThreadPool` return when nothing is left to be executed.
* C108 and C114 only: a timer does not expire before its time; closures and timer actions are
  executed within a known time.
* C31 and C96 only: the network between client and server delivers the bytes given to a
  connection in order, each at most once, in pieces of any size and with any delay,
  and reports a break by an error (C96: at the two ends independently). Where the connection classes fall short of this
  is the subject of C43-C46.
