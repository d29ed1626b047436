{"id": "C01", "title": "Request codec round trip", "statement": "For each of the eight supported request types, serialising a valid request with build_message and parsing the bytes with the matching server-side parse returns the very same request.", "quantifier": "every request type and every request the client accepts as valid (all addresses, quantities, coil states, register values)", "why_tests_cant": "the space of requests (up to 2^1968 coil vectors at 65536 addresses) cannot be enumerated; tests try a few literals", "anchors": ["lib/src/messages/ReadBitsRequestImpl.cpp::build_message", "lib/src/messages/ReadBitsRequestImpl.cpp::parse", "lib/src/messages/ReadRegistersRequestImpl.cpp::build_message", "lib/src/messages/ReadRegistersRequestImpl.cpp::parse", "lib/src/messages/WriteSingleCoilRequestImpl.cpp::build_message", "lib/src/messages/WriteSingleCoilRequestImpl.cpp::parse", "lib/src/messages/WriteSingleRegisterRequestImpl.cpp::build_message", "lib/src/messages/WriteSingleRegisterRequestImpl.cpp::parse", "lib/src/messages/WriteMultipleCoilsRequestImpl.cpp::build_message", "lib/src/messages/WriteMultipleCoilsRequestImpl.cpp::parse", "lib/src/messages/WriteMultipleRegistersRequestImpl.cpp::build_message", "lib/src/messages/WriteMultipleRegistersRequestImpl.cpp::parse"]}
{"id": "C02", "title": "Response codec round trip", "statement": "For each request type, serialising a response that answers the request and parsing it on the client yields the same values, tied to addresses start, start+1, ... in order.", "quantifier": "every valid request and every response of the size the request asks for", "why_tests_cant": "quantifies over all request/response pairs, including every non-multiple-of-8 bit count", "anchors": ["lib/src/messages/ReadBitsResponseImpl.cpp::build_message", "lib/src/messages/ReadBitsResponseImpl.cpp::parse", "lib/src/messages/ReadRegistersResponseImpl.cpp::build_message", "lib/src/messages/ReadRegistersResponseImpl.cpp::parse", "lib/src/messages/WriteSingleCoilResponseImpl.cpp::build_message", "lib/src/messages/WriteSingleCoilResponseImpl.cpp::parse", "lib/src/messages/WriteSingleRegisterResponseImpl.cpp::build_message", "lib/src/messages/WriteSingleRegisterResponseImpl.cpp::parse", "lib/src/messages/WriteMultipleCoilsResponseImpl.cpp::build_message", "lib/src/messages/WriteMultipleCoilsResponseImpl.cpp::parse", "lib/src/messages/WriteMultipleRegistersResponseImpl.cpp::build_message", "lib/src/messages/WriteMultipleRegistersResponseImpl.cpp::parse"]}
{"id": "C03", "title": "Request wire format", "statement": "The bytes built for a request are exactly the PDU the Modbus Application Protocol prescribes: function code, big-endian address and quantity/value, byte count, then data with coils packed least-significant bit first and zero padding.", "quantifier": "every valid request of every type", "why_tests_cant": "a round trip can hold with a wrong format on both sides; conformance must hold for all field values", "anchors": ["lib/src/messages/ReadBitsRequestImpl.cpp::build_message", "lib/src/messages/ReadRegistersRequestImpl.cpp::build_message", "lib/src/messages/WriteSingleCoilRequestImpl.cpp::build_message", "lib/src/messages/WriteSingleRegisterRequestImpl.cpp::build_message", "lib/src/messages/WriteMultipleCoilsRequestImpl.cpp::build_message", "lib/src/messages/WriteMultipleRegistersRequestImpl.cpp::build_message"]}
{"id": "C04", "title": "Response wire format", "statement": "The bytes built for a response are exactly the PDU the Modbus Application Protocol prescribes (byte count, LSB-first bits with zero padding, big-endian registers, echo of address/value/quantity).", "quantifier": "every response whose data fits a PDU", "why_tests_cant": "as C03, for all values and counts", "anchors": ["lib/src/messages/ReadBitsResponseImpl.cpp::build_message", "lib/src/messages/ReadRegistersResponseImpl.cpp::build_message", "lib/src/messages/WriteSingleCoilResponseImpl.cpp::build_message", "lib/src/messages/WriteSingleRegisterResponseImpl.cpp::build_message", "lib/src/messages/WriteMultipleCoilsResponseImpl.cpp::build_message", "lib/src/messages/WriteMultipleRegistersResponseImpl.cpp::build_message", "lib/src/messages/ExceptionResponse.cpp::build_message"]}
{"id": "C05", "title": "Request parser accepts exactly the well-formed requests", "statement": "Parsing a PDU succeeds exactly when the PDU is the wire encoding of a valid request of that type, and then returns that request; a PDU with right shape but illegal quantity, byte count or coil value is answered with IllegalDataValue; anything else is a malformed-request error.", "quantifier": "every byte string of every length", "why_tests_cant": "byte strings are unbounded; the classification must be exhaustive and exclusive", "anchors": ["lib/src/messages/ReadBitsRequestImpl.cpp::parse", "lib/src/messages/ReadRegistersRequestImpl.cpp::parse", "lib/src/messages/WriteSingleCoilRequestImpl.cpp::parse", "lib/src/messages/WriteSingleRegisterRequestImpl.cpp::parse", "lib/src/messages/WriteMultipleCoilsRequestImpl.cpp::parse", "lib/src/messages/WriteMultipleRegistersRequestImpl.cpp::parse"]}
{"id": "C06", "title": "Response parser classification", "statement": "A client parse succeeds only on a PDU that carries the request's function code and the amount of data the request asked for; a PDU with the exception bit and exactly one code byte is reported as the Modbus exception with that code; everything else is a malformed-response error.", "quantifier": "every request and every byte string", "why_tests_cant": "exhaustive classification of an unbounded input space", "anchors": ["lib/src/messages/ReadBitsResponseImpl.cpp::parse", "lib/src/messages/ReadRegistersResponseImpl.cpp::parse", "lib/src/messages/WriteSingleCoilResponseImpl.cpp::parse", "lib/src/messages/WriteSingleRegisterResponseImpl.cpp::parse", "lib/src/messages/WriteMultipleCoilsResponseImpl.cpp::parse", "lib/src/messages/WriteMultipleRegistersResponseImpl.cpp::parse", "lib/src/messages/IMessage.cpp::parse_function_code"]}
{"id": "C07", "title": "Byte count of register responses is honoured", "statement": "A read-registers response whose byte-count field disagrees with the number of data bytes present is rejected.", "quantifier": "every read-registers request and every byte string", "why_tests_cant": "only a proof over all byte strings, or a witness, decides it", "anchors": ["lib/src/messages/ReadRegistersResponseImpl.cpp::parse"]}
{"id": "C08", "title": "Write responses are checked against the request", "statement": "A write response is accepted only if it echoes the address and value (or quantity) of the request.", "quantifier": "every write request and every byte string", "why_tests_cant": "requires reasoning on all mismatching pairs", "anchors": ["lib/src/messages/WriteSingleCoilResponseImpl.cpp::parse", "lib/src/messages/WriteSingleRegisterResponseImpl.cpp::parse", "lib/src/messages/WriteMultipleCoilsResponseImpl.cpp::parse", "lib/src/messages/WriteMultipleRegistersResponseImpl.cpp::parse"]}
{"id": "C09", "title": "Parsers never read past the input", "statement": "No parser uses a value it failed to read: on any byte string of any length every parse returns a definite success or error (no uninitialised value, no out-of-range access, no failure to terminate).", "quantifier": "every byte string, every parser, every request it is parsed against", "why_tests_cant": "undefined behaviour may be silent in a test run and inputs are unbounded", "anchors": ["lib/src/messages/ReadBitsRequestImpl.cpp::parse", "lib/src/messages/ReadRegistersRequestImpl.cpp::parse", "lib/src/messages/WriteSingleCoilRequestImpl.cpp::parse", "lib/src/messages/WriteSingleRegisterRequestImpl.cpp::parse", "lib/src/messages/WriteMultipleCoilsRequestImpl.cpp::parse", "lib/src/messages/WriteMultipleRegistersRequestImpl.cpp::parse", "lib/src/messages/ReadBitsResponseImpl.cpp::parse", "lib/src/messages/ReadRegistersResponseImpl.cpp::parse", "lib/src/messages/WriteSingleCoilResponseImpl.cpp::parse", "lib/src/messages/WriteSingleRegisterResponseImpl.cpp::parse", "lib/src/messages/WriteMultipleCoilsResponseImpl.cpp::parse", "lib/src/messages/WriteMultipleRegistersResponseImpl.cpp::parse", "lib/src/messages/IMessage.cpp::parse_function_code"]}
{"id": "C10", "title": "Announced message length is exact", "statement": "get_message_length equals the number of bytes build_message writes, and every valid request, and every response that answers a valid request, fits in the 253-byte PDU limit.", "quantifier": "every message of every type", "why_tests_cant": "must hold for all sizes up to the limit, a single off-by-one leaks or truncates", "anchors": ["lib/src/messages/ReadBitsRequestImpl.cpp::get_message_length", "lib/src/messages/ReadRegistersRequestImpl.cpp::get_message_length", "lib/src/messages/WriteSingleCoilRequestImpl.cpp::get_message_length", "lib/src/messages/WriteSingleRegisterRequestImpl.cpp::get_message_length", "lib/src/messages/WriteMultipleCoilsRequestImpl.cpp::get_message_length", "lib/src/messages/WriteMultipleRegistersRequestImpl.cpp::get_message_length", "lib/src/messages/ReadBitsResponseImpl.cpp::get_message_length", "lib/src/messages/ReadRegistersResponseImpl.cpp::get_message_length", "lib/src/messages/WriteSingleCoilResponseImpl.cpp::get_message_length", "lib/src/messages/WriteSingleRegisterResponseImpl.cpp::get_message_length", "lib/src/messages/WriteMultipleCoilsResponseImpl.cpp::get_message_length", "lib/src/messages/WriteMultipleRegistersResponseImpl.cpp::get_message_length"]}
{"id": "C11", "title": "Exception codes survive the wire", "statement": "The exception type a server session raises is the exception type the client's handler receives.", "quantifier": "every function code and every exception type", "why_tests_cant": "the sender and the receiver use two separate tables that tests exercise separately", "anchors": ["lib/src/messages/ExceptionType.cpp::parse_exception_type", "lib/include/modbus/messages/ExceptionType.h", "lib/src/messages/ExceptionResponse.cpp::build_message", "lib/src/messages/IMessage.cpp::parse_function_code"]}
{"id": "C12", "title": "MBAP framing round trip under any chunking", "statement": "When well-formed MBAP frames are sent back to back and the byte stream is cut into pieces in any way, the receiver delivers exactly those frames, once each, in order, with transaction id, unit id and PDU intact.", "quantifier": "every finite sequence of frames (PDU of 1..253 bytes) and every partition of the stream into chunks", "why_tests_cant": "partitions are exponential in the stream length and sequences unbounded", "anchors": ["lib/src/messages/mbap/MbapMessage.cpp::build_message", "lib/src/messages/mbap/MbapParser.cpp::parse"]}
{"id": "C13", "title": "Chunking independence of arbitrary streams", "statement": "What the receiver delivers depends only on the byte stream, not on how TCP splits it, as long as no header announces more than 254 bytes.", "quantifier": "every byte stream with no over-long header (well-formed or not) and every partition", "why_tests_cant": "all streams times all partitions", "anchors": ["lib/src/messages/mbap/MbapParser.cpp::parse"]}
{"id": "C14", "title": "Over-long frames are framed and delivered the same for every chunking", "statement": "A frame announcing more than 254 bytes is skipped as a unit: exactly the announced number of bytes is consumed, later frames are still delivered, and what is delivered for it does not depend on chunking.", "quantifier": "every over-long frame, every following stream and every partition", "why_tests_cant": "all streams times all partitions; the effect depends on stale buffer content", "anchors": ["lib/src/messages/mbap/MbapParser.cpp::parse", "lib/src/messages/mbap/MbapParser.cpp::find_body_size", "lib/src/messages/mbap/MbapParser.cpp::send_data"]}
{"id": "C15", "title": "MBAP receiver memory safety", "statement": "Whatever bytes arrive in whatever pieces, the receiver never writes outside its 260-byte buffer, never delivers more than 253 bytes of PDU, terminates on every chunk, and only delivers frames whose protocol id is zero.", "quantifier": "every sequence of chunks and resets, from power-on", "why_tests_cant": "unbounded adversarial input", "anchors": ["lib/src/messages/mbap/MbapParser.cpp", "lib/src/messages/mbap/MbapParser.h"]}
{"id": "C16", "title": "Frames are delivered as soon as they are complete", "statement": "A frame is handed to the application no later than the arrival of its last byte.", "quantifier": "every frame and every stream prefix ending at a frame boundary", "why_tests_cant": "needs all streams; the failing case is an empty PDU", "anchors": ["lib/src/messages/mbap/MbapParser.cpp::parse"]}
{"id": "C17", "title": "Resynchronisation on malformed headers", "statement": "A frame with a foreign protocol id, or with length zero, is dropped without disturbing the frames around it.", "quantifier": "every mix of good, foreign-protocol and zero-length frames, every chunking", "why_tests_cant": "arbitrary interleavings of good and bad frames", "anchors": ["lib/src/messages/mbap/MbapParser.cpp::find_body_size", "lib/src/messages/mbap/MbapParser.cpp::send_data"]}
{"id": "C18", "title": "Receiver reset forgets everything", "statement": "After a reset, later deliveries are the same as those of a brand-new receiver given the same bytes.", "quantifier": "every history before the reset, every stream with no over-long header after it", "why_tests_cant": "histories are unbounded; stale buffer content must not matter", "anchors": ["lib/src/messages/mbap/MbapParser.cpp::reset"]}
{"id": "C19", "title": "Value tables behave as a partial map", "statement": "add/set/get/is_valid on a table behave as on a mathematical partial map from 16-bit addresses to values: add creates only a new address and never overwrites, set changes only an existing address, get returns the last value written, and no other address is affected.", "quantifier": "every sequence of operations from an empty table, every address and value", "why_tests_cant": "histories are unbounded", "anchors": ["lib/src/server/db/SingleTypeDatabase.cpp"]}
{"id": "C20", "title": "Ranges are valid exactly when every address exists", "statement": "A range is accepted iff it has at least one address, does not run past 65535, and every address in it exists; get_values then returns the values in address order; otherwise nothing.", "quantifier": "every table content, every start and count", "why_tests_cant": "all 2^16 x 2^16 ranges over all tables", "anchors": ["lib/src/server/db/SingleTypeDatabase.cpp::is_valid_range", "lib/src/server/db/SingleTypeDatabase.cpp::get_values"]}
{"id": "C21", "title": "Multi-value writes are all-or-nothing", "statement": "set_values either writes exactly the given values at start, start+1, ... and changes nothing else, or reports failure and changes nothing.", "quantifier": "every table content, start and value list", "why_tests_cant": "partial effects show up only for specific hole positions", "anchors": ["lib/src/server/db/SingleTypeDatabase.cpp::set_values"]}
{"id": "C22", "title": "No invalid iterator use in the database", "statement": "No database operation dereferences or advances past the end of a table, whatever the contents and arguments.", "quantifier": "every reachable table, every argument", "why_tests_cant": "undefined behaviour may be silent in tests", "anchors": ["lib/src/server/db/SingleTypeDatabase.cpp"]}
{"id": "C23", "title": "In-memory server data model", "statement": "Requests served by the in-memory database behave as on four independent address spaces: reads return the stored values at the requested addresses, writes update exactly the requested ones, an unknown address yields IllegalDataAddress and changes nothing, coils/discrete inputs/holding/input registers never interfere.", "quantifier": "every sequence of requests, configuration calls and transactions", "why_tests_cant": "unbounded histories over four tables", "anchors": ["lib/src/server/db/InMemoryDatabase.cpp"]}
{"id": "C24", "title": "Database linearizability under concurrency", "statement": "Concurrent requests, configuration calls and transactions from any threads have the effect of executing them one at a time in some order consistent with real time; a transaction is never interleaved with other operations.", "quantifier": "every number of threads, every program per thread, every schedule", "why_tests_cant": "schedules are exponential; races are not reproducible in tests", "anchors": ["lib/src/server/db/InMemoryDatabase.cpp::on_request", "lib/src/server/db/InMemoryDatabase.cpp::execute_transaction", "lib/src/server/db/InMemoryDatabase.cpp::add_coil"]}
{"id": "C25", "title": "Server answers each frame at most once with matching identifiers", "statement": "A received frame causes at most one response frame, which carries the transaction id and unit id of the request and the request's function code (with the exception bit set iff it is an exception response).", "quantifier": "every incoming frame, every registered session behaviour, every server state", "why_tests_cant": "all byte strings times all session behaviours", "anchors": ["lib/src/server/channel/ServerChannelTcp.cpp::on_mbap", "lib/src/server/channel/ServerChannelTcp.cpp::process_message", "lib/src/server/channel/ServerChannelTcp.cpp::send_message"]}
{"id": "C26", "title": "Server decision table", "statement": "Silence for unknown unit, empty PDU or malformed request; exception 01 for an unsupported function; exception 03 for illegal quantities or values, without consulting the session; otherwise the session is called exactly once with exactly the request on the wire and its answer or Modbus exception is sent.", "quantifier": "every frame, every session map and session behaviour", "why_tests_cant": "exhaustive over all frames", "anchors": ["lib/src/server/channel/ServerChannelTcp.cpp::on_mbap", "lib/src/server/channel/ServerChannelTcp.cpp::process_message", "lib/include/modbus/server/IServerSession.h"]}
{"id": "C27", "title": "Pipelined requests are served in order", "statement": "For any stream of back-to-back requests on one connection, cut in any way, the responses are produced in request order, one per answerable request.", "quantifier": "every request sequence and every chunking, every session behaviour", "why_tests_cant": "all sequences times all partitions", "anchors": ["lib/src/server/channel/ServerConnectionListener.cpp", "lib/src/server/channel/ServerChannelTcp.cpp"]}
{"id": "C28", "title": "Adding a session replaces the previous one", "statement": "As documented, add_session with a unit id already in use replaces the existing session.", "quantifier": "every history of add_session calls", "why_tests_cant": "documentation vs implementation over all histories", "anchors": ["lib/include/modbus/server/IServerChannel.h", "lib/src/server/channel/ServerChannelTcp.cpp::add_session"]}
{"id": "C29", "title": "Server silence after shutdown", "statement": "Once shutdown has taken effect no session is consulted and no response sent, whatever arrives; each registered session is shut down exactly once.", "quantifier": "every history of API calls and received chunks on any number of connections", "why_tests_cant": "unbounded histories and interleavings", "anchors": ["lib/src/server/channel/ServerChannelTcp.cpp::shutdown", "lib/src/server/channel/ServerChannelTcp.cpp::on_mbap", "lib/src/server/channel/ServerChannelTcp.cpp::start", "lib/src/server/channel/ServerChannelTcp.cpp::add_session"]}
{"id": "C30", "title": "Response frames contain only bytes that were written", "statement": "Every byte of a frame put on the wire was produced by the serialiser (no uninitialised buffer content is sent), and the frame is at most 260 bytes with a consistent length field.", "quantifier": "every response a session may return, including ones larger than a PDU", "why_tests_cant": "needs all response sizes; leaks are invisible to tests that read only expected fields", "anchors": ["lib/src/messages/mbap/MbapMessage.cpp::build_message", "lib/src/server/channel/ServerChannelTcp.cpp::send_message"]}
{"id": "C31", "title": "End-to-end correctness of a request", "statement": "A valid request sent by the client to a server backed by the in-memory database completes with exactly the result the abstract four-table model gives, for any splitting of both byte streams, and leaves the database in the abstract model's next state.", "quantifier": "every database content, every valid request, every transaction id, every pair of chunkings", "why_tests_cant": "composition over all inputs and all chunkings", "anchors": ["lib/src/client/session/ClientSessionImpl.cpp", "lib/src/client/channel/ClientChannelTcp.cpp", "lib/src/server/channel/ServerChannelTcp.cpp", "lib/src/server/db/InMemoryDatabase.cpp"]}
{"id": "C32", "title": "At most one request on the wire", "statement": "The client never sends a request while another one is awaiting its answer, timeout or error.", "quantifier": "every interleaving of API calls, strand tasks, timer expirations, received chunks and errors", "why_tests_cant": "all schedules", "anchors": ["lib/src/client/channel/ClientChannelTcp.cpp::send_request", "lib/src/client/channel/ClientChannelTcp.cpp::check_pending_requests", "lib/src/client/channel/ClientChannelTcp.cpp::on_mbap_message"]}
{"id": "C33", "title": "First in, first out", "statement": "Requests are put on the wire in the order in which send_request was called.", "quantifier": "every interleaving and every number of requests", "why_tests_cant": "all schedules", "anchors": ["lib/src/client/channel/ClientChannelTcp.cpp::send_request", "lib/src/client/channel/ClientChannelTcp.cpp::check_pending_requests"]}
{"id": "C34", "title": "Completion handler called at most once", "statement": "The handler of a request is never called twice.", "quantifier": "every interleaving", "why_tests_cant": "all schedules; double callbacks need rare races", "anchors": ["lib/src/client/channel/ClientChannelTcp.cpp"]}
{"id": "C35", "title": "Completion handler called exactly once without shutdown", "statement": "If the channel is not shut down, every request handed to send_request has its handler called exactly once when the system runs to quiescence (all posted tasks run and timers expire), and no request is ever forgotten or stuck.", "quantifier": "every interleaving and every reachable state", "why_tests_cant": "a liveness statement over all schedules", "anchors": ["lib/src/client/channel/ClientChannelTcp.cpp"]}
{"id": "C36", "title": "Responses only reach the request they answer", "statement": "A handler receives a response PDU only if, while that request was outstanding, a frame with its transaction id and its unit id was received; other frames change nothing.", "quantifier": "every interleaving and every received byte stream", "why_tests_cant": "all schedules and all streams", "anchors": ["lib/src/client/channel/ClientChannelTcp.cpp::on_mbap_message"]}
{"id": "C37", "title": "Transaction ids do not repeat within 65536 requests", "statement": "Any two requests accepted fewer than 65536 apart carry different transaction ids; ids wrap from 65535 to 0.", "quantifier": "every number of requests", "why_tests_cant": "needs 65536 steps and all windows", "anchors": ["lib/src/TransactionIdentifier.cpp", "lib/src/client/channel/ClientChannelTcp.cpp::send_request"]}
{"id": "C38", "title": "Connection error fails everything outstanding", "statement": "On a connection error every queued request and then the outstanding one have their handlers called with the connection error, nothing remains queued, and the receive state is cleared.", "quantifier": "every channel state and error", "why_tests_cant": "all states", "anchors": ["lib/src/client/channel/ClientChannelTcp.cpp::on_error", "lib/src/client/channel/ClientChannelTcp.cpp::cancel_all_pending_requests", "lib/src/client/channel/ClientChannelTcp.cpp::cancel_current_request"]}
{"id": "C39", "title": "Invalid requests never reach the wire", "statement": "A request whose is_valid() is false is never serialised or sent; its handler receives a malformed-request error exactly once and other requests are unaffected.", "quantifier": "every interleaving and every invalid message", "why_tests_cant": "all schedules", "anchors": ["lib/src/client/channel/ClientChannelTcp.cpp::send_request"]}
{"id": "C40", "title": "Every request completes even if the channel is shut down", "statement": "A caller that submitted a request is always told its outcome, also when the channel is shut down.", "quantifier": "every history containing a shutdown", "why_tests_cant": "needs all interleavings of shutdown with outstanding work", "anchors": ["lib/src/client/channel/ClientChannelTcp.cpp::shutdown"]}
{"id": "C41", "title": "Client silence after shutdown", "statement": "After shutdown has taken effect the client sends nothing and reports no response, timeout or connection error.", "quantifier": "every history after shutdown", "why_tests_cant": "all schedules", "anchors": ["lib/src/client/channel/ClientChannelTcp.cpp"]}
{"id": "C42", "title": "A request only times out because of its own timer", "statement": "A timeout error is reported to a request only after the timeout started for that very request has expired.", "quantifier": "every interleaving, including timers that expire while their cancellation is in progress", "why_tests_cant": "needs a race between expiry and response", "anchors": ["lib/src/client/channel/ClientChannelTcp.cpp::check_pending_requests", "lib/src/client/channel/ClientChannelTcp.cpp::on_mbap_message", "lib/include/modbus/ITimer.h::cancel"]}
{"id": "C43", "title": "A lost connection cannot corrupt later responses", "statement": "After the peer closes the connection, bytes of an unfinished frame from the old connection do not affect how the next connection's responses are decoded.", "quantifier": "every point at which the peer may close", "why_tests_cant": "all crash points within a frame", "anchors": ["lib/src/client/channel/AsioClientTcpConnection.cpp::read_handler", "lib/src/client/channel/ClientChannelTcp.cpp::on_error"]}
{"id": "C44", "title": "The client can always reconnect", "statement": "After any connection failure, the next request triggers a new connection attempt.", "quantifier": "every history of resolve/connect/read/write failures", "why_tests_cant": "all failure histories", "anchors": ["lib/src/client/channel/AsioClientTcpConnection.cpp::send", "lib/src/client/channel/AsioClientTcpConnection.cpp::resolve_handler", "lib/src/client/channel/AsioClientTcpConnection.cpp::connect_handler", "lib/src/client/channel/AsioClientTcpConnection.cpp::close"]}
{"id": "C45", "title": "In-flight write buffers stay alive", "statement": "A buffer handed to an asynchronous send is neither freed nor replaced before the send completes.", "quantifier": "every schedule of sends and completions, client and server side", "why_tests_cant": "use-after-free depends on completion timing", "anchors": ["lib/src/server/channel/AsioServerTcpConnection.cpp::send", "lib/src/server/channel/AsioServerTcpConnection.cpp::write_handler", "lib/src/client/channel/AsioClientTcpConnection.cpp::send", "lib/src/client/channel/AsioClientTcpConnection.cpp::send_buffer", "lib/src/client/channel/AsioClientTcpConnection.cpp::write_handler"]}
{"id": "C46", "title": "Frames are transmitted completely", "statement": "When a send completes successfully the whole frame has been handed to the transport.", "quantifier": "every partial-write behaviour the socket is allowed", "why_tests_cant": "partial writes are rare and platform dependent", "anchors": ["lib/src/server/channel/AsioServerTcpConnection.cpp::send", "lib/src/client/channel/AsioClientTcpConnection.cpp::send_buffer"]}
{"id": "C47", "title": "A scheduled request never has two outstanding requests", "statement": "A scheduled request waits for the response (or error) of one request before sending the next.", "quantifier": "every interleaving of start, stop, set_frequency, responses and timers", "why_tests_cant": "all schedules", "anchors": ["lib/src/client/session/ScheduledRequest.hpp", "lib/include/modbus/client/IScheduledRequest.h"]}
{"id": "C48", "title": "A stopped scheduled request sends nothing more", "statement": "Once stop has taken effect, no further request is sent until start is called again.", "quantifier": "every interleaving, including a timer that expired before stop ran", "why_tests_cant": "all schedules", "anchors": ["lib/src/client/session/ScheduledRequest.hpp::stop"]}
{"id": "C49", "title": "Scheduled polling respects and follows the frequency", "statement": "Consecutive requests of a scheduled request are separated by a timer of the frequency in force when the previous response arrived; a started schedule always has either an outstanding request or an armed timer; start is idempotent.", "quantifier": "every history of one schedule", "why_tests_cant": "unbounded histories", "anchors": ["lib/src/client/session/ScheduledRequest.hpp"]}
{"id": "C50", "title": "Server connection limit", "statement": "The number of accepted connections never exceeds the configured maximum, the oldest is dropped first, and the reported number of connections is the number of live accepted connections.", "quantifier": "every history of accepts, closes, errors and shutdown", "why_tests_cant": "unbounded histories", "anchors": ["lib/src/server/channel/AsioServer.cpp"]}
{"id": "C51", "title": "The server keeps accepting", "statement": "While not shut down the server always has an accept operation pending, whatever happens to individual connections.", "quantifier": "every history of accept results", "why_tests_cant": "accept errors are hard to provoke in tests", "anchors": ["lib/src/server/channel/AsioServer.cpp::start_accept", "lib/src/server/channel/AsioServer.cpp::handle_accept"]}
{"id": "C52", "title": "Identifiers print injectively and order as numbers", "statement": "Two transaction (unit) identifiers print the same text iff they are equal, the text is 0x followed by exactly four (two) hexadecimal digits, and incrementing wraps modulo 65536.", "quantifier": "every identifier value", "why_tests_cant": "finite but not covered by literal tests", "anchors": ["lib/src/TransactionIdentifier.cpp", "lib/src/UnitIdentifier.cpp"]}
{"id": "C53", "title": "Exception messages identify the exception type", "statement": "The message of a ModbusException determines its exception type: two types have the same message only if they are equal.", "quantifier": "every pair of exception types", "why_tests_cant": "tests check single messages, not distinctness", "anchors": ["lib/src/messages/ExceptionType.cpp::operator<<", "lib/include/modbus/exceptions/ModbusException.h"]}
{"id": "C54", "title": "Expected holds a value or an error and never loses the error's type", "statement": "An Expected is either a value or an exception and all accessors agree; has_exception<E> is true exactly for exceptions whose class is or derives from E, and get_exception<E> returns exactly then; putting an exception in by reference to a base class is detected and never silently drops its type.", "quantifier": "every exception class of the library, every value type", "why_tests_cant": "the combination of static and dynamic classes is not covered by tests", "anchors": ["lib/include/modbus/Expected.h", "lib/include/modbus/exceptions/IException.h"]}
{"id": "C55", "title": "Shutting a server down closes all its connections", "statement": "Some time after a server is shut down it has no connection and no open socket, whatever happened before or happens later, and it accepts nothing any more.", "quantifier": "every history of accepts, errors and shutdowns", "why_tests_cant": "all interleavings of shutdown with accepts and posted closes", "anchors": ["lib/src/server/channel/AsioServer.cpp::shutdown", "lib/src/server/channel/AsioServer.cpp::remove_connection", "lib/src/server/channel/AsioServer.cpp::handle_accept", "lib/src/server/channel/AsioServerTcpConnection.cpp::close"]}
{"id": "C56", "title": "A connection failure is reported once", "statement": "Each failed connection attempt or lost connection is reported to the client channel by one error; a report never concerns a connection that was already reported.", "quantifier": "every history of sends, connection results, reads and writes", "why_tests_cant": "the order of aborted completions after a close depends on timing", "anchors": ["lib/src/client/channel/AsioClientTcpConnection.cpp::send_error", "lib/src/client/channel/AsioClientTcpConnection.cpp::read_handler", "lib/src/client/channel/AsioClientTcpConnection.cpp::write_handler", "lib/src/client/channel/AsioClientTcpConnection.cpp::connect_handler", "lib/src/client/channel/AsioClientTcpConnection.cpp::resolve_handler"]}
{"id": "C57", "title": "A connection that was shut down is silent", "statement": "When the shutdown of a client connection has taken effect, no completion handler delivers data, reports an error, sends or connects.", "quantifier": "every history and every set of operations still outstanding", "why_tests_cant": "all interleavings of shutdown with outstanding operations", "anchors": ["lib/src/client/channel/AsioClientTcpConnection.cpp::shutdown", "lib/src/client/channel/AsioClientTcpConnection.cpp::close", "lib/src/client/channel/AsioClientTcpConnection.cpp::resolve_handler", "lib/src/client/channel/AsioClientTcpConnection.cpp::connect_handler", "lib/src/client/channel/AsioClientTcpConnection.cpp::read_handler", "lib/src/client/channel/AsioClientTcpConnection.cpp::write_handler"]}
{"id": "C58", "title": "The request waiting for a connection is sent when it is established", "statement": "The frame that caused a connection attempt is the one sent, unchanged, when the connection is established.", "quantifier": "every state in which an attempt can begin, every event in between except further sends", "why_tests_cant": "requires all intermediate events", "anchors": ["lib/src/client/channel/AsioClientTcpConnection.cpp::send", "lib/src/client/channel/AsioClientTcpConnection.cpp::connect_handler", "lib/src/client/channel/AsioClientTcpConnection.cpp::send_buffer"]}
{"id": "C59", "title": "A failed server connection is closed and forgotten", "statement": "When reading or writing on a server connection fails, it is removed from the server at once, its socket is closed when the posted closures have run, and nothing is sent on it afterwards.", "quantifier": "every history of reads, writes, sends and closes", "why_tests_cant": "all interleavings of close with outstanding operations", "anchors": ["lib/src/server/channel/AsioServerTcpConnection.cpp::read_handler", "lib/src/server/channel/AsioServerTcpConnection.cpp::write_handler", "lib/src/server/channel/AsioServerTcpConnection.cpp::close", "lib/src/server/channel/AsioServerTcpConnection.cpp::send"]}
{"id": "C60", "title": "A response is valid exactly when it answers some legal request", "statement": "is_valid of a response holds exactly when the response has the type, amount of data and echoed fields that some legal request asks for.", "quantifier": "every response of the eight types, every request", "why_tests_cant": "unbounded space of responses", "anchors": ["lib/src/messages/WriteMultipleRegistersResponseImpl.cpp::is_valid", "lib/src/messages/WriteMultipleCoilsResponseImpl.cpp::is_valid", "lib/src/messages/ReadBitsResponseImpl.cpp::is_valid", "lib/src/messages/ReadRegistersResponseImpl.cpp::is_valid"]}
{"id": "C61", "title": "Shutting a session down stops its scheduled requests", "statement": "After a session was shut down and the posted closures have run, no request scheduled on it before runs, unless it was started again.", "quantifier": "every history of API calls from any thread and from handlers, channel events, timers and closures", "why_tests_cant": "all interleavings of schedule, start, stop and shutdown with posted closures", "anchors": ["lib/src/client/session/ClientSessionImpl.cpp::shutdown", "lib/src/client/session/ClientSessionImpl.cpp::meta_schedule_request", "lib/src/client/session/ScheduledRequest.hpp"]}
{"id": "C62", "title": "Polling goes on", "statement": "A running scheduled request always has a posted closure, a timer, or a request of the channel under way that will be completed: it never silently stops polling.", "quantifier": "every history, whatever the outcomes of the requests", "why_tests_cant": "liveness over all interleavings of timeouts, errors, responses and API calls", "anchors": ["lib/src/client/session/ScheduledRequest.hpp", "lib/src/client/session/ClientSessionImpl.cpp::meta_schedule_request"]}
{"id": "C63", "title": "Handlers of one-time requests are called exactly once, with what the response means", "statement": "The handler given to send_request of a session is called at most once, with the decoded response, the exception or error that the channel's outcome means for this request; and exactly once when nothing is left to happen and the channel was not shut down.", "quantifier": "every history, every request of the eight types, every byte sequence received", "why_tests_cant": "all interleavings and all response contents", "anchors": ["lib/src/client/session/ClientSessionImpl.cpp::meta_send_request"]}
{"id": "C64", "title": "Requests carry the session's unit, the encoded request and the right timeout", "statement": "Each request of a session, one-time or scheduled, is one call of the channel with the unit of the session, the encoding of the request and the given or else the default timeout; there are no other calls.", "quantifier": "every history, any number of sessions and scheduled requests", "why_tests_cant": "any number of sessions sharing the channel in any order", "anchors": ["lib/src/client/session/ClientSessionImpl.cpp::send_request", "lib/src/client/session/ClientSessionImpl.cpp::schedule_request", "lib/src/client/session/ClientSessionImpl.cpp::meta_send_request"]}
{"id": "C65", "title": "Shutting a session down cancels its pending requests", "statement": "Once a session was shut down, its pending requests are cancelled and no further ones are sent (IClientSession.h).", "quantifier": "every history", "why_tests_cant": "depends on the state of the channel when the shutdown is executed", "anchors": ["lib/include/modbus/client/IClientSession.h::shutdown", "lib/src/client/session/ClientSessionImpl.cpp::shutdown"]}
{"id": "C66", "title": "Shutting a channel down shuts its sessions down", "statement": "The first shutdown of a channel shuts down all the sessions created so far, each once, and so stops their scheduled requests.", "quantifier": "every history", "why_tests_cant": "all interleavings of session creation, scheduling and shutdown", "anchors": ["lib/src/client/channel/ClientChannelTcp.cpp::shutdown", "lib/src/client/channel/ClientChannelTcp.cpp::create_session", "lib/include/modbus/client/IClientChannel.h::shutdown"]}
{"id": "C67", "title": "Sessions, scheduled requests and the channel work together as they do alone", "statement": "No history of sessions over a channel has undefined behaviour; the channel and each scheduled request behave as they do on their own; each request of a scheduled request is exactly one call of the channel and is answered with what its outcome means.", "quantifier": "every history", "why_tests_cant": "composition of three state machines under all interleavings", "anchors": ["lib/src/client/session/ClientSessionImpl.cpp", "lib/src/client/session/ScheduledRequest.hpp", "lib/src/client/channel/ClientChannelTcp.cpp"]}
{"id": "C68", "title": "The channel and its TCP connection work together as they do alone", "statement": "In every history of a client channel over its TCP connection, the channel behaves as in C32-C42 and the connection as in C43-C46 and C56-C58; every frame the channel sends is given to the connection once, in order and unchanged; every callback of the connection reaches the channel in the same turn.", "quantifier": "every history of both, every script of handlers, every result of the system calls", "why_tests_cant": "all interleavings of two classes sharing one strand", "anchors": ["lib/src/client/channel/ClientChannelTcp.cpp", "lib/src/client/channel/AsioClientTcpConnection.cpp", "lib/src/ModbusManagerImpl.cpp::create_client_tcp_channel"]}
{"id": "C69", "title": "Only the latest request is ever transmitted", "statement": "Everything handed to the transport is the complete frame of the request the channel sent last; requests therefore reach the wire in the order of submission, and never after a newer one.", "quantifier": "every history", "why_tests_cant": "all interleavings of connecting, failing, timing out and sending", "anchors": ["lib/src/client/channel/AsioClientTcpConnection.cpp::send", "lib/src/client/channel/AsioClientTcpConnection.cpp::send_buffer", "lib/src/client/channel/AsioClientTcpConnection.cpp::connect_handler", "lib/src/client/channel/ClientChannelTcp.cpp::check_pending_requests"]}
{"id": "C70", "title": "A request that was completed is not transmitted any more", "statement": "Once the handler of a request was called, no transmission of its frame is started.", "quantifier": "every history", "why_tests_cant": "needs a time-out or failure between connecting and being connected", "anchors": ["lib/src/client/channel/AsioClientTcpConnection.cpp::send", "lib/src/client/channel/AsioClientTcpConnection.cpp::connect_handler", "lib/src/client/channel/ClientChannelTcp.cpp::check_pending_requests"]}
{"id": "C71", "title": "The client as a whole has no undefined behaviour", "statement": "No history of a channel over its TCP connection has undefined behaviour.", "quantifier": "every history", "why_tests_cant": "the use after free depends on the moment of a time-out", "anchors": ["lib/src/client/channel/AsioClientTcpConnection.cpp::send", "lib/src/client/channel/AsioClientTcpConnection.cpp::write_handler", "lib/src/client/channel/ClientChannelTcp.cpp"]}
{"id": "C72", "title": "Losing the connection fails the outstanding request at once", "statement": "When the connection is lost, the handlers of the outstanding and the queued requests are called with a connection error in the same turn.", "quantifier": "every history, every way to lose a connection", "why_tests_cant": "every moment at which a peer can close", "anchors": ["lib/src/client/channel/AsioClientTcpConnection.cpp::read_handler", "lib/src/client/channel/ClientChannelTcp.cpp::on_error"]}
{"id": "C73", "title": "Every request is completed exactly once whatever the connection does", "statement": "Without shutdown, every request is completed exactly once when nothing is left to happen, whatever names fail to resolve, connections fail, are closed or deliver.", "quantifier": "every history", "why_tests_cant": "all behaviours of the network", "anchors": ["lib/src/client/channel/ClientChannelTcp.cpp", "lib/src/client/channel/AsioClientTcpConnection.cpp"]}
{"id": "C74", "title": "After shutdown nothing reaches the wire and no handler is called", "statement": "When the closures posted up to the shutdown and by it have run, nothing is transmitted or received any more, no attempt is made, and only calls of invalid requests made before are still reported.", "quantifier": "every history", "why_tests_cant": "all interleavings after the shutdown", "anchors": ["lib/src/client/channel/ClientChannelTcp.cpp::shutdown", "lib/src/client/channel/AsioClientTcpConnection.cpp::shutdown"]}
{"id": "C75", "title": "Shutdown closes the TCP connection", "statement": "When the closures posted by shutdown have run, the socket of the channel is closed.", "quantifier": "every history", "why_tests_cant": "no test looks at the socket", "anchors": ["lib/src/client/channel/AsioClientTcpConnection.cpp::shutdown"]}
{"id": "C76", "title": "A response received completely on its connection is reported", "statement": "When the complete response to the outstanding request has been received on the current connection, its handler is called with it.", "quantifier": "every history, every segmentation, every content of earlier connections", "why_tests_cant": "depends on what earlier connections left behind", "anchors": ["lib/src/client/channel/AsioClientTcpConnection.cpp::read_handler", "lib/src/client/channel/ClientChannelTcp.cpp::on_receive", "lib/src/client/channel/ClientChannelTcp.cpp::on_error", "lib/src/messages/mbap/MbapParser.cpp"]}
{"id": "C77", "title": "A request made in reaction to a connection failure reconnects", "statement": "When a handler reacts to a connection error by submitting a request, that request opens a new connection.", "quantifier": "every history, every failure", "why_tests_cant": "order of closures posted by two classes on one strand", "anchors": ["lib/src/client/channel/AsioClientTcpConnection.cpp::close", "lib/src/client/channel/AsioClientTcpConnection.cpp::connect_handler", "lib/src/client/channel/AsioClientTcpConnection.cpp::read_handler", "lib/src/client/channel/AsioClientTcpConnection.cpp::write_handler", "lib/src/client/channel/ClientChannelTcp.cpp::on_error"]}
{"id": "C78", "title": "On a working network every request gets its response", "statement": "If name resolution, connecting and transmission succeed and the peer answers each request with a frame carrying its identifiers, cut into pieces in any way, then each of any number of requests is transmitted as one frame and completed with the PDU of its answer, over one connection.", "quantifier": "any number of requests, any answers, any segmentation", "why_tests_cant": "unbounded sequences", "anchors": ["lib/src/client/channel/ClientChannelTcp.cpp", "lib/src/client/channel/AsioClientTcpConnection.cpp", "lib/src/messages/mbap/MbapParser.cpp"]}
{"id": "C79", "title": "A server connection delivers what arrives and keeps reading", "statement": "While a server connection is started, not closed, not shut down and not about to be closed, exactly one read is in progress; the data of that read is handed to the server unchanged and the next read begins.", "quantifier": "every history of one connection", "why_tests_cant": "all interleavings of reads, writes, failures and closings", "anchors": ["lib/src/server/channel/AsioServerTcpConnection.cpp::start", "lib/src/server/channel/AsioServerTcpConnection.cpp::begin_read", "lib/src/server/channel/AsioServerTcpConnection.cpp::read_handler"]}
{"id": "C80", "title": "The parts of a server work together as they do alone", "statement": "Whatever happens to a server channel, its acceptor and its connections together is, for each of them, one of its own histories, and data, failures, accepted connections, closings, start and shutdown are passed between them unchanged.", "quantifier": "every history of API calls, accepts, reads, writes and closures on any number of connections", "why_tests_cant": "all interleavings of three classes on one strand", "anchors": ["lib/src/server/channel/ServerChannelTcp.cpp", "lib/src/server/channel/AsioServer.cpp", "lib/src/server/channel/AsioServerTcpConnection.cpp", "lib/src/server/channel/ServerConnectionListener.cpp"]}
{"id": "C81", "title": "Every response is transmitted, on the connection of its request", "statement": "The bytes handed to the transport on a connection are the responses to the requests that arrived on it, complete and in order.", "quantifier": "every history, any number of connections", "why_tests_cant": "needs partial transfers and several clients", "anchors": ["lib/src/server/channel/ServerChannelTcp.cpp::process_message", "lib/src/server/channel/ServerChannelTcp.cpp::send_message", "lib/src/server/channel/AsioServerTcpConnection.cpp::send", "lib/src/server/channel/AsioServerTcpConnection.cpp::send_buffer", "lib/src/server/channel/AsioServerTcpConnection.cpp::write_handler"]}
{"id": "C82", "title": "Every request that arrives on a connection is served, in order", "statement": "If the data received on an accepted connection consists of frames, cut into reads in any way, the channel serves exactly those with valid headers, in order, each exactly once, whatever happens on other connections.", "quantifier": "every history, any segmentation, any number of connections", "why_tests_cant": "all segmentations and interleavings", "anchors": ["lib/src/server/channel/AsioServerTcpConnection.cpp::read_handler", "lib/src/server/channel/ServerConnectionListener.cpp", "lib/src/messages/mbap/MbapParser.cpp"]}
{"id": "C83", "title": "What happens on one connection does not touch the others", "statement": "Data, failures and completed writes of one connection change the state of no other connection and cause nothing to be sent or reported there.", "quantifier": "every reachable state and every event of a connection", "why_tests_cant": "all pairs of connections in all states", "anchors": ["lib/src/server/channel/AsioServerTcpConnection.cpp", "lib/src/server/channel/AsioServer.cpp::remove_connection", "lib/src/server/channel/ServerChannelTcp.cpp::on_mbap"]}
{"id": "C84", "title": "Shutting the channel down closes everything", "statement": "After shutdown was called and the posted closures have run, the acceptor and all connections are closed, no connection is accepted, no session consulted and nothing sent.", "quantifier": "every history", "why_tests_cant": "interleavings of shutdown with accepts and failing connections", "anchors": ["lib/src/server/channel/ServerChannelTcp.cpp::start", "lib/src/server/channel/ServerChannelTcp.cpp::shutdown", "lib/src/server/channel/AsioServer.cpp::start", "lib/src/server/channel/AsioServer.cpp::shutdown", "lib/src/server/channel/AsioServerTcpConnection.cpp::close"]}
{"id": "C85", "title": "A server has no undefined behaviour", "statement": "No sequence of API calls, connections, received data and completed writes leads to undefined behaviour.", "quantifier": "every history", "why_tests_cant": "needs a write in progress while the next response is sent", "anchors": ["lib/src/server/channel/AsioServerTcpConnection.cpp::send", "lib/src/server/channel/AsioServer.cpp::handle_accept"]}
{"id": "C86", "title": "A connection that fails is closed", "statement": "When a read or write of a connection has failed and the posted closures have run, its socket is closed.", "quantifier": "every history", "why_tests_cant": "all interleavings of failures with other closings", "anchors": ["lib/src/server/channel/AsioServerTcpConnection.cpp::read_handler", "lib/src/server/channel/AsioServerTcpConnection.cpp::write_handler", "lib/src/server/channel/AsioServerTcpConnection.cpp::close", "lib/src/server/channel/AsioServer.cpp::remove_connection"]}
{"id": "C87", "title": "There are never more open connections than allowed", "statement": "Whenever the posted closures have run, at most max_connections sockets are open.", "quantifier": "every history", "why_tests_cant": "unbounded sequences of connections and failures", "anchors": ["lib/src/server/channel/AsioServer.cpp::handle_accept", "lib/src/server/channel/ServerChannelTcp.cpp::start"]}
{"id": "C88", "title": "A client that waits for each answer is served completely", "statement": "On a new connection of a running server, any sequence of valid frames sent one at a time, each in any pieces, is answered as the sessions say, and the bytes transmitted are exactly the answers; the connection stays open.", "quantifier": "any number of requests, any segmentation, any sessions, any earlier history", "why_tests_cant": "unbounded sequences", "anchors": ["lib/src/server/channel/ServerChannelTcp.cpp", "lib/src/server/channel/AsioServerTcpConnection.cpp", "lib/src/messages/mbap/MbapParser.cpp"]}
{"id": "C89", "title": "The server's strand always becomes idle", "statement": "From every reachable state, running the posted closures, including those they post, ends after finitely many.", "quantifier": "every history", "why_tests_cant": "termination", "anchors": ["lib/src/server/channel/ServerChannelTcp.cpp::start", "lib/src/server/channel/ServerChannelTcp.cpp::shutdown", "lib/src/server/channel/ServerChannelTcp.cpp::add_session", "lib/src/server/channel/AsioServer.cpp::start_accept", "lib/src/server/channel/AsioServer.cpp::shutdown", "lib/src/server/channel/AsioServerTcpConnection.cpp::close"]}
{"id": "C90", "title": "What users' handlers do takes effect", "statement": "Handlers of responses are called one after another on the state the previous call left. The API calls they make happen, in order, and no others are made on their behalf; apart from them the library itself only stops scheduled requests of a closed session, and closes the sessions when the channel is shut down, the first time only.", "quantifier": "every history and every step, any handlers", "why_tests_cant": "arbitrary re-entrant handlers", "anchors": ["lib/src/client/session/ClientSessionImpl.cpp::send_request", "lib/src/client/session/ClientSessionImpl.cpp::shutdown", "lib/src/client/session/ScheduledRequest.hpp", "lib/src/client/channel/ClientChannelTcp.cpp::create_session", "lib/src/client/channel/ClientChannelTcp.cpp::shutdown"]}
{"id": "C91", "title": "The manager shuts every channel down exactly once", "statement": "When shutdown of the manager returns, every channel registered with it until then has been told to shut down, client channels first, each in the order of creation, and no channel is ever told twice. Concurrent calls of shutdown and of the creating functions exclude each other. There is at least one thread.", "quantifier": "every history of a manager with any number of channels, all interleavings of threads", "why_tests_cant": "arbitrary interleavings of creation, shutdown and the channels' own events", "anchors": ["lib/src/ModbusManagerImpl.cpp::create_client_tcp_channel", "lib/src/ModbusManagerImpl.cpp::create_server_tcp_channel", "lib/src/ModbusManagerImpl.cpp::shutdown", "lib/src/IModbusManager.cpp::create"]}
{"id": "C92", "title": "The channels of a manager do not influence each other", "statement": "What happens to a channel of a manager is one of the histories of such a channel alone, and an event of one channel changes no other.", "quantifier": "every history, any number of channels", "why_tests_cant": "arbitrary interleavings", "anchors": ["lib/src/ModbusManagerImpl.cpp"]}
{"id": "C93", "title": "When shutdown of the manager has returned, everything has ended", "statement": "All the associated channels and sessions are shut down and the threads joined when shutdown returns (IModbusManager.h): no handler is called and nothing is transmitted afterwards.", "quantifier": "every history", "why_tests_cant": "arbitrary interleavings; the race is short", "anchors": ["lib/include/modbus/IModbusManager.h::shutdown", "lib/src/ModbusManagerImpl.cpp::shutdown"]}
{"id": "C94", "title": "Endpoints mean the host and port they were given", "statement": "Two endpoints are equal exactly if host and port are; a client asks the resolver for exactly this host and port; a server listens on exactly this port.", "quantifier": "all endpoints (32-bit ports)", "why_tests_cant": "2^32 ports", "anchors": ["lib/src/Ipv4Endpoint.cpp", "lib/src/server/channel/AsioServer.cpp::AsioServer", "lib/src/client/channel/AsioClientTcpConnection.cpp::send"]}
{"id": "C95", "title": "Log messages of a channel are written according to its own level", "statement": "A message of a channel, its connection or its sessions is written to the sinks of the manager's logger exactly if its severity is at least the level given for the channel; null loggers write nothing.", "quantifier": "all levels, severities and sinks", "why_tests_cant": "all combinations", "anchors": ["lib/src/logging/Logger.h::clone", "lib/src/logging/LoggingLevelConversion.h", "lib/src/ModbusManagerImpl.cpp", "lib/src/client/channel/ClientChannelTcp.cpp::create_session"]}
{"id": "C96", "title": "End-to-end correctness over TCP", "statement": "A client channel on its TCP connection, the network, and a server channel on its acceptor and connections with an in-memory database, to which others connect and send anything: provided frames of the client's connections are taken whole, its connection attempts do not overlap and nothing is received on its connections after a failure, the database goes through the states of the four-table model, executes for the client only requests that its sessions made, none twice, and every response a session reports is the model's response to its request, taken between call and report.", "quantifier": "all orderly histories of calls, timeouts, failures, reconnections, pieces, delays and other clients; all handlers and databases", "why_tests_cant": "unbounded interleavings of two strands, two connection classes and the network", "anchors": ["lib/src/client/channel/ClientChannelTcp.cpp", "lib/src/client/channel/AsioClientTcpConnection.cpp", "lib/src/server/channel/ServerChannelTcp.cpp", "lib/src/server/channel/AsioServer.cpp", "lib/src/server/channel/AsioServerTcpConnection.cpp", "lib/src/server/db/InMemoryDatabase.cpp"]}
{"id": "C97", "title": "The network cannot invent or repeat requests or responses", "statement": "Whatever the transport does within the rules of TCP, the server executes only requests that sessions made, each at most once, and sessions report only responses to executed requests.", "quantifier": "all histories", "why_tests_cant": "needs short sends, overlapping attempts and completions in unlikely orders", "anchors": ["lib/src/client/channel/AsioClientTcpConnection.cpp::send_buffer", "lib/src/client/channel/AsioClientTcpConnection.cpp::connect_handler", "lib/src/client/channel/AsioClientTcpConnection.cpp::read_handler", "lib/src/server/channel/AsioServerTcpConnection.cpp"]}
{"id": "C98", "title": "The whole consists of a client and a server, and is defined where they are", "statement": "Every history of client, network and server together restricts to a history of the TCP client and one of the TCP server, and its behaviour is undefined only when a freed write buffer is read or the acceptor pops from an empty list, neither of which happens when writes complete before the next one begins and the server is started once.", "quantifier": "all histories, calls, handlers and network behaviours", "why_tests_cant": "undefined behaviour may go unnoticed in a test, and the histories are infinitely many", "anchors": ["lib/src/client/channel/ClientChannelTcp.cpp", "lib/src/client/channel/AsioClientTcpConnection.cpp", "lib/src/server/channel/ServerChannelTcp.cpp", "lib/src/server/channel/AsioServer.cpp", "lib/src/server/channel/AsioServerTcpConnection.cpp"]}
{"id": "C99", "title": "When everything has come to rest, every request is completed", "statement": "When nothing is posted, waiting for the transport or under way between a TCP client and the server connection it is connected to, every request made through a session has been completed, by the server's answer if it was valid and nothing timed out or failed; a request is completed with an error only for one of these reasons.", "quantifier": "all histories, calls, handlers, databases and network behaviours that end at rest", "why_tests_cant": "a request is lost only in particular interleavings of completions, timers and connection attempts", "anchors": ["lib/src/client/channel/ClientChannelTcp.cpp", "lib/src/client/channel/AsioClientTcpConnection.cpp", "lib/src/server/channel/ServerChannelTcp.cpp", "lib/src/server/channel/AsioServerTcpConnection.cpp"]}
{"id": "C100", "title": "A client channel that was shut down is disposed of with all that belongs to it", "statement": "After the shutdown of a client channel, once nothing is left to run, every session, scheduled request, channel and connection that still exists can be reached from what the application holds, and nothing is left if it holds nothing; until the shutdown, the channel keeps its sessions, and these the requests scheduled on them.", "quantifier": "all histories, handlers, and sets of objects held by the application", "why_tests_cant": "a leak has no effect that a test of the behaviour observes, and depends on the order of shutdown and other calls", "anchors": ["lib/src/client/channel/ClientChannelTcp.cpp", "lib/src/client/session/ClientSessionImpl.cpp", "lib/src/client/session/ScheduledRequest.hpp"]}
{"id": "C101", "title": "The methods of the public API can be called from any thread", "statement": "No two accesses to data of the library, one of which writes, by calls and handlers on different threads are unordered by the mutexes and the executor; at least not if every channel is used by one thread of the application, which does nothing with it any more after having shut it down.", "quantifier": "all calls, threads and interleavings", "why_tests_cant": "a race shows in a fraction of the schedules, if at all", "anchors": ["lib/src/client/channel/ClientChannelTcp.cpp", "lib/src/client/session/ScheduledRequest.hpp", "lib/src/server/channel/ServerChannelTcp.cpp", "lib/src/server/db/InMemoryDatabase.cpp", "lib/src/ModbusManagerImpl.cpp"]}
{"id": "C102", "title": "Transactions are atomic and mutexes do not deadlock", "statement": "While a transaction is made on an in-memory database no other thread accesses its values, and whatever threads call, one of them can always go on.", "quantifier": "all calls, threads and interleavings", "why_tests_cant": "a deadlock needs a particular interleaving or nesting of calls", "anchors": ["lib/src/server/db/InMemoryDatabase.cpp", "lib/src/ModbusManagerImpl.cpp"]}
{"id": "C103", "title": "The example server serves what its source says", "statement": "Whatever is received and typed no operation of the example server is undefined, in particular at the end of its input; it listens after its start; unit 1 answers each request to read coils with one set bit and refuses all others; unit 2 answers from a database with addresses 0 to 99 in each table, whose initial bits are the parities and whose initial registers are the addresses; other units are silent; 'f' negates coil 0 and changes nothing else; 'q' ends it.", "quantifier": "all received bytes, their pieces and interleavings over connections, and all characters typed", "why_tests_cant": "the state space of received bytes and interleavings is unbounded; the use of an uninitialised character shows only by chance", "anchors": ["examples/server/main.cpp", "lib/include/modbus/server/IServerSession.h", "lib/src/server/db/InMemoryDatabase.cpp"]}
{"id": "C104", "title": "The methods of scheduled requests do what they are called for", "statement": "Once the closures posted have run, a scheduled request is running and has the frequency that the calls of schedule_request, start, stop and set_frequency say, taken in the order they were made, by users, handlers and the library.", "quantifier": "every history, any number of calls from any place", "why_tests_cant": "the calls only post closures; the effect depends on the order in which any number of them run", "anchors": ["lib/src/client/session/ScheduledRequest.hpp", "lib/src/client/session/ClientSessionImpl.cpp::schedule_request", "lib/src/client/session/ClientSessionImpl.cpp::shutdown"]}
{"id": "C105", "title": "The example client does what its source says", "statement": "Whatever is received and typed no operation of the example client is undefined, in particular at the end of its input; it opens one session, for unit 1, with one scheduled request; 'r' and 'w' send one request each, with the data of the source, and the answer to each is printed as one line that says what it is; every call has unit 1 and the timeout of 3 s; 's' stops and starts the scheduled request in turn and 'f' changes its frequency between 2 s and 5 s; the connection is never shut down before 'q', after which nothing happens; the example server's answers are printed as \"36: 1\" and \"Illegal function\".", "quantifier": "all received bytes and their pieces, all characters typed, and all orders in which the closures, timers and characters take their turns", "why_tests_cant": "whether 's' stops or starts depends on which posted closures have run; the use of an uninitialised character shows only by chance", "anchors": ["examples/client/main.cpp", "lib/src/client/session/ClientSessionImpl.cpp", "lib/src/client/session/ScheduledRequest.hpp"]}
{"id": "C106", "title": "No object of a server channel outlives its use", "statement": "The shared pointers among a server channel, its acceptor, connections, listeners and sessions form no cycle; a connection exists exactly as long as an operation of it is in progress, it is about to be closed, or its socket is open. After shutdown, once nothing is left to run, no session is kept, all connections that are left have closed sockets and wait for operations that are aborted, no operation begins any more, each is over when it fails, and then nothing is left.", "quantifier": "all histories of calls, accepted connections, reads and writes, any sessions, and everything the application may hold", "why_tests_cant": "leaks and objects destroyed too early show only for particular interleavings of shutdown, accepts and failures, and a test cannot see that an object no longer exists", "anchors": ["lib/src/server/channel/ServerChannelTcp.cpp", "lib/src/server/channel/AsioServer.cpp", "lib/src/server/channel/AsioServerTcpConnection.cpp", "lib/src/server/channel/ServerConnectionListener.h"]}
{"id": "C107", "title": "Weak pointers to a server channel and its acceptor make no difference", "statement": "If the channel is destroyed when a connection receives requests, the channel would have ignored them anyway; if the acceptor is destroyed when a connection deregisters, it would not have had a connection to remove.", "quantifier": "all histories in which the channel is kept at least until its shutdown is called", "why_tests_cant": "the order of destruction depends on the interleaving of closures and completions", "anchors": ["lib/src/server/channel/ServerConnectionListener.cpp", "lib/src/server/channel/AsioServerTcpConnection.cpp", "lib/src/ModbusManagerImpl.cpp"]}
{"id": "C108", "title": "When requests are completed", "statement": "If posted closures and timer actions are executed within a time eps after they could be, then the handler of a request is called at the latest eps plus the timeouts (each plus eps) of the valid requests that were made before and are unanswered, plus its own timeout and eps, after the call; immediately (within eps) if the request is invalid. With nothing unanswered that is its timeout plus twice eps. A request does not time out earlier than its timeout after it was sent.", "quantifier": "all histories of a client channel in time, whatever the peer and the handlers do, up to shutdown", "why_tests_cant": "it is a bound over all behaviours of the peer and of the handlers; a test measures single runs", "anchors": ["lib/src/client/channel/ClientChannelTcp.cpp", "lib/src/client/channel/ClientChannelTcp.h", "lib/include/modbus/ITimer.h"]}
{"id": "C109", "title": "After shutdown everything comes to an end", "statement": "Once the closures that shutdown leads to have been executed, everything that can still happen by itself to a channel - posted closures, timers, completions of operations, in whatever order and with whatever results - is well defined, is finitely much, and when nothing more can happen nothing is left: no closure, timer or operation of a client channel and its connection, no object of a server channel. So the threads of the pool return, and with them the manager's destructor.", "quantifier": "all histories with a shutdown, whatever the peer, the handlers and the sessions do; server channels that were started at most once", "why_tests_cant": "a test sees that single runs end; that every interleaving of completions, timers and closures ends is a termination property", "anchors": ["lib/src/ModbusManagerImpl.cpp", "lib/src/client/channel/ClientChannelTcp.cpp", "lib/src/client/channel/AsioClientTcpConnection.cpp", "lib/src/server/channel/AsioServer.cpp", "lib/src/server/channel/AsioServerTcpConnection.cpp"]}
{"id": "C110", "title": "A late answer is not taken for that to another request", "statement": "However late the response to a request that has timed out arrives, no session reports it as the response to another request.", "quantifier": "all histories of a client, a server, a database and an in-order network", "why_tests_cant": "the identifiers come round after 65536 requests; no test waits for that many timeouts", "anchors": ["lib/src/client/channel/ClientChannelTcp.cpp", "lib/src/TransactionIdentifier.cpp"]}
{"id": "C111", "title": "What a user of a session is told, end to end", "statement": "With sessions, their handlers and scheduled requests on a client channel, its TCP connection, a server with its connections and a database that others use as well: whatever a user is told about a request is its malformation, the response the database gave to this very request before the user was told, an expired timeout or a failed connection; no request is executed twice; and once everything is at rest every request, scheduled or not, has been answered.", "quantifier": "all databases, handlers, schedules, others, and orderly histories of all parts together", "why_tests_cant": "the integration tests exercise one request at a time on a local connection; interleavings of handlers, schedules, reconnections and other clients are not enumerable", "anchors": ["lib/src/client/session/ClientSessionImpl.cpp", "lib/src/client/session/ScheduledRequest.hpp", "lib/src/client/channel/ClientChannelTcp.cpp", "lib/src/server/channel/ServerChannelTcp.cpp"]}
{"id": "C112", "title": "Requests take effect in the order in which they were made", "statement": "The requests of a client, made through any of its sessions, take effect at the server in the order in which they were made; and a user who is told that a value was written, and reads it afterwards, is told this value unless something else wrote to the same address in between.", "quantifier": "all databases, handlers, schedules, other clients, and orderly histories of all parts together", "why_tests_cant": "reordering needs a request that stays on its way while its connection fails and a new one is made; no test has two connections of one client with data outstanding", "anchors": ["lib/src/client/channel/ClientChannelTcp.cpp", "lib/src/client/channel/AsioClientTcpConnection.cpp", "lib/src/client/session/ClientSessionImpl.cpp", "lib/src/server/channel/ServerChannelTcp.cpp"]}
{"id": "C113", "title": "After a shutdown of its channel, everything at a client ends, scheduled requests included", "statement": "After shutdown was called on a client channel, by a thread or by a handler, and the closures posted by then were executed, everything that still happens at the client - its connection, its timers, its sessions, the timers of its scheduled requests, and calls that handlers make of all these - is well defined and finite, and ends with no closure, timer or operation left.", "quantifier": "all handlers, sessions, scheduled requests, histories before the shutdown, orders of events after it, and behaviours of network and server", "why_tests_cant": "tests end with the process; that a scheduled request never rearms its timer after the shutdown, whatever handlers and the network do, needs all orders of events", "anchors": ["lib/src/client/channel/ClientChannelTcp.cpp", "lib/src/client/session/ScheduledRequest.hpp", "lib/src/client/session/ClientSessionImpl.cpp", "lib/src/client/channel/AsioClientTcpConnection.cpp"]}
{"id": "C114", "title": "When users are told something and when scheduled requests are repeated", "statement": "In time, with a bound on how late the executor is: the handler of each request of a session, one-time or scheduled, is called within the timeouts of the requests still unanswered before it and its own; a scheduled request makes its first request at once and each further one exactly its frequency after the response to the one before, as long as it is not stopped; no request comes earlier; and what start, stop and set_frequency are called for holds afterwards.", "quantifier": "all handlers, sessions, scheduled requests, networks, and timed histories of them", "why_tests_cant": "tests wait for wall-clock times with generous margins and a single schedule; bounds over all interleavings of timeouts, responses and calls are not observable by them", "anchors": ["lib/src/client/session/ScheduledRequest.hpp", "lib/src/client/session/ClientSessionImpl.cpp", "lib/src/client/channel/ClientChannelTcp.cpp"]}
{"id": "C115", "title": "The destructor of a manager returns", "statement": "When a manager is destroyed, every channel is shut down and the threads of the pool are joined: once the closures that the shutdowns lead to have been executed, everything that can still happen to the client and server channels together, in whatever order and with whatever result, is well defined and finite, and when nothing more can happen nothing is left that would keep a thread.", "quantifier": "any number of client and server channels, all histories before, all interleavings after, all handlers and peers", "why_tests_cant": "tests destroy managers in one schedule and with idle channels; that no interleaving of operations, timers and closures of several channels goes on for ever is about infinite runs", "anchors": ["lib/src/ModbusManagerImpl.cpp", "lib/src/ModbusManagerImpl.h", "lib/src/server/channel/ServerChannelTcp.cpp", "lib/src/client/channel/ClientChannelTcp.cpp"]}
{"id": "C116", "title": "The texts of malformed-response exceptions say what is wrong", "statement": "The exception that a user is given for a malformed response carries a text; which of the texts it is is determined by the request and the response: it is given exactly if the thing it stands for (wrong exception length, missing function code or header, byte count that does not fit, wrong number of registers, invalid coil state, wrong length) is the first that is wrong.", "quantifier": "all requests and all byte sequences as response", "why_tests_cant": "tests check that an exception is thrown for a few malformed responses, not which of the texts it carries over all of them", "anchors": ["lib/src/messages/IMessage.cpp", "lib/src/messages/ReadBitsResponseImpl.cpp", "lib/src/messages/ReadRegistersResponseImpl.cpp", "lib/src/messages/WriteSingleCoilResponseImpl.cpp", "lib/include/modbus/exceptions/MalformedModbusResponseException.h"]}
{"id": "C117", "title": "The log of a channel tells what happens to it", "statement": "Logging does not change what channels do. Every request that a client channel sends, every answer, timeout and connection failure it reports, and every frame that is not for its current request is logged, with the right identifiers, and nothing else is logged as such; a server channel warns about every frame that it does not pass to a session, with the reason.", "quantifier": "all handlers, sessions, histories of client and server channels, and received bytes", "why_tests_cant": "the tests run with logging disabled, and the correspondence between log lines and effects is a property of all histories", "anchors": ["lib/src/client/channel/ClientChannelTcp.cpp", "lib/src/server/channel/ServerChannelTcp.cpp", "lib/include/modbus/logging/LoggerFactory.h"]}
{"id": "C118", "title": "The log of a TCP connection tells what happens to it", "statement": "Logging does not change what the TCP connections of clients and servers do. Every attempt, established or closed connection, received or sent data and failure has its line, next to what it is about, and no line is untrue; the numbers of bytes that are logged are those received and those the transport took; if nothing fails, no error is logged; and after a shutdown nothing is.", "quantifier": "all histories of a client's or a server's connection, with all results of the network", "why_tests_cant": "the tests run with logging disabled; the agreement of log and behaviour is about all histories, including overlapping attempts and failures", "anchors": ["lib/src/client/channel/AsioClientTcpConnection.cpp", "lib/src/server/channel/AsioServerTcpConnection.cpp"]}
{"id": "C119", "title": "A server's answers are bounded by what it receives", "statement": "Whatever the sessions answer, and however the data is cut into chunks: on each connection, and on all together, at most 260 bytes are sent for 12 bytes received, at most 259 if the sessions answer as many values as they are asked for; a frame is sent for at least 8 bytes; a session is asked for at least 12. The same holds on the wire, for what the transport takes and what arrives. So nothing is sent unasked, and a server amplifies its input by no more than 260/12.", "quantifier": "all sessions with answers of the right type, and all histories of a server channel and of a server over TCP", "why_tests_cant": "it bounds the total over histories of any length with any interleaving of connections, chunks, errors and API calls", "anchors": ["lib/src/server/channel/ServerChannelTcp.cpp::on_mbap", "lib/src/server/channel/ServerChannelTcp.cpp::process_message", "lib/src/server/channel/ServerConnectionListener.cpp::on_receive", "lib/src/server/channel/ServerConnectionListener.cpp::on_mbap_message", "lib/src/messages/mbap/MbapParser.cpp::parse", "lib/src/messages/mbap/MbapMessage.cpp::build_message"]}
{"id": "C120", "title": "A client notices nothing of others that do not change what it asks about", "statement": "If what the other clients of a server ask leaves the sessions as they are (for a database: if they only read), then a client gets exactly the answers that it would get if they were not connected, and the sessions end in the same state, whatever else the others send, wherever they break off. The same holds if each session has its own state and the others talk to other sessions; then not even the state of these matters.", "quantifier": "all sessions, all histories of a server channel with any number of connections", "why_tests_cant": "it compares all pairs of histories that differ in what happens on other connections", "anchors": ["lib/src/server/channel/ServerChannelTcp.cpp::on_mbap", "lib/src/server/channel/ServerChannelTcp.cpp::process_message", "lib/src/server/channel/ServerConnectionListener.cpp::on_receive", "lib/src/server/channel/ServerConnectionListener.cpp::on_mbap_message", "lib/src/server/db/InMemoryDatabase.cpp::on_request", "lib/src/server/db/SingleTypeDatabase.cpp::add_value", "lib/src/server/db/SingleTypeDatabase.cpp::get_values", "lib/src/server/db/SingleTypeDatabase.cpp::set_value", "lib/src/server/db/SingleTypeDatabase.cpp::set_values"]}
{"id": "C121", "title": "A server does not notice in which pieces the bytes arrive", "statement": "Two histories of a server channel that differ only in how the bytes received by a connection are cut into pieces, and in what the memory of new connections held before, lead to the same calls of sessions and the same answers in the same order, and leave sessions and channel in the same state. Bytes with which no frame ends may also arrive before or after whatever happens next elsewhere.", "quantifier": "all sessions, all pairs of histories with any number of connections, both behaviours of an overflowing copy; over-long frames are excluded for one of them", "why_tests_cant": "it compares all ways to cut the received streams into pieces, in all histories", "anchors": ["lib/src/server/channel/ServerChannelTcp.cpp::on_mbap", "lib/src/server/channel/ServerChannelTcp.cpp::process_message", "lib/src/server/channel/AsioServerTcpConnection.cpp::read_handler", "lib/src/messages/mbap/MbapParser.cpp::parse"]}
{"id": "C122", "title": "A client does not notice in which pieces the bytes arrive", "statement": "Two histories of a client channel that differ only in how the received bytes are cut into pieces, and in what the memory of the channel held before, complete the same requests with the same results and send the same requests in the same order, and leave handlers and channel in the same state. Bytes with which no frame ends may also arrive before or after whatever the channel does next.", "quantifier": "all handlers, all pairs of histories, both behaviours of an overflowing copy; over-long frames are excluded for one of them, and empty frames for the second sentence", "why_tests_cant": "it compares all ways to cut the received stream into pieces, in all histories with timeouts, errors and shutdown", "anchors": ["lib/src/client/channel/ClientChannelTcp.cpp::on_receive", "lib/src/client/channel/ClientChannelTcp.cpp::on_mbap_message", "lib/src/messages/mbap/MbapParser.cpp::parse"]}
{"id": "C123", "title": "A client does not notice frames that answer nothing", "statement": "If whole frames that have not the identifiers of the request being waited for arrive at a client channel (late answers, answers to others, frames of another protocol), everything goes on as if they had not arrived: the same requests are sent and completed with the same results in the same order, and handlers and channel are left in the same state. Refuted right after an answer with an empty PDU, which is only delivered when something follows it.", "quantifier": "all handlers, all histories before and after, all such frames, both behaviours of an overflowing copy; over-long frames are excluded for one of them", "why_tests_cant": "it compares all histories with and without any number of any such frames, with everything that may follow", "anchors": ["lib/src/client/channel/ClientChannelTcp.cpp::on_receive", "lib/src/client/channel/ClientChannelTcp.cpp::on_mbap_message", "lib/src/messages/mbap/MbapParser.cpp::parse"]}
{"id": "C124", "title": "A server does not notice frames that are for nobody", "statement": "If whole frames for units without a session, with an empty or malformed PDU, or of another protocol arrive on a connection of a server channel, everything goes on as if they had not arrived: the same sessions are asked and the same answers sent in the same order, and sessions and channel are left in the same state. Refuted if an overflowing copy copies nothing: then the next over-long frame is taken for what the frame for nobody said.", "quantifier": "all sessions, all histories before and after on any number of connections, all such frames, both behaviours of an overflowing copy; over-long frames are excluded for one of them", "why_tests_cant": "it compares all histories with and without any number of any such frames, with everything that may follow", "anchors": ["lib/src/server/channel/ServerChannelTcp.cpp::on_mbap", "lib/src/server/channel/ServerChannelTcp.cpp::process_message", "lib/src/server/channel/ServerConnectionListener.cpp::on_receive", "lib/src/server/channel/ServerConnectionListener.cpp::on_mbap_message", "lib/src/messages/mbap/MbapParser.cpp::parse"]}
{"id": "C125", "title": "A request that is executed again does nothing more", "statement": "Executing a request twice gives the same response twice and leaves the database as executing it once; so a server answers a frame that it receives twice twice in the same way, and everything else, also later, is as if it had been received once. Later on, an old request that is executed again undoes what was written in the meantime (refuted), unless nothing was changed where it writes.", "quantifier": "all reachable databases, all requests, all calls in between, all sessions with the same property, all histories before and after on any number of connections", "why_tests_cant": "it is about all databases and requests, and all continuations", "anchors": ["lib/src/server/db/InMemoryDatabase.cpp::on_request", "lib/src/server/db/SingleTypeDatabase.cpp::add_value", "lib/src/server/db/SingleTypeDatabase.cpp::get_values", "lib/src/server/db/SingleTypeDatabase.cpp::set_value", "lib/src/server/db/SingleTypeDatabase.cpp::set_values", "lib/src/server/channel/ServerChannelTcp.cpp::on_mbap", "lib/src/server/channel/ServerChannelTcp.cpp::process_message"]}
{"id": "C126", "title": "Requests about different addresses can be executed in any order", "statement": "If nothing that one of them writes is read or written by another, requests executed in any other order leave the same database and each has the same response. If something is, this need not be so.", "quantifier": "all reachable databases, all lists of pairwise independent requests and all their permutations", "why_tests_cant": "it is about all permutations of all lists of requests on all databases", "anchors": ["lib/src/server/db/InMemoryDatabase.cpp::on_request", "lib/src/server/db/SingleTypeDatabase.cpp::add_value", "lib/src/server/db/SingleTypeDatabase.cpp::get_values", "lib/src/server/db/SingleTypeDatabase.cpp::set_value", "lib/src/server/db/SingleTypeDatabase.cpp::set_values"]}
{"id": "C127", "title": "The log can be understood", "statement": "Every line that a client channel, a server channel or one of their TCP connections logs has a text, which is made of fixed words, identifiers with two or four hexadecimal digits, decimal numbers, host names and the texts of error codes. Lines with the same text say the same: the same line about the same unit, transaction, number of bytes, endpoint and error. Hence one can tell from the text of its log alone which requests a client has sent and how many were answered or given up. Refuted for timeouts, of which only the milliseconds are printed.", "quantifier": "all lines of the four classes with all identifiers and numbers, all host names and texts of error codes, all pairs of logs", "why_tests_cant": "that no two different lines have the same text is a statement about all pairs of lines with unbounded numbers and arbitrary host names", "anchors": ["lib/src/client/channel/ClientChannelTcp.cpp::check_pending_requests", "lib/src/client/channel/ClientChannelTcp.cpp::on_mbap_message", "lib/src/client/channel/ClientChannelTcp.cpp::on_receive", "lib/src/client/channel/ClientChannelTcp.cpp::on_error", "lib/src/server/channel/ServerChannelTcp.cpp::on_mbap", "lib/src/server/channel/ServerChannelTcp.cpp::process_message", "lib/src/client/channel/AsioClientTcpConnection.cpp", "lib/src/server/channel/AsioServerTcpConnection.cpp", "lib/src/logging/Logger.h"]}
{"id": "C128", "title": "What is read is what was written last", "statement": "Every value that a successful read reports for an address was given to that address by an earlier call that succeeded (an addition, a write request or a transaction) or was there from the beginning, and no successful call in between gave it another; without transactions there is exactly one such value. The same holds of everything users of a client's sessions are told, through the channel, the network and the server: it is what was written last, by whomever, when the request took effect, after it was made and before its user was told.", "quantifier": "all sequences of calls of a database; all orderly histories of a client, the network, a server and a database with other users", "why_tests_cant": "it is about all histories and interleavings of readers and writers", "anchors": ["lib/src/server/db/InMemoryDatabase.cpp::on_request", "lib/src/server/db/SingleTypeDatabase.cpp::add_value", "lib/src/server/db/SingleTypeDatabase.cpp::get_values", "lib/src/server/db/SingleTypeDatabase.cpp::set_value", "lib/src/server/db/SingleTypeDatabase.cpp::set_values", "lib/src/server/channel/ServerChannelTcp.cpp::process_message", "lib/src/client/session/ClientSessionImpl.cpp::send_request"]}
{"id": "C129", "title": "No timer is left behind", "statement": "A client channel never has more than one time-out timer armed: it is the timer of the request that was sent last, with the time-out given for it, and that request is not completed. When all requests are completed or the channel is shut down none is armed, and as long as a request is waited for its timer is armed or about to run its action.", "quantifier": "every interleaving of calls, posted closures, received bytes, errors and timers; all handlers", "why_tests_cant": "a timer that is forgotten shows only when it fires much later, in another request", "anchors": ["lib/src/client/channel/ClientChannelTcp.cpp::check_pending_requests", "lib/src/client/channel/ClientChannelTcp.cpp::cancel_current_request", "lib/src/client/channel/ClientChannelTcp.cpp::on_mbap_message", "lib/src/client/channel/ClientChannelTcp.cpp::shutdown"]}
{"id": "C130", "title": "One read at a time uses the read buffer", "statement": "A client connection has one read buffer; there is never more than one read in progress on its socket, so no read overwrites what another one has delivered.", "quantifier": "every interleaving of sends, closures and completions of resolves, connects, reads and writes", "why_tests_cant": "two reads at once need a completion handler that is overtaken by a reconnection", "anchors": ["lib/src/client/channel/AsioClientTcpConnection.cpp::begin_read", "lib/src/client/channel/AsioClientTcpConnection.cpp::read_handler", "lib/src/client/channel/AsioClientTcpConnection.cpp::connect_handler"]}
{"id": "C131", "title": "One connection attempt at a time", "statement": "A client connection has at most one connection attempt under way: a new attempt (name resolution, then connecting) begins only after the attempt before has failed or succeeded.", "quantifier": "every interleaving of sends, closures and completions of resolves, connects, reads and writes", "why_tests_cant": "it takes a slow name resolution and a second failure report of the connection before", "anchors": ["lib/src/client/channel/AsioClientTcpConnection.cpp::send", "lib/src/client/channel/AsioClientTcpConnection.cpp::close", "lib/src/client/channel/AsioClientTcpConnection.cpp::resolve_handler", "lib/src/client/channel/AsioClientTcpConnection.cpp::connect_handler"]}
{"id": "C132", "title": "A client connects only for a request", "statement": "Every attempt of a client to connect begins with the sending of a request that is not completed; a client channel on which no request is sent neither connects nor transmits anything, whatever else happens.", "quantifier": "every interleaving of calls, closures, timers and completions of resolves, connects, reads and writes; all handlers", "why_tests_cant": "it is about everything that does not happen, in all histories", "anchors": ["lib/src/client/channel/AsioClientTcpConnection.cpp::send", "lib/src/client/channel/ClientChannelTcp.cpp::check_pending_requests", "lib/src/client/channel/ClientChannelTcp.cpp::on_error"]}
{"id": "C133", "title": "Shutting down again changes nothing", "statement": "When a client channel, client connection or server that is already shut down is shut down again, nothing happens: no request is completed, no session is told, no timer or operation changes; a client channel only passes the call on to its connection, which ignores it.", "quantifier": "every history of calls, closures, data, errors and timers before the further shutdown; all handlers and sessions", "why_tests_cant": "it must hold from every state that can be reached after a shutdown, with anything still in progress", "anchors": ["lib/src/client/channel/ClientChannelTcp.cpp::shutdown", "lib/src/client/channel/AsioClientTcpConnection.cpp::shutdown", "lib/src/server/channel/ServerChannelTcp.cpp::shutdown"]}
{"id": "C134", "title": "Each connection of a server has one read in progress", "statement": "At any time at most one read uses the read buffer of a connection of a server, and exactly one is in progress as long as the connection is open and not about to be closed.", "quantifier": "every history of a server channel with any number of connections, all sessions, all orders of completions", "why_tests_cant": "a second read, or a connection that is no longer read, appears only in particular orders of failures and posted closings", "anchors": ["lib/src/server/channel/AsioServerTcpConnection.cpp::start", "lib/src/server/channel/AsioServerTcpConnection.cpp::begin_read", "lib/src/server/channel/AsioServerTcpConnection.cpp::read_handler"]}
{"id": "C135", "title": "A client channel keeps exactly the requests that are not completed", "statement": "Until it is shut down, a client channel keeps the requests that are not completed, each once and in the order in which they were made, and no others; no request waits while none is on its way. After the shutdown it keeps only calls that are posted.", "quantifier": "every history of calls, closures, received data, connection errors and timers; all handlers", "why_tests_cant": "leaks and losses are invisible to tests unless they look for them in the right history", "anchors": ["lib/src/client/channel/ClientChannelTcp.cpp::send_request", "lib/src/client/channel/ClientChannelTcp.cpp::check_pending_requests", "lib/src/client/channel/ClientChannelTcp.cpp::cancel_current_request"]}
{"id": "C136", "title": "Calls of the API do nothing but post", "statement": "A call of send_request, start, add_session or shutdown returns at once: it calls no handler and no session, sends nothing, leaves the connections and the acceptor alone, and posts at most one closure; even an invalid request is rejected only later.", "quantifier": "all states of a client or server channel over TCP, all calls, all handlers and sessions", "why_tests_cant": "callers may hold locks that handlers need; only a proof for all states excludes that a handler is ever called from within a call", "anchors": ["lib/src/client/channel/ClientChannelTcp.cpp::send_request", "lib/src/client/channel/ClientChannelTcp.cpp::shutdown", "lib/src/server/channel/ServerChannelTcp.cpp::start", "lib/src/server/channel/ServerChannelTcp.cpp::add_session", "lib/src/server/channel/ServerChannelTcp.cpp::shutdown"]}
{"id": "C137", "title": "Timers of users", "statement": "The action of a timer started with IClientSession::start is executed at most once and never before its expiration, which is the given time or the given duration from now and what expires_at returns. It is never executed once the timer was cancelled, unless it was already queued; otherwise it stays due, even if the ITimer is destroyed or the session is shut down, so that an action that starts its timer again never lets the executor run out of work.", "quantifier": "all sequences of starts, cancellations, destructions, shutdowns, expirations and executions, all actions including those that start and cancel timers", "why_tests_cant": "the order of expiration, cancellation and execution depends on the scheduling of threads", "anchors": ["lib/src/client/session/ClientSessionImpl.cpp::start", "lib/src/TimerWrapper.cpp::cancel", "lib/src/TimerWrapper.cpp::expires_at"]}
