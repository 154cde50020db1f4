{"id": "C01", "title": "A proxy that has not been deleted resolves to exactly the object it was made for", "statement": "After RPCServer.get_proxy(obj) has returned a proxy, any later use of that proxy at the server (calling it, fetching it, passing it back as an argument) resolves to obj itself and to no other object, for as long as nobody has asked the server to delete that proxy; an object ID resolves to an object if and only if some proxy issued for that object is still undeleted.", "quantifier": "every history of get_proxy / delete / use requests interleaved with Python allocating and freeing objects and re-using memory addresses (the value of id())", "why_tests_cant": "The failure needs a particular history (release, address re-use, re-proxy); tests cannot force address re-use and cannot enumerate histories.", "anchors": ["teleprox/server.py: RPCServer.get_proxy, _get_object_id, unwrap_proxy, process_action(delete)"]}
{"id": "C02", "title": "The server keeps an object alive exactly while an undeleted proxy exists", "statement": "The server holds a strong reference to an object on behalf of proxies if and only if at least one proxy issued for it has not been deleted; deleting the last one drops the object, and from then on that object ID raises KeyError for ever.", "quantifier": "every history of get_proxy / delete / use requests and heap activity", "why_tests_cant": "Reference-count exactness is a statement about all histories; a test shows one count on one run.", "anchors": ["teleprox/server.py: RPCServer._proxy_refs, process_action(delete), unwrap_proxy"]}
{"id": "C03", "title": "Object IDs identify objects one-to-one and are never recycled", "statement": "Two proxies carry the same object ID only if they were made for the same object, over the whole life of the server and even if Python re-used the memory address of a freed object; and two proxies made for the same object while the first is undeleted carry the same object ID.", "quantifier": "every history of get_proxy / delete requests (including get_proxy calls that fail because of a bad option) and every pattern of address re-use", "why_tests_cant": "Address re-use is decided by the allocator; no test can exhibit every pattern.", "anchors": ["teleprox/server.py: RPCServer._get_object_id, _next_object_id, _proxy_id_map"]}
{"id": "C04", "title": "Reference IDs are globally unique", "statement": "No two proxies ever issued by one server carry the same reference ID, so deleting one proxy can never release another one.", "quantifier": "every history of requests", "why_tests_cant": "Uniqueness over unbounded histories.", "anchors": ["teleprox/server.py: RPCServer.get_proxy, _next_ref_id"]}
{"id": "C05", "title": "Deleting a proxy twice, or one that was never issued, is an error and changes nothing", "statement": "A delete request whose (object ID, reference ID) pair is not that of an issued and undeleted proxy raises KeyError and leaves every other proxy and object untouched; a delete of an undeleted proxy always succeeds and affects no other proxy.", "quantifier": "every server state reachable by any history and every pair of integers", "why_tests_cant": "Ranges over every state and every forged pair.", "anchors": ["teleprox/server.py: RPCServer.process_action(delete)"]}
{"id": "C06", "title": "A deleted proxy cannot be used any more, even if the object is still alive", "statement": "RPCClient.delete documents: after a proxy is deleted it cannot be used to access the remote object even if the server has not released the object yet.", "quantifier": "every history in which a proxy is deleted and then used", "why_tests_cant": "Depends on which other proxies happen to be alive in the history.", "anchors": ["teleprox/client.py: RPCClient.delete (docstring)", "teleprox/server.py: RPCServer.unwrap_proxy"]}
{"id": "C07", "title": "Deferred attribute chains mean the same as attribute access on the object", "statement": "Using the proxy p.a1.a2...an at the server yields getattr(...getattr(getattr(obj,a1),a2)...,an): the attributes are applied to the proxied object left to right, each exactly once, and the first missing attribute raises AttributeError.", "quantifier": "every object graph, every attribute chain of any length", "why_tests_cant": "Unbounded chains and arbitrary object graphs.", "anchors": ["teleprox/proxy.py: ObjectProxy._deferred_attr, __getattr__", "teleprox/server.py: RPCServer.unwrap_proxy"]}
{"id": "C08", "title": "Values survive a msgpack round trip unchanged", "statement": "Any value built from None, bool, int of any size, float, str, bytes, list, tuple, dict with str or bytes keys, naive datetime and date from the year 1000 on, ndarray, real numpy scalar, picklable enum-like subclass of the basic types and foreign proxies, nested in any way, is received equal to and of the same type as what was sent, as long as no dict in it uses the reserved marker key; sending it changes nothing at the sender; and a value nested more than 512 levels deep is refused with ValueError.", "quantifier": "every such value, of any size and nesting below the msgpack nesting limit", "why_tests_cant": "Unbounded recursive data; a table of examples cannot cover nesting or collisions.", "anchors": ["teleprox/serializer.py: MsgpackSerializer.dumps, loads, Serializer.encode, decode"]}
{"id": "C09", "title": "What a JSON round trip preserves", "statement": "Through the JSON serializer every supported value arrives as its documented JSON normal form (tuples become lists, non-string keys become strings, everything else unchanged) and values already in normal form arrive unchanged.", "quantifier": "every supported value of any size and nesting", "why_tests_cant": "Unbounded recursive data.", "anchors": ["teleprox/serializer.py: JsonSerializer.dumps, loads, encode, decode"]}
{"id": "C10", "title": "Dates and times survive the round trip to the microsecond", "statement": "Any naive datetime and any date from the year 1000 on is decoded to the same instant after encoding, and these are the only ones that are.", "quantifier": "every calendar date and time of day", "why_tests_cant": "3.6 million dates times 86 billion microseconds.", "anchors": ["teleprox/serializer.py: Serializer.encode, decode (datetime, date)"]}
{"id": "C11", "title": "Arrays survive the round trip element for element", "statement": "An ndarray of any shape, item size and memory layout (including non-contiguous, transposed and sliced views) is decoded to an array of the same dtype and shape with the same bytes at every index.", "quantifier": "every shape, stride pattern, item size and buffer", "why_tests_cant": "Every stride pattern and rank.", "anchors": ["teleprox/serializer.py: Serializer.encode, decode, JsonSerializer.encode, decode (ndarray)"]}
{"id": "C12", "title": "Ordinary dictionaries are never mistaken for encoded objects", "statement": "A plain dict with str and bytes keys and sendable values arrives as the same dict, in the same order, unless one of its own keys is the reserved marker.", "quantifier": "every such dict", "why_tests_cant": "Any combination of keys could collide with the encoding.", "anchors": ["teleprox/serializer.py: encode_key, Serializer.decode"]}
{"id": "C13", "title": "Objects that are not serializable arrive as proxies to exactly those objects and come home as the objects themselves", "statement": "When a value is sent, every occurrence of an object whose type is not serializable is replaced, wherever it is nested, by one fresh proxy to that very object (one new reference per occurrence, nothing else in the reference table changes), and when a proxy is received by the server that owns it, it is turned back into the object.", "quantifier": "every value, every nesting, every reference-table state", "why_tests_cant": "Unbounded values and table states.", "anchors": ["teleprox/serializer.py: Serializer.encode, decode", "teleprox/server.py: RPCServer.get_proxy, unwrap_proxy"]}
{"id": "C14", "title": "Without a local server an unserializable argument is rejected before anything is sent", "statement": "If the calling thread has no RPC server and an argument contains an object that is not serializable, the call raises TypeError, nothing is transmitted and no pending request remains.", "quantifier": "every argument value", "why_tests_cant": "Every nesting position.", "anchors": ["teleprox/serializer.py: Serializer.encode", "teleprox/client.py: RPCClient.send"]}
{"id": "C15", "title": "return_type decides how results come back", "statement": "With 'proxy' the caller always receives a proxy, with 'auto' it receives the value when its type is serializable and a proxy otherwise, and with 'value' (and _get_value) it receives the value when its type is serializable.", "quantifier": "every result value and return type", "why_tests_cant": "Every value.", "anchors": ["teleprox/server.py: RPCServer._process_one, auto_proxy", "teleprox/proxy.py: ObjectProxy._get_value"]}
{"id": "C16", "title": "A reply is only ever matched to the request it answers", "statement": "In any interleaving of synchronous and asynchronous requests, waiting in any order, dropped futures and timed-out calls, when a future completes its outcome is the outcome the server computed for exactly that request.", "quantifier": "every number of clients, every schedule of sends, receives, drops and server steps", "why_tests_cant": "Schedules are unbounded.", "anchors": ["teleprox/client.py: RPCClient.send, process_msg", "teleprox/server.py: RPCServer._process_one, _send_result"]}
{"id": "C17", "title": "Requests of one client are executed once each, in the order they were sent", "statement": "The sequence of requests of a client that the server has executed is always a prefix of the sequence that client sent.", "quantifier": "every schedule", "why_tests_cant": "All schedules.", "anchors": ["teleprox/client.py: RPCClient.send", "teleprox/server.py: RPCServer.run_forever, _process_one"]}
{"id": "C18", "title": "Every answered request completes its future", "statement": "Once all messages have been delivered and decoded (none dropped by the network) and the server is still running, every request that asked for a response and whose future still exists is complete, and no request made with sync=off ever causes a reply.", "quantifier": "every schedule", "why_tests_cant": "All schedules.", "anchors": ["teleprox/client.py: RPCClient.process_msg", "teleprox/server.py: RPCServer._process_one"]}
{"id": "C19", "title": "A failing request harms nobody else", "statement": "If executing a request raises, the caller gets a RemoteCallException carrying the exception type, and the server goes on serving with its published names and proxies exactly as the failing code left them; it does not stop.", "quantifier": "every request, every server state", "why_tests_cant": "Every error path in every state.", "anchors": ["teleprox/server.py: RPCServer._process_one, _send_error, run_forever"]}
{"id": "C20", "title": "A request in an unsupported serialization format is answered with an error", "statement": "If a client uses a serializer the server does not support, it gets an error reply and the server keeps running.", "quantifier": "every request naming a serializer the server does not have", "why_tests_cant": "Needs a server lacking msgpack; unit tests run with it installed.", "anchors": ["teleprox/server.py: RPCServer._process_one, _send_result"]}
{"id": "C21", "title": "A future completes at most once and stray replies are ignored", "statement": "Duplicate replies, replies to dropped or unknown requests and replies after a disconnect change no future and raise nothing; a future that is complete keeps its outcome for ever.", "quantifier": "every sequence of incoming messages", "why_tests_cant": "Arbitrary message sequences.", "anchors": ["teleprox/client.py: RPCClient.process_msg, _server_disconnected"]}
{"id": "C22", "title": "When the server closes, every known client is told exactly once", "statement": "Closing the server sends one disconnect message to every client it has heard from except the one that asked, which gets the reply True; the server then leaves the thread registry and processes nothing more.", "quantifier": "every set of clients and every history before the close", "why_tests_cant": "Every client population.", "anchors": ["teleprox/server.py: RPCServer.process_action(close), _final_close"]}
{"id": "C23", "title": "After a disconnect every pending request fails and no new one is sent", "statement": "On a disconnect all incomplete futures of the client fail with RuntimeError, and every later request raises RuntimeError without transmitting anything.", "quantifier": "every client state", "why_tests_cant": "Every set of pending futures.", "anchors": ["teleprox/client.py: RPCClient._server_disconnected, send"]}
{"id": "C24", "title": "A client that asks for closure learns about it", "statement": "Once the server has acted on a close request, the requesting client reports disconnected() as True when its incoming messages have been read.", "quantifier": "every way of issuing the close request and every schedule", "why_tests_cant": "Depends on sync mode and on whether the future is still alive.", "anchors": ["teleprox/client.py: RPCClient.close_server, _close_request_returned, send", "teleprox/server.py: RPCServer.process_action(close)"]}
{"id": "C25", "title": "Waiting for a result respects its timeout", "statement": "result(timeout) raises TimeoutError no earlier than 1 ms before the timeout and no later than the timeout plus the time of one loop iteration (handling one message; 50 ms with a Qt server); it never raises it without a timeout or for a future that is already complete, and never blocks longer.", "quantifier": "every timing of incoming messages and every timeout", "why_tests_cant": "Every timing.", "anchors": ["teleprox/client.py: RPCClient.process_until_future, _read_and_process_one, Future.result"]}
{"id": "C26", "title": "Published names behave like a dictionary shared by all clients", "statement": "client[name] returns the object most recently assigned to that name by any client or by the server, and raises a remote KeyError if there is none.", "quantifier": "every history of assignments and reads by any number of clients", "why_tests_cant": "All histories.", "anchors": ["teleprox/server.py: RPCServer.__getitem__, __setitem__, process_action(get_item, set_item)"]}
{"id": "C27", "title": "Reentrant calls between servers never deadlock", "statement": "If every thread runs a server and uses reentrant clients, then any finite pattern of nested calls between them (A calls B, which calls A, ...), started by any number of callers, completes with the right results under every schedule.", "quantifier": "every finite call tree, number of threads and schedule", "why_tests_cant": "Deadlock is a property of all schedules.", "anchors": ["teleprox/client.py: RPCClient.process_until_future, _get_poller", "teleprox/server.py: RPCServer._read_and_process_one"]}
{"id": "C28", "title": "One client per thread and address", "statement": "get_client returns the same client for the same thread and address until that thread closes a client for this address, creating a second one by hand is refused, and a client that is closed by its thread or whose construction fails leaves no trace in the registry of clients.", "quantifier": "every history of client creations, failures and closes in any threads", "why_tests_cant": "All histories.", "anchors": ["teleprox/client.py: RPCClient.get_client, forget_client, __init__, close"]}
{"id": "C29", "title": "At most one server per thread, and each server in at most one thread", "statement": "Registration fails rather than put a second server into a thread or a server into a second thread, and unregistering removes exactly the server it is asked to remove.", "quantifier": "every history and interleaving of registrations", "why_tests_cant": "All interleavings.", "anchors": ["teleprox/server.py: RPCServer.register_server, unregister_server, get_server"]}
{"id": "C30", "title": "Requests are framed without loss", "statement": "The server reads from the wire exactly the request ID, action, return type, serializer name and options the client wrote.", "quantifier": "every request ID and every string", "why_tests_cant": "Every integer and string.", "anchors": ["teleprox/client.py: RPCClient.send", "teleprox/server.py: RPCServer._read_one"]}
{"id": "C31", "title": "Different clients have different network identities", "statement": "Two clients connected to the same server never have the same socket identity (client.name), so that the server can tell them apart.", "quantifier": "every pair of hosts, process names and threads", "why_tests_cant": "Needs two processes that happen to share a name.", "anchors": ["teleprox/client.py: RPCClient.__init__", "teleprox/process.py: start_process", "teleprox/bootstrap.py"]}
{"id": "C32", "title": "A reply that cannot be decoded affects only its own request", "statement": "If a reply cannot be decoded by the client, the request it answers fails and other requests are unaffected.", "quantifier": "every set of pending requests and every reply", "why_tests_cant": "Needs an undecodable reply arriving while waiting for another request.", "anchors": ["teleprox/client.py: RPCClient._read_and_process_one"]}
{"id": "C33", "title": "Equal proxies have equal hashes", "statement": "If two proxies compare equal without contacting the server then they have the same hash, and proxies compare equal exactly when they refer to the same thing.", "quantifier": "every pair of proxies", "why_tests_cant": "Every pair.", "anchors": ["teleprox/proxy.py: ObjectProxy.__eq__, __hash__"]}
{"id": "C34", "title": "Operators on a proxy call the operator of the same name on the object", "statement": "Each special method defined on ObjectProxy forwards its arguments to the special method of the same name on the remote object.", "quantifier": "every special method", "why_tests_cant": "A typo in one of sixty nearly identical methods.", "anchors": ["teleprox/proxy.py: ObjectProxy.__add__ ... __rmod__"]}
{"id": "C35", "title": "Proxy options are validated atomically and inherited by attribute proxies", "statement": "_set_proxy_options rejects any unknown option without changing anything, otherwise sets exactly the given ones; attribute proxies inherit all options; options never influence which object is meant.", "quantifier": "every option dictionary", "why_tests_cant": "Every combination.", "anchors": ["teleprox/proxy.py: ObjectProxy._set_proxy_options, _deferred_attr, __init__"]}
{"id": "C36", "title": "auto_delete releases the object only when the proxy is gone", "statement": "With auto_delete the remote reference is released when the proxy is collected and not while the proxy, or an attribute proxy made from it, is still alive.", "quantifier": "every program using the proxy and its attributes", "why_tests_cant": "Depends on collection order.", "anchors": ["teleprox/proxy.py: ObjectProxy.__del__, _deferred_attr"]}
{"id": "C37", "title": "Copying a proxy for use in another thread has no remote effect", "statement": "ObjectProxy._copy returns an equal proxy and sends no request.", "quantifier": "every proxy, including attribute proxies", "why_tests_cant": "Only attribute proxies trigger it.", "anchors": ["teleprox/proxy.py: ObjectProxy._copy", "teleprox/timer.py: Timer._run"]}
{"id": "C38", "title": "A timer never fires faster than its interval", "statement": "Two successive callback invocations of a Timer start at least interval apart, unless start() was called in between.", "quantifier": "every schedule, every callback duration and every sleep overshoot", "why_tests_cant": "All timings.", "anchors": ["teleprox/timer.py: Timer._run"]}
{"id": "C39", "title": "A timer respects its limit", "statement": "After start() a timer with limit n >= 1 invokes its callback at most n times.", "quantifier": "every schedule of start, stop and the timer thread", "why_tests_cant": "All interleavings.", "anchors": ["teleprox/timer.py: Timer._run, start"]}
{"id": "C40", "title": "stop() stops the timer and start() starts it", "statement": "After stop() returns no further callback begins until start() is called again, and after start() returns the timer runs.", "quantifier": "every interleaving of start, stop and the timer thread", "why_tests_cant": "Race windows.", "anchors": ["teleprox/timer.py: Timer.start, stop, _run"]}
{"id": "C41", "title": "Log records are written in order of creation", "statement": "If every record reaches the handler less than the sorting delay after its creation, the output of RPCLogHandler is sorted by creation time, until the process begins to exit (see C79); a record older than the delay is written when the polling thread comes around; records created at the same time are written in the order of arrival.", "quantifier": "every interleaving of emitting threads and the polling thread, every clock", "why_tests_cant": "All interleavings.", "anchors": ["teleprox/log/handler.py: RPCLogHandler.emit, poll_records"]}
{"id": "C42", "title": "The log handler neither loses nor duplicates records", "statement": "At any moment every record given to RPCLogHandler is in exactly one of: written, waiting, or being written by the polling thread; at exit all are written.", "quantifier": "every interleaving including exit", "why_tests_cant": "All interleavings.", "anchors": ["teleprox/log/handler.py: RPCLogHandler.emit, poll_records, flush_records"]}
{"id": "C43", "title": "Forwarded log records arrive in order and none is lost", "statement": "Records handled by a connected LogSender reach the LogServer in the order they were handled, each exactly once, up to the moment the sender is closed.", "quantifier": "every sequence of records and every interleaving of close", "why_tests_cant": "All interleavings and record contents.", "anchors": ["teleprox/log/remote.py: LogSender.handle, run, _handle, close"]}
{"id": "C44", "title": "The log server passes on exactly the records at or above its level", "statement": "With filter_by_level a received record is given to the logger iff its level is at least the effective level; without it, always; order is kept.", "quantifier": "every sequence of records and levels", "why_tests_cant": "All sequences.", "anchors": ["teleprox/log/remote.py: LogServer.run"]}
{"id": "C45", "title": "Every line a child prints becomes one log record with the same text", "statement": "For each line the child writes to stdout or stderr exactly one record is logged, containing the prefix followed by the line.", "quantifier": "every output byte sequence", "why_tests_cant": "All byte sequences, including a last line without newline.", "anchors": ["teleprox/log/stdio.py: PipePoller.run"]}
{"id": "C46", "title": "The child process gets the configuration that was asked for", "statement": "The bootstrap script in the child recovers from its command line exactly the name, Qt flag, daemon flag, log address, log level, listen address and bootstrap address passed to start_process.", "quantifier": "every combination of arguments", "why_tests_cant": "All strings and combinations.", "anchors": ["teleprox/process.py: start_process", "teleprox/bootstrap.py"]}
{"id": "C47", "title": "A child that cannot start its server is reported", "statement": "If the RPC server cannot be created in the child, start_process raises RuntimeError with the traceback of the child, and no child process is left running.", "quantifier": "every failure of server creation", "why_tests_cant": "Error path spanning two processes.", "anchors": ["teleprox/bootstrap.py", "teleprox/process.py: start_process"]}
{"id": "C48", "title": "Sharing an array shares its elements", "statement": "A SharedNDArray made by zeros or copy, or any whose data starts at the beginning of its memory block, when received by another process addresses, at every index, the very same bytes as the original, so a write by either side at an index is read by the other side at that index and no other index changes.", "quantifier": "every shape, item size, index and write", "why_tests_cant": "All shapes and indices.", "anchors": ["teleprox/shmem.py: SharedNDArray.__reduce__, __reload__, copy"]}
{"id": "C49", "title": "close_all unlinks only memory this process owns", "statement": "Shared memory wrapped with close=False is left alone by close_all.", "quantifier": "every collection of arrays", "why_tests_cant": "Flag combinations.", "anchors": ["teleprox/shmem.py: close_all"]}
{"id": "C50", "title": "kill_procs kills only processes matching its argument", "statement": "kill_procs(search) kills a process only if search occurs in its command line.", "quantifier": "every process table and search string", "why_tests_cant": "All process tables.", "anchors": ["teleprox/util.py: kill_procs, find_procs"]}
{"id": "C51", "title": "The clock offset estimate is within half a round trip of the truth", "statement": "If the two clocks run at the same rate, measure_clock_diff returns the true offset with an error of at most half the mean round-trip time.", "quantifier": "every offset and all request latencies", "why_tests_cant": "All latencies.", "anchors": ["teleprox/client.py: RPCClient.measure_clock_diff"]}
{"id": "C52", "title": "The Qt relay neither loses nor reorders messages", "statement": "While a process with a QtRPCServer runs and the requests it gets are well formed, requests reach the Qt thread in arrival order and replies leave in the order they were produced, each exactly once, under every interleaving of the polling thread and the Qt thread.", "quantifier": "every interleaving", "why_tests_cant": "All interleavings.", "anchors": ["teleprox/qt_poll_thread.py: QtPollThread.run", "teleprox/qt_server.py"]}
{"id": "C53", "title": "QtPollThread.stop stops the polling thread", "statement": "After stop() the polling thread terminates.", "quantifier": "every schedule", "why_tests_cant": "No test calls it.", "anchors": ["teleprox/qt_poll_thread.py: QtPollThread.stop, run"]}
{"id": "C54", "title": "One Qt library per process, first importable one by default", "statement": "The first call of import_qt in a process returns the library already imported if any (if it can be loaded), otherwise the first importable one in the documented order, and refuses a conflicting explicit request; after the first success every call returns the same namespace or refuses.", "quantifier": "every environment and sequence of calls", "why_tests_cant": "Environments with different libraries installed.", "anchors": ["teleprox/qt_util.py: check_qt_imported, import_qt"]}
{"id": "C55", "title": "Remote import of a dotted name returns the named submodule", "statement": "client._import('a.b.c') refers to the object reached from the top-level package a by attributes b then c, and fails if any is missing.", "quantifier": "every dotted name and module tree", "why_tests_cant": "All names.", "anchors": ["teleprox/server.py: RPCServer.process_action(import)"]}
{"id": "C56", "title": "ProcessCleaner reports exactly the processes that were still alive", "statement": "On normal exit it raises iff some registered process was alive, naming exactly those, and afterwards none of them is alive; an exception raised in the block is never masked.", "quantifier": "every set of processes", "why_tests_cant": "All sets.", "anchors": ["teleprox/util.py: ProcessCleaner, assert_pids_dead"]}
{"id": "C57", "title": "Every numpy scalar of a serializable type can be sent", "statement": "A value whose type is in the serializable types is delivered; in particular every numpy scalar arrives as the same numpy scalar.", "quantifier": "every numpy dtype and value", "why_tests_cant": "Needs the one dtype kind whose item() is not serializable.", "anchors": ["teleprox/serializer.py: Serializer.encode (numpy generic), get_serializable_types"]}
{"id": "C58", "title": "Instances of subclasses keep their type", "statement": "An instance of a subclass of a serializable type (an enum member, a namedtuple, a datetime subclass, ...) arrives as an instance of that subclass.", "quantifier": "every subclass instance", "why_tests_cant": "Needs the particular subclasses that are matched by an earlier isinstance test.", "anchors": ["teleprox/serializer.py: MsgpackSerializer.__init__ (strict_types), Serializer.encode"]}
{"id": "C59", "title": "Every datetime denotes the same instant after the round trip", "statement": "Datetimes and dates of any year, with or without a time zone, arrive as the same instant.", "quantifier": "every datetime", "why_tests_cant": "Early years and aware datetimes.", "anchors": ["teleprox/serializer.py: Serializer.encode, decode (datetime, date)"]}
{"id": "C60", "title": "A view into the middle of a shared block is shared at the right place", "statement": "A SharedNDArray whose data starts at an offset in its memory block addresses, when received by another process, the same bytes as the original.", "quantifier": "every offset", "why_tests_cant": "Needs a view with a non-zero offset.", "anchors": ["teleprox/shmem.py: SharedNDArray.__reduce__, __reload__"]}
{"id": "C61", "title": "A dictionary using the reserved key is still delivered as a dictionary", "statement": "A plain dict sent by the user arrives as the same dict whatever its keys are, and never causes the receiver to execute anything.", "quantifier": "every dict", "why_tests_cant": "Needs the one colliding key.", "anchors": ["teleprox/serializer.py: encode_key, Serializer.encode, Serializer.decode"]}
{"id": "C62", "title": "call_obj can be called without arguments", "statement": "client.call_obj(obj) with its default args and kwargs calls obj without arguments.", "quantifier": "every object and client state", "why_tests_cant": "The default values are only exercised by calling call_obj directly, which nothing in the package does.", "anchors": ["teleprox/client.py: RPCClient.call_obj", "teleprox/server.py: RPCServer.process_action(call_obj)"]}
{"id": "C63", "title": "A remote call invokes exactly the proxied object with exactly the given arguments", "statement": "Calling a proxy (or an attribute of one) with positional and keyword arguments makes the server call the object it stands for once, with the same arguments in the same order and under the same names, where each argument is what the serializer carries and proxies owned by the server have become their objects; nothing else in the server changes before the call.", "quantifier": "every proxy, every argument list and keyword dict the serializer supports, both serializers", "why_tests_cant": "Unbounded nested arguments, proxies nested anywhere.", "anchors": ["teleprox/proxy.py: ObjectProxy.__call__", "teleprox/client.py: RPCClient.call_obj, send", "teleprox/server.py: RPCServer.process_action(call_obj), unwrap_proxy"]}
{"id": "C64", "title": "return_type='value' never yields a proxy", "statement": "With return_type='value' (and ObjectProxy._get_value, documented to raise if the value cannot be serialized) a result that is not serializable is an error for the caller, not a proxy.", "quantifier": "every result that is not serializable", "why_tests_cant": "Needs a class outside the serializable types and a look at the type of what arrives.", "anchors": ["teleprox/server.py: RPCServer._process_one", "teleprox/serializer.py: Serializer.encode", "teleprox/proxy.py: ObjectProxy._get_value"]}
{"id": "C65", "title": "A result that has already arrived is returned even with timeout=0", "statement": "result(timeout=0) returns a result whose reply is already waiting at the client instead of raising TimeoutError.", "quantifier": "every client state in which the reply is waiting", "why_tests_cant": "Depends on the reply being in the socket and not in the future at the moment of the call.", "anchors": ["teleprox/client.py: RPCClient.process_until_future, Future.result"]}
{"id": "C66", "title": "A thread only uses clients it made itself", "statement": "get_client never returns a client that was created in another thread, not even in one that has finished.", "quantifier": "every history of threads starting and ending", "why_tests_cant": "The operating system decides when a thread identifier is used again.", "anchors": ["teleprox/client.py: RPCClient.get_client, clients_by_thread"]}
{"id": "C67", "title": "A client constructor that raises leaves nothing running", "statement": "If RPCClient(..., start_local_server=True) raises, no local server stays registered in the thread.", "quantifier": "every reason to fail", "why_tests_cant": "Needs a second call in the same thread after a failed one.", "anchors": ["teleprox/client.py: RPCClient.__init__"]}
{"id": "C68", "title": "A proxy option set to None means the default", "statement": "Calling through a proxy whose option (sync, return_type) was set to None behaves as the default does, as documented.", "quantifier": "every proxy and call", "why_tests_cant": "The failure appears only when the proxy is used later, after the request was sent.", "anchors": ["teleprox/proxy.py: ObjectProxy._set_proxy_options, __call__", "teleprox/client.py: RPCClient.send"]}
{"id": "C69", "title": "Every documented proxy option is accepted", "statement": "_set_proxy_options accepts each of the options its documentation lists.", "quantifier": "every proxy and every documented option", "why_tests_cant": "One option out of eight.", "anchors": ["teleprox/proxy.py: ObjectProxy._set_proxy_options"]}
{"id": "C70", "title": "Per-call options apply to that call only and are not passed on", "statement": "The keyword arguments _sync, _return_type and _timeout of a call on a proxy override the options of the proxy for this call, and every other keyword argument, and no other, reaches the remote function.", "quantifier": "every proxy, argument list and keyword dictionary", "why_tests_cant": "All combinations of keyword arguments.", "anchors": ["teleprox/proxy.py: ObjectProxy.__call__"]}
{"id": "C71", "title": "Iterating over a proxy of a sequence ends where the sequence ends", "statement": "A for loop over a proxy gives the items of the remote sequence and ends after the last one.", "quantifier": "every sequence", "why_tests_cant": "Needs the protocol of iteration together with the translation of remote exceptions.", "anchors": ["teleprox/proxy.py: ObjectProxy.__getitem__", "teleprox/client.py: RPCClient._process_msg"]}
{"id": "C72", "title": "Binary operators with a proxy give the result that the objects would give", "statement": "If the remote object does not support the other operand (its method returns NotImplemented) then the reflected method of the other operand is tried, and == gives False, as with the object itself.", "quantifier": "every pair of operands", "why_tests_cant": "Depends on what the remote method returns for an operand type.", "anchors": ["teleprox/proxy.py: ObjectProxy.__eq__, __add__ ...", "teleprox/server.py: RPCServer._process_one"]}
{"id": "C73", "title": "A proxy can be tested for truth like its object", "statement": "bool(proxy) gives what bool(obj) gives.", "quantifier": "every object", "why_tests_cant": "Needs objects without __len__.", "anchors": ["teleprox/proxy.py: ObjectProxy.__len__"]}
{"id": "C74", "title": "A timer with limit 0 never calls", "statement": "A Timer with limit=0 (maximum number of invocations) never invokes its callback.", "quantifier": "every limit below 1", "why_tests_cant": "An edge value.", "anchors": ["teleprox/timer.py: Timer._run"]}
{"id": "C75", "title": "An undisturbed timer makes exactly as many calls as its limit says", "statement": "A timer that is started once, is not stopped and whose callback does not raise ends only if it has a limit, and then after exactly limit invocations; start() while it waits for its next call gives it again exactly limit invocations.", "quantifier": "every interval, limit and schedule", "why_tests_cant": "All timings.", "anchors": ["teleprox/timer.py: Timer._run"]}
{"id": "C76", "title": "start() on a running timer leaves it running", "statement": "Calling start() while the timer runs resets its count and does not end its thread.", "quantifier": "every point of the thread at which start() happens", "why_tests_cant": "A window of two instructions.", "anchors": ["teleprox/timer.py: Timer.start, _run"]}
{"id": "C77", "title": "A timer that ended can be started again", "statement": "start() after the timer has stopped or reached its limit starts it again.", "quantifier": "every timer that has ended", "why_tests_cant": "Needs the thread to have ended, which takes up to an interval.", "anchors": ["teleprox/timer.py: Timer.start"]}
{"id": "C78", "title": "Records of every level are written", "statement": "RPCLogHandler writes records of every level number.", "quantifier": "every level", "why_tests_cant": "Needs custom levels and colorama.", "anchors": ["teleprox/log/handler.py: RPCLogHandler.format"]}
{"id": "C79", "title": "What is written at exit is sorted too", "statement": "If every record reaches the handler less than the sorting delay after its creation, the output at exit is sorted by creation time.", "quantifier": "every interleaving of the exit handler and the polling thread", "why_tests_cant": "Two threads write at exit.", "anchors": ["teleprox/log/handler.py: RPCLogHandler.flush_records, poll_records"]}
{"id": "C80", "title": "The log address can be changed while records are being sent", "statement": "Calling set_logger_address (LogSender.connect) again does not stop forwarding.", "quantifier": "every interleaving", "why_tests_cant": "A race between two threads.", "anchors": ["teleprox/log/remote.py: LogSender.connect, _handle, set_logger_address"]}
{"id": "C81", "title": "The text of a log record survives forwarding", "statement": "The message text and level of every record received by a LogServer are those of the record that was logged, also when it is forwarded a second time.", "quantifier": "every record", "why_tests_cant": "All messages and arguments.", "anchors": ["teleprox/log/remote.py: LogSender._handle, LogServer.run"]}
{"id": "C82", "title": "Forwarded records are shown with the host, process and thread they come from", "statement": "The header printed by RPCLogHandler for a forwarded record names the host, process and thread that logged it.", "quantifier": "every record and all names", "why_tests_cant": "Needs two hosts.", "anchors": ["teleprox/log/remote.py: LogSender._handle", "teleprox/log/handler.py: RPCLogHandler.get_thread_header"]}
{"id": "C83", "title": "The process name survives a second forwarding", "statement": "A record that is forwarded by the process that received it is still shown with the name of the process that logged it.", "quantifier": "all names", "why_tests_cant": "Needs three processes.", "anchors": ["teleprox/log/remote.py: LogSender._handle"]}
{"id": "C84", "title": "Output that is not UTF-8 does not stop the capture of later lines", "statement": "If a child prints a line that is not valid UTF-8, later lines are still logged.", "quantifier": "every byte sequence", "why_tests_cant": "All byte sequences.", "anchors": ["teleprox/log/stdio.py: PipePoller.run"]}
{"id": "C85", "title": "Captured output has the right level", "statement": "With log_stdio and a level of at most INFO, every line of text printed to stdout is logged at INFO and every line printed to stderr at WARNING; with a higher level stdout is not logged.", "quantifier": "all outputs and levels", "why_tests_cant": "All outputs.", "anchors": ["teleprox/log/stdio.py: StdioLogSender.__init__"]}
{"id": "C86", "title": "A shared array outlives the processes it is sent to", "statement": "A process that received a shared array and exits does not destroy it for the process that made it.", "quantifier": "every collection of arrays", "why_tests_cant": "Needs two processes and their exit handlers.", "anchors": ["teleprox/shmem.py: close_all"]}
{"id": "C87", "title": "An unpickled shared array is the array that was sent", "statement": "Pickling and unpickling a shared array gives an array of the same shape and type over the same elements.", "quantifier": "every shape, type and offset", "why_tests_cant": "All views.", "anchors": ["teleprox/shmem.py"]}
{"id": "C88", "title": "copy and zeros have the right contents", "statement": "Shared arrays made with copy() hold the elements of the original and those made with zeros() hold zeros; all elements lie within the memory reserved.", "quantifier": "all contents", "why_tests_cant": "All arrays.", "anchors": ["teleprox/shmem.py"]}
{"id": "C89", "title": "Shared arrays can have any shape", "statement": "Shared arrays can be made for every shape numpy allows.", "quantifier": "every shape", "why_tests_cant": "All shapes.", "anchors": ["teleprox/shmem.py"]}
{"id": "C90", "title": "kill_procs works with its default prefix", "statement": "kill_procs can be called without setting the prefix first.", "quantifier": "every process table and search string", "why_tests_cant": "All process tables.", "anchors": ["teleprox/util.py: kill_procs"]}
{"id": "C91", "title": "find_procs returns exactly the matching processes", "statement": "find_procs(search) returns the pids and commands of exactly the processes whose command contains search.", "quantifier": "every process table and search string", "why_tests_cant": "All process tables.", "anchors": ["teleprox/util.py: find_procs"]}
{"id": "C92", "title": "netstat works on linux", "statement": "netstat lists the open ports on linux.", "quantifier": "every list of ports", "why_tests_cant": "All outputs of the command.", "anchors": ["teleprox/util.py: netstat"]}
{"id": "C93", "title": "A Qt server answers the request that closes it", "statement": "The reply to the request that closes a QtRPCServer is sent before its process ends.", "quantifier": "every interleaving", "why_tests_cant": "A race between two threads and process exit.", "anchors": ["teleprox/qt_poll_thread.py: QtPollThread.run", "teleprox/qt_server.py"]}
{"id": "C94", "title": "A malformed message does not stop a Qt server", "statement": "After a message that cannot be read, a QtRPCServer still processes later requests.", "quantifier": "every message", "why_tests_cant": "All byte sequences.", "anchors": ["teleprox/qt_poll_thread.py: QtPollThread.run"]}
{"id": "C95", "title": "import_qt uses a library imported after a failed call", "statement": "If import_qt failed and the program then imports a Qt library itself, the next call uses that library.", "quantifier": "every environment and sequence of calls", "why_tests_cant": "Environments that change.", "anchors": ["teleprox/qt_util.py: check_qt_imported, import_qt"]}
{"id": "C96", "title": "import_qt never returns an incomplete namespace", "statement": "Every namespace returned by import_qt holds QtCore, QtGui and QtWidgets.", "quantifier": "every environment and sequence of calls", "why_tests_cant": "Broken installations.", "anchors": ["teleprox/qt_util.py: import_qt"]}
{"id": "C97", "title": "A child process can have any name", "statement": "start_process(name) works for every name.", "quantifier": "every name", "why_tests_cant": "All strings.", "anchors": ["teleprox/process.py: start_process", "teleprox/bootstrap.py"]}
{"id": "C98", "title": "Addresses can be given as str or bytes", "statement": "start_process accepts the log address and the listening address as str or bytes and passes them on unchanged.", "quantifier": "all addresses", "why_tests_cant": "All combinations of types.", "anchors": ["teleprox/process.py: start_process"]}
{"id": "C99", "title": "No child is left behind by a failed start", "statement": "If start_process raises an exception, no child process is left running.", "quantifier": "every failure", "why_tests_cant": "Needs slow children and failing connections.", "anchors": ["teleprox/process.py: start_process"]}
{"id": "C100", "title": "start_process returns a handle for the process it started", "statement": "If the child can make its server, reports in time and accepts connections, start_process returns a handle with the full name and a client connected to the address the server is really bound to, and the child is running.", "quantifier": "every request the child can read", "why_tests_cant": "All requests.", "anchors": ["teleprox/process.py: start_process", "teleprox/bootstrap.py"]}
{"id": "C101", "title": "shell=True makes no difference to the arguments", "statement": "With shell=True the child gets the same arguments as without.", "quantifier": "all arguments", "why_tests_cant": "All strings.", "anchors": ["teleprox/process.py: start_process"]}
{"id": "C102", "title": "A returned proxy works until it is deleted, whatever else happens", "statement": "In every run of a server with any number of clients, a result that comes back as a proxy (an object that cannot be serialized, or return_type proxy) stands for that result until a request to delete this very proxy is executed; references are released only by such requests; a delete request releases exactly its proxy, and fails with KeyError without changing anything if there is no such undeleted proxy.", "quantifier": "every run: all clients, requests, interleavings, results, object lifetimes", "why_tests_cant": "All interleavings of requests, replies, deletions and reuse of object ids.", "anchors": ["teleprox/server.py: process_action, get_proxy, unwrap_proxy, _send_result", "teleprox/client.py: delete, process_msg"]}
{"id": "C103", "title": "Attribute access follows the defer_getattr option", "statement": "With defer_getattr=True (the default) p.attr contacts nobody and gives a proxy for the attribute with the options of p; with defer_getattr=False the attribute is looked up in the remote object at once, and p.attr has the outcome of that lookup, returned according to the options set for p.", "quantifier": "every proxy a program can make, every option setting, every server state", "why_tests_cant": "The attribute may or may not exist at the server, and options are inherited along chains of any length.", "anchors": ["teleprox/proxy.py: ObjectProxy.__getattr__, _undefer, _deferred_attr", "teleprox/client.py: RPCClient.get_obj"]}
{"id": "C104", "title": "disconnected() tells whether the server has closed", "statement": "For a client with an open socket whose waiting messages can be decoded: disconnected() returns True only if the server has closed, and False while the server runs; once the server's goodbye has arrived it returns True and no request keeps waiting, each is complete; if it returns False, no goodbye has arrived and every reply that had arrived is in its future; after True it stays True for ever and nothing more is sent; asking has no other effect than delivering messages that have arrived.", "quantifier": "every run of a server with any number of clients, every schedule", "why_tests_cant": "The answer depends on what other clients do and on what is under way at that moment.", "anchors": ["teleprox/client.py: RPCClient.disconnected, _read_and_process_all, process_msg, _server_disconnected", "teleprox/server.py: close, _send_disconnect"]}
{"id": "C105", "title": "close_server() returning True means that the server has closed", "statement": "If close_server() returns True, the server has closed.", "quantifier": "every run of a server with any number of clients, every schedule, every state of the client", "why_tests_cant": "All states of the connection.", "anchors": ["teleprox/client.py: RPCClient.close_server, close, disconnected"]}
{"id": "C106", "title": "Future.done() tells whether the result has arrived", "statement": "done() of a future returns True once the reply has arrived.", "quantifier": "every run of a server with any number of clients, every schedule", "why_tests_cant": "Needs all moments at which a reply can arrive.", "anchors": ["teleprox/client.py: Future, process_until_future, RPCClient._read_and_process_all"]}
{"id": "C107", "title": "A client connects to every server that answers within the timeout", "statement": "ensure_connection(timeout) connects if the server answers pings within the timeout, and raises TimeoutError only after the timeout and soon after it.", "quantifier": "all arrival times, computing times, timeouts, ways of waiting", "why_tests_cant": "Needs control over delays of the network.", "anchors": ["teleprox/client.py: ensure_connection, process_until_future, Future.result"]}
{"id": "C108", "title": "get_client returns a usable client", "statement": "The client get_client returns has not been closed, and its server has not closed as far as the client knows.", "quantifier": "every history of client creations, failures, closes and disconnections in any threads", "why_tests_cant": "All histories across threads.", "anchors": ["teleprox/client.py: RPCClient.get_client, forget_client, close, disconnected"]}
{"id": "C109", "title": "Closing a client does not affect other clients", "statement": "After close() of one client, get_client still returns every other client it returned before, in every thread.", "quantifier": "every history of client creations, failures and closes in any threads, every client", "why_tests_cant": "All histories.", "anchors": ["teleprox/client.py: RPCClient.close, forget_client, get_client"]}
{"id": "C110", "title": "wait returns the exit code or times out", "statement": "ChildProcess.wait(timeout) returns the exit code if the process exits within the timeout, otherwise it raises TimeoutError, and it does not take noticeably longer than the timeout.", "quantifier": "every timeout, every time of exit, every amount of output at any time, every interleaving with the threads that read the output", "why_tests_cant": "Needs all timings of exit, output and reader threads, and processes that keep pipes open.", "anchors": ["teleprox/process.py: ChildProcess.wait", "teleprox/log/stdio.py: PipePoller.run"]}
{"id": "C111", "title": "Captured output is logged", "statement": "With log_stdio every line the child prints is logged, also what it prints while or before wait(), stop() or kill() is called.", "quantifier": "every output, every interleaving of the reader thread and the waiting caller", "why_tests_cant": "Race between two readers of one pipe.", "anchors": ["teleprox/process.py: ChildProcess.wait, stop, kill", "teleprox/log/stdio.py: PipePoller.run"]}
{"id": "C112", "title": "stop returns when the process has exited", "statement": "After stop() or kill() returned, the process has exited, and stop(timeout) returns or raises within the timeout.", "quantifier": "every timeout, every time of the answer of the server and of the exit, every schedule", "why_tests_cant": "All timings of answer and exit.", "anchors": ["teleprox/process.py: ChildProcess.stop, kill"]}
{"id": "C113", "title": "kill only kills its own process", "statement": "kill() of a process object kills the process the object was made for, or nothing.", "quantifier": "every history of processes started and exiting, of numbers given out again, of poll() and kill() calls", "why_tests_cant": "Reuse of process numbers cannot be provoked in a test.", "anchors": ["teleprox/process.py: ChildProcess.kill, DaemonProcess.kill", "teleprox/util.py: kill_pid"]}
{"id": "C114", "title": "Forwarded messages are handled like local ones", "statement": "A log message that another process forwards to the log server is handled by the logging system there as if it had been logged there: it goes to exactly the handlers, with exactly the level check, that a local message with the same logger name and level gets.", "quantifier": "every configuration of loggers (levels, propagation, handlers), every message", "why_tests_cant": "Needs every configuration of the logger hierarchy; tests only configure the root logger.", "anchors": ["teleprox/log/remote.py: start_log_server, LogServer.run"]}
{"id": "C115", "title": "basic_config writes every message once", "statement": "After basic_config() every message that the root logger gets is written to stderr exactly once, also if basic_config is called again.", "quantifier": "every history of configuration calls and log calls", "why_tests_cant": "Needs repeated configuration in one process, which tests avoid because it disturbs later tests.", "anchors": ["teleprox/log/__init__.py: basic_config"]}
{"id": "C116", "title": "Every unhandled exception is reported exactly once, and nothing else is", "statement": "After log_exceptions() (or basic_config()) an exception that nobody catches, in the main program or in a thread, is reported exactly once by every handler of the root logger, and nothing else is reported as unhandled exception.", "quantifier": "every history of configuration and log calls, every uncaught exception", "why_tests_cant": "Tests would have to end their own process or thread with an exception under every configuration.", "anchors": ["teleprox/log/handler.py: log_exceptions, _log_unhandled_exception, _log_unhandled_exc_from_thread", "teleprox/log/__init__.py: basic_config"]}
{"id": "C117", "title": "Logging never fails because messages are forwarded", "statement": "After set_logger_address() every message that reaches the root logger is forwarded exactly once, however often the address is set, and no logging call ever raises an exception because of it.", "quantifier": "every history of configuration and log calls, also by other threads during set_logger_address", "why_tests_cant": "The moment between attaching the sender and finishing it cannot be hit by a test.", "anchors": ["teleprox/log/remote.py: set_logger_address, LogSender.__init__, LogSender.handle"]}
{"id": "C118", "title": "A waiting client lets the server of its own thread answer", "statement": "While an RPCClient waits for a response it processes the requests that arrive at the RPC server of its own thread, whichever server the thread has at that time; so two processes that call each other do not block each other.", "quantifier": "every history of creating, running and closing servers and clients in the threads of a process", "why_tests_cant": "Needs every order of replacing the server of a thread and waiting; tests use one server per thread.", "anchors": ["teleprox/client.py: RPCClient._get_poller, _wait_for_response", "teleprox/server.py: RPCServer.get_server, run_lazy, close"]}
{"id": "C119", "title": "RPCServer.close() closes the server", "statement": "RPCServer.close() may be called from any thread: the server is closed when it returns, and closing a server that is closed already is harmless.", "quantifier": "every history of servers and clients in the threads of a process, every calling thread", "why_tests_cant": "Needs servers in every stage of their life and every calling thread; tests close running servers from one thread.", "anchors": ["teleprox/server.py: RPCServer.close", "teleprox/client.py: RPCClient.get_client, close_server"]}
{"id": "C120", "title": "A closed Qt server is closed", "statement": "Once a QtRPCServer has acted on a close request it has told its other clients so, has left the thread registry, executes no further requests, and tells no client a second time.", "quantifier": "every state of the server, every sequence of later requests", "why_tests_cant": "The server's process normally ends together with the Qt application, so tests never talk to a closed one; needs all later requests.", "anchors": ["teleprox/qt_server.py: QtRPCServer._final_close, process_action", "teleprox/server.py: RPCServer._process_one, process_action"]}
{"id": "C121", "title": "check_address reports what connecting gives", "statement": "check_address of tcp://host:port returns 'open', 'timeout' or 'closed' according to what a connection attempt to this host and port gives, and None for addresses of another form or invalid ones; RPCClient() is refused exactly if the port is closed.", "quantifier": "every address, every network", "why_tests_cant": "Needs arbitrary addresses and networks that accept, refuse, time out and do not know hosts.", "anchors": ["teleprox/client.py: RPCClient.check_address, RPCClient.__init__", "teleprox/util.py: check_tcp_port"]}
{"id": "C122", "title": "kill_procs kills every process it finds", "statement": "Whenever kill_procs finds processes of this library, afterwards none of those it found the second time is alive, and it returns their pids and commands.", "quantifier": "every two process tables, every set of processes that may be killed", "why_tests_cant": "Needs processes that exit between the search and the kill, and processes of other users.", "anchors": ["teleprox/util.py: kill_procs, kill_pid"]}
{"id": "C123", "title": "assert_pids_dead kills and reports", "statement": "After assert_pids_dead(pids) none of these processes that may be killed is alive and no other process is affected; it raises AssertionError exactly if one of them could still be killed.", "quantifier": "every list of pids, every set of processes", "why_tests_cant": "All sets of processes and all lists, including repeated pids.", "anchors": ["teleprox/util.py: assert_pids_dead, assert_pid_dead, kill_pid"]}
{"id": "C124", "title": "A timer whose callback raises has ended", "statement": "Once the callback of a Timer raises an exception, the timer makes no further call, whether or not start() is called again; its thread ends, and running is False from then on until start() is called.", "quantifier": "every interval and limit, every interleaving of the timer's thread with callers of start() and stop(), every exception", "why_tests_cant": "All interleavings of start() and stop() with the failing callback.", "anchors": ["teleprox/timer.py: Timer._run, Timer.start"]}
{"id": "C125", "title": "A call that raises because of its options has no effect", "statement": "If calling a proxy raises an exception in the calling process other than while waiting for the result, then no request was sent.", "quantifier": "every client, proxy, arguments and options", "why_tests_cant": "All values of the options, all states of the client.", "anchors": ["teleprox/client.py: RPCClient.send", "teleprox/proxy.py: ObjectProxy.__call__"]}
{"id": "C126", "title": "A forwarded log message is handled once by each process on its way", "statement": "When processes forward log messages to the log servers of others, each message is received at most once by each process and never by the one that logged it, no message that passes the levels is lost on its way, and forwarding a message ends.", "quantifier": "any number of processes, every configuration of loggers, every history of configuring, logging and receiving", "why_tests_cant": "All topologies of processes and all orders of configuration and messages.", "anchors": ["teleprox/log/remote.py: set_logger_address, get_logger_address, LogSender, LogServer"]}
{"id": "C127", "title": "A thread has one server, and get_server() returns it", "statement": "RPCServer.get_server() returns a server exactly in the thread in which it was started (run_lazy, run_forever), until it is closed. A second server cannot be started in a thread, and a server cannot be started in two threads: the attempt raises an exception and changes nothing. If run_lazy() returns normally, the server has been started.", "quantifier": "every number of servers, clients and threads, every history of starting, connecting, waiting and closing", "why_tests_cant": "All histories of several servers and threads.", "anchors": ["teleprox/server.py: RPCServer.get_server, register_server, unregister_server, run_lazy, run_forever, close"]}
{"id": "C128", "title": "A timer of a server executes its callback in the server, at most once per interval, until the limit", "statement": "The callback given to RPCServer.start_timer(callback, interval, limit) is executed by the server: the invocations one after the other, in order, none twice and none left out; two executions begin at least *interval* apart; the timer goes on until *limit* executions have been made or the callback raises an exception.", "quantifier": "every interval, limit and proxy timeout, every load of the server by other requests, every duration of the callback, every exception it raises", "why_tests_cant": "All schedules of the timer's thread, the server and other clients.", "anchors": ["teleprox/server.py: RPCServer.start_timer, run_forever", "teleprox/timer.py: Timer._run", "teleprox/client.py: process_until_future"]}
{"id": "C129", "title": "Dictionaries whose keys are not text arrive as well", "statement": "A dict with keys of any type the serializer carries (int, float, bool, None, tuple, ...), sent through msgpack as an argument or a result or inside one, arrives as the same dict; at the least, what the sender accepts the receiver can read.", "quantifier": "every serializable value containing such a dict at any place, every state of sender and receiver, every request answered with such a value", "why_tests_cant": "All values, nested in any way, and all keys.", "anchors": ["teleprox/serializer.py: MsgpackSerializer.dumps, loads", "teleprox/server.py: RPCServer._process_one, _send_result", "teleprox/client.py: RPCClient._read_and_process_one, process_msg"]}
{"id": "C130", "title": "A proxy arrives with its options", "statement": "A proxy that arrives in a message is for the object the sender meant and behaves as the sender's does: options set with _set_proxy_options travel with it; options the sender left alone have the receiving client's default_proxy_options, or else the documented defaults; a mistake in default_proxy_options is reported where it is made.", "quantifier": "every proxy with any options and attributes, every default_proxy_options, every receiver with or without a server", "why_tests_cant": "All combinations of options and proxies.", "anchors": ["teleprox/proxy.py: ObjectProxy.__getstate__, __setstate__, _init_state, _set_proxy_options", "teleprox/serializer.py: Serializer.decode", "teleprox/client.py: RPCClient.default_proxy_options, _read_and_process_one"]}
{"id": "C131", "title": "A proxy talks through a client of the thread it is used in", "statement": "Clients belong to threads (their sockets must not be shared). A request made with a proxy in a thread goes through a client of that thread, and after a client was closed in its thread, proxies of its server are usable again through a new client.", "quantifier": "every sequence of receiving, copying, attribute access, requests, operators and closing of clients, in any threads", "why_tests_cant": "Needs proxies used in several threads and clients closed in between.", "anchors": ["teleprox/proxy.py: ObjectProxy._client, _deferred_attr, _copy", "teleprox/client.py: RPCClient.get_client, forget_client, close"]}
{"id": "C132", "title": "In-place operators on a proxy work like those on the object", "statement": "p += v (and the other in-place operators) does to the remote object what x += v does to the object itself, and afterwards p is the proxy of what x would be.", "quantifier": "every operator, every object of any class with or without in-place and ordinary methods, every operand", "why_tests_cant": "Depends on the class of the object and on the options of the proxy.", "anchors": ["teleprox/proxy.py: ObjectProxy.__iadd__ and the other special methods", "teleprox/server.py: RPCServer.process_msg (auto_proxy)"]}
{"id": "C133", "title": "The options of a proxy do not change what its operators mean", "statement": "A comparison with a proxy as a condition, len(p) and a loop over p give what the object's methods give, whatever options the proxy has.", "quantifier": "every proxy, every comparison, every answer of the object", "why_tests_cant": "All combinations of options and special methods.", "anchors": ["teleprox/proxy.py: ObjectProxy.__call__, special methods", "teleprox/client.py: RPCClient.send, Future"]}
{"id": "C134", "title": "A Future can be used like one of concurrent.futures", "statement": "As the documentation of Future says ('see the Python documentation for concurrent.futures.Future'): exception() waits for the outcome and returns the exception or None, and a callback that was added is called once with the future when it has its outcome.", "quantifier": "every history of requests, arriving messages, reads, added callbacks and futures given up; every serializer, every message", "why_tests_cant": "Depends on who reads the socket and on when the last reference to a future goes away.", "anchors": ["teleprox/client.py: Future, RPCClient.send, RPCClient.process_msg, RPCClient.futures"]}
{"id": "C135", "title": "An operator on a proxy calls the method that the same operator on the object calls", "statement": "p + v, p[k], p < v, str(p), ... call in the server the function that Python would call for the object, with the object and the same arguments; if Python finds none, the operator fails.", "quantifier": "every operator that proxies define, every instance (own dictionary, any inheritance, with or without __getattr__) and every class (any bases, any metaclass), all arguments", "why_tests_cant": "Python looks special methods up on the type, proxies with getattr on the object; needs all shapes of objects.", "anchors": ["teleprox/proxy.py: ObjectProxy._deferred_attr, special methods", "teleprox/server.py: RPCServer.unwrap_proxy"]}
{"id": "C136", "title": "Printing a proxy does what the option safe_print says", "statement": "With safe_print True str(p) and repr(p) contact nobody and give a text that says which object is meant; with False str(p) is what str gives on the server, and repr(p) says that it is a proxy.", "quantifier": "every proxy, all its options, every answer of the object", "why_tests_cant": "All texts; that different proxies never print alike cannot be tested.", "anchors": ["teleprox/proxy.py: ObjectProxy.__repr__, __str__, _set_proxy_options"]}
{"id": "C137", "title": "A log message shows the values that were logged", "statement": "The line written or sent for logger.info('%s', x) shows x as it was when logger.info was called, as with the handlers of the standard library.", "quantifier": "every history of log calls, changes of objects and lines written; all objects and values", "why_tests_cant": "Depends on when another thread formats the record; a test that waits long enough or not at all sees only one case.", "anchors": ["teleprox/log/handler.py: RPCLogHandler.emit, poll_records, format", "teleprox/log/remote.py: LogSender.handle, run, _handle"]}
{"id": "C138", "title": "A log line shows the name of the thread that logged", "statement": "The thread name in a line is the name that the logging thread has given itself with set_thread_name when it logs, or Python's if it has none.", "quantifier": "every history of threads that name themselves and log, and every assignment of idents to threads", "why_tests_cant": "The system decides which idents are used again; needs threads that end, and all interleavings with the writing thread.", "anchors": ["teleprox/log/remote.py: set_thread_name, get_thread_name, thread_names, LogSender._handle", "teleprox/log/handler.py: RPCLogHandler.get_thread_header"]}
{"id": "C139", "title": "Filters and levels decide what a handler passes on", "statement": "A handler of this package that was given filters and a level passes on the records of at least that level that no filter refuses, as logging.Handler documents; the same behind a LogServer.", "quantifier": "every logger (level, filters, disabled), all handlers with all levels and filters, every record", "why_tests_cant": "All filters are arbitrary predicates.", "anchors": ["teleprox/log/remote.py: LogSender.handle, LogServer.run", "teleprox/log/logviewer.py: QtLogHandler.handle", "teleprox/log/handler.py: RPCLogHandler"]}
{"id": "C140", "title": "A client can be made whatever the names of host, process and thread are", "statement": "RPCClient(address) and start_process work for every name given with set_host_name, set_process_name, set_thread_name or start_process(name=...), and at any depth of processes started by processes.", "quantifier": "all names, all addresses, any number of generations of processes", "why_tests_cant": "Names of all lengths; a limit of a library shows only beyond it.", "anchors": ["teleprox/client.py: RPCClient.__init__", "teleprox/process.py: start_process", "teleprox/bootstrap.py"]}
{"id": "C141", "title": "The standard streams of a new process go where they were asked to go", "statement": "As documented for start_process: requests that contradict themselves are refused; a daemon has no streams; stdin is what was given or nothing; output is logged if log_stdio is true, or by default if there is a log server and no other place was given; otherwise it goes where it was told to.", "quantifier": "all combinations of daemon, log_stdio, stdin, stdout, stderr, log_addr and a known log address", "why_tests_cant": "All combinations, also of values that are merely equal to True.", "anchors": ["teleprox/process.py: start_process"]}
{"id": "C142", "title": "A remote exception says what was raised, and is always delivered", "statement": "The text of RemoteCallException contains class and message of the exception raised on the server, through any number of servers; every request that fails is answered with one, and the server goes on.", "quantifier": "every exception (class, message, traceback), every chain of servers, every sequence of failing requests, msgpack and JSON", "why_tests_cant": "All texts, including those that cannot be encoded.", "anchors": ["teleprox/server.py: RPCServer._send_error, _send_result, _process_one, run_forever", "teleprox/client.py: RemoteCallException, RPCClient.process_msg"]}
{"id": "C143", "title": "When the program ends, its children are stopped", "statement": "At the normal end of a program every process it has started with start_process (without daemon=True) and that still runs is asked to close and has ended afterwards, even if stopping another one fails.", "quantifier": "every history of processes started and ended, every behaviour of the children", "why_tests_cant": "Needs the end of the test's own process, and children that hang.", "anchors": ["teleprox/process.py: ChildProcess.__init__, ChildProcess.stop, DaemonProcess"]}
{"id": "C144", "title": "A failed set_logger_address changes nothing, otherwise records go to the address set last", "statement": "get_logger_address() gives the address of the process's own log server or the one set last; each log record is sent once, to the address set last; a set_logger_address that raises leaves everything as it was.", "quantifier": "every sequence of start_log_server, set_logger_address (with addresses and with text that is none) and log records", "why_tests_cant": "All orders of calls, with failures in between; what is lost is not seen by the caller.", "anchors": ["teleprox/log/remote.py: start_log_server, get_logger_address, set_logger_address, LogSender.connect"]}
{"id": "C145", "title": "A log server passes on every record that has arrived, until it is stopped", "statement": "A LogServer passes the records that arrive to its logger in order, once each, leaving out those below the level; after stop() it passes on what has arrived, closes its socket and ends; a message it cannot read does not stop it.", "quantifier": "all histories of arriving messages, stop() and steps of the thread, all levels, with and without filtering", "why_tests_cant": "Depends on when the thread is stopped, and on messages that no LogSender sends.", "anchors": ["teleprox/log/remote.py: LogServer.run, LogServer.stop"]}
{"id": "C146", "title": "kill() and stop() end the process that runs the server", "statement": "After ChildProcess.kill() or stop() the server's process has ended, and poll() is None exactly while it runs, also with conda_env.", "quantifier": "every history of kill, stop and exits of the server, with and without conda_env", "why_tests_cant": "conda is not available in tests; all orders of calls.", "anchors": ["teleprox/process.py: start_process (conda_env), ChildProcess.kill, ChildProcess.stop, ChildProcess.poll"]}
