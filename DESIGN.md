# Formal model of teleprox in Rocq (Coq 8.16.1)

The sources in `/repo` (campagnola/teleprox at the pinned commit) are modelled as small,
total, executable Gallina functions, branch by branch, with exceptions as values.  Every
definition cites the file and lines it models and says where it simplifies.  Nothing here
runs the Python code; the tie to the code is the citation and the reading.

## Layout

For each part of the code there are up to four kinds of files in `rocq/theories/`:

* `<Part>Model.v`  definitions only (executable, no proofs),
* `<Part>Spec.v`   the small separate specification that the statements are written with.
  A Spec file may use the data types of a Model (states, events, values) but not the
  functions whose correctness is claimed,
* `<Part>Proofs*.v`, `<Part>Inv*.v`, `<Part>Demo.v` lemmas, invariants, example data,
* `<Part>Props.v`  the property theorems: each is closed by a lemma, followed by
  `Print Assumptions` and by an `Example` showing that a concrete non-trivial case meets
  the hypotheses.

`Py.v` holds what is common: results (`Ok`/`Err`), exceptions, dictionaries in insertion
order.

Naming of theorems:

* `Cnn_…` the property (or one clause of it), for all inputs, states and executions;
* `Cnn_…_refuted` the English property is false of the faithful model, that is, the code
  violates it; the theorem exhibits the violation, and characterises it where possible;
* `Cnn_…_partial` a proved part of such a property; what is missing is said at the theorem.

A property with status `partial` in `MANIFEST.json` is one for which the full statement is
not a theorem.  For all of these the reason is that it is false: the note begins with
`REFUTED` and there is a `_refuted` theorem.  The full English statement stays in
`properties.jsonl` as it is.

## Kinds of models

* *Functions*: serializer, framing, date strings, arrays, command line, choice of a Qt
  library, process listing.  Properties are universally quantified over inputs.
* *Sequential state machines*: reference table, registries, proxies, shared memory.
  Properties are invariants or trace properties over all sequences of operations, proved
  by induction.
* *Concurrent systems*: RPC system (server, clients, network), reentrant threads, timer,
  log handler, log sender, Qt relay, waiting with a clock.  A step is what one thread does
  between two points where others can interfere (a block under a lock, one access to
  shared data, one library call).  A schedule is any list of steps; steps that are not
  possible leave the state as it is.  Properties hold for all schedules of any length, any
  number of threads, clients and messages.

Environment functions (pickle, numpy dtype lookup, `getattr`, `__import__`, user
functions called remotely, UTF-8 validity, the recursion limit) are fields of the records
`senv` and `venv` and are quantified over.  The hypotheses made about them are the
predicates `good_env` (SerSpec) and `good_venv` (WireSpec), and, per value, `picklable`,
`dtype_ok` and the like in `sendable`.  Each is
instantiated by a concrete environment in the examples, so they are satisfiable.

## Properties

| id | property | status | model files | how it is modelled and proved | remarks |
|----|----------|--------|-------|------|------|
| C01 | A proxy that has not been deleted resolves to exactly the object it was made for | proved | ObjTable | reference table plus a heap in which freed addresses are used again; invariant by induction over histories, statements over the trace of calls and results | Reference table of the server with heap addresses re-used freely; all histories. |
| C02 | The server keeps an object alive exactly while an undeleted proxy exists | proved | ObjTable | reference table plus a heap in which freed addresses are used again; invariant by induction over histories, statements over the trace of calls and results | All histories; release is permanent. |
| C03 | Object IDs identify objects one-to-one and are never recycled | proved | ObjTable | reference table plus a heap in which freed addresses are used again; invariant by induction over histories, statements over the trace of calls and results | All histories including failing get_proxy calls. |
| C04 | Reference IDs are globally unique | proved | ObjTable | reference table plus a heap in which freed addresses are used again; invariant by induction over histories, statements over the trace of calls and results | All histories. |
| C05 | Deleting a proxy twice, or one that was never issued, is an error and changes nothing | proved | ObjTable | reference table plus a heap in which freed addresses are used again; invariant by induction over histories, statements over the trace of calls and results | All histories and all integer pairs. |
| C06 | A deleted proxy cannot be used any more, even if the object is still alive | partial | ObjTable | same model; which deleted proxies still work is characterised exactly | REFUTED: unwrap_proxy ignores the reference ID; exact characterisation of when a deleted proxy still works is proved. |
| C07 | Deferred attribute chains mean the same as attribute access on the object | proved | Api | attribute loop of `unwrap_proxy` and `_deferred_attr`; induction on the chain, spec is the inductive relation `follows` | getattr is a pure partial function of object and name (side effects of attribute access are not modelled). |
| C08 | Values survive a msgpack round trip unchanged | proved | Ser | traversal by msgpack with `default` and `object_hook`; induction on values; spec: which values can be sent and what they look like on arrival | Wire values are trees (msgpack's byte layer is not modelled); pickle and numpy dtype lookup are an environment assumed to round-trip what is sent. |
| C09 | What a JSON round trip preserves | proved | Ser | same for JSON; spec `jnf` (normal form) | JSON text layer not modelled (trees); recursion limit is a parameter. |
| C10 | Dates and times survive the round trip to the microsecond | proved | DateTime | character strings of strftime, strptime as a backtracking matcher; digit lemmas; calendar spec written separately | glibc strftime/strptime on character strings; iff characterisation. |
| C11 | Arrays survive the round trip element for element | proved | NdArray | index arithmetic on strided views, base64 on bits; induction on the shape | Strided views over byte memory, base64 at bit level. |
| C12 | Ordinary dictionaries are never mistaken for encoded objects | proved | Ser | traversal by msgpack with `default` and `object_hook`; induction on values; spec: which values can be sent and what they look like on arrival | The reserved key itself is property C61. |
| C13 | Objects that are not serializable arrive as proxies to exactly those objects and come home as the objects themselves | proved | Ser | serializer and reference table together; relation `arrives` between value sent, reference operations and value received | Both directions, msgpack and JSON, with the reference table model of C01-C06. |
| C14 | Without a local server an unserializable argument is rejected before anything is sent | proved | Client | client without local server; case analysis and induction on values | Both serializers, any nesting; the request counter may advance. |
| C15 | return_type decides how results come back | proved | Api | `_send_result` with `auto_proxy`, from the result at the server to the future at the client | Both serializers; 'value' with an unserializable result is C64. |
| C16 | A reply is only ever matched to the request it answers | proved | Rpc | server, clients and network under all schedules; invariants relating the events that happened to the state (RpcInv, RpcInv2-4); statements about events only | Any number of clients with distinct identities, FIFO network per client with loss at the high-water mark; results that come back as proxies are pinned down by C15/C13. |
| C17 | Requests of one client are executed once each, in the order they were sent | proved | Rpc | server, clients and network under all schedules; invariants relating the events that happened to the state (RpcInv, RpcInv2-4); statements about events only | Prefix of the sent sequence; all schedules including reentrant processing. |
| C18 | Every answered request completes its future | proved | Rpc | server, clients and network under all schedules; invariants relating the events that happened to the state (RpcInv, RpcInv2-4); statements about events only | Also: no reply is ever sent for sync='off'. |
| C19 | A failing request harms nobody else | partial | Rpc | server, clients and network under all schedules; invariants relating the events that happened to the state (RpcInv, RpcInv2-4); statements about events only | Proved for clients using a serializer the server has (otherwise C20) and for exceptions whose text can be encoded, which the model of the network takes for granted; REFUTED for messages with surrogates, which end the server (C142_surrogate_ends_server_refuted). |
| C20 | A request in an unsupported serialization format is answered with an error | partial | Rpc | same system; the run that kills the server, and what unsupported messages cannot do | REFUTED: the error reply itself needs the unknown serializer, the KeyError ends run_forever; what does hold is proved. |
| C21 | A future completes at most once and stray replies are ignored | proved | Client | client state under arbitrary incoming messages; induction over sequences | Arbitrary incoming data. |
| C22 | When the server closes, every known client is told exactly once | proved | Rpc | server, clients and network under all schedules; invariants relating the events that happened to the state (RpcInv, RpcInv2-4); statements about events only | Close requests as close_server() sends them (no options). |
| C23 | After a disconnect every pending request fails and no new one is sent | proved | Client | client state under arbitrary incoming messages; induction over sequences | Every client state, every later sequence of operations. |
| C24 | A client that asks for closure learns about it | partial | Rpc | server, clients and network under all schedules; invariants relating the events that happened to the state (RpcInv, RpcInv2-4); statements about events only | REFUTED for sync='off' (no reply, no notice); proved for requests that keep their future. |
| C25 | Waiting for a result respects its timeout | proved | Wait | waiting loop with a clock; blocking calls wake at a message or timeout; induction on the rounds with bounds on computing time | Timed model; poll wakes up at a message or at its timeout; bounds on computing time are parameters; float rounding not modelled. |
| C26 | Published names behave like a dictionary shared by all clients | proved | Rpc | server, clients and network under all schedules; invariants relating the events that happened to the state (RpcInv, RpcInv2-4); statements about events only | Assignments by any client or by the server's process, all schedules. |
| C27 | Reentrant calls between servers never deadlock | proved | Reentrant | threads with stacks of frames serving finite programs; deadlock freedom by order of creation, termination by a measure, results by induction on programs | Unbounded threads, callers and call patterns incl. async, 'off' and data-dependent ones; unlimited timeouts; a thread serves when it waits or has nothing to do. |
| C28 | One client per thread and address | proved | Registry | registries under all interleavings of their lock sections; invariants | All interleavings at the granularity of the lock, including nested ones in one thread; thread idents may be reused (see C66). |
| C29 | At most one server per thread, and each server in at most one thread | partial | Registry | registries under all interleavings of their lock sections; invariants | REFUTED for overlapping registrations of one server (tested outside the lock); everything else proved for all interleavings. |
| C30 | Requests are framed without loss | proved | Client | decimal printing and `int()`; round trip on all messages | Python's int() modelled on strings including signs, white space and underscores. |
| C31 | Different clients have different network identities | partial | Client | identity string; injectivity under hypotheses, collision by witness | REFUTED: two children with the same name have equal identities; default names and separator-free names proved injective. |
| C32 | A reply that cannot be decoded affects only its own request | partial | Rpc | server, clients and network under all schedules; invariants relating the events that happened to the state (RpcInv, RpcInv2-4); statements about events only | REFUTED: the request an undecodable reply answers stays pending for ever; nothing else is affected (proved). |
| C33 | Equal proxies have equal hashes | partial | Proxy | proxy as a record with options and parent; all proxies programs can make (`made`) | REFUTED for attribute proxies: == ignores the attributes, the hash does not; proved for the others. |
| C34 | Operators on a proxy call the operator of the same name on the object | partial | Proxy | proxy as a record with options and parent; all proxies programs can make (`made`) | REFUTED for __rxor__ (calls __ror__); proved for the other 46, end to end. |
| C35 | Proxy options are validated atomically and inherited by attribute proxies | proved | Proxy | proxy as a record with options and parent; all proxies programs can make (`made`) | For all proxies that programs can make. |
| C36 | auto_delete releases the object only when the proxy is gone | partial | Proxy | life of proxies under immediate collection; invariant over histories | REFUTED: attribute proxies inherit auto_delete and release their owner's reference; proved while no attribute proxy has it. Immediate collection as in CPython, no cycles. |
| C37 | Copying a proxy for use in another thread has no remote effect | partial | Proxy | proxy as a record with options and parent; all proxies programs can make (`made`) | REFUTED for attribute proxies (two remote calls); proved for the others. |
| C38 | A timer never fires faster than its interval | partial | Timer | thread, callers and clock at the granularity of the lock; invariants over all interleavings, existence of schedules for progress | REFUTED when the thread is held up between noting the time and calling; proved relative to the noted time, for any number of calls later. Integer time; perf_counter and sleep on one clock. |
| C39 | A timer respects its limit | proved | Timer | thread, callers and clock at the granularity of the lock; invariants over all interleavings, existence of schedules for progress | All interleavings of callers, thread and clock. |
| C40 | stop() stops the timer and start() starts it | partial | Timer | thread, callers and clock at the granularity of the lock; invariants over all interleavings, existence of schedules for progress | REFUTED: one call may begin after stop() returned; start() may return just before the thread ends. Proved: at most one, and start() works while the thread waits. |
| C41 | Log records are written in order of creation | proved | LogHandler | emitting threads, polling thread, exit handler and clock; invariants; permutation and sortedness | Integer time that does not go back; writing one record is atomic. |
| C42 | The log handler neither loses nor duplicates records | partial | LogHandler | emitting threads, polling thread, exit handler and clock; invariants; permutation and sortedness | REFUTED at exit: records taken by the polling thread but not yet written are lost. Proved at any other moment. |
| C43 | Forwarded log records arrive in order and none is lost | partial | LogFwd | sender thread, loggers and connect/close interleaved; queue invariants | REFUTED: a record that cannot be encoded (bad format, exc_info) stops forwarding for ever, and close() drops queued records. Order proved always; no loss proved while connected with encodable records. |
| C44 | The log server passes on exactly the records at or above its level | partial | LogFwd | message handling of LogServer, composed with the sender for the end-to-end theorem | Proved for well-formed messages, also end to end; a malformed message stops the server (refuted). |
| C45 | Every line a child prints becomes one log record with the same text | partial | Pipe | line splitting and strict UTF-8 decoding; induction on lines | REFUTED for a last line without newline: its last character is dropped. Proved for lines ended by a newline. |
| C46 | The child process gets the configuration that was asked for | partial | Process | command line of the child, argparse, bootstrap, as functions; string lemmas | REFUTED for the log level: without a log address it is not passed on. Proved otherwise for names without a leading dash, str addresses, bytes log addresses and levels >= 0 (see C97, C98 for the rest). |
| C47 | A child that cannot start its server is reported | partial | Process | start_process with results of the operating system given from outside; case analysis | REFUTED: always a TimeoutError, because the error message of the child has a field that does not exist. Proved: an exception is raised and no child is left. |
| C48 | Sharing an array shares its elements | proved | NdArray | shared blocks; strided addresses; bounds | Data at the start of its block; other offsets are property C60. |
| C49 | close_all unlinks only memory this process owns | partial | Shmem | segments, wrapping, pickling, contents; byte level | REFUTED: the close flag is never looked at, memory wrapped with close=False is unlinked too. Proved: memory wrapped here is closed and unlinked, memory never wrapped here is untouched. |
| C50 | kill_procs kills only processes matching its argument | partial | Util | text of ps and netstat output, kill loop; list induction | REFUTED: the search argument is ignored. Proved: only processes whose command contains the global prefix are killed. |
| C51 | The clock offset estimate is within half a round trip of the truth | proved | Clock | rational arithmetic; bound and its tightness | Over the rationals, not floating point. |
| C52 | The Qt relay neither loses nor reorders messages | proved | QtRelay | relay threads and queues under all schedules | While the process runs and requests are well formed; see C93, C94 for the rest. |
| C53 | QtPollThread.stop stops the polling thread | partial | QtRelay | relay threads and queues under all schedules | REFUTED: the thread never stops. |
| C54 | One Qt library per process, first importable one by default | proved | QtUtil | sequences of import calls with changing environments | The QtCore, QtGui and QtWidgets modules only; see C95, C96 for calls after a failure. |
| C55 | Remote import of a dotted name returns the named submodule | proved | Api | `__import__` followed by attribute access; induction on the dotted name | builtins.__import__ and getattr are environment functions; fromlist is not used by the client. |
| C56 | ProcessCleaner reports exactly the processes that were still alive | proved | Util | text of ps and netstat output, kill loop; list induction | pids distinct for exact names; a process that cannot be killed counts as not ours; zombies count as alive. |
| C57 | Every numpy scalar of a serializable type can be sent | partial | Ser | scalars through encode/decode; case analysis | REFUTED for complex scalars (TypeError); all others proved to arrive. |
| C58 | Instances of subclasses keep their type | partial | Ser | traversal by msgpack with `default` and `object_hook`; induction on values; spec: which values can be sent and what they look like on arrival | REFUTED for tuple subclasses (arrive as plain tuples); pickled classes proved to keep their type. |
| C59 | Every datetime denotes the same instant after the round trip | partial | DateTime | character strings of strftime, strptime as a backtracking matcher; digit lemmas; calendar spec written separately | REFUTED: years before 1000 raise ValueError at the receiver, aware datetimes lose their offset. |
| C60 | A view into the middle of a shared block is shared at the right place | partial | NdArray | shared blocks; strided addresses; bounds | REFUTED: the offset is not transmitted; what the receiver gets instead is characterised. |
| C61 | A dictionary using the reserved key is still delivered as a dictionary | partial | Ser | dictionaries with the reserved key; what decode makes of them | REFUTED: such dicts are never delivered, and marker 'pickle' makes the receiver unpickle the given bytes. |
| C62 | call_obj can be called without arguments | partial | Api | requests of `call_obj` and of calling a proxy, executed by the server | REFUTED: the defaults None make len(kwargs) raise TypeError at the server, always. |
| C63 | A remote call invokes exactly the proxied object with exactly the given arguments | proved | Api | requests of `call_obj` and of calling a proxy, executed by the server | From ObjectProxy.__call__ to the call at the server, both serializers; dict arguments need distinct string keys for keyword arguments. |
| C64 | return_type='value' never yields a proxy | partial | Api | `_send_result` with `auto_proxy`, from the result at the server to the future at the client | REFUTED: always a proxy, for every unserializable object and both serializers. |
| C65 | A result that has already arrived is returned even with timeout=0 | partial | Wait | waiting loop with a clock; blocking calls wake at a message or timeout; induction on the rounds with bounds on computing time | REFUTED: with timeout=0 the socket is never looked at. |
| C66 | A thread only uses clients it made itself | partial | Registry | registries under all interleavings of their lock sections; invariants | REFUTED: idents of finished threads are reused and their clients stay registered; proved while no ident is used twice. |
| C67 | A client constructor that raises leaves nothing running | partial | Registry | registries under all interleavings of their lock sections; invariants | REFUTED: the local server is started before the checks. |
| C68 | A proxy option set to None means the default | partial | Proxy | proxy as a record with options and parent; all proxies programs can make (`made`) | REFUTED: None fails, for sync after the request was sent. |
| C69 | Every documented proxy option is accepted | partial | Proxy | proxy as a record with options and parent; all proxies programs can make (`made`) | REFUTED: auto_proxy is refused. |
| C70 | Per-call options apply to that call only and are not passed on | proved | Proxy | proxy as a record with options and parent; all proxies programs can make (`made`) |  |
| C71 | Iterating over a proxy of a sequence ends where the sequence ends | partial | Proxy | Python iteration, operator dispatch and truth testing applied to what comes back from the server | REFUTED for every sequence: ends with RemoteCallException. |
| C72 | Binary operators with a proxy give the result that the objects would give | partial | Proxy | Python iteration, operator dispatch and truth testing applied to what comes back from the server | REFUTED: NotImplemented arrives as a proxy. |
| C73 | A proxy can be tested for truth like its object | partial | Proxy | Python iteration, operator dispatch and truth testing applied to what comes back from the server | REFUTED: AttributeError of the remote object for objects without __len__. |
| C74 | A timer with limit 0 never calls | partial | Timer | thread, callers and clock at the granularity of the lock; invariants over all interleavings, existence of schedules for progress | REFUTED: the limit is tested after the call. |
| C75 | An undisturbed timer makes exactly as many calls as its limit says | proved | Timer | thread, callers and clock at the granularity of the lock; invariants over all interleavings, existence of schedules for progress |  |
| C76 | start() on a running timer leaves it running | partial | Timer | thread, callers and clock at the granularity of the lock; invariants over all interleavings, existence of schedules for progress | REFUTED: TypeError in the thread when start() falls between two reads. |
| C77 | A timer that ended can be started again | partial | Timer | thread, callers and clock at the granularity of the lock; invariants over all interleavings, existence of schedules for progress | REFUTED: RuntimeError. |
| C78 | Records of every level are written | partial | LogHandler | table of level colours; witness | REFUTED with colorama: levels >= 60 or < 0. |
| C79 | What is written at exit is sorted too | partial | LogHandler | emitting threads, polling thread, exit handler and clock; invariants; permutation and sortedness | REFUTED. |
| C80 | The log address can be changed while records are being sent | partial | LogFwd | sender thread, loggers and connect/close interleaved; queue invariants | REFUTED: connecting while a record is being sent kills the sender thread. Partial: nothing is lost if connect() is only called while the thread waits for a record. |
| C81 | The text of a log record survives forwarding | proved | LogFwd | sender thread, loggers and connect/close interleaved; queue invariants | msg % args is abstract. |
| C82 | Forwarded records are shown with the host, process and thread they come from | partial | LogFwd | sender thread, loggers and connect/close interleaved; queue invariants | REFUTED for the host: sent as host_name, read as hostname. Proved for process and (named) thread. |
| C83 | The process name survives a second forwarding | partial | LogFwd | sender thread, loggers and connect/close interleaved; queue invariants | REFUTED. |
| C84 | Output that is not UTF-8 does not stop the capture of later lines | partial | Pipe | line splitting and strict UTF-8 decoding; induction on lines | REFUTED. |
| C85 | Captured output has the right level | proved | Pipe | line splitting and strict UTF-8 decoding; induction on lines |  |
| C86 | A shared array outlives the processes it is sent to | partial | Shmem | segments, wrapping, pickling, contents; byte level | REFUTED. |
| C87 | An unpickled shared array is the array that was sent | partial | Shmem | segments, wrapping, pickling, contents; byte level | REFUTED for views that do not start at the beginning of the memory. Proved for those that do. |
| C88 | copy and zeros have the right contents | proved | Shmem | segments, wrapping, pickling, contents; byte level |  |
| C89 | Shared arrays can have any shape | partial | Shmem | segments, wrapping, pickling, contents; byte level | REFUTED for scalars and empty arrays. Proved for the other shapes. |
| C90 | kill_procs works with its default prefix | partial | Util | text of ps and netstat output, kill loop; list induction | REFUTED: always fails. |
| C91 | find_procs returns exactly the matching processes | partial | Util | text of ps and netstat output, kill loop; list induction | REFUTED if the search text occurs in the header line. Proved otherwise. |
| C92 | netstat works on linux | partial | Util | text of ps and netstat output, kill loop; list induction | REFUTED as soon as one port is open. |
| C93 | A Qt server answers the request that closes it | partial | QtRelay | relay threads and queues under all schedules | REFUTED. |
| C94 | A malformed message does not stop a Qt server | partial | QtRelay | relay threads and queues under all schedules | REFUTED. |
| C95 | import_qt uses a library imported after a failed call | partial | QtUtil | sequences of import calls with changing environments | REFUTED. |
| C96 | import_qt never returns an incomplete namespace | partial | QtUtil | sequences of import calls with changing environments | REFUTED. |
| C97 | A child process can have any name | partial | Process | command line of the child, argparse, bootstrap, as functions; string lemmas | REFUTED for names with a leading dash (see C46, C100 for the others). |
| C98 | Addresses can be given as str or bytes | partial | Process | command line of the child, argparse, bootstrap, as functions; string lemmas | REFUTED: str log addresses fail, bytes listening addresses are changed. |
| C99 | No child is left behind by a failed start | partial | Process | start_process with results of the operating system given from outside; case analysis | REFUTED: slow children and failed connections. |
| C100 | start_process returns a handle for the process it started | proved | Process | command line of the child, argparse, bootstrap, as functions; string lemmas | argparse of CPython 3.11 is modelled; processes, sockets and time are results given from outside. |
| C101 | shell=True makes no difference to the arguments | partial | Process | command line of the child, argparse, bootstrap, as functions; string lemmas | REFUTED for names with blanks. Proved for arguments that are not empty and have no blanks or other special characters. |
| C102 | A returned proxy works until it is deleted, whatever else happens | proved | Life | invariant over runs of the RPC system: the reference table has a history in the sense of C01-C06 that extends the earlier one, its deletions come from executed delete requests, every proxy in a reply was issued in it; with the invariant of C16-C18 | Assumes what Python guarantees: objects in a result exist when the reply is made. Clients that are not in a process with a server of the same address (there the proxy is replaced by the object). |
| C103 | Attribute access follows the defer_getattr option | partial | Proxy | composition of the option lemmas of C35 with the request lemmas of C07 | REFUTED for the options: return_type and timeout of the proxy are not applied (always auto and 10 s). Proved: what is sent and what the lookup gives. |
| C104 | disconnected() tells whether the server has closed | proved | Conn | Runs of the RPC system (RpcModel); `disconnected` reads the whole queue of the client (ConnModel). The reading is related to a number of delivery steps of the run, so that the invariants of C16-C20 apply; the goodbye is the decoded `notice` of WireSpec. | An open client socket; messages that decode (C32 is about the rest). |
| C105 | close_server() returning True means that the server has closed | partial | Conn | ConnModel on top of the RPC system. A closed socket makes `disconnected` say True (ZMQError), which `close_server` takes for a closed server. | REFUTED for a client that has been closed: its close_server() returns True without sending anything while the server runs on (C105_closed_client_refuted). Proved for clients whose socket is open: True without asking only if the server has closed, otherwise one close request is sent, and an answer True to it means that the server has closed. |
| C106 | Future.done() tells whether the result has arrived | partial | Conn | ConnModel: `done` is inherited from concurrent.futures and looks at the future only. The refutation is a reachable state of the RPC system and holds for any number of polls. | REFUTED: done() reads nothing from the socket; a program that polls it never sees the reply that has arrived (C106_never_done_refuted, for any number of polls). Proved: done() is True exactly when the reply has been delivered to the future, and after disconnected() all replies that had arrived are done. |
| C107 | A client connects to every server that answers within the timeout | partial | Ensure | EnsureModel puts the loop of `ensure_connection` around the waiting of WaitModel (clock, arrivals, the three ways of waiting); runs of any length with any arrivals. Invariants over such runs. | REFUTED: each ping is only waited for 0.1 s and an answer that comes later is not recognised, so a server that answers every ping after 150 ms is never connected to (C107_slow_server_refuted; C107_late_answers_never_count for all runs and timeouts). Proved: the bounds on the time, that only an answered ping connects, and that a server answering the first ping within 99 ms is connected to with a single ping. |
| C108 | get_client returns a usable client | partial | Registry | registries under all interleavings; histories as lists of events and answers; histories that break it, and an invariant | REFUTED: a client closed in another thread than its own stays registered, and so does one that knows its server has closed; proved that registered clients are open if clients are closed only by the threads that made them. |
| C109 | Closing a client does not affect other clients | partial | Registry | registries under all interleavings; a history that breaks it, and an invariant | REFUTED: forget_client removes whatever client the current thread has for the address, so closing an old or foreign client makes get_client forget the current one; proved for closing the client that get_client finds. |
| C110 | wait returns the exit code or times out | partial | Child | transition system with a clock: wait, communicate (select and read apart), Popen._wait, PipePoller, pipes with several writers; invariants over runs | REFUTED with captured output (log_stdio): wait uses communicate(), which waits for the end of the output, so a process that inherited stdout makes wait time out although the child has exited (C110_open_pipe_refuted), and if PipePoller reads the bytes between select and read, wait hangs past its timeout until more is written (C110_hangs_refuted). Proved: a returned code is the exit code, TimeoutError comes only after the timeout, without captured output only if the process runs, kill gives up after ten seconds at the earliest, once the child has exited and its pipes are hung up wait reads what is left and returns the code at once, and where no PipePoller reads, every call ends within the timeout plus 100 ms and seven bounds on computing. |
| C111 | Captured output is logged | partial | Child | same system; what each reader got is kept in the state | REFUTED: communicate() in wait() reads the same pipe as PipePoller and drops what it reads; for every output found there by wait, in every continuation, less is logged than was written. Proved: without such calls PipePoller reads everything in order (C45 says how it is logged). |
| C112 | stop returns when the process has exited | partial | Child | same system | REFUTED for the time: the timeout is applied to close_server and again to wait, so stop(timeout) may take twice as long (C112_takes_twice_as_long_refuted, for every number of milliseconds); bounded by that (C110_ends_in_time). Proved: after a normal return the process has exited, with the code returned. |
| C113 | kill only kills its own process | partial | Kill | model of the process table (numbers, exited processes kept for their parent); invariant over histories | REFUTED for DaemonProcess: it keeps only the number, and kills any process that has the number now. Proved for ChildProcess: the number is not free until the exit code has been asked for, and then nothing is signalled; and after kill() the child does not run, while every other process does. |
| C114 | Forwarded messages are handled like local ones | partial | LogTree | LogTreeModel: logger hierarchy (effective level, propagation, handlers) and `forwarded`. Specification words `above`, `propagates`, `level_is` say independently of the library's searches which loggers count. Proved by induction on names. | REFUTED in general: the server hands every record to the logger teleprox.log.remote, so handlers attached to the logger named in the record never get it, and a level set on 'teleprox' suppresses all forwarded records. Proved: exact equality with local logging while only the root logger is configured. |
| C115 | basic_config writes every message once | partial | LogTree | LogTreeModel: invariant on histories (console handlers of the root = number of calls, nobody else has one), then counting of deliveries. | REFUTED: each call adds another console handler to the root logger, even a call that raises because a log server exists; messages are then written once per call. Proved: exactly once after exactly one call. |
| C116 | Every unhandled exception is reported exactly once, and nothing else is | partial | LogTree | LogTreeModel: hooks as state; invariant that the hooks stay installed over every history in which nobody else sets them. | REFUTED twice: with a root level above WARNING the exception vanishes without any trace although the interpreter alone would have printed it; sys.exit() in a thread is logged as unhandled exception although the interpreter ignores it. Proved: at root level WARNING or below, once per handler of the root, however often log_exceptions was called. |
| C117 | Logging never fails because messages are forwarded | partial | LogTree | LogTreeModel: set_logger_address in two steps; invariant that exactly one sender is attached, and only to the root. | REFUTED: LogSender.__init__ attaches itself to the logger before it has a queue, so a logging call of another thread raises AttributeError meanwhile. Proved: forwarded exactly once without exception once set_logger_address has returned. |
| C118 | A waiting client lets the server of its own thread answer | partial | Local | LocalModel: registry of servers by thread, clients with their kept poller. Invariant over all histories: a kept poller watches a server that the thread had; a server that leaves the registry is closed and never returns. | REFUTED: the poller is made once and kept; after the server of the thread was closed and another one took its place, the client never lets the new one answer. Proved: the request is processed for every history in which the thread has had one server only. |
| C119 | RPCServer.close() closes the server | partial | Local | LocalModel: close() as a request through get_client; `attended` says who would process it. Same invariant as C118. | REFUTED twice: a server that was created but never run cannot be closed (TimeoutError after the ping, the server stays open; also in _atexit); closing a closed RPCServer from a thread without a client raises ConnectionRefusedError. Proved: if close() returns the server is closed, and it returns whenever another thread runs the server's loop or the calling thread has had this server only. |
| C120 | A closed Qt server is closed | partial | QtClose | QtCloseModel over ServerModel: congruence of every action with respect to servers that differ only in `_closed` and registration, lifted to sequences of requests. | REFUTED: _final_close only sleeps, so with quit_on_close=False (or until the application has quit) every later request is executed and answered exactly as before closing; a second close request fails with KeyError after sending all disconnect messages once more. Proved: the first close request tells all other known clients, returns True and unregisters. |
| C121 | check_address reports what connecting gives | partial | Addr | AddrModel: the regular expression as a recursive function, CPython's checks before connecting, the network as any function. Specification: `address` by concatenation, decimal numbers inductively. Proved by induction on strings. | REFUTED for invalid addresses: a port above 65535 makes check_address and RPCClient() raise OverflowError, and a host that does not exist counts as 'closed', both documented as None. Proved: the report is right for every well-formed address with a possible port and a known host, and None for every string of another form. |
| C122 | kill_procs kills every process it finds | partial | Util | UtilModel: ps output as text, the set of processes as a dictionary pid -> may be killed. Specification: `occurs` by concatenation, `alive`/`ours` by lookup. Induction over the found processes. | REFUTED: the first process that has exited meanwhile or may not be killed makes kill_procs raise OSError, and all processes after it are left alive, for every such table. Proved: if each found process may be killed, all are dead afterwards and exactly they are returned. |
| C123 | assert_pids_dead kills and reports | proved | Util | UtilModel: kill_all with the exception handler; induction over the list of pids. | Processes of other users are passed over, as the exception handler says. |
| C124 | A timer whose callback raises has ended | proved | Timer | TimerModel: every exception in the thread is an event; invariant that after it the thread is at its `finally` block or dead, and only start/stop/end events follow. | An exception while the callback proxy is copied, or in the computation of the waiting time (see C76), counts too. start() during this time returns normally although nothing will be called (C40), and raises later (C77). |
| C125 | A call that raises because of its options has no effect | partial | Proxy | ProxyModel (send_as) and ClientModel (send): case analysis over all ways in which a request is refused. | REFUTED for invalid values of sync: the request is sent exactly as with a valid value, and ValueError is raised afterwards. Proved for 'sync', 'async' and 'off', with every value of the other options and every state of the client. |
| C126 | A forwarded log message is handled once by each process on its way | partial | LogNet | LogNetModel: processes with the loggers of LogTreeModel, messages on their way. Invariant with a ranking of addresses (who started whom) that decreases at each hop; loss by following one message through all steps. | REFUTED: a process that sets its logger address to its own log server (set_logger_address(get_logger_address())) receives each message again and again without end; nothing prevents it. Proved when every process uses the address that get_logger_address() returns in the process that started it: received at most once, never by its origin, forwarding ends. Proved always: a message that passes the levels is on its way or was received. |
| C127 | A thread has one server, and get_server() returns it | partial | Local | LocalModel: invariant that the table of servers by thread and the _thread attribute of open servers agree; that _thread changes by a successful start only; converse by induction over histories. | REFUTED for closed servers: run_lazy() of a server that was started in this thread and has been closed returns normally, but nothing happens and get_server() does not return it (register_server compares _thread only, which closing does not reset). Proved for everything else, with the exceptions KeyError (thread has a server) and AssertionError (server belongs to another thread). |
| C128 | A timer of a server executes its callback in the server, at most once per interval, until the limit | partial | TimerSrv | TimerSrvModel: composition of the timer's thread, the server's queue and the answers; invariants on the history (order of requests = order of executions), case analysis for the end of the timer; explicit runs for the refutations. | REFUTED in two points: (1) if the server is busy with other requests for the interval, two executions begin at the same time (the interval is counted from the sending of the request); (2) if it is busy for the timeout of the callback's proxy (10 s), the timer's thread ends with TimeoutError, for good, although the invocation is still executed. Proved: order, no repetition, one after the other, spacing counted from the sending, that nothing but an exception of the callback or such a timeout ends the timer before the limit, and that the limit gives exactly max(1, limit) executions. |
| C129 | Dictionaries whose keys are not text arrive as well | partial | Key | KeySpec: inductive description of values with such a key at any place; induction over it for packing and unpacking; composed with the model of replies. | REFUTED: a key that is neither str nor bytes is accepted by the sender without complaint, but the receiver raises ValueError for the whole message (msgpack's strict_map_key is not switched off). If a remote function returns such a value, the caller gets ValueError from the wait and the request stays pending. Proved: with str and bytes keys the dict arrives, and these are the only ones. |
| C130 | A proxy arrives with its options | partial | PxOpt | PxOptModel: __getstate__ and the proxy branch of decode with proxy_opts, on top of the models of proxies and of serialization. | REFUTED: no option of a proxy is sent with it (the update in __getstate__ is commented out), so it arrives with the receiver's defaults; an unknown name in default_proxy_options is accepted, and from then on every message with a proxy in it, even for an own object, raises KeyError. Proved: the object is the one meant; known default options apply, the documented defaults otherwise. |
| C131 | A proxy talks through a client of the thread it is used in | partial | PxThread | PxThreadModel: proxies with the cached client, the registry of clients by thread and address, and programs of several threads. | REFUTED: a proxy keeps the client of its first use, so a second thread sends through the client (and socket) of the first thread, and after that client was closed requests with the proxy fail although operators on it, which use a proxy of their own, work. Proved: requests go through a client of their thread when every proxy object is used in one thread; operators and attributes used at once always do, and find an open client when clients are closed in their own threads. |
| C132 | In-place operators on a proxy work like those on the object | partial | Inpl | InplModel: classes with special methods, objects with a state, the forwarding table of ProxyModel and Python's protocol for in-place operators. | REFUTED: with default options the name becomes a copy if the object is of a type that is sent by value, so the next p += w changes nothing remotely; if the class of the object has no in-place method AttributeError is raised instead of using the ordinary one; if it returns NotImplemented, p becomes a proxy to NotImplemented; p %= v never changes the object. Proved: like the object when its class has the in-place method and the result is not sent by value or return_type is 'proxy'; %= when the class has only the ordinary method. |
| C133 | The options of a proxy do not change what its operators mean | partial | SyncOp | SyncOpModel: what a special method of a proxy returns for each value of sync and return_type, and what Python makes of it; on top of ProxyModel. | REFUTED: with sync='async' every comparison is true (a Future) and with 'off' false (None), a loop over the proxy never ends; with return_type='proxy' conditions raise AttributeError; with all three len() raises TypeError. Proved: with sync='sync' and return_type 'auto' or 'value' conditions and lengths are those of the object, exceptions arrive as RemoteCallException. |
| C134 | A Future can be used like one of concurrent.futures | partial | Fut | FutModel: ClientModel with a socket, the futures that the program holds, their callbacks, and a log of what happens. | REFUTED: exception() of a pending future never reads the socket, so without a timeout it never returns (in the only thread that may read) even if the reply is there and result() would return it; the callbacks of a future that the program does not keep are never called, because the client's dictionary of futures is weak. Proved: exception() agrees with result() once there is an outcome; callbacks of kept futures are called as often as added, with the outcome; no callback is called more often than it was added, or before the outcome. |
| C135 | An operator on a proxy calls the method that the same operator on the object calls | partial | Lookup | LookupModel: dictionaries, method resolution orders, metaclasses, getattr of the server and the forwarding table of ProxyModel; Python's rule for operators is in LookupSpec. | REFUTED: an attribute of the instance with the name of a special method is called instead, without the object; for a proxy of a class the method of its instances is called without the object (so str(p), p == v, p < v of a class fail or do something else); __getattr__ is asked. Proved: the same call exactly if the object has no attribute of its own of that name; RemoteCallException (AttributeError) if there is nothing to find. __rxor__ is apart (C34). |
| C136 | Printing a proxy does what the option safe_print says | partial | Repr | ReprModel: both methods on ProxyModel and SyncOpModel; the text determines its parts by cutting it at '[' , ']' and '.'. | REFUTED for sync='async' and 'off' with safe_print not True: str(p) raises TypeError and repr(p) shows a Future or None in place of the object's text. Proved: nobody is contacted exactly if safe_print is True; then both texts are equal and determine the address, the object ID and (for names without a dot) the attributes; with sync='sync' str and repr as documented, whatever return_type. |
| C137 | A log message shows the values that were logged | partial | LogArg | LogArgModel: objects, a queue of records that refer to them, and lines formatted when they are taken from the queue. | REFUTED: from every history, an object that is changed right after it was logged is shown with the later value, because both handlers format in another thread. Proved: if no object is changed after it was logged, every line shows the value at the time of the call. |
| C138 | A log line shows the name of the thread that logged | partial | Tname | TnameModel: the dictionary by idents, a queue of records, lines with the name looked up when written. | REFUTED: names are never forgotten, so a new thread that gets the ident of an ended one is shown with that one's name; the name is looked up when the line is written, so a thread that takes another name right after logging is shown with the later one. Proved: the right name if no ident is used for two threads and threads name themselves before they log. |
| C139 | Filters and levels decide what a handler passes on | partial | Filter | FilterModel: Logger.handle and callHandlers of the library, the three handlers, and the test of LogServer.run. | REFUTED: LogSender and QtLogHandler replace Handler.handle and never ask their filters: whatever a filter refuses is sent all the same. Proved: without filters on these two, exactly the handlers that want a record pass it on, in the logging process and behind a LogServer; with any, nobody misses a record they want, and levels and the logger's filters are always obeyed. |
| C140 | A client can be made whatever the names of host, process and thread are | partial | IdLen | IdLenModel: NameModel and ProcessModel with the limit of zmq. | REFUTED: the names and the address become the identity of a zmq socket, which has at most 255 bytes; with more than 252 bytes of names and address the constructor raises ZMQError. The names chosen by start_process get at least six bytes longer with each generation, so from the 43rd on no process can make a client. Proved: the identity is as documented if the names and the address have at most 252 bytes. |
| C141 | The standard streams of a new process go where they were asked to go | partial | Redir | RedirModel: the branches of start_process on these arguments; the documentation is in RedirSpec. | REFUTED: daemon=1 and log_stdio=1 pass the checks (1 in (True, False)) and are then not treated as True: the process is no daemon, nothing is logged; stdin=0 is treated like None. Proved for bools and None and other streams: conflicts are refused with AssertionError, everything else is done as documented. |
| C142 | A remote exception says what was raised, and is always delivered | partial | ErrText | ErrTextModel: texts as code points, the transcript of _send_error, the str of RemoteCallException, the loop of the server. | REFUTED: if the message of the exception has a surrogate (as names of files can), msgpack cannot encode the reply; _send_error is not guarded, so the exception ends run_forever: neither this client nor any other is answered any more (C19 takes texts as encodable). Proved: whatever is delivered says class and message of the first exception and all texts on the way; type_str is the class raised in the server; with encodable texts or JSON every failing request is answered once, in order. |
| C143 | When the program ends, its children are stopped | partial | AtExit | AtExitModel: started processes, the list of functions of atexit, and ChildProcess.stop with the behaviour of the child given. | REFUTED: a child that does not answer, refuses, or closes its server without exiting is left running: stop raises and nothing kills the process. Proved: exactly the running children that are no daemons are asked, the latest first, each once, also if others fail; those that do as asked have ended. |
| C144 | A failed set_logger_address changes nothing, otherwise records go to the address set last | partial | SetAddr | SetAddrModel: the global state of log/remote.py, one socket per LogSender. | REFUTED: LogSender.connect replaces the socket before it connects: after a set_logger_address that raised, get_logger_address still gives the old address but nothing is sent there any more; if it raises on the first call, the new LogSender is already attached to the root logger and keeps every later record in its queue for ever. Proved: get_logger_address as documented, also with failures; without failures each record is sent once to the address set last. |
| C145 | A log server passes on every record that has arrived, until it is stopped | partial | LogStop | LogStopModel: the loop of LogServer.run step by step, with arrivals and stop() at any point. | REFUTED: what has arrived but was not read when stop() is called is dropped; a message that is not JSON raises in the thread, which ends: nothing is passed on any more and the socket is never closed, also not by stop(). Proved: in order, once each, by level, at all times; all of them if the server is not stopped and gets only records; at most one more after stop(); then the socket is closed. |
| C146 | kill() and stop() end the process that runs the server | partial | Conda | CondaModel: the process started by Popen and the server's process, with `conda run` as a program that waits for its child. | REFUTED: with conda_env the process that Popen knows is `conda run`; kill() ends that one only. The server goes on, poll() reports -9 and later calls of stop() and kill() do nothing. Proved: without conda_env both end the server and poll() tells the truth and the code; stop() ends the server in both cases if kill() was not called before. |

## What is modelled and what is not

| source | modelled | not modelled |
|--------|----------|--------------|
| `serializer.py` | encode, decode, both serializers, arrays, dates, scalars, subclasses, proxies inside values | byte formats of msgpack, JSON and pickle (values are trees; pickle is an environment function); import of optional libraries |
| `server.py` | reference table, framing, `_process_one`, `process_action` with all actions, replies, `_final_close`, published names, registration, `auto_proxy`, `run_lazy`, `run_forever`, `close` called in any thread, `start_timer`, text of errors (ErrTextModel) | `__repr__`, log messages, `_atexit`, `local_client`, sockets below send/receive |
| `client.py` | registry, `send`, `process_msg`, futures, disconnect, close, close_server, waiting with timeout, `ensure_connection`, reentrant waiting, `measure_clock_diff`, request constructors, `check_address`, `Future.exception` and callbacks (FutModel), text of RemoteCallException (ErrTextModel), length of identities (IdLenModel) | `Future.cancel` (always False), `__del__`, log messages |
| `proxy.py` | options, attribute chains, calls, operators, equality and hash, copying, `auto_delete`, pickling as a record, printing (ReprModel), which method an operator calls (LookupModel), the client cached by a proxy (PxThreadModel) | the `_server` cache |
| `process.py`, `bootstrap.py` | command line, child side of argument parsing, handshake, error paths, `wait`, `stop`, `kill` and `poll` of ChildProcess (with Popen.communicate and the process table), `kill` of DaemonProcess, standard streams (RedirModel), the atexit hook (AtExitModel), handles of processes started through conda (CondaModel) | the command line of conda, Windows branches; processes, sockets and time are results given from outside |
| `timer.py` | all of it | rounding of floats |
| `log/handler.py` | queueing, sorting, exit handler, header, levels, `log_exceptions` hooks | text of the exception report, colours themselves, file objects |
| `log/remote.py`, `log/__init__.py` | LogSender, LogServer, names of hosts, processes and threads, `start_log_server`, `get_logger_address`, `set_logger_address`, `basic_config`, with the logger hierarchy, levels and filters of the logging module; when messages are formatted and thread names are looked up; addresses that cannot be connected to (SetAddrModel), stopping a LogServer (LogStopModel) | filters that change records, thread start |
| `log/stdio.py` | PipePoller line splitting and decoding, levels | thread start |
| `shmem.py` | all classes and functions | reference counting of segments by the operating system beyond link/unlink |
| `util.py` | kill_procs, find_procs, list of processes, netstat parsing, ProcessCleaner, `check_tcp_port` | Windows branches |
| `qt_poll_thread.py`, `qt_server.py` | relay between threads, closing, requests after closing | Qt event loop itself (a queue) |
| `qt_util.py` | choice of the library, filling of the namespace | identity of the namespace object, what else the modules define, aliases |
| `log/logviewer.py`, `qt.py`, `processspawner.py`, `teleprox/__init__.py` | QtLogHandler.handle | GUI and re-exports |

## Library behaviour assumed

What the code gets from libraries is part of the models, and so of what is trusted.

* CPython: dict order, `list.sort` stability, `id()` unique among live objects only,
  immediate collection when the last reference goes (reference counting), `int()` on
  strings, `str.partition`, `bytes.decode`, slicing, default arguments; `threading.Lock`
  is a lock; thread idents may be reused after a thread ended; operators fall back to the
  other operand on `NotImplemented`; iteration by `__getitem__` ends at `IndexError` only.
* `concurrent.futures.Future`: `set_result`/`set_exception` on a finished or cancelled
  future raises `InvalidStateError`.
* zmq: messages between one DEALER and the ROUTER keep their order; a DEALER's `send`
  blocks rather than loses; the ROUTER drops messages to identities that are unknown or
  whose queue is full (parameter `cap`); the ROUTER may take waiting messages of
  different clients in any order; `poll` wakes up at a message or at its timeout; PUSH/PULL keep order.
* msgpack (1.x, `strict_types`, `use_bin_type`, `raw=False`, `strict_map_key=True`): which
  exact types it packs, integer range, nesting limit 511, when `default` and `object_hook`
  are called.  json: accepted types, key conversion, recursion limit (parameter).
* numpy: strided views, contiguity flag, `tobytes`/`frombuffer` in C order; dtype strings
  are an environment function.
* `datetime`: glibc `strftime` (no padding of years), CPython `_strptime` regular
  expressions with backtracking; ASCII digits only.
* base64: CPython's binascii algorithms, transcribed.
* argparse of CPython 3.11: option recognition, negative numbers, `--x=y`, prefixes.
* logging: `handle`, levels, `makeLogRecord`; `msg % args` is abstract.
* Qt: a queued signal is delivered once, in order, in the receiver's thread while its loop
  runs.
* `getattr` on remote objects is a partial function without side effects.
* Times are integers (rationals for C51) on a clock that does not go back.

## Findings

The violations of the English properties found while modelling, each with a theorem
(`_refuted`), are the rows above with `REFUTED`.

## Mutation tests

`seeded/LOG.jsonl` has one line per attempt.  In a scratch copy outside `/verif` a model
definition is edited as a realistic bug would be.  Then the statements of the theorems the
bug should falsify are taken verbatim from the Props file and their *negation* is proved
against the edited Model and Spec files, without the Proofs files and with nothing
admitted.  Fields:

* `theorems_failed`: theorems whose negation was proved for the edited model.  This is the
  strong evidence: the statement, not only its proof script, notices the bug;
* `proofs_broken`: theorems whose proofs no longer went through (weaker: proofs may break
  although the statement still holds);
* `not_refuted`: the negation was not proved in this attempt; either the statement does
  not notice the bug (then it was tightened, see `theorems_tightened` and the next attempt)
  or no proof of the negation was found;
* `theorems_tightened`: statements changed because of this attempt.

The most common weakness found was a statement that used a helper function of the model
itself, so that an edit changed both sides.  Statements were then rewritten with words of
the Spec files only.

## Trusted base

* The kernel of Coq 8.16.1 (`coqc`, including its virtual machine for `vm_compute`).
* The reading of the Python code recorded in the citations, and the library behaviour
  listed above.
* Axioms: none of our own, and none of the standard library is used by any theorem.
  `Print Assumptions` says `Closed under the global context` for each of the 400 theorems of
  the properties, listed below.
* The standard library files that are loaded define these axioms of
  `Coq.ssr.ssrunder` (through `ssreflect`/`Lia` imports), which no theorem uses:
  `Under_rel.Over_rel`, `Under_rel.Under_rel_from_rel`, `Under_rel.over_rel`,
  `Under_rel.over_rel_done`, `Under_rel.Under_rel`, `Under_rel.Under_relE`,
  `Under_rel.under_rel_done`.
* No functors, module types, plugins, or switched-off kernel checks.

### Print Assumptions: `Closed under the global context`

* ObjTableProps: `C01_use_resolves_iff_undeleted`, `C01_undeleted_proxy_resolves_to_its_object`, `C02_retained_iff_undeleted_proxy`, `C02_object_of_undeleted_proxy_is_alive`, `C02_keyerror_for_ever_after_last_delete`, `C03_same_id_same_object`, `C03_same_object_same_id`, `C03_undeleted_proxies_of_one_object_share_the_id`, `C04_reference_ids_unique`, `C05_delete_undeleted_succeeds`, `C05_delete_other_is_keyerror_and_changes_nothing`, `C05_delete_leaves_other_proxies`, `C06_deleted_proxy_unusable_refuted`, `C06_deleted_proxy_usable_iff_another_undeleted_partial`
* DateTimeProps: `C10_naive_datetime_roundtrip_iff`, `C10_date_roundtrip_iff`, `C59_early_years_refuted`, `C59_aware_datetime_loses_offset_refuted`
* NdArrayProps: `C11_msgpack_array_roundtrip`, `C11_json_array_roundtrip`, `C11_base64_roundtrip`, `C48_shared_elements`, `C48_new_arrays_are_shared`, `C60_offset_not_sent_refuted`, `C60_reloaded_array_starts_at_block_start_partial`
* SerProps: `C08_msgpack_roundtrip`, `C08_deeper_values_are_refused`, `C09_json_normal_form`, `C09_json_normal_values_unchanged`, `C12_dicts_arrive`, `C13_objects_arrive_as_proxies`, `C13_proxies_come_home_as_objects`, `C13_json_objects_arrive_as_proxies`, `C13_json_proxies_come_home_as_objects`, `C57_complex_scalar_refuted`, `C57_real_scalars_arrive_partial`, `C58_tuple_subclass_loses_type_refuted`, `C58_pickled_subclasses_keep_type_partial`, `C61_reserved_key_refuted`, `C61_reserved_key_never_arrives_partial`, `C61_reserved_key_runs_pickle_refuted`
* LifeProps: `C102_released_only_on_request`, `C102_proxies_last_until_deleted`, `C102_result_proxy_lasts_until_deleted`, `C102_delete_request_releases`
* RpcProps: `C16_reply_matches_request`, `C17_executed_in_order_once`, `C18_answered_requests_complete`, `C18_everything_can_be_finished`, `C18_at_most_one_reply`, `C18_no_reply_to_off`, `C19_failure_is_reported`, `C19_failed_action_changes_nothing`, `C19_only_close_stops_the_server`, `C20_unsupported_serializer_kills_server_refuted`, `C20_unsupported_serializer_partial`, `C22_closing_tells_every_client_once`, `C24_closer_never_learns_refuted`, `C24_closer_learns_partial`, `C24_disconnected_only_after_close_partial`, `C26_name_is_latest_assignment`, `C26_reading_gives_latest`, `C26_setitem_arrives`, `C26_getitem_arrives`, `C32_undecodable_reply_leaves_request_pending_refuted`, `C32_undecodable_reply_changes_nothing_partial`
* ClientProps: `C14_unserializable_argument_rejected`, `C21_outcome_is_final`, `C21_completed_is_not_pending`, `C21_stray_reply_ignored`, `C21_stray_result_ignored`, `C23_disconnect_fails_everything`, `C23_notice_fails_everything`, `C30_framing_lossless`, `C30_message_carries_request`, `C30_request_arrives`, `C31_same_named_children_collide_refuted`, `C31_default_names_unique_partial`, `C31_distinct_names_unique_partial`
* ApiProps: `C07_chain_is_attribute_access`, `C07_get_obj_on_chain`, `C07_meaning_unique`, `C15_proxy_requested_or_needed`, `C15_value_otherwise`, `C55_import_dotted_name`, `C62_default_arguments_fail_refuted`, `C63_call_invokes_object_with_arguments`, `C64_value_of_unserializable_is_proxy_refuted`
* WaitProps: `C25_timeout_window`, `C25_call_does_not_outlast_timeout`, `C25_never_stuck`, `C25_no_timeout_without_limit`, `C25_returns_the_outcome`, `C25_completed_future_returned`, `C25_next_reply_returned`, `C65_zero_timeout_ignores_waiting_result_refuted`
* ReentrantProps: `C27_never_deadlocks`, `C27_every_schedule_ends`, `C27_right_results`, `C27_replies_once_and_right`
* RegistryProps: `C28_get_client`, `C28_create`, `C28_construction_ends`, `C28_close_possible`, `C28_same_client`, `C28_no_trace`, `C29_get_server`, `C29_never_replaced`, `C29_second_server_refused`, `C29_second_thread_refused`, `C29_unregister_exact`, `C29_one_thread_partial`, `C29_one_thread_refuted`, `C66_own_client_partial`, `C66_own_client_refuted`, `C67_constructor_failure_leaves_server_refuted`, `C108_closed_client_refuted`, `C108_disconnected_client_refuted`, `C108_not_closed_partial`, `C109_other_client_forgotten_refuted`, `C109_close_own_partial`
* ProxyProps: `C33_equal_proxies_partial`, `C33_same_object_is_equal`, `C33_never_unequal_locally`, `C33_attribute_equals_owner_refuted`, `C34_operator_calls_method_partial`, `C34_reflected_xor_refuted`, `C35_unknown_option_changes_nothing`, `C35_known_options_are_set`, `C35_attributes_inherit_options`, `C35_options_do_not_change_the_object`, `C36_released_only_when_gone_partial`, `C36_collected_means_released`, `C36_forgotten_means_collected`, `C36_collected_iff_unreachable`, `C36_attribute_releases_owner_refuted`, `C37_copy_sends_nothing_partial`, `C37_copy_of_attribute_has_effects_refuted`, `C68_none_is_not_default_refuted`, `C69_documented_option_refused_refuted`, `C70_call_options`, `C71_iteration_does_not_end_refuted`, `C72_not_implemented_is_a_result_refuted`, `C73_truth_of_proxy_refuted`, `C103_deferred_access`, `C103_immediate_access_partial`, `C103_options_not_applied_refuted`, `C125_refused_not_sent_partial`, `C125_refused_after_sending_refuted`
* TimerProps: `C38_calls_are_spaced_partial`, `C38_every_call_is_decided`, `C38_calls_can_coincide_refuted`, `C39_at_most_limit`, `C40_at_most_one_call_after_stop_partial`, `C40_no_call_after_stop_partial`, `C40_started_timer_calls_partial`, `C40_gets_there`, `C40_call_after_stop_refuted`, `C40_start_without_effect_refuted`, `C74_limit_zero_calls_refuted`, `C75_exactly_limit_calls`, `C75_exactly_limit_calls_again`, `C76_start_ends_running_timer_refuted`, `C77_no_restart_refuted`, `C124_no_call_after_exception`, `C124_exception_ends_thread`, `C124_ended_is_not_running`
* TimerSrvProps: `C128_executed_in_order`, `C128_one_after_another`, `C128_spaced_partial`, `C128_executions_coincide_refuted`, `C128_over_for_good`, `C128_busy_server_ends_it_refuted`, `C128_given_up_late_partial`, `C128_limit`, `C128_never_more`, `C128_failing_callback_ends_it`
* LogHandlerProps: `C41_sorted_by_creation`, `C41_old_records_get_written`, `C41_ties_in_order`, `C42_every_record_once`, `C42_all_written_at_exit_partial`, `C42_lost_at_exit_refuted`, `C78_level_not_written_refuted`, `C79_unsorted_at_exit_refuted`
* LogFwdProps: `C43_sent_in_order`, `C43_none_missing_partial`, `C43_all_sent_partial`, `C43_bad_record_stops_forwarding_refuted`, `C43_close_drops_records_refuted`, `C44_level_filter`, `C44_end_to_end`, `C44_bad_message_stops_server_refuted`, `C80_reconnect_can_kill_refuted`, `C80_reconnect_between_records_partial`, `C81_text_survives`, `C82_process_and_thread_partial`, `C82_host_shown_is_local_refuted`, `C83_second_hop_renames_refuted`
* PipeProps: `C45_lines_become_messages_partial`, `C45_lines_first`, `C45_last_character_lost_refuted`, `C84_bad_bytes_end_capture_refuted`, `C85_levels`, `C85_stdout_dropped`
* ShmemProps: `C49_close_all_partial`, `C49_close_flag_ignored_refuted`, `C86_receiver_destroys_refuted`, `C87_pickle_same_array_partial`, `C87_made_here_start_at_0`, `C87_offset_lost_refuted`, `C88_copy_contents`, `C88_zeros_contents`, `C89_shapes_that_work_partial`, `C89_scalar_and_empty_refuted`
* UtilProps: `C50_kills_only_prefixed_partial`, `C50_search_ignored_refuted`, `C56_reports_alive`, `C56_reports_iff_alive`, `C56_none_left`, `C56_exception_passed_on`, `C90_default_prefix_fails_refuted`, `C91_find_exact_partial`, `C91_header_breaks_refuted`, `C92_netstat_linux_fails_refuted`, `C122_kills_all_partial`, `C122_rest_left_alive_refuted`, `C123_dead_or_reported`
* ClockProps: `C51_clock_offset`, `C51_bound_is_reached`
* QtRelayProps: `C52_order_and_no_loss`, `C52_progress`, `C53_never_stops_refuted`, `C93_reply_lost_at_exit_refuted`, `C94_malformed_message_stops_server_refuted`
* QtUtilProps: `C54_uses_imported_before`, `C54_uses_imported`, `C54_first_importable`, `C54_none_importable`, `C54_same_ever_after`, `C95_import_after_failure_ignored_refuted`, `C96_incomplete_namespace_refuted`
* ConnProps: `C104_true_only_if_closed`, `C104_running_server_false`, `C104_goodbye_noticed`, `C104_false_delivers_replies`, `C104_true_for_ever`, `C104_asking_only_delivers`, `C105_without_asking_only_if_closed_partial`, `C105_asks_the_server`, `C105_known_to_have_closed`, `C105_answer_true_means_closed_partial`, `C105_closed_client_refuted`, `C106_never_done_refuted`, `C106_done_when_delivered_partial`, `C106_done_after_disconnected_partial`
* EnsureProps: `C107_timeout_respected`, `C107_quick_server_connects_partial`, `C107_slow_server_refuted`, `C107_late_answers_never_count`
* ProcessProps: `C46_config_recovered_partial`, `C46_level_dropped_refuted`, `C47_no_child_left_partial`, `C47_error_not_reported_refuted`, `C97_dash_name_refuted`, `C98_str_log_address_refuted`, `C98_bytes_address_refuted`, `C99_child_left_running_refuted`, `C100_started`, `C101_shell_partial`, `C101_shell_blank_refuted`
* ChildProps: `C110_wait_tells_the_truth_partial`, `C110_gives_up_on_running_processes_only`, `C110_ends_in_time`, `C110_returns_after_the_exit`, `C110_open_pipe_refuted`, `C110_hangs_refuted`, `C111_polled_while_running_partial`, `C111_waited_output_lost_refuted`, `C112_stopped_means_exited`, `C112_takes_twice_as_long_refuted`
* KillProps: `C113_child_kills_its_own_partial`, `C113_child_is_killed_partial`, `C113_daemon_kills_whatever_refuted`
* LogTreeProps: `C114_like_local_partial`, `C114_handlers_passed_over_refuted`, `C114_own_level_counts_refuted`, `C115_written_once_partial`, `C115_written_again_refuted`, `C116_reported_once_partial`, `C116_vanishes_refuted`, `C116_exit_reported_refuted`, `C117_sent_once_partial`, `C117_raises_refuted`
* LocalProps: `C118_waiting_client_serves_partial`, `C118_later_server_refuted`, `C119_close_closes_partial`, `C119_never_run_refuted`, `C119_again_refuted`, `C127_server_of_the_thread_partial`, `C127_start_refused_partial`, `C127_closed_server_refuted`
* QtCloseProps: `C120_close_is_told_partial`, `C120_goes_on_refuted`, `C120_told_again_refuted`
* AddrProps: `C121_reports_partial`, `C121_no_address_partial`, `C121_client_refused_partial`, `C121_big_port_refuted`, `C121_unknown_host_refuted`
* LogNetProps: `C126_received_once_partial`, `C126_forwarding_ends_partial`, `C126_passed_on`, `C126_passed_on_again`, `C126_own_server_loops_refuted`
* KeyProps: `C129_text_keys_partial`, `C129_other_keys_refuted`, `C129_result_lost_refuted`
* PxOptProps: `C130_received_options_partial`, `C130_own_object_partial`, `C130_unknown_default_refuted`, `C130_options_lost_refuted`
* PxThreadProps: `C131_own_client_partial`, `C131_operators_own_client`, `C131_operators_find_open_client`, `C131_foreign_client_refuted`, `C131_closed_client_refuted`
* InplProps: `C132_like_object_partial`, `C132_modulo_partial`, `C132_becomes_copy_refuted`, `C132_no_fallback_refuted`, `C132_not_implemented_refuted`, `C132_modulo_refuted`
* SyncOpProps: `C133_condition_partial`, `C133_length_partial`, `C133_always_true_refuted`, `C133_always_false_refuted`, `C133_condition_by_proxy_refuted`, `C133_no_length_refuted`, `C133_endless_loop_refuted`
* FutProps: `C134_callback_called_partial`, `C134_callback_not_more`, `C134_callback_sees_outcome`, `C134_callback_lost_refuted`, `C134_exception_done_partial`, `C134_exception_waits_for_ever_refuted`
* ReprProps: `C136_contacts_nobody`, `C136_safe_same_text`, `C136_text_identifies`, `C136_unsafe_str_partial`, `C136_unsafe_repr_partial`, `C136_unsafe_str_refuted`, `C136_unsafe_repr_refuted`
* LookupProps: `C135_same_method_partial`, `C135_missing_partial`, `C135_own_attribute_refuted`, `C135_getattr_asked_refuted`
* LogArgProps: `C137_says_what_was_logged_partial`, `C137_shows_later_value_refuted`
* TnameProps: `C138_own_name_partial`, `C138_name_of_ended_thread_refuted`, `C138_later_name_refuted`
* FilterProps: `C139_obeyed_partial`, `C139_none_missed_partial`, `C139_levels_partial`, `C139_filters_ignored_refuted`
* IdLenProps: `C140_short_names_partial`, `C140_long_names_refuted`, `C140_generations_refuted`
* RedirProps: `C141_conflicts_refused_partial`, `C141_as_asked_partial`, `C141_daemon_1_refuted`, `C141_log_stdio_1_refuted`, `C141_stdin_0_refuted`
* ErrTextProps: `C142_text_says_it`, `C142_text_keeps_all`, `C142_type_str`, `C142_answered_partial`, `C142_surrogate_ends_server_refuted`
* AtExitProps: `C143_all_asked`, `C143_latest_first`, `C143_cooperative_ended_partial`, `C143_left_running_refuted`
* SetAddrProps: `C144_own_address`, `C144_set_address`, `C144_no_address`, `C144_sent_to_last_partial`, `C144_nothing_before_partial`, `C144_failed_attempt_refuted`, `C144_kept_for_ever_refuted`
* LogStopProps: `C145_in_order`, `C145_all_passed_partial`, `C145_at_most_one_more`, `C145_finishes_partial`, `C145_waiting_dropped_refuted`, `C145_junk_ends_it_refuted`
* CondaProps: `C146_ended_partial`, `C146_poll_partial`, `C146_stop_partial`, `C146_conda_survives_refuted`
