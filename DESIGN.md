# Formal model of SIL Kit: design

## Approach

The code in `/repo/SilKit/source` (cited below as `S/`) is modelled by hand as total, computable
Gallina functions, one definition per C++ function, each with a comment citing file and lines.
The code is never run; the tie between model and code is the reading of the code.

Files in `rocq/theories` come in groups per topic `X`:

* `XModel.v`  – definitions only (model of the code);
* `XSpec.v`   – small independent specification vocabulary (only where it is not plain Coq);
* `XProofs.v` – lemmas;
* `XProps.v`  – only property theorems, closed with `exact`, each followed by `Print Assumptions`,
  with an `Example` next to it showing a concrete, non-trivial case meeting the hypotheses.

Theorem names start with the property id (`C07_...`). Suffix `_partial`: only a part of the English
property is proved (the note says what is missing). Suffix `_refuted`: the faithful model violates
the property; the theorem exhibits a concrete witness (a finding).

Undefined behaviour of C++ (reads outside of arrays, dereferencing `end()`) is a distinct outcome in
the models; exceptions are another.

## Plan per property

| id | what is modelled | how it is proved |
|----|------------------|------------------|
| C01 | `MessageBuffer` `<<`/`>>` on a byte list with read position | codec pairs: round-trip law with arbitrary suffix, closed under nesting, by induction on lists |
| C02 | all `*Serdes.cpp` field orders as compositions of C01 codecs over records | composition of round-trip laws, per message type |
| C03 | the same decoders on arbitrary bytes; `PeekRegistryMessageHeader` with UB outcome | decoder only returns a suffix of the input (no over-read); refutation for the peek |
| C04 | decoders with `RemainingBytesLeft` tests | round trip of truncated encodings |
| C05 | 3.0 serdes and dispatch by version | round-trip up to the fields 3.0 does not carry |
| C06 | `VAsioPeer` receive loop over the ring buffer | refinement to an abstract parser of the whole byte stream; induction on chunk list |
| C07 | `RingBuffer` | abstraction function to list of bytes; every op commutes; invariant |
| C08 | same as C06 | stream with corrupt prefix |
| C09 | `VAsioPeer` send queue, aggregation, flush, partial writes | invariant: delivered ++ in flight = sent, per class; refutation across classes |
| C10 | `MatchLabels` | equivalence with a declarative predicate |
| C11–C13 | `SpecificDiscoveryStore` with its clusters and label maps | invariant over histories: each cluster contains only announced services; refutations for completeness and once |
| C14 | `ServiceDiscovery` | invariant over histories; alternation |
| C15 | `SynchronizedHandlers` | invariant over histories |
| C16, C17 | `SystemStateTracker`, `SystemMonitor` | case analysis over states, induction over histories |
| C18–C20 | `LifecycleStates`, `LifecycleManagement`, `LifecycleService` | transition relation, induction over event lists; refutation for Shutdown |
| C21, C25, C26 | `TimeConfiguration`, `TimeSyncService` of one participant | invariant over event lists |
| C22–C24 | N participants with per-link FIFO channels | distributed inductive invariant; progress by minimal time; refutation for hop-on |
| C27 | `WatchDog` | induction over polls |
| C28, C29 | `RequestReplyService`, `ParticipantReplies` | invariant, refutations |
| C30–C32 | `RpcClient`, `RpcServer`, `RpcServerInternal` | counting invariants over histories; refutation (UB on time-out) |
| C33, C34 | `SilKitLink`, `VAsioTransmitter`, `DataSubscriber` | histories, per-receiver logs |
| C35 | `ConnectKnownParticipants` | invariant over event lists |
| C36 | `VAsioRegistry` | invariant over histories |
| C37, C46, C47 | `Uri`, `Uuid`, `StringHelpers` | string lemmas: parse∘print, injectivity |
| C38 | `TransformAcceptorUris` | case analysis + set lemmas |
| C39, C40 | CAN / Ethernet controllers with trivial behaviour | per-call characterisation, induction over histories |
| C41–C43 | LIN controllers with trivial behaviour | counting argument; refutations |
| C44 | `Flexray/Validation.cpp` | equivalence with a table of ranges |
| C45 | `ReplayScheduler::ReplayMessages` | induction over steps |
| C48 | `config/Validation.cpp` | equivalence with declarative predicate |
| C49 | `PcapSink`/`PcapReader` | round trip, prefix under truncation |
| C50 | `LockedQueue` | induction over interleavings |
| C51 | aggregation buffer and flush timer of `VAsioPeer` | invariant over events; bound under the timer discipline; refutation: the timer is not re-armed |
| C52 | end of connection in `VAsioPeer` | induction over events: one shutdown notice, nothing delivered afterwards |
| C53 | the key by which services are identified (`ServiceDescriptor`) | key equality characterised; refutation: keys of different networks collide |
| C54 | `StartLifecycle` and its guards | induction over calls; refutation for the second start |
| C55 | `TimeProvider` and its handlers | invariant over configurations and ticks; refutations |
| C56 | `RegisterSilKitService`, acknowledges, completion handlers | interleavings of user threads and the I/O thread as lists of atomic actions; invariants |
| C57 | messages on `SilKitLink`s, names of the serializers | injectivity of the name of a link; refutation for LIN/FlexRay |
| C58 | `FlexrayController` and its simulator | induction over histories |
| C59 | include files: `ParticipantConfigurationFromXImpl.cpp` merging | declarative merge, induction over the tree of files; refutations |
| C60 | dashboard: event queue to REST calls | induction over histories, refinement to the expected calls; refutations |
| C61 | `ConnectPeer` with connectors as environment | invariant over completions; stable sorting; refutations for synchronous failures |
| C62 | `NetworkSimulatorInternal`, `SimulatedNetworkInternal`, `SimulatedNetworkRouter`, the user as a function from descriptors to controllers | refinement to the history of controllers present; conditions on the log by induction; refutations |
| C63 | controller side: choice of behaviour, `AllowReception`; `CanEventProducer` with `CanController::ReceiveMsg` for states | fold over discoveries; fold over produced states; refutations |
| C64 | LIN controller (model of C41–C43); what it is configured with as a fold over the history of its functions | refinement of the response table to that fold; case analysis of reception |
| C65 | ProxyModel.v: VAsioProxyPeer, the peers, names and proxy registrations of VAsioConnection; network of one registry and any number of participants with FIFO connections | invariant relating what was sent, what is under way in the four queues of a pair and what was received; each step of participants and registry keeps it |
| C66 | one node of the same model with arbitrary input; use of a deleted peer is an outcome | invariant of all histories, structural induction on the message, fuel shown sufficient; refutations by computation and for every state in general |
| C67 | `YamlReader`, `YamlWriter` for all records, on trees of nodes (`YamlModel`); the scanner for integers of rapidyaml | structural round-trip lemma per record; the loss is a function of its own (`kept`), the configurations without loss a predicate |
| C68 | `YamlValidator` with its stack (`YamlCheckModel`); the table of known paths is generated from the source | the visitor refines a declarative report over places in the tree; pruned and full documents are read alike; everything written is clean |
| C69 | the labels' readers and writers, conversions to and from the API | round trip by induction on the list |
| C70 | `read` and `read` through `overflow_checked` for all integer types | exact result for every integer by arithmetic; projection of a successful read |
| C71 | the readers of `YamlModel`; documents are followed by paths (`walk`) | relation between document and configuration written per record with keys and defaults, established for each reader |
| C72 | `MetricsManager`: named metrics, the clock, `SubmitUpdates` statement by statement with updates of other threads in between | invariant over histories (stamps, values, marks since the last submission), invariant of the loop; refutations by witness |
| C73 | `MetricsProcessor` with any number of threads, mutex and flag; sinks | invariant over schedules: told + cached + still to come = passed, per thread, origin and sink; progress |
| C74 | `MetricsJsonSink`, `FormatValue` | readers written independently; reading back by induction |
| C75 | `ValidateAndSanitizeParticipantConfig`, `Participant`: joining, all Create functions, numbering, registration and announcement, merging with the configuration | exceptions as results of a state monad; every call has one of four shapes; invariant over sequences of calls |
| C76 | `Logger` (sinks, filters, remote logging, received messages), `LoggerMessage`, `TraceMessageCommon`, texts and Json lines; spdlog as environment | per-sink projection of the events of a run = the expected lines, by induction over the calls; a reader of the file; composed with the round trip of `LogMsg` |
| C77 | catch clauses of the C API, texts of return codes, `ThrowOnError`, struct identifiers, the parameter checks of all 145 functions (table extracted from the source by `tools/capi_extract.py`), `Produce` functions of the network simulation | case analysis over classes; bits of identifiers; a check of the table (computed) with a proof that it is enough for all arguments |
| C78 | the conversions between 64 pairs of C++ and C structs, statement by statement (extracted table): assignments with casts, ranges of bytes, guards on versions, initial values | each pair is run once on symbols (computed); a proof that the symbols stand for every run; lists by induction |
| C79 | maps of handler data of the `Hourglass` classes, registered contexts | invariant over all sequences: registered handlers are owned under their own id |
| C80 | `CommandlineParser`: arguments, `ParseArguments` | items of a command line as specification; soundness, completeness and values by induction over items |
| C81 | main functions of registry, system controller, system monitor; the controller's handlers and signal handler; status file and generated configuration of the registry | equations for the main functions from C80; invariant over all sequences of connects; case analysis; C68 for what is generated |
| C82 | `SilKitToOatppMapper` (updates and metrics), the dashboard's worker as far as exceptions of the mapper go | lists of DTOs as functions of names: invariant over the update; what is shown of a descriptor as an inductive relation; C75 and C69 for the services of participants |
| C83 | `SilKitExtensions::LoadExtension`, `DllCache`, `SilKitExtensionLoader` on POSIX | the places that are searched as an inductive relation of the hints, independent of the search; load characterised by the first compatible place; invariants (balance of created, held, released) over all calls |
| C84 | `AsioAcceptor`, `VAsioConnection` as its listener, with asio as environment | trace of calls and answers; status of every acceptor as a function of the results handled, by induction over all operations; a decreasing weight for shutdown |
| C85 | `SignalHandler.cpp` (UNIX), `MetricsTimerThread` | interleaving of single accesses; invariant over log, monitors and the main thread's remaining steps; rank of a worker's remaining steps; traces of the timer |
| C86 | `string_utils.hpp` of the services, `PrintableHexString.hpp`, texts of wire messages | texts as functions to bytes; injectivity by splitting at characters that the parts cannot contain, decimals read back, joins of parts without the separator |
| C87 | `AsioConnector.hpp` | transition system of members, completions and handlers; invariants over phase, operations, sockets and log |
| C88 | `RemoteConnectionManager.cpp`, `ConnectKnownParticipants.cpp`, `VAsioConnection.cpp` (requests, proxies, announcements) | transition system of three processes with FIFO queues; invariants over what is under way, a decreasing measure, an order of events |
| C89 | `VAsioCapabilities.cpp`, `ParseCapabilities`, `MakeCapabilitiesFromConfiguration` | functions on lists of names, texts and trees; round trip through a reader of JSON stated independently |
| C90 | `ReceiveRegistryMessage`, the functions for announcements, replies and known participants, `SerializedMessage(version, message)`, `SendKnownParticipants` | a handshake of two nodes on the bytes of the messages (encodings of C02–C05), with the version each side keeps for its peer; computed for all versions, messages and lists; that the connection of an unsupported node stalls follows from the receive loop of C06 |
| C91 | `PeerMetrics.cpp` and its use in `VAsioPeer.cpp`; when `VAsioConnection` initialises it | the sending half of C09 with the counters; induction over histories; both ends joined through C06 and C09 |

## Trusted base

* Coq 8.16.1's kernel (and `coqchk` for re-checking); its standard library.
* What `Print Assumptions` lists under each theorem: it is "Closed under the global context" for every theorem of
  every `*Props.v`. No axiom is declared in the development. Loading `lia` with the `Zify` extensions brings the
  parameters of the module `Coq.ssr.ssrunder.Under_rel` of the standard library into the environment; no theorem
  depends on them.
* The faithfulness of the hand-written models, see the citations at each definition. Nothing is extracted from the
  C++ text mechanically.

### What is modelled

In terms of `/repo/SilKit/source`:

* `core/internal/MessageBuffer.hpp`, all `*Serdes.cpp` of `services` and `core`, `core/vasio/VAsioSerdes*.cpp`
* `core/vasio`: `RingBuffer`, `VAsioPeer` (receiving, sending, aggregation, shutdown), `VAsioRegistry`,
  `ConnectKnownParticipants`, `RemoteConnectionManager`, `ConnectPeer`, `TransformAcceptorUris`, `SilKitLink`, `VAsioTransmitter`, the
  subscription handshake of `VAsioConnection`, its acceptors (`AsioAcceptor`)
* `core/service`: `SpecificDiscoveryStore`, `ServiceDiscovery`; `core/requests`: `RequestReplyService`,
  `ParticipantReplies`
* `services/orchestration`: `SystemStateTracker`, `SystemMonitor`, `LifecycleStates/-Management/-Service`,
  `TimeSyncService`, `TimeConfiguration`, `TimeProvider`, `WatchDog`
* `services/pubsub`, `services/rpc`, `services/can`, `services/ethernet`, `services/lin` with trivial simulation,
  `services/flexray` (controller, validation)
* `config`: reader, writer, validator, validation, includes and merging; `dashboard`: event queue, reporting and mapper; `tracing`: PCAP, replay
* `services/metrics`: manager, processor, sinks, timer thread; `core/participant`: creation of services and their configuration; `services/logging`
* `capi` and `include/silkit/detail/impl` (the `Hourglass`): checks of parameters, return codes, conversions of structs, handler data
* `Utilities`: `SilKitRegistry/Registry.cpp`, `SilKitSystemController`, `SilKitMonitor` until they run
* `extensions`: `SilKitExtensions`, `DllCache`, `SilKitExtensionLoader` (POSIX)
* `core/vasio/io`: `AsioConnector`; `core/vasio/VAsioCapabilities` (from the tree of the text on)
* `util`: `CommandlineParser`, `Uri`, `Uuid`, `StringHelpers`, `LabelMatching`, `SynchronizedHandlers`, `LockedQueue`, `SignalHandler` (UNIX)
* texts of values and messages: `string_utils.hpp` of the services, `PrintableHexString.hpp`, `wire/*` (not those of times, pointers and the remaining structs)

### What is not modelled

* asio, operating system sockets and timers, thread scheduling: environments with arbitrary behaviour, or
  interleavings of atomic actions where the property is about threads. Memory exhaustion and data races below the
  level of the named atomic actions are not modelled.
* The YAML parser and emitter (rapidyaml, except for its scanner of integers) and the JSON text of the dashboard's REST calls; configurations are modelled from the
  parsed tree on.
* spdlog and the text of simple log lines, the bandwidth statistics of peers and the text of floating-point numbers, the message conversion of the event producers in `experimental/netsim`, the rest of `experimental`, the demos, the Windows service, what the utilities print. Of the C API and the `Hourglass` C++ layer: what the functions do beyond checks, conversions, return codes and handler data; strings and lists of labels in structs; elements of lists that are null. The tables of the C API are extracted by a script from the text of the sources (regular expressions); that the script reads the sources right is not proved, its output was compared with them by eye.
* Detailed simulation behaviour of CAN, Ethernet, LIN (`SimBehaviorDetailed`) except where C39–C43 say so.
* Machine integers are modelled as `N`/`Z` with explicit wrap-around where the code can overflow and as unbounded
  numbers where the comment at the definition says so.

## Findings

Each is a theorem with suffix `_refuted` (named after its property), proved by a concrete execution of the model,
unless another theorem is named.

Wire format (C01–C05, C57)
* C02: time points are cut to microseconds. C03: six bytes make the registry header peek read outside the message.
* C05: an empty 3.0 reply leads to a read outside of the message; a failed 3.0 reply is decoded as success.
* C57: LIN and FlexRay `ControllerConfig` have serializers of the same name and are misread as one another.

Connections (C09, C33, C35, C36, C38, C51, C56, C61, C66)
* C66: after a proxied peer has left, the end of the connection it was reached through uses the deleted peer (always, on every
  node); a peer announcing itself under a second name leaves its first name pointing to the deleted peer; the end of a
  participant that never connected is reported with empty names; any peer can speak for any other one through a proxy
  message; the registry remembers whom a participant has sent to after it has left.
* C09: with aggregation, messages of other kinds overtake user data. C51: the flush timer is never re-armed after it
  expired with an empty buffer.
* C33: neither a second subscriber on a link nor a local one gets the last value of a publisher with history; participants with
  colliding ids end each other's deliveries.
* C35: `JoinSimulation` waits for ever for a peer that announced "connecting" and vanished; the listener may be called twice.
* C36: departure of a rejected duplicate makes the registry drop messages to the rightful holder of the name and announce
  its departure; before, it can send in its name; a peer announcing itself twice blocks a name for ever, and a
  deleted peer is used.
* C38: loopback and local-domain URIs are handed to participants on other hosts.
* C56: a completion handler is lost in a race; a handler is called while subscriptions are pending; overlapping
  synchronous registrations return early and fulfil a promise twice. Registering a synchronous service in an
  I/O-thread callback never returns.
* C61: a connector failing inside of `AsyncConnect` makes `ConnectPeer` report several times or use itself after its
  destruction; `Shutdown` only moves on to the next URI.

Discovery (C12, C13, C15, C53)
* C12, C13: handlers with optional labels miss services and get others twice. C15: a handler removing itself is
  undefined behaviour. C53: keys of services on different networks collide.

Orchestration (C16–C29, C54, C55)
* C16: an error is masked by another participant's shutdown; a missing required participant does not make the state
  Invalid; the result depends on the order of an unordered set. C17: a status Invalid throws out of the handler.
* C18: a stale completion leads out of Error. C19: an aborted start-up loses its future and is started again. C54: the guard against a
  second `StartLifecycle` is ineffective.
* C21: negative step durations are accepted. C22: hop-on ahead of a slower participant; `Continue` during an
  asynchronous step announces the next one early. C24: reducing the step size counts as hop-on.
* C27: the watchdog reports a short step if preempted, and misses overlong ones.
* C28: of two overlapping barriers one is dropped. C29: overlapping calls return twice.
* C55: time provider handlers never tick after reconfiguration or without configuration; adding one can deadlock.

RPC (C30–C32)
* C30: surplus overlapping responses use an invalid iterator; a departed server never completes the call.
* C31: the expiry of an answered call is undefined behaviour; varying step sizes report timeouts early; race between
  response and tick; a timeout without result handler throws and drops other timeouts.
* C32: results submitted after the handler returned use a freed handle; a second submission is undefined.

Bus services and network simulation (C39–C44, C58, C62, C63)
* C39: within a participant frames of one sender are reordered if a handler sends; a controller never started receives frames.
* C41: sleeping slaves answer; late joining masters miss changes of configuration; a response of unknown length is
  silently never answered. C42: ids from 64 on access memory outside of the table. C43: sleeping nodes transmit;
  `SendDynamicResponse` works on static controllers; slave-to-slave success is reported while asleep.
* C44: four node parameters are not validated. C58: a departed simulator stays in use.
* C62: discovered networks are counted by name only: of two simulated networks of different types with the same name one
  never gets its event producer; simulating a network twice throws but leaves a destroyed router registered; the
  departure of another simulator throws; a failed `Start` leaves a simulator that discovers nothing.
* C63: controllers ignore the type of a link: the simulator of a LIN network captures CAN controllers on the network of the same name; the
  departure of a second simulator ends the detailed mode; controllers still in trivial mode accept events for others;
  `CanEventProducer` keeps one state for all controllers, so a controller is told the error state of another.

Configuration, tracing, dashboard, text, metrics, participant, logging, C API, utilities (C37, C45, C47–C49, C59, C60, C67–C91)
* C37: an IPv6 address in brackets without port is cut at its last colon; ports may be negative or followed by garbage.
* C45: unordered recordings are replayed late; not relative to their start; PCAP messages are never "received".
* C47: control characters are not escaped for JSON; printable names are not injective; splitting at long separators.
* C48: loading does not validate. C59: the health-check comparison is inverted; conflicting services and transmit buffers
  are dropped silently; options may be set twice; metrics options get lost; includes deeper than 127 are
  ignored; the root file is read twice if included.
* C67: written and read again, a log file of simple format becomes one of Json format, enabled and disabled topics, replays
  without source and a lone update interval are lost, and a log file with an empty name makes the text unreadable; the
  registry's configuration cannot be written if metrics are configured; a map in place of a text is read as "".
* C68: an unknown element is ignored unless a list of values is below it; keys with slashes pass as paths and are not read;
  a duplicate is reported with the path of the map around.
* C69, C70: integers that are not checked wrap (label kinds, history, FlexRay), the least signed number and booleans above
  INT_MAX overflow (undefined).
* C49: nanosecond magic with microsecond timestamps; concurrent traces interleave; the version check accepts half-right
  versions; copied readers count wrongly.
* C60: simulations are reported as ended while participants are connected; later participants are not reported; failed
  creation is not repeated; events queued before destruction are dropped.
* C72: an update made while `SubmitUpdates` runs, after the metric was looked at, is lost, since the mark is set to the time at the
  end; likewise one whose clock value equals that mark; the time of a metric is stored before its value. `{"a/b"}` and
  `{"a", "b"}` are one metric. The mean of a statistic starts at zero and so can lie outside of the extrema.
* C74: string lists with control characters are not JSON, and with line breaks not on one line.
* C75: with a configured URI and none passed, the log says that another one than the passed is used; a configuration may have
  labels with equal keys, and which of them counts depends on `std::sort`; trace sinks of RPC clients and servers are read and
  validated but never used. An empty participant name is rejected although the configuration has one (proved as it is).
* C76: the participant's name is not escaped in Json lines; values of the key "Raw" are written unquoted; enabled and disabled
  topics do not apply to received messages; a text logged by the user arrives at other participants as "[User] [User] …"; sinks
  with level Off write messages with level Off; an unknown level ends in an exception, also if it arrives from another participant;
  traces show "{}" in place of the virtual time (`MessageTracing.hpp:53`); if the level is raised after the text was set the text may be
  empty (the one use in `TimeSyncService` is not affected, proved); log files of different participants can have the same name.
* C77: `DataPublisher_Create`, `DataSubscriber_Create`, `RpcServer_Create`, `RpcClient_Create` (null names in a specification),
  `DataSubscriber_Create` (null handler), `LinController_SetFrameResponse` (null frame) and `SetWorkflowConfiguration` (null list) follow
  null pointers. Nine struct parameters have no header check, e.g. of `EthernetController_SendFrame`. The header check accepts the
  header of any other struct. The `Produce` functions ignore the service in the header (a LIN frame response is taken as a CAN frame
  event) and succeed without doing anything for unknown data types. After an exception that is no `std::exception`
  `SilKit_GetLastErrorString` returns an earlier error.
* C78: the frame in a LIN frame status event has no header (`CapiLin.cpp`), the LIN frame header event has the identifier of the wakeup
  event, the FlexRay frame transmit event that of the frame event; the time of a `LinControllerStatusUpdate` is lost on the way to a
  network simulation; FlexRay node parameters of version 1 leave two members uninitialised and of versions above 2 all; a CAN
  acknowledge of version 1 leaves the id uninitialised; an update of a FlexRay buffer with valid but empty payload is a bad parameter;
  a payload not marked as valid is dropped.
* C79: `LinController::ExperimentalRemoveLinSlaveConfigurationHandler` erases from the wakeup handlers (use after free, and a leak);
  `TimeSyncService::ExperimentalRemoveOtherSimulationStepsCompletedHandler` erases nothing; `RpcServer::SetCallHandler` registers `this` as the
  context, which the next call takes for the handler data (`RpcServer.hpp:109-119`).
* C80: an option given an empty value has its default, as if it was not given; an option takes the next argument even if that is the
  name of another option; there is no `--`: participants whose names begin with a dash cannot be named; arguments declared after a list are never set.
* C81: `sil-kit-system-controller --log WARN A` passes the check of the level, which ignores case, and ends with -2 as the
  configuration is made by changing only the first letter. `sil-kit-monitor --loglevel Warning`, which its usage documents, ends with -2.
  The system controller looks for participants given twice only after it has joined. It never starts if its own name is among the required ones.
  If the dashboard cannot be created the registry runs without it, if it cannot be connected to the registry ends.
* C82: the mapper throws for a created service of an unknown `controller.type`, without one of its keys or with labels that cannot be read, and
  for a counter that is not a number. The exception ends the dashboard's worker (`DashboardInstance.cpp:113-269`): the whole update and everything after it, of
  all simulations, is not reported. Any participant can announce such a service. A slash in the name of a participant or simulation moves the
  parts of the names of its metrics. Simulated controllers are not reported.
* C83: libraries that are opened and then rejected are never closed (`C83_closed_refuted`, `C83_none_closed`): their static constructors have run by then. A compatible library that lacks `CreateExtension` or `ReleaseExtension` makes loading fail although a complete one comes later (`C83_found_refuted`). `std::filesystem::exists` throws for a directory that may not be read, and all directories are asked before the first library is opened: a complete library is then not loaded, and the exception is not an `ExtensionError` (`C83_unreadable_refuted`). If the constructor of an extension throws, `CreateExtension` returns null and `DllCache::Get` dereferences it (`C83_undefined_refuted`).
* C84: `VAsioConnection::OnAsyncAcceptSuccess` formats the remote endpoint for a log message before it accepts again. `remote_endpoint()` throws if the connection has been reset by then; the exception is logged by the thread, and the acceptor never accepts again although it is still announced (`C84_reset_refuted`, `C84_never_again`). One client that connects and resets, such as a port scanner, thereby stops a registry from accepting anyone on that acceptor. An accept that fails, e.g. for lack of file descriptors, removes the acceptor (`C84_failure_refuted`). `AsioAcceptor` does not cancel the timer of an accept that failed, so it ends a later one (`C84_stale_timer_refuted`).
* C85: `RegisterSignalHandler` constructs the new monitor before `unique_ptr::reset` destroys the old one, whose destructor sets SIGINT and SIGTERM back to their default actions. A second function therefore never receives a signal; the next one ends the process (`C85_second_registered` for all interleavings). Other timing: a signal that reached a function is lost, or handled as -1, if `ShutdownSignalHandler` follows at once (`C85_delivered_lost_refuted`, `C85_handled_number_refuted`), a second signal changes the number handled (`C85_first_signal_refuted`), a signal during registration is dropped (`C85_early_signal_refuted`). The destructor of `MetricsTimerThread` sets `_go` before `_done`, so that a timer never started may call back while it is destroyed (`C85_callback_only_if_started_refuted`).
- C86: a LIN frame with a checksum model above 2 (e.g. received from a participant of another version) cannot be shown: with level Trace an exception is thrown where the message is handled, without it the frame is handled. The same holds for the other enumerations without a text for unknown values. Unknown directions and the offset and repetition of a FlexRay buffer are sent to the log as raw (control) characters. The payload of a FlexRay frame is cut at half, as `payloadLength` counts words. The wake-up pulse shows nanoseconds as "ms". The CAN XL baud rate is missing.
- C87: `OnAsioAsyncConnectComplete` calls `socket.local_endpoint()` without an error code. If the connector was shut down or destroyed after the connection was made but before this handler runs, the socket is closed, the call throws out of the io_context, and the listener is never called.
- C88: the timer for an answer to a connect request only switches to the proxy; it does not revoke the request. If the target accepts the request late, the two participants are connected twice, the origin announces itself on both connections, both become receivers, and each message is delivered twice.
- C88: once CONNECTING was received there is no timer any more, and the joining thread waits with `future.get()`. If the target disappears then, it waits for ever. The same happens if the capabilities of the target cannot be parsed, since `TryProxyConnect` throws before the stage is reported.
- C89: `ToCapabilitiesString` quotes names with `std::quoted`, which leaves control characters as they are: the text is no JSON then. Without the assertions of rapidyaml a name that is a sequence or map becomes the empty name. A further member without a value (`{"name":"x","y":}`) makes the whole text unreadable although further members are meant to be ignored; by C88 a joining peer then hangs.
- C90: a node of an unsupported version is never told so: the peer's version is still 0.0, and the constructor of the failed reply reads its own headers again and throws for that version (`SerializedMessage.cpp` 129-132); the exception leaves the receiving function, so that the connection is not read any more (`C90_unsupported_refuted`). The same holds for every reply on a connection without a version (`C90_no_reply_without_version`).
- C90: a node of version 3.0 decodes the list of known participants before it sets the version of the connection, as a list of version 3.1. The first vector of the old format is always empty, so it knows nobody, whatever was sent (`C90_legacy_known_refuted`; `C90_legacy_registry_partial` is the handshake as a whole).
- C90: a node of version 3.0 that connects to a participant ignores the reply, for its missing preamble (`C90_legacy_participant_refuted`); if it is refused it reads eight bytes of a reply with four (`C90_legacy_refusal_refuted`).
- C90: the version in a reply is stored without a check (`C90_reply_version_refuted`).
- C91: `SendSilKitMsg` counts before it looks whether the peer is shutting down, so that messages are counted that are never sent (`C91_shutdown_refuted`). The registry sends the known participants before it initialises the metrics of the peer, the other node counts them: the two ends of a connection disagree by that message (`C91_known_participants_refuted`).

## Testing the theorems

`seeded/LOG.jsonl` records wrong models that were tried: the edit, the claim it breaks, the theorems (or the lemmas
they rest on) that failed, and the theorems that were tightened because they had still been provable.
