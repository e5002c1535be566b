{"id": "C01", "title": "Wire encoding of basic values is lossless", "statement": "Any value of a wire basic type (fixed-width integer, bool, enum, floating-point bit pattern, duration, string, byte vector, vector, fixed array, map with distinct keys, UUID, pointer token) that is written to a message buffer and then read back with the same type yields the identical value, consumes exactly the bytes that were written and leaves any bytes that follow untouched. Consequently any sequence of writes is read back as the same sequence.", "quantifier": "all values of every supported type (any length below 2^32), all nestings, all bytes following in the buffer", "why_tests_cant": "the value space is unbounded (strings, vectors, nested maps); tests sample a handful of values", "anchors": ["SilKit/source/core/internal/MessageBuffer.hpp: MessageBuffer::operator<<, operator>>"]}
{"id": "C02", "title": "Every wire message survives the network unchanged", "statement": "For every message type exchanged between participants (CAN, LIN, Ethernet, FlexRay, publish/subscribe, RPC, lifecycle/time-sync, discovery, request/reply, metrics, registry), decoding the bytes produced by encoding a message returns exactly that message.", "quantifier": "all messages of all wire message types, all field values", "why_tests_cant": "every field/every value combination; a swapped or dropped field may be invisible to tests whose fields are default or equal", "anchors": ["SilKit/source/services/can/CanSerdes.cpp", "SilKit/source/services/lin/LinSerdes.cpp", "SilKit/source/services/ethernet/EthernetSerdes.cpp", "SilKit/source/services/flexray/FlexraySerdes.cpp", "SilKit/source/services/pubsub/DataSerdes.cpp", "SilKit/source/services/rpc/RpcSerdes.cpp", "SilKit/source/services/orchestration/SyncSerdes.cpp", "SilKit/source/core/service/ServiceSerdes.cpp", "SilKit/source/core/requests/RequestReplySerdes.cpp", "SilKit/source/services/metrics/MetricsSerdes.cpp", "SilKit/source/core/vasio/VAsioSerdes.cpp"]}
{"id": "C03", "title": "Malformed bytes are rejected, never read past the end", "statement": "Decoding an arbitrary byte string as any message either yields a message or reports an error; it never reads a byte outside the received message and never consumes more bytes than were received. This includes the registry handshake header of messages of any length.", "quantifier": "all byte strings (any length, any content), all message types", "why_tests_cant": "the set of malformed inputs is infinite; memory over-reads are often silent in tests", "anchors": ["SilKit/source/core/internal/MessageBuffer.hpp: operator>>", "SilKit/source/core/vasio/VAsioSerdes.cpp: PeekRegistryMessageHeader", "SilKit/source/core/vasio/SerializedMessage.cpp: ReadNetworkHeaders"]}
{"id": "C04", "title": "Messages from older senders without trailing fields are accepted", "statement": "A message encoded by an older sender that lacks the optional trailing fields is decoded into the same leading fields with documented defaults for the missing ones, and a message with them is decoded in full.", "quantifier": "all messages of the types with optional trailing fields, with and without the trailing part", "why_tests_cant": "interplay of remaining-byte tests with every possible field content", "anchors": ["SilKit/source/services/lin/LinSerdes.cpp", "SilKit/source/services/flexray/FlexraySerdes.cpp", "SilKit/source/services/logging/LoggingSerdes.cpp", "SilKit/source/core/vasio/VAsioSerdes.cpp"]}
{"id": "C05", "title": "Protocol 3.0 peers interoperate in the registry handshake", "statement": "Announcements, announcement replies and known-participant lists encoded for protocol version 3.0 and decoded as 3.0 preserve participant name, id, and acceptor URIs (and subscribers); decoding dispatches on the version in the header, and every version other than 3.0 and 3.1 is rejected with an error rather than misinterpreted.", "quantifier": "all announcements/replies/known-participant lists and all header versions", "why_tests_cant": "all versions x all peer lists", "anchors": ["SilKit/source/core/vasio/VAsioSerdes.cpp", "SilKit/source/core/vasio/VAsioSerdes_Protocol30.cpp", "SilKit/source/core/internal/ProtocolVersion.hpp"]}
{"id": "C06", "title": "Stream framing: the receiver sees exactly the messages sent, in order", "statement": "However the transport splits or merges the byte stream, the receiving peer is handed exactly the sequence of messages the sending peer sent: none lost, duplicated, reordered, merged, split or altered.", "quantifier": "all finite sequences of messages (size 4 bytes to 1 GiB), all partitions of the byte stream into non-empty read chunks, all interleavings of reads and dispatches", "why_tests_cant": "the number of chunkings is exponential; boundary cases such as splits within the length prefix or at the ring-buffer wrap are rarely hit", "anchors": ["SilKit/source/core/vasio/VAsioPeer.cpp: ReadSomeAsync, DispatchBuffer", "SilKit/source/core/vasio/RingBuffer.cpp"]}
{"id": "C07", "title": "Receive ring buffer is a FIFO of bytes", "statement": "The receive buffer returns bytes in exactly the order they were received, over any history of partial writes, partial reads, peeks, wrap-arounds and capacity growth; peeking does not consume; a read larger than the content fails and changes nothing; growth preserves the content; the areas it offers for writing never overlap unread data.", "quantifier": "all capacities, all histories of operations", "why_tests_cant": "wrap-around combined with growth gives unboundedly many configurations", "anchors": ["SilKit/source/core/vasio/RingBuffer.hpp", "SilKit/source/core/vasio/RingBuffer.cpp"]}
{"id": "C08", "title": "A corrupt length prefix terminates the connection", "statement": "If the length prefix of the next message is zero or larger than 1 GiB the peer is shut down, messages before it have been delivered, and nothing after it is ever delivered on that connection.", "quantifier": "all message prefixes, all corrupt lengths, all following bytes and chunkings", "why_tests_cant": "must hold for all later bytes and chunkings", "anchors": ["SilKit/source/core/vasio/VAsioPeer.cpp: DispatchBuffer"]}
{"id": "C09", "title": "Sends on one connection arrive in call order", "statement": "Messages sent to the same peer arrive in the order of the send calls. With message aggregation enabled nothing is lost or duplicated, messages of the same aggregation class stay in order, and a time-step message is never delivered before user data sent earlier.", "quantifier": "all sequences of send calls of any kind and size, all flush timer firings, all partial socket writes", "why_tests_cant": "depends on interleaving of timer, size threshold and socket completion", "anchors": ["SilKit/source/core/vasio/VAsioPeer.cpp: SendSilKitMsg, Aggregate, Flush, StartAsyncWrite, WriteSomeAsync", "SilKit/source/core/vasio/AggregationMessageTraits.hpp"]}
{"id": "C10", "title": "Label matching is symmetric and follows the documented rules", "statement": "A publisher and subscriber (or RPC client and server) match by labels iff every mandatory label of either side is present with the same value on the other side, and every optional label of either side is either absent from or has the same value on the other side; the result does not depend on which side is asked nor on label order when keys are unique.", "quantifier": "all pairs of label lists", "why_tests_cant": "quadratic interplay of all label lists", "anchors": ["SilKit/source/util/LabelMatching.cpp: MatchLabels"]}
{"id": "C11", "title": "Discovery notifies only of matching services", "statement": "A subscriber/RPC server registered for a topic/function and label set is only ever notified of services with exactly that controller type and topic/function name and matching labels, whether they were announced before or after it registered.", "quantifier": "all histories of service announcements, removals and handler registrations with any labels", "why_tests_cant": "the index structure depends on the entire history", "anchors": ["SilKit/source/core/service/SpecificDiscoveryStore.cpp"]}
{"id": "C12", "title": "Discovery never misses a matching service", "statement": "Whenever a service is announced, every registered handler with same type and topic whose labels match is notified, and whenever a handler registers, it is notified of every matching service that is currently announced.", "quantifier": "all histories of service announcements, removals and handler registrations with any labels", "why_tests_cant": "the label index is history dependent; the failing histories need several differently labelled services", "anchors": ["SilKit/source/core/service/SpecificDiscoveryStore.cpp: CallHandlerOnHandlerRegistration, CallHandlersOnServiceChange, UpdateDiscoveryClusters"]}
{"id": "C13", "title": "Discovery notifies of each service once", "statement": "A handler is notified at most once of the creation of each announced service.", "quantifier": "all histories of service announcements and handler registrations with any labels", "why_tests_cant": "history-dependent index", "anchors": ["SilKit/source/core/service/SpecificDiscoveryStore.cpp"]}
{"id": "C14", "title": "Service announcements and removals are reported consistently", "statement": "For every service the sequence of discovery notifications seen by a handler alternates Created, Removed, Created, ...; a handler registered late first sees Created for exactly the services currently known; when a participant leaves, every of its known services is reported Removed exactly once and no service of other participants is affected.", "quantifier": "all histories of announcements (including repeated ones), removals, participant departures and handler registrations", "why_tests_cant": "unbounded histories with repeated and out-of-order announcements", "anchors": ["SilKit/source/core/service/ServiceDiscovery.cpp"]}
{"id": "C15", "title": "Handler registries", "statement": "Handlers registered with a service get distinct ids that are never reused, are invoked in registration order exactly once per event, and are never invoked after their removal; removing an unknown id reports failure and changes nothing.", "quantifier": "all histories of add, remove and event", "why_tests_cant": "unbounded histories", "anchors": ["SilKit/source/util/SynchronizedHandlers.hpp"]}
{"id": "C16", "title": "System state reflects participant states", "statement": "If all required participants are in the same lifecycle state, the system state equals that state; if any required participant is in Error (resp. Aborting) and none Aborting, the system state is Error (resp. Aborting); if any required participant has not reported a state the system state is Invalid; the system state is only announced when it changes.", "quantifier": "all sets of required participants, all histories of status updates, connects and disconnects", "why_tests_cant": "all interleavings of status updates of all participants", "anchors": ["SilKit/source/services/orchestration/SystemStateTracker.cpp: ComputeSystemState, UpdateParticipantStatus, UpdateRequiredParticipants"]}
{"id": "C17", "title": "Shutdown of a participant is final in the system monitor", "statement": "Once a participant has been reported in state Shutdown no later status message of it changes what the monitor reports for it or the system state until it disconnects, and each registered status handler sees the status messages of a participant in reception order.", "quantifier": "all histories of status messages, connects, disconnects", "why_tests_cant": "unbounded histories; late messages after shutdown", "anchors": ["SilKit/source/services/orchestration/SystemStateTracker.cpp", "SilKit/source/services/orchestration/SystemMonitor.cpp"]}
{"id": "C18", "title": "The lifecycle follows the documented state machine", "statement": "Starting from Invalid, for every sequence of user calls, system state changes, callback outcomes and aborts the participant state visible to others only changes along the documented transitions (ServicesCreated, CommunicationInitializing, CommunicationInitialized, ReadyToRun, Running <-> Paused, Stopping, Stopped, ShuttingDown, Shutdown, Aborting, Error).", "quantifier": "all sequences of lifecycle events and all callback outcomes (success, exception, deferred)", "why_tests_cant": "events can arrive in any state in any order", "anchors": ["SilKit/source/services/orchestration/LifecycleStates.cpp", "SilKit/source/services/orchestration/LifecycleManagement.cpp"]}
{"id": "C19", "title": "Shutdown is terminal and completes the final state future", "statement": "After a participant reached Shutdown its state never changes again, and the future returned from StartLifecycle is completed.", "quantifier": "all sequences of lifecycle events including late deferred completions", "why_tests_cant": "needs an abort racing with an outstanding asynchronous handshake", "anchors": ["SilKit/source/services/orchestration/LifecycleStates.cpp: ShutdownState, AbortingState", "SilKit/source/services/orchestration/LifecycleManagement.cpp", "SilKit/source/core/requests/procs/ParticipantReplies.cpp"]}
{"id": "C20", "title": "User callbacks run in the right lifecycle situation", "statement": "The stop handler is invoked only on a transition out of Stopping, the shutdown handler only on a transition out of ShuttingDown, the starting handler only before Running, the communication-ready handler only after CommunicationInitialized; the abort handler is invoked with the state the participant was in when the abort was requested.", "quantifier": "all sequences of lifecycle events", "why_tests_cant": "all event orders", "anchors": ["SilKit/source/services/orchestration/LifecycleStates.cpp", "SilKit/source/services/orchestration/LifecycleManagement.cpp: HandleAbort, UpdateLifecycleState"]}
{"id": "C21", "title": "Virtual time of a participant is monotone and gap-free", "statement": "The simulation step handler is called with non-decreasing times; each step starts exactly where the previous one ended (start + duration of the previous step), whatever step durations are set and whatever other participants do.", "quantifier": "all sequences of step-duration changes, received steps of other participants, and advances", "why_tests_cant": "any schedule of remote messages", "anchors": ["SilKit/source/services/orchestration/TimeConfiguration.cpp", "SilKit/source/services/orchestration/TimeSyncService.cpp"]}
{"id": "C22", "title": "No participant overtakes another in virtual time", "statement": "In a simulation of any number of time-synchronized participants, whenever a participant executes its step at time t, no other participant is still executing or has yet to execute a step that starts at a time lower than t.", "quantifier": "all numbers of participants, all step sizes, all interleavings and message delays (per-link FIFO)", "why_tests_cant": "distributed property over all schedules", "anchors": ["SilKit/source/services/orchestration/TimeConfiguration.cpp: OtherParticipantHasLowerTimepoint", "SilKit/source/services/orchestration/TimeSyncService.cpp"]}
{"id": "C23", "title": "The simulation does not deadlock", "statement": "In a running simulation of time-synchronized participants in which all announced next steps have been delivered, at least one participant is able to execute its step; hence time always progresses.", "quantifier": "all numbers of participants, step sizes and reachable distributed states", "why_tests_cant": "absence of deadlock over all schedules", "anchors": ["SilKit/source/services/orchestration/TimeConfiguration.cpp", "SilKit/source/services/orchestration/TimeSyncService.cpp"]}
{"id": "C24", "title": "A participant joining a running simulation does not disturb virtual time", "statement": "An autonomous time-synchronized participant that joins late starts at a time at which another participant has or will have a step and never executes a step at a time larger than the next step of a participant it knows; a coordinated one aborts.", "quantifier": "all running simulations and all message orders during joining", "why_tests_cant": "races between the joining handshake and step messages", "anchors": ["SilKit/source/services/orchestration/TimeConfiguration.cpp: IsHopOn, HandleHopOn", "SilKit/source/services/orchestration/TimeSyncService.cpp"]}
{"id": "C25", "title": "Dynamic step durations align with the nearest other participant", "statement": "With dynamic step sizes enabled the duration of a step is positive, at most the configured duration, never spans a known step start or step end of another participant, and is shorter than configured only to end at such a boundary. Dynamic steps are enabled by configuration, or, without configuration, if a known participant asks for them.", "quantifier": "all sets of other participants with all announced steps", "why_tests_cant": "arithmetics over arbitrary sets", "anchors": ["SilKit/source/services/orchestration/TimeConfiguration.cpp: GetMinimalAlignedDuration, AdvanceTimeStep"]}
{"id": "C26", "title": "At most one simulation step is in progress", "statement": "With asynchronous step handlers, a new step is started only after the previous one was completed; each advance announces the participant's next step exactly once; no step is executed while paused or after stop.", "quantifier": "all interleavings of remote steps, completions, pause/continue/stop", "why_tests_cant": "interleavings", "anchors": ["SilKit/source/services/orchestration/TimeSyncService.cpp: SynchronizedPolicy"]}
{"id": "C27", "title": "Watchdog", "statement": "For each simulation step the soft timeout handler is called at most once and the hard timeout handler at most once, only if the step took at least the configured time, and a step that completes in time triggers neither.", "quantifier": "all sequences of step start, completion and clock polls", "why_tests_cant": "timing schedules", "anchors": ["SilKit/source/services/orchestration/WatchDog.cpp"]}
{"id": "C28", "title": "All-participants-replied barrier", "statement": "A completion registered with the reply barrier is called exactly once, and only after every participant that was connected at the time of the call has replied or disconnected.", "quantifier": "all interleavings of replies, connects, disconnects and barrier requests", "why_tests_cant": "all message orders", "anchors": ["SilKit/source/core/requests/procs/ParticipantReplies.cpp", "SilKit/source/core/requests/RequestReplyService.cpp"]}
{"id": "C29", "title": "Each request is answered once per recipient", "statement": "For every call made through the request/reply service the caller gets exactly one return per participant addressed: either the actual reply or a disconnect indication.", "quantifier": "all interleavings of any number of calls, replies and disconnects", "why_tests_cant": "interleavings with several outstanding calls", "anchors": ["SilKit/source/core/requests/RequestReplyService.cpp"]}
{"id": "C30", "title": "RPC calls get their results", "statement": "Every RPC call is answered with exactly one result event per server that matched when the call was made (carrying the userContext of the call), or exactly one ServerNotReachable event if there was none; no result event is delivered for a call that was never made or is already completed.", "quantifier": "all interleavings of calls, server arrivals/departures, and responses", "why_tests_cant": "interleavings", "anchors": ["SilKit/source/services/rpc/RpcClient.cpp"]}
{"id": "C31", "title": "RPC timeouts are reported once and nothing follows", "statement": "A call with timeout that has not been completely answered when the (virtual) time has advanced by at least the timeout gets exactly one Timeout result and nothing afterwards; a call answered in time never gets a Timeout, and the time advance itself has no other effect.", "quantifier": "all interleavings of calls with timeouts, responses and time advances", "why_tests_cant": "races between response and timeout", "anchors": ["SilKit/source/services/rpc/RpcClient.cpp: TimeHandler, TriggerCallTimeout"]}
{"id": "C32", "title": "RPC server: a result can be submitted once per call", "statement": "Each incoming call is passed to the call handler once; SubmitResult for its handle sends exactly one response to exactly the calling client; any further SubmitResult for the same handle is an error and sends nothing.", "quantifier": "all interleavings of calls of any number of clients and submissions", "why_tests_cant": "interleavings and handle reuse", "anchors": ["SilKit/source/services/rpc/RpcServer.cpp", "SilKit/source/services/rpc/RpcServerInternal.cpp"]}
{"id": "C33", "title": "Publish/subscribe delivers everything once in order, and last value to late joiners", "statement": "Every subscriber matched with a publisher receives, in publication order and exactly once, all values published after it was connected, preceded by the last value published before (if history is enabled and there was one).", "quantifier": "all interleavings of publications, subscriptions and unsubscriptions, any number of subscribers", "why_tests_cant": "interleavings", "anchors": ["SilKit/source/core/vasio/VAsioTransmitter.hpp", "SilKit/source/services/pubsub/DataSubscriber.cpp", "SilKit/source/services/pubsub/DataPublisher.cpp"]}
{"id": "C34", "title": "A service does not receive its own messages", "statement": "A message sent by a service is delivered to every other local receiver on the link exactly once and never to the sender itself, except for the message types documented to be self-delivered; system commands are never self-delivered; an exception in one receiver does not prevent delivery to the others.", "quantifier": "all sets of receivers and senders, all message types, any receivers throwing", "why_tests_cant": "all combinations", "anchors": ["SilKit/source/core/vasio/SilKitLink.hpp"]}
{"id": "C35", "title": "Connecting to known participants", "statement": "While joining, the participant is told that all known participants replied only if each of them did, at most once; a failure is reported at most once and excludes success.", "quantifier": "all known-participant lists, all orders of connection events and replies", "why_tests_cant": "asynchronous event orders", "anchors": ["SilKit/source/core/vasio/ConnectKnownParticipants.cpp"]}
{"id": "C36", "title": "Registry keeps participant names unique and introduces participants to each other", "statement": "Within one simulation no two connected participants share a name; a joining participant is told exactly the other participants of its simulation; simulations are isolated; a name becomes free when its participant disconnects.", "quantifier": "all histories of announcements and disconnects over any number of simulations", "why_tests_cant": "histories", "anchors": ["SilKit/source/core/vasio/VAsioRegistry.cpp"]}
{"id": "C37", "title": "URI parsing", "statement": "A registry URI built from host, port and simulation name is parsed back to the same host, port and path; percent-encoding of names is injective and produces only unreserved characters.", "quantifier": "all hosts, ports, simulation names", "why_tests_cant": "all strings", "anchors": ["SilKit/source/util/Uri.cpp"]}
{"id": "C38", "title": "Acceptor URIs handed to peers are usable", "statement": "The registry never hands a participant a catch-all (0.0.0.0 / [::]) acceptor address of another participant, and never a loopback or local-domain address of one on a different host; addresses are handed out without duplicates.", "quantifier": "all acceptor URI lists and peer addresses", "why_tests_cant": "all combinations of addresses", "anchors": ["SilKit/source/core/vasio/TransformAcceptorUris.cpp"]}
{"id": "C39", "title": "CAN controller without network simulator", "statement": "A frame sent while the controller is started is received exactly once by each other controller on the network as RX (without the sender's user context), once by the sender's own TX handlers, followed by exactly one Transmitted acknowledgement with the user context of the call; a frame sent in any other state has no such effect; state change handlers are called only on changes.", "quantifier": "all sequences of mode changes and sends on any number of controllers", "why_tests_cant": "sequences", "anchors": ["SilKit/source/services/can/CanController.cpp", "SilKit/source/services/can/SimBehaviorTrivial.cpp"]}
{"id": "C40", "title": "Ethernet controller without network simulator", "statement": "Each SendFrame is acknowledged exactly once, with Transmitted iff the link is up; receivers get the frame padded with zeros to at least 60 bytes and otherwise unchanged; user context is only visible to the sender.", "quantifier": "all frames and states", "why_tests_cant": "all frame lengths/contents", "anchors": ["SilKit/source/services/ethernet/EthController.cpp", "SilKit/source/services/ethernet/SimBehaviorTrivial.cpp"]}
{"id": "C41", "title": "LIN: a header is answered by at most one slave", "statement": "When the master sends a header, a frame is transmitted by exactly one node iff exactly one operational node is configured to respond to this id; if none or several are, no frame but an error transmission is observed.", "quantifier": "all node configurations, statuses and ids", "why_tests_cant": "all configurations", "anchors": ["SilKit/source/services/lin/SimBehaviorTrivial.cpp", "SilKit/source/services/lin/LinController.cpp"]}
{"id": "C42", "title": "LIN: ids are validated", "statement": "Calling any LIN controller function with an id (0..255), or receiving a LIN message with any id, never accesses memory outside of the response table.", "quantifier": "all ids and all API calls/messages", "why_tests_cant": "silent out-of-bounds access", "anchors": ["SilKit/source/services/lin/LinController.cpp", "SilKit/source/services/lin/SimBehaviorTrivial.cpp"]}
{"id": "C43", "title": "LIN: sleep and dynamic configuration", "statement": "A node in sleep mode does not transmit; API functions that require a dynamic (resp. static) configuration are rejected on a static (resp. dynamic) controller.", "quantifier": "all histories of API calls", "why_tests_cant": "histories", "anchors": ["SilKit/source/services/lin/LinController.cpp"]}
{"id": "C44", "title": "FlexRay parameter validation", "statement": "Configure accepts cluster/node parameters iff every parameter lies in its documented range.", "quantifier": "all parameter combinations", "why_tests_cant": "range boundary of every parameter", "anchors": ["SilKit/source/services/flexray/Validation.cpp"]}
{"id": "C45", "title": "Replay replays each recorded message once, in order, in its step", "statement": "During a time-synchronized simulation each message of the replay channel is handed to the controller exactly once, in recorded order, in the first step whose end lies after its timestamp (for recordings in time order).", "quantifier": "all recordings and all step sequences", "why_tests_cant": "all step boundaries vs timestamps", "anchors": ["SilKit/source/tracing/ReplayScheduler.cpp: ReplayMessages"]}
{"id": "C46", "title": "UUID text form", "statement": "The text form of UUIDs is 36 characters, and different UUIDs have different text forms; the order on UUIDs used for lookups is a strict total order.", "quantifier": "all pairs of UUIDs", "why_tests_cant": "2^128 values", "anchors": ["SilKit/source/util/Uuid.cpp"]}
{"id": "C47", "title": "String escaping", "statement": "Escaped strings can be unescaped uniquely: two different strings never have the same escaped form, and an escaped string contains no unescaped quote; names made printable for files only contain safe characters.", "quantifier": "all strings", "why_tests_cant": "all strings", "anchors": ["SilKit/source/util/StringHelpers.cpp"]}
{"id": "C48", "title": "Configuration validation", "statement": "A participant configuration is accepted iff trace sink and trace source names are non-empty and unique with non-empty paths and all references to sinks/sources refer to existing ones.", "quantifier": "all configurations", "why_tests_cant": "all configurations", "anchors": ["SilKit/source/config/Validation.cpp"]}
{"id": "C49", "title": "PCAP files are read back as written", "statement": "Reading a PCAP file written by the tracing sink yields the same sequence of frames, with timestamps truncated to microseconds; a truncated file yields a prefix of the frames.", "quantifier": "all frame sequences and truncation points", "why_tests_cant": "crash points: any truncation of the file", "anchors": ["SilKit/source/tracing/PcapReader.cpp", "SilKit/source/tracing/PcapSink.cpp"]}
{"id": "C50", "title": "Dashboard event queue loses nothing", "statement": "All events enqueued before stop are dequeued exactly once in order; events after stop are dropped.", "quantifier": "all interleavings of producers, consumer and stop", "why_tests_cant": "interleavings", "anchors": ["SilKit/source/dashboard/LockedQueue.hpp"]}
{"id": "C51", "title": "Aggregated user data does not wait for ever", "statement": "With message aggregation enabled, user data that sits in the aggregation buffer is sent at the latest when the flush timer expires, even if no further message is sent.", "quantifier": "all sequences of sends, timer expiries and socket completions", "why_tests_cant": "needs an idle phase longer than the flush timeout between two flushes, then one message", "anchors": ["SilKit/source/core/vasio/VAsioPeer.cpp: Aggregate, Flush, OnTimerExpired", "SilKit/source/core/vasio/io/impl/AsioTimer.cpp"]}
{"id": "C52", "title": "The end of a connection is reported once, when no operation is outstanding", "statement": "A byte stream reports its shutdown to the peer at most once, only after every read and write handed to asio has been returned, and always once a requested shutdown has no operation left; after it no operation is started and nothing else is reported.", "quantifier": "all interleavings of read, write and shutdown requests and of completions with any result", "why_tests_cant": "races of shutdown against completions; a late completion would use a destroyed object", "anchors": ["SilKit/source/core/vasio/io/impl/AsioGenericRawByteStream.cpp"]}
{"id": "C53", "title": "Different services have different cache keys", "statement": "Two services of a participant that differ in network, controller type or name are cached by the service discovery under different keys, so that announcing or removing one never hides the other.", "quantifier": "all pairs of service descriptors", "why_tests_cant": "needs names chosen to collide", "anchors": ["SilKit/source/core/internal/ServiceDescriptor.hpp: to_string", "SilKit/source/core/service/ServiceDiscovery.cpp"]}
{"id": "C54", "title": "The lifecycle can be started only once", "statement": "A second call of StartLifecycle on the same lifecycle service is rejected with an exception and leaves the participant's state alone.", "quantifier": "all executions", "why_tests_cant": "the existing tests start the lifecycle once per service", "anchors": ["SilKit/source/services/orchestration/LifecycleService.cpp: StartLifecycle"]}
{"id": "C55", "title": "Next-step handlers of the time provider are notified", "statement": "Every handler registered with the time provider is notified exactly once of each step in a synchronized simulation and once per period otherwise, never before its registration or after its removal, and registering a handler always completes.", "quantifier": "all sequences of configurations, registrations, removals, steps and timer periods; all interleavings of one user thread with the timer thread", "why_tests_cant": "depends on the order of configuration and registration and on a race with the timer thread", "anchors": ["SilKit/source/services/orchestration/TimeProvider.cpp", "SilKit/source/services/orchestration/TimeProvider.hpp", "SilKit/source/util/Timer.hpp"]}
{"id": "C57", "title": "Messages reach the link they were sent on", "statement": "Whatever arrives at a participant on a link (message type and network) was sent by the peer on that link with the same content, no message carries a receiver index unknown to the receiver, and no message is decoded as another type.", "quantifier": "all interleavings of connections, registrations, publications, deliveries and disconnections of any number of participants", "why_tests_cant": "receiver indices are assigned at run time; all registration orders", "anchors": ["SilKit/source/core/vasio/VAsioConnection.cpp", "SilKit/source/core/vasio/VAsioConnection.hpp", "SilKit/source/core/internal/traits/SilKitMsgSerdesName.hpp"]}
{"id": "C58", "title": "FlexRay controllers talk only to their simulator", "statement": "A FlexRay controller sends to and receives from exactly the first network simulator found for its network, buffer updates refer only to buffers of the last accepted configuration, and unconfigured buffer indices are refused.", "quantifier": "all sequences of discoveries, configurations, updates, commands and received messages", "why_tests_cant": "all operation orders; departures of the simulator", "anchors": ["SilKit/source/services/flexray/FlexrayController.cpp"]}
{"id": "C59", "title": "Included configuration files are merged by the documented rules", "statement": "The files read are exactly those reachable through includes, each once; the load fails iff a file is missing or two files contradict each other; the merged configuration holds one controller or service per kind and name, the only non-default value of each option, the participant name and acceptor URIs of the one file that sets them, all logging and metrics sinks, and all search path hints.", "quantifier": "all file systems, include graphs (also cyclic) and configurations", "why_tests_cant": "unbounded include graphs and combinations of settings in many files", "anchors": ["SilKit/source/config/ParticipantConfigurationFromXImpl.cpp", "docs/configuration/includes-configuration.rst"]}
{"id": "C60", "title": "The dashboard reports every event under the simulation it belongs to", "statement": "For every sequence of registry callbacks, every batching of the event queue and every sequence of ids answered by the dashboard server: each simulation is created before anything is reported under its id, each connection, status, system state, service and metric event is reported exactly once, in order, under the id created for its simulation, no id is shared by two simulations, and the end of a simulation is reported exactly when its last participant leaves.", "quantifier": "all callback sequences, all batchings, all server answers, all abort points", "why_tests_cant": "The batching depends on thread timing; tests use one simulation whose participants all have a lifecycle.", "anchors": ["SilKit/source/dashboard/DashboardInstance.cpp:113-252", "SilKit/source/dashboard/DashboardInstance.cpp:322-446", "SilKit/source/dashboard/DashboardBulkUpdate.hpp:32-45"]}
{"id": "C56", "title": "Registering a service completes exactly when its subscriptions are acknowledged", "statement": "RegisterSilKitService for a synchronous service returns only after every peer connected at the time has acknowledged every new subscription of the service or has disconnected, and does return then; each message type is subscribed once, with an index of its own, at exactly the connected peers; completion handlers for asynchronous services are called exactly once, after the acknowledges; no promise is fulfilled twice.", "quantifier": "all interleavings of any number of user threads with the I/O thread, all numbers of peers, receivers, acknowledges (also duplicate or spurious ones), joins and departures", "why_tests_cant": "Interleavings of user threads with the I/O thread and departures of peers between subscription and acknowledge are not controllable in a test.", "anchors": ["SilKit/source/core/vasio/VAsioConnection.hpp:103-135", "SilKit/source/core/vasio/VAsioConnection.hpp:310-403", "SilKit/source/core/vasio/VAsioConnection.cpp:1613-1726", "SilKit/source/core/vasio/VAsioConnection.cpp:1854-1864", "SilKit/source/core/vasio/VAsioConnection.cpp:1940-1950"]}
{"id": "C61", "title": "Connecting to a peer tries its URIs in order and reports the result once", "statement": "ConnectPeer tries the usable URIs of a peer ordered by kind of address (local domain, IPv4, IPv6, other), in the peer's order within a kind, round by round as often as asked for; it stops at the first success, reports failure only after all tries, reports exactly one result, and is not used after it was destroyed by its listener.", "quantifier": "all lists of texts, all resolvers, all numbers of rounds, all outcomes of connectors, all sequences of completions and shutdowns", "why_tests_cant": "Failures of connectors inside of AsyncConnect and shutdowns between tries depend on the operating system and on timing.", "anchors": ["SilKit/source/core/vasio/ConnectPeer.cpp:30-293", "SilKit/source/core/vasio/io/impl/AsioConnector.hpp:60-190", "SilKit/source/core/vasio/RemoteConnectionManager.cpp:30-101"]}
{"id": "C62", "title": "The network simulator routes requests and events between the user's simulated controllers and the controllers present", "statement": "For every history of simulated networks, discoveries and messages: a message of a controller reaches exactly the simulated controller provided for the controller present under that participant and service id on that network; a produced event is sent to exactly the addressed controllers that are present and simulated; descriptors are given out once; removal is reported once, exactly if the controller is gone; each network gets one event producer before its first controller; no destroyed router is used.", "quantifier": "all sequences of SimulateNetwork, Start, service creations and removals, received messages and produced events, all users", "why_tests_cant": "Whether a descriptor or event producer is missing or a freed router is called depends on the order of discoveries and on names shared between bus types; tests use one network and one order.", "anchors": ["SilKit/source/experimental/netsim/NetworkSimulatorInternal.cpp:28-302", "SilKit/source/experimental/netsim/SimulatedNetworkInternal.cpp:20-147", "SilKit/source/experimental/netsim/SimulatedNetworkRouter.cpp:16-476", "SilKit/source/experimental/netsim/SimulatedNetworkRouter.hpp:70-131"]}
{"id": "C63", "title": "Controllers follow their network simulator and accept only what is addressed to them", "statement": "A controller is in detailed mode exactly while a simulator of its network is present, events are accepted by the addressed controller only, and a CAN controller is told exactly the changes of its own states.", "quantifier": "all sequences of creations and removals of links, all sets of controllers, all sequences of produced states", "why_tests_cant": "Needs combinations of several networks of the same name, several simulators or several controllers with different states; tests have one controller per participant and network.", "anchors": ["SilKit/source/services/can/CanController.cpp:29-87", "SilKit/source/services/can/CanController.cpp:219-235", "SilKit/source/services/can/SimBehaviorDetailed.cpp:16-58", "SilKit/source/experimental/netsim/eventproducers/CanEventProducer.cpp:29-57"]}
{"id": "C64", "title": "LIN: a node answers headers and reports transmissions as it is configured", "statement": "After every history of a static LIN controller that is not simulated: a header is answered exactly if the node is configured to transmit that id; a transmission is reported not at all if the node is not concerned, from the sender's point of view if it is a transmitter, as error if length or checksum model differ from the expected ones; invalid frames are never reported; the go-to-sleep handler is called exactly for go-to-sleep frames.", "quantifier": "all histories of API calls and received messages, all configurations, frames and statuses", "why_tests_cant": "Histories of configuration calls that overlap with each other and with messages of other nodes are unbounded.", "anchors": ["SilKit/source/services/lin/LinController.cpp:326-548", "SilKit/source/services/lin/LinController.cpp:763-851", "SilKit/source/services/lin/SimBehaviorTrivial.cpp:191-272"]}
{"id": "C65", "title": "Participants that talk through the registry receive each other's messages completely and in order", "statement": "In a network in which all participants reach one another only through the proxying registry: what a participant receives from another one is what that one handed over for it, in the same order and without loss, repetition or invention, and everything once nothing is under way; each message is attributed to its sender; the end of a participant is reported to all it has sent to, only if it has left and after all of its messages; both sides have a peer for the other one when nothing is under way; no deleted peer is used.", "quantifier": "any number of participants, all interleavings of joining, connecting, sending, receiving, leaving and detecting that somebody left", "why_tests_cant": "The interleavings of connections that are set up from both sides, messages under way in four queues per pair and participants leaving are unbounded.", "anchors": ["SilKit/source/core/vasio/VAsioProxyPeer.cpp:14-54", "SilKit/source/core/vasio/VAsioConnection.cpp:1340-1460", "SilKit/source/core/vasio/VAsioConnection.cpp:1478-1610", "SilKit/source/core/vasio/VAsioConnection.cpp:2236-2281"]}
{"id": "C66", "title": "Proxied peers end with the connection they depend on", "statement": "For a node with any history of received messages: relaying ends; the peer below an existing proxied peer exists; when a connection ends, its peer and everything proxied over it is deleted and reported exactly with its names, and no deleted object is used; only peers that were connected are reported.", "quantifier": "all histories of one node, including nested, forged and malformed proxy messages", "why_tests_cant": "Which objects depend on which is decided by the history; deleted objects are used without visible effect in most test runs.", "anchors": ["SilKit/source/core/vasio/VAsioConnection.cpp:1329-1460", "SilKit/source/core/vasio/VAsioConnection.cpp:1502-1610"]}
{"id": "C67", "title": "A configuration that is written can be read again", "statement": "Reading what the YAML/JSON writer produced gives the configuration that was written, except for the listed settings the writer leaves out; nothing is lost iff none of them is set; a second round trip changes nothing; reading fails iff a log file without a name is configured. Likewise for the registry's configuration.", "quantifier": "all participant and registry configurations of any size", "why_tests_cant": "Hundreds of optional settings with defaults and conditional writers give unboundedly many combinations; tests use one full and one minimal file.", "anchors": ["SilKit/source/config/YamlReader.cpp:1-574", "SilKit/source/config/YamlWriter.cpp:1-652", "SilKit/source/config/YamlParser.hpp", "SilKit/source/capi/CapiParticipant.cpp:154", "Utilities/SilKitRegistry/Registry.cpp:288-292"]}
{"id": "C68", "title": "The check of a document against the known elements", "statement": "A document is accepted iff no known name stands where it is not known, no list holds a value where none is known and no map has a key twice; exactly the elements ignored are reported; the visitor's stack is balanced; elements that are not known have no effect on what is read; whatever the writer produces is accepted without reports.", "quantifier": "all documents of any depth and width, all configurations", "why_tests_cant": "Documents are unbounded trees; the visitor keeps its position in a mutable stack.", "anchors": ["SilKit/source/config/YamlValidator.cpp:1-667", "SilKit/source/config/ParticipantConfigurationFromXImpl.cpp:106-118", "SilKit/source/config/ParticipantConfigurationFromXImpl.cpp:667-673"]}
{"id": "C69", "title": "Matching labels keep key, value and kind on the wire", "statement": "Labels of the kinds Optional and Mandatory are read by the receiver as they were written by the sender, whatever their texts are; labels of other kinds are not sent; labels of the configuration and of the API convert into each other.", "quantifier": "all lists of labels", "why_tests_cant": "Any text can be a key or value; tests use a few.", "anchors": ["SilKit/source/config/YamlReader.cpp:10-28", "SilKit/source/config/YamlWriter.cpp:21-42", "SilKit/source/config/ParticipantConfiguration.cpp:15-63", "SilKit/source/core/service/SpecificDiscoveryStore.cpp:49", "SilKit/source/services/pubsub/DataSubscriber.cpp:57"]}
{"id": "C70", "title": "Integers in a document are read exactly or refused", "statement": "An integer read with a range check gives exactly that number or an exception; the numbers of the middleware, the health check and the metrics are those in the document.", "quantifier": "all integers and all integer types", "why_tests_cant": "The range of integers is not testable exhaustively.", "anchors": ["SilKit/source/config/YamlReader.hpp:30-160", "ThirdParty/rapidyaml/rapidyaml.hpp:13272-13284", "ThirdParty/rapidyaml/rapidyaml.hpp:14027-14218"]}
{"id": "C71", "title": "A configuration holds what its document says", "statement": "For every document that is read: each setting is held in the configuration as the document says it, lists completely and in their order, and what is not in the document has its default; enumerations are read exactly by their names; required elements are there; an element with older names is given under one of them only; the registry's configuration has nothing remote.", "quantifier": "all documents of any size", "why_tests_cant": "There are more than three hundred elements with defaults, older names and required children; documents are unbounded trees.", "anchors": ["SilKit/source/config/YamlReader.cpp:30-572", "SilKit/source/config/YamlReader.hpp:36-170", "SilKit/source/config/ParticipantConfiguration.hpp:49-444"]}
{"id": "C72", "title": "Every update of a metric is submitted", "statement": "A submission reports exactly the metrics updated since the submission before, each once, with the time and value it has; if updates and submissions do not overlap, the last record of every metric that was ever updated carries its present value. Counters wrap at 2^64; a list holds what was added since it was cleared; minimum and maximum of a statistic are those of the values taken. A name denotes one metric of one kind.", "quantifier": "all histories of requests, updates and submissions, updates interleaved with submissions at every statement", "why_tests_cant": "The comparison of clock values decides what is sent; a lost update needs a particular interleaving or a repeated clock value.", "anchors": ["SilKit/source/services/metrics/MetricsManager.cpp:22-419", "SilKit/source/services/metrics/MetricsDatatypes.cpp:14-32"]}
{"id": "C73", "title": "Every sink is told everything, once and in order", "statement": "Whatever threads pass metrics before, during and after the sinks are set up: every sink is told everything exactly once, for each thread and origin in order; nothing waits for ever; only one setup has an effect; what comes from another participant is not sent again.", "quantifier": "all numbers of threads, calls, sinks and all interleavings", "why_tests_cant": "The double-checked flag and the cache are exposed only by particular interleavings.", "anchors": ["SilKit/source/services/metrics/MetricsProcessor.cpp:26-85", "SilKit/source/services/metrics/MetricsRemoteSink.cpp:18-27", "SilKit/source/services/metrics/CreateMetricsSinksFromParticipantConfiguration.cpp:22-60", "SilKit/source/core/participant/Participant_impl.hpp:212-237"]}
{"id": "C74", "title": "Metrics files can be read back", "statement": "A metrics file contains one record for each metric of each update the sink was told, in order, from which time, participant, name, kind and value can be read; strict JSON readers accept it, one record per line.", "quantifier": "all updates, all texts", "why_tests_cant": "Escaping must be right for every text in every position.", "anchors": ["SilKit/source/services/metrics/MetricsJsonSink.cpp:13-71", "SilKit/source/services/metrics/MetricsManager.cpp:350-386"]}
{"id": "C75", "title": "A participant creates the services it is asked for, once, as configured", "statement": "Name and registry URI of the configuration win over those passed, and the user is told. On joining, exactly the internal services that are always needed or configured exist. Then a call creates a service if and only if its arguments are acceptable and no earlier successful call had the same kind and name (and likewise lifecycle, time synchronisation, monitor, controller, simulator at most once); a call that fails creates, registers and announces nothing. All services have different numbers and descriptors; each is registered once and then announced once. Network, topic, function name, labels, history and trace sinks are those of the configuration, else those passed, and each difference is reported.", "quantifier": "all configurations, all sequences of calls with all arguments, all functions that sort", "why_tests_cant": "Collisions depend on the history of calls and on names in the configuration; the result of sorting equal keys depends on the standard library.", "anchors": ["SilKit/source/core/participant/ValidateAndSanitizeConfig.cpp:13-87", "SilKit/source/core/participant/Participant_impl.hpp:120-1041", "SilKit/source/core/participant/Participant_impl.hpp:1647-1771", "SilKit/source/experimental/participant/ParticipantExtensionsImpl.cpp:12-42"]}
{"id": "C76", "title": "Every log sink gets exactly the messages it is configured for, and the log of a remote participant is that participant's log", "statement": "For all configurations and sequences of log calls each local sink holds, in order and once each, exactly the messages whose level is at least the sink's and whose topic is not disabled and, if topics are enabled, among these; a remote sink gives exactly its messages to the handler registered at the time. Checks of the level before building a message lose nothing. A Json file reads back as its messages, one line each. Structured messages sent to another participant are written there, by a Json sink that takes them, with the same lines as by the participant's own sink.", "quantifier": "all sink configurations, all orders of the sinks in memory, all sequences of calls with all texts and key-value pairs", "why_tests_cant": "Levels, topics, formats and handlers multiply, and the order of the sinks depends on addresses.", "anchors": ["SilKit/source/services/logging/Logger.cpp:61-517", "SilKit/source/services/logging/Logger.hpp:29-255", "SilKit/source/services/logging/LoggerMessage.hpp:26-208", "SilKit/source/services/logging/LogFunctions.hpp:20-80", "SilKit/source/services/logging/MessageTracing.hpp:19-86", "SilKit/source/services/logging/SpdlogTypeConversion.hpp:16-105"]}
{"id": "C77", "title": "Errors and bad parameters cross the C API without being lost or followed", "statement": "Every exception thrown below the C API is turned into a return code other than success and thrown again by the C++ layer; exceptions of SIL Kit's own classes keep their class and text. Every function of the C API that is given a null pointer it would follow, a struct without a valid header or an invalid boolean returns BADPARAMETER and does not call the library; with good arguments it calls it. Identifiers of structs are valid, pairwise distinct and their parts can be read back. Each event given to a network simulation is taken as the struct it is.", "quantifier": "all exceptions, all return codes, all functions of the C API with all arguments, all struct identifiers", "why_tests_cant": "145 functions with up to eight parameters: no test passes every combination of null pointers and invalid headers to each.", "anchors": ["SilKit/source/capi/CapiImpl.hpp:13-188", "SilKit/source/capi/CapiUtils.cpp:13-96", "SilKit/include/silkit/detail/impl/ThrowOnError.hpp:35-79", "SilKit/include/silkit/capi/InterfaceIdentifiers.h:37-347", "SilKit/source/capi/CapiNetworkSimulator.cpp:459-726", "SilKit/source/capi/CapiLin.cpp:1-480", "SilKit/source/capi/CapiDataPubSub.cpp:19-91"]}
{"id": "C78", "title": "Structs cross the C API unchanged", "statement": "For every struct that the C++ layer turns into a C struct and the library back (frames, configurations, events, requests of the network simulation, in both directions) and all values of its fields: the C struct carries its own identifiers, each field holds the value of the field it stands for as far as its type allows, every field is initialised, and what comes out behind the C API is the same as what went in. This also holds for lists of structs.", "quantifier": "64 pairs of conversions, all values of all fields, lists of any length", "why_tests_cant": "Conversions are hundreds of assignments with casts between enumerations, signed and unsigned types; tests set few fields and compare fewer.", "anchors": ["SilKit/source/capi/TypeConversion.hpp:1-60", "SilKit/source/capi/CapiCan.cpp:34-240", "SilKit/source/capi/CapiFlexray.cpp:15-400", "SilKit/source/capi/CapiLin.cpp:20-480", "SilKit/include/silkit/detail/impl/HourglassConversions.hpp:20-860", "SilKit/include/silkit/detail/impl/services/flexray/FlexrayController.hpp:100-600"]}
{"id": "C79", "title": "The C++ layer calls handlers only with data that is still there", "statement": "For all sequences of adding and removing handlers and of events, each handler the library calls gets the address of data that has not been freed, and data is freed once its handler is removed. Setting a handler replaces the data the next call uses.", "quantifier": "all sequences of operations on the handler lists of the controllers and services", "why_tests_cant": "Use after free shows only for particular interleavings of ids of different lists, and often not even then.", "anchors": ["SilKit/include/silkit/detail/impl/services/can/CanController.hpp:160-325", "SilKit/include/silkit/detail/impl/services/lin/LinController.hpp:260-485", "SilKit/include/silkit/detail/impl/services/rpc/RpcServer.hpp:74-119", "SilKit/include/silkit/detail/impl/services/orchestration/TimeSyncService.hpp:140-178"]}
{"id": "C80", "title": "Command lines are read as they are written", "statement": "For all declarations of arguments with different names, a command line is accepted if and only if it is a sequence of values without a name, options with = or a following value, and flags, all with declared names, and there are arguments for the values without a name. The last value given to an option is stored, given flags are set, values without a name go to the arguments in order, everything else keeps its default. Unknown names, missing values and superfluous values are reported.", "quantifier": "all declarations, all command lines of any length", "why_tests_cant": "Tests pass a few command lines of the shape the author thinks of.", "anchors": ["SilKit/source/util/CommandlineParser.hpp:40-460"]}
{"id": "C81", "title": "The utilities run with what they were told and end otherwise", "statement": "For all command lines, files and surroundings: the system controller, the system monitor and the registry run if and only if their command line and configuration are in order, and then use exactly the names, addresses, levels, modes, files and dashboard that were given, with the documented precedence and defaults. The system controller sets the workflow once, when for the first time all required participants are connected; a signal leads to a bounded number of waits and at most one abort. The configuration that the registry generates reads back with the address it listens at; its status file says running if and only if it runs.", "quantifier": "all command lines, all files, all sequences of connects and disconnects, all outcomes of waits", "why_tests_cant": "The utilities are programs whose main functions are not called by tests.", "anchors": ["Utilities/SilKitRegistry/Registry.cpp:53-591", "Utilities/SilKitSystemController/SystemController.cpp:45-440", "Utilities/SilKitMonitor/PassiveSystemMonitor.cpp:38-206"]}
{"id": "C82", "title": "The dashboard is told exactly what participants announced", "statement": "For all updates of a simulation: the message to the dashboard has one entry for each participant that connected, changed its state or created a service, with its states in order and one entry per created controller or link, in order, with the number, name, network, topic or function name, media type, labels and parent of the service. There is a message if and only if all states and created controllers can be shown. All services of all participants, however configured, can be shown. Metrics keep their time, value and name.", "quantifier": "all updates, all descriptors, all configurations and sequences of calls of a participant, all metrics", "why_tests_cant": "Tests check a few descriptors that are well formed, one at a time.", "anchors": ["SilKit/source/dashboard/service/SilKitToOatppMapper.cpp:23-544", "SilKit/source/dashboard/DashboardInstance.cpp:113-269", "SilKit/source/core/internal/ServiceDescriptor.hpp:23-119"]}
{"id": "C83", "title": "The extension that is loaded is the first compatible one, and it is loaded once", "statement": "For all hints, environments and files: the library that is used is the first, in the order of hints and of the five names it may have, that exists and whose version and build information are those of the host; CreateExtension is called in no other. An extension is loaded if and only if such a library exists and has both functions, and whether each file exists can be determined. For all sequences of calls: once an extension was returned, later calls return it or fail, without loading, creating or releasing anything; a failed call changes nothing; what was created is held by the cache or was released, and what was released was closed.", "quantifier": "all hosts, hints, names, contents of the file system and of libraries, all sequences of calls", "why_tests_cant": "Tests load one library that is next to the executable; no test has several candidates, libraries without the functions, or directories that cannot be read.", "anchors": ["SilKit/source/extensions/SilKitExtensions.cpp:41-252", "SilKit/source/extensions/SilKitExtensionImpl/DllCache.hpp:28-62", "SilKit/source/extensions/SilKitExtensionImpl/SilKitExtensionLoader.hpp:22-46", "SilKit/source/extensions/detail/LoadExtension_posix.cpp:1-90"]}
{"id": "C84", "title": "A participant that listens accepts every connection until it is shut down", "statement": "For all sequences of connections, errors, timeouts and handlers: an acceptor answers every accept exactly once and refuses a second one while one is pending; an accept with a timeout ends; without timeouts it fails only if the network does. A participant or registry for which nothing goes wrong keeps every acceptor listening and makes one peer of every connection; in general an acceptor listens if and only if all connections handled so far became peers. After shutdown nothing waits, and at most two handlers per acceptor run.", "quantifier": "all sequences of calls, results of accepts, expirations of timers and executions of handlers, any number of acceptors", "why_tests_cant": "Tests accept a few well-behaved connections; resets between accept and handler, failing accepts and queued timers depend on timing.", "anchors": ["SilKit/source/core/vasio/io/impl/AsioAcceptor.hpp:33-212", "SilKit/source/core/vasio/io/impl/SetAsioSocketOptions.cpp:18-62", "SilKit/source/core/vasio/VAsioConnection.cpp:249-285", "SilKit/source/core/vasio/VAsioConnection.cpp:1205-1327", "SilKit/source/core/vasio/VAsioConnection.cpp:1972-2084"]}
{"id": "C85", "title": "A registered function is called at most once per registration and never after its removal; no metrics are collected after destruction", "statement": "For all interleavings of threads and signals: the function given to RegisterSignalHandler is called at most once, only after a signal reached it, and not after it was removed; a signal that reached it is handled once its thread runs; the first function registered receives the signals that were not ignored. The timer of metrics calls its callback only after it was started or its destructor began, one call at a time, never once the destructor has set done, and its destructor can always return.", "quantifier": "all interleavings of registering, removing, signals and threads; all sequences of steps of the timer", "why_tests_cant": "The outcome depends on the instant at which a signal or an expiry arrives between two instructions of another thread; tests send one signal to an idle process.", "anchors": ["SilKit/source/util/SignalHandler.cpp:110-258", "SilKit/source/services/metrics/MetricsTimerThread.cpp:10-93"]}
{"id": "C86", "title": "The text of a traced message determines the message", "statement": "For all values: the hexadecimal text of bytes determines the bytes up to the maximal length and whether there are more, whatever is put between them; different values of an enumeration have different texts, also those without a name; the texts of CAN, Ethernet, LIN and FlexRay frames and requests, of published data and of the required participants determine all that they show.", "quantifier": "all byte sequences, separators and maximal lengths, all numbers as values of the enumerations, all messages", "why_tests_cant": "Whether two different messages have the same text depends on the pair of messages; tests compare the text of one example with an expected text.", "anchors": ["SilKit/include/silkit/util/PrintableHexString.hpp:19-63", "SilKit/include/silkit/services/can/string_utils.hpp:45-200", "SilKit/include/silkit/services/lin/string_utils.hpp:40-260", "SilKit/include/silkit/services/flexray/string_utils.hpp:60-480", "SilKit/include/silkit/services/ethernet/string_utils.hpp", "SilKit/source/wire/lin/WireLinMessages.hpp:160-210", "SilKit/source/services/logging/MessageTracing.hpp:20-62"]}
{"id": "C87", "title": "An attempt to connect is answered exactly once, and never after the destruction of the connector", "statement": "For all orders of calls, completions of operations, expiries and handlers: the listener is called at most once, and not after the destruction; once the operation has ended without an exception it was called exactly once; with a timeout the operation ends whatever the network does; a second AsyncConnect is refused; a stream given to the listener is open and never closed by the connector; without Shutdown and destruction no handler throws.", "quantifier": "all interleavings of members, network, timer and handlers, of any length", "why_tests_cant": "Completion, expiry and shutdown must fall between two handlers of the same poll of the io_context; tests connect to a listening socket and wait.", "anchors": ["SilKit/source/core/vasio/io/impl/AsioConnector.hpp:40-313"]}
{"id": "C88", "title": "The exchange by which a participant reaches another one directly, on request or through the registry comes to an end with one connection", "statement": "For all orders of events and failures at the origin, the registry and the target: only boundedly many steps are possible before nothing is under way, and then, unless the target disappeared, the origin has received the reply of the target or has given up, and the joining thread is told which. Each request that the target accepts is answered exactly once. The registry is used only after the direct attempt failed and the request was impossible, refused or not answered in time; a direct connection is used only if the origin's attempt succeeded or the target connected. The origin announces itself once, and a second time only if its timer expired; the target receives each published message once if it did not, and nothing that was not published.", "quantifier": "all capabilities of the three processes, all interleavings of messages, attempts and timers, of any length", "why_tests_cant": "The timer must expire between two particular messages of three processes; integration tests run on one host, on which the direct attempt succeeds.", "anchors": ["SilKit/source/core/vasio/RemoteConnectionManager.cpp:35-95", "SilKit/source/core/vasio/ConnectKnownParticipants.cpp:160-478", "SilKit/source/core/vasio/VAsioConnection.cpp:600-615", "SilKit/source/core/vasio/VAsioConnection.cpp:925-1158", "SilKit/source/core/vasio/VAsioConnection.cpp:2145-2279"]}
{"id": "C89", "title": "Peers see exactly the capabilities that a participant has", "statement": "For all sets of capability names without control characters and every order in which the set is iterated: the text that is sent is a JSON array of objects that, read as JSON, gives the same set with the same flags; in particular peers see the capabilities switched on in the configuration. A text is accepted if and only if it is a sequence of maps of scalars that all have a name (in builds with assertions); other members and unknown names are ignored, and the cached flags always agree with the set.", "quantifier": "all sets of names, all orders of iteration, all trees", "why_tests_cant": "Names, members and orders are unbounded; the tests use a few literals.", "anchors": ["SilKit/source/core/vasio/VAsioCapabilities.cpp:20-118", "SilKit/source/config/YamlParserUtils.cpp:23-47", "SilKit/source/core/vasio/VAsioConnection.cpp:141-160"]}
{"id": "C90", "title": "A node that announces a protocol version is answered in that version, or told that it is not supported", "statement": "For all announcements, subscriptions and lists of known participants that fit in a message: a node that announces version 3.0 or 3.1 on a fresh connection completes the handshake in that version, knows the subscriptions of the other node and, from the registry, all known participants; if it is refused it is told so; a node that announces any other version is told that its version is not supported. Whatever bytes arrive, an announcement or list that is accepted has version 3.0 or 3.1.", "quantifier": "all versions, announcements, subscriptions, lists of participants and received bytes", "why_tests_cant": "The tests connect one pair of versions each with a fixed set of participants, and only exchange data between two of them.", "anchors": ["SilKit/source/core/vasio/VAsioConnection.cpp:660-935", "SilKit/source/core/vasio/VAsioConnection.cpp:1798-1853", "SilKit/source/core/vasio/SerializedMessage.hpp:134-148", "SilKit/source/core/vasio/SerializedMessage.cpp:94-150", "SilKit/source/core/vasio/VAsioPeer.cpp:283-290", "SilKit/source/core/vasio/VAsioRegistry.cpp:258-286"]}
{"id": "C91", "title": "The metrics of a peer count exactly what was sent and received", "statement": "For all histories of a peer, with and without aggregation: the counters of sent messages and bytes count exactly the messages passed to the peer since its metrics were initialised and never change what is sent; as long as the connection lasts the bytes counted are those written plus those waiting; only messages that are sent are counted; the counters of received messages count exactly those handed to the listener since. When everything was written and received the counters at both ends of a connection agree.", "quantifier": "all sequences of calls, timer expiries, partial writes and reads, all messages and all moments of initialisation", "why_tests_cant": "No test reads the counters of a peer, let alone those of both ends of a connection.", "anchors": ["SilKit/source/core/vasio/PeerMetrics.cpp:39-109", "SilKit/source/core/vasio/VAsioPeer.cpp:101-172", "SilKit/source/core/vasio/VAsioPeer.cpp:283-290", "SilKit/source/core/vasio/VAsioConnection.cpp:751-773", "SilKit/source/core/vasio/VAsioConnection.cpp:1142-1182", "SilKit/source/core/vasio/VAsioRegistry.cpp:226-240"]}
