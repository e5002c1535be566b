{
 "C01": {
  "note": "All wire types incl. nesting; arrays and integers of any positive width."
 },
 "C02": {
  "status": "partial",
  "note": "All 38 service message types plus handshake, subscription and proxy messages. Lossless except system_clock time points (ParticipantStatus, LogMsg), which lose sub-microsecond digits: exact result proved, losslessness refuted."
 },
 "C03": {
  "status": "partial",
  "note": "All body decoders are safe on arbitrary bytes. Header parser: over-read exactly characterised (registry message with fewer than 8 body bytes); refuted by a 6-byte message."
 },
 "C04": {
  "note": "Every message type with RemainingBytesLeft tests, with and without the trailing fields."
 },
 "C05": {
  "status": "partial",
  "note": "Announcements, known-participant lists and non-empty replies. Findings: an empty 3.0 reply is over-read, a Failed status is lost in the 3.0 encoding."
 },
 "C06": {
  "note": "Any initial capacity of at least 4 bytes, any listener (may throw or shut down), any chunking; liveness after as many completed reads as there are bytes."
 },
 "C07": {
  "note": "Refinement of the ring buffer to a byte queue over all histories."
 },
 "C08": {
  "note": "Corrupt length 0 or above 1 GiB. Lengths 1 to 3 are accepted by the code (see the example)."
 },
 "C09": {
  "note": "Events are atomic: the unsynchronised access to the aggregation buffer by the timer is outside the model. The refuted theorem shows that other messages overtake aggregated user data, which the property does not forbid.",
  "status": "proved"
 },
 "C12": {
  "note": "Complete except when an optional label of the arriving side has a key that a labelled other side lacks (both _partial theorems). The full statement is false: C12_complete_refuted and C12_service_change_refuted give histories in which a matching service is missed, because notLabelMap[key] is created empty by a lookup."
 },
 "C13": {
  "note": "Exactly once when both sides have only mandatory labels or none; at most twice in general. False with optional labels: C13_once_refuted (the first carrier of a label is also copied into notLabelMap)."
 },
 "C15": {
  "note": "Positive statements for all histories and reentrant handlers; UB exactly by self removal; the unrestricted claim is refuted by a handler that removes itself (iterator increment after erase)."
 },
 "C16": {
  "note": "Unanimity and entry into Error/Aborting hold for all histories. Staying in Error is proved while no required participant aborts or shuts down (C16_error_stays_partial); C16_error_masked_refuted: ShuttingDown of another participant hides the error. 'Not reported means Invalid' holds only before any disconnect or new required set and up to Error/Aborting (C16_missing_partial); C16_missing_refuted and C16_required_refuted are the counterexamples."
 },
 "C17": {
  "note": "Finality and the exact sequence seen by status handlers for all histories. C17_invalid_state_refuted is an extra finding: a message with state Invalid (or an unknown number) throws out of the receive path.",
  "status": "proved"
 },
 "C18": {
  "note": "All published transitions are documented ones as long as no start-up completion runs after its state was left (hypothesis fresh, on the trace). C18_stale_completion_refuted: a late completion takes a participant from Error to CommunicationInitializing."
 },
 "C19": {
  "note": "Terminality and the future's value hold under the same hypothesis and if the final reply request is not dropped. C19_aborted_startup_refuted: abort during the service handshake loses the future and restarts the participant."
 },
 "C20": {
  "note": "For all executions, no hypothesis: every handler call happens in its state; the abort handler gets the state before the abort.",
  "status": "proved"
 },
 "C21": {
  "note": "Gap-freeness for all executions; monotonicity for positive durations. C21_negative_duration_refuted: a negative step duration is accepted and time runs backwards."
 },
 "C22": {
  "note": "Proved for any number of participants and all schedules, except the first step of a participant that hops on, and executions where RequestNextStep is processed during an asynchronous step. Both exceptions are refuted: C22_hop_on_refuted, C22_continue_refuted."
 },
 "C23": {
  "note": "Groups of any size, all schedules, no wall clock coupling: never stuck, and only finitely many events between two steps.",
  "status": "proved"
 },
 "C24": {
  "note": "First step and later steps characterised for all executions; the joining participant may be ahead of one it knows (C22_hop_on_refuted), and a step size reduction is mistaken for a running simulation (C24_false_hop_on_refuted)."
 },
 "C25": {
  "note": "All states; the statement was corrected to the smaller of configured duration and distance.",
  "status": "proved"
 },
 "C26": {
  "note": "All executions.",
  "status": "proved"
 },
 "C27": {
  "note": "Once per step, only late, and reported: all interleavings, clock that does not go backwards. In-time steps: polls not interrupted between reading the start time and the clock; the exception is refuted (C27_preempted_refuted). C27_missed_refuted: a late step right after another late one may go unreported."
 },
 "C28": {
  "note": "Safety and at-most-once for all executions; exactly once except for requests made while another is waiting, which are dropped (C28_dropped_refuted)."
 },
 "C29": {
  "note": "Exactly one return for all calls of the barrier, the only user of the service; for overlapping calls at least one, and C29_overlapping_refuted shows two."
 },
 "C30": {
  "note": "One result per response up to the number of servers, for all executions in which the handling of responses does not overlap, or overlaps but there are no surplus responses. Refuted: C30_departed_refuted (a server leaves and the call is never answered), C30_surplus_refuted."
 },
 "C31": {
  "note": "Exact for sequential executions, exact in virtual time for constant step sizes. Refuted: end iterator dereferenced when the timeout of an answered call expires (C31_answered_refuted), early timeout with varying step sizes, race with the timer thread, exception and lost timeouts without handler."
 },
 "C32": {
  "note": "All executions of any number of clients with distinct uuids. Refuted: use of the handle after it was destroyed when a result is submitted after the call handler has returned and the server has several clients (C32_freed_refuted); second submission after the handler has returned (C32_again_refuted)."
 },
 "C33": {
  "note": "All executions of any number of participants with distinct ids; exact for the first subscriber of a link on a participant, and every subscription reaches every connected participant. Refuted: a second subscriber on the same participant and a subscriber on the publisher's participant get no last value; colliding participant ids end the deliveries to the wrong participant. Label matching is C10-C13; here publisher and subscriber share a link."
 },
 "C34": {
  "note": "All executions, all message types, any handlers throwing; no hypothesis on ids."
 },
 "C35": {
  "note": "All numbers of known participants and all interleavings of the joining thread with the I/O thread at the granularity of single atomic reads and writes. Proved: completion only after all replies, never together with failure, futures truthful and stable, nothing lost, reports at most once if StartConnecting is not overtaken. Refuted: the listener is called at most once (the two threads can both report; the promise absorbs the second call). Refuted: JoinSimulation always gets an answer (a participant that announced to be connecting and vanished is waited for without limit)."
 },
 "C36": {
  "note": "All histories of connections, announcements, disconnects, relayed proxy messages and remote connection requests over any number of simulations. Proved: names unique between join and departure whatever the peers do; the list of known participants exact; a participant is rejected exactly if the name is taken; non-interference between simulations; all-gone handler called exactly when empty; relayed messages and requests reach only the holder of the name; no use of a deleted peer if peers announce themselves once. Refuted (extensions beyond the stated property): a rejected client's departure makes the registry drop messages to the rightful holder of the name and announces its departure, a rejected client may send in its name, a peer announcing itself twice blocks a name for ever and leads to use of a deleted peer.",
  "status": "proved"
 },
 "C37": {
  "note": "Every URI made by the library is parsed back, exact set of accepted texts. Refuted: an IPv6 address in brackets without port is cut at its last colon; garbage and negative ports are accepted."
 },
 "C38": {
  "note": "All URIs, all classifications of host addresses. Refuted: loopback and local-domain URIs are handed to audiences on other hosts."
 },
 "C39": {
  "note": "Networks of any number of controllers in any participants, all histories of calls, handlers that call the controllers again, and deliveries, without network simulator and replay. Beyond the property: the frames of another participant arrive in the order of the calls; refuted: the same order within one participant when handlers send; refuted: controllers that were never started receive nothing.",
  "status": "proved"
 },
 "C40": {
  "note": "As C39 for Ethernet; the state LinkDown does not occur without network simulator."
 },
 "C41": {
  "note": "Networks of any number of statically configured controllers without network simulator, any history of API calls and deliveries, any delivery order after the header. Hypotheses: nothing on its way when the header is sent, no node that is asleep and no second master is configured for the id, the response has a known length. Refuted without them: a sleeping slave answers too, a late joining master misses configuration changes, a response of unknown length is neither sent nor reported. Replay and dynamic responses are not covered."
 },
 "C42": {
  "note": "Proved for valid ids at the functions that do not check them; refuted: SendFrameHeader, UpdateTxBuffer, SendFrame, SendDynamicResponse and received headers with an id of 64 or more access memory outside of the table."
 },
 "C43": {
  "note": "Proved for all histories of one controller: static functions rejected on a dynamic controller, functions rejected before initialisation (SendDynamicResponse excepted), SendFrame transmits nothing while asleep, frames ignored while asleep. Refuted: sleeping slave answers headers, sleeping master sends headers, SendDynamicResponse accepted by static and uninitialised controllers, success reported for slave to slave frames that are not sent."
 },
 "C44": {
  "note": "All parameter values and all controller operation sequences. Refuted: pChannels, pdMicrotick, pSecondKeySlotId and pTwoKeySlotMode are not validated."
 },
 "C45": {
  "note": "All readers, tasks and step sequences; composed with the PCAP sink and reader. Exceptions thrown by controllers are not modelled. Refuted: files with descending timestamps are replayed late, recordings are not replayed relative to their start, PCAP messages are never replayed in direction Receive."
 },
 "C46": {
  "note": "All UUIDs."
 },
 "C47": {
  "note": "All byte strings. Refuted: the other control characters are not escaped as JSON requires; PrintableString is not injective; SplitString with a separator of several characters."
 },
 "C48": {
  "note": "All configurations. Refuted: loading a configuration never validates it, so dangling trace sink references are accepted by load."
 },
 "C49": {
  "note": "All frame sequences with storable sizes and times, all truncation points, all files. Refuted: nanosecond magic with microsecond timestamps, concurrent Trace calls not locked, version check accepts half-wrong versions, message count of copied readers."
 },
 "C50": {
  "note": "All interleavings of any number of producers, the stopper and one consumer, with the notification as a separate step."
 },
 "C51": {
  "note": "Refuted: after the timer expired with an empty buffer nothing arms it again, so later user data stays buffered until the next time step message or the size threshold."
 },
 "C52": {
  "note": ""
 },
 "C53": {
  "note": "Injective if no part but the last contains a slash; false in general: parts are joined by '/' unescaped (C53_keys_collide_refuted)."
 },
 "C54": {
  "note": "Refuted: the guard compares a pointer that is never null.",
  "status": "partial"
 },
 "C55": {
  "note": "Steps and removals for all executions. Periods only for handlers registered after the last configuration: C55_reconfigured_refuted, C55_unconfigured_refuted. Registration can deadlock with the timer thread: C55_deadlock_refuted."
 },
 "C56": {
  "note": "Proved for all interleavings: subscriptions go to exactly the connected peers, once per message type with fresh indexes; handlers called at most once and, by the I/O thread, only when all subscriptions are settled. Proved if synchronous registrations do not overlap: returns only after all acknowledges, completes when they are there, no future_error, no failing assertion. Proved if handlers are handed over without interleaving: all are called. Refuted: handlers can get lost in a race with the completion; the flag is reset by an earlier registration so that a handler is called while subscriptions are pending; overlapping synchronous registrations return early and fulfil a promise twice. Proved: registering a synchronous service in a callback of the I/O thread never returns."
 },
 "C57": {
  "note": "Proved except for the two message types with the same serializer name: C57_no_message_is_misread_refuted."
 },
 "C58": {
  "note": "All operation sequences. Refuted: after the simulator left, a new one is ignored and messages still go to the old one; a configuration sent before discovery is addressed to nobody."
 },
 "C59": {
  "note": "All file systems and include graphs. Refuted: health check timeouts compared the wrong way round; conflicting publishers, subscribers, RPC services and FlexRay tx buffers silently dropped; options may be set twice; metrics options CollectFromRemote and UpdateInterval always lost; includes deeper than 127 ignored; the root file is read again when included."
 },
 "C60": {
  "note": "Times, URIs and the REST client are not modelled. Nothing is dropped provided a remaining participant has published a status whenever one leaves; refuted in general: premature end while participants are connected, later participants never reported, failed creation not repeated, events queued before destruction dropped."
 },
 "C61": {
  "note": "Proved for all runs: order of tries, failure only after all tries, success final and for the last URI, a result is reported whenever no connector is at work, and after at most as many completions as tries. Proved if no connector fails inside of AsyncConnect: reported at most once, no use after destruction. Refuted otherwise: a connector failing synchronously leads to several reports or to use after free; Shutdown only moves on to the next URI."
 },
 "C62": {
  "note": "Proved for all histories in which a participant uses a service id for one service at a time: routing of requests and events, uniqueness of descriptors, reporting of removals, event producer at most once. Proved if networks of different types have different names: the event producer comes first. Proved if no network is simulated twice: no freed router is called. Refuted otherwise: with a shared name the second network never gets an event producer; after a second SimulateNetwork of the same network a freed router is called; the departure of another simulator throws; a failed Start can not be repeated."
 },
 "C63": {
  "note": "Proved if the links on a network name are of one type and at most one is present at a time (mode), if all controllers of the participant on the network are simulated by the sender (acceptance), if states are always produced for the controller too (states). Refuted otherwise: the simulator of a network of another type with the same name captures the controllers; the departure of a second simulator switches to trivial mode; a controller still in trivial mode accepts events addressed to others; a CAN controller is told the error state of another."
 },
 "C64": {
  "note": "Proved for all histories, including the configuration of a master for reception by SendFrame with SlaveResponse, which depends on what the other nodes announced.",
  "status": "proved"
 },
 "C65": {
  "note": "Proved for all runs of the network. Participants do not come back under the same name, and the registry does not end; see C66 for what happens then.",
  "status": "proved"
 },
 "C66": {
  "note": "The part about deleted objects is false: after a proxied peer has left, the end of the connection below uses it (proved in general and as a refutation); it holds if none has left before (C66_registry_lost_partial). Further refutations: dangling name entries after a second announcement, end of unknown participants, forged sources, stale destinations.",
  "status": "partial"
 },
 "C67": {
  "note": "Full strength with the loss made explicit (kept, lossless); that nothing is lost is refuted: format, topics, update interval, replays without source; files without a name cannot be read again; the registry's configuration with metrics cannot be written.",
  "status": "partial"
 },
 "C68": {
  "note": "Proved for all documents. Refuted: that unknown elements are always ignored (a list of values below one is an error), that whatever is not read is reported (a key with a slash is taken for a path), and that the path reported for a duplicate is that of the map it is in.",
  "status": "partial"
 },
 "C69": {
  "note": "Proved on the tree of nodes, not on its text. Refuted: kinds that are not known are refused (4294967298 is read as Mandatory).",
  "status": "partial"
 },
 "C70": {
  "note": "Proved for the checked integers except that the least number of a signed type is an overflow (refuted); the unchecked ones (FlexRay parameters, history, label kinds) wrap or are undefined (refuted, with the exact result for all integers).",
  "status": "partial"
 },
 "C71": {
  "note": "On the tree of nodes, not the text of the document. Texts are covered where the node is a scalar, integers and booleans in the forms they are written in (decimal, 0x, 0o, 0b; true/false/1/0).",
  "status": "proved"
 },
 "C72": {
  "note": "The full statement is false with overlapping updates (C72_concurrent_update_is_submitted_refuted, C72_value_follows_its_time_refuted), with equal clock values (C72_equal_times_refuted), for names containing '/' (C72_names_are_distinguished_refuted), and the mean of a statistic starts from zero (C72_statistic_mean_between_extrema_refuted). Proved otherwise; statistics over rational numbers instead of double."
 },
 "C73": {
  "note": "Sequentially consistent interleavings of the statements; sinks do not throw.",
  "status": "proved"
 },
 "C74": {
  "note": "Control characters in string lists (and those without a short escape anywhere) make it invalid JSON, and a line break in a string list splits the record over two lines: C74_every_string_list_is_json_refuted, C74_every_record_is_one_line_refuted. The text of floating-point numbers is a parameter."
 },
 "C75": {
  "note": "Refuted in part: a missing URI is reported as a different one (C75_uri_message_refuted), configured labels with equal keys depend on std::sort (C75_duplicate_labels_refuted), trace sinks configured for RPC are ignored (C75_rpc_sinks_refuted). Proved otherwise; calls one after another, fewer than 2^64 services for the uniqueness of numbers."
 },
 "C76": {
  "note": "Proved for the seven levels and messages that keep their level while being built. Refuted in part: participant names are not escaped (C76_name_escaped_refuted), raw values break lines (C76_raw_value_quoted_refuted), topics do not filter received messages (C76_received_topics_refuted), user texts arrive with the topic twice (C76_remote_text_refuted), messages with level Off are written (C76_off_is_silent_refuted), traces lack the virtual time (C76_trace_time_refuted), raising the level while building loses the text (C76_level_change_refuted), file names coincide (C76_file_names_refuted)."
 },
 "C77": {
  "note": "Proved for the 139 functions that check what they follow. Refuted: six functions follow a pointer they do not check (C77_unchecked_pointers_refuted), nine parameters have no check of the header (C77_header_not_checked_refuted), the header of any other struct passes the check (C77_header_of_another_struct_refuted), the text of what is no std::exception is that of an earlier error (C77_foreign_exception_text_refuted), events of another service are taken as the struct with the same number (C77_produced_service_refuted)."
 },
 "C78": {
  "note": "Proved for all pairs but those named in the theorems. Refuted: headers of three events (C78_event_headers_refuted), the time of a LIN status update (C78_lin_status_time_refuted), FlexRay buffer updates without payload or not marked as valid (C78_flexray_payload_refuted), older and newer versions of node parameters and of CAN acknowledges leave fields uninitialised (C78_node_versions_refuted, C78_can_transmit_version_refuted). Sizes of FlexRay payloads are taken modulo 2^32 (C78_flexray_payload_size)."
 },
 "C79": {
  "note": "Proved for CAN, Ethernet, FlexRay, the system monitor, and handlers that are set. Refuted: removing a LIN slave configuration handler frees the data of a wakeup handler that stays registered and keeps its own (C79_lin_slave_handler_refuted), handlers of completed steps are never freed (C79_completed_steps_handler_refuted), RpcServer::SetCallHandler registers the server itself as the data (C79_rpc_call_handler_refuted)."
 },
 "C80": {
  "note": "Proved for the parser. Refuted: an empty value given explicitly cannot be told from none (C80_empty_value_refuted). As implemented: an option takes the next argument whatever it is (C80_option_takes_next), values without a name cannot begin with a dash (C80_no_dashed_positionals), arguments after a list are never set (C80_after_list_unset)."
 },
 "C81": {
  "note": "Proved for the three main functions until the utility runs, the controller's handlers and its signal handler. Refuted: the controller accepts --log WARN and then fails with the configuration it makes from it (C81_controller_capital_level_refuted); the monitor fails with the level Warning that its usage names (C81_monitor_documented_level_refuted). A required participant given twice is found only after joining (C81_controller_duplicates_late)."
 },
 "C82": {
  "note": "Proved for the mapper and the worker that uses it; oatpp's JSON text and HTTP are not modelled, reading the text of labels back (yaml-cpp) is a hypothesis. Refuted: one created service that cannot be shown, or one metric, ends the worker and nothing about any simulation is sent after it (C82_all_sent_refuted); names with a slash are shown as several parts (C82_metric_names_refuted); texts that are not numbers are taken for numbers of parents (C82_parent_refuted); simulated controllers are not shown (C82_simulated_refuted)."
 },
 "C83": {
  "note": "Proved for the search, the check and the cache; the code of the libraries and dlopen are a function of the path. Refuted: rejected libraries stay open (C83_closed_refuted, C83_none_closed); a compatible library without the functions hides complete ones (C83_found_refuted); a directory that cannot be read ends the search even if the library was found before (C83_unreadable_refuted); another system is only warned about (C83_system_refuted); if CreateExtension returns nothing a null pointer is dereferenced (C83_undefined_refuted)."
 },
 "C84": {
  "note": "Proved for the acceptor and its listener; asio is an environment that completes operations in any order. Refuted: a connection that is reset before its handler runs, or of which no peer can be made, ends listening for ever while the acceptor stays announced (C84_reset_refuted, C84_never_again); one failure to accept removes the acceptor for good (C84_failure_refuted, C84_removed_for_good); the timer of a failed accept ends a later one (C84_stale_timer_refuted; VAsioConnection uses no timeouts)."
 },
 "C85": {
  "note": "Proved for the UNIX part. Refuted: a function registered while there is another never receives a signal, the next one ends the process (C85_second_registered, C85_registered_is_called_refuted); a signal that reached a function may be lost when it is removed (C85_delivered_lost_refuted), be handled with number -1 (C85_handled_number_refuted) or with the number of a later one (C85_first_signal_refuted); a signal during registration is dropped (C85_early_signal_refuted); metrics may be collected by a participant that never started collecting while it is destroyed (C85_callback_only_if_started_refuted)."
 },
 "C86": {
  "note": "Refuted: unknown log levels share a text (C86_levels_refuted); an unknown direction and the offset and repetition of a FlexRay buffer are shown as raw characters (C86_printable_refuted, C86_flexray_buffer_printable_refuted); the CAN XL baud rate is not shown (C86_can_baudrate_refuted); a LIN frame with an unknown checksum model has no text, an exception is thrown while it is traced (C86_lin_frame_throws, C86_lin_frame_total_refuted); nanoseconds are called ms (C86_lin_wakeup_unit_refuted); only half of the payload of a FlexRay frame is shown (C86_flexray_payload_refuted); names with commas make the text of a workflow ambiguous (C86_workflow_refuted)."
 },
 "C87": {
  "note": "Refuted: if Shutdown or the destructor is called between the completion of the operation and its handler, local_endpoint() throws in the thread of the io_context and the listener is not called (C87_no_exception_refuted, C87_no_exception_destroyed_refuted, C87_answered_refuted); a connector that was shut down before AsyncConnect may still connect (C87_shutdown_final_refuted). Steps of other threads (AsyncConnect is called by the io thread) are not modelled."
 },
 "C88": {
  "note": "Refuted: if the timer of the origin expires although the target has accepted the request, both connections are established and each message is delivered twice (C88_received_once_refuted); the joining thread waits for ever if the target disappears after CONNECTING (C88_join_is_told_refuted) or if its capabilities cannot be parsed (C88_malformed_capabilities_refuted); a registry that does not forward proxy messages leaves the origin waiting for the reply (C88_settles_refuted). Everything else is proved in full; the disappearance of the target is excluded by hypothesis where it matters."
 },
 "C89": {
  "note": "Refuted: names with control characters are not escaped (C89_every_name_refuted); without the assertions of rapidyaml a name that is a sequence or a map is read as the empty name (C89_scalar_refuted); a further member without a value makes all capabilities unreadable (C89_other_members_refuted). Reading starts with the tree of rapidyaml; the step from the text to the tree is that of a JSON reader stated in CapsProofs.v, not rapidyaml's parser."
 },
 "C90": {
  "note": "Proved for version 3.1 (C90_current_completes, C90_current_refused) and for what is accepted (C90_accepted_supported). Refuted for version 3.0: no known participant is learnt (C90_legacy_known_refuted), a handshake with a participant never completes (C90_legacy_participant_refuted), a refusal is read beyond its end (C90_legacy_refusal_refuted). Refuted for other versions: the reply is never sent, its constructor throws (C90_unsupported_refuted, C90_no_reply_without_version). The version in a reply is not checked (C90_reply_version_refuted)."
 },
 "C91": {
  "note": "Proved: no influence on what is sent, exact counts (C91_sent_counted, C91_nothing_before, C91_received_counted, C91_received_bytes for arbitrary bytes), conservation of bytes while the connection lasts (C91_bytes_conserved), agreement from the node that connects to the node that accepts (C91_both_ends). Refuted: after a shutdown messages are counted that are never sent (C91_shutdown_refuted); the known participants are counted by the node that receives them, but not by the registry (C91_known_participants_refuted). Bandwidths and the names of the metrics are not modelled.",
  "status": "partial"
 }
}