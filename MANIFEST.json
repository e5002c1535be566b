{
 "claims": [
  {
   "property": "C01",
   "status": "proved",
   "theorems": [
    "C01_value_roundtrip",
    "C01_sequence_roundtrip",
    "C01_encoding_injective",
    "C01_oversized_rejected"
   ],
   "note": "All wire types incl. nesting; arrays and integers of any positive width."
  },
  {
   "property": "C02",
   "status": "partial",
   "theorems": [
    "C02_service_messages",
    "C02_service_messages_exact_partial",
    "C02_nanoseconds_refuted",
    "C02_announcement",
    "C02_announcement_reply",
    "C02_known_participants",
    "C02_connect_request",
    "C02_subscription",
    "C02_subscription_acknowledge",
    "C02_proxy_message"
   ],
   "note": "All 38 service message types plus handshake, subscription and proxy messages. Lossless except system_clock time points (ParticipantStatus, LogMsg), which lose sub-microsecond digits: exact result proved, losslessness refuted."
  },
  {
   "property": "C03",
   "status": "partial",
   "theorems": [
    "C03_service_messages",
    "C03_values",
    "C03_registry_messages",
    "C03_headers_overread_iff",
    "C03_headers_partial",
    "C03_header_peek_refuted"
   ],
   "note": "All body decoders are safe on arbitrary bytes. Header parser: over-read exactly characterised (registry message with fewer than 8 body bytes); refuted by a 6-byte message."
  },
  {
   "property": "C04",
   "status": "proved",
   "theorems": [
    "C04_lin_config",
    "C04_flexray_config",
    "C04_log_message",
    "C04_announcement",
    "C04_announcement_reply"
   ],
   "note": "Every message type with RemainingBytesLeft tests, with and without the trailing fields."
  },
  {
   "property": "C05",
   "status": "partial",
   "theorems": [
    "C05_announcement_v30",
    "C05_other_versions_rejected",
    "C05_known_participants_v30",
    "C05_known_participants_other",
    "C05_reply_v30_partial",
    "C05_empty_reply_v30_refuted",
    "C05_failed_reply_v30_refuted"
   ],
   "note": "Announcements, known-participant lists and non-empty replies. Findings: an empty 3.0 reply is over-read, a Failed status is lost in the 3.0 encoding."
  },
  {
   "property": "C06",
   "status": "proved",
   "theorems": [
    "C06_frames_in_order",
    "C06_all_delivered",
    "C06_any_bytes",
    "C06_throwing_is_last"
   ],
   "note": "Any initial capacity of at least 4 bytes, any listener (may throw or shut down), any chunking; liveness after as many completed reads as there are bytes."
  },
  {
   "property": "C07",
   "status": "proved",
   "theorems": [
    "C07_ring_is_a_queue",
    "C07_peek",
    "C07_read",
    "C07_reserve",
    "C07_write_areas"
   ],
   "note": "Refinement of the ring buffer to a byte queue over all histories."
  },
  {
   "property": "C08",
   "status": "proved",
   "theorems": [
    "C08_corrupt_length",
    "C08_nothing_after_shutdown"
   ],
   "note": "Corrupt length 0 or above 1 GiB. Lengths 1 to 3 are accepted by the code (see the example)."
  },
  {
   "property": "C09",
   "status": "proved",
   "theorems": [
    "C09_in_call_order",
    "C09_aggregation_keeps_class_order",
    "C09_time_step_flushes",
    "C09_buffer_bounded",
    "C09_queue_drains",
    "C09_end_to_end",
    "C09_kinds",
    "C09_order_across_classes_refuted"
   ],
   "note": "Events are atomic: the unsynchronised access to the aggregation buffer by the timer is outside the model. The refuted theorem shows that other messages overtake aggregated user data, which the property does not forbid."
  },
  {
   "property": "C10",
   "status": "proved",
   "theorems": [
    "C10_match_rule",
    "C10_match_rule_first",
    "C10_symmetric",
    "C10_order_irrelevant"
   ],
   "note": ""
  },
  {
   "property": "C11",
   "status": "proved",
   "theorems": [
    "C11_only_matching"
   ],
   "note": ""
  },
  {
   "property": "C12",
   "status": "partial",
   "theorems": [
    "C12_service_change_partial",
    "C12_registration_partial",
    "C12_complete_refuted",
    "C12_service_change_refuted"
   ],
   "note": "Complete except when an optional label of the arriving side has a key that a labelled other side lacks (both _partial theorems). The full statement is false: C12_complete_refuted and C12_service_change_refuted give histories in which a matching service is missed, because notLabelMap[key] is created empty by a lookup."
  },
  {
   "property": "C13",
   "status": "partial",
   "theorems": [
    "C13_exactly_once_partial",
    "C13_at_most_twice_partial",
    "C13_once_refuted"
   ],
   "note": "Exactly once when both sides have only mandatory labels or none; at most twice in general. False with optional labels: C13_once_refuted (the first carrier of a label is also copied into notLabelMap)."
  },
  {
   "property": "C14",
   "status": "proved",
   "theorems": [
    "C14_told_as_announced",
    "C14_alternates",
    "C14_last_is_current",
    "C14_departure",
    "C14_store_alternates"
   ],
   "note": ""
  },
  {
   "property": "C15",
   "status": "partial",
   "theorems": [
    "C15_registry",
    "C15_event",
    "C15_event_passive",
    "C15_ub_only_by_self_removal",
    "C15_event_ends",
    "C15_self_removal_refuted"
   ],
   "note": "Positive statements for all histories and reentrant handlers; UB exactly by self removal; the unrestricted claim is refuted by a handler that removes itself (iterator increment after erase)."
  },
  {
   "property": "C16",
   "status": "partial",
   "theorems": [
    "C16_unanimous",
    "C16_error_entered",
    "C16_error_stays_partial",
    "C16_error_masked_refuted",
    "C16_missing_partial",
    "C16_missing_refuted",
    "C16_required_refuted",
    "C16_announced_on_change"
   ],
   "note": "Unanimity and entry into Error/Aborting hold for all histories. Staying in Error is proved while no required participant aborts or shuts down (C16_error_stays_partial); C16_error_masked_refuted: ShuttingDown of another participant hides the error. 'Not reported means Invalid' holds only before any disconnect or new required set and up to Error/Aborting (C16_missing_partial); C16_missing_refuted and C16_required_refuted are the counterexamples."
  },
  {
   "property": "C17",
   "status": "proved",
   "theorems": [
    "C17_shutdown_final",
    "C17_until_disconnect",
    "C17_status_handler",
    "C17_invalid_state_refuted"
   ],
   "note": "Finality and the exact sequence seen by status handlers for all histories. C17_invalid_state_refuted is an extra finding: a message with state Invalid (or an unknown number) throws out of the receive path."
  },
  {
   "property": "C18",
   "status": "partial",
   "theorems": [
    "C18_documented_partial",
    "C18_stale_completion_refuted"
   ],
   "note": "All published transitions are documented ones as long as no start-up completion runs after its state was left (hypothesis fresh, on the trace). C18_stale_completion_refuted: a late completion takes a participant from Error to CommunicationInitializing."
  },
  {
   "property": "C19",
   "status": "partial",
   "theorems": [
    "C19_shutdown_terminal_partial",
    "C19_future_set_partial",
    "C19_future_value_partial",
    "C19_future_once",
    "C19_aborted_startup_refuted"
   ],
   "note": "Terminality and the future's value hold under the same hypothesis and if the final reply request is not dropped. C19_aborted_startup_refuted: abort during the service handshake loses the future and restarts the participant."
  },
  {
   "property": "C20",
   "status": "proved",
   "theorems": [
    "C20_handlers",
    "C20_abort_handler_once"
   ],
   "note": "For all executions, no hypothesis: every handler call happens in its state; the abort handler gets the state before the abort."
  },
  {
   "property": "C21",
   "status": "partial",
   "theorems": [
    "C21_gap_free",
    "C21_monotone_partial",
    "C21_negative_duration_refuted"
   ],
   "note": "Gap-freeness for all executions; monotonicity for positive durations. C21_negative_duration_refuted: a negative step duration is accepted and time runs backwards."
  },
  {
   "property": "C22",
   "status": "partial",
   "theorems": [
    "C22_no_overtaking_partial",
    "C22_hop_on_refuted",
    "C22_continue_refuted"
   ],
   "note": "Proved for any number of participants and all schedules, except the first step of a participant that hops on, and executions where RequestNextStep is processed during an asynchronous step. Both exceptions are refuted: C22_hop_on_refuted, C22_continue_refuted."
  },
  {
   "property": "C23",
   "status": "proved",
   "theorems": [
    "C23_never_stuck",
    "C23_livelock_free",
    "C23_blocking_never_stuck"
   ],
   "note": "Groups of any size, all schedules, no wall clock coupling: never stuck, and only finitely many events between two steps."
  },
  {
   "property": "C24",
   "status": "partial",
   "theorems": [
    "C24_first_step",
    "C24_not_ahead_partial",
    "C24_coordinated_abort",
    "C24_false_hop_on_refuted"
   ],
   "note": "First step and later steps characterised for all executions; the joining participant may be ahead of one it knows (C22_hop_on_refuted), and a step size reduction is mistaken for a running simulation (C24_false_hop_on_refuted)."
  },
  {
   "property": "C25",
   "status": "proved",
   "theorems": [
    "C25_dynamic_step",
    "C25_static_step",
    "C25_enabled"
   ],
   "note": "All states; the statement was corrected to the smaller of configured duration and distance."
  },
  {
   "property": "C26",
   "status": "proved",
   "theorems": [
    "C26_one_step",
    "C26_announced_once",
    "C26_next_announced",
    "C26_only_running",
    "C26_none_after_stop",
    "C26_none_after_pause"
   ],
   "note": "All executions."
  },
  {
   "property": "C27",
   "status": "partial",
   "theorems": [
    "C27_positive_timeouts",
    "C27_once",
    "C27_soft_only_late",
    "C27_hard_only_late",
    "C27_in_time_partial",
    "C27_preempted_refuted",
    "C27_reported",
    "C27_missed_refuted"
   ],
   "note": "Once per step, only late, and reported: all interleavings, clock that does not go backwards. In-time steps: polls not interrupted between reading the start time and the clock; the exception is refuted (C27_preempted_refuted). C27_missed_refuted: a late step right after another late one may go unreported."
  },
  {
   "property": "C28",
   "status": "partial",
   "theorems": [
    "C28_only_after",
    "C28_at_most_once",
    "C28_exactly_once_partial",
    "C28_dropped_only_while_waiting",
    "C28_dropped_refuted"
   ],
   "note": "Safety and at-most-once for all executions; exactly once except for requests made while another is waiting, which are dropped (C28_dropped_refuted)."
  },
  {
   "property": "C29",
   "status": "partial",
   "theorems": [
    "C29_exactly_one_partial",
    "C29_at_least_one",
    "C29_overlapping_refuted",
    "C29_answered",
    "C29_answered_once"
   ],
   "note": "Exactly one return for all calls of the barrier, the only user of the service; for overlapping calls at least one, and C29_overlapping_refuted shows two."
  },
  {
   "property": "C30",
   "status": "partial",
   "theorems": [
    "C30_results_partial",
    "C30_overlapping",
    "C30_unknown",
    "C30_not_reachable",
    "C30_surplus_refuted",
    "C30_departed_refuted"
   ],
   "note": "One result per response up to the number of servers, for all executions in which the handling of responses does not overlap, or overlaps but there are no surplus responses. Refuted: C30_departed_refuted (a server leaves and the call is never answered), C30_surplus_refuted."
  },
  {
   "property": "C31",
   "status": "partial",
   "theorems": [
    "C31_timeout_partial",
    "C31_no_timeout",
    "C31_virtual_time",
    "C31_varying_steps_refuted",
    "C31_answered_refuted",
    "C31_no_undefined_partial",
    "C31_race_refuted",
    "C31_no_handler_refuted"
   ],
   "note": "Exact for sequential executions, exact in virtual time for constant step sizes. Refuted: end iterator dereferenced when the timeout of an answered call expires (C31_answered_refuted), early timeout with varying step sizes, race with the timer thread, exception and lost timeouts without handler."
  },
  {
   "property": "C32",
   "status": "partial",
   "theorems": [
    "C32_called_once",
    "C32_called_or_refused",
    "C32_submit_partial",
    "C32_submit_sent",
    "C32_answered_once",
    "C32_again_partial",
    "C32_null",
    "C32_freed_refuted",
    "C32_again_refuted"
   ],
   "note": "All executions of any number of clients with distinct uuids. Refuted: use of the handle after it was destroyed when a result is submitted after the call handler has returned and the server has several clients (C32_freed_refuted); second submission after the handler has returned (C32_again_refuted)."
  },
  {
   "property": "C33",
   "status": "partial",
   "theorems": [
    "C33_subscriber_receives_all_in_order",
    "C33_subscriber_without_history",
    "C33_later_subscriber_partial",
    "C33_subscriptions_reach_every_participant",
    "C33_second_subscriber_gets_last_value_refuted",
    "C33_local_subscriber_gets_last_value_refuted",
    "C33_delivery_with_colliding_ids_refuted"
   ],
   "note": "All executions of any number of participants with distinct ids; exact for the first subscriber of a link on a participant, and every subscription reaches every connected participant. Refuted: a second subscriber on the same participant and a subscriber on the publisher's participant get no last value; colliding participant ids end the deliveries to the wrong participant. Label matching is C10-C13; here publisher and subscriber share a link."
  },
  {
   "property": "C34",
   "status": "proved",
   "theorems": [
    "C34_local_delivery",
    "C34_no_own_messages",
    "C34_no_local_system_commands",
    "C34_remote_delivery"
   ],
   "note": "All executions, all message types, any handlers throwing; no hypothesis on ids."
  },
  {
   "property": "C35",
   "status": "partial",
   "theorems": [
    "C35_complete_only_after_all_replies",
    "C35_complete_excludes_failure",
    "C35_future_truthful",
    "C35_future_stable",
    "C35_completion_reported",
    "C35_failure_reported",
    "C35_join_decided",
    "C35_join_decided_refuted",
    "C35_reports_once_if_not_overtaken",
    "C35_reports_once_refuted"
   ],
   "note": "All numbers of known participants and all interleavings of the joining thread with the I/O thread at the granularity of single atomic reads and writes. Proved: completion only after all replies, never together with failure, futures truthful and stable, nothing lost, reports at most once if StartConnecting is not overtaken. Refuted: the listener is called at most once (the two threads can both report; the promise absorbs the second call). Refuted: JoinSimulation always gets an answer (a participant that announced to be connecting and vanished is waited for without limit)."
  },
  {
   "property": "C36",
   "status": "proved",
   "theorems": [
    "C36_names_unique",
    "C36_known_exactly_the_others",
    "C36_rejected_iff_taken",
    "C36_no_dangling_peer",
    "C36_simulations_isolated",
    "C36_all_gone_only_if_empty",
    "C36_all_gone_called",
    "C36_relay_only_to_holder",
    "C36_requests_only_to_holder",
    "C36_relay_complete_without_rejection",
    "C36_relay_authentic_without_rejection",
    "C36_departure_notice_truthful_without_rejection",
    "C36_relay_complete_refuted",
    "C36_departure_notice_truthful_refuted",
    "C36_relay_authentic_refuted",
    "C36_name_freed_refuted",
    "C36_no_dangling_peer_refuted"
   ],
   "note": "All histories of connections, announcements, disconnects, relayed proxy messages and remote connection requests over any number of simulations. Proved: names unique between join and departure whatever the peers do; the list of known participants exact; a participant is rejected exactly if the name is taken; non-interference between simulations; all-gone handler called exactly when empty; relayed messages and requests reach only the holder of the name; no use of a deleted peer if peers announce themselves once. Refuted (extensions beyond the stated property): a rejected client's departure makes the registry drop messages to the rightful holder of the name and announces its departure, a rejected client may send in its name, a peer announcing itself twice blocks a name for ever and leads to use of a deleted peer."
  },
  {
   "property": "C37",
   "status": "partial",
   "theorems": [
    "C37_made_uri_is_parsed_back",
    "C37_text_of_made_uri",
    "C37_default_port",
    "C37_accepted_uris",
    "C37_percent_encoding",
    "C37_address_in_brackets_refuted",
    "C37_ports_are_numbers_refuted"
   ],
   "note": "Every URI made by the library is parsed back, exact set of accepted texts. Refuted: an IPv6 address in brackets without port is cut at its last colon; garbage and negative ports are accepted."
  },
  {
   "property": "C38",
   "status": "partial",
   "theorems": [
    "C38_no_duplicates",
    "C38_exactly",
    "C38_no_catch_all",
    "C38_preferred_first",
    "C38_fails_iff",
    "C38_no_local_uri_for_remote_audience_refuted",
    "C38_no_new_loopback"
   ],
   "note": "All URIs, all classifications of host addresses. Refuted: loopback and local-domain URIs are handed to audiences on other hosts."
  },
  {
   "property": "C39",
   "status": "proved",
   "theorems": [
    "C39_each_other_controller_once",
    "C39_at_most_once_meanwhile",
    "C39_sender_tx_then_ack",
    "C39_state_of_calls",
    "C39_state_handler_only_on_change",
    "C39_state_handler_on_every_change",
    "C39_nothing_from_nowhere",
    "C39_calls_numbered_in_order",
    "C39_remote_frames_in_call_order",
    "C39_pending_frames_can_be_delivered",
    "C39_local_call_order_refuted",
    "C39_stopped_controller_silent_refuted"
   ],
   "note": "Networks of any number of controllers in any participants, all histories of calls, handlers that call the controllers again, and deliveries, without network simulator and replay. Beyond the property: the frames of another participant arrive in the order of the calls; refuted: the same order within one participant when handlers send; refuted: controllers that were never started receive nothing."
  },
  {
   "property": "C40",
   "status": "proved",
   "theorems": [
    "C40_sender_acknowledged_once",
    "C40_each_other_controller_padded_once",
    "C40_context_only_at_sender",
    "C40_activation",
    "C40_state_handler_only_on_change"
   ],
   "note": "As C39 for Ethernet; the state LinkDown does not occur without network simulator."
  },
  {
   "property": "C41",
   "status": "partial",
   "theorems": [
    "C41_the_only_responder_answers_once",
    "C41_none_or_several_responders_is_an_error",
    "C41_controllers_know_the_slaves",
    "C41_sleeping_slave_answers_too_refuted",
    "C41_late_joining_master_refuted",
    "C41_unknown_length_response_is_silent_refuted"
   ],
   "note": "Networks of any number of statically configured controllers without network simulator, any history of API calls and deliveries, any delivery order after the header. Hypotheses: nothing on its way when the header is sent, no node that is asleep and no second master is configured for the id, the response has a known length. Refuted without them: a sleeping slave answers too, a late joining master misses configuration changes, a response of unknown length is neither sent nor reported. Replay and dynamic responses are not covered."
  },
  {
   "property": "C42",
   "status": "partial",
   "theorems": [
    "C42_valid_ids_never_access_outside_partial",
    "C42_unchecked_ids_refuted"
   ],
   "note": "Proved for valid ids at the functions that do not check them; refuted: SendFrameHeader, UpdateTxBuffer, SendFrame, SendDynamicResponse and received headers with an id of 64 or more access memory outside of the table."
  },
  {
   "property": "C43",
   "status": "partial",
   "theorems": [
    "C43_uninitialised_is_rejected_partial",
    "C43_dynamic_rejects_static_functions",
    "C43_no_frame_is_sent_while_asleep",
    "C43_no_frame_is_received_while_asleep",
    "C43_sleeping_nodes_transmit_refuted",
    "C43_dynamic_response_of_static_controller_refuted",
    "C43_slave_to_slave_reported_while_asleep_refuted"
   ],
   "note": "Proved for all histories of one controller: static functions rejected on a dynamic controller, functions rejected before initialisation (SendDynamicResponse excepted), SendFrame transmits nothing while asleep, frames ignored while asleep. Refuted: sleeping slave answers headers, sleeping master sends headers, SendDynamicResponse accepted by static and uninitialised controllers, success reported for slave to slave frames that are not sent."
  },
  {
   "property": "C44",
   "status": "partial",
   "theorems": [
    "C44_cluster_accepted_iff_documented",
    "C44_node_accepted_iff",
    "C44_validation_is_total",
    "C44_every_parameter_is_validated_refuted",
    "C44_sent_configurations"
   ],
   "note": "All parameter values and all controller operation sequences. Refuted: pChannels, pdMicrotick, pSecondKeySlotId and pTwoKeySlotMode are not validated."
  },
  {
   "property": "C45",
   "status": "partial",
   "theorems": [
    "C45_traced_frames_are_replayed",
    "C45_unordered_file_is_replayed_in_its_step_refuted",
    "C45_recording_is_relative_to_its_start_refuted",
    "C45_replayed_in_the_configured_direction_refuted"
   ],
   "note": "All readers, tasks and step sequences; composed with the PCAP sink and reader. Exceptions thrown by controllers are not modelled. Refuted: files with descending timestamps are replayed late, recordings are not replayed relative to their start, PCAP messages are never replayed in direction Receive."
  },
  {
   "property": "C46",
   "status": "proved",
   "theorems": [
    "C46_text_is_read_back",
    "C46_different_uuids_have_different_texts",
    "C46_characters",
    "C46_strict_total_order",
    "C46_generated_version_and_variant"
   ],
   "note": "All UUIDs."
  },
  {
   "property": "C47",
   "status": "partial",
   "theorems": [
    "C47_escaped_string_is_read_back",
    "C47_escape_is_injective",
    "C47_escaped_string_is_json",
    "C47_every_escaped_string_is_json_refuted",
    "C47_printable_is_safe",
    "C47_printable_is_injective_refuted",
    "C47_split_at_character",
    "C47_split_at_text_refuted"
   ],
   "note": "All byte strings. Refuted: the other control characters are not escaped as JSON requires; PrintableString is not injective; SplitString with a separator of several characters."
  },
  {
   "property": "C48",
   "status": "partial",
   "theorems": [
    "C48_accepted_iff",
    "C48_rejected_otherwise",
    "C48_loaded_configurations_are_valid_refuted"
   ],
   "note": "All configurations. Refuted: loading a configuration never validates it, so dangling trace sink references are accepted by load."
  },
  {
   "property": "C49",
   "status": "partial",
   "theorems": [
    "C49_written_file_is_read_back",
    "C49_pipe_has_the_same_contents",
    "C49_truncated_file_yields_a_prefix",
    "C49_any_truncated_file_yields_a_prefix",
    "C49_every_file_can_be_read",
    "C49_seek_skips_exactly_that_many",
    "C49_copied_reader_starts_again",
    "C49_standard_timestamps_refuted",
    "C49_concurrent_traces_refuted",
    "C49_other_versions_are_rejected_refuted",
    "C49_number_of_messages_refuted",
    "C49_empty_frame_throws"
   ],
   "note": "All frame sequences with storable sizes and times, all truncation points, all files. Refuted: nanosecond magic with microsecond timestamps, concurrent Trace calls not locked, version check accepts half-wrong versions, message count of copied readers."
  },
  {
   "property": "C50",
   "status": "proved",
   "theorems": [
    "C50_dequeued_exactly_once_in_order",
    "C50_no_lost_wakeup",
    "C50_after_stop_drained_then_end",
    "C50_end_only_after_stop"
   ],
   "note": "All interleavings of any number of producers, the stopper and one consumer, with the notification as a separate step."
  },
  {
   "property": "C51",
   "status": "partial",
   "theorems": [
    "C51_flush_timer_refuted",
    "C51_armed_timer_flushes_partial"
   ],
   "note": "Refuted: after the timer expired with an empty buffer nothing arms it again, so later user data stays buffered until the next time step message or the size threshold."
  },
  {
   "property": "C52",
   "status": "proved",
   "theorems": [
    "C52_shutdown_reported_once"
   ],
   "note": ""
  },
  {
   "property": "C53",
   "status": "partial",
   "theorems": [
    "C53_keys_distinct_partial",
    "C53_keys_collide_refuted"
   ],
   "note": "Injective if no part but the last contains a slash; false in general: parts are joined by '/' unescaped (C53_keys_collide_refuted)."
  },
  {
   "property": "C54",
   "status": "partial",
   "theorems": [
    "C54_second_start_refuted"
   ],
   "note": "Refuted: the guard compares a pointer that is never null."
  },
  {
   "property": "C55",
   "status": "partial",
   "theorems": [
    "C55_every_step",
    "C55_not_after_removal",
    "C55_every_period_partial",
    "C55_reconfigured_refuted",
    "C55_unconfigured_refuted",
    "C55_deadlock_refuted",
    "C55_only_deadlock"
   ],
   "note": "Steps and removals for all executions. Periods only for handlers registered after the last configuration: C55_reconfigured_refuted, C55_unconfigured_refuted. Registration can deadlock with the timer thread: C55_deadlock_refuted."
  },
  {
   "property": "C56",
   "status": "partial",
   "theorems": [
    "C56_subscribes_exactly",
    "C56_sync_returns_acknowledged",
    "C56_sync_completes",
    "C56_sync_can_return",
    "C56_no_error_if_serial",
    "C56_done_once",
    "C56_handler_at_most_once",
    "C56_handler_after_acknowledges",
    "C56_every_handler_called",
    "C56_every_handler_called_refuted",
    "C56_handler_after_acknowledges_refuted",
    "C56_sync_returns_acknowledged_refuted",
    "C56_no_error_refuted",
    "C56_register_in_callback_hangs"
   ],
   "note": "Proved for all interleavings: subscriptions go to exactly the connected peers, once per message type with fresh indexes; handlers called at most once and, by the I/O thread, only when all subscriptions are settled. Proved if synchronous registrations do not overlap: returns only after all acknowledges, completes when they are there, no future_error, no failing assertion. Proved if handlers are handed over without interleaving: all are called. Refuted: handlers can get lost in a race with the completion; the flag is reset by an earlier registration so that a handler is called while subscriptions are pending; overlapping synchronous registrations return early and fulfil a promise twice. Proved: registering a synchronous service in a callback of the I/O thread never returns."
  },
  {
   "property": "C57",
   "status": "partial",
   "theorems": [
    "C57_messages_are_routed_correctly",
    "C57_no_message_is_misread_refuted"
   ],
   "note": "Proved except for the two message types with the same serializer name: C57_no_message_is_misread_refuted."
  },
  {
   "property": "C58",
   "status": "partial",
   "theorems": [
    "C58_sends_to_the_simulator",
    "C58_receives_from_the_simulator",
    "C58_refused_buffers",
    "C58_uses_a_running_simulator_refuted"
   ],
   "note": "All operation sequences. Refuted: after the simulator left, a new one is ignored and messages still go to the old one; a configuration sent before discovery is addressed to nobody."
  },
  {
   "property": "C59",
   "status": "partial",
   "theorems": [
    "C59_included_files_are_read_once",
    "C59_missing_file_is_an_error",
    "C59_accepted_iff_consistent",
    "C59_items",
    "C59_conflicting_items_are_an_error",
    "C59_options",
    "C59_name_and_acceptors",
    "C59_sinks",
    "C59_extensions",
    "C59_health_check_last_wins",
    "C59_health_check_conflict_is_an_error_refuted",
    "C59_conflicting_services_are_an_error_refuted",
    "C59_conflicting_tx_buffers_are_an_error_refuted",
    "C59_options_are_defined_once_refuted",
    "C59_metrics_options_are_lost",
    "C59_metrics_options_are_kept_refuted",
    "C59_deep_includes_are_read_refuted",
    "C59_each_file_is_read_once_refuted"
   ],
   "note": "All file systems and include graphs. Refuted: health check timeouts compared the wrong way round; conflicting publishers, subscribers, RPC services and FlexRay tx buffers silently dropped; options may be set twice; metrics options CollectFromRemote and UpdateInterval always lost; includes deeper than 127 ignored; the root file is read again when included."
  },
  {
   "property": "C60",
   "status": "partial",
   "theorems": [
    "C60_reports_are_the_events_of_the_simulation",
    "C60_aborted_reports_are_a_prefix",
    "C60_creation_precedes_updates",
    "C60_ids_are_not_mixed_up",
    "C60_no_event_dropped_partial",
    "C60_end_means_nobody_is_connected_refuted",
    "C60_connected_participants_are_reported_refuted",
    "C60_failed_creation_is_repeated_refuted",
    "C60_events_before_destruction_are_reported_refuted"
   ],
   "note": "Times, URIs and the REST client are not modelled. Nothing is dropped provided a remaining participant has published a status whenever one leaves; refuted in general: premature end while participants are connected, later participants never reported, failed creation not repeated, events queued before destruction dropped."
  },
  {
   "property": "C61",
   "status": "partial",
   "theorems": [
    "C61_uris_sorted",
    "C61_uris_stable",
    "C61_addresses_bracketed",
    "C61_other_addresses_unchanged",
    "C61_unparsable_left_out",
    "C61_tries_in_order",
    "C61_failure_only_if_exhausted",
    "C61_success_final",
    "C61_reported_once",
    "C61_reported_unless_pending",
    "C61_reported_eventually",
    "C61_reported_once_refuted",
    "C61_use_after_free_refuted",
    "C61_shutdown_refuted"
   ],
   "note": "Proved for all runs: order of tries, failure only after all tries, success final and for the last URI, a result is reported whenever no connector is at work, and after at most as many completions as tries. Proved if no connector fails inside of AsyncConnect: reported at most once, no use after destruction. Refuted otherwise: a connector failing synchronously leads to several reports or to use after free; Shutdown only moves on to the next URI."
  },
  {
   "property": "C62",
   "status": "partial",
   "theorems": [
    "C62_request_routed",
    "C62_request_once",
    "C62_simulator_messages_ignored",
    "C62_events_routed",
    "C62_events_need_producer",
    "C62_descriptor_unique",
    "C62_present_is_provided",
    "C62_removed_once",
    "C62_removed_iff_gone",
    "C62_producer_once",
    "C62_producer_first",
    "C62_no_dangling_router",
    "C62_second_simulator_found",
    "C62_producer_first_refuted",
    "C62_simulate_twice_refuted",
    "C62_second_simulator_leaving_refuted",
    "C62_start_again_refuted"
   ],
   "note": "Proved for all histories in which a participant uses a service id for one service at a time: routing of requests and events, uniqueness of descriptors, reporting of removals, event producer at most once. Proved if networks of different types have different names: the event producer comes first. Proved if no network is simulated twice: no freed router is called. Refuted otherwise: with a shared name the second network never gets an event producer; after a second SimulateNetwork of the same network a freed router is called; the departure of another simulator throws; a failed Start can not be repeated."
  },
  {
   "property": "C63",
   "status": "partial",
   "theorems": [
    "C63_event_reaches_its_controller",
    "C63_event_reaches_its_controller_refuted",
    "C63_mode_follows_simulator",
    "C63_mode_other_type_refuted",
    "C63_mode_second_simulator_refuted",
    "C63_can_states",
    "C63_can_states_refuted"
   ],
   "note": "Proved if the links on a network name are of one type and at most one is present at a time (mode), if all controllers of the participant on the network are simulated by the sender (acceptance), if states are always produced for the controller too (states). Refuted otherwise: the simulator of a network of another type with the same name captures the controllers; the departure of a second simulator switches to trivial mode; a controller still in trivial mode accepts events addressed to others; a CAN controller is told the error state of another."
  },
  {
   "property": "C64",
   "status": "proved",
   "theorems": [
    "C64_answer_as_configured",
    "C64_reported_as_configured",
    "C64_invalid_frames_ignored",
    "C64_go_to_sleep_reported",
    "C64_set_response_does_not_change"
   ],
   "note": "Proved for all histories, including the configuration of a master for reception by SendFrame with SlaveResponse, which depends on what the other nodes announced."
  },
  {
   "property": "C65",
   "status": "proved",
   "theorems": [
    "C65_delivered_in_order_once",
    "C65_attributed_to_the_sender",
    "C65_end_after_everything",
    "C65_end_is_reported",
    "C65_both_sides_have_a_peer",
    "C65_nothing_dangles"
   ],
   "note": "Proved for all runs of the network. Participants do not come back under the same name, and the registry does not end; see C66 for what happens then."
  },
  {
   "property": "C66",
   "status": "partial",
   "theorems": [
    "C66_registry_lost_partial",
    "C66_registry_lost_refuted",
    "C66_left_peer_is_used_again",
    "C66_recursion_ends",
    "C66_proxy_over_existing_peer",
    "C66_close_ends_all_over_it",
    "C66_names_of_deleted_peers_refuted",
    "C66_only_known_peers_end_refuted",
    "C66_source_is_checked_refuted",
    "C66_destinations_end_with_the_participant_refuted"
   ],
   "note": "The part about deleted objects is false: after a proxied peer has left, the end of the connection below uses it (proved in general and as a refutation); it holds if none has left before (C66_registry_lost_partial). Further refutations: dangling name entries after a second announcement, end of unknown participants, forged sources, stale destinations."
  },
  {
   "property": "C67",
   "status": "partial",
   "theorems": [
    "C67_written_reads_back",
    "C67_exact_iff_lossless",
    "C67_second_trip_stable",
    "C67_unreadable_iff_nameless_file",
    "C67_loaded_is_readable_again_refuted",
    "C67_format_survives_refuted",
    "C67_topics_survive_refuted",
    "C67_interval_survives_refuted",
    "C67_registry_written_reads_back",
    "C67_registry_written_iff_no_metrics",
    "C67_registry_configuration_can_be_written_refuted",
    "C67_wrong_kind_rejected_refuted"
   ],
   "note": "Full strength with the loss made explicit (kept, lossless); that nothing is lost is refuted: format, topics, update interval, replays without source; files without a name cannot be read again; the registry's configuration with metrics cannot be written."
  },
  {
   "property": "C68",
   "status": "partial",
   "theorems": [
    "C68_accepted_iff",
    "C68_ignored_reported",
    "C68_refused_iff_error_reported",
    "C68_visitor_balanced",
    "C68_unknown_has_no_effect",
    "C68_pruned_is_known",
    "C68_written_is_accepted",
    "C68_written_loads",
    "C68_unknown_is_ignored_refuted",
    "C68_unread_is_reported_refuted",
    "C68_duplicate_path_refuted"
   ],
   "note": "Proved for all documents. Refuted: that unknown elements are always ignored (a list of values below one is an error), that whatever is not read is reported (a key with a slash is taken for a path), and that the path reported for a duplicate is that of the map it is in."
  },
  {
   "property": "C69",
   "status": "partial",
   "theorems": [
    "C69_labels_arrive",
    "C69_other_kinds_not_sent",
    "C69_configured_labels_convert",
    "C69_api_labels_convert",
    "C69_received_kinds",
    "C69_unknown_kind_refused_refuted"
   ],
   "note": "Proved on the tree of nodes, not on its text. Refuted: kinds that are not known are refused (4294967298 is read as Mandatory)."
  },
  {
   "property": "C70",
   "status": "partial",
   "theorems": [
    "C70_quoted_numbers",
    "C70_quoted_numbers_refuted",
    "C70_checked_exact",
    "C70_numbers_are_those_in_the_document",
    "C70_unchecked_wraps",
    "C70_history_range_refuted",
    "C70_flexray_range_refuted",
    "C70_document_defined_refuted",
    "C70_least_number_refuted"
   ],
   "note": "Proved for the checked integers except that the least number of a signed type is an overflow (refuted); the unchecked ones (FlexRay parameters, history, label kinds) wrap or are undefined (refuted, with the exact result for all integers)."
  },
  {
   "property": "C71",
   "status": "proved",
   "theorems": [
    "C71_enumerations",
    "C71_topics",
    "C71_booleans",
    "C71_other_bases",
    "C71_configuration_holds_the_document",
    "C71_registry_holds_the_document",
    "C71_required_elements",
    "C71_one_of_two_names"
   ],
   "note": "On the tree of nodes, not the text of the document. Texts are covered where the node is a scalar, integers and booleans in the forms they are written in (decimal, 0x, 0o, 0b; true/false/1/0)."
  },
  {
   "property": "C72",
   "status": "partial",
   "theorems": [
    "C72_submission_reports_every_update",
    "C72_sinks_know_the_present_values",
    "C72_concurrent_update_is_submitted_refuted",
    "C72_value_follows_its_time_refuted",
    "C72_equal_times_refuted",
    "C72_counter_value",
    "C72_list_and_attribute_values",
    "C72_statistic_extrema",
    "C72_statistic_mean_and_variance",
    "C72_statistic_mean_between_extrema_refuted",
    "C72_requests",
    "C72_names_are_distinguished_refuted",
    "C72_names_without_separator"
   ],
   "note": "The full statement is false with overlapping updates (C72_concurrent_update_is_submitted_refuted, C72_value_follows_its_time_refuted), with equal clock values (C72_equal_times_refuted), for names containing '/' (C72_names_are_distinguished_refuted), and the mean of a statistic starts from zero (C72_statistic_mean_between_extrema_refuted). Proved otherwise; statistics over rational numbers instead of double."
  },
  {
   "property": "C73",
   "status": "proved",
   "theorems": [
    "C73_every_sink_is_told_everything",
    "C73_nothing_is_lost_before",
    "C73_told_in_order_at_any_time",
    "C73_no_deadlock",
    "C73_sinks_are_set_once",
    "C73_metrics_travel_once",
    "C73_configured_sinks"
   ],
   "note": "Sequentially consistent interleavings of the statements; sinks do not throw."
  },
  {
   "property": "C74",
   "status": "partial",
   "theorems": [
    "C74_string_list_is_read_back",
    "C74_string_list_is_json",
    "C74_every_string_list_is_json_refuted",
    "C74_file_is_read_back",
    "C74_file_is_json",
    "C74_one_line_per_record",
    "C74_every_record_is_one_line_refuted",
    "C74_submitted_records_are_well_formed"
   ],
   "note": "Control characters in string lists (and those without a short escape anywhere) make it invalid JSON, and a line break in a string list splits the record over two lines: C74_every_string_list_is_json_refuted, C74_every_record_is_one_line_refuted. The text of floating-point numbers is a parameter."
  },
  {
   "property": "C75",
   "status": "partial",
   "theorems": [
    "C75_name_and_uri",
    "C75_empty_name_rejected",
    "C75_notes",
    "C75_uri_message_refuted",
    "C75_join",
    "C75_joined_services",
    "C75_numbers",
    "C75_distinct",
    "C75_one_per_name",
    "C75_descriptors",
    "C75_created_iff",
    "C75_failed_call",
    "C75_announced_once",
    "C75_registered_once",
    "C75_registered_first",
    "C75_time_sync_on_demand",
    "C75_controller",
    "C75_publisher",
    "C75_subscriber",
    "C75_client",
    "C75_server",
    "C75_internal",
    "C75_history",
    "C75_labels_sorted",
    "C75_labels_kept",
    "C75_passed_labels",
    "C75_duplicate_labels_refuted",
    "C75_trace_sinks",
    "C75_sinks_constant",
    "C75_rpc_sinks_refuted",
    "C75_mismatches"
   ],
   "note": "Refuted in part: a missing URI is reported as a different one (C75_uri_message_refuted), configured labels with equal keys depend on std::sort (C75_duplicate_labels_refuted), trace sinks configured for RPC are ignored (C75_rpc_sinks_refuted). Proved otherwise; calls one after another, fewer than 2^64 services for the uniqueness of numbers."
  },
  {
   "property": "C76",
   "status": "partial",
   "theorems": [
    "C76_sink_lines",
    "C76_remote_messages",
    "C76_log_level",
    "C76_json_file_reads_back",
    "C76_one_line_per_message",
    "C76_name_escaped_refuted",
    "C76_raw_value_quoted_refuted",
    "C76_remote_log_is_local_log",
    "C76_level_change_refuted",
    "C76_complete_simulation_step_warning",
    "C76_unknown_level",
    "C76_received_unknown_level",
    "C76_received_topics_refuted",
    "C76_remote_text_refuted",
    "C76_remote_text_topic_twice",
    "C76_off_is_silent_refuted",
    "C76_off_takes_nothing_else",
    "C76_trace_not_lost",
    "C76_trace_without_time",
    "C76_trace_time_refuted",
    "C76_logged_once",
    "C76_file_names_refuted",
    "C76_file_names_of_a_participant"
   ],
   "note": "Proved for the seven levels and messages that keep their level while being built. Refuted in part: participant names are not escaped (C76_name_escaped_refuted), raw values break lines (C76_raw_value_quoted_refuted), topics do not filter received messages (C76_received_topics_refuted), user texts arrive with the topic twice (C76_remote_text_refuted), messages with level Off are written (C76_off_is_silent_refuted), traces lack the virtual time (C76_trace_time_refuted), raising the level while building loses the text (C76_level_change_refuted), file names coincide (C76_file_names_refuted)."
  },
  {
   "property": "C77",
   "status": "partial",
   "theorems": [
    "C77_exceptions_keep_class",
    "C77_no_exception_lost",
    "C77_success_throws_nothing",
    "C77_other_exceptions",
    "C77_foreign_exception_text_refuted",
    "C77_code_strings",
    "C77_unknown_code_or_null",
    "C77_identifiers",
    "C77_valid_identifiers",
    "C77_all_identifiers",
    "C77_null_parameter",
    "C77_null_pointer",
    "C77_no_undefined_behaviour",
    "C77_good_arguments",
    "C77_invalid_header",
    "C77_flexray_configuration_members",
    "C77_flexray_booleans",
    "C77_unchecked_pointers_refuted",
    "C77_header_of_another_struct_refuted",
    "C77_header_not_checked_refuted",
    "C77_produced_events",
    "C77_produced_service_refuted"
   ],
   "note": "Proved for the 139 functions that check what they follow. Refuted: six functions follow a pointer they do not check (C77_unchecked_pointers_refuted), nine parameters have no check of the header (C77_header_not_checked_refuted), the header of any other struct passes the check (C77_header_of_another_struct_refuted), the text of what is no std::exception is that of an earlier error (C77_foreign_exception_text_refuted), events of another service are taken as the struct with the same number (C77_produced_service_refuted)."
  },
  {
   "property": "C78",
   "status": "partial",
   "theorems": [
    "C78_there_and_back",
    "C78_fields_to_c",
    "C78_headers_to_c",
    "C78_fields_from_c",
    "C78_lists_there_and_back",
    "C78_flexray_update",
    "C78_flexray_update_boolean",
    "C78_netsim_flexray_update",
    "C78_flexray_payload_refuted",
    "C78_lin_status_time_refuted",
    "C78_event_headers_refuted",
    "C78_node_versions_refuted",
    "C78_can_transmit_version_refuted",
    "C78_flexray_payload_size"
   ],
   "note": "Proved for all pairs but those named in the theorems. Refuted: headers of three events (C78_event_headers_refuted), the time of a LIN status update (C78_lin_status_time_refuted), FlexRay buffer updates without payload or not marked as valid (C78_flexray_payload_refuted), older and newer versions of node parameters and of CAN acknowledges leave fields uninitialised (C78_node_versions_refuted, C78_can_transmit_version_refuted). Sizes of FlexRay payloads are taken modulo 2^32 (C78_flexray_payload_size)."
  },
  {
   "property": "C79",
   "status": "partial",
   "theorems": [
    "C79_handler_data_alive",
    "C79_handler_data_freed",
    "C79_lin_handler_data_partial",
    "C79_lin_slave_handler_refuted",
    "C79_completed_steps_handler_refuted",
    "C79_set_handler",
    "C79_rpc_call_handler_refuted"
   ],
   "note": "Proved for CAN, Ethernet, FlexRay, the system monitor, and handlers that are set. Refuted: removing a LIN slave configuration handler frees the data of a wakeup handler that stays registered and keeps its own (C79_lin_slave_handler_refuted), handlers of completed steps are never freed (C79_completed_steps_handler_refuted), RpcServer::SetCallHandler registers the server itself as the data (C79_rpc_call_handler_refuted)."
  },
  {
   "property": "C80",
   "status": "partial",
   "theorems": [
    "C80_accepted_iff",
    "C80_values",
    "C80_unknown_rejected",
    "C80_missing_value_rejected",
    "C80_too_many_rejected",
    "C80_equals_or_space",
    "C80_no_dashed_positionals",
    "C80_option_takes_next",
    "C80_after_list_unset",
    "C80_empty_value_refuted"
   ],
   "note": "Proved for the parser. Refuted: an empty value given explicitly cannot be told from none (C80_empty_value_refuted). As implemented: an option takes the next argument whatever it is (C80_option_takes_next), values without a name cannot begin with a dash (C80_no_dashed_positionals), arguments after a list are never set (C80_after_list_unset)."
  },
  {
   "property": "C81",
   "status": "partial",
   "theorems": [
    "C81_controller_runs",
    "C81_controller_ends",
    "C81_controller_duplicates_late",
    "C81_controller_capital_level_refuted",
    "C81_workflow",
    "C81_workflow_never",
    "C81_signal",
    "C81_monitor_runs",
    "C81_monitor_documented_level_refuted",
    "C81_registry_runs",
    "C81_registry_ends",
    "C81_registry_starts",
    "C81_registry_started",
    "C81_registry_status"
   ],
   "note": "Proved for the three main functions until the utility runs, the controller's handlers and its signal handler. Refuted: the controller accepts --log WARN and then fails with the configuration it makes from it (C81_controller_capital_level_refuted); the monitor fails with the level Warning that its usage names (C81_monitor_documented_level_refuted). A required participant given twice is found only after joining (C81_controller_duplicates_late)."
  },
  {
   "property": "C82",
   "status": "partial",
   "theorems": [
    "C82_update",
    "C82_update_possible",
    "C82_shown_once",
    "C82_states",
    "C82_states_possible",
    "C82_parent",
    "C82_parent_refuted",
    "C82_participant_services",
    "C82_participants_shown",
    "C82_metrics",
    "C82_metrics_possible",
    "C82_metric_names",
    "C82_metric_names_refuted",
    "C82_worker",
    "C82_all_sent_refuted",
    "C82_simulated_refuted"
   ],
   "note": "Proved for the mapper and the worker that uses it; oatpp's JSON text and HTTP are not modelled, reading the text of labels back (yaml-cpp) is a hypothesis. Refuted: one created service that cannot be shown, or one metric, ends the worker and nothing about any simulation is sent after it (C82_all_sent_refuted); names with a slash are shown as several parts (C82_metric_names_refuted); texts that are not numbers are taken for numbers of parents (C82_parent_refuted); simulated controllers are not shown (C82_simulated_refuted)."
  },
  {
   "property": "C83",
   "status": "partial",
   "theorems": [
    "C83_loaded",
    "C83_loaded_possible",
    "C83_other_error",
    "C83_load_error",
    "C83_created",
    "C83_system_refuted",
    "C83_closed_refuted",
    "C83_none_closed",
    "C83_found_refuted",
    "C83_unreadable_refuted",
    "C83_cached",
    "C83_first_call",
    "C83_undefined_refuted",
    "C83_released",
    "C83_closed",
    "C83_kept"
   ],
   "note": "Proved for the search, the check and the cache; the code of the libraries and dlopen are a function of the path. Refuted: rejected libraries stay open (C83_closed_refuted, C83_none_closed); a compatible library without the functions hides complete ones (C83_found_refuted); a directory that cannot be read ends the search even if the library was found before (C83_unreadable_refuted); another system is only warned about (C83_system_refuted); if CreateExtension returns nothing a null pointer is dereferenced (C83_undefined_refuted)."
  },
  {
   "property": "C84",
   "status": "partial",
   "theorems": [
    "C84_answered_once",
    "C84_timeout",
    "C84_untimed",
    "C84_stale_timer_refuted",
    "C84_listening",
    "C84_accepts_all",
    "C84_reset_refuted",
    "C84_never_again",
    "C84_removed_for_good",
    "C84_failure_refuted",
    "C84_shutdown"
   ],
   "note": "Proved for the acceptor and its listener; asio is an environment that completes operations in any order. Refuted: a connection that is reset before its handler runs, or of which no peer can be made, ends listening for ever while the acceptor stays announced (C84_reset_refuted, C84_never_again); one failure to accept removes the acceptor for good (C84_failure_refuted, C84_removed_for_good); the timer of a failed accept ends a later one (C84_stale_timer_refuted; VAsioConnection uses no timeouts)."
  },
  {
   "property": "C85",
   "status": "partial",
   "theorems": [
    "C85_handled_once",
    "C85_handled_signalled",
    "C85_not_after_join",
    "C85_delivered_is_handled",
    "C85_first_registered",
    "C85_second_registered",
    "C85_registered_is_called_refuted",
    "C85_delivered_lost_refuted",
    "C85_handled_number_refuted",
    "C85_first_signal_refuted",
    "C85_early_signal_refuted",
    "C85_no_callback_after_done",
    "C85_timer_ends_only_after_done",
    "C85_no_callback_after_destruction",
    "C85_callback_started",
    "C85_callbacks_in_turn",
    "C85_destructor_returns",
    "C85_callback_only_if_started_refuted"
   ],
   "note": "Proved for the UNIX part. Refuted: a function registered while there is another never receives a signal, the next one ends the process (C85_second_registered, C85_registered_is_called_refuted); a signal that reached a function may be lost when it is removed (C85_delivered_lost_refuted), be handled with number -1 (C85_handled_number_refuted) or with the number of a later one (C85_first_signal_refuted); a signal during registration is dropped (C85_early_signal_refuted); metrics may be collected by a participant that never started collecting while it is destroyed (C85_callback_only_if_started_refuted)."
  },
  {
   "property": "C86",
   "status": "partial",
   "theorems": [
    "C86_hex",
    "C86_hex_all",
    "C86_enumerations",
    "C86_enumerations_throw",
    "C86_levels_refuted",
    "C86_printable_refuted",
    "C86_can_frame",
    "C86_can_mode",
    "C86_can_baudrate",
    "C86_can_baudrate_refuted",
    "C86_ethernet_frame",
    "C86_lin_frame",
    "C86_lin_request",
    "C86_lin_update",
    "C86_lin_wakeup",
    "C86_lin_frame_throws",
    "C86_lin_frame_total_refuted",
    "C86_lin_wakeup_unit_refuted",
    "C86_flexray_header",
    "C86_flexray_frame",
    "C86_flexray_payload_refuted",
    "C86_flexray_buffer",
    "C86_flexray_buffer_printable_refuted",
    "C86_flexray_update",
    "C86_data",
    "C86_workflow",
    "C86_workflow_refuted"
   ],
   "note": "Refuted: unknown log levels share a text (C86_levels_refuted); an unknown direction and the offset and repetition of a FlexRay buffer are shown as raw characters (C86_printable_refuted, C86_flexray_buffer_printable_refuted); the CAN XL baud rate is not shown (C86_can_baudrate_refuted); a LIN frame with an unknown checksum model has no text, an exception is thrown while it is traced (C86_lin_frame_throws, C86_lin_frame_total_refuted); nanoseconds are called ms (C86_lin_wakeup_unit_refuted); only half of the payload of a FlexRay frame is shown (C86_flexray_payload_refuted); names with commas make the text of a workflow ambiguous (C86_workflow_refuted)."
  },
  {
   "property": "C87",
   "status": "partial",
   "theorems": [
    "C87_at_most_one_callback",
    "C87_no_callback_after_destruction",
    "C87_answered",
    "C87_timeout",
    "C87_without_timeout",
    "C87_once",
    "C87_handlers_state",
    "C87_stream_open",
    "C87_listener",
    "C87_no_exception",
    "C87_no_exception_refuted",
    "C87_no_exception_destroyed_refuted",
    "C87_answered_refuted",
    "C87_shutdown_final_refuted"
   ],
   "note": "Refuted: if Shutdown or the destructor is called between the completion of the operation and its handler, local_endpoint() throws in the thread of the io_context and the listener is not called (C87_no_exception_refuted, C87_no_exception_destroyed_refuted, C87_answered_refuted); a connector that was shut down before AsyncConnect may still connect (C87_shutdown_final_refuted). Steps of other threads (AsyncConnect is called by the io thread) are not modelled."
  },
  {
   "property": "C88",
   "status": "partial",
   "theorems": [
    "C88_settles",
    "C88_proxy_never_fails",
    "C88_terminates",
    "C88_stuck_means_settled",
    "C88_join_is_told",
    "C88_answered",
    "C88_announcements",
    "C88_received_once",
    "C88_received_published",
    "C88_proxy_last",
    "C88_direct_origin",
    "C88_reply_after_announcement",
    "C88_only_on_request",
    "C88_request_capabilities",
    "C88_proxy_capabilities",
    "C88_accept_capability",
    "C88_received_once_refuted",
    "C88_join_is_told_refuted",
    "C88_malformed_capabilities_refuted",
    "C88_settles_refuted"
   ],
   "note": "Refuted: if the timer of the origin expires although the target has accepted the request, both connections are established and each message is delivered twice (C88_received_once_refuted); the joining thread waits for ever if the target disappears after CONNECTING (C88_join_is_told_refuted) or if its capabilities cannot be parsed (C88_malformed_capabilities_refuted); a registry that does not forward proxy messages leaves the origin waiting for the reply (C88_settles_refuted). Everything else is proved in full; the disappearance of the target is excluded by hypothesis where it matters."
  },
  {
   "property": "C89",
   "status": "partial",
   "theorems": [
    "C89_added",
    "C89_parsed",
    "C89_refused",
    "C89_parsed_flags",
    "C89_text_is_json",
    "C89_text_read_back",
    "C89_configuration",
    "C89_every_name_refuted",
    "C89_scalar_refuted",
    "C89_other_members_refuted"
   ],
   "note": "Refuted: names with control characters are not escaped (C89_every_name_refuted); without the assertions of rapidyaml a name that is a sequence or a map is read as the empty name (C89_scalar_refuted); a further member without a value makes all capabilities unreadable (C89_other_members_refuted). Reading starts with the tree of rapidyaml; the step from the text to the tree is that of a JSON reader stated in CapsProofs.v, not rapidyaml's parser."
  },
  {
   "property": "C90",
   "status": "partial",
   "theorems": [
    "C90_current_completes",
    "C90_current_refused",
    "C90_legacy_registry_partial",
    "C90_legacy_known_refuted",
    "C90_legacy_participant_refuted",
    "C90_legacy_refusal_refuted",
    "C90_unsupported_refuted",
    "C90_no_reply_without_version",
    "C90_stalled_connection",
    "C90_accepted_supported",
    "C90_reply_version_refuted"
   ],
   "note": "Proved for version 3.1 (C90_current_completes, C90_current_refused) and for what is accepted (C90_accepted_supported). Refuted for version 3.0: no known participant is learnt (C90_legacy_known_refuted), a handshake with a participant never completes (C90_legacy_participant_refuted), a refusal is read beyond its end (C90_legacy_refusal_refuted). Refuted for other versions: the reply is never sent, its constructor throws (C90_unsupported_refuted, C90_no_reply_without_version). The version in a reply is not checked (C90_reply_version_refuted)."
  },
  {
   "property": "C91",
   "status": "partial",
   "theorems": [
    "C91_no_influence",
    "C91_sent_counted",
    "C91_nothing_before",
    "C91_bytes_conserved",
    "C91_shutdown_refuted",
    "C91_queue_size",
    "C91_received_counted",
    "C91_received_bytes",
    "C91_both_ends",
    "C91_known_participants_refuted"
   ],
   "note": "Proved: no influence on what is sent, exact counts (C91_sent_counted, C91_nothing_before, C91_received_counted, C91_received_bytes for arbitrary bytes), conservation of bytes while the connection lasts (C91_bytes_conserved), agreement from the node that connects to the node that accepts (C91_both_ends). Refuted: after a shutdown messages are counted that are never sent (C91_shutdown_refuted); the known participants are counted by the node that receives them, but not by the registry (C91_known_participants_refuted). Bandwidths and the names of the metrics are not modelled."
  }
 ]
}