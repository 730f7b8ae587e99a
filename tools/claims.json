[
 {
  "property": "C01",
  "status": "proved",
  "theorems": [
   "at_most_one_outstanding",
   "at_most_one_outstanding_racy_refuted",
   "late_timer_null_dereference_refuted",
   "serial_receive_error",
   "serial_timeout"
  ],
  "note": "For schedules in which the receive and timer callbacks are not interrupted between their critical sections; the race in between is a finding (racy_refuted, late_timer_null_dereference_refuted)."
 },
 {
  "property": "C02",
  "status": "proved",
  "theorems": [
   "transactional_order",
   "transmits_what_is_due",
   "transmits_nothing_else"
  ],
  "note": "For every schedule, including failures, retries and restarts; the exact choice of the worker is transmits_what_is_due / transmits_nothing_else."
 },
 {
  "property": "C03",
  "status": "proved",
  "theorems": [
   "transactional_not_lost"
  ],
  "note": "Message ids are distinct (they are random UUIDs); SecurityEventNotifications may be forgotten by a restart that is told so."
 },
 {
  "property": "C04",
  "status": "proved",
  "theorems": [
   "database_mirrors_queue",
   "restart_recovers_owed"
  ],
  "note": ""
 },
 {
  "property": "C05",
  "status": "proved",
  "theorems": [
   "transmissions_bounded",
   "transmissions_bounded_after_restart",
   "given_up_only_after_attempts",
   "failure_retries",
   "failure_discards",
   "failure_of_boot",
   "failure_of_other",
   "timeout_at_deadline",
   "given_up_early_refuted"
  ],
  "note": "Transmissions per process run; attempts include hand-overs the socket refused, hence given_up_early_refuted."
 },
 {
  "property": "C06",
  "status": "proved",
  "theorems": [
   "quiet_before_acceptance",
   "withdrawn_registration_refuted"
  ],
  "note": "Station = dispatcher + queue. After the registration is withdrawn the queue is not told (withdrawn_registration_refuted)."
 },
 {
  "property": "C07",
  "status": "proved",
  "theorems": [
   "push_and_size_policy",
   "refused_push"
  ],
  "note": ""
 },
 {
  "property": "C08",
  "status": "partial",
  "theorems": [
   "failed_send_keeps_retryable",
   "failed_send_drops_partial",
   "failed_send_drops_other_refuted"
  ],
  "note": "False in general: failed_send_drops_other_refuted. Proved for retryable messages, and for others when the message transmitted stands at the front of the queue."
 },
 {
  "property": "C09",
  "status": "proved",
  "theorems": [
   "response_completes",
   "response_of_other_id",
   "result_only_for_its_call",
   "promise_set_at_most_once",
   "promise_accounted",
   "promise_set_twice_refuted"
  ],
  "note": "Exactly once: promise_set_at_most_once always; that the promise is not forgotten needs uninterrupted callbacks, no restart and orderly failures (promise_set_twice_refuted shows why), and excludes messages dropped by the size policy."
 },
 {
  "property": "C10",
  "status": "proved",
  "theorems": [
   "silent_after_pause",
   "silent_before_first_resume",
   "delayed_resume_waits",
   "delayed_resume_resumes",
   "resume_without_delay"
  ],
  "note": ""
 },
 {
  "property": "C100",
  "status": "partial",
  "theorems": [
   "C100_decision",
   "C100_accepted_only_if",
   "C100_no_undefined_behaviour_partial",
   "C100_no_undefined_behaviour_refuted",
   "C100_failing_query_refuted",
   "C100_last_word_counts_refuted",
   "C100_disabled_cache_is_not_filled_refuted",
   "C100_tags_are_case_insensitive_refuted"
  ],
  "note": "The decision is proved. Undefined behaviour before the first connection and with a failing query is refuted; so are that the answer to StopTransaction.req counts, that a disabled cache is not filled and that tags are case insensitive."
 },
 {
  "property": "C101",
  "status": "partial",
  "theorems": [
   "C101_updates_are_answered",
   "C101_version",
   "C101_interrupted_update_refuted",
   "C101_interrupted_differential_refuted",
   "C101_greater_versions_are_accepted_refuted"
  ],
  "note": "Proved for updates that are not interrupted. Refuted for interrupted ones, and that a version greater than the one reported is accepted."
 },
 {
  "property": "C102",
  "status": "partial",
  "theorems": [
   "C102_contracts_are_accepted_only_if",
   "C102_what_is_sent",
   "C102_no_undefined_behaviour_refuted"
  ],
  "note": "Proved but for the null websocket before the first connection (refuted)."
 },
 {
  "property": "C103",
  "status": "proved",
  "theorems": [
   "C103_reservations",
   "C103_clear_cache"
  ],
  "note": "The state of the connector and the answers of the application are arguments."
 },
 {
  "property": "C104",
  "status": "partial",
  "theorems": [
   "C104_gate",
   "C104_turned_away",
   "C104_one_answer",
   "C104_no_effect",
   "C104_garbage",
   "C104_results_unanswered_partial",
   "C104_results_unanswered_refuted"
  ],
  "note": "All proved but that answers of the CSMS are never answered: that holds for an accepted station whose blocks find their variables and is refuted before."
 },
 {
  "property": "C105",
  "status": "partial",
  "theorems": [
   "C105_registered",
   "C105_heard",
   "C105_keeps_asking_partial",
   "C105_keeps_asking_refuted",
   "C105_interval",
   "C105_heartbeat",
   "C105_heartbeat_refuted"
  ],
  "note": "Proved without QueueAllMessages; with it the station may stop asking (refuted). That every accepted station sends heartbeats is refuted."
 },
 {
  "property": "C106",
  "status": "partial",
  "theorems": [
   "C106_ends",
   "C106_goes_on_partial",
   "C106_goes_on_refuted"
  ],
  "note": "When the process ends is proved; that it never does is refuted."
 },
 {
  "property": "C107",
  "status": "partial",
  "theorems": [
   "C107_statuses_partial",
   "C107_reconnection",
   "C107_change",
   "C107_checks_partial",
   "C107_statuses_refuted"
  ],
  "note": "Proved for an OfflineThreshold that is not 0; refuted for 0. The checks are proved for a station that has not been stopped."
 },
 {
  "property": "C108",
  "status": "partial",
  "theorems": [
   "C108_answer",
   "C108_report",
   "C108_nothing_lost",
   "C108_cleared",
   "C108_utf8_refuted",
   "C108_negative_maximum_refuted"
  ],
  "note": "Proved for a maximum that is not negative. Refuted for a negative one, and that the parts of a text in UTF-8 are in UTF-8."
 },
 {
  "property": "C109",
  "status": "partial",
  "theorems": [
   "C109_answer",
   "C109_sequence",
   "C109_report_partial",
   "C109_only_ten",
   "C109_report_refuted"
  ],
  "note": "Proved up to ten entries. Beyond, only the first ten are told: proved, and the full statement refuted."
 },
 {
  "property": "C11",
  "status": "proved",
  "theorems": [
   "connector_state",
   "transition_table",
   "latest_error",
   "start_state",
   "start_refused",
   "unknown_connector_ignored"
  ],
  "note": "get_state for every connector as a function of the history; the table is the one of OCPP 1.6 section 4.9."
 },
 {
  "property": "C110",
  "status": "partial",
  "theorems": [
   "C110_set",
   "C110_round_trip_partial",
   "C110_round_trip_refuted",
   "C110_get",
   "C110_get_refuted",
   "C110_identifier_refuted"
  ],
  "note": "Decision and report proved. Refuted: that the display and the further texts of a message survive, that one message that is too long does not hide the others, that only transactions are told as transactions."
 },
 {
  "property": "C111",
  "status": "partial",
  "theorems": [
   "C111_cost",
   "C111_cost_told",
   "C111_messages",
   "C111_tariff",
   "C111_message_shown_refuted",
   "C111_meter_refuted",
   "C111_updated"
  ],
  "note": "Proved for registers below 2^31. Refuted: that a personal message is always shown, that registers without a measurand count."
 },
 {
  "property": "C112",
  "status": "proved",
  "theorems": [
   "C112_begins",
   "C112_first",
   "C112_next",
   "C112_fails",
   "C112_stray",
   "C112_all_or_nothing",
   "C112_waits",
   "C112_trigger",
   "C112_start",
   "C112_stop",
   "C112_held",
   "C112_each_refuted",
   "C112_restart_refuted",
   "C112_used_refuted",
   "C112_long_refuted"
  ],
  "note": "Proved as stated. Refuted beyond it: that a certificate whose status was told is stored though another one fails, that a restart updates at once, that an answer that has arrived is used, that long addresses are harmless."
 },
 {
  "property": "C113",
  "status": "partial",
  "theorems": [
   "C113_answer",
   "C113_at_once",
   "C113_rejected",
   "C113_later",
   "C113_after_conf",
   "C113_remembered_partial",
   "C113_boot_partial",
   "C113_last_refuted",
   "C113_others_refuted"
  ],
  "note": "Answer, changes at once and later proved for all histories; the table for tidy ones. Refuted beyond: that the last request counts, that a request leaves the other connectors as they are."
 },
 {
  "property": "C114",
  "status": "partial",
  "theorems": [
   "C114_firmware",
   "C114_trigger",
   "C114_all",
   "C114_failed_refuted",
   "C114_installed_refuted"
  ],
  "note": "Proved as stated for each step. Refuted: that an update that has failed or was installed no longer takes connectors out of use."
 },
 {
  "property": "C115",
  "status": "partial",
  "theorems": [
   "C115_gate",
   "C115_unsupported",
   "C115_before",
   "C115_after",
   "C115_answer",
   "C115_timers",
   "C115_reconnect",
   "C115_restart",
   "C115_restarted_refuted",
   "C115_last_answer_refuted",
   "C115_interval_refuted",
   "C115_asks_again_refuted",
   "C115_checks_refuted",
   "C115_silent_refuted"
  ],
  "note": "Gate and timers for all histories, what is sent for those without a stop. Refuted: after a restart (no heartbeats, kept messages stay), a later answer, the interval of Pending, an answer that cannot be read, certificate checks after a reconnect, silence while rejected."
 },
 {
  "property": "C116",
  "status": "proved",
  "theorems": [
   "C116_trigger",
   "C116_extended",
   "C116_accepted_refuted",
   "C116_all_refuted"
  ],
  "note": "Refuted beyond the statement: that an accepted trigger for meter values sends some, and that the extended one means all connectors for them."
 },
 {
  "property": "C117",
  "status": "proved",
  "theorems": [
   "C117_own",
   "C117_nobody",
   "C117_pnc",
   "C117_one_answer",
   "C117_sent",
   "C117_overruled_refuted",
   "C117_case_refuted"
  ],
  "note": "Refuted beyond the statement: the case of names is heeded, and a callback that answers that it knows something not is overruled."
 },
 {
  "property": "C118",
  "status": "partial",
  "theorems": [
   "C118_store",
   "C118_guard",
   "C118_told",
   "C118_rejected",
   "C118_throws_refuted",
   "C118_then",
   "C118_negative_refuted",
   "C118_trigger_refuted",
   "C118_sign",
   "C118_signed",
   "C118_size_refuted",
   "C118_installed",
   "C118_deleted",
   "C118_install",
   "C118_event_refuted",
   "C118_ocsp"
  ],
  "note": "All but an exception of the store when a leaf of ISO 15118 is installed (then Accepted without content). Refuted: size limit in CertificateSigned.req, a negative limit, an accepted trigger that sends nothing, the event for manufacturer certificates."
 },
 {
  "property": "C119",
  "status": "partial",
  "theorems": [
   "C119_answer",
   "C119_stops",
   "C119_when",
   "C119_once",
   "C119_second_refuted",
   "C119_destroy_refuted",
   "C119_soon_refuted",
   "C119_remote_stop",
   "C119_unlock",
   "C119_unknown_refuted"
  ],
  "note": "All until the process ends. Refuted: a second accepted reset, or destruction after one, ends the process; the reset may wait for its time-out although all has stopped; unlocking an unknown connector is answered twice."
 },
 {
  "property": "C12",
  "status": "proved",
  "theorems": [
   "csms_knows_state",
   "notification_of_event",
   "notification_of_error",
   "notification_of_clear",
   "notification_of_clear_all",
   "notification_on_trigger",
   "error_texts",
   "cleared_fault_still_reported_refuted"
  ],
  "note": "Also the contents of each notification. Clearing one of several faults is not reported, so the error code known to the CSMS can be stale (cleared_fault_still_reported_refuted)."
 },
 {
  "property": "C120",
  "status": "partial",
  "theorems": [
   "C120_measure",
   "C120_status",
   "C120_time",
   "C120_silent",
   "C120_cost",
   "C120_cost_one",
   "C120_energy_once",
   "C120_decimals",
   "C120_power_stuck",
   "C120_final_refuted",
   "C120_power_refuted",
   "C120_status_refuted",
   "C120_offset_refuted",
   "C120_old_time_refuted"
  ],
  "note": "All with values in whole units. Refuted: final costs after the transaction has stopped are rejected; meter values sent with exactly the power asked for are the last; a state may be missed; offsets like -05:30; an old time is kept by new costs without one."
 },
 {
  "property": "C121",
  "status": "partial",
  "theorems": [
   "C121_ask",
   "C121_one",
   "C121_conf",
   "C121_fails",
   "C121_wake",
   "C121_undefined",
   "C121_price",
   "C121_held",
   "C121_since",
   "C121_cut_off",
   "C121_accepted_refuted",
   "C121_undefined_refuted",
   "C121_lost_refuted"
  ],
  "note": "All until two calls wait for the same token. Refuted: a price that comes while a call waits for Authorize.conf keeps that answer out, and the call ends as Invalid; two calls for one token lose the price or destroy a condition variable in use."
 },
 {
  "property": "C122",
  "status": "partial",
  "theorems": [
   "C122_kept",
   "C122_status",
   "C122_nothing_lost",
   "C122_no_rotation",
   "C122_dated",
   "C122_unlimited_refuted",
   "C122_twelve_refuted",
   "C122_dated_refuted",
   "C122_second_refuted",
   "C122_foreign_refuted",
   "C122_reopened_refuted"
  ],
  "note": "Numbers as extensions: full for one to eleven files. Refuted for more or unlimited files (parts are overwritten or the wrong one deleted), for dates at the maximum (the newest is deleted) or twice in a second, for foreign extensions, and for HTML logs that are opened again."
 },
 {
  "property": "C123",
  "status": "partial",
  "theorems": [
   "C123_messages",
   "C123_session",
   "C123_stopped",
   "C123_heard",
   "C123_system",
   "C123_growth",
   "C123_markup",
   "C123_system_refuted",
   "C123_markup_refuted",
   "C123_encode_refuted"
  ],
  "note": "Refuted: with sessions, system and raw messages are repeated in the log of the station and missing in those of the sessions; the message type is not encoded in the HTML log; the encoding is ambiguous. The lookup map never shrinks."
 },
 {
  "property": "C124",
  "status": "partial",
  "theorems": [
   "C124_accepted",
   "C124_connected",
   "C124_never_lower",
   "C124_tried",
   "C124_comes_back",
   "C124_never_stuck",
   "C124_restart_refuted",
   "C124_stop_refuted",
   "C124_twice_refuted",
   "C124_connect_refuted"
  ],
  "note": "Full while the application does not stop the station or call connect_websocket, requests come over the connection, and the station does not start again. Refuted otherwise: an untried or failed profile stays stored, a stopped station connects, or it changes between two profiles for ever."
 },
 {
  "property": "C125",
  "status": "partial",
  "theorems": [
   "C125_answered",
   "C125_asked",
   "C125_accepted",
   "C125_reason",
   "C125_silent_refuted",
   "C125_needs",
   "C125_data_out",
   "C125_error_refuted"
  ],
  "note": "Full for OCPP 2.1. Refuted: over OCPP 2.0.1 NotifyAllowedEnergyTransfer gets no answer at all; an unreadable DataTransfer answer is answered with a CALLERROR."
 },
 {
  "property": "C126",
  "status": "partial",
  "theorems": [
   "C126_stored",
   "C126_follows",
   "C126_aligned",
   "C126_heartbeat",
   "C126_heartbeat_set",
   "C126_reconnect",
   "C126_others",
   "C126_twice_refuted",
   "C126_rejected_refuted",
   "C126_target_refuted",
   "C126_zero_refuted"
  ],
  "note": "Full for requests that name each variable once. Refuted for those that name one twice (the first value is used and the last stored, or a stored one is not used), and for the heartbeat of a station registered with the interval 0."
 },
 {
  "property": "C127",
  "status": "partial",
  "theorems": [
   "C127_a_station_starts_iff_its_functions_are_complete",
   "C127_a_missing_block_is_used_iff",
   "C127_an_empty_function_is_called_iff",
   "C127_no_call_fails_partial",
   "C127_the_right_functions_are_called",
   "C127_not_implemented_iff",
   "C127_rejected_unasked_iff",
   "C127_started_stations_survive_their_transactions_refuted",
   "C127_hollow_functions_are_noticed_refuted",
   "C127_available_tariffs_are_told_refuted"
  ],
  "note": "Full for when a station starts and for what it calls. That no call fails is proved with smart charging available at the start, the two functions the check forgets not empty and the availability of costs unchanged; refuted otherwise (a station without smart charging uses a null block when a transaction ends). Refuted: available tariffs may be told to nobody."
 },
 {
  "property": "C128",
  "status": "partial",
  "theorems": [
   "C128_callbacks_are_called_once_and_in_order",
   "C128_nothing_is_taken_from_an_empty_queue",
   "C128_no_callback_is_slept_through",
   "C128_all_callbacks_get_called",
   "C128_the_thread_ends_with_nothing_left",
   "C128_the_destructor_comes_back_partial",
   "C128_the_destructor_always_comes_back_refuted"
  ],
  "note": "Full for the callbacks. That the destructor comes back is proved if its notification does not fall between the test and the sleep of the thread, and refuted otherwise: flag and notification are not under the mutex, so the wake-up can be lost and join blocks for ever."
 },
 {
  "property": "C129",
  "status": "partial",
  "theorems": [
   "C129_success_means_written_partial",
   "C129_messages_are_written_in_order_and_once",
   "C129_nobody_sleeps_on_a_sent_message_partial",
   "C129_the_result_is_what_was_known",
   "C129_no_message_is_lost",
   "C129_the_client_thread_writes_all",
   "C129_success_means_written_refuted",
   "C129_failure_means_not_written_refuted",
   "C129_nobody_sleeps_on_a_sent_message_refuted"
  ],
  "note": "Order, at most once, none lost while the queue is not cleared, all written by the client thread where writing works, and the result being whether the message was marked as sent when the thread came back: full. Success means written: for messages that are not empty, refuted for empty ones (an empty ping is never written). No sleeping on: with one sender at a time, refuted with two. That failure means not written is refuted."
 },
 {
  "property": "C13",
  "status": "partial",
  "theorems": [
   "connector_zero_partial",
   "connector_zero_refuted"
  ],
  "note": "False in general: the reduced table FSM_DEF_CONNECTOR_ZERO is never consulted (connector_zero_refuted). Proved for the four events of that table."
 },
 {
  "property": "C130",
  "status": "partial",
  "theorems": [
   "C130_installed_certificates_are_reported_as_they_are_partial",
   "C130_without_a_list_all_are_asked_for",
   "C130_when_none_is_reported",
   "C130_installed_certificates_are_reported_refuted",
   "C130_what_was_reported_can_be_deleted",
   "C130_installed_for_its_purpose_partial",
   "C130_how_an_oem_root_is_refused",
   "C130_installed_for_its_purpose_refuted",
   "C130_insecure_installation",
   "C130_insecure_installation_allowed",
   "C130_status_data_are_passed_on_partial",
   "C130_status_data_are_passed_on_refuted"
  ],
  "note": "Full for deletion and results. Reports: for requests without OEM roots when all data fit into OCPP; otherwise an exception, proved to be the only other case, so no certificate is reported (refuted). Installation: for all purposes but OEM, for which there is an exception on secure connections (refuted). Status data: for entries with hash data; without them an unassigned value is read (refuted)."
 },
 {
  "property": "C131",
  "status": "partial",
  "theorems": [
   "C131_messages_arrive_whole_once_and_in_order_partial",
   "C131_nothing_else_arrives_over_lost_connections_partial",
   "C131_messages_arrive_whole_once_and_in_order_refuted",
   "C131_every_frame_is_handed_over",
   "C131_no_undefined_behaviour_partial",
   "C131_no_undefined_behaviour_refuted",
   "C131_all_that_waits_is_handed_over"
  ],
  "note": "Proved for messages of one frame in any number of pieces; refuted for messages of several frames, whose frames are handed over as messages (C131_every_frame_is_handed_over, for all messages). No undefined behaviour while the connection lasts; refuted when the queues are cleared between the test and the pop of the receiving thread. That all that waits is handed over is full."
 },
 {
  "property": "C14",
  "status": "proved",
  "theorems": [
   "composite_schedule_connector",
   "composite_schedule_station",
   "enhanced_composite_schedule",
   "composite_schedule_rejected",
   "first_period_ignored_refuted",
   "valid_to_wraps_refuted"
  ],
  "note": "Pointwise for GetCompositeSchedule on a connector and on the whole station and for the internal schedule, over every history of requests; profiles must have ascending periods starting at 0, finite limits and a validTo less than 2^31 s before the schedule start - first_period_ignored_refuted and valid_to_wraps_refuted show what happens otherwise. Binary32 arithmetic is a parameter."
 },
 {
  "property": "C15",
  "status": "proved",
  "theorems": [
   "composite_well_formed",
   "composite_response_well_formed"
  ],
  "note": "For any installed profiles and any sort by stack level that keeps the number of entries."
 },
 {
  "property": "C16",
  "status": "proved",
  "theorems": [
   "recurring_anchored",
   "recurring_occurrences"
  ],
  "note": "First occurrence and all occurrences; the code applies them also before startSchedule."
 },
 {
  "property": "C17",
  "status": "proved",
  "theorems": [
   "profile_accepted",
   "set_profile_accepted",
   "remote_start_profile_accepted"
  ],
  "note": "Acceptance is characterised exactly; ChargingScheduleMaxPeriods must not be negative. Ordering of the periods is not among the conditions the code checks (first_period_ignored_refuted)."
 },
 {
  "property": "C18",
  "status": "proved",
  "theorems": [
   "clear_profiles_exactly",
   "clear_without_criteria",
   "clear_nothing_succeeds_refuted",
   "clear_connector_zero_refuted"
  ],
  "note": "For requests with a criterion; a request without criteria clears everything and always reports Accepted (clear_nothing_succeeds_refuted); connectorId 0 does not select TxDefaultProfiles set for connector 0 (clear_connector_zero_refuted)."
 },
 {
  "property": "C19",
  "status": "partial",
  "theorems": [
   "set_profile_installs",
   "set_profile_rejected",
   "set_profile_stored",
   "set_profile_keeps_transactions",
   "profile_ids_unique",
   "remote_start_installs",
   "remote_start_duplicate_id_refuted",
   "replacement_at_limit_refuted"
  ],
  "note": "Replacement is exact for SetChargingProfile, and ids are unique along histories without RemoteStartTransaction profiles; with those ids can coexist (remote_start_duplicate_id_refuted). A replacement at the limit is rejected (replacement_at_limit_refuted)."
 },
 {
  "property": "C20",
  "status": "partial",
  "theorems": [
   "ci_equality",
   "ci_inequality_partial",
   "ci_inequality_refuted",
   "ci_order",
   "ci_order_respects_equality_refuted"
  ],
  "note": "operator== is proved to be the case-insensitive equivalence and operator< a strict total order; the claim that != negates == is refuted (cistring.hpp compares the underlying std::strings in !=), and < does not respect ==."
 },
 {
  "property": "C21",
  "status": "partial",
  "theorems": [
   "set_string",
   "string_length_invariant",
   "ci_is_valid_printable",
   "ci_string_printable_refuted"
  ],
  "note": "Length limits, truncation and the length invariant over all assignment sequences are proved. That only printable characters are stored is refuted: CiString::is_valid is never called because String::is_valid is not virtual; what it would accept is proved."
 },
 {
  "property": "C22",
  "status": "partial",
  "theorems": [
   "split_joined",
   "split_any",
   "split_joined_refuted",
   "split_trimmed",
   "trim_string_neat",
   "trim_blank_refuted",
   "is_integer_literals",
   "is_integer_accepts_partial",
   "is_integer_refuted",
   "is_positive_integer_literals",
   "is_positive_integer_others",
   "is_decimal_accepts_partial",
   "is_decimal_refuted",
   "is_rfc3339_exact",
   "is_boolean_exact",
   "convert_limit"
  ],
  "note": "Splitting, trimming, integer, decimal, boolean and RFC 3339 recognition are characterised exactly. Refuted as stated: a trailing empty field is lost by split_string; bare signs and '.' are accepted as numbers."
 },
 {
  "property": "C23",
  "status": "proved",
  "theorems": [
   "frame_text",
   "frame_round_trip",
   "frame_unambiguous",
   "receive_exact",
   "from_json_exact",
   "from_json_checks_kind_refuted"
  ],
  "note": "Text level, over a model of the JSON library. Reading functions (from_json) do not check the kind themselves (from_json_checks_kind_refuted); receive does."
 },
 {
  "property": "C24",
  "status": "partial",
  "theorems": [
   "backoff_delays",
   "backoff_bounds",
   "backoff_constant",
   "attempts_exhausted",
   "backoff_overflow_refuted",
   "negative_repeat_no_delay_refuted"
  ],
  "note": "Proved for all options whose largest delay in milliseconds fits an int (as an explicit bound): exact delays, bounds, constancy after the repetition count, limit of attempts. Without that bound the milliseconds overflow (backoff_overflow_refuted), and a negative repetition count removes the delay (negative_repeat_no_delay_refuted)."
 },
 {
  "property": "C25",
  "status": "proved",
  "theorems": [
   "effective_availability",
   "availability_announced",
   "callbacks_registered",
   "trigger_all_announces",
   "individual_status_set",
   "refused_call_changes_nothing",
   "evse_change_announced_refuted"
  ],
  "note": "Callbacks are assumed not to re-enter the manager. Without a failing second insertion in set_evse_individual_operational_status; with it the change is not announced (evse_change_announced_refuted)."
 },
 {
  "property": "C26",
  "status": "proved",
  "theorems": [
   "availability_survives_restart",
   "persisted_value",
   "individual_status_set"
  ],
  "note": "For every history of calls, failing insertions and restarts, starting from an empty AVAILABILITY table."
 },
 {
  "property": "C27",
  "status": "partial",
  "theorems": [
   "connector_status_reported",
   "connector_status_precedence",
   "connector_flags",
   "connector_event",
   "notifications_of_a_call",
   "changed_statuses_resynchronise",
   "effective_connector_status",
   "unplug_while_reserved_reported_refuted",
   "effective_status_of_inoperative_connector_refuted"
  ],
  "note": "The full statement is false: unplugging a reserved connector is not reported either (unplug_while_reserved_reported_refuted). Proved: with everything delivered the view of the CSMS is the status, or the connector is reserved and reported Occupied or Reserved; exact notifications of each call; the flag each connector event sets; resynchronisation after a reconnect."
 },
 {
  "property": "C28",
  "status": "partial",
  "theorems": [
   "get_variables_exact",
   "write_only_not_revealed",
   "set_value_exact",
   "set_then_get",
   "read_only_never_changes",
   "set_read_only_value_restricted",
   "set_read_only_value_writes",
   "listener_told_exactly",
   "get_mutability_exact",
   "set_variables_distinct_partial",
   "set_variables_two_attributes_refuted",
   "set_variables_wrong_change_refuted"
  ],
  "note": "Proved: GetVariables answers exactly, write-only values are never returned by it, a set is accepted exactly under the stated conditions and changes exactly that attribute, read-only rows survive any history, set-then-get, listener notifications, SetVariables with pairwise different variables. False in general for SetVariables that name a variable twice: results are kept per component and variable, so a result is lost or the wrong request is passed on as changed."
 },
 {
  "property": "C29",
  "status": "partial",
  "theorems": [
   "decimal_values_exact",
   "values_conform",
   "integer_values_partial",
   "integer_below_minimum_refuted",
   "integer_negative_limits_refuted",
   "fractional_limit_refuted",
   "stored_values_stay_valid"
  ],
  "note": "Proved exactly for all types but integers (string limits whole numbers, decimals in float range), and that every stored settable value stays valid over any history. Integers: exact for values that are not negative and natural limits, sound when there is a maximum. False in general: limits are compared as unsigned numbers, so negative values pass a minimum of 0 without maximum, negative limits do not work, fractional limits are rounded."
 },
 {
  "property": "C30",
  "status": "partial",
  "theorems": [
   "inventory_exact",
   "inventory_has_characteristics",
   "summary_exact",
   "custom_report_exact_partial",
   "custom_report_reveals_refuted",
   "summary_reveals_refuted"
  ],
  "note": "Selection and uniqueness proved for all reports, confidentiality for the full and configuration inventory. False for custom reports and the summary: these do not withhold write-only values."
 },
 {
  "property": "C31",
  "status": "partial",
  "theorems": [
   "monitors_stay_consistent_partial",
   "set_monitor_exact_partial",
   "new_monitor_decided",
   "decimal_monitor_values",
   "integer_monitors_periodic_only",
   "integer_thresholds_rejected_refuted",
   "clear_monitor_exact",
   "clear_custom_exact_partial",
   "set_monitoring_base_exact_partial",
   "reference_update_exact",
   "get_monitors_exact",
   "get_periodic_monitors_exact",
   "restart_keeps_monitors",
   "monitor_id_moves_refuted",
   "hard_wired_monitor_removable_refuted",
   "duplicate_with_id_refuted",
   "failed_clear_forgets_refuted",
   "reference_of_threshold_refuted"
  ],
  "note": "Proved for histories in which a request naming an id names a custom monitor of the same variable and the database does not fail to delete the custom monitors; both conditions are shown to be needed by counterexamples."
 },
 {
  "property": "C32",
  "status": "partial",
  "theorems": [
   "monitor_reports_exact_partial",
   "threshold_reported_once_partial",
   "csms_knows_alarm_partial",
   "triggered_pass_ends_partial",
   "timer_pass_ends_partial",
   "hung_for_ever",
   "triggered_pass_hangs_refuted",
   "timer_pass_hangs_refuted",
   "aligned_zero_refuted",
   "periodic_to_threshold_refuted",
   "cleared_without_alarm_refuted",
   "offline_alarm_lost_refuted",
   "alarm_never_cleared_refuted",
   "delta_reported_again_refuted"
  ],
  "note": "False as stated: a pass hangs with a periodic monitor present (triggered pass) or excluded (timer pass); alarms that come and go between passes are collapsed. Proved: exactly when passes end; exactly what is reported of each monitor as long as every call returns; while online each pass reports a threshold once iff its alarm state changed since the last pass, so the CSMS knows the state after every pass. Values are exact numbers."
 },
 {
  "property": "C33",
  "status": "proved",
  "theorems": [
   "connection_meets_level",
   "recorded_level_monotone",
   "confirm_records_level",
   "no_downgrade",
   "confirm_cleans_up",
   "restart_after_confirm",
   "set_network_profile_exact",
   "set_priority_exact",
   "set_priority_answers_partial",
   "confirm_keeps_running_refuted",
   "confirmed_level_is_used_refuted",
   "priority_text_refuted",
   "priority_out_of_range_refuted"
  ],
  "note": "Proved for all profile tables, priorities and histories, restarts included, provided connections are confirmed only once one was opened in this run and the recorded level could be written. confirm_keeps_running_refuted and confirmed_level_is_used_refuted show that the station may stop working or raise the level too far, but never connects lower."
 },
 {
  "property": "C34",
  "status": "partial",
  "theorems": [
   "first_attempt",
   "attempts_cyclic",
   "every_slot_within_a_round",
   "requested_slot_next",
   "disconnect_is_final",
   "callbacks_name_the_connection",
   "no_exception_with_one_level",
   "duplicate_slot_refuted",
   "slot_without_profile_refuted",
   "confirm_keeps_running_refuted"
  ],
  "note": "Proved for slot lists without duplicates in which every slot has a permitted profile, as long as the recorded level does not change between the attempts. The refuted theorems show what happens otherwise: duplicates starve later slots, slots without profile throw, and a confirmation that raises the level leaves a stale index."
 },
 {
  "property": "C35",
  "status": "proved",
  "theorems": [
   "exempt_accepted",
   "accepted_without_request",
   "requests_are_for_the_token",
   "list_entry_decides",
   "cache_row_decides",
   "undecided_tokens",
   "expired_row_removed",
   "other_rows_untouched",
   "contract_online",
   "contract_offline",
   "tables_stay_ok",
   "standard_tokens_apart",
   "tokens_apart_refuted",
   "lookup_ignores_case_refuted",
   "blocked_not_accepted_offline_refuted",
   "disable_remote_refuted"
  ],
  "note": "Decision for all configurations, tables and answers; deviations of the code from what one would expect are separate refuted theorems. SHA-256 assumed free of collisions."
 },
 {
  "property": "C36",
  "status": "partial",
  "theorems": [
   "local_attempts_keep_cache_partial",
   "offline_attempt_keeps_cache_refuted",
   "timeout_keeps_cache_refuted",
   "transaction_event_updates_cache",
   "central_not_cached_refuted"
  ],
  "note": "False of the code: refuted for an offline attempt and for a time-out. Proved: every attempt decided without asking the CSMS keeps fresh rows; what TransactionEvent answers do to the cache."
 },
 {
  "property": "C37",
  "status": "proved",
  "theorems": [
   "local_list_history",
   "update_spec_deterministic",
   "refused_update_changes_nothing",
   "reported_version",
   "failed_update_keeps_list_refuted",
   "failed_version_keeps_list_refuted",
   "update_is_answered_refuted"
  ],
  "note": "For token types OCPP names and a working database; with database errors the claim is false of the code (refuted)."
 },
 {
  "property": "C38",
  "status": "partial",
  "theorems": [
   "split_lossless",
   "split_text",
   "split_size_partial",
   "split_greedy",
   "report_complete",
   "no_report_data",
   "split_size_refuted",
   "split_custom_data_lost_refuted"
  ],
  "note": "Everything except that the size limit is exceeded by a last part with several entries whose number has more than one digit (split_size_refuted); the exact bound is split_size_partial."
 },
 {
  "property": "C39",
  "status": "partial",
  "theorems": [
   "event_numbers_consecutive_partial",
   "event_numbers_increasing",
   "event_numbers_despite_failures",
   "event_numbers_gap_refuted",
   "event_numbers_repeat_refuted",
   "ended_once_refuted"
  ],
  "note": "Proved for all histories without crash inside a call and without failing SQL statements, restarts between calls included; strictly increasing for crashes at any durable effect; consecutive for any failing statements while the process lives. Refuted: gap after dying between the write of the number and the dispatch, repetition after a failed write and a restart, second Ended after dying before (or failing at) the deletion."
 },
 {
  "property": "C40",
  "status": "partial",
  "theorems": [
   "enum_round_trip_partial",
   "enum_strings_distinct",
   "enum_refuses_everything_else",
   "enum_round_trip_refuted"
  ],
  "note": "All 173 enumerations with conversions in both directions, read from headers and sources by tools/gen_enums.py. Missing: the internal marker MessageType::InternalError of OCPP 1.6 is written but not read back (refuted)."
 },
 {
  "property": "C41",
  "status": "partial",
  "theorems": [
   "base64_is_rfc4648",
   "base64_round_trip",
   "base64_injective",
   "header_reads_back",
   "header_injective",
   "header_collision_refuted",
   "header_only_with_basic_auth",
   "header_with_basic_auth"
  ],
  "note": "Everything but identities with a colon, for which the statement is false: header_collision_refuted."
 },
 {
  "property": "C42",
  "status": "partial",
  "theorems": [
   "change_availability_at_once",
   "change_availability_scheduled",
   "scheduled_change_executed_partial",
   "change_to_same_status",
   "change_of_unknown_component",
   "unknown_component_unanswered_refuted",
   "evse_zero_unanswered_refuted",
   "station_operative_never_refuted",
   "operative_makes_inoperative_refuted",
   "other_connector_replaces_refuted",
   "scheduled_lost_by_restart_refuted",
   "accepted_not_stored_refuted",
   "evse_stays_inoperative_refuted"
  ],
  "note": "Immediate execution, scheduling and execution at the end of the last affected transaction are proved for all reachable states and histories without crash or restart. Requests are replaced per EVSE rather than per target, operative requests for the station are dropped while a transaction runs, and scheduled operative requests make idle components inoperative: refutations."
 },
 {
  "property": "C43",
  "status": "partial",
  "theorems": [
   "remote_start_answer",
   "remote_start_profile",
   "remote_start_invalid_profile_refuted",
   "remote_start_other_purpose_refuted",
   "remote_start_refused_stores_refuted"
  ],
  "note": "Who may start, what is stored and what is answered: proved for all requests. Refuted: an invalid profile does not make the start fail, and a profile is stored although the start is refused."
 },
 {
  "property": "C44",
  "status": "partial",
  "theorems": [
   "stored_values_returned_partial",
   "other_transactions_untouched",
   "cleared_transaction_empty",
   "stored_location_refuted",
   "stored_signed_refuted",
   "stored_custom_refuted",
   "stored_sample_custom_refuted",
   "stored_all_refuted",
   "failed_insertion_refuted",
   "odd_context_refused"
  ],
  "note": "For values the store can keep (plain: context the same throughout, location and unit fields given by all samples or none, no custom data, signed values with method and key). The refutations show what happens to others: locations carried over, signed values without key and custom data lost, undefined behaviour on reading custom data, values of the same millisecond and context dropped, rows left by failed insertions."
 },
 {
  "property": "C45",
  "status": "proved",
  "theorems": [
   "configured_measurands",
   "ended_selection",
   "reports_follow_history",
   "undefined_only_with_custom_data",
   "average_units_refuted"
  ],
  "note": "Over all executions of an EVSE until undefined behaviour, which only reading back values the store cannot keep causes. Values are exact rationals, not floats. Units are ignored when averaging (average_units_refuted)."
 },
 {
  "property": "C46",
  "status": "partial",
  "theorems": [
   "timestamp_aligned_partial",
   "timestamp_close",
   "timestamp_nearest_refuted",
   "timestamp_zero_refuted"
  ],
  "note": "For even intervals or whole seconds; for odd intervals the result is at most half a second beyond the nearest (timestamp_close), and need not be the nearest (timestamp_nearest_refuted). An interval of 0 divides by zero."
 },
 {
  "property": "C47",
  "status": "partial",
  "theorems": [
   "composite_schedule_evse_partial",
   "composite_schedule_station_partial",
   "composite_answer",
   "decision_unique",
   "composite_never_above_evse",
   "composite_never_above_station",
   "all_composite_schedules",
   "composite_other_phases_refuted",
   "composite_discharging_setpoints_refuted",
   "composite_zero_discharge_refuted",
   "composite_idle_refuted",
   "composite_station_setpoints_refuted",
   "composite_second_schedule_refuted"
  ],
  "note": "At every second the total/L1 limit, discharge limit, setpoint and phases are what the merging rules give, and at the start of each period all phases are; L2/L3 changes between are lost (refuted). Both versions, any float rounding, EVSE and station schedules; conditions on regular values."
 },
 {
  "property": "C48",
  "status": "proved",
  "theorems": [
   "set_profile_accepted_iff",
   "set_profile_accepted_effect",
   "set_profile_refused",
   "set_profile_not_available",
   "profile_rate_limit",
   "profile_rate_limit_refused_requests_refuted",
   "restart_forgets_rate"
  ],
  "note": "Accepted exactly when no requirement is violated; refused with a reason that applies. The rate limit holds between accepted requests over all histories; refuted: refused requests restart it."
 },
 {
  "property": "C49",
  "status": "partial",
  "theorems": [
   "clear_by_criteria",
   "clear_by_id",
   "clear_nothing",
   "clear_all",
   "transaction_end_clears",
   "profiles_reported_once",
   "stored_sources",
   "clear_spares_external_refuted",
   "clear_empty_store_accepted_refuted",
   "profiles_reported_once_refuted"
  ],
  "note": "Clearing removes exactly what is asked for; reports are a permutation of the matching rows. Refuted: clearing by id or everything spares external constraints."
 },
 {
  "property": "C50",
  "status": "partial",
  "theorems": [
   "evse_reset_exactly_once",
   "station_reset_exactly_once_partial",
   "resets_as_intended_partial",
   "waiting_reset_only_when_idle",
   "reset_request_effects",
   "restart_forgets_waiting_resets",
   "idle_evse_reset_forgotten_refuted",
   "station_reset_lost_refuted",
   "reset_of_idle_evse_stops_others_refuted"
  ],
  "note": "Exactly once for an EVSE with a transaction, whatever else happens; for the station when no reset of a single EVSE is mixed in; all histories of plain requests refine the intended machine. Refuted: reset on idle of an idle EVSE while another is busy is scheduled and never done, station reset lost when mixed with one of an EVSE, immediate reset of an idle EVSE stops the others."
 },
 {
  "property": "C51",
  "status": "partial",
  "theorems": [
   "retry_timer_partial",
   "stranded_retry_refuted"
  ],
  "note": "False in general: one timer serves all retries (stranded_retry_refuted). Proved as long as no further failure re-arms the timer."
 },
 {
  "property": "C52",
  "status": "proved",
  "theorems": [
   "dispatch_table",
   "dispatch_async_table",
   "async_transactional_discarded_refuted"
  ],
  "note": "A transactional message dispatched with dispatch_call_async before acceptance is discarded (async_transactional_discarded_refuted)."
 },
 {
  "property": "C53",
  "status": "partial",
  "theorems": [
   "stored_profiles_in_force",
   "memory_equals_database_after_restart",
   "stored_profiles_survive_restart",
   "default_profile_lost_refuted",
   "station_default_profile_lost_refuted"
  ],
  "note": "Stored implies in force, equality after a restart, survival of stored profiles. What is in force is not always stored: default_profile_lost_refuted, station_default_profile_lost_refuted."
 },
 {
  "property": "C54",
  "status": "proved",
  "theorems": [
   "expired_profiles_removed",
   "expired_profiles_deleted",
   "expiry_keeps_transactions"
  ],
  "note": "Exact, memory and database."
 },
 {
  "property": "C55",
  "status": "proved",
  "theorems": [
   "tx_profiles_end_with_transaction",
   "tx_profiles_belong_to_running_transaction"
  ],
  "note": "Along histories without RemoteStartTransaction profiles (those are installed before their transaction); removal at the end of a transaction for every history."
 },
 {
  "property": "C56",
  "status": "proved",
  "theorems": [
   "no_request_before_reply",
   "reply_goes_out",
   "request_after_reply",
   "unsolicited_result_ends_wait_refuted"
  ],
  "note": "Proved for all states and runs in which nothing is received in between; a CALLRESULT that answers nothing ends the wait early (unsolicited_result_ends_wait_refuted)."
 },
 {
  "property": "C57",
  "status": "partial",
  "theorems": [
   "stop_transaction_gets_id",
   "meter_values_get_id",
   "meter_values_lose_id_on_retry_refuted",
   "stop_transaction_loses_id_on_restart_refuted"
  ],
  "note": "Proved while the message keeps its id and the process is not restarted. Missing: the id is lost when StartTransaction is retried under a new message id, or when the station restarts (both refuted)."
 },
 {
  "property": "C58",
  "status": "proved",
  "theorems": [
   "stopped_queue"
  ],
  "note": "For all states and runs without restart."
 },
 {
  "property": "C59",
  "status": "partial",
  "theorems": [
   "ping_is_sent",
   "missing_pong_closes",
   "pong_timeout_justified",
   "no_ping_without_connection",
   "stale_ping_closes_new_connection_refuted",
   "ping_interval_while_down_refuted",
   "connection_is_supervised",
   "no_ping_when_disabled"
  ],
  "note": "Proved for a connection that comes up without pending ping. False in general: a ping pending when a connection is lost closes the next one (stale_ping_closes_new_connection_refuted), and changing the interval while down starts the supervision (ping_interval_while_down_refuted)."
 },
 {
  "property": "C60",
  "status": "proved",
  "theorems": [
   "cache_cleanup_keeps_the_recent",
   "cleanup_agrees_with_validation",
   "cache_can_be_cleared"
  ],
  "note": "Row sizes are a parameter; the loop's database errors are not modelled."
 },
 {
  "property": "C61",
  "status": "partial",
  "theorems": [
   "messages_say_what_happened_partial",
   "remote_start_reported_once_partial",
   "refused_token_acts",
   "transaction_status_exact",
   "charging_state_after_restart_refuted",
   "started_not_sent_refuted"
  ],
  "note": "Proved from every reachable station for histories of calls that return normally, failing SQL statements included. Missing: calls that end with an exception or a crash (started_not_sent_refuted: after two failed inserts the transaction runs without a Started), and the contents across a restart (charging_state_after_restart_refuted: the stored charging state is the one of the start)."
 },
 {
  "property": "C62",
  "status": "partial",
  "theorems": [
   "event_ids_distinct",
   "periodic_reported_partial",
   "aligned_point_exact",
   "aligned_twice_refuted"
  ],
  "note": "event_ids_distinct holds for all histories. periodic_reported_partial is about passes that return, online, with the monitor admitted and unchanged (offline and other cases: monitor_reports_exact_partial). aligned_twice_refuted: two passes within the second of a clock-aligned point both report."
 },
 {
  "property": "C63",
  "status": "proved",
  "theorems": [
   "stored_profiles_conflict_free",
   "boot_keeps_exactly_valid",
   "one_tx_profile_per_level",
   "one_tx_profile_per_level_refuted"
  ],
  "note": "Invariant over all histories from an empty store. TxProfiles: one per stack level and transaction if no remote start carries a transaction id, refuted otherwise."
 },
 {
  "property": "C64",
  "status": "partial",
  "theorems": [
   "accepted_profile_in_use_partial",
   "accepted_profile_in_use_refuted",
   "profile_switched_off_refuted",
   "in_use_requires"
  ],
  "note": "Proved unless numberPhases is missing on a single-phase AC station, where it is refuted; also refuted that an accepted profile stays in use."
 },
 {
  "property": "C65",
  "status": "partial",
  "theorems": [
   "remote_start_profile_used_refuted",
   "transaction_end_clears"
  ],
  "note": "Refuted: the stored profile has no transaction id, so it never passes validation before use and outlives the transaction."
 },
 {
  "property": "C66",
  "status": "partial",
  "theorems": [
   "tls_exactly_when_profile_asks",
   "address_understood_partial",
   "address_with_slash",
   "identity_once_refuted",
   "accepted_address_sound",
   "written_address_reads_back",
   "written_ipv6_refuted",
   "unknown_profile_refuted",
   "unknown_profile_with_scheme",
   "port_is_a_number_refuted",
   "host_is_given_refuted",
   "only_invalid_argument_refuted"
  ],
  "note": "All addresses except those that end in the identity and a slash, where the identity is appended twice (identity_once_refuted); further refutations record what the validation lets through."
 },
 {
  "property": "C67",
  "status": "proved",
  "theorems": [
   "pause_exact",
   "pause_threshold",
   "pause_once",
   "pause_disarms"
  ],
  "note": "Reached is meant after rounding to whole Wh, that is at half a Wh below the limit (pause_threshold)."
 },
 {
  "property": "C68",
  "status": "partial",
  "theorems": [
   "triggers_can_send",
   "triggers_kept",
   "energy_trigger_exact",
   "energy_trigger_once",
   "power_trigger_exact",
   "time_trigger_exact",
   "time_trigger_replaced_refuted",
   "power_at_trigger_refuted"
  ],
  "note": "Energy and time triggers as stated, except that a time trigger survives triggers without a time (time_trigger_replaced_refuted); after a power that equals the trigger no power is reported any more (power_at_trigger_refuted)."
 },
 {
  "property": "C69",
  "status": "proved",
  "theorems": [
   "timer_next_point",
   "timer_grid_refuted"
  ],
  "note": "The grid differs from that of align_timestamp when the interval does not divide a day (timer_grid_refuted)."
 },
 {
  "property": "C70",
  "status": "proved",
  "theorems": [
   "C70_times_are_written_as_rfc3339",
   "C70_times_have_a_fixed_length",
   "C70_rfc3339_is_understood",
   "C70_texts_mean_one_time",
   "C70_times_survive",
   "C70_milliseconds_survive",
   "C70_texts_survive",
   "C70_only_times_are_accepted_refuted"
  ],
  "note": "Formatting and parsing are done by the date library, which is not on the box; its documented behaviour is modelled. Leap seconds are left out, and so is rounding of more than nine fraction digits. Finding: text after a time is ignored."
 },
 {
  "property": "C71",
  "status": "proved",
  "theorems": [
   "values_are_written",
   "proper_forms_are_read",
   "proper_forms_are_unambiguous",
   "values_survive_text",
   "messages_arrive",
   "actions_are_named",
   "actions_are_unique"
  ],
  "note": "The statements of all conversions are read from the sources by tools/gen_messages.py. Floats are the tokens written for them; rounding is an oracle; NaN and infinities, which are written as null, are excluded. JSON strings are taken as bytes."
 },
 {
  "property": "C72",
  "status": "proved",
  "theorems": [
   "accepted_exactly",
   "required_members_are_required",
   "optional_members_are_set_when_there",
   "only_proper_forms_are_accepted_refuted",
   "only_objects_are_accepted_refuted"
  ],
  "note": "Findings: integers out of range are wrapped, true and fractions are taken for integers; a message without required members may be any JSON; a list may be given as an object or a single value."
 },
 {
  "property": "C73",
  "status": "proved",
  "theorems": [
   "C73_accepted_values_are_stored",
   "C73_other_answers_change_nothing",
   "C73_reached_states_are_proper",
   "C73_values_are_accepted_exactly",
   "C73_authorization_keys_are_accepted_exactly",
   "C73_accepted_values_are_read_back",
   "C73_custom_values_are_stored",
   "C73_prices_and_purposes_are_read_back"
  ],
  "note": "Which texts are accepted is stated exactly for every writable key with a setter. Keys of the section Custom are stored by the type their schema gives them; Custom.json itself is a parameter."
 },
 {
  "property": "C74",
  "status": "partial",
  "theorems": [
   "C74_accepted_values_survive_restart_partial",
   "C74_every_accepted_value_survives_restart_refuted"
  ],
  "note": "Exactly the values the schema takes survive; others that are accepted do not, refuted with witnesses."
 },
 {
  "property": "C75",
  "status": "partial",
  "theorems": [
   "C75_every_change_is_answered_once",
   "C75_requested_keys_are_answered_once",
   "C75_only_long_texts_cannot_be_read",
   "C75_read_only_keys_are_refused",
   "C75_unknown_keys_are_not_supported",
   "C75_writable_keys_can_be_changed_refuted",
   "C75_keys_are_case_insensitive_refuted"
  ],
  "note": "Writable keys that cannot be changed and keys in another case are refuted with witnesses; the rest is proved."
 },
 {
  "property": "C76",
  "status": "proved",
  "theorems": [
   "C76_security_profile_is_only_raised",
   "C76_security_profile_is_raised_exactly",
   "C76_bad_profiles_are_refused_refuted"
  ],
  "note": "The effect SwitchProfile stands for switchSecurityProfile at the next disconnect."
 },
 {
  "property": "C77",
  "status": "partial",
  "theorems": [
   "C77_the_value_in_force_is_the_configured_one",
   "C77_ocsp_interval_takes_effect",
   "C77_callbacks_follow_accepted_changes",
   "C77_every_accepted_change_is_reported_refuted"
  ],
  "note": "The values in force and the callbacks are proved. A callback is not called if the request spells the key in another case than it was registered, refuted with a witness."
 },
 {
  "property": "C78",
  "status": "partial",
  "theorems": [
   "C78_price_texts_are_kept_per_language",
   "C78_price_texts_are_accepted_exactly",
   "C78_price_texts_are_read_back",
   "C78_every_price_text_gets_a_status_refuted"
  ],
  "note": "Everything but the answer to a text that is not JSON, which is an error instead of Rejected, refuted with a witness."
 },
 {
  "property": "C79",
  "status": "proved",
  "theorems": [
   "C79_responses_do_not_depend_on_the_authorization_key",
   "C79_the_authorization_key_is_answered_as_unknown"
  ],
  "note": "GetConfiguration only; logs are not modelled."
 },
 {
  "property": "C80",
  "status": "proved",
  "theorems": [
   "C80_start_is_decided",
   "C80_start_is_refused",
   "C80_remote_id_arrives",
   "C80_bad_profile_is_rejected_refuted",
   "C80_rejected_start_leaves_nothing_refuted",
   "C80_inoperative_connectors_cannot_start_refuted",
   "C80_start_is_answered_refuted"
  ],
  "note": "Proved for arbitrary states. Four variants a user might expect are refuted and recorded in DESIGN.md."
 },
 {
  "property": "C81",
  "status": "partial",
  "theorems": [
   "C81_unlock_is_decided",
   "C81_only_connectors_are_unlocked_refuted",
   "C81_stop_is_decided",
   "C81_answered_once",
   "C81_registration"
  ],
  "note": "For connector and EVSE numbers other than 0; for 0 the claim is refuted. Answers: if smart charging exists or is not enabled."
 },
 {
  "property": "C82",
  "status": "partial",
  "theorems": [
   "C82_trigger_is_answered",
   "C82_boot_and_heartbeat",
   "C82_log_status",
   "C82_firmware_status",
   "C82_meter_values",
   "C82_transaction_events",
   "C82_status_notification",
   "C82_sign_certificate_partial",
   "C82_accepted_is_sent_refuted"
  ],
  "note": "Proved except that an accepted SignCertificate trigger may send nothing (refuted); the meter value of a triggered TransactionEvent is not modelled."
 },
 {
  "property": "C83",
  "status": "proved",
  "theorems": [
   "C83_reserve_is_decided",
   "C83_cancel_is_decided"
  ],
  "note": ""
 },
 {
  "property": "C84",
  "status": "proved",
  "theorems": [
   "C84_one_request_at_a_time",
   "C84_repeated_only_after_waiting",
   "C84_repeats_are_bounded",
   "C84_waits_double",
   "C84_requests_follow_the_configuration",
   "C84_requests_are_made_when_due",
   "C84_process_survives",
   "C84_process_survives_refuted",
   "C84_lost_answers_are_recovered_refuted",
   "C84_accepted_without_timer_is_recovered_refuted",
   "C84_fresh_requests_are_repeated_in_full_refuted",
   "C84_each_use_is_awaited_refuted"
  ],
  "note": "Statement covers settled and orderly histories; what fails outside of them is shown by the refuted theorems."
 },
 {
  "property": "C85",
  "status": "proved",
  "theorems": [
   "C85_roots_are_installed_exactly_as_permitted",
   "C85_signed_certificates_take_effect",
   "C85_deleting_and_listing_answer_as_the_store",
   "C85_store_is_changed_only_on_request",
   "C85_events_name_the_certificate_refuted"
  ],
  "note": "The store itself is outside of the model. The refuted theorem shows a V2G failure reported as one of the station's certificate."
 },
 {
  "property": "C86",
  "status": "proved",
  "theorems": [
   "C86_statuses_are_passed_on",
   "C86_triggered_status_is_the_last",
   "C86_connectors_are_unavailable_before_installing",
   "C86_connectors_are_restored_at_the_end",
   "C86_only_these_reports_change_connectors",
   "C86_update_requests_are_answered",
   "C86_charging_evse_follows",
   "C86_rejected_request_is_harmless_refuted",
   "C86_failed_update_leaves_evses_alone_refuted"
  ],
  "note": "Full statement for the model; two stronger readings are refuted (rejected requests change the expected status; schedules survive a failed update)."
 },
 {
  "property": "C87",
  "status": "proved",
  "theorems": [
   "C87_values_set_by_others_survive",
   "C87_values_survive_with_empty_instances_refuted",
   "C87_kept_values_are_of_the_type_refuted"
  ],
  "note": "All histories. Two statements one might expect are refuted: an empty instance makes values lost at the next start, and kept values need not be of a changed data type."
 },
 {
  "property": "C88",
  "status": "partial",
  "theorems": [
   "C88_start_gives_the_configuration_partial",
   "C88_custom_files_win",
   "C88_changed_source_is_applied_refuted",
   "C88_changed_case_is_applied_refuted",
   "C88_removed_default_is_removed_refuted",
   "C88_added_default_is_applied_refuted",
   "C88_persistence_is_that_of_the_configuration_refuted",
   "C88_components_are_there_once_refuted",
   "C88_variables_are_there_once_refuted"
  ],
  "note": "Proved up to what the code does not carry out, each with a witness: a changed source alone, changed letter case, a removed default, a default added to an attribute without value, the persistence and constness of a new attribute. Components without variables and variables without attributes are excluded: they are inserted again at every start."
 },
 {
  "property": "C89",
  "status": "proved",
  "theorems": [
   "C89_second_start_changes_nothing",
   "C89_start_after_a_crash_is_the_same",
   "C89_wrongly_typed_values_are_refused",
   "C89_failed_start_changes_nothing_refuted",
   "C89_starts_succeed_with_long_defaults_refuted"
  ],
  "note": "The second start changes nothing if the configuration does not give persistence or constness of attributes (with them the second start applies what the first ignored). Refuted beyond the property: a start failing at a delta monitor has already removed components; a default of more than 2500 characters makes all later starts fail."
 },
 {
  "property": "C90",
  "status": "proved",
  "theorems": [
   "C90_monitors_after_a_start",
   "C90_custom_monitors_survive",
   "C90_configured_custom_monitors_are_there_once_refuted"
  ],
  "note": "Configurations whose monitors are not custom ones; configured custom monitors are added again at every start (refuted)."
 },
 {
  "property": "C91",
  "status": "partial",
  "theorems": [
   "C91_stop_carries_the_transaction_id",
   "C91_stop_carries_the_transaction_id_after_a_restart_refuted"
  ],
  "note": "Proved for histories without a restart. Refuted with a restart: a stop queued before its start was answered is sent with the made-up id."
 },
 {
  "property": "C92",
  "status": "partial",
  "theorems": [
   "C92_meter_values_carry_the_transaction_id_partial",
   "C92_meter_values_after_a_retry_refuted",
   "C92_meter_values_after_a_restart_refuted"
  ],
  "note": "Proved for histories without a restart and without a repeated StartTransaction.req; refuted with either."
 },
 {
  "property": "C93",
  "status": "proved",
  "theorems": [
   "C93_starts_and_stops_are_reported",
   "C93_messages_keep_their_data"
  ],
  "note": "The second part includes restarts."
 },
 {
  "property": "C94",
  "status": "partial",
  "theorems": [
   "C94_restart_closes_transactions",
   "C94_power_loss",
   "C94_power_loss_with_equal_ids_refuted",
   "C94_reason_is_kept_refuted"
  ],
  "note": "Proved if the CSMS gives distinct ids. Refuted if it gives two running transactions the same id. A stop that was given up is reported again with another reason."
 },
 {
  "property": "C95",
  "status": "partial",
  "theorems": [
   "C95_availability_request",
   "C95_scheduled_changes_are_made",
   "C95_last_request_counts_partial",
   "C95_last_request_counts_refuted",
   "C95_other_connectors_are_left_alone_refuted",
   "C95_running_transactions_are_waited_for_refuted",
   "C95_scheduled_changes_are_made_after_a_retry_refuted"
  ],
  "note": "The decision is proved for all states. The last request counts in orderly histories; refuted otherwise with four witnesses."
 },
 {
  "property": "C96",
  "status": "proved",
  "theorems": [
   "C96_remote_start",
   "C96_remote_stop",
   "C96_unlock_and_reset"
  ],
  "note": "Reservations and the states of the connectors are arguments."
 },
 {
  "property": "C97",
  "status": "partial",
  "theorems": [
   "C97_connectors_are_taken_out_of_service",
   "C97_the_rest_follows",
   "C97_connectors_are_put_back_into_service",
   "C97_installed_ends_the_update_refuted"
  ],
  "note": "Proved but for Installed while the flag of the update is set, which it does not reset (refuted)."
 },
 {
  "property": "C98",
  "status": "partial",
  "theorems": [
   "C98_no_undefined_behaviour_without_restart",
   "C98_no_undefined_behaviour_refuted"
  ],
  "note": "Proved without a restart. Refuted for a resumed transaction and a changed sample interval."
 },
 {
  "property": "C99",
  "status": "partial",
  "theorems": [
   "C99_answers_concern_their_transaction_partial",
   "C99_answers_concern_their_transaction_refuted",
   "C99_stop_answers_update_the_cache_refuted"
  ],
  "note": "Proved while the transaction is running. Refuted for a transaction that is over, and for the answer to StopTransaction.req."
 }
]