#!/usr/bin/env python3
"""Writes /verif/properties.jsonl from the table below (one property per entry)."""
import json, os
P = []
def p(id, title, statement, quantifier, why, anchors):
    P.append(dict(id=id, title=title, statement=statement, quantifier=quantifier,
                  why_tests_cant=why, anchors=anchors))

MQ = ["include/ocpp/common/message_queue.hpp", "lib/ocpp/v16/message_queue.cpp", "lib/ocpp/v2/message_queue.cpp"]

p("C01", "At most one unanswered CALL on the wire",
  "The charging station never hands a CALL to the websocket while an earlier CALL it handed over successfully is still waiting for its CALLRESULT, CALLERROR, time-out or a restart, in every schedule in which the receive and timer callbacks run uninterrupted.",
  "every configuration and every finite interleaving of pushes, worker wake-ups, send successes and failures, received frames, time-outs, pause/resume, registration changes and restarts",
  "The interleavings of the worker thread, the time-out timer and the receive thread are unbounded; a test exercises one schedule.",
  MQ + ["MessageQueue::MessageQueue (worker thread)", "MessageQueue::receive", "MessageQueue::handle_timeout_or_callerror"])
p("C02", "Transactional messages leave in order",
  "Transactional CALLs (StartTransaction/StopTransaction/MeterValues/SecurityEventNotification, TransactionEvent) are transmitted in the order in which the application pushed them: a later one is never transmitted while an earlier one is still owed to the CSMS.",
  "every history of queue operations, including retries, overflow dropping and reconnects",
  "Order can be disturbed by any interleaving of retries with new pushes; only an invariant over all histories rules it out.",
  MQ + ["MessageQueue::push_call", "MessageQueue::add_to_transaction_message_queue", "MessageQueue::handle_timeout_or_callerror"])
p("C03", "No transactional message is lost silently",
  "A transactional CALL that was pushed is, at every later moment, still queued or in flight, or it was answered by a CALLRESULT, or it was given up after the configured number of attempts, or it was an 'update' message dropped by the queue-size policy.",
  "every configuration and every history of queue operations",
  "A lost message only shows up in particular combinations of disconnects, time-outs and overflow; the claim quantifies over all of them.",
  MQ + ["MessageQueue::check_queue_sizes", "MessageQueue::reset_in_flight", "MessageQueue::drop_update_messages_from_transactional_message_queue"])
p("C04", "Crash-restart recovers the pending transactional messages",
  "At every point of every run the transactional queue table of the database holds exactly one row for each transactional message that is queued or in flight (after the push that stored it returned), in the same order as queued for messages that have not been retried; a restart therefore re-queues exactly the messages that were still owed.",
  "every history and every crash point between two queue operations",
  "Crash points are quantified universally; a test can only kill the process at chosen instants.",
  MQ + ["lib/ocpp/common/database/database_handler_common.cpp", "MessageQueue::get_persisted_messages_from_db", "DatabaseHandlerCommon::insert_message_queue_message", "DatabaseHandlerCommon::remove_message_queue_message"])
p("C05", "Bounded retries of transactional messages",
  "A transactional message is transmitted successfully to the socket at most TransactionMessageAttempts times per process run before it is discarded, and the k-th re-transmission is scheduled no earlier than k times TransactionMessageRetryInterval after its previous reference time.",
  "every configuration and every pattern of time-outs, CALLERRORs and successes",
  "The number of attempts depends on unbounded histories of failures.",
  MQ + ["MessageQueue::handle_timeout_or_callerror"])
p("C06", "Nothing but boot traffic before acceptance",
  "Until the CSMS has accepted the BootNotification (or while the queue is stalled after a restart) no message is transmitted except BootNotification and messages pushed as explicitly triggered; queued and persisted messages wait.",
  "every history of pushes and worker steps before set_registration_status_accepted",
  "Needs all message types, all queue contents and all schedules.",
  MQ + ["MessageQueue::get_message_transmission_priority", "MessageQueue::allowed_to_send_message", "MessageQueue::set_registration_status_accepted"])
p("C07", "Queue size policy",
  "When the queues exceed the configured threshold, non-transactional messages are dropped oldest-first before any transactional one, among transactional messages only update messages (MeterValues / TransactionEvent(Updated)) are dropped, and after a push the total either is within the threshold or nothing droppable remains.",
  "all thresholds and all queue contents",
  "Queue contents and sizes are unbounded.",
  MQ + ["MessageQueue::check_queue_sizes", "MessageQueue::drop_messages_from_normal_message_queue", "MessageQueue::drop_update_messages_from_transactional_message_queue"])
p("C08", "A failed transmission discards only the message that failed",
  "When the websocket refuses a non-queueable CALL, that CALL (and no other) is reported as offline to its caller and leaves the queue.",
  "all queue contents and all positions of the selected message",
  "The defect needs a stalled or future-dated message in front of the selected one.",
  MQ + ["MessageQueue::MessageQueue (send failure branch)"])
p("C09", "Responses are matched to the request by id",
  "A CALLRESULT or CALLERROR completes the waiting CALL only when it carries that CALL's message id; it then completes it exactly once, with the received payload; any other response leaves the queue unchanged.",
  "all received frames and all queue states",
  "Frames are attacker-controlled; the id space is infinite.",
  MQ + ["MessageQueue::receive", "MessageQueue::handle_call_result"])
p("C10", "Nothing is transmitted while paused",
  "Between pause() and the matching resume no CALL is transmitted, and a stale delayed resume (one that was superseded by a later pause or resume) never un-pauses the queue.",
  "all interleavings of pause, delayed resume, resume_now, stop and worker steps",
  "Depends on timer interleavings.",
  MQ + ["MessageQueue::pause", "MessageQueue::resume", "MessageQueue::resume_now"])

FSM = ["lib/ocpp/v16/charge_point_state_machine.cpp", "include/ocpp/v16/charge_point_state_machine.hpp"]
p("C11", "OCPP 1.6 connector state follows the documented transition table and faults only overlay it",
  "After any sequence of events and error reports, the underlying connector state is the one obtained by running only the accepted state events through the OCPP 1.6 transition table, and get_state() reports Faulted exactly while at least one unresolved fault is active, otherwise the underlying state.",
  "every finite sequence of events, error reports, error clearances and initial states",
  "Sequences are unbounded and errors nest arbitrarily.",
  FSM + ["ChargePointFSM::handle_event", "ChargePointFSM::handle_error", "ChargePointFSM::handle_error_cleared", "ChargePointFSM::handle_all_errors_cleared"])
p("C12", "StatusNotifications of a connector are complete",
  "Replaying the StatusNotification messages emitted for a connector always leaves the CSMS with the state that get_state() reports: whenever the reported state changes a notification carrying the new state is emitted.",
  "every finite sequence of events and error operations",
  "Quantifies over histories.",
  FSM)
p("C13", "Connector 0 only takes the states allowed for the charge point main controller",
  "Connector 0 can only be Available, Unavailable or Faulted, whatever events are submitted.",
  "all event sequences submitted for connector 0",
  "Needs all sequences.",
  FSM + ["ChargePointStates", "FSM_DEF_CONNECTOR_ZERO"])

PR = ["lib/ocpp/v16/profile.cpp", "include/ocpp/v16/profile.hpp", "lib/ocpp/v16/smart_charging.cpp"]
p("C14", "OCPP 1.6 composite schedule is pointwise correct",
  "At every second of the requested window the composite schedule limits the connector to the minimum of the station-wide limit and the limit of the valid profile of highest stack level (a TxProfile overriding a TxDefaultProfile), and to the default when no profile applies.",
  "all sets of profiles, all schedules, windows and instants",
  "Profiles, periods and instants are unbounded.",
  PR + ["calculate_composite_schedule", "generate_profile_from_periods", "merge_profiles_by_lowest_limit", "merge_tx_profile_with_tx_default_profile"])
p("C15", "Composite schedules are well formed",
  "A produced schedule starts at offset 0, its period offsets are strictly increasing and inside the window, and two neighbouring periods differ.",
  "all inputs",
  "Inputs are unbounded.",
  PR + ["convert_intermediate_into_schedule", "combine_list_of_profiles"])
p("C16", "Recurring profiles are anchored correctly",
  "For a recurring profile the computed occurrence start is the unique instant congruent to startSchedule modulo one day (week) with start <= now < start + day (week).",
  "all start instants and all now, including now before startSchedule",
  "Time is unbounded; the negative modulo case is easy to miss.",
  PR + ["calculate_start"])
p("C17", "Only well-formed profiles are accepted (OCPP 1.6)",
  "A charging profile accepted by validate_profile satisfies every documented condition (connector exists, limits, purpose and connector agree, recurring profiles have a kind and start, stack level and period count in bounds, phases supported), and a profile violating any of them is rejected.",
  "all profiles and configurations",
  "The input space is the product of many optional fields.",
  PR + ["SmartChargingHandler::validate_profile", "SmartChargingHandler::validate_schedule"])
p("C18", "Clearing charging profiles removes exactly the matching ones",
  "ClearChargingProfile removes every installed profile that matches the given id or all given criteria and no other, and reports success exactly when something was removed.",
  "all installed profile sets and filters",
  "Sets and filters are unbounded.",
  PR + ["SmartChargingHandler::clear_all_profiles_with_filter", "clear_profiles"])
p("C19", "Installing a charging profile replaces what it must and nothing else",
  "Installing a profile with a purpose and stack level replaces an installed one with the same purpose, stack level and connector, and leaves the others; profiles with an identical id do not coexist.",
  "all installed sets and new profiles",
  "Histories of installations are unbounded.",
  PR + ["SmartChargingHandler::add_charge_point_max_profile", "add_tx_default_profile", "add_tx_profile"])

STR = ["include/ocpp/common/cistring.hpp", "include/ocpp/common/string.hpp"]
p("C20", "Case-insensitive strings compare consistently",
  "Equality of CiString is an equivalence relation that ignores ASCII case, and `a != b` is the negation of `a == b`.",
  "all strings and all length limits",
  "All pairs of strings.",
  STR + ["istring_compare", "CiString::operator==", "operator!="])
p("C21", "Length limits of OCPP strings are enforced",
  "A CiString<L>/String<L> object never holds more than L characters: longer input is refused or truncated to the first L characters, shorter input is stored unchanged; only printable characters are stored.",
  "all inputs and limits",
  "All strings.",
  STR + ["String::set", "CiString::is_valid"])
p("C22", "CSV splitting and number recognition",
  "split_string recovers exactly the fields that were joined with the separator; is_integer / is_decimal_number accept exactly the strings denoting numbers, so that the following conversion never fails on the syntax.",
  "all strings",
  "All strings.",
  ["lib/ocpp/common/utils.cpp", "split_string", "is_integer", "is_decimal_number", "trim_string", "is_positive_integer"])
p("C23", "OCPP-J frames round-trip",
  "Every CALL, CALLRESULT and CALLERROR that is serialised and parsed again yields the same id, action and payload; a frame of one kind is never parsed as another.",
  "all ids, actions and payloads",
  "Payloads are arbitrary JSON.",
  ["include/ocpp/common/call_types.hpp", "lib/ocpp/common/call_types.cpp"])
p("C24", "Reconnect back-off grows and stays bounded",
  "The reconnect delay doubles (plus a random part) with each failed attempt until RetryBackOffRepeatTimes is reached and is constant afterwards; it never is below RetryBackOffWaitMinimum and never exceeds the closed-form bound.",
  "all configurations, attempt numbers and random outcomes",
  "Random outcomes and attempts are unbounded.",
  ["lib/ocpp/common/websocket/websocket_base.cpp", "WebsocketBase::get_reconnect_interval"])

CSM = ["lib/ocpp/v2/component_state_manager.cpp", "lib/ocpp/v2/database_handler.cpp"]
p("C25", "Effective availability is hierarchical and announced",
  "An EVSE is effectively operative iff it and the station are; a connector iff it, its EVSE and the station are; whenever the effective status of a component changes, the registered callback for that component is called once with the new value, and it is not called otherwise.",
  "every sequence of availability changes on any topology",
  "Topology and histories are unbounded.",
  CSM + ["ComponentStateManager::trigger_callbacks_cs", "trigger_callbacks_evse", "trigger_callbacks_connector"])
p("C26", "Persisted availability survives restarts",
  "After a restart the individual operational status of every component is the last one set with persistence, or Operative if none ever was; non-persistent changes are forgotten.",
  "every history and crash point",
  "Crash points and histories.",
  CSM + ["read_all_states_from_database_or_set_defaults", "insert_availability"])
p("C27", "Connector status reports are complete",
  "If every StatusNotification the station wants to send is delivered, the last status reported for a connector equals its current status (Faulted over Unavailable over Occupied over Reserved over Available), except for the plug-in of a reserved connector, which stays reported as Reserved.",
  "every sequence of connector events and delivery results",
  "Histories are unbounded.",
  CSM + ["send_status_notification_single_connector_internal", "FullConnectorStatus::to_connector_status", "set_connector_occupied"])

DM = ["lib/ocpp/v2/device_model.cpp", "lib/ocpp/v2/device_model_storage_sqlite.cpp"]
p("C28", "Device model access control",
  "GetVariables never reveals the value of a WriteOnly attribute and SetVariables never changes a ReadOnly one; a rejected set leaves the device model unchanged; an accepted set is what the next get returns.",
  "all components, variables, attributes, values and histories",
  "All request sequences.",
  DM + ["DeviceModel::set_value", "DeviceModel::request_value_internal", "get_base_report_data"])
p("C29", "Device model values respect their characteristics",
  "A value accepted for a variable conforms to the variable's data type, lies between minLimit and maxLimit and, for option lists, is one of the listed values.",
  "all characteristics and all value strings",
  "All strings and limits.",
  DM + ["validate_value", "convert_to_positive_size_t"])
p("C30", "Reports contain exactly the selected variables",
  "A base or custom report lists each variable of the device model that satisfies the selection exactly once, with its current attribute values, and never a WriteOnly value.",
  "all device models and selections",
  "All device models.",
  DM + ["get_base_report_data", "get_custom_report_data", "component_variables_match"])
p("C31", "Monitors are set and cleared consistently",
  "After any sequence of SetVariableMonitoring / ClearVariableMonitoring / SetMonitoringBase the monitors held in memory are those held in the database, ids are unique, a monitor id never moves to another variable, and protected monitors are never removed by the CSMS.",
  "all histories",
  "Histories are unbounded.",
  DM + ["DeviceModel::set_monitors", "clear_monitors", "clear_custom_monitors"])
p("C32", "Monitoring passes terminate and report every trigger once",
  "Every monitoring pass terminates, and each transition of a monitored variable into (or back out of) the alarm range is reported to the CSMS exactly once while online.",
  "all monitor tables and value histories",
  "Non-termination needs a particular table.",
  ["lib/ocpp/v2/monitoring_updater.cpp", "MonitoringUpdater::process_monitors_internal", "evaluate_monitor"])
p("C33", "No security downgrade of the CSMS connection",
  "Once a connection with a given security profile has been confirmed, the station never connects through a network profile with a lower security level, across reconnects.",
  "all network profile tables, priorities and connection histories",
  "Histories of connection outcomes.",
  ["lib/ocpp/v2/connectivity_manager.cpp", "ConnectivityManager::check_cache_for_invalid_security_profiles", "get_next_configuration_slot", "confirm_successful_connection"])
p("C34", "All configured network profiles are tried in turn",
  "When connecting keeps failing, the station tries the configured network slots cyclically, so that each usable slot is tried within one round.",
  "all slot lists and failure patterns",
  "Lists and failure patterns are unbounded.",
  ["lib/ocpp/v2/connectivity_manager.cpp", "get_next_configuration_slot", "try_connect_websocket"])

AU = ["lib/ocpp/v2/functional_blocks/authorization.cpp", "lib/ocpp/v2/database_handler.cpp"]
p("C35", "Authorization decision",
  "A token is accepted without asking the CSMS only if authorization is disabled, the token needs none, it is accepted by the enabled local list or by a non-expired cache entry while local checks are permitted, or the station is offline and unknown ids are allowed offline; an expired cache entry is never honoured.",
  "all configurations, tokens, list and cache contents, times and CSMS answers",
  "The decision has dozens of independent inputs.",
  AU + ["Authorization::validate_token"])
p("C36", "Offline authorization attempts do not destroy cached authorizations",
  "An authorization attempt that never reached the CSMS does not change what the authorization cache says about the token.",
  "all configurations and cache contents",
  "Needs the combination of cache and connectivity configuration.",
  AU + ["Authorization::validate_token", "authorize_req"])
p("C37", "Local authorization list updates",
  "A full update leaves exactly the sent list, a differential update adds, replaces and deletes exactly the sent entries, both only with a valid version; a refused update leaves list and version untouched; the stored version is that of the last accepted update.",
  "all update histories",
  "Histories are unbounded.",
  AU + ["apply_local_authorization_list", "handle_send_local_authorization_list_req", "insert_or_update_local_authorization_list"])
p("C38", "Reports are split without loss",
  "Splitting a NotifyReport keeps every report entry exactly once in order, numbers the parts 0,1,2,..., marks all but the last as to-be-continued, and each part either respects the maximum message size or holds a single entry.",
  "all report lists and size limits",
  "Lists and sizes are unbounded.",
  ["lib/ocpp/v2/notify_report_requests_splitter.cpp"])
p("C39", "Transaction sequence numbers never repeat",
  "The seqNo values of the TransactionEvent messages of one transaction are 0,1,2,... without gap or repetition, also across a restart when transactions are resumed.",
  "all histories of events and restarts",
  "Crash points and histories.",
  ["lib/ocpp/v2/transaction.cpp", "lib/ocpp/v2/evse.cpp", "lib/ocpp/v2/database_handler.cpp", "EnhancedTransaction::get_seq_no", "Evse::try_resume_transaction"])
p("C40", "Enumerations round-trip with their wire strings",
  "For every OCPP enumeration, converting a value to its wire string and back yields the value, distinct values have distinct strings, and any other string is refused.",
  "all enumeration values and all strings",
  "All strings are quantified; hundreds of values are easily mistyped.",
  ["lib/ocpp/v16/ocpp_enums.cpp", "lib/ocpp/v2/ocpp_enums.cpp", "lib/ocpp/common/types.cpp"])
p("C41", "Basic-auth credentials are encoded faithfully",
  "base64 decoding the encoding of any byte string gives the byte string back; different credentials never produce the same header.",
  "all byte strings",
  "All byte strings.",
  ["3rd_party/websocketpp_utils/base64.hpp", "lib/ocpp/common/websocket/websocket_base.cpp"])
p("C42", "Change of availability waits for running transactions",
  "A ChangeAvailability request is executed immediately when no transaction is affected, otherwise reported as scheduled and executed when the last affected transaction ends, unless a later accepted request for the same target replaced it; it never makes a component inoperative when the request asked for operative.",
  "all request and transaction histories",
  "Histories are unbounded.",
  ["lib/ocpp/v2/functional_blocks/availability.cpp", "Availability::handle_change_availability_req", "handle_scheduled_change_availability_requests"])
p("C43", "Remote start with an invalid charging profile is rejected",
  "A RequestStartTransaction whose charging profile is invalid is answered with Rejected and starts nothing; one for a faulted, unavailable, occupied or otherwise reserved EVSE as well.",
  "all requests and EVSE states",
  "Combination of states.",
  ["lib/ocpp/v2/functional_blocks/remote_transaction_control.cpp", "handle_remote_start_transaction_request"])
p("C44", "Transaction meter values are stored faithfully",
  "Meter values stored for a transaction are returned unchanged and in order when the transaction ends, and only those of that transaction are deleted afterwards.",
  "all meter values and histories",
  "All combinations of optional fields.",
  ["lib/ocpp/v2/database_handler.cpp", "transaction_metervalues_insert", "transaction_metervalues_get_all", "transaction_metervalues_clear"])
p("C45", "Meter value filtering and averaging",
  "Reported meter values contain exactly the sampled values whose measurand is configured, in their original order; averaged values are the arithmetic mean of the samples since the last report.",
  "all meter values and configurations",
  "All lists of samples.",
  ["lib/ocpp/v2/utils.cpp", "lib/ocpp/v2/average_meter_values.cpp"])
p("C46", "Clock alignment of timestamps",
  "align_timestamp returns the multiple of the interval since midnight nearest to the given time (ties up).",
  "all timestamps and intervals",
  "Time is unbounded.",
  ["lib/ocpp/v2/utils.cpp", "align_timestamp"])
p("C47", "OCPP 2.x composite schedule is pointwise correct",
  "At every second of the window the OCPP 2.x composite schedule carries the limit, discharge limit and setpoint that the profile-merging rules give for the profiles active at that second.",
  "all profile sets, windows and instants",
  "Unbounded inputs.",
  ["lib/ocpp/v2/profile.cpp", "lib/ocpp/v2/functional_blocks/smart_charging.cpp"])
p("C48", "OCPP 2.x profile validation",
  "A profile accepted by SetChargingProfile satisfies the K01 requirements checked by the station; a profile violating one is rejected with the matching reason.",
  "all profiles, transactions, EVSEs and installed profiles",
  "Product of many optional fields.",
  ["lib/ocpp/v2/functional_blocks/smart_charging.cpp", "SmartCharging::conform_and_validate_profile"])
p("C49", "OCPP 2.x clearing and reporting of charging profiles",
  "ClearChargingProfile removes exactly the matching profiles and never external constraints; GetChargingProfiles reports every matching profile exactly once, the last report being marked final.",
  "all stored profile sets, filters",
  "Sets and filters are unbounded.",
  ["lib/ocpp/v2/functional_blocks/smart_charging.cpp", "lib/ocpp/v2/database_handler.cpp", "clear_charging_profiles_matching_criteria", "handle_get_charging_profiles_req"])
p("C50", "Scheduled resets happen exactly once, when idle",
  "A reset scheduled for the station (or an EVSE) while transactions are running is carried out exactly once, when the last running transaction (on that EVSE) ends.",
  "all histories of transactions and reset requests",
  "Histories are unbounded.",
  ["lib/ocpp/v2/functional_blocks/transaction.cpp", "TransactionBlock::on_transaction_finished", "schedule_reset"])
p("C51", "A queued retry is woken up for",
  "After a failed CALL has been queued again for a later time, the worker is woken up when that time has come, so that the retry is transmitted while the connection is up and idle.",
  "all histories of failures, pushes and timer events",
  "Needs a specific interleaving of two retries; tests exercise one retry at a time.",
  ["include/ocpp/common/message_queue.hpp", "MessageQueue::add_to_normal_message_queue", "MessageQueue::handle_timeout_or_callerror", "notify_queue_timer"])
p("C52", "What the dispatchers do with a message before acceptance",
  "dispatch_call queues a message at once when the station is registered, or the message is a BootNotification or explicitly triggered; otherwise it queues transactional messages (all with QueueAllMessages) to be held until acceptance and discards the rest; dispatch_call_async answers 'offline' in exactly the remaining cases.",
  "all message types, registration states and configurations",
  "The table is a product of all message types and states.",
  ["lib/ocpp/v16/message_dispatcher.cpp", "lib/ocpp/v2/message_dispatcher.cpp"])

p("C53", "Stored charging profiles and what is in force agree (OCPP 1.6)",
  "Every charging profile in the database is in force where it was installed; after a restart the profiles in force are exactly those in the database, and stored profiles other than TxProfiles survive a restart of the unchanged station while the installed-profile limit is not reached.",
  "all histories of SetChargingProfile, RemoteStartTransaction, ClearChargingProfile, transactions, expiry and restarts",
  "Histories are unbounded; loss shows only after a restart.",
  ["lib/ocpp/v16/charge_point_impl.cpp", "ChargePointImpl::load_charging_profiles", "lib/ocpp/v16/smart_charging.cpp", "lib/ocpp/v16/database_handler.cpp"])
p("C54", "Expired charging profiles are dropped, others kept (OCPP 1.6)",
  "clear_expired_profiles removes exactly the profiles past their validTo and the absolute profiles whose schedule has run out, from memory and database.",
  "all installed profile sets and times",
  "Sets and times are unbounded.",
  ["lib/ocpp/v16/smart_charging.cpp", "SmartChargingHandler::clear_expired_profiles"])
p("C55", "TxProfiles live as long as their transaction (OCPP 1.6)",
  "A TxProfile installed by SetChargingProfile is in force only while the transaction it belongs to is running; when a transaction ends, exactly the TxProfiles of its connector are removed.",
  "all histories of requests, transactions and restarts",
  "Histories are unbounded.",
  ["lib/ocpp/v16/charge_point_impl.cpp", "lib/ocpp/v16/smart_charging.cpp"])

p("C56", "The reply to a CALL of the CSMS goes out before any request of the station",
  "From the moment a CALL of the CSMS is received until its reply is pushed, no other CALL is transmitted (unless an answer arrives or the wait is reset); pushing the reply transmits it at once and releases the due request.",
  "all queue states, all operations in between",
  "Interleavings of receive, push and worker threads are unbounded.",
  ["include/ocpp/common/message_queue.hpp", "MessageQueue::receive", "MessageQueue::push_call_result", "next_message_to_send"])
p("C57", "Transaction ids learnt after queueing are filled in before transmission",
  "Once the transaction id of a queued StopTransaction or MeterValues is announced to the queue, every transmission of that message carries it, over failed attempts and reconnects.",
  "all queue states and all operations between queueing, announcement and transmission",
  "Needs long histories with offline periods and retries.",
  ["include/ocpp/common/message_queue.hpp", "MessageQueue::add_stopped_transaction_id", "MessageQueue::add_meter_value_message_id", "MessageQueue::notify_start_transaction_handled"])
p("C58", "A stopped message queue sends at most one more request and accepts nothing",
  "After stop() at most one CALL is still transmitted, pushed messages and replies are not sent, and asynchronous calls are answered with offline.",
  "all queue states and all later operations",
  "Races with the worker thread.",
  ["include/ocpp/common/message_queue.hpp", "MessageQueue::stop"])

p("C59", "A dead connection is detected by ping, a live one is not closed",
  "On a connection without pending ping a ping is sent after the configured interval; if no pong arrives within the pong timeout the connection is closed, and it is closed for that reason only after a ping sent on this connection was followed by that many seconds without a pong.",
  "all configurations and all sequences of seconds, pongs, connection losses and changes of the interval",
  "Sequences of losses, pongs and ticks are unbounded.",
  ["lib/ocpp/common/websocket/websocket_base.cpp", "lib/ocpp/common/websocket/websocket_libwebsockets.cpp", "WebsocketBase::set_websocket_ping_interval", "WebsocketBase::on_pong_timeout"])

p("C60", "The authorization cache is cleaned up by expiry and least recent use",
  "A round of the clean-up leaves no expired entry, removes usable entries only while the storage limit is exceeded and always the least recently used ones, and uses the same expiry rule as token validation; ClearCache and clearing customer information remove exactly the rows they name.",
  "all cache contents, row sizes, times, lifetimes and limits",
  "Eviction order and minimality over arbitrary contents and limits.",
  ["lib/ocpp/v2/functional_blocks/authorization.cpp", "lib/ocpp/v2/database_handler.cpp", "Authorization::cache_cleanup_handler", "DatabaseHandler::authorization_cache_delete_expired_entries"])

p("C61", "TransactionEvent messages say what happened, remote starts are reported once, refused tokens act once",
  "Every transaction event carries the id, charging state, reason, remote start id and token of the transaction and call it is for, and nothing else is sent; a remote start id waiting for its token is reported in at most one message, as RemoteStart; a token refused in an answer stops or pauses exactly the transaction it was sent for if that still runs; GetTransactionStatus tells whether the transaction runs.",
  "all stations, histories of calls returning normally with any database failures, and all answers",
  "Interleaved transactions, waiting remote starts and late answers over unbounded histories.",
  ["lib/ocpp/v2/functional_blocks/transaction.cpp", "TransactionBlock::transaction_event_req", "TransactionBlock::handle_transaction_event_response", "TransactionBlock::handle_get_transaction_status", "lib/ocpp/v2/charge_point.cpp"])

p("C62", "Monitoring events are numbered uniquely and periodic monitors report at their interval",
  "No two monitoring events sent have the same event id; a periodic monitor is reported by a pass exactly if more than its interval has gone by since its last report or since it was first seen, with the value of that moment; the next time of a clock-aligned monitor is the first multiple of its interval in the hour, or the full hour, not before the present second.",
  "all monitor tables, value histories, settings and pass times, offline or not",
  "Numbers are shared by all monitors and by queued events; intervals interact with arbitrary pass times.",
  ["lib/ocpp/v2/monitoring_updater.cpp", "MonitoringUpdater::process_monitor_meta_internal", "get_next_clock_aligned_point"])

p("C63", "Stored charging profiles never conflict",
  "At any time, after any sequence of set, clear and remote start requests, transaction ends and restarts, no two stored profiles have the same id, no two of one purpose, stack level and EVSE overlap in validity, TxDefault profiles of one stack level are either all station-wide or all on EVSEs, and every stored profile is on an EVSE its purpose allows; a restart keeps exactly the profiles that are still valid.",
  "all histories of requests, transaction ends and restarts, with any changes of the station in between",
  "Invariant over unbounded histories.",
  ["lib/ocpp/v2/functional_blocks/smart_charging.cpp", "lib/ocpp/v2/database_handler.cpp", "ChargePoint::clear_invalid_charging_profiles"])

p("C64", "An accepted charging profile takes part in the composite schedule",
  "A profile that SetChargingProfile accepted is used for composite schedules from then on, until it is replaced or cleared.",
  "all stations, profiles and stored profile sets",
  "Depends on every optional field being treated alike when a profile is set and when it is read back.",
  ["lib/ocpp/v2/functional_blocks/smart_charging.cpp", "SmartCharging::get_valid_profiles_for_evse", "conform_schedule_number_phases"])

p("C65", "The charging profile of a RequestStartTransaction applies to the transaction it starts",
  "The TxProfile given with an accepted RequestStartTransaction limits the transaction that it starts and is removed when that transaction ends.",
  "all requests, stations and transactions",
  "Crosses several functional blocks and the database.",
  ["lib/ocpp/v2/functional_blocks/remote_transaction_control.cpp", "lib/ocpp/v2/functional_blocks/smart_charging.cpp", "SmartCharging::delete_transaction_tx_profiles"])

p("C66", "The charging station connects to the central system it was told to",
  "For every well-formed central system address (optional scheme, host or bracketed IPv6 address, optional port, optional path) that fits the security profile, the websocket goes to exactly that host and port (default 80 or 443), over TLS exactly when the security profile asks for it, with a path whose last segment is the identity, which is appended once whether or not the address already ended in it. Whatever is accepted has a port from 1 to 65535 and a path that begins and ends with a slash, and writing it out and reading it again changes nothing.",
  "all address strings, identities and security profiles",
  "All strings; the interplay of scheme, port, brackets, trailing slashes and identities.",
  ["lib/ocpp/common/websocket/websocket_uri.cpp", "Uri::parse_and_validate", "3rd_party/websocketpp_utils/uri.hpp", "lib/ocpp/common/websocket/websocket_libwebsockets.cpp"])
p("C67", "A transaction with an invalid identifier is paused at the energy limit",
  "After the identifier of a running transaction turned out to be invalid, the station demands a pause with the first meter value at which the energy since the start of the transaction has reached MaxEnergyOnInvalidId, once, and never for transactions whose identifier is valid or that have no energy register.",
  "all histories of meter values, transactions and configurations",
  "Depends on the order of meter values, authorization results and transactions.",
  ["lib/ocpp/v2/evse.cpp", "Evse::check_max_energy_on_invalid_id", "Evse::start_checking_max_energy_on_invalid_id"])

p("C68", "Pricing triggers report meter values exactly when they are due",
  "An energy trigger set by a cost update produces one MeterValues request, with the first value whose register reaches it; a power trigger produces one at first and then each time the power has crossed the trigger by five percent; a time trigger produces one. Context is Other; nothing is reported without a trigger.",
  "all histories of meter values and triggers",
  "Hysteresis depends on the whole sequence of values.",
  ["lib/ocpp/v2/evse.cpp", "Evse::set_meter_value_pricing_triggers", "Evse::send_meter_value_on_pricing_trigger"])

p("C69", "Clock-aligned timers fire at the next point of their grid",
  "A clock-aligned timer fires at the first multiple of its interval, counted from its start, that lies after now, and at its start if that has not passed.",
  "all starts, intervals and times",
  "Time is unbounded.",
  ["include/ocpp/common/aligned_timer.hpp", "get_next_timepoint"])

p("C70", "Times survive their text",
  "The text written for a time is its RFC 3339 text in UTC with milliseconds; every RFC 3339 text, whatever its offset and number of fraction digits (up to nine), is read as the time it means; writing and reading changes no time by a millisecond.",
  "all times of 64-bit nanoseconds; all texts of the RFC 3339 form",
  "There are 2^64 times, and calendars have rare cases.",
  ["lib/ocpp/common/types.cpp", "DateTimeImpl::to_rfc3339", "DateTimeImpl::from_rfc3339"])

p("C71", "Every message arrives as what was sent",
  "Every value of every OCPP 1.6 and 2.x data type and message is written as the JSON the declarations ask for: all required members, the optional ones that are set, nothing else, enumerators as their strings, times as RFC 3339. Sent as a Call or CallResult and read again it is the same value, but for fractions of milliseconds. Every such JSON form, also with unknown members added, is read as the value it stands for.",
  "all 340 structs, 206 messages and all their values; all message ids",
  "There are 340 pairs of hand-written or generated functions with thousands of combinations of optional members, and unbounded strings and lists.",
  ["lib/ocpp/v16/ocpp_types.cpp", "lib/ocpp/v2/ocpp_types.cpp", "lib/ocpp/v16/messages", "lib/ocpp/v2/messages", "to_json", "from_json"])

p("C72", "Messages without their required members are refused",
  "A JSON is accepted as a message exactly if all required members are there and every member can be converted; optional members are set exactly if they are there. Which conversions are made is stated exactly.",
  "all 340 structs and all JSON values",
  "The inputs come from outside and are unbounded.",
  ["lib/ocpp/v16/ocpp_types.cpp", "lib/ocpp/v2/ocpp_types.cpp", "lib/ocpp/v16/messages", "lib/ocpp/v2/messages", "from_json"])
p("C73", "Accepted configuration values are stored, all others leave the configuration alone",
  "A ChangeConfiguration (OCPP 1.6) that is answered Accepted or RebootRequired has stored the value the text stands for under exactly that key, in the running and in the user configuration; GetConfiguration then shows it. Any other answer leaves the configuration as it was. Which texts a key accepts is stated exactly per declared type. In every state a charge point can reach, all keys have the form their schemas ask for.",
  "all keys, texts, configurations reached by starting and any number of changes, and outcomes of writing the file",
  "There are over a hundred keys with hand-written setters and getters, unbounded texts, and sequences of changes.",
  ["lib/ocpp/v16/charge_point_configuration.cpp", "lib/ocpp/v16/charge_point_impl.cpp", "ChargePointConfiguration::set", "ChargePointConfiguration::get", "ChargePointImpl::set_configuration_key_internal"])

p("C74", "A charge point starts again after an accepted change",
  "After a ChangeConfiguration that was accepted, the charge point can be constructed again from the stored configuration, with the same state.",
  "all keys, texts and configurations a charge point can start with",
  "A value that is accepted by a setter and refused by the schema shows only at the next start; values are unbounded.",
  ["lib/ocpp/v16/charge_point_configuration.cpp", "config/v16/profile_schemas", "ChargePointConfiguration::ChargePointConfiguration", "ChargePointConfiguration::set"])

p("C75", "Every configuration request is answered once and consistently",
  "Every ChangeConfiguration gets exactly one answer. GetConfiguration answers each requested key once, with a value under its name or as unknown, and fails only for texts that do not fit into the response. Keys reported as read-only are refused, unknown keys are not supported, both without effect. Keys reported as writable can be changed, whatever the case they are written in.",
  "all requests, keys, texts and configurations a charge point can reach",
  "Answers are sent on many paths, some of them early, some by exceptions.",
  ["lib/ocpp/v16/charge_point_impl.cpp", "lib/ocpp/v16/charge_point_configuration.cpp", "ChargePointImpl::handleChangeConfigurationRequest", "ChargePointImpl::get_configuration_key"])

p("C76", "The security profile can only be raised",
  "A ChangeConfiguration switches the security profile only by the key SecurityProfile, only to a higher profile of at most 3, and only if the authorization key (1, 2), the CSMS root certificate (2, 3) and the charge point certificate (3) are there; and it does so whenever this is the case.",
  "all keys, texts, configurations a charge point can reach, and installed certificates",
  "The text is unbounded and any other key could have the effect.",
  ["lib/ocpp/v16/charge_point_impl.cpp", "ChargePointImpl::set_configuration_key_internal", "ChargePointImpl::switchSecurityProfile"])
p("C77", "Accepted configuration changes take effect",
  "The intervals for heartbeats, meter values and websocket pings, the connection timeout, the retry settings for transaction messages, the certificate timers and the authorization key that were handed over last to the parts of the charge point that use them are those the configuration holds, after any sequence of changes. Accepted changes are reported to the callback registered for the key, or else to the general callback; nothing else is.",
  "all sequences of changes by requests or by the user of the library, from any configuration a charge point can reach",
  "The value in force depends on the whole history of changes; a wrong one shows only after a certain order of them.",
  ["lib/ocpp/v16/charge_point_impl.cpp", "ChargePointImpl::set_configuration_key_internal", "lib/ocpp/v16/charge_point_configuration.cpp"])

p("C78", "Price texts are kept per language",
  "A price text (DefaultPriceText with a language) is accepted exactly if the language is supported and the text is a JSON object with a priceText. It then replaces the text of that language and of no other, and is what the key shows. Every other text is answered with Rejected.",
  "all languages, texts and configurations a charge point can reach",
  "The texts are a list inside of one value of the configuration; the languages and their number are unbounded.",
  ["lib/ocpp/v16/charge_point_configuration.cpp", "ChargePointConfiguration::setDefaultPriceText", "ChargePointConfiguration::getDefaultPriceText"])

p("C79", "The authorization key is never shown",
  "The response to any GetConfiguration is the same whatever the authorization key is; asked for by name, the key is reported as unknown.",
  "all requests, all pairs of charge points that differ only in the authorization key",
  "That no response depends on the key is a statement about pairs of executions, for all requests.",
  ["lib/ocpp/v16/charge_point_configuration.cpp", "ChargePointConfiguration::get", "ChargePointConfiguration::get_all_key_value"])

p("C84", "A station asks for a certificate once at a time and waits longer and longer",
  "Between two SignCertificate.req the first was settled (certificate arrived, request rejected, or accepted without a repetition being due), or the second was made by the timer set for the first. Repetitions are at most CertSigningRepeatTimes; the wait starts at twice CertSigningWaitMinimum (at least 500 s) and doubles, without ever exceeding int. Each request names the station (or the ISO 15118 controller) as configured. Once the last request is settled, a request is made as soon as it is asked for or a certificate expires within 30 days. Unless a certificate arrives before the answer to its request, the timer's callback never fails.",
  "all sequences of requests, answers, lost answers, timer events and certificates, all configurations changing in between",
  "The behaviour depends on the order of answers, certificates and timer events over an unbounded history.",
  ["lib/ocpp/v2/functional_blocks/security.cpp", "Security::sign_certificate_req", "Security::handle_sign_certificate_response", "Security::scheduled_check_client_certificate_expiration"])

p("C85", "Certificates are installed, deleted and listed exactly as the CSMS asks and the security profile permits",
  "A root certificate reaches the certificate store exactly if it may be installed, and unchanged. A signed certificate is handed to the store for its use. Deleting and listing ask the store for exactly what was asked. Each request is answered once, by what the store said. The station reconnects exactly if its own certificate changed under security profile 3, and the application is told of every change. No other call touches the store.",
  "all states of the station, configurations, certificates and answers of the store",
  "Certificates, configurations and answers of the store combine freely, and each combination has its own effects.",
  ["lib/ocpp/v2/functional_blocks/security.cpp", "Security::handle_certificate_signed_req", "Security::handle_install_certificate_req", "Security::handle_delete_certificate_req", "Security::handle_get_installed_certificate_ids_req", "Security::should_allow_certificate_install"])
p("C86", "A firmware update takes connectors out of service before it is installed and puts them back at its end",
  "Every status the application reports is passed on to the CSMS once, with its request id; a question for the status is answered with the last one told (Idle after Installed). When the status preceding the installation (SignatureVerified for signed firmware, Downloaded otherwise) is reported, all connectors of idle EVSEs become inoperative; a charging EVSE becomes so when its transaction ends, and InstallScheduled is told. The application is told that all connectors are unavailable exactly if no transaction is running. When the update has ended, the connectors have the status kept in the database. Nothing else of this block touches connectors. A request reaches the application exactly if its signing certificate is not invalid, and is answered once; an invalid certificate, an invalid signature and an installed firmware, and only these, give a security event.",
  "all histories of reports, requests, transactions, availability changes and restarts; all numbers of EVSEs and connectors",
  "Reports, transactions and availability changes interleave freely; the connectors and schedules they leave behind depend on the whole history.",
  ["lib/ocpp/v2/functional_blocks/firmware_update.cpp", "FirmwareUpdate::on_firmware_update_status_notification", "FirmwareUpdate::on_firmware_status_notification_request", "FirmwareUpdate::handle_firmware_update_req", "FirmwareUpdate::change_all_connectors_to_unavailable_for_firmware_update", "FirmwareUpdate::restore_all_connector_states"])
p("C80", "A remote start reaches the application exactly if the EVSE can start, and its id reaches the CSMS",
  "RequestStartTransaction.req for a known EVSE is handed to the application exactly if the EVSE has no transaction, it and the station are operative, some connector is neither faulted nor unavailable, and it is not reserved for another token. The answer is then the application's, and the next transaction with that token on that EVSE tells the CSMS the remote start id, once, with the trigger reason RemoteStart. Otherwise the request is rejected and changes nothing. Refused requests (no EVSE, unknown EVSE, registration pending) have no effect.",
  "all requests, states of EVSEs and connectors, reservations and answers of the application and of smart charging",
  "The decision depends on transactions, connector states and reservations left by the whole history; the remote start id travels through another message.",
  ["lib/ocpp/v2/functional_blocks/remote_transaction_control.cpp", "RemoteTransactionControl::handle_remote_start_transaction_request", "RemoteTransactionControl::is_evse_connector_available", "TransactionBlock::set_remote_start_id_for_evse", "TransactionBlock::transaction_event_req"])
p("C81", "Remote unlocking and stopping reach exactly the connector and transaction meant, and every request is answered once",
  "UnlockConnector.req reaches the application exactly if the connector exists and its EVSE has no transaction, and is otherwise answered with the reason. RequestStopTransaction.req reaches it, for the EVSE with that transaction, exactly if there is one. All requests of remote control and reservation are answered exactly once. While the registration is pending only triggers are served; before, only the trigger for BootNotification.",
  "all requests, ids, states and answers of the application",
  "EVSE ids, connector ids (signed in the message, unsigned in the comparison) and transactions combine without bound.",
  ["lib/ocpp/v2/functional_blocks/remote_transaction_control.cpp", "RemoteTransactionControl::handle_unlock_connector", "RemoteTransactionControl::handle_remote_stop_transaction_request", "ChargePoint::message_callback", "EvseManager::is_valid_evse", "EvseManager::get_transaction_evseid"])
p("C82", "A TriggerMessage is answered by whether it can be served, and then exactly the messages asked for are sent",
  "The answer comes first, is Accepted exactly if the message can be sent and NotImplemented exactly for kinds the station does not know; if it is not Accepted nothing happens. Otherwise the messages follow: BootNotification or Heartbeat; the log or firmware status told last; MeterValues of exactly the EVSEs asked for that have configured measurands, with these values and the context Trigger; one TransactionEvent with the state of each running transaction asked for, in order; the status of exactly the connector asked for.",
  "all triggers, targets, histories of reports, meter values, transactions and connector events",
  "What has to be sent depends on everything told before and on all EVSEs.",
  ["lib/ocpp/v2/functional_blocks/remote_transaction_control.cpp", "RemoteTransactionControl::handle_trigger_message", "Availability::heartbeat_req", "ComponentStateManager::send_status_notification_single_connector", "FirmwareUpdate::on_firmware_status_notification_request"])
p("C83", "A reservation reaches the application exactly if the station can have such a connector",
  "ReserveNow.req is handed to the application exactly if reservations are available and enabled and the EVSE asked for has, or may have, a connector of the type asked for; without an EVSE, exactly if that is allowed and some EVSE has one. Otherwise it is rejected without effect. Types are compared without regard to case; an unknown or absent type matches all. CancelReservation.req reaches it exactly if reservations are available and enabled.",
  "all requests, connector types, configurations and states",
  "All numbers of EVSEs and connectors with arbitrary type names.",
  ["lib/ocpp/v2/functional_blocks/reservation.cpp", "Reservation::handle_reserve_now_request", "Reservation::handle_cancel_reservation_callback", "Evse::does_connector_exist", "EvseManager::does_connector_exist"])
p("C87", "A value somebody else than the configuration has set survives restarts and configuration changes",
  "Once the CSMS or the application has set the value of an attribute in the device model database, the attribute keeps this value and its source through every later start, crash during a start, change of the configuration and write to other attributes, as long as every configuration still has the attribute and nobody writes it again.",
  "all histories of starts, crashes, configurations, writes and monitor changes; all components, variables and values",
  "The history between the write and the reading is unbounded, and configurations are arbitrary.",
  ["lib/ocpp/v2/init_device_model_db.cpp", "InitDeviceModelDb::initialize_database", "InitDeviceModelDb::update_attributes", "InitDeviceModelDb::insert_variable_attribute_value", "DeviceModelStorageSqlite::set_variable_attribute_value"])
p("C88", "After a start the device model database has exactly what the configuration describes",
  "From whatever database earlier starts, crashes and writes have left, a start with a well-formed configuration succeeds. Afterwards the database has exactly the components, variables, attributes and monitors of the configuration, each once, with its characteristics, mutability and, where nobody else has set one, its values. What was there before keeps its ids. Of several files for a component the first custom one counts, and a standardized one only if there is no custom one.",
  "all histories and all configurations",
  "What has to be inserted, changed and removed depends on the whole database and the whole configuration.",
  ["lib/ocpp/v2/init_device_model_db.cpp", "InitDeviceModelDb::initialize_database", "InitDeviceModelDb::insert_components", "InitDeviceModelDb::remove_not_existing_components_from_db", "InitDeviceModelDb::update_variable", "get_all_component_configs"])
p("C89", "Starts can be repeated and interrupted, and a wrongly typed configuration changes nothing",
  "A second start with the same configuration leaves every row of the database as it is. If the process dies at any point of a start, the next start gives exactly the database the interrupted one would have given. A configuration with a value that is not of its data type is refused before anything is changed.",
  "all histories, configurations and points of interruption",
  "The point of interruption, the database and the configuration combine without bound.",
  ["lib/ocpp/v2/init_device_model_db.cpp", "InitDeviceModelDb::initialize_database", "check_integrity", "value_is_of_type"])
p("C90", "Configured monitors follow the configuration and custom monitors survive",
  "After a start a variable has exactly the monitors of the configuration, each once, beside the custom monitors it had before, unchanged and in order. A custom monitor stays, with its id, through all starts, crashes and other changes until it is cleared or changed or its variable is no longer configured.",
  "all histories, configurations and monitors",
  "Custom monitors are set and cleared at any time between starts with arbitrary configurations.",
  ["lib/ocpp/v2/init_device_model_db.cpp", "InitDeviceModelDb::update_variable_monitors", "InitDeviceModelDb::delete_variable_monitor", "DeviceModelStorageSqlite::set_monitoring_data", "DeviceModelStorageSqlite::clear_variable_monitor"])
p("C91", "A 1.6 StopTransaction carries the transaction id that the CSMS gave",
  "Every StopTransaction.req that is sent belongs to the transaction that was running on its connector when it was stopped and carries the id of the StartTransaction.conf of that transaction, also if the transaction was stopped before the answer came; unless the StartTransaction.req was given up, the answer is there when the stop is sent.",
  "all histories of starts, stops, answers, retries and configuration changes without a restart, any number of connectors",
  "Starts, stops and answers of several connectors interleave with retries in unboundedly many ways.",
  ["lib/ocpp/v16/charge_point_impl.cpp", "ChargePointImpl::stop_transaction", "ChargePointImpl::handleStartTransactionResponse", "TransactionHandler::get_transaction"])
p("C92", "1.6 MeterValues carry the transaction id that the CSMS gave",
  "A MeterValues.req made during a transaction is sent with the id that the CSMS gave to that transaction, and one made outside of transactions without any id.",
  "all histories without a restart in which no StartTransaction.req is repeated",
  "Meter values are queued before the id is known, and the id is filled in when they are sent.",
  ["lib/ocpp/v16/charge_point_impl.cpp", "ChargePointImpl::send_meter_value", "ChargePointImpl::on_transaction_started", "lib/ocpp/v16/transaction.cpp"])
p("C93", "Starts and stops of 1.6 transactions are reported with their data",
  "A start on an existing connector queues one StartTransaction.req and the end of a running transaction one StopTransaction.req, each with the meter value, time, tag and reason that were given; nothing else is queued. Everything that is sent, also after restarts, was queued before and differs in nothing but the transaction id.",
  "all histories, including restarts for the second part",
  "The data passes through the queue, the database, retries and restarts.",
  ["lib/ocpp/v16/charge_point_impl.cpp", "ChargePointImpl::start_transaction", "ChargePointImpl::on_transaction_stopped", "ChargePointImpl::stop_transaction"])
p("C94", "1.6 transactions that a restart interrupted are closed or resumed",
  "At a start, exactly the stored transactions whose end has neither been acknowledged nor is waiting in the queue and whose session is not resumed are reported as stopped for loss of power, with the last stored meter value and time; the others are resumed with their data. A transaction running at the loss of power is so closed once, with the id that the CSMS gave and its last reading.",
  "all states of the database; all histories whose sessions and transaction ids are distinct",
  "Power can be lost in every state, with messages of the transaction queued, sent, answered or given up.",
  ["lib/ocpp/v16/charge_point_impl.cpp", "ChargePointImpl::try_resume_transactions", "lib/ocpp/v16/database_handler.cpp"])
p("C95", "1.6 ChangeAvailability is decided per connector and survives restarts",
  "A request for an unknown connector is rejected; it is scheduled iff a connector it is about is busy; the other connectors it is about change at once. A scheduled change is made when the session ends or the stop is answered. After any number of restarts each connector is as last requested.",
  "all states and requests; for the last part all orderly histories (no change is made while another one is scheduled, no firmware update)",
  "Requests for single connectors and for the whole station mix with transactions and restarts in any order.",
  ["lib/ocpp/v16/charge_point_impl.cpp", "ChargePointImpl::preprocess_change_availability_request", "ChargePointImpl::execute_queued_availability_change", "ChargePointImpl::handleChangeAvailabilityRequest"])
p("C96", "1.6 remote starts and stops are decided by what is running",
  "RemoteStartTransaction is accepted iff a connector that is meant is startable (no transaction, available or preparing, not reserved for somebody else) and a profile, if any, is a valid TxProfile for a given connector; then the token is passed on with the connectors meant. RemoteStopTransaction is accepted iff a transaction with that id is running and stops that one. UnlockConnector asks the application to unlock existing connectors and, if that is not supported and so configured, stops the transaction there. An accepted Reset stops all running transactions, each once.",
  "all histories without a restart, all requests and states of the connectors",
  "The decision depends on the transactions of all connectors after an arbitrary history.",
  ["lib/ocpp/v16/charge_point_impl.cpp", "ChargePointImpl::handleRemoteStartTransactionRequest", "ChargePointImpl::handleRemoteStopTransactionRequest", "ChargePointImpl::handleUnlockConnectorRequest", "ChargePointImpl::handleResetRequest"])
p("C97", "A 1.6 firmware update takes connectors out of service and puts them back",
  "When the firmware is downloaded (or its signature verified), connectors without a transaction are disabled and the others are scheduled; the application is told that all are unavailable as soon as no transaction is running, and not before. The persistent availability is not changed, and after the update exactly the connectors that are to be available are enabled.",
  "all histories without a restart",
  "The end of transactions and of their reporting falls between the phases of the update in any order.",
  ["lib/ocpp/v16/charge_point_impl.cpp", "ChargePointImpl::change_all_connectors_to_unavailable_for_firmware_update", "ChargePointImpl::signed_firmware_update_status_notification", "ChargePointImpl::firmware_status_notification"])
p("C98", "1.6 transactions never use a timer or transaction that is not there",
  "No history of starts, stops, meter values, answers, retries, remote requests, availability changes and configuration changes dereferences a null pointer.",
  "all histories without a restart",
  "Null pointers are dereferenced only after particular orders of events.",
  ["lib/ocpp/v16/transaction.cpp", "TransactionHandler::change_meter_values_sample_intervals", "lib/ocpp/v16/charge_point_impl.cpp"])
p("C99", "The answer to a 1.6 StartTransaction concerns its transaction",
  "If a transaction is still running when its StartTransaction.req is answered, its tag is cached with the status given, it is paused and (if configured) stopped iff the tag is not accepted, and the application is told its id.",
  "all histories without a restart and all answers",
  "Answers come after any number of other events on the same and on other connectors.",
  ["lib/ocpp/v16/charge_point_impl.cpp", "ChargePointImpl::handleStartTransactionResponse", "ChargePointImpl::handleStopTransactionResponse"])
p("C100", "A 1.6 id tag is accepted only if the CSMS has accepted it",
  "The decision about an id tag is a function of the configuration, the connection, the clock, the last thing the accepted updates of the local list say about it, the last thing the CSMS answered about it and the answer to this Authorize.req. It is accepted only if one of these accepts it and its date has not passed, or if the station is offline and unknown tags are allowed. No decision is undefined behaviour.",
  "all histories of authorizations, list updates, cache clearings and restarts, all configurations; the second part for every behaviour of the clock",
  "What is stored about a tag is the result of an unbounded history of lists, answers and expiries.",
  ["lib/ocpp/v16/charge_point_impl.cpp", "ChargePointImpl::authorize_id_token", "ChargePointImpl::validate_against_cache_entries", "DatabaseHandler::get_local_authorization_list_entry", "DatabaseHandler::get_authorization_cache_entry"])
p("C101", "The 1.6 local list and its version are what the CSMS has sent",
  "An update is not supported iff the list is disabled, fails iff it is differential without a list, mismatches iff it is differential with a version that is not greater than the current one, and is accepted otherwise. The version reported is -1 if the list is disabled, 0 if it is empty and otherwise that of the last accepted update.",
  "all histories in which no update is interrupted, all lists",
  "Full and differential updates of arbitrary length follow each other in any order.",
  ["lib/ocpp/v16/charge_point_impl.cpp", "ChargePointImpl::handleSendLocalListRequest", "ChargePointImpl::handleGetLocalListVersionRequest", "DatabaseHandler::insert_or_update_local_authorization_list"])
p("C102", "A 1.6 contract is accepted only by the CSMS or, offline, with a valid certificate and a known id",
  "A contract is accepted only if the CSMS accepts it, or if the station is offline, validation offline and local authorization are configured, the certificate is valid and the id is accepted by the local list or the cache. Online, the hashes given are sent, else those made from the certificate, else the certificate if central validation is allowed, else nothing.",
  "all histories and all configurations, certificates and answers",
  "The decision combines ten independent conditions with the history of the lists.",
  ["lib/ocpp/v16/charge_point_impl.cpp", "ChargePointImpl::data_transfer_pnc_authorize"])
p("C103", "1.6 reservations are decided by the application and the cache is cleared only if enabled",
  "ReserveNow is passed to the application iff the connector is neither faulted nor preparing, the profile is supported and the connector is not 0 or 0 is supported; the answer is that of the application, else Faulted, Occupied or Rejected. A reservation is cancelled iff the application says so. ClearCache empties the cache and nothing else iff it is enabled.",
  "all requests, configurations and histories",
  "The conditions are independent of each other and the effect of clearing depends on the history.",
  ["lib/ocpp/v16/charge_point_impl.cpp", "ChargePointImpl::handleReserveNowRequest", "ChargePointImpl::handleCancelReservationRequest", "ChargePointImpl::handleClearCacheRequest"])
p("C104", "Before it is accepted an OCPP 2.x station deals only with what it may, and answers each CALL once",
  "A message is given to the part of the station it is meant for iff the station is accepted or the message may be dealt with before, and there is such a part. What is not has no effect and gets NotImplemented, SecurityError or, for remote starts and stops while Pending, Rejected. A CALL is answered exactly once. A message changes nothing of the registration. Answers of the CSMS are not answered.",
  "all messages, all states of the station, all sets of functional blocks; all behaviours of the blocks that do not throw unknown exceptions",
  "There are more than a hundred message types, three registrations, optional blocks and eight kinds of exceptions, and the rejection must hold in every combination.",
  ["lib/ocpp/v2/charge_point.cpp", "ChargePoint::message_callback", "ChargePoint::handle_message", "ChargePoint::send_not_implemented_error"])
p("C105", "A 2.x station is registered as the CSMS said last, and asks until it is accepted",
  "The registration is the last answer to a BootNotification.req that reached the station. As long as it is not Accepted and the station is switched on, a BootNotification.req is under way or the timer for the next one is running, with the interval of the CSMS or 30 s. Heartbeats are sent with the interval of the answer or the one set since.",
  "all histories of starts, stops, answers, failures, messages, connections and timers; the second part without QueueAllMessages",
  "Whether the station goes on asking depends on how failures, triggers, restarts and timers are interleaved.",
  ["lib/ocpp/v2/functional_blocks/provisioning.cpp", "Provisioning::handle_boot_notification_response", "Provisioning::boot_notification_req", "ChargePoint::start", "ChargePoint::stop"])
p("C106", "A 2.x station survives the answers to its BootNotifications",
  "The process ends, exceptions aside, exactly if the station is accepted twice without having been stopped in between; it does not if it is started once and the CSMS does not ask for a BootNotification.",
  "all histories",
  "The end needs two BootNotification.reqs under way at once, which takes a particular interleaving of a trigger or a restart with a timer.",
  ["lib/ocpp/v2/ocsp_updater.cpp", "OcspUpdater::start", "Provisioning::handle_boot_notification_response", "RemoteTransactionControl::handle_trigger_message"])
p("C107", "The CSMS knows the status of every connector of a connected, accepted 2.x station",
  "While the station is connected and accepted, the last StatusNotification for each connector carries its status. When the connection is back, all statuses are sent if it was away for longer than OfflineThreshold, and otherwise exactly those that differ from what the CSMS was told. The expiry of certificates is being checked.",
  "all histories of losses, changes, answers and restarts, with an OfflineThreshold that is not 0",
  "Statuses change and connections are lost in any order and any number of times.",
  ["lib/ocpp/v2/charge_point.cpp", "ChargePoint::websocket_connected_callback", "ChargePoint::websocket_disconnected_callback", "ComponentStateManager::send_status_notification_all_connectors", "ComponentStateManager::send_status_notification_changed_connectors"])
p("C108", "What a 2.x station knows of a customer is told completely, in numbered parts, and can be cleared",
  "CustomerInformation.req is accepted iff it asks for a report or a clearing and names a customer. What the application and the cache know, shortened to MaxCustomerInformationDataLength, is sent in parts of 512 characters that are numbered from 0 and of which exactly the last announces no other. After a clearing the cache has no entry for the token and the same ones for all others.",
  "all requests, texts, caches and configurations with a maximum that is not negative",
  "The text and the number of parts are unbounded, and the boundary cases depend on the length.",
  ["lib/ocpp/v2/functional_blocks/diagnostics.cpp", "Diagnostics::notify_customer_information_req", "Diagnostics::handle_customer_information_req", "Diagnostics::clear_customer_information"])
p("C109", "A monitoring report of a 2.x station tells all monitors found",
  "GetMonitoringReport.req is answered Accepted iff monitors are found. The parts of the report are numbered from 0, all but the last announce another one, and there are as many as ten entries per part need. All monitors found are in the report.",
  "all requests and all results; the last part up to ten entries",
  "The number of monitors is unbounded and the parts are cut by index arithmetic.",
  ["lib/ocpp/v2/functional_blocks/diagnostics.cpp", "Diagnostics::notify_monitoring_report_req", "Diagnostics::handle_get_monitoring_report_req"])
p("C110", "Display messages of a 2.x station are set and told as the CSMS wants",
  "A message is passed to the application iff messages are available, its priority, format and state are supported and its transaction runs; otherwise the first of these that fails is the answer. The CSMS is told all messages of the application that have an id and a priority, in their order and with their contents. A message that was set is told as it was set.",
  "all messages, all lists of supported values written with commas and spaces, all lists of messages",
  "Supported values are unbounded lists in strings, and the checks must be made in a fixed order.",
  ["lib/ocpp/v2/functional_blocks/display_message.cpp", "DisplayMessageBlock::handle_set_display_message", "DisplayMessageBlock::handle_get_display_message"])
p("C111", "The driver is shown the costs and tariffs the CSMS sends, with its numbers",
  "The running cost is passed to the application iff costs are shown and the CSMS has sent one, with its value, the transaction, the greatest energy register of the event and whether the transaction has ended. With it go the personal message and those in languages the station supports, if tariffs are shown. A tariff message of its own is shown iff tariffs but not costs are. CostUpdated.req is answered once and its triggers are set for the EVSE of the transaction.",
  "all events, responses, configurations and meter values",
  "Ten configuration variables, optional fields and lists of unbounded length are combined.",
  ["lib/ocpp/v2/functional_blocks/tariff_and_cost.cpp", "TariffAndCost::handle_cost_and_tariff", "TariffAndCost::handle_costupdated_req"])
p("C112", "The OCSP cache of a 2.x station is updated when it is due, for all certificates or for none",
  "An update of the OCSP cache begins exactly when the updater runs, no update is under way and the time due has passed: the time of construction, of the last trigger, an interval after the last success or a retry interval after the last failure. The certificates are asked for one after the other; answers are stored, each for its certificate, exactly when all have been answered Accepted with a result. Meanwhile every caller has to wait.",
  "all histories of starts, stops, triggers, wake-ups and answers, all times and lists of certificates",
  "Threads, a condition variable and a clock interleave in unboundedly many ways over weeks.",
  ["lib/ocpp/v2/ocsp_updater.cpp", "OcspUpdater::updater_thread_loop", "OcspUpdater::execute_ocsp_update", "OcspUpdater::trigger_ocsp_cache_update"])
p("C113", "An OCPP 1.6 station changes the availability of connectors when they are free and remembers what was wanted",
  "ChangeAvailability.req is rejected iff there is no such connector and scheduled iff one of its connectors is in use. Connectors that are not in use are changed at once, the others when their session has ended or their transaction has been confirmed, and once. The table holds for each connector what the last request for it wanted, and a start makes it so.",
  "all histories of requests, sessions, transactions, firmware states and starts, all numbers of connectors; the table for histories in which no request overtakes a scheduled one or meets a scheduled firmware update",
  "Requests, ends of sessions and firmware states interleave in unboundedly many ways, and an error shows only at a later event.",
  ["lib/ocpp/v16/charge_point_impl.cpp", "ChargePointImpl::preprocess_change_availability_request", "ChargePointImpl::execute_queued_availability_change", "ChargePointImpl::execute_connectors_availability_change"])
p("C114", "A firmware update of an OCPP 1.6 station takes connectors out of use only while it waits for them",
  "After firmware has been downloaded (or its signature verified) and until it has failed, each state told, StopTransaction.conf and trigger makes the connectors without a transaction unavailable, and the application is told that all are exactly if there is no transaction. When it has been installed or has failed, the connectors that are available according to the table are made available again.",
  "all histories of requests, sessions, transactions, firmware states, triggers and starts",
  "The flag, the queue of scheduled changes and the table are updated in different places, and an error shows only at a later event.",
  ["lib/ocpp/v16/charge_point_impl.cpp", "ChargePointImpl::change_all_connectors_to_unavailable_for_firmware_update", "ChargePointImpl::on_firmware_update_status_notification", "ChargePointImpl::firmware_status_notification"])
p("C115", "An OCPP 1.6 station registers before it takes part, and nothing that must not be lost is lost meanwhile",
  "Before an answer to BootNotification.req accepts the station, only BootNotification.req and what the CSMS asked for is sent, requests are not answered (or, while it waits, remote starts and stops are rejected), and the next BootNotification.req is due after the time the answer gave, or 60 seconds. Once accepted, all messages that had to wait and all sent since are on their way, each once, and heartbeats are sent at the interval of the answer or the configured one.",
  "all histories of starts, connections, answers, requests, timers and sent messages, all configurations; what is sent for histories without a stop",
  "The order of answers, timers, connections and messages is unbounded, and messages that wait show only much later.",
  ["lib/ocpp/v16/charge_point_impl.cpp", "ChargePointImpl::message_callback", "ChargePointImpl::handleBootNotificationResponse", "MessageDispatcher::dispatch_call", "get_message_transmission_priority"])
p("C116", "A trigger sends exactly the messages that the CSMS asked for",
  "TriggerMessage.req and ExtendedTriggerMessage.req are accepted iff there is such a connector and, in the former, one of those meant has measured something if meter values are wanted, and in the latter, a CPO name is set if a certificate is wanted. If accepted, the messages asked for are sent for the connector named or all, each once; otherwise none.",
  "all requests, all numbers of connectors, all measurements",
  "Requests, connectors and measurements combine without bound.",
  ["lib/ocpp/v16/charge_point_impl.cpp", "ChargePointImpl::handleTriggerMessageRequest", "ChargePointImpl::handleExtendedTriggerMessageRequest"])
p("C117", "A DataTransfer.req reaches the callback registered for it, and is answered once",
  "Whatever callbacks were registered before, a request is given to the one last registered for its vendor and message, to the general one if there is none (or if that one says that it knows the vendor or the message not), and otherwise the CSMS learns which of both is unknown. The vendor of ISO 15118 is served by the library itself. Each request is answered exactly once. The application learns the answer to its own request, nothing if the station is offline or the answer is late.",
  "all histories of registrations, all requests, all answers of the callbacks, including exceptions",
  "Registrations and requests come in any order, and unit tests register one callback.",
  ["lib/ocpp/v16/charge_point_impl.cpp", "ChargePointImpl::handleDataTransferRequest", "ChargePointImpl::register_data_transfer_callback", "ChargePointImpl::data_transfer"])
p("C118", "Requests about certificates do with the certificate store what they say, and the CSMS is told the outcome",
  "For the requests of ISO 15118 inside DataTransfer and those of the security extension, the store is asked for exactly what the request names, never if certificate management is off, never for a chain of the wrong use or above the configured size; the answer is what the store said, or a rejection if the request cannot be read; signing requests, reconnection, OCSP updates and security events follow exactly when due.",
  "all requests, all configurations, all answers of the store including exceptions",
  "Contents, configurations and answers of the store combine without bound, and exceptions of the store are hard to provoke.",
  ["lib/ocpp/v16/charge_point_impl.cpp", "ChargePointImpl::handle_data_transfer_pnc_certificate_signed", "ChargePointImpl::handleCertificateSignedRequest", "ChargePointImpl::handleInstallCertificateRequest", "ChargePointImpl::sign_certificate"])
p("C119", "An accepted reset stops all transactions and then resets once; remote stops and unlocking reach the right connector",
  "A Reset.req is accepted iff the application allows it; then all transactions are asked to stop with the reason that fits, and the application is told to reset exactly once, not before no connector has a transaction or charges unless the time for it is over. RemoteStopTransaction.req is accepted iff a transaction has this id and stops one that has. UnlockConnector.req reaches the application for existing connectors, its answer is passed on, and if it is not supported a transaction there is stopped if so configured.",
  "all histories of requests, transactions, states and times, until the process ends; all numbers of connectors",
  "The thread of a reset races with transactions, answers and time-outs in unboundedly many orders.",
  ["lib/ocpp/v16/charge_point_impl.cpp", "ChargePointImpl::handleResetRequest", "ChargePointImpl::handleRemoteStopTransactionRequest", "ChargePointImpl::handleUnlockConnectorRequest"])
p("C120", "Costs reach the application with the right session, and meter values are sent exactly when the CSMS asked for them with the costs",
  "A RunningCost or FinalCost message is given to the application, with the session whose transaction it names, iff that transaction runs and the message can be read, and is answered once. From then on a measurement sends meter values for the energy once, as soon as the energy asked for is reached, else for the power when the power asked for is crossed by 5 % since the last time; a change of state sends them if the new state is asked for and is not the one last seen; the time asked for sends them once. No other event does, and none after the transaction unless there are new costs.",
  "all histories of transactions, cost messages, measurements, states and times; all numbers of connectors",
  "What is due depends on the whole history of costs, measurements and meter values sent.",
  ["lib/ocpp/v16/charge_point_impl.cpp", "ChargePointImpl::handle_set_session_cost", "ChargePointImpl::send_meter_value_on_pricing_trigger", "ChargePointImpl::set_connector_trigger_metervalue_timer", "ChargePointImpl::reset_pricing_triggers"])
p("C121", "An authorization shows the price that the CSMS set for this user while it waited, and every price reaches the application once",
  "With California pricing, a call of authorize_id_token that the CSMS accepts returns the newest price set for its token since it began to wait, or the default tariff if its time is over and none has come, and not before. Any number of calls may run at once; one asks the CSMS at a time. Each SetUserPrice that can be read is given to the application, for the session of the first transaction of the token or else for the token, with its texts in order, and is answered once, even if it had to wait; one that cannot be read is rejected. The only undefined behaviour comes from two calls that wait for the same token.",
  "all interleavings of any number of calls, answers, prices and time-outs",
  "Threads and the receiving thread share a mutex, two maps and condition variables; the orders are unbounded.",
  ["lib/ocpp/v16/charge_point_impl.cpp", "ChargePointImpl::handle_set_user_price", "ChargePointImpl::authorize_id_token", "TransactionHandler::get_transaction_from_id_tag"])
p("C122", "Log rotation keeps the newest parts of the log, drops only the oldest, and says so",
  "With numbers as extensions and a maximum of one to eleven files, after any number of openings, writes and closings the files of a log hold exactly the last parts of what was written, the newest without extension, the others with 0, 1 and so on; other files stay as they are. The status tells whether a file was rotated and whether one was deleted. Nothing is lost while there are not more parts than files allowed. With dates as extensions, below the maximum, the full file gets the date and no other file changes. Without rotation all is in one file.",
  "all histories of a log, all sizes of lines, all orders in which the directory is listed",
  "Which file is renamed over which depends on the order of names and on how often the log was rotated.",
  ["lib/ocpp/common/ocpp_logging.cpp", "MessageLogging::rotate_log", "MessageLogging::rotate_log_if_needed", "MessageLogging::security"])
p("C123", "Every message is in the log once, with its type, and in the log of each session that is open",
  "The log has one line for each message, in order, with its sender, text and type; the type of an answer is that of the last call with its id that had no answer. The log of a session has these lines for the messages since it began and no others. The application hears each message once. Without sessions each system and raw message is logged once. The text of a message adds no markup to the HTML log.",
  "all sequences of messages, system and raw lines, starts and stops of sessions",
  "The type of an answer depends on any earlier message; sessions begin and end at any time.",
  ["lib/ocpp/common/ocpp_logging.cpp", "MessageLogging::charge_point", "MessageLogging::central_system", "MessageLogging::sys", "MessageLogging::raw", "MessageLogging::format_message", "MessageLogging::start_session_logging", "MessageLogging::stop_session_logging"])
p("C124", "A change of the security profile succeeds or leads back to the profile of the last connection",
  "A change of the SecurityProfile is accepted iff it goes up to a profile that is possible with the key and the certificates installed. The new profile is then tried; the configured profile is never lower than that of the last connection, is that of the connection while there is one, and is higher only while the higher one is tried. When that fails, the station goes back to the profile of its last connection and tries it without limit; it is never without a connection, an attempt or a timer.",
  "all orders of requests, closed, failed, lost and made connections and timers",
  "The callback, the timer and the websocket's threads interleave in any order over any number of changes.",
  ["lib/ocpp/v16/charge_point_impl.cpp", "ChargePointImpl::switchSecurityProfile", "ChargePointImpl::set_configuration_key_internal", "ChargePointImpl::stop", "lib/ocpp/common/websocket/websocket_libwebsockets.cpp"])
p("C125", "Allowed energy transfer is passed on only where the service can be renegotiated, and answers have their meaning",
  "In OCPP 2.1 every NotifyAllowedEnergyTransfer.req is answered once. The application is asked iff the transaction runs at an EVSE with V2X enabled, whose vehicle speaks ISO 15118-20, and the service can be renegotiated; the request is Accepted iff the application agreed, and each refusal has the reason of the first condition that fails. A refused NotifyEVChargingNeeds stops the transaction iff it is bidirectional. An outgoing DataTransfer returns the CSMS's answer and nothing if there was none that could be read.",
  "all EVSEs, transactions, protocols, settings, answers of the application and of the CSMS",
  "The conditions combine over any number of EVSEs and any text of the protocol.",
  ["lib/ocpp/v21/functional_blocks/bidirectional.cpp", "Bidirectional::handle_notify_allowed_energy_transfer", "SmartCharging::handle_notify_ev_charging_needs_response", "DataTransfer::data_transfer_req"])
p("C126", "A running OCPP 2.x station works with the values its device model shows",
  "After SetVariables each variable has the value of the last entry accepted for it. The number of attempts, the interval and the timeout of the message queue, the options and the key of the websocket, and the timer of the aligned meter values are always those stored; the heartbeat too, once the CSMS gave an interval and while the station is registered. The connection is made anew iff a password that is in use was changed. What is refused or meant for another attribute changes nothing.",
  "all histories of requests with any number of entries, connections and BootNotifications",
  "Requests, connections and registrations may come in any order, and every setting has its own way to be updated.",
  ["lib/ocpp/v2/functional_blocks/provisioning.cpp", "Provisioning::handle_variable_changed", "Provisioning::handle_variables_changed", "Provisioning::set_variables_internal", "include/ocpp/v2/comparators.hpp"])
p("C127", "An OCPP 2.x station starts only with the functions it needs and then calls no missing one",
  "A station starts iff every function that is not optional was given, none of the optional ones that are always used holds an empty function, and the functions for what its device model calls available were given. Once started, each action calls the functions meant for it and in order; no empty function is called and no block is used that was not created; a request is answered NotImplemented iff its block was not available at the start.",
  "all functions given, missing or empty, all device models at the start and later, all EVSEs and all actions",
  "35 functions in three states and a dozen availability variables that may change after the start combine at 30 places of call.",
  ["lib/ocpp/v2/charge_point_callbacks.cpp", "Callbacks::all_callbacks_valid", "lib/ocpp/v2/charge_point.cpp", "ChargePoint::initialize", "TransactionBlock::on_transaction_finished"])
p("C128", "Deferred callbacks of a websocket run once each, in order, and the websocket can be destroyed",
  "However many threads defer callbacks and however their steps interleave with those of the thread that calls them: every callback is called at most once and in the order handed over, the thread never sleeps while one waits and its notification was sent, it takes nothing from an empty queue, and it ends only when told to and with all of them called; then the destructor comes back.",
  "all interleavings of any number of pushing threads, the calling thread, the destructor and unasked wake-ups",
  "Which step of one thread falls between two of another cannot be chosen by a test; the windows are a few instructions wide.",
  ["include/ocpp/common/safe_queue.hpp", "SafeQueue::wait_on_queue_element_or_predicate", "lib/ocpp/common/websocket/websocket_libwebsockets.cpp", "WebsocketLibwebsockets::thread_deferred_callback_queue", "WebsocketLibwebsockets::~WebsocketLibwebsockets"])
p("C129", "What a websocket's send reports is what became of the message",
  "However many threads send at once and however their steps interleave with the client thread: messages go over the wire in the order in which they were sent and each at most once as a whole; unless the queue is cleared none is lost, and where writing works the client thread alone gets them all written; a send that reports success has put the whole message on the wire and one that reports failure has not; and no thread sleeps on when its message was sent.",
  "all interleavings of any number of sending threads, timeouts, partial and failed writes, cleared queues and choices of the thread to wake",
  "The choice of the thread a notification wakes and the moment of a timeout are not in the hands of a test.",
  ["lib/ocpp/common/websocket/websocket_libwebsockets.cpp", "WebsocketLibwebsockets::poll_message", "WebsocketLibwebsockets::on_conn_writable", "WebsocketLibwebsockets::send", "SafeQueue::wait_on_custom_event"])
p("C130", "Certificate data pass between the CSMS and the security module unchanged",
  "A 2.x station asked for the installed certificates asks its security module for the certificates of the same purposes and tells the CSMS all of what the module reported, in order, with the same purposes, hashes, serial numbers and children; a deletion with data so reported is a deletion of that very certificate, and a certificate is installed for the purpose it was sent for; the answers say what the module did; the data to ask for the status of certificates with are passed on in order.",
  "all requests, all certificates, hash data and results the security module may report, all settings",
  "The tests give the handlers a mocked security interface of the common types; the conversions to the module's types are not run and cover unboundedly many values.",
  ["lib/ocpp/common/evse_security_impl.cpp", "lib/ocpp/common/evse_security.cpp", "conversions::to_ocpp", "conversions::from_ocpp", "Security::handle_get_installed_certificate_ids_req", "Security::handle_install_certificate_req", "Security::handle_delete_certificate_req"])
p("C131", "What the CSMS sends over the websocket arrives whole, once and in order",
  "In whatever pieces messages come in and however the client thread and the receiving thread interleave: the messages handed to message_callback followed by those waiting are the messages the CSMS sent, whole, once and in order; over lost connections they are some of them in order, and never a part of one or a mixture of two; the receiving thread alone hands over all that waits and never takes from an empty queue.",
  "all messages, all ways of cutting them into pieces, all interleavings of the two threads, all moments at which connections are lost",
  "Frames, the pieces in which the library passes them on, and the moment of a disconnect between two accesses of a queue are not in the hands of a test.",
  ["lib/ocpp/common/websocket/websocket_libwebsockets.cpp", "WebsocketLibwebsockets::process_callback", "WebsocketLibwebsockets::on_conn_message", "WebsocketLibwebsockets::thread_websocket_message_recv_loop", "WebsocketLibwebsockets::clear_all_queues", "SafeQueue::pop"])
if __name__ == "__main__":
    here = os.path.dirname(os.path.abspath(__file__))
    with open(os.path.join(here, "..", "properties.jsonl"), "w") as f:
        for x in P:
            f.write(json.dumps(x) + "\n")
    print(len(P))
