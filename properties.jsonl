{"id": "C01", "title": "At most one unanswered CALL on the wire", "statement": "The charging station never hands a CALL to the websocket while an earlier CALL it handed over successfully is still waiting for its CALLRESULT, CALLERROR, time-out or a restart, in every schedule in which the receive and timer callbacks run uninterrupted.", "quantifier": "every configuration and every finite interleaving of pushes, worker wake-ups, send successes and failures, received frames, time-outs, pause/resume, registration changes and restarts", "why_tests_cant": "The interleavings of the worker thread, the time-out timer and the receive thread are unbounded; a test exercises one schedule.", "anchors": ["include/ocpp/common/message_queue.hpp", "lib/ocpp/v16/message_queue.cpp", "lib/ocpp/v2/message_queue.cpp", "MessageQueue::MessageQueue (worker thread)", "MessageQueue::receive", "MessageQueue::handle_timeout_or_callerror"]}
{"id": "C02", "title": "Transactional messages leave in order", "statement": "Transactional CALLs (StartTransaction/StopTransaction/MeterValues/SecurityEventNotification, TransactionEvent) are transmitted in the order in which the application pushed them: a later one is never transmitted while an earlier one is still owed to the CSMS.", "quantifier": "every history of queue operations, including retries, overflow dropping and reconnects", "why_tests_cant": "Order can be disturbed by any interleaving of retries with new pushes; only an invariant over all histories rules it out.", "anchors": ["include/ocpp/common/message_queue.hpp", "lib/ocpp/v16/message_queue.cpp", "lib/ocpp/v2/message_queue.cpp", "MessageQueue::push_call", "MessageQueue::add_to_transaction_message_queue", "MessageQueue::handle_timeout_or_callerror"]}
{"id": "C03", "title": "No transactional message is lost silently", "statement": "A transactional CALL that was pushed is, at every later moment, still queued or in flight, or it was answered by a CALLRESULT, or it was given up after the configured number of attempts, or it was an 'update' message dropped by the queue-size policy.", "quantifier": "every configuration and every history of queue operations", "why_tests_cant": "A lost message only shows up in particular combinations of disconnects, time-outs and overflow; the claim quantifies over all of them.", "anchors": ["include/ocpp/common/message_queue.hpp", "lib/ocpp/v16/message_queue.cpp", "lib/ocpp/v2/message_queue.cpp", "MessageQueue::check_queue_sizes", "MessageQueue::reset_in_flight", "MessageQueue::drop_update_messages_from_transactional_message_queue"]}
{"id": "C04", "title": "Crash-restart recovers the pending transactional messages", "statement": "At every point of every run the transactional queue table of the database holds exactly one row for each transactional message that is queued or in flight (after the push that stored it returned), in the same order as queued for messages that have not been retried; a restart therefore re-queues exactly the messages that were still owed.", "quantifier": "every history and every crash point between two queue operations", "why_tests_cant": "Crash points are quantified universally; a test can only kill the process at chosen instants.", "anchors": ["include/ocpp/common/message_queue.hpp", "lib/ocpp/v16/message_queue.cpp", "lib/ocpp/v2/message_queue.cpp", "lib/ocpp/common/database/database_handler_common.cpp", "MessageQueue::get_persisted_messages_from_db", "DatabaseHandlerCommon::insert_message_queue_message", "DatabaseHandlerCommon::remove_message_queue_message"]}
{"id": "C05", "title": "Bounded retries of transactional messages", "statement": "A transactional message is transmitted successfully to the socket at most TransactionMessageAttempts times per process run before it is discarded, and the k-th re-transmission is scheduled no earlier than k times TransactionMessageRetryInterval after its previous reference time.", "quantifier": "every configuration and every pattern of time-outs, CALLERRORs and successes", "why_tests_cant": "The number of attempts depends on unbounded histories of failures.", "anchors": ["include/ocpp/common/message_queue.hpp", "lib/ocpp/v16/message_queue.cpp", "lib/ocpp/v2/message_queue.cpp", "MessageQueue::handle_timeout_or_callerror"]}
{"id": "C06", "title": "Nothing but boot traffic before acceptance", "statement": "Until the CSMS has accepted the BootNotification (or while the queue is stalled after a restart) no message is transmitted except BootNotification and messages pushed as explicitly triggered; queued and persisted messages wait.", "quantifier": "every history of pushes and worker steps before set_registration_status_accepted", "why_tests_cant": "Needs all message types, all queue contents and all schedules.", "anchors": ["include/ocpp/common/message_queue.hpp", "lib/ocpp/v16/message_queue.cpp", "lib/ocpp/v2/message_queue.cpp", "MessageQueue::get_message_transmission_priority", "MessageQueue::allowed_to_send_message", "MessageQueue::set_registration_status_accepted"]}
{"id": "C07", "title": "Queue size policy", "statement": "When the queues exceed the configured threshold, non-transactional messages are dropped oldest-first before any transactional one, among transactional messages only update messages (MeterValues / TransactionEvent(Updated)) are dropped, and after a push the total either is within the threshold or nothing droppable remains.", "quantifier": "all thresholds and all queue contents", "why_tests_cant": "Queue contents and sizes are unbounded.", "anchors": ["include/ocpp/common/message_queue.hpp", "lib/ocpp/v16/message_queue.cpp", "lib/ocpp/v2/message_queue.cpp", "MessageQueue::check_queue_sizes", "MessageQueue::drop_messages_from_normal_message_queue", "MessageQueue::drop_update_messages_from_transactional_message_queue"]}
{"id": "C08", "title": "A failed transmission discards only the message that failed", "statement": "When the websocket refuses a non-queueable CALL, that CALL (and no other) is reported as offline to its caller and leaves the queue.", "quantifier": "all queue contents and all positions of the selected message", "why_tests_cant": "The defect needs a stalled or future-dated message in front of the selected one.", "anchors": ["include/ocpp/common/message_queue.hpp", "lib/ocpp/v16/message_queue.cpp", "lib/ocpp/v2/message_queue.cpp", "MessageQueue::MessageQueue (send failure branch)"]}
{"id": "C09", "title": "Responses are matched to the request by id", "statement": "A CALLRESULT or CALLERROR completes the waiting CALL only when it carries that CALL's message id; it then completes it exactly once, with the received payload; any other response leaves the queue unchanged.", "quantifier": "all received frames and all queue states", "why_tests_cant": "Frames are attacker-controlled; the id space is infinite.", "anchors": ["include/ocpp/common/message_queue.hpp", "lib/ocpp/v16/message_queue.cpp", "lib/ocpp/v2/message_queue.cpp", "MessageQueue::receive", "MessageQueue::handle_call_result"]}
{"id": "C10", "title": "Nothing is transmitted while paused", "statement": "Between pause() and the matching resume no CALL is transmitted, and a stale delayed resume (one that was superseded by a later pause or resume) never un-pauses the queue.", "quantifier": "all interleavings of pause, delayed resume, resume_now, stop and worker steps", "why_tests_cant": "Depends on timer interleavings.", "anchors": ["include/ocpp/common/message_queue.hpp", "lib/ocpp/v16/message_queue.cpp", "lib/ocpp/v2/message_queue.cpp", "MessageQueue::pause", "MessageQueue::resume", "MessageQueue::resume_now"]}
{"id": "C11", "title": "OCPP 1.6 connector state follows the documented transition table and faults only overlay it", "statement": "After any sequence of events and error reports, the underlying connector state is the one obtained by running only the accepted state events through the OCPP 1.6 transition table, and get_state() reports Faulted exactly while at least one unresolved fault is active, otherwise the underlying state.", "quantifier": "every finite sequence of events, error reports, error clearances and initial states", "why_tests_cant": "Sequences are unbounded and errors nest arbitrarily.", "anchors": ["lib/ocpp/v16/charge_point_state_machine.cpp", "include/ocpp/v16/charge_point_state_machine.hpp", "ChargePointFSM::handle_event", "ChargePointFSM::handle_error", "ChargePointFSM::handle_error_cleared", "ChargePointFSM::handle_all_errors_cleared"]}
{"id": "C12", "title": "StatusNotifications of a connector are complete", "statement": "Replaying the StatusNotification messages emitted for a connector always leaves the CSMS with the state that get_state() reports: whenever the reported state changes a notification carrying the new state is emitted.", "quantifier": "every finite sequence of events and error operations", "why_tests_cant": "Quantifies over histories.", "anchors": ["lib/ocpp/v16/charge_point_state_machine.cpp", "include/ocpp/v16/charge_point_state_machine.hpp"]}
{"id": "C13", "title": "Connector 0 only takes the states allowed for the charge point main controller", "statement": "Connector 0 can only be Available, Unavailable or Faulted, whatever events are submitted.", "quantifier": "all event sequences submitted for connector 0", "why_tests_cant": "Needs all sequences.", "anchors": ["lib/ocpp/v16/charge_point_state_machine.cpp", "include/ocpp/v16/charge_point_state_machine.hpp", "ChargePointStates", "FSM_DEF_CONNECTOR_ZERO"]}
{"id": "C14", "title": "OCPP 1.6 composite schedule is pointwise correct", "statement": "At every second of the requested window the composite schedule limits the connector to the minimum of the station-wide limit and the limit of the valid profile of highest stack level (a TxProfile overriding a TxDefaultProfile), and to the default when no profile applies.", "quantifier": "all sets of profiles, all schedules, windows and instants", "why_tests_cant": "Profiles, periods and instants are unbounded.", "anchors": ["lib/ocpp/v16/profile.cpp", "include/ocpp/v16/profile.hpp", "lib/ocpp/v16/smart_charging.cpp", "calculate_composite_schedule", "generate_profile_from_periods", "merge_profiles_by_lowest_limit", "merge_tx_profile_with_tx_default_profile"]}
{"id": "C15", "title": "Composite schedules are well formed", "statement": "A produced schedule starts at offset 0, its period offsets are strictly increasing and inside the window, and two neighbouring periods differ.", "quantifier": "all inputs", "why_tests_cant": "Inputs are unbounded.", "anchors": ["lib/ocpp/v16/profile.cpp", "include/ocpp/v16/profile.hpp", "lib/ocpp/v16/smart_charging.cpp", "convert_intermediate_into_schedule", "combine_list_of_profiles"]}
{"id": "C16", "title": "Recurring profiles are anchored correctly", "statement": "For a recurring profile the computed occurrence start is the unique instant congruent to startSchedule modulo one day (week) with start <= now < start + day (week).", "quantifier": "all start instants and all now, including now before startSchedule", "why_tests_cant": "Time is unbounded; the negative modulo case is easy to miss.", "anchors": ["lib/ocpp/v16/profile.cpp", "include/ocpp/v16/profile.hpp", "lib/ocpp/v16/smart_charging.cpp", "calculate_start"]}
{"id": "C17", "title": "Only well-formed profiles are accepted (OCPP 1.6)", "statement": "A charging profile accepted by validate_profile satisfies every documented condition (connector exists, limits, purpose and connector agree, recurring profiles have a kind and start, stack level and period count in bounds, phases supported), and a profile violating any of them is rejected.", "quantifier": "all profiles and configurations", "why_tests_cant": "The input space is the product of many optional fields.", "anchors": ["lib/ocpp/v16/profile.cpp", "include/ocpp/v16/profile.hpp", "lib/ocpp/v16/smart_charging.cpp", "SmartChargingHandler::validate_profile", "SmartChargingHandler::validate_schedule"]}
{"id": "C18", "title": "Clearing charging profiles removes exactly the matching ones", "statement": "ClearChargingProfile removes every installed profile that matches the given id or all given criteria and no other, and reports success exactly when something was removed.", "quantifier": "all installed profile sets and filters", "why_tests_cant": "Sets and filters are unbounded.", "anchors": ["lib/ocpp/v16/profile.cpp", "include/ocpp/v16/profile.hpp", "lib/ocpp/v16/smart_charging.cpp", "SmartChargingHandler::clear_all_profiles_with_filter", "clear_profiles"]}
{"id": "C19", "title": "Installing a charging profile replaces what it must and nothing else", "statement": "Installing a profile with a purpose and stack level replaces an installed one with the same purpose, stack level and connector, and leaves the others; profiles with an identical id do not coexist.", "quantifier": "all installed sets and new profiles", "why_tests_cant": "Histories of installations are unbounded.", "anchors": ["lib/ocpp/v16/profile.cpp", "include/ocpp/v16/profile.hpp", "lib/ocpp/v16/smart_charging.cpp", "SmartChargingHandler::add_charge_point_max_profile", "add_tx_default_profile", "add_tx_profile"]}
{"id": "C20", "title": "Case-insensitive strings compare consistently", "statement": "Equality of CiString is an equivalence relation that ignores ASCII case, and `a != b` is the negation of `a == b`.", "quantifier": "all strings and all length limits", "why_tests_cant": "All pairs of strings.", "anchors": ["include/ocpp/common/cistring.hpp", "include/ocpp/common/string.hpp", "istring_compare", "CiString::operator==", "operator!="]}
{"id": "C21", "title": "Length limits of OCPP strings are enforced", "statement": "A CiString<L>/String<L> object never holds more than L characters: longer input is refused or truncated to the first L characters, shorter input is stored unchanged; only printable characters are stored.", "quantifier": "all inputs and limits", "why_tests_cant": "All strings.", "anchors": ["include/ocpp/common/cistring.hpp", "include/ocpp/common/string.hpp", "String::set", "CiString::is_valid"]}
{"id": "C22", "title": "CSV splitting and number recognition", "statement": "split_string recovers exactly the fields that were joined with the separator; is_integer / is_decimal_number accept exactly the strings denoting numbers, so that the following conversion never fails on the syntax.", "quantifier": "all strings", "why_tests_cant": "All strings.", "anchors": ["lib/ocpp/common/utils.cpp", "split_string", "is_integer", "is_decimal_number", "trim_string", "is_positive_integer"]}
{"id": "C23", "title": "OCPP-J frames round-trip", "statement": "Every CALL, CALLRESULT and CALLERROR that is serialised and parsed again yields the same id, action and payload; a frame of one kind is never parsed as another.", "quantifier": "all ids, actions and payloads", "why_tests_cant": "Payloads are arbitrary JSON.", "anchors": ["include/ocpp/common/call_types.hpp", "lib/ocpp/common/call_types.cpp"]}
{"id": "C24", "title": "Reconnect back-off grows and stays bounded", "statement": "The reconnect delay doubles (plus a random part) with each failed attempt until RetryBackOffRepeatTimes is reached and is constant afterwards; it never is below RetryBackOffWaitMinimum and never exceeds the closed-form bound.", "quantifier": "all configurations, attempt numbers and random outcomes", "why_tests_cant": "Random outcomes and attempts are unbounded.", "anchors": ["lib/ocpp/common/websocket/websocket_base.cpp", "WebsocketBase::get_reconnect_interval"]}
{"id": "C25", "title": "Effective availability is hierarchical and announced", "statement": "An EVSE is effectively operative iff it and the station are; a connector iff it, its EVSE and the station are; whenever the effective status of a component changes, the registered callback for that component is called once with the new value, and it is not called otherwise.", "quantifier": "every sequence of availability changes on any topology", "why_tests_cant": "Topology and histories are unbounded.", "anchors": ["lib/ocpp/v2/component_state_manager.cpp", "lib/ocpp/v2/database_handler.cpp", "ComponentStateManager::trigger_callbacks_cs", "trigger_callbacks_evse", "trigger_callbacks_connector"]}
{"id": "C26", "title": "Persisted availability survives restarts", "statement": "After a restart the individual operational status of every component is the last one set with persistence, or Operative if none ever was; non-persistent changes are forgotten.", "quantifier": "every history and crash point", "why_tests_cant": "Crash points and histories.", "anchors": ["lib/ocpp/v2/component_state_manager.cpp", "lib/ocpp/v2/database_handler.cpp", "read_all_states_from_database_or_set_defaults", "insert_availability"]}
{"id": "C27", "title": "Connector status reports are complete", "statement": "If every StatusNotification the station wants to send is delivered, the last status reported for a connector equals its current status (Faulted over Unavailable over Occupied over Reserved over Available), except for the plug-in of a reserved connector, which stays reported as Reserved.", "quantifier": "every sequence of connector events and delivery results", "why_tests_cant": "Histories are unbounded.", "anchors": ["lib/ocpp/v2/component_state_manager.cpp", "lib/ocpp/v2/database_handler.cpp", "send_status_notification_single_connector_internal", "FullConnectorStatus::to_connector_status", "set_connector_occupied"]}
{"id": "C28", "title": "Device model access control", "statement": "GetVariables never reveals the value of a WriteOnly attribute and SetVariables never changes a ReadOnly one; a rejected set leaves the device model unchanged; an accepted set is what the next get returns.", "quantifier": "all components, variables, attributes, values and histories", "why_tests_cant": "All request sequences.", "anchors": ["lib/ocpp/v2/device_model.cpp", "lib/ocpp/v2/device_model_storage_sqlite.cpp", "DeviceModel::set_value", "DeviceModel::request_value_internal", "get_base_report_data"]}
{"id": "C29", "title": "Device model values respect their characteristics", "statement": "A value accepted for a variable conforms to the variable's data type, lies between minLimit and maxLimit and, for option lists, is one of the listed values.", "quantifier": "all characteristics and all value strings", "why_tests_cant": "All strings and limits.", "anchors": ["lib/ocpp/v2/device_model.cpp", "lib/ocpp/v2/device_model_storage_sqlite.cpp", "validate_value", "convert_to_positive_size_t"]}
{"id": "C30", "title": "Reports contain exactly the selected variables", "statement": "A base or custom report lists each variable of the device model that satisfies the selection exactly once, with its current attribute values, and never a WriteOnly value.", "quantifier": "all device models and selections", "why_tests_cant": "All device models.", "anchors": ["lib/ocpp/v2/device_model.cpp", "lib/ocpp/v2/device_model_storage_sqlite.cpp", "get_base_report_data", "get_custom_report_data", "component_variables_match"]}
{"id": "C31", "title": "Monitors are set and cleared consistently", "statement": "After any sequence of SetVariableMonitoring / ClearVariableMonitoring / SetMonitoringBase the monitors held in memory are those held in the database, ids are unique, a monitor id never moves to another variable, and protected monitors are never removed by the CSMS.", "quantifier": "all histories", "why_tests_cant": "Histories are unbounded.", "anchors": ["lib/ocpp/v2/device_model.cpp", "lib/ocpp/v2/device_model_storage_sqlite.cpp", "DeviceModel::set_monitors", "clear_monitors", "clear_custom_monitors"]}
{"id": "C32", "title": "Monitoring passes terminate and report every trigger once", "statement": "Every monitoring pass terminates, and each transition of a monitored variable into (or back out of) the alarm range is reported to the CSMS exactly once while online.", "quantifier": "all monitor tables and value histories", "why_tests_cant": "Non-termination needs a particular table.", "anchors": ["lib/ocpp/v2/monitoring_updater.cpp", "MonitoringUpdater::process_monitors_internal", "evaluate_monitor"]}
{"id": "C33", "title": "No security downgrade of the CSMS connection", "statement": "Once a connection with a given security profile has been confirmed, the station never connects through a network profile with a lower security level, across reconnects.", "quantifier": "all network profile tables, priorities and connection histories", "why_tests_cant": "Histories of connection outcomes.", "anchors": ["lib/ocpp/v2/connectivity_manager.cpp", "ConnectivityManager::check_cache_for_invalid_security_profiles", "get_next_configuration_slot", "confirm_successful_connection"]}
{"id": "C34", "title": "All configured network profiles are tried in turn", "statement": "When connecting keeps failing, the station tries the configured network slots cyclically, so that each usable slot is tried within one round.", "quantifier": "all slot lists and failure patterns", "why_tests_cant": "Lists and failure patterns are unbounded.", "anchors": ["lib/ocpp/v2/connectivity_manager.cpp", "get_next_configuration_slot", "try_connect_websocket"]}
{"id": "C35", "title": "Authorization decision", "statement": "A token is accepted without asking the CSMS only if authorization is disabled, the token needs none, it is accepted by the enabled local list or by a non-expired cache entry while local checks are permitted, or the station is offline and unknown ids are allowed offline; an expired cache entry is never honoured.", "quantifier": "all configurations, tokens, list and cache contents, times and CSMS answers", "why_tests_cant": "The decision has dozens of independent inputs.", "anchors": ["lib/ocpp/v2/functional_blocks/authorization.cpp", "lib/ocpp/v2/database_handler.cpp", "Authorization::validate_token"]}
{"id": "C36", "title": "Offline authorization attempts do not destroy cached authorizations", "statement": "An authorization attempt that never reached the CSMS does not change what the authorization cache says about the token.", "quantifier": "all configurations and cache contents", "why_tests_cant": "Needs the combination of cache and connectivity configuration.", "anchors": ["lib/ocpp/v2/functional_blocks/authorization.cpp", "lib/ocpp/v2/database_handler.cpp", "Authorization::validate_token", "authorize_req"]}
{"id": "C37", "title": "Local authorization list updates", "statement": "A full update leaves exactly the sent list, a differential update adds, replaces and deletes exactly the sent entries, both only with a valid version; a refused update leaves list and version untouched; the stored version is that of the last accepted update.", "quantifier": "all update histories", "why_tests_cant": "Histories are unbounded.", "anchors": ["lib/ocpp/v2/functional_blocks/authorization.cpp", "lib/ocpp/v2/database_handler.cpp", "apply_local_authorization_list", "handle_send_local_authorization_list_req", "insert_or_update_local_authorization_list"]}
{"id": "C38", "title": "Reports are split without loss", "statement": "Splitting a NotifyReport keeps every report entry exactly once in order, numbers the parts 0,1,2,..., marks all but the last as to-be-continued, and each part either respects the maximum message size or holds a single entry.", "quantifier": "all report lists and size limits", "why_tests_cant": "Lists and sizes are unbounded.", "anchors": ["lib/ocpp/v2/notify_report_requests_splitter.cpp"]}
{"id": "C39", "title": "Transaction sequence numbers never repeat", "statement": "The seqNo values of the TransactionEvent messages of one transaction are 0,1,2,... without gap or repetition, also across a restart when transactions are resumed.", "quantifier": "all histories of events and restarts", "why_tests_cant": "Crash points and histories.", "anchors": ["lib/ocpp/v2/transaction.cpp", "lib/ocpp/v2/evse.cpp", "lib/ocpp/v2/database_handler.cpp", "EnhancedTransaction::get_seq_no", "Evse::try_resume_transaction"]}
{"id": "C40", "title": "Enumerations round-trip with their wire strings", "statement": "For every OCPP enumeration, converting a value to its wire string and back yields the value, distinct values have distinct strings, and any other string is refused.", "quantifier": "all enumeration values and all strings", "why_tests_cant": "All strings are quantified; hundreds of values are easily mistyped.", "anchors": ["lib/ocpp/v16/ocpp_enums.cpp", "lib/ocpp/v2/ocpp_enums.cpp", "lib/ocpp/common/types.cpp"]}
{"id": "C41", "title": "Basic-auth credentials are encoded faithfully", "statement": "base64 decoding the encoding of any byte string gives the byte string back; different credentials never produce the same header.", "quantifier": "all byte strings", "why_tests_cant": "All byte strings.", "anchors": ["3rd_party/websocketpp_utils/base64.hpp", "lib/ocpp/common/websocket/websocket_base.cpp"]}
{"id": "C42", "title": "Change of availability waits for running transactions", "statement": "A ChangeAvailability request is executed immediately when no transaction is affected, otherwise reported as scheduled and executed when the last affected transaction ends, unless a later accepted request for the same target replaced it; it never makes a component inoperative when the request asked for operative.", "quantifier": "all request and transaction histories", "why_tests_cant": "Histories are unbounded.", "anchors": ["lib/ocpp/v2/functional_blocks/availability.cpp", "Availability::handle_change_availability_req", "handle_scheduled_change_availability_requests"]}
{"id": "C43", "title": "Remote start with an invalid charging profile is rejected", "statement": "A RequestStartTransaction whose charging profile is invalid is answered with Rejected and starts nothing; one for a faulted, unavailable, occupied or otherwise reserved EVSE as well.", "quantifier": "all requests and EVSE states", "why_tests_cant": "Combination of states.", "anchors": ["lib/ocpp/v2/functional_blocks/remote_transaction_control.cpp", "handle_remote_start_transaction_request"]}
{"id": "C44", "title": "Transaction meter values are stored faithfully", "statement": "Meter values stored for a transaction are returned unchanged and in order when the transaction ends, and only those of that transaction are deleted afterwards.", "quantifier": "all meter values and histories", "why_tests_cant": "All combinations of optional fields.", "anchors": ["lib/ocpp/v2/database_handler.cpp", "transaction_metervalues_insert", "transaction_metervalues_get_all", "transaction_metervalues_clear"]}
{"id": "C45", "title": "Meter value filtering and averaging", "statement": "Reported meter values contain exactly the sampled values whose measurand is configured, in their original order; averaged values are the arithmetic mean of the samples since the last report.", "quantifier": "all meter values and configurations", "why_tests_cant": "All lists of samples.", "anchors": ["lib/ocpp/v2/utils.cpp", "lib/ocpp/v2/average_meter_values.cpp"]}
{"id": "C46", "title": "Clock alignment of timestamps", "statement": "align_timestamp returns the multiple of the interval since midnight nearest to the given time (ties up).", "quantifier": "all timestamps and intervals", "why_tests_cant": "Time is unbounded.", "anchors": ["lib/ocpp/v2/utils.cpp", "align_timestamp"]}
{"id": "C47", "title": "OCPP 2.x composite schedule is pointwise correct", "statement": "At every second of the window the OCPP 2.x composite schedule carries the limit, discharge limit and setpoint that the profile-merging rules give for the profiles active at that second.", "quantifier": "all profile sets, windows and instants", "why_tests_cant": "Unbounded inputs.", "anchors": ["lib/ocpp/v2/profile.cpp", "lib/ocpp/v2/functional_blocks/smart_charging.cpp"]}
{"id": "C48", "title": "OCPP 2.x profile validation", "statement": "A profile accepted by SetChargingProfile satisfies the K01 requirements checked by the station; a profile violating one is rejected with the matching reason.", "quantifier": "all profiles, transactions, EVSEs and installed profiles", "why_tests_cant": "Product of many optional fields.", "anchors": ["lib/ocpp/v2/functional_blocks/smart_charging.cpp", "SmartCharging::conform_and_validate_profile"]}
{"id": "C49", "title": "OCPP 2.x clearing and reporting of charging profiles", "statement": "ClearChargingProfile removes exactly the matching profiles and never external constraints; GetChargingProfiles reports every matching profile exactly once, the last report being marked final.", "quantifier": "all stored profile sets, filters", "why_tests_cant": "Sets and filters are unbounded.", "anchors": ["lib/ocpp/v2/functional_blocks/smart_charging.cpp", "lib/ocpp/v2/database_handler.cpp", "clear_charging_profiles_matching_criteria", "handle_get_charging_profiles_req"]}
{"id": "C50", "title": "Scheduled resets happen exactly once, when idle", "statement": "A reset scheduled for the station (or an EVSE) while transactions are running is carried out exactly once, when the last running transaction (on that EVSE) ends.", "quantifier": "all histories of transactions and reset requests", "why_tests_cant": "Histories are unbounded.", "anchors": ["lib/ocpp/v2/functional_blocks/transaction.cpp", "TransactionBlock::on_transaction_finished", "schedule_reset"]}
{"id": "C51", "title": "A queued retry is woken up for", "statement": "After a failed CALL has been queued again for a later time, the worker is woken up when that time has come, so that the retry is transmitted while the connection is up and idle.", "quantifier": "all histories of failures, pushes and timer events", "why_tests_cant": "Needs a specific interleaving of two retries; tests exercise one retry at a time.", "anchors": ["include/ocpp/common/message_queue.hpp", "MessageQueue::add_to_normal_message_queue", "MessageQueue::handle_timeout_or_callerror", "notify_queue_timer"]}
{"id": "C52", "title": "What the dispatchers do with a message before acceptance", "statement": "dispatch_call queues a message at once when the station is registered, or the message is a BootNotification or explicitly triggered; otherwise it queues transactional messages (all with QueueAllMessages) to be held until acceptance and discards the rest; dispatch_call_async answers 'offline' in exactly the remaining cases.", "quantifier": "all message types, registration states and configurations", "why_tests_cant": "The table is a product of all message types and states.", "anchors": ["lib/ocpp/v16/message_dispatcher.cpp", "lib/ocpp/v2/message_dispatcher.cpp"]}
{"id": "C53", "title": "Stored charging profiles and what is in force agree (OCPP 1.6)", "statement": "Every charging profile in the database is in force where it was installed; after a restart the profiles in force are exactly those in the database, and stored profiles other than TxProfiles survive a restart of the unchanged station while the installed-profile limit is not reached.", "quantifier": "all histories of SetChargingProfile, RemoteStartTransaction, ClearChargingProfile, transactions, expiry and restarts", "why_tests_cant": "Histories are unbounded; loss shows only after a restart.", "anchors": ["lib/ocpp/v16/charge_point_impl.cpp", "ChargePointImpl::load_charging_profiles", "lib/ocpp/v16/smart_charging.cpp", "lib/ocpp/v16/database_handler.cpp"]}
{"id": "C54", "title": "Expired charging profiles are dropped, others kept (OCPP 1.6)", "statement": "clear_expired_profiles removes exactly the profiles past their validTo and the absolute profiles whose schedule has run out, from memory and database.", "quantifier": "all installed profile sets and times", "why_tests_cant": "Sets and times are unbounded.", "anchors": ["lib/ocpp/v16/smart_charging.cpp", "SmartChargingHandler::clear_expired_profiles"]}
{"id": "C55", "title": "TxProfiles live as long as their transaction (OCPP 1.6)", "statement": "A TxProfile installed by SetChargingProfile is in force only while the transaction it belongs to is running; when a transaction ends, exactly the TxProfiles of its connector are removed.", "quantifier": "all histories of requests, transactions and restarts", "why_tests_cant": "Histories are unbounded.", "anchors": ["lib/ocpp/v16/charge_point_impl.cpp", "lib/ocpp/v16/smart_charging.cpp"]}
{"id": "C56", "title": "The reply to a CALL of the CSMS goes out before any request of the station", "statement": "From the moment a CALL of the CSMS is received until its reply is pushed, no other CALL is transmitted (unless an answer arrives or the wait is reset); pushing the reply transmits it at once and releases the due request.", "quantifier": "all queue states, all operations in between", "why_tests_cant": "Interleavings of receive, push and worker threads are unbounded.", "anchors": ["include/ocpp/common/message_queue.hpp", "MessageQueue::receive", "MessageQueue::push_call_result", "next_message_to_send"]}
{"id": "C57", "title": "Transaction ids learnt after queueing are filled in before transmission", "statement": "Once the transaction id of a queued StopTransaction or MeterValues is announced to the queue, every transmission of that message carries it, over failed attempts and reconnects.", "quantifier": "all queue states and all operations between queueing, announcement and transmission", "why_tests_cant": "Needs long histories with offline periods and retries.", "anchors": ["include/ocpp/common/message_queue.hpp", "MessageQueue::add_stopped_transaction_id", "MessageQueue::add_meter_value_message_id", "MessageQueue::notify_start_transaction_handled"]}
{"id": "C58", "title": "A stopped message queue sends at most one more request and accepts nothing", "statement": "After stop() at most one CALL is still transmitted, pushed messages and replies are not sent, and asynchronous calls are answered with offline.", "quantifier": "all queue states and all later operations", "why_tests_cant": "Races with the worker thread.", "anchors": ["include/ocpp/common/message_queue.hpp", "MessageQueue::stop"]}
{"id": "C59", "title": "A dead connection is detected by ping, a live one is not closed", "statement": "On a connection without pending ping a ping is sent after the configured interval; if no pong arrives within the pong timeout the connection is closed, and it is closed for that reason only after a ping sent on this connection was followed by that many seconds without a pong.", "quantifier": "all configurations and all sequences of seconds, pongs, connection losses and changes of the interval", "why_tests_cant": "Sequences of losses, pongs and ticks are unbounded.", "anchors": ["lib/ocpp/common/websocket/websocket_base.cpp", "lib/ocpp/common/websocket/websocket_libwebsockets.cpp", "WebsocketBase::set_websocket_ping_interval", "WebsocketBase::on_pong_timeout"]}
{"id": "C60", "title": "The authorization cache is cleaned up by expiry and least recent use", "statement": "A round of the clean-up leaves no expired entry, removes usable entries only while the storage limit is exceeded and always the least recently used ones, and uses the same expiry rule as token validation; ClearCache and clearing customer information remove exactly the rows they name.", "quantifier": "all cache contents, row sizes, times, lifetimes and limits", "why_tests_cant": "Eviction order and minimality over arbitrary contents and limits.", "anchors": ["lib/ocpp/v2/functional_blocks/authorization.cpp", "lib/ocpp/v2/database_handler.cpp", "Authorization::cache_cleanup_handler", "DatabaseHandler::authorization_cache_delete_expired_entries"]}
{"id": "C61", "title": "TransactionEvent messages say what happened, remote starts are reported once, refused tokens act once", "statement": "Every transaction event carries the id, charging state, reason, remote start id and token of the transaction and call it is for, and nothing else is sent; a remote start id waiting for its token is reported in at most one message, as RemoteStart; a token refused in an answer stops or pauses exactly the transaction it was sent for if that still runs; GetTransactionStatus tells whether the transaction runs.", "quantifier": "all stations, histories of calls returning normally with any database failures, and all answers", "why_tests_cant": "Interleaved transactions, waiting remote starts and late answers over unbounded histories.", "anchors": ["lib/ocpp/v2/functional_blocks/transaction.cpp", "TransactionBlock::transaction_event_req", "TransactionBlock::handle_transaction_event_response", "TransactionBlock::handle_get_transaction_status", "lib/ocpp/v2/charge_point.cpp"]}
{"id": "C62", "title": "Monitoring events are numbered uniquely and periodic monitors report at their interval", "statement": "No two monitoring events sent have the same event id; a periodic monitor is reported by a pass exactly if more than its interval has gone by since its last report or since it was first seen, with the value of that moment; the next time of a clock-aligned monitor is the first multiple of its interval in the hour, or the full hour, not before the present second.", "quantifier": "all monitor tables, value histories, settings and pass times, offline or not", "why_tests_cant": "Numbers are shared by all monitors and by queued events; intervals interact with arbitrary pass times.", "anchors": ["lib/ocpp/v2/monitoring_updater.cpp", "MonitoringUpdater::process_monitor_meta_internal", "get_next_clock_aligned_point"]}
{"id": "C63", "title": "Stored charging profiles never conflict", "statement": "At any time, after any sequence of set, clear and remote start requests, transaction ends and restarts, no two stored profiles have the same id, no two of one purpose, stack level and EVSE overlap in validity, TxDefault profiles of one stack level are either all station-wide or all on EVSEs, and every stored profile is on an EVSE its purpose allows; a restart keeps exactly the profiles that are still valid.", "quantifier": "all histories of requests, transaction ends and restarts, with any changes of the station in between", "why_tests_cant": "Invariant over unbounded histories.", "anchors": ["lib/ocpp/v2/functional_blocks/smart_charging.cpp", "lib/ocpp/v2/database_handler.cpp", "ChargePoint::clear_invalid_charging_profiles"]}
{"id": "C64", "title": "An accepted charging profile takes part in the composite schedule", "statement": "A profile that SetChargingProfile accepted is used for composite schedules from then on, until it is replaced or cleared.", "quantifier": "all stations, profiles and stored profile sets", "why_tests_cant": "Depends on every optional field being treated alike when a profile is set and when it is read back.", "anchors": ["lib/ocpp/v2/functional_blocks/smart_charging.cpp", "SmartCharging::get_valid_profiles_for_evse", "conform_schedule_number_phases"]}
{"id": "C65", "title": "The charging profile of a RequestStartTransaction applies to the transaction it starts", "statement": "The TxProfile given with an accepted RequestStartTransaction limits the transaction that it starts and is removed when that transaction ends.", "quantifier": "all requests, stations and transactions", "why_tests_cant": "Crosses several functional blocks and the database.", "anchors": ["lib/ocpp/v2/functional_blocks/remote_transaction_control.cpp", "lib/ocpp/v2/functional_blocks/smart_charging.cpp", "SmartCharging::delete_transaction_tx_profiles"]}
{"id": "C66", "title": "The charging station connects to the central system it was told to", "statement": "For every well-formed central system address (optional scheme, host or bracketed IPv6 address, optional port, optional path) that fits the security profile, the websocket goes to exactly that host and port (default 80 or 443), over TLS exactly when the security profile asks for it, with a path whose last segment is the identity, which is appended once whether or not the address already ended in it. Whatever is accepted has a port from 1 to 65535 and a path that begins and ends with a slash, and writing it out and reading it again changes nothing.", "quantifier": "all address strings, identities and security profiles", "why_tests_cant": "All strings; the interplay of scheme, port, brackets, trailing slashes and identities.", "anchors": ["lib/ocpp/common/websocket/websocket_uri.cpp", "Uri::parse_and_validate", "3rd_party/websocketpp_utils/uri.hpp", "lib/ocpp/common/websocket/websocket_libwebsockets.cpp"]}
{"id": "C67", "title": "A transaction with an invalid identifier is paused at the energy limit", "statement": "After the identifier of a running transaction turned out to be invalid, the station demands a pause with the first meter value at which the energy since the start of the transaction has reached MaxEnergyOnInvalidId, once, and never for transactions whose identifier is valid or that have no energy register.", "quantifier": "all histories of meter values, transactions and configurations", "why_tests_cant": "Depends on the order of meter values, authorization results and transactions.", "anchors": ["lib/ocpp/v2/evse.cpp", "Evse::check_max_energy_on_invalid_id", "Evse::start_checking_max_energy_on_invalid_id"]}
{"id": "C68", "title": "Pricing triggers report meter values exactly when they are due", "statement": "An energy trigger set by a cost update produces one MeterValues request, with the first value whose register reaches it; a power trigger produces one at first and then each time the power has crossed the trigger by five percent; a time trigger produces one. Context is Other; nothing is reported without a trigger.", "quantifier": "all histories of meter values and triggers", "why_tests_cant": "Hysteresis depends on the whole sequence of values.", "anchors": ["lib/ocpp/v2/evse.cpp", "Evse::set_meter_value_pricing_triggers", "Evse::send_meter_value_on_pricing_trigger"]}
{"id": "C69", "title": "Clock-aligned timers fire at the next point of their grid", "statement": "A clock-aligned timer fires at the first multiple of its interval, counted from its start, that lies after now, and at its start if that has not passed.", "quantifier": "all starts, intervals and times", "why_tests_cant": "Time is unbounded.", "anchors": ["include/ocpp/common/aligned_timer.hpp", "get_next_timepoint"]}
{"id": "C70", "title": "Times survive their text", "statement": "The text written for a time is its RFC 3339 text in UTC with milliseconds; every RFC 3339 text, whatever its offset and number of fraction digits (up to nine), is read as the time it means; writing and reading changes no time by a millisecond.", "quantifier": "all times of 64-bit nanoseconds; all texts of the RFC 3339 form", "why_tests_cant": "There are 2^64 times, and calendars have rare cases.", "anchors": ["lib/ocpp/common/types.cpp", "DateTimeImpl::to_rfc3339", "DateTimeImpl::from_rfc3339"]}
{"id": "C71", "title": "Every message arrives as what was sent", "statement": "Every value of every OCPP 1.6 and 2.x data type and message is written as the JSON the declarations ask for: all required members, the optional ones that are set, nothing else, enumerators as their strings, times as RFC 3339. Sent as a Call or CallResult and read again it is the same value, but for fractions of milliseconds. Every such JSON form, also with unknown members added, is read as the value it stands for.", "quantifier": "all 340 structs, 206 messages and all their values; all message ids", "why_tests_cant": "There are 340 pairs of hand-written or generated functions with thousands of combinations of optional members, and unbounded strings and lists.", "anchors": ["lib/ocpp/v16/ocpp_types.cpp", "lib/ocpp/v2/ocpp_types.cpp", "lib/ocpp/v16/messages", "lib/ocpp/v2/messages", "to_json", "from_json"]}
{"id": "C72", "title": "Messages without their required members are refused", "statement": "A JSON is accepted as a message exactly if all required members are there and every member can be converted; optional members are set exactly if they are there. Which conversions are made is stated exactly.", "quantifier": "all 340 structs and all JSON values", "why_tests_cant": "The inputs come from outside and are unbounded.", "anchors": ["lib/ocpp/v16/ocpp_types.cpp", "lib/ocpp/v2/ocpp_types.cpp", "lib/ocpp/v16/messages", "lib/ocpp/v2/messages", "from_json"]}
{"id": "C73", "title": "Accepted configuration values are stored, all others leave the configuration alone", "statement": "A ChangeConfiguration (OCPP 1.6) that is answered Accepted or RebootRequired has stored the value the text stands for under exactly that key, in the running and in the user configuration; GetConfiguration then shows it. Any other answer leaves the configuration as it was. Which texts a key accepts is stated exactly per declared type. In every state a charge point can reach, all keys have the form their schemas ask for.", "quantifier": "all keys, texts, configurations reached by starting and any number of changes, and outcomes of writing the file", "why_tests_cant": "There are over a hundred keys with hand-written setters and getters, unbounded texts, and sequences of changes.", "anchors": ["lib/ocpp/v16/charge_point_configuration.cpp", "lib/ocpp/v16/charge_point_impl.cpp", "ChargePointConfiguration::set", "ChargePointConfiguration::get", "ChargePointImpl::set_configuration_key_internal"]}
{"id": "C74", "title": "A charge point starts again after an accepted change", "statement": "After a ChangeConfiguration that was accepted, the charge point can be constructed again from the stored configuration, with the same state.", "quantifier": "all keys, texts and configurations a charge point can start with", "why_tests_cant": "A value that is accepted by a setter and refused by the schema shows only at the next start; values are unbounded.", "anchors": ["lib/ocpp/v16/charge_point_configuration.cpp", "config/v16/profile_schemas", "ChargePointConfiguration::ChargePointConfiguration", "ChargePointConfiguration::set"]}
{"id": "C75", "title": "Every configuration request is answered once and consistently", "statement": "Every ChangeConfiguration gets exactly one answer. GetConfiguration answers each requested key once, with a value under its name or as unknown, and fails only for texts that do not fit into the response. Keys reported as read-only are refused, unknown keys are not supported, both without effect. Keys reported as writable can be changed, whatever the case they are written in.", "quantifier": "all requests, keys, texts and configurations a charge point can reach", "why_tests_cant": "Answers are sent on many paths, some of them early, some by exceptions.", "anchors": ["lib/ocpp/v16/charge_point_impl.cpp", "lib/ocpp/v16/charge_point_configuration.cpp", "ChargePointImpl::handleChangeConfigurationRequest", "ChargePointImpl::get_configuration_key"]}
{"id": "C76", "title": "The security profile can only be raised", "statement": "A ChangeConfiguration switches the security profile only by the key SecurityProfile, only to a higher profile of at most 3, and only if the authorization key (1, 2), the CSMS root certificate (2, 3) and the charge point certificate (3) are there; and it does so whenever this is the case.", "quantifier": "all keys, texts, configurations a charge point can reach, and installed certificates", "why_tests_cant": "The text is unbounded and any other key could have the effect.", "anchors": ["lib/ocpp/v16/charge_point_impl.cpp", "ChargePointImpl::set_configuration_key_internal", "ChargePointImpl::switchSecurityProfile"]}
{"id": "C77", "title": "Accepted configuration changes take effect", "statement": "The intervals for heartbeats, meter values and websocket pings, the connection timeout, the retry settings for transaction messages, the certificate timers and the authorization key that were handed over last to the parts of the charge point that use them are those the configuration holds, after any sequence of changes. Accepted changes are reported to the callback registered for the key, or else to the general callback; nothing else is.", "quantifier": "all sequences of changes by requests or by the user of the library, from any configuration a charge point can reach", "why_tests_cant": "The value in force depends on the whole history of changes; a wrong one shows only after a certain order of them.", "anchors": ["lib/ocpp/v16/charge_point_impl.cpp", "ChargePointImpl::set_configuration_key_internal", "lib/ocpp/v16/charge_point_configuration.cpp"]}
{"id": "C78", "title": "Price texts are kept per language", "statement": "A price text (DefaultPriceText with a language) is accepted exactly if the language is supported and the text is a JSON object with a priceText. It then replaces the text of that language and of no other, and is what the key shows. Every other text is answered with Rejected.", "quantifier": "all languages, texts and configurations a charge point can reach", "why_tests_cant": "The texts are a list inside of one value of the configuration; the languages and their number are unbounded.", "anchors": ["lib/ocpp/v16/charge_point_configuration.cpp", "ChargePointConfiguration::setDefaultPriceText", "ChargePointConfiguration::getDefaultPriceText"]}
{"id": "C79", "title": "The authorization key is never shown", "statement": "The response to any GetConfiguration is the same whatever the authorization key is; asked for by name, the key is reported as unknown.", "quantifier": "all requests, all pairs of charge points that differ only in the authorization key", "why_tests_cant": "That no response depends on the key is a statement about pairs of executions, for all requests.", "anchors": ["lib/ocpp/v16/charge_point_configuration.cpp", "ChargePointConfiguration::get", "ChargePointConfiguration::get_all_key_value"]}
{"id": "C84", "title": "A station asks for a certificate once at a time and waits longer and longer", "statement": "Between two SignCertificate.req the first was settled (certificate arrived, request rejected, or accepted without a repetition being due), or the second was made by the timer set for the first. Repetitions are at most CertSigningRepeatTimes; the wait starts at twice CertSigningWaitMinimum (at least 500 s) and doubles, without ever exceeding int. Each request names the station (or the ISO 15118 controller) as configured. Once the last request is settled, a request is made as soon as it is asked for or a certificate expires within 30 days. Unless a certificate arrives before the answer to its request, the timer's callback never fails.", "quantifier": "all sequences of requests, answers, lost answers, timer events and certificates, all configurations changing in between", "why_tests_cant": "The behaviour depends on the order of answers, certificates and timer events over an unbounded history.", "anchors": ["lib/ocpp/v2/functional_blocks/security.cpp", "Security::sign_certificate_req", "Security::handle_sign_certificate_response", "Security::scheduled_check_client_certificate_expiration"]}
{"id": "C85", "title": "Certificates are installed, deleted and listed exactly as the CSMS asks and the security profile permits", "statement": "A root certificate reaches the certificate store exactly if it may be installed, and unchanged. A signed certificate is handed to the store for its use. Deleting and listing ask the store for exactly what was asked. Each request is answered once, by what the store said. The station reconnects exactly if its own certificate changed under security profile 3, and the application is told of every change. No other call touches the store.", "quantifier": "all states of the station, configurations, certificates and answers of the store", "why_tests_cant": "Certificates, configurations and answers of the store combine freely, and each combination has its own effects.", "anchors": ["lib/ocpp/v2/functional_blocks/security.cpp", "Security::handle_certificate_signed_req", "Security::handle_install_certificate_req", "Security::handle_delete_certificate_req", "Security::handle_get_installed_certificate_ids_req", "Security::should_allow_certificate_install"]}
{"id": "C86", "title": "A firmware update takes connectors out of service before it is installed and puts them back at its end", "statement": "Every status the application reports is passed on to the CSMS once, with its request id; a question for the status is answered with the last one told (Idle after Installed). When the status preceding the installation (SignatureVerified for signed firmware, Downloaded otherwise) is reported, all connectors of idle EVSEs become inoperative; a charging EVSE becomes so when its transaction ends, and InstallScheduled is told. The application is told that all connectors are unavailable exactly if no transaction is running. When the update has ended, the connectors have the status kept in the database. Nothing else of this block touches connectors. A request reaches the application exactly if its signing certificate is not invalid, and is answered once; an invalid certificate, an invalid signature and an installed firmware, and only these, give a security event.", "quantifier": "all histories of reports, requests, transactions, availability changes and restarts; all numbers of EVSEs and connectors", "why_tests_cant": "Reports, transactions and availability changes interleave freely; the connectors and schedules they leave behind depend on the whole history.", "anchors": ["lib/ocpp/v2/functional_blocks/firmware_update.cpp", "FirmwareUpdate::on_firmware_update_status_notification", "FirmwareUpdate::on_firmware_status_notification_request", "FirmwareUpdate::handle_firmware_update_req", "FirmwareUpdate::change_all_connectors_to_unavailable_for_firmware_update", "FirmwareUpdate::restore_all_connector_states"]}
{"id": "C80", "title": "A remote start reaches the application exactly if the EVSE can start, and its id reaches the CSMS", "statement": "RequestStartTransaction.req for a known EVSE is handed to the application exactly if the EVSE has no transaction, it and the station are operative, some connector is neither faulted nor unavailable, and it is not reserved for another token. The answer is then the application's, and the next transaction with that token on that EVSE tells the CSMS the remote start id, once, with the trigger reason RemoteStart. Otherwise the request is rejected and changes nothing. Refused requests (no EVSE, unknown EVSE, registration pending) have no effect.", "quantifier": "all requests, states of EVSEs and connectors, reservations and answers of the application and of smart charging", "why_tests_cant": "The decision depends on transactions, connector states and reservations left by the whole history; the remote start id travels through another message.", "anchors": ["lib/ocpp/v2/functional_blocks/remote_transaction_control.cpp", "RemoteTransactionControl::handle_remote_start_transaction_request", "RemoteTransactionControl::is_evse_connector_available", "TransactionBlock::set_remote_start_id_for_evse", "TransactionBlock::transaction_event_req"]}
{"id": "C81", "title": "Remote unlocking and stopping reach exactly the connector and transaction meant, and every request is answered once", "statement": "UnlockConnector.req reaches the application exactly if the connector exists and its EVSE has no transaction, and is otherwise answered with the reason. RequestStopTransaction.req reaches it, for the EVSE with that transaction, exactly if there is one. All requests of remote control and reservation are answered exactly once. While the registration is pending only triggers are served; before, only the trigger for BootNotification.", "quantifier": "all requests, ids, states and answers of the application", "why_tests_cant": "EVSE ids, connector ids (signed in the message, unsigned in the comparison) and transactions combine without bound.", "anchors": ["lib/ocpp/v2/functional_blocks/remote_transaction_control.cpp", "RemoteTransactionControl::handle_unlock_connector", "RemoteTransactionControl::handle_remote_stop_transaction_request", "ChargePoint::message_callback", "EvseManager::is_valid_evse", "EvseManager::get_transaction_evseid"]}
{"id": "C82", "title": "A TriggerMessage is answered by whether it can be served, and then exactly the messages asked for are sent", "statement": "The answer comes first, is Accepted exactly if the message can be sent and NotImplemented exactly for kinds the station does not know; if it is not Accepted nothing happens. Otherwise the messages follow: BootNotification or Heartbeat; the log or firmware status told last; MeterValues of exactly the EVSEs asked for that have configured measurands, with these values and the context Trigger; one TransactionEvent with the state of each running transaction asked for, in order; the status of exactly the connector asked for.", "quantifier": "all triggers, targets, histories of reports, meter values, transactions and connector events", "why_tests_cant": "What has to be sent depends on everything told before and on all EVSEs.", "anchors": ["lib/ocpp/v2/functional_blocks/remote_transaction_control.cpp", "RemoteTransactionControl::handle_trigger_message", "Availability::heartbeat_req", "ComponentStateManager::send_status_notification_single_connector", "FirmwareUpdate::on_firmware_status_notification_request"]}
{"id": "C83", "title": "A reservation reaches the application exactly if the station can have such a connector", "statement": "ReserveNow.req is handed to the application exactly if reservations are available and enabled and the EVSE asked for has, or may have, a connector of the type asked for; without an EVSE, exactly if that is allowed and some EVSE has one. Otherwise it is rejected without effect. Types are compared without regard to case; an unknown or absent type matches all. CancelReservation.req reaches it exactly if reservations are available and enabled.", "quantifier": "all requests, connector types, configurations and states", "why_tests_cant": "All numbers of EVSEs and connectors with arbitrary type names.", "anchors": ["lib/ocpp/v2/functional_blocks/reservation.cpp", "Reservation::handle_reserve_now_request", "Reservation::handle_cancel_reservation_callback", "Evse::does_connector_exist", "EvseManager::does_connector_exist"]}
{"id": "C87", "title": "A value somebody else than the configuration has set survives restarts and configuration changes", "statement": "Once the CSMS or the application has set the value of an attribute in the device model database, the attribute keeps this value and its source through every later start, crash during a start, change of the configuration and write to other attributes, as long as every configuration still has the attribute and nobody writes it again.", "quantifier": "all histories of starts, crashes, configurations, writes and monitor changes; all components, variables and values", "why_tests_cant": "The history between the write and the reading is unbounded, and configurations are arbitrary.", "anchors": ["lib/ocpp/v2/init_device_model_db.cpp", "InitDeviceModelDb::initialize_database", "InitDeviceModelDb::update_attributes", "InitDeviceModelDb::insert_variable_attribute_value", "DeviceModelStorageSqlite::set_variable_attribute_value"]}
{"id": "C88", "title": "After a start the device model database has exactly what the configuration describes", "statement": "From whatever database earlier starts, crashes and writes have left, a start with a well-formed configuration succeeds. Afterwards the database has exactly the components, variables, attributes and monitors of the configuration, each once, with its characteristics, mutability and, where nobody else has set one, its values. What was there before keeps its ids. Of several files for a component the first custom one counts, and a standardized one only if there is no custom one.", "quantifier": "all histories and all configurations", "why_tests_cant": "What has to be inserted, changed and removed depends on the whole database and the whole configuration.", "anchors": ["lib/ocpp/v2/init_device_model_db.cpp", "InitDeviceModelDb::initialize_database", "InitDeviceModelDb::insert_components", "InitDeviceModelDb::remove_not_existing_components_from_db", "InitDeviceModelDb::update_variable", "get_all_component_configs"]}
{"id": "C89", "title": "Starts can be repeated and interrupted, and a wrongly typed configuration changes nothing", "statement": "A second start with the same configuration leaves every row of the database as it is. If the process dies at any point of a start, the next start gives exactly the database the interrupted one would have given. A configuration with a value that is not of its data type is refused before anything is changed.", "quantifier": "all histories, configurations and points of interruption", "why_tests_cant": "The point of interruption, the database and the configuration combine without bound.", "anchors": ["lib/ocpp/v2/init_device_model_db.cpp", "InitDeviceModelDb::initialize_database", "check_integrity", "value_is_of_type"]}
{"id": "C90", "title": "Configured monitors follow the configuration and custom monitors survive", "statement": "After a start a variable has exactly the monitors of the configuration, each once, beside the custom monitors it had before, unchanged and in order. A custom monitor stays, with its id, through all starts, crashes and other changes until it is cleared or changed or its variable is no longer configured.", "quantifier": "all histories, configurations and monitors", "why_tests_cant": "Custom monitors are set and cleared at any time between starts with arbitrary configurations.", "anchors": ["lib/ocpp/v2/init_device_model_db.cpp", "InitDeviceModelDb::update_variable_monitors", "InitDeviceModelDb::delete_variable_monitor", "DeviceModelStorageSqlite::set_monitoring_data", "DeviceModelStorageSqlite::clear_variable_monitor"]}
{"id": "C91", "title": "A 1.6 StopTransaction carries the transaction id that the CSMS gave", "statement": "Every StopTransaction.req that is sent belongs to the transaction that was running on its connector when it was stopped and carries the id of the StartTransaction.conf of that transaction, also if the transaction was stopped before the answer came; unless the StartTransaction.req was given up, the answer is there when the stop is sent.", "quantifier": "all histories of starts, stops, answers, retries and configuration changes without a restart, any number of connectors", "why_tests_cant": "Starts, stops and answers of several connectors interleave with retries in unboundedly many ways.", "anchors": ["lib/ocpp/v16/charge_point_impl.cpp", "ChargePointImpl::stop_transaction", "ChargePointImpl::handleStartTransactionResponse", "TransactionHandler::get_transaction"]}
{"id": "C92", "title": "1.6 MeterValues carry the transaction id that the CSMS gave", "statement": "A MeterValues.req made during a transaction is sent with the id that the CSMS gave to that transaction, and one made outside of transactions without any id.", "quantifier": "all histories without a restart in which no StartTransaction.req is repeated", "why_tests_cant": "Meter values are queued before the id is known, and the id is filled in when they are sent.", "anchors": ["lib/ocpp/v16/charge_point_impl.cpp", "ChargePointImpl::send_meter_value", "ChargePointImpl::on_transaction_started", "lib/ocpp/v16/transaction.cpp"]}
{"id": "C93", "title": "Starts and stops of 1.6 transactions are reported with their data", "statement": "A start on an existing connector queues one StartTransaction.req and the end of a running transaction one StopTransaction.req, each with the meter value, time, tag and reason that were given; nothing else is queued. Everything that is sent, also after restarts, was queued before and differs in nothing but the transaction id.", "quantifier": "all histories, including restarts for the second part", "why_tests_cant": "The data passes through the queue, the database, retries and restarts.", "anchors": ["lib/ocpp/v16/charge_point_impl.cpp", "ChargePointImpl::start_transaction", "ChargePointImpl::on_transaction_stopped", "ChargePointImpl::stop_transaction"]}
{"id": "C94", "title": "1.6 transactions that a restart interrupted are closed or resumed", "statement": "At a start, exactly the stored transactions whose end has neither been acknowledged nor is waiting in the queue and whose session is not resumed are reported as stopped for loss of power, with the last stored meter value and time; the others are resumed with their data. A transaction running at the loss of power is so closed once, with the id that the CSMS gave and its last reading.", "quantifier": "all states of the database; all histories whose sessions and transaction ids are distinct", "why_tests_cant": "Power can be lost in every state, with messages of the transaction queued, sent, answered or given up.", "anchors": ["lib/ocpp/v16/charge_point_impl.cpp", "ChargePointImpl::try_resume_transactions", "lib/ocpp/v16/database_handler.cpp"]}
{"id": "C95", "title": "1.6 ChangeAvailability is decided per connector and survives restarts", "statement": "A request for an unknown connector is rejected; it is scheduled iff a connector it is about is busy; the other connectors it is about change at once. A scheduled change is made when the session ends or the stop is answered. After any number of restarts each connector is as last requested.", "quantifier": "all states and requests; for the last part all orderly histories (no change is made while another one is scheduled, no firmware update)", "why_tests_cant": "Requests for single connectors and for the whole station mix with transactions and restarts in any order.", "anchors": ["lib/ocpp/v16/charge_point_impl.cpp", "ChargePointImpl::preprocess_change_availability_request", "ChargePointImpl::execute_queued_availability_change", "ChargePointImpl::handleChangeAvailabilityRequest"]}
{"id": "C96", "title": "1.6 remote starts and stops are decided by what is running", "statement": "RemoteStartTransaction is accepted iff a connector that is meant is startable (no transaction, available or preparing, not reserved for somebody else) and a profile, if any, is a valid TxProfile for a given connector; then the token is passed on with the connectors meant. RemoteStopTransaction is accepted iff a transaction with that id is running and stops that one. UnlockConnector asks the application to unlock existing connectors and, if that is not supported and so configured, stops the transaction there. An accepted Reset stops all running transactions, each once.", "quantifier": "all histories without a restart, all requests and states of the connectors", "why_tests_cant": "The decision depends on the transactions of all connectors after an arbitrary history.", "anchors": ["lib/ocpp/v16/charge_point_impl.cpp", "ChargePointImpl::handleRemoteStartTransactionRequest", "ChargePointImpl::handleRemoteStopTransactionRequest", "ChargePointImpl::handleUnlockConnectorRequest", "ChargePointImpl::handleResetRequest"]}
{"id": "C97", "title": "A 1.6 firmware update takes connectors out of service and puts them back", "statement": "When the firmware is downloaded (or its signature verified), connectors without a transaction are disabled and the others are scheduled; the application is told that all are unavailable as soon as no transaction is running, and not before. The persistent availability is not changed, and after the update exactly the connectors that are to be available are enabled.", "quantifier": "all histories without a restart", "why_tests_cant": "The end of transactions and of their reporting falls between the phases of the update in any order.", "anchors": ["lib/ocpp/v16/charge_point_impl.cpp", "ChargePointImpl::change_all_connectors_to_unavailable_for_firmware_update", "ChargePointImpl::signed_firmware_update_status_notification", "ChargePointImpl::firmware_status_notification"]}
{"id": "C98", "title": "1.6 transactions never use a timer or transaction that is not there", "statement": "No history of starts, stops, meter values, answers, retries, remote requests, availability changes and configuration changes dereferences a null pointer.", "quantifier": "all histories without a restart", "why_tests_cant": "Null pointers are dereferenced only after particular orders of events.", "anchors": ["lib/ocpp/v16/transaction.cpp", "TransactionHandler::change_meter_values_sample_intervals", "lib/ocpp/v16/charge_point_impl.cpp"]}
{"id": "C99", "title": "The answer to a 1.6 StartTransaction concerns its transaction", "statement": "If a transaction is still running when its StartTransaction.req is answered, its tag is cached with the status given, it is paused and (if configured) stopped iff the tag is not accepted, and the application is told its id.", "quantifier": "all histories without a restart and all answers", "why_tests_cant": "Answers come after any number of other events on the same and on other connectors.", "anchors": ["lib/ocpp/v16/charge_point_impl.cpp", "ChargePointImpl::handleStartTransactionResponse", "ChargePointImpl::handleStopTransactionResponse"]}
{"id": "C100", "title": "A 1.6 id tag is accepted only if the CSMS has accepted it", "statement": "The decision about an id tag is a function of the configuration, the connection, the clock, the last thing the accepted updates of the local list say about it, the last thing the CSMS answered about it and the answer to this Authorize.req. It is accepted only if one of these accepts it and its date has not passed, or if the station is offline and unknown tags are allowed. No decision is undefined behaviour.", "quantifier": "all histories of authorizations, list updates, cache clearings and restarts, all configurations; the second part for every behaviour of the clock", "why_tests_cant": "What is stored about a tag is the result of an unbounded history of lists, answers and expiries.", "anchors": ["lib/ocpp/v16/charge_point_impl.cpp", "ChargePointImpl::authorize_id_token", "ChargePointImpl::validate_against_cache_entries", "DatabaseHandler::get_local_authorization_list_entry", "DatabaseHandler::get_authorization_cache_entry"]}
{"id": "C101", "title": "The 1.6 local list and its version are what the CSMS has sent", "statement": "An update is not supported iff the list is disabled, fails iff it is differential without a list, mismatches iff it is differential with a version that is not greater than the current one, and is accepted otherwise. The version reported is -1 if the list is disabled, 0 if it is empty and otherwise that of the last accepted update.", "quantifier": "all histories in which no update is interrupted, all lists", "why_tests_cant": "Full and differential updates of arbitrary length follow each other in any order.", "anchors": ["lib/ocpp/v16/charge_point_impl.cpp", "ChargePointImpl::handleSendLocalListRequest", "ChargePointImpl::handleGetLocalListVersionRequest", "DatabaseHandler::insert_or_update_local_authorization_list"]}
{"id": "C102", "title": "A 1.6 contract is accepted only by the CSMS or, offline, with a valid certificate and a known id", "statement": "A contract is accepted only if the CSMS accepts it, or if the station is offline, validation offline and local authorization are configured, the certificate is valid and the id is accepted by the local list or the cache. Online, the hashes given are sent, else those made from the certificate, else the certificate if central validation is allowed, else nothing.", "quantifier": "all histories and all configurations, certificates and answers", "why_tests_cant": "The decision combines ten independent conditions with the history of the lists.", "anchors": ["lib/ocpp/v16/charge_point_impl.cpp", "ChargePointImpl::data_transfer_pnc_authorize"]}
{"id": "C103", "title": "1.6 reservations are decided by the application and the cache is cleared only if enabled", "statement": "ReserveNow is passed to the application iff the connector is neither faulted nor preparing, the profile is supported and the connector is not 0 or 0 is supported; the answer is that of the application, else Faulted, Occupied or Rejected. A reservation is cancelled iff the application says so. ClearCache empties the cache and nothing else iff it is enabled.", "quantifier": "all requests, configurations and histories", "why_tests_cant": "The conditions are independent of each other and the effect of clearing depends on the history.", "anchors": ["lib/ocpp/v16/charge_point_impl.cpp", "ChargePointImpl::handleReserveNowRequest", "ChargePointImpl::handleCancelReservationRequest", "ChargePointImpl::handleClearCacheRequest"]}
{"id": "C104", "title": "Before it is accepted an OCPP 2.x station deals only with what it may, and answers each CALL once", "statement": "A message is given to the part of the station it is meant for iff the station is accepted or the message may be dealt with before, and there is such a part. What is not has no effect and gets NotImplemented, SecurityError or, for remote starts and stops while Pending, Rejected. A CALL is answered exactly once. A message changes nothing of the registration. Answers of the CSMS are not answered.", "quantifier": "all messages, all states of the station, all sets of functional blocks; all behaviours of the blocks that do not throw unknown exceptions", "why_tests_cant": "There are more than a hundred message types, three registrations, optional blocks and eight kinds of exceptions, and the rejection must hold in every combination.", "anchors": ["lib/ocpp/v2/charge_point.cpp", "ChargePoint::message_callback", "ChargePoint::handle_message", "ChargePoint::send_not_implemented_error"]}
{"id": "C105", "title": "A 2.x station is registered as the CSMS said last, and asks until it is accepted", "statement": "The registration is the last answer to a BootNotification.req that reached the station. As long as it is not Accepted and the station is switched on, a BootNotification.req is under way or the timer for the next one is running, with the interval of the CSMS or 30 s. Heartbeats are sent with the interval of the answer or the one set since.", "quantifier": "all histories of starts, stops, answers, failures, messages, connections and timers; the second part without QueueAllMessages", "why_tests_cant": "Whether the station goes on asking depends on how failures, triggers, restarts and timers are interleaved.", "anchors": ["lib/ocpp/v2/functional_blocks/provisioning.cpp", "Provisioning::handle_boot_notification_response", "Provisioning::boot_notification_req", "ChargePoint::start", "ChargePoint::stop"]}
{"id": "C106", "title": "A 2.x station survives the answers to its BootNotifications", "statement": "The process ends, exceptions aside, exactly if the station is accepted twice without having been stopped in between; it does not if it is started once and the CSMS does not ask for a BootNotification.", "quantifier": "all histories", "why_tests_cant": "The end needs two BootNotification.reqs under way at once, which takes a particular interleaving of a trigger or a restart with a timer.", "anchors": ["lib/ocpp/v2/ocsp_updater.cpp", "OcspUpdater::start", "Provisioning::handle_boot_notification_response", "RemoteTransactionControl::handle_trigger_message"]}
{"id": "C107", "title": "The CSMS knows the status of every connector of a connected, accepted 2.x station", "statement": "While the station is connected and accepted, the last StatusNotification for each connector carries its status. When the connection is back, all statuses are sent if it was away for longer than OfflineThreshold, and otherwise exactly those that differ from what the CSMS was told. The expiry of certificates is being checked.", "quantifier": "all histories of losses, changes, answers and restarts, with an OfflineThreshold that is not 0", "why_tests_cant": "Statuses change and connections are lost in any order and any number of times.", "anchors": ["lib/ocpp/v2/charge_point.cpp", "ChargePoint::websocket_connected_callback", "ChargePoint::websocket_disconnected_callback", "ComponentStateManager::send_status_notification_all_connectors", "ComponentStateManager::send_status_notification_changed_connectors"]}
{"id": "C108", "title": "What a 2.x station knows of a customer is told completely, in numbered parts, and can be cleared", "statement": "CustomerInformation.req is accepted iff it asks for a report or a clearing and names a customer. What the application and the cache know, shortened to MaxCustomerInformationDataLength, is sent in parts of 512 characters that are numbered from 0 and of which exactly the last announces no other. After a clearing the cache has no entry for the token and the same ones for all others.", "quantifier": "all requests, texts, caches and configurations with a maximum that is not negative", "why_tests_cant": "The text and the number of parts are unbounded, and the boundary cases depend on the length.", "anchors": ["lib/ocpp/v2/functional_blocks/diagnostics.cpp", "Diagnostics::notify_customer_information_req", "Diagnostics::handle_customer_information_req", "Diagnostics::clear_customer_information"]}
{"id": "C109", "title": "A monitoring report of a 2.x station tells all monitors found", "statement": "GetMonitoringReport.req is answered Accepted iff monitors are found. The parts of the report are numbered from 0, all but the last announce another one, and there are as many as ten entries per part need. All monitors found are in the report.", "quantifier": "all requests and all results; the last part up to ten entries", "why_tests_cant": "The number of monitors is unbounded and the parts are cut by index arithmetic.", "anchors": ["lib/ocpp/v2/functional_blocks/diagnostics.cpp", "Diagnostics::notify_monitoring_report_req", "Diagnostics::handle_get_monitoring_report_req"]}
{"id": "C110", "title": "Display messages of a 2.x station are set and told as the CSMS wants", "statement": "A message is passed to the application iff messages are available, its priority, format and state are supported and its transaction runs; otherwise the first of these that fails is the answer. The CSMS is told all messages of the application that have an id and a priority, in their order and with their contents. A message that was set is told as it was set.", "quantifier": "all messages, all lists of supported values written with commas and spaces, all lists of messages", "why_tests_cant": "Supported values are unbounded lists in strings, and the checks must be made in a fixed order.", "anchors": ["lib/ocpp/v2/functional_blocks/display_message.cpp", "DisplayMessageBlock::handle_set_display_message", "DisplayMessageBlock::handle_get_display_message"]}
{"id": "C111", "title": "The driver is shown the costs and tariffs the CSMS sends, with its numbers", "statement": "The running cost is passed to the application iff costs are shown and the CSMS has sent one, with its value, the transaction, the greatest energy register of the event and whether the transaction has ended. With it go the personal message and those in languages the station supports, if tariffs are shown. A tariff message of its own is shown iff tariffs but not costs are. CostUpdated.req is answered once and its triggers are set for the EVSE of the transaction.", "quantifier": "all events, responses, configurations and meter values", "why_tests_cant": "Ten configuration variables, optional fields and lists of unbounded length are combined.", "anchors": ["lib/ocpp/v2/functional_blocks/tariff_and_cost.cpp", "TariffAndCost::handle_cost_and_tariff", "TariffAndCost::handle_costupdated_req"]}
{"id": "C112", "title": "The OCSP cache of a 2.x station is updated when it is due, for all certificates or for none", "statement": "An update of the OCSP cache begins exactly when the updater runs, no update is under way and the time due has passed: the time of construction, of the last trigger, an interval after the last success or a retry interval after the last failure. The certificates are asked for one after the other; answers are stored, each for its certificate, exactly when all have been answered Accepted with a result. Meanwhile every caller has to wait.", "quantifier": "all histories of starts, stops, triggers, wake-ups and answers, all times and lists of certificates", "why_tests_cant": "Threads, a condition variable and a clock interleave in unboundedly many ways over weeks.", "anchors": ["lib/ocpp/v2/ocsp_updater.cpp", "OcspUpdater::updater_thread_loop", "OcspUpdater::execute_ocsp_update", "OcspUpdater::trigger_ocsp_cache_update"]}
{"id": "C113", "title": "An OCPP 1.6 station changes the availability of connectors when they are free and remembers what was wanted", "statement": "ChangeAvailability.req is rejected iff there is no such connector and scheduled iff one of its connectors is in use. Connectors that are not in use are changed at once, the others when their session has ended or their transaction has been confirmed, and once. The table holds for each connector what the last request for it wanted, and a start makes it so.", "quantifier": "all histories of requests, sessions, transactions, firmware states and starts, all numbers of connectors; the table for histories in which no request overtakes a scheduled one or meets a scheduled firmware update", "why_tests_cant": "Requests, ends of sessions and firmware states interleave in unboundedly many ways, and an error shows only at a later event.", "anchors": ["lib/ocpp/v16/charge_point_impl.cpp", "ChargePointImpl::preprocess_change_availability_request", "ChargePointImpl::execute_queued_availability_change", "ChargePointImpl::execute_connectors_availability_change"]}
{"id": "C114", "title": "A firmware update of an OCPP 1.6 station takes connectors out of use only while it waits for them", "statement": "After firmware has been downloaded (or its signature verified) and until it has failed, each state told, StopTransaction.conf and trigger makes the connectors without a transaction unavailable, and the application is told that all are exactly if there is no transaction. When it has been installed or has failed, the connectors that are available according to the table are made available again.", "quantifier": "all histories of requests, sessions, transactions, firmware states, triggers and starts", "why_tests_cant": "The flag, the queue of scheduled changes and the table are updated in different places, and an error shows only at a later event.", "anchors": ["lib/ocpp/v16/charge_point_impl.cpp", "ChargePointImpl::change_all_connectors_to_unavailable_for_firmware_update", "ChargePointImpl::on_firmware_update_status_notification", "ChargePointImpl::firmware_status_notification"]}
{"id": "C115", "title": "An OCPP 1.6 station registers before it takes part, and nothing that must not be lost is lost meanwhile", "statement": "Before an answer to BootNotification.req accepts the station, only BootNotification.req and what the CSMS asked for is sent, requests are not answered (or, while it waits, remote starts and stops are rejected), and the next BootNotification.req is due after the time the answer gave, or 60 seconds. Once accepted, all messages that had to wait and all sent since are on their way, each once, and heartbeats are sent at the interval of the answer or the configured one.", "quantifier": "all histories of starts, connections, answers, requests, timers and sent messages, all configurations; what is sent for histories without a stop", "why_tests_cant": "The order of answers, timers, connections and messages is unbounded, and messages that wait show only much later.", "anchors": ["lib/ocpp/v16/charge_point_impl.cpp", "ChargePointImpl::message_callback", "ChargePointImpl::handleBootNotificationResponse", "MessageDispatcher::dispatch_call", "get_message_transmission_priority"]}
{"id": "C116", "title": "A trigger sends exactly the messages that the CSMS asked for", "statement": "TriggerMessage.req and ExtendedTriggerMessage.req are accepted iff there is such a connector and, in the former, one of those meant has measured something if meter values are wanted, and in the latter, a CPO name is set if a certificate is wanted. If accepted, the messages asked for are sent for the connector named or all, each once; otherwise none.", "quantifier": "all requests, all numbers of connectors, all measurements", "why_tests_cant": "Requests, connectors and measurements combine without bound.", "anchors": ["lib/ocpp/v16/charge_point_impl.cpp", "ChargePointImpl::handleTriggerMessageRequest", "ChargePointImpl::handleExtendedTriggerMessageRequest"]}
{"id": "C117", "title": "A DataTransfer.req reaches the callback registered for it, and is answered once", "statement": "Whatever callbacks were registered before, a request is given to the one last registered for its vendor and message, to the general one if there is none (or if that one says that it knows the vendor or the message not), and otherwise the CSMS learns which of both is unknown. The vendor of ISO 15118 is served by the library itself. Each request is answered exactly once. The application learns the answer to its own request, nothing if the station is offline or the answer is late.", "quantifier": "all histories of registrations, all requests, all answers of the callbacks, including exceptions", "why_tests_cant": "Registrations and requests come in any order, and unit tests register one callback.", "anchors": ["lib/ocpp/v16/charge_point_impl.cpp", "ChargePointImpl::handleDataTransferRequest", "ChargePointImpl::register_data_transfer_callback", "ChargePointImpl::data_transfer"]}
{"id": "C118", "title": "Requests about certificates do with the certificate store what they say, and the CSMS is told the outcome", "statement": "For the requests of ISO 15118 inside DataTransfer and those of the security extension, the store is asked for exactly what the request names, never if certificate management is off, never for a chain of the wrong use or above the configured size; the answer is what the store said, or a rejection if the request cannot be read; signing requests, reconnection, OCSP updates and security events follow exactly when due.", "quantifier": "all requests, all configurations, all answers of the store including exceptions", "why_tests_cant": "Contents, configurations and answers of the store combine without bound, and exceptions of the store are hard to provoke.", "anchors": ["lib/ocpp/v16/charge_point_impl.cpp", "ChargePointImpl::handle_data_transfer_pnc_certificate_signed", "ChargePointImpl::handleCertificateSignedRequest", "ChargePointImpl::handleInstallCertificateRequest", "ChargePointImpl::sign_certificate"]}
{"id": "C119", "title": "An accepted reset stops all transactions and then resets once; remote stops and unlocking reach the right connector", "statement": "A Reset.req is accepted iff the application allows it; then all transactions are asked to stop with the reason that fits, and the application is told to reset exactly once, not before no connector has a transaction or charges unless the time for it is over. RemoteStopTransaction.req is accepted iff a transaction has this id and stops one that has. UnlockConnector.req reaches the application for existing connectors, its answer is passed on, and if it is not supported a transaction there is stopped if so configured.", "quantifier": "all histories of requests, transactions, states and times, until the process ends; all numbers of connectors", "why_tests_cant": "The thread of a reset races with transactions, answers and time-outs in unboundedly many orders.", "anchors": ["lib/ocpp/v16/charge_point_impl.cpp", "ChargePointImpl::handleResetRequest", "ChargePointImpl::handleRemoteStopTransactionRequest", "ChargePointImpl::handleUnlockConnectorRequest"]}
{"id": "C120", "title": "Costs reach the application with the right session, and meter values are sent exactly when the CSMS asked for them with the costs", "statement": "A RunningCost or FinalCost message is given to the application, with the session whose transaction it names, iff that transaction runs and the message can be read, and is answered once. From then on a measurement sends meter values for the energy once, as soon as the energy asked for is reached, else for the power when the power asked for is crossed by 5 % since the last time; a change of state sends them if the new state is asked for and is not the one last seen; the time asked for sends them once. No other event does, and none after the transaction unless there are new costs.", "quantifier": "all histories of transactions, cost messages, measurements, states and times; all numbers of connectors", "why_tests_cant": "What is due depends on the whole history of costs, measurements and meter values sent.", "anchors": ["lib/ocpp/v16/charge_point_impl.cpp", "ChargePointImpl::handle_set_session_cost", "ChargePointImpl::send_meter_value_on_pricing_trigger", "ChargePointImpl::set_connector_trigger_metervalue_timer", "ChargePointImpl::reset_pricing_triggers"]}
{"id": "C121", "title": "An authorization shows the price that the CSMS set for this user while it waited, and every price reaches the application once", "statement": "With California pricing, a call of authorize_id_token that the CSMS accepts returns the newest price set for its token since it began to wait, or the default tariff if its time is over and none has come, and not before. Any number of calls may run at once; one asks the CSMS at a time. Each SetUserPrice that can be read is given to the application, for the session of the first transaction of the token or else for the token, with its texts in order, and is answered once, even if it had to wait; one that cannot be read is rejected. The only undefined behaviour comes from two calls that wait for the same token.", "quantifier": "all interleavings of any number of calls, answers, prices and time-outs", "why_tests_cant": "Threads and the receiving thread share a mutex, two maps and condition variables; the orders are unbounded.", "anchors": ["lib/ocpp/v16/charge_point_impl.cpp", "ChargePointImpl::handle_set_user_price", "ChargePointImpl::authorize_id_token", "TransactionHandler::get_transaction_from_id_tag"]}
{"id": "C122", "title": "Log rotation keeps the newest parts of the log, drops only the oldest, and says so", "statement": "With numbers as extensions and a maximum of one to eleven files, after any number of openings, writes and closings the files of a log hold exactly the last parts of what was written, the newest without extension, the others with 0, 1 and so on; other files stay as they are. The status tells whether a file was rotated and whether one was deleted. Nothing is lost while there are not more parts than files allowed. With dates as extensions, below the maximum, the full file gets the date and no other file changes. Without rotation all is in one file.", "quantifier": "all histories of a log, all sizes of lines, all orders in which the directory is listed", "why_tests_cant": "Which file is renamed over which depends on the order of names and on how often the log was rotated.", "anchors": ["lib/ocpp/common/ocpp_logging.cpp", "MessageLogging::rotate_log", "MessageLogging::rotate_log_if_needed", "MessageLogging::security"]}
{"id": "C123", "title": "Every message is in the log once, with its type, and in the log of each session that is open", "statement": "The log has one line for each message, in order, with its sender, text and type; the type of an answer is that of the last call with its id that had no answer. The log of a session has these lines for the messages since it began and no others. The application hears each message once. Without sessions each system and raw message is logged once. The text of a message adds no markup to the HTML log.", "quantifier": "all sequences of messages, system and raw lines, starts and stops of sessions", "why_tests_cant": "The type of an answer depends on any earlier message; sessions begin and end at any time.", "anchors": ["lib/ocpp/common/ocpp_logging.cpp", "MessageLogging::charge_point", "MessageLogging::central_system", "MessageLogging::sys", "MessageLogging::raw", "MessageLogging::format_message", "MessageLogging::start_session_logging", "MessageLogging::stop_session_logging"]}
{"id": "C124", "title": "A change of the security profile succeeds or leads back to the profile of the last connection", "statement": "A change of the SecurityProfile is accepted iff it goes up to a profile that is possible with the key and the certificates installed. The new profile is then tried; the configured profile is never lower than that of the last connection, is that of the connection while there is one, and is higher only while the higher one is tried. When that fails, the station goes back to the profile of its last connection and tries it without limit; it is never without a connection, an attempt or a timer.", "quantifier": "all orders of requests, closed, failed, lost and made connections and timers", "why_tests_cant": "The callback, the timer and the websocket's threads interleave in any order over any number of changes.", "anchors": ["lib/ocpp/v16/charge_point_impl.cpp", "ChargePointImpl::switchSecurityProfile", "ChargePointImpl::set_configuration_key_internal", "ChargePointImpl::stop", "lib/ocpp/common/websocket/websocket_libwebsockets.cpp"]}
{"id": "C125", "title": "Allowed energy transfer is passed on only where the service can be renegotiated, and answers have their meaning", "statement": "In OCPP 2.1 every NotifyAllowedEnergyTransfer.req is answered once. The application is asked iff the transaction runs at an EVSE with V2X enabled, whose vehicle speaks ISO 15118-20, and the service can be renegotiated; the request is Accepted iff the application agreed, and each refusal has the reason of the first condition that fails. A refused NotifyEVChargingNeeds stops the transaction iff it is bidirectional. An outgoing DataTransfer returns the CSMS's answer and nothing if there was none that could be read.", "quantifier": "all EVSEs, transactions, protocols, settings, answers of the application and of the CSMS", "why_tests_cant": "The conditions combine over any number of EVSEs and any text of the protocol.", "anchors": ["lib/ocpp/v21/functional_blocks/bidirectional.cpp", "Bidirectional::handle_notify_allowed_energy_transfer", "SmartCharging::handle_notify_ev_charging_needs_response", "DataTransfer::data_transfer_req"]}
{"id": "C126", "title": "A running OCPP 2.x station works with the values its device model shows", "statement": "After SetVariables each variable has the value of the last entry accepted for it. The number of attempts, the interval and the timeout of the message queue, the options and the key of the websocket, and the timer of the aligned meter values are always those stored; the heartbeat too, once the CSMS gave an interval and while the station is registered. The connection is made anew iff a password that is in use was changed. What is refused or meant for another attribute changes nothing.", "quantifier": "all histories of requests with any number of entries, connections and BootNotifications", "why_tests_cant": "Requests, connections and registrations may come in any order, and every setting has its own way to be updated.", "anchors": ["lib/ocpp/v2/functional_blocks/provisioning.cpp", "Provisioning::handle_variable_changed", "Provisioning::handle_variables_changed", "Provisioning::set_variables_internal", "include/ocpp/v2/comparators.hpp"]}
{"id": "C127", "title": "An OCPP 2.x station starts only with the functions it needs and then calls no missing one", "statement": "A station starts iff every function that is not optional was given, none of the optional ones that are always used holds an empty function, and the functions for what its device model calls available were given. Once started, each action calls the functions meant for it and in order; no empty function is called and no block is used that was not created; a request is answered NotImplemented iff its block was not available at the start.", "quantifier": "all functions given, missing or empty, all device models at the start and later, all EVSEs and all actions", "why_tests_cant": "35 functions in three states and a dozen availability variables that may change after the start combine at 30 places of call.", "anchors": ["lib/ocpp/v2/charge_point_callbacks.cpp", "Callbacks::all_callbacks_valid", "lib/ocpp/v2/charge_point.cpp", "ChargePoint::initialize", "TransactionBlock::on_transaction_finished"]}
{"id": "C128", "title": "Deferred callbacks of a websocket run once each, in order, and the websocket can be destroyed", "statement": "However many threads defer callbacks and however their steps interleave with those of the thread that calls them: every callback is called at most once and in the order handed over, the thread never sleeps while one waits and its notification was sent, it takes nothing from an empty queue, and it ends only when told to and with all of them called; then the destructor comes back.", "quantifier": "all interleavings of any number of pushing threads, the calling thread, the destructor and unasked wake-ups", "why_tests_cant": "Which step of one thread falls between two of another cannot be chosen by a test; the windows are a few instructions wide.", "anchors": ["include/ocpp/common/safe_queue.hpp", "SafeQueue::wait_on_queue_element_or_predicate", "lib/ocpp/common/websocket/websocket_libwebsockets.cpp", "WebsocketLibwebsockets::thread_deferred_callback_queue", "WebsocketLibwebsockets::~WebsocketLibwebsockets"]}
{"id": "C129", "title": "What a websocket's send reports is what became of the message", "statement": "However many threads send at once and however their steps interleave with the client thread: messages go over the wire in the order in which they were sent and each at most once as a whole; unless the queue is cleared none is lost, and where writing works the client thread alone gets them all written; a send that reports success has put the whole message on the wire and one that reports failure has not; and no thread sleeps on when its message was sent.", "quantifier": "all interleavings of any number of sending threads, timeouts, partial and failed writes, cleared queues and choices of the thread to wake", "why_tests_cant": "The choice of the thread a notification wakes and the moment of a timeout are not in the hands of a test.", "anchors": ["lib/ocpp/common/websocket/websocket_libwebsockets.cpp", "WebsocketLibwebsockets::poll_message", "WebsocketLibwebsockets::on_conn_writable", "WebsocketLibwebsockets::send", "SafeQueue::wait_on_custom_event"]}
{"id": "C130", "title": "Certificate data pass between the CSMS and the security module unchanged", "statement": "A 2.x station asked for the installed certificates asks its security module for the certificates of the same purposes and tells the CSMS all of what the module reported, in order, with the same purposes, hashes, serial numbers and children; a deletion with data so reported is a deletion of that very certificate, and a certificate is installed for the purpose it was sent for; the answers say what the module did; the data to ask for the status of certificates with are passed on in order.", "quantifier": "all requests, all certificates, hash data and results the security module may report, all settings", "why_tests_cant": "The tests give the handlers a mocked security interface of the common types; the conversions to the module's types are not run and cover unboundedly many values.", "anchors": ["lib/ocpp/common/evse_security_impl.cpp", "lib/ocpp/common/evse_security.cpp", "conversions::to_ocpp", "conversions::from_ocpp", "Security::handle_get_installed_certificate_ids_req", "Security::handle_install_certificate_req", "Security::handle_delete_certificate_req"]}
{"id": "C131", "title": "What the CSMS sends over the websocket arrives whole, once and in order", "statement": "In whatever pieces messages come in and however the client thread and the receiving thread interleave: the messages handed to message_callback followed by those waiting are the messages the CSMS sent, whole, once and in order; over lost connections they are some of them in order, and never a part of one or a mixture of two; the receiving thread alone hands over all that waits and never takes from an empty queue.", "quantifier": "all messages, all ways of cutting them into pieces, all interleavings of the two threads, all moments at which connections are lost", "why_tests_cant": "Frames, the pieces in which the library passes them on, and the moment of a disconnect between two accesses of a queue are not in the hands of a test.", "anchors": ["lib/ocpp/common/websocket/websocket_libwebsockets.cpp", "WebsocketLibwebsockets::process_callback", "WebsocketLibwebsockets::on_conn_message", "WebsocketLibwebsockets::thread_websocket_message_recv_loop", "WebsocketLibwebsockets::clear_all_queues", "SafeQueue::pop"]}
