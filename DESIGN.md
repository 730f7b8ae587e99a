# Formal model of EVerest/libocpp — design

The model lives in `rocq/theories` (Coq 8.16.1, standard library only). Each
area has up to four files:

* `<Area>Model.v` – total, computable Gallina functions that follow the C++ function by function; every definition cites
  the file and lines of `/repo` it models and says where it simplifies;
* `<Area>Spec.v` – a small specification written without the helpers of the model;
* `<Area>Proofs.v` – lemmas;
* `<Area>Properties.v` – only the property theorems, each `exact lemma`, `Print Assumptions`, and an `Example` beside it
  showing that the hypotheses are met by a concrete, non-trivial case.

Theorems named `..._refuted` exhibit a concrete state of the faithful model that violates the intuitive property: these
are findings about the code. Theorems named `..._partial` prove part of a property; what is missing is said here and in
`MANIFEST.json`.

## Plan per property

| Id | Modelled | How proved |
|----|----------|------------|
| C01 | message queue as a state machine (`step : state -> op -> state * list out`): push, worker wake-up, send result, receive, time-out, pause/resume, registration, restart | invariant over op lists, trace property over emitted frames |
| C02 | same | simulation with an abstract FIFO |
| C03 | same, with a ghost log of pushed ids | invariant: pushed = queued + in flight + resolved |
| C04 | same, the two queue tables are part of the state | invariant relating table and queues; restart op |
| C05 | same, with ghost transmission counters | invariant |
| C06 | same | trace property |
| C07 | overflow policy functions | induction on queues |
| C08 | send failure branch | `_refuted` witness + theorem for the case that is right |
| C09 | receive | case analysis, all frames |
| C10 | pause counter | invariant over op lists |
| C11–C13 | `charge_point_state_machine.cpp`: FSM, active error map, per connector table | refinement to (table run, set of faults), trace property; `_refuted` for connector 0 |
| C14–C16 | `v16/profile.cpp` | pointwise semantics of step functions, induction on period lists |
| C17–C19 | `v16/smart_charging.cpp` | decision specification; map extensionality |
| C20–C22 | `cistring.hpp`, `string.hpp`, `utils.cpp` over `string` | induction on strings |
| C23 | `call_types.hpp` over a JSON tree | case analysis |
| C24 | `websocket_base.cpp` back-off | closed form by induction |
| C25–C27 | `component_state_manager.cpp` with its database table | invariant and refinement |
| C28–C31 | `device_model.cpp` + sqlite storage as finite maps | refinement; `_refuted` where the code deviates |
| C32 | `monitoring_updater.cpp` | loop modelled by an iterator step relation, `_refuted` for divergence |
| C33–C34 | `connectivity_manager.cpp` | invariant over connection histories |
| C35–C37, C60 | `functional_blocks/authorization.cpp` + cache/list tables | decision specification, refinement |
| C38 | `notify_report_requests_splitter.cpp` | induction |
| C39 | `transaction.cpp`, `evse.cpp`, transaction table | invariant with restarts |
| C40 | generated from `ocpp_enums.cpp` | exhaustive case analysis over values, all strings |
| C41 | `base64.hpp` | byte arithmetic and induction in steps of three |
| C42 | `availability.cpp` | invariant; `_refuted` |
| C43 | `remote_transaction_control.cpp` | `_refuted`, decision specification |
| C44 | meter value tables | round trip, `_refuted` |
| C45–C46 | `utils.cpp`, `average_meter_values.cpp` | induction, arithmetic |
| C47–C49 | `v2/profile.cpp`, `functional_blocks/smart_charging.cpp`, profile table | pointwise semantics; decision specification |
| C63–C65 | `smart_charging.cpp`, `database_handler.cpp`, `charge_point.cpp` (boot), `remote_transaction_control.cpp` | invariant over histories; monotonicity of the requirements; `_refuted` |
| C32, C62 | `monitoring_updater.cpp` | refinement: per-monitor machine; termination by the iterator; counting for event ids |
| C50, C61 | `functional_blocks/transaction.cpp` | invariant; refinement of a specification of the messages |
| C59 | `websocket_base.cpp` (ping and pong timers) | invariant over histories, trace property |
| C66 | `websocket_uri.cpp` | grammar of the URI, round trip |
| C67–C69 | meter values of an EVSE, pricing triggers, `aligned_timer.hpp` | invariant; refinement; arithmetic |
| C70 | `DateTimeImpl` | calendar arithmetic, grammar of RFC 3339 |
| C71–C72 | all `to_json`/`from_json`, generated tables | induction over types, one computed check per table |
| C73–C79 | `v16/charge_point_configuration.cpp`, `charge_point_impl.cpp` (configuration), generated tables | computed checks of the tables against the schemas, invariant over changes |
| C84, C85 | `v2/functional_blocks/security.cpp` | effect relation of one call, invariants over the history of calls |
| C86 | `v2/functional_blocks/firmware_update.cpp` on the model of transactions and availability | state determined by what was put out (induction over the history), effect relations of the loops over EVSEs and connectors |
| C80–C82 | `v2/functional_blocks/remote_transaction_control.cpp`, registration gating in `v2/charge_point.cpp`, on the models of transactions, firmware, certificates and meter values | decision tables for arbitrary states, induction over the EVSEs for triggered events, members determined by what was put out (induction over histories) |
| C83 | `v2/functional_blocks/reservation.cpp`, `does_connector_exist` | decision tables for arbitrary states |
| C87 | `v2/init_device_model_db.cpp`, writes of `v2/device_model_storage_sqlite.cpp` | invariant of the database over histories with crashes, preservation of one attribute |
| C88 | the same | what a start makes of an arbitrary database satisfying the invariant, per component, variable, attribute and monitor |
| C89 | the same | fixed point after a start, deletion before the crash commutes with the rest |
| C90 | the same, monitors | the same invariant, preservation of one monitor over histories |
| C91 | `v16/charge_point_impl.cpp` (start, stop, answers), `v16/transaction.cpp`, a list as message queue | invariant linking the station to an observer of the messages |
| C92 | the same, meter values | the same invariant with the meter values that wait for an id |
| C93 | the same, what is pushed and sent | per operation; provenance of every message by induction over histories with restarts |
| C94 | `try_resume_transactions`, tables TRANSACTIONS and the stored messages | per state of the database; invariant of rows and queue over histories |
| C95 | availability functions, table CONNECTORS | per operation; induction over orderly histories with restarts |
| C96 | handlers of the remote requests | per operation against the observer |
| C97 | firmware status notifications | per operation against the observer, the flag of the update over histories |
| C98 | all of the above | undefined behaviour as an output, invariant of timers |
| C99 | handlers of the answers | per operation against the observer |
| C100 | `authorize_id_token` and helpers, tables AUTH_LIST and AUTH_CACHE | invariant linking the tables to an observer of the messages, for a clock that does not go back and for any clock |
| C101 | handlers of SendLocalList and GetLocalListVersion | the same invariant; an interrupted update as an operation of its own |
| C102 | `data_transfer_pnc_authorize` | case analysis over C100 |
| C103 | handlers of ReserveNow, CancelReservation, ClearCache | case analysis |
| C104 | `message_callback`, `handle_message` of v2/charge_point.cpp | case analysis over an independent table of messages and required blocks |
| C105 | `boot_notification_req`, `handle_boot_notification_response`, `start`, `stop`, the boot timer, failed BootNotifications in the queue | invariants over histories; an observer that only sees calls and effects |
| C106 | `OcspUpdater::start`, `stop` (the thread), triggered BootNotifications | invariant counting acceptances since the last stop |
| C107 | websocket callbacks, StatusNotifications of `ComponentStateManager` | invariant linking what was told to what is remembered |
| C108 | customer information of diagnostics.cpp | an inductive definition of a text in parts; induction over the loop |
| C109 | monitoring reports of diagnostics.cpp | induction over the loop |
| C110 | display_message.cpp | case analysis; supported values through the theorem on split_string (C22) |
| C111 | tariff_and_cost.cpp | case analysis; induction for the greatest register |
| C112 | ocsp_updater.cpp as a transition system | the time due and the update under way are told from the history; invariant over all histories |
| C113 | ChangeAvailability and the queue of charge_point_impl.cpp (1.6) | what is owed and wanted is told from the history; invariant over all histories |
| C114 | firmware states and availability of charge_point_impl.cpp (1.6) | same, with what was told and whether firmware waits |
| C115 | registration in charge_point_impl.cpp (1.6), the dispatcher, the stall flag of the queue | standing, timers and what is due are told from the history; invariant over all histories |
| C116 | both trigger requests of charge_point_impl.cpp (1.6) | the set of messages is specified by membership |
| C117 | DataTransfer.req of charge_point_impl.cpp (1.6), both ways, registration of callbacks | the callback meant is told from the history; all cases |
| C118 | certificate requests inside and outside DataTransfer (1.6) | what the store is asked for and what is told are relations over request and oracle |
| C119 | Reset.req with its thread, RemoteStopTransaction.req, UnlockConnector.req (1.6) | history, invariant over thread and connectors |
| C120 | costs and meter value triggers of California pricing (1.6) | what is wanted is told by relations over the history; invariant per connector |
| C121 | SetUserPrice and the authorizations that wait for it, as threads with their mutex (1.6) | phases and offers are told from the log; invariant over all interleavings |
| C122 | A log file in its directory: opening, writing, rotation, closing | the parts of the log as a list told from the history; invariant that the files hold its beginning, sorting proved unique |
| C123 | Lines of messages in the logs of the station and its sessions, rows of the HTML log | expected lines told from the history; induction over it |
| C124 | SecurityProfile changes: callback, timer and websocket as a transition system (1.6) | seven phases as an invariant, indexed by the profile of the last connection |
| C125 | allowed energy transfer, charging needs, outgoing DataTransfer (2.x) as functions | case analysis against a relation for the EVSE of a transaction and substring search |
| C126 | variables and the settings that follow them (2.x) as a transition system | invariant per setting, from one lemma about handling a result map |
| C127 | functions given to a 2.x station, their check, the blocks created and the places of call | case analysis over actions against separate lists of what is needed and what is to be called |
| C128 | SafeQueue with condition variable, the deferred callback thread and the destructor, step by step | invariant over all interleavings, progress by running the thread to its end |
| C129 | poll_message, on_conn_writable and the queue between them, step by step | invariant over all interleavings, with sorted message numbers |
| C130 | the conversions of evse_security_impl.cpp and evse_security.cpp with the handlers over them | case analysis of each conversion, induction over the lists |
| C131 | receiving over the websocket: pieces, buffer, queue and receiving thread | the pushed messages as a function of the client thread's steps; induction over interleavings and pieces |

## Trusted base

* Coq's kernel (8.16.1) and the standard library; `Print Assumptions` under each property theorem is expected to say
  "Closed under the global context".
* The reading of the C++ source: the code is not executed here. Concurrency is modelled at the granularity of the
  critical sections (mutex-protected blocks); time, randomness, the websocket and the CSMS are inputs of the model.
* SQLite is modelled as tables with the statements' documented effect.
* A checker run over all compiled files (coqchk) also names constants of the standard library's `Coq.ssr.ssrunder`, which are sealed
  by a module type there; no theorem here depends on them.

## Findings

Concrete runs of the model that violate the intuitive property; each is a theorem `..._refuted`.

Message queue (`include/ocpp/common/message_queue.hpp`):

* `at_most_one_outstanding_racy_refuted`, `late_timer_null_dereference_refuted` – the time-out callback and the CALLERROR
  path take the mutex in several steps; when the answer arrives in between, the time-out is applied to the next CALL (two
  unanswered CALLs) or to a null `in_flight`.
* `failed_send_drops_other_refuted`, `promise_set_twice_refuted` – after a refused transmission the code removes the
  *front* of the normal queue instead of the message that was selected; a waiting BootNotification is dropped, and the
  message that failed stays queued with its promise already set (std::future_error when it is answered).
* `given_up_early_refuted` – hand-overs refused by the socket count as attempts.
* `stranded_retry_refuted` – one `notify_queue_timer` serves all retries; a second failure re-arms it and the first retry
  is not woken for.
* `async_transactional_discarded_refuted` – `dispatch_call_async` drops transactional messages before acceptance.
* `withdrawn_registration_refuted` – the queue is never told that the registration was withdrawn.
* `unsolicited_result_ends_wait_refuted` – any CALLRESULT, even one that answers nothing, clears `next_message_to_send`;
  a request then overtakes the reply the station owes.
* `meter_values_lose_id_on_retry_refuted` – MeterValues are registered under the message id of the StartTransaction; when
  the latter is retried under a new id, `notify_start_transaction_handled` no longer finds them and they are sent without
  transactionId.
* `stop_transaction_loses_id_on_restart_refuted` – the ids announced by `add_stopped_transaction_id` are only in memory.

OCPP 1.6 connector states (`lib/ocpp/v16/charge_point_state_machine.cpp`):

* `connector_zero_refuted` – the reduced table for connector 0 is never used, so connector 0 can become Preparing.
* `cleared_fault_still_reported_refuted` – clearing one of two faults sends nothing; the error code last reported may
  belong to an error that is gone.

OCPP 1.6 smart charging (`lib/ocpp/v16/profile.cpp`, `smart_charging.cpp`, `charge_point_impl.cpp`):

* `first_period_ignored_refuted` – the order of the periods is not validated; a first period that does not start at 0
  is accepted and never used.
* `valid_to_wraps_refuted` – `clamp_to` clamps only upwards, a validTo more than 2^31 s before the schedule start wraps
  and the profile is used after its validity.
* `clear_nothing_succeeds_refuted`, `clear_connector_zero_refuted` – ClearChargingProfile without criteria is always
  Accepted; with connectorId 0 it does not find the TxDefaultProfiles set for connector 0.
* `remote_start_duplicate_id_refuted` – the profile of a RemoteStartTransaction does not replace one with the same id.
* `replacement_at_limit_refuted` – the limit on installed profiles is checked before the replaced profile is removed; a
  TxDefaultProfile for connector 0 is counted once per connector.
* `default_profile_lost_refuted` – the database keeps one profile per (purpose, stack level), whatever the connector;
  with TxDefaultProfiles of one level on two connectors the first is lost with the next restart.
* `station_default_profile_lost_refuted` – clearing a connector-0 TxDefaultProfile on one connector deletes its row, the
  other connectors lose it with the next restart.
* Not theorems: `periodTransformed` may be stale (neighbouring periods are merged without looking at it); recurring
  profiles are in force before their startSchedule; a limit of FLT_MAX counts as none; `update_itt` is dead code; an idle
  connector contributes the default limit to the station-wide sum; a negative ChargingScheduleMaxPeriods becomes huge.

OCPP 2.x availability and connector status (`lib/ocpp/v2/component_state_manager.cpp`):

* `evse_change_announced_refuted` – `set_evse_individual_operational_status` writes the row twice, the second time outside
  of the try block; if that insertion fails the EVSE is changed but the callback is not called.
* `unplug_while_reserved_reported_refuted` – no notification is sent when a reserved connector is unplugged, so the CSMS
  keeps seeing Occupied if the reservation was made while the vehicle was connected.
* `effective_status_of_inoperative_connector_refuted` – `get_connector_effective_status` does not look at the connector's
  own operational status.
* Not theorems: StatusNotifications carry the connector's flags only, a connector below an inoperative EVSE is reported as
  Available unless the Unavailable event is submitted as well; the flags are lost with a restart.

Strings (`include/ocpp/common/string.hpp`, `cistring.hpp`, `lib/ocpp/common/utils.cpp`; the classic locale and a signed
`char` are assumed):

* `ci_inequality_refuted` – `CiString` overloads `==` but inherits `!=`, so two ids can be both equal and unequal.
* `ci_order_respects_equality_refuted` – `<` is case sensitive, a `std::set<CiString>` keeps ids that are equal.
* `ci_string_printable_refuted` – `is_valid` (printable characters only) is never called.
* `split_joined_refuted` – a trailing empty field is lost.
* `trim_blank_refuted` – a string of blanks is not trimmed.
* `is_integer_refuted`, `is_decimal_refuted` – a bare sign or "." counts as a number; `is_positive_integer` throws for a
  bare sign and for values out of the range of int.

Websocket (`lib/ocpp/common/websocket`):

* `backoff_overflow_refuted` – the back-off in milliseconds overflows an int when RetryBackOffRepeatTimes is large.
* `negative_repeat_no_delay_refuted` – a negative RetryBackOffRepeatTimes gives reconnects without delay.
* `stale_ping_closes_new_connection_refuted` – the pending ping of a lost connection is not forgotten; the next connection
  is closed for a missing pong.
* `ping_interval_while_down_refuted` – changing the ping interval while disconnected starts the supervision, attempts to
  connect are closed.

JSON (`JsonModel.v`): nlohmann::json is modelled after its documentation: compact dump with sorted keys, parsing of what
RFC 8259 allows. Simplified: valid UTF-8 is assumed, `\uXXXX` escapes from 0x80 on are not decoded, floats are kept as
their text.

Frames and reports (`call_types.hpp`, `notify_report_requests_splitter.cpp`):

* `from_json_checks_kind_refuted` – `from_json` of Call/CallResult/CallError does not check the message type id.
* `split_size_refuted` – the size of a part is computed with seqNo 0; the last part of ten or more may exceed the maximum.
* `split_custom_data_lost_refuted` – customData of a NotifyReport is dropped when the report is split (not used so far).

OCPP 2.x authorization (`lib/ocpp/v2/functional_blocks/authorization.cpp`, `lib/ocpp/v2/database_handler.cpp`):

* `offline_attempt_keeps_cache_refuted`, `timeout_keeps_cache_refuted` – when the CSMS cannot be reached or does not answer,
  `authorize_req` returns Unknown and that is written to the cache over an accepted entry.
* `blocked_not_accepted_offline_refuted` – with OfflineTxForUnknownIdEnabled a token known to be blocked is accepted offline.
* `disable_remote_refuted` – contracts are sent to the CSMS even if DisableRemoteAuthorization is set.
* `tokens_apart_refuted`, `lookup_ignores_case_refuted` – the row is found by hash(type + id) without a separator and case
  sensitively, although ids are CiStrings; `standard_tokens_apart` shows that the types OCPP 2.0.1 names do not collide.
* `central_not_cached_refuted` – `!=` on CiString is case sensitive: a token of type "central" is cached.
* `failed_update_keeps_list_refuted`, `failed_version_keeps_list_refuted`, `update_is_answered_refuted` – list updates are
  not transactional; after a database error Failed is answered although the list was changed or emptied.

OCPP 2.x device model (`lib/ocpp/v2/device_model.cpp`, `device_model_storage_sqlite.cpp`, `functional_blocks/provisioning.cpp`):

* `set_variables_two_attributes_refuted`, `set_variables_wrong_change_refuted` – the results of SetVariables are kept in a map
  keyed by component and variable: Actual and Target of one variable yield one result, and of two settings of one variable
  the last status is paired with the first value, which is then handed on as "changed".
* `integer_below_minimum_refuted`, `integer_negative_limits_refuted`, `fractional_limit_refuted` – integers are compared
  with the limits as `size_t`: −5 passes minLimit 0 when there is no maxLimit, −5 is rejected for [−10, 10], and maxLimit
  2.5 admits 3.
* `custom_report_reveals_refuted`, `summary_reveals_refuted` – only the full and configuration inventories withhold the
  values of write-only attributes.
* `integer_thresholds_rejected_refuted` – the monitor value is validated as `std::to_string(float)`, which never is an
  integer: no threshold or delta monitor can be set on an integer variable.
* `monitor_id_moves_refuted`, `hard_wired_monitor_removable_refuted`, `duplicate_with_id_refuted` – SetVariableMonitoring
  with an id checks only that the id exists somewhere: it can move a monitor to another variable (memory then holds it
  twice), overwrite a built-in monitor as a custom one, and create duplicates.
* `failed_clear_forgets_refuted` – `clear_custom_monitors` clears memory even if the database failed.
* `reference_of_threshold_refuted` – `a || b || c && delta` in `update_monitor_reference`: the test for a delta monitor only
  applies to sequence lists.

Connectivity manager (`lib/ocpp/v2/connectivity_manager.cpp`); an exception ends the run of the model, as it would end the
thread it is thrown in:

* `confirm_keeps_running_refuted` – when a confirmation raises the level, the slots below it are erased but
  `active_network_configuration_priority` is not adjusted. Connected through the second of two slots (levels 1 and 2), the
  first disconnect after the accepted BootNotification throws `out_of_range`.
* `confirmed_level_is_used_refuted` – with three slots the stale index names another slot: a second confirmation on the same
  connection (a triggered BootNotification) records the level of a profile that was never tried and deletes the one in use.
* `duplicate_slot_refuted` – with priorities "1,1,2" slot 2 is never tried.
* `slot_without_profile_refuted` – a slot without a (permitted) profile is not skipped: as the first one it keeps the station
  from connecting, later `get_ws_connection_options` throws before the "not configured" branch is reached.
* `priority_text_refuted` – "02" is parsed as slot 2 but removed from the stored priorities, which compare texts.
* `priority_out_of_range_refuted` – `validate_set_variable` catches `invalid_argument` but not the `out_of_range` that
  `std::stoi` throws for long numbers; nothing in `ChargePoint::message_callback` does.

OCPP 2.x transactions and resets (`lib/ocpp/v2/transaction.cpp`, `evse.cpp`, `functional_blocks/transaction.cpp`,
`functional_blocks/provisioning.cpp`). The model lets the process die before any durable effect and any SQL statement fail:

* `event_numbers_gap_refuted` – the next sequence number is written before the message is handed to the dispatcher; dying in
  between leaves a gap. `event_numbers_repeat_refuted` – a failing write is only logged; after a restart the number is used
  again.
* `ended_once_refuted` – the row of a transaction is deleted after Ended was sent, and not at all if deleting its meter
  values fails: after a restart the ended transaction is resumed, and ends a second time.
* `idle_evse_reset_forgotten_refuted` – OnIdle reset of an EVSE without transaction while another EVSE has one: answered
  Scheduled, never done (it would need a transaction on that EVSE to end).
* `station_reset_lost_refuted` – one flag `reset_scheduled` serves both kinds: when the last scheduled EVSE reset is done the
  flag is cleared, and the reset of the station with it.
* `reset_of_idle_evse_stops_others_refuted` – the list of transactions to stop is only narrowed to the EVSE if that EVSE has
  a transaction; otherwise the transactions of all others are stopped.

ChangeAvailability (`functional_blocks/availability.cpp`, `firmware_update.cpp`), in the same model:

* `station_operative_never_refuted` – making the whole station operative while a transaction runs is answered Accepted, but
  line 141 executes only when no transaction is active and nothing is scheduled: it never happens.
* `operative_makes_inoperative_refuted` – a scheduled request makes the unused connectors (or EVSEs) inoperative whatever
  status it asks for, and they stay so (the FIXME at lines 151 and 162).
* `other_connector_replaces_refuted` – scheduled requests are kept per EVSE id; one for connector 2 replaces one for
  connector 1 that was answered Scheduled.
* `scheduled_lost_by_restart_refuted` – scheduled requests live in memory only. `accepted_not_stored_refuted` – an accepted
  request for the status a component has temporarily is not written to the database.
* `unknown_component_unanswered_refuted`, `evse_zero_unanswered_refuted` – connectorId 0 and evse id 0 pass `is_valid_evse` and end in an exception instead of
  an answer.
* `evse_stays_inoperative_refuted` – a firmware update waiting for a transaction makes the EVSE inoperative, but
  `restore_all_connector_states` restores connectors only.

Contents of the messages (C61; specification `TxSpec2.v`: what each call says, as a function of what is running and waiting):

* `charging_state_after_restart_refuted` – `on_charging_state_changed` does not write the charging state to TRANSACTIONS
  (`EnhancedTransaction::update_charging_state` has no caller), so a resumed transaction reports the state it started with.
* `started_not_sent_refuted` – when the row cannot be inserted, `open_transaction` throws with the transaction already in
  place: it runs and sends Updated and Ended, Started is never sent.
* The remote start id of a waiting remote start is put into the first message only; the transaction does not keep it.

Variable monitoring (`lib/ocpp/v2/monitoring_updater.cpp`; model `MonModel.v`, specification `MonSpec.v`: the life of one
monitor, `MonSpec2.v`: what the CSMS learns of a threshold while online):

* `triggered_pass_hangs_refuted`, `triggered_pass_ends_partial` – `process_monitors_internal(false, true)` does `continue`
  without `++it` at a periodic entry (line 610): as soon as a periodic monitor is known, every SetVariables request (which
  ends in `process_triggered_monitors`) never returns.
* `timer_pass_hangs_refuted`, `timer_pass_ends_partial` – the same at line 643 for a periodic monitor that the monitoring
  base or level excludes: the timer thread spins for ever.
* `aligned_zero_refuted` – SetVariableMonitoring accepts any value for periodic monitors; a clock-aligned one below one second
  divides by zero and converts NaN. `periodic_to_threshold_refuted` – setting a threshold under the id of a periodic monitor
  makes `evaluate_monitor` read flags that were never initialised (and possibly throw `runtime_error`).
* `cleared_without_alarm_refuted` – an alarm that comes and goes between passes is reported as cleared only.
* `offline_alarm_lost_refuted` – an alarm queued while offline is dropped when the value returns to normal before the station
  is online again, although its severity is to be queued.
* `alarm_never_cleared_refuted` – an entry excluded in one pass (offline with a severity not queued, base or level changed) is
  erased, with it the knowledge that the CSMS was told: the return to normal is never reported.
* `delta_reported_again_refuted` – the reference of a numeric delta monitor is never moved (only that of the other types is).
* `aligned_twice_refuted` – the next aligned point is rounded up from truncated seconds: a second pass within that second
  reports again.
* By reading: periodic entries set `is_writeonly = 0` (line 397) and `get_value` allows write-only variables, so a periodic monitor on,
  say, BasicAuthPassword sends the password. The updater is not told of ClearVariableMonitoring: reports waiting of a
  removed threshold monitor are still sent.
* `_partial`: the theorems are about histories in which every call returns (no exception out of a pass); the exception cases
  are modelled, and `event_ids_distinct` covers them.

OCPP 2.x charging profiles (`lib/ocpp/v2/functional_blocks/smart_charging.cpp`, the profile table, boot and remote start; model
`Sc2Model.v`, specification `Sc2Spec.v`: one proposition per reason for refusing a profile, what is stored, cleared, reported):

* `accepted_profile_in_use_refuted` – `validate_profile_schedules` checks numberPhases against SupplyPhases and fills in 3 when it is
  absent. On a single-phase AC station a profile without numberPhases is accepted, stored with three phases, and from
  then on fails its own validation: it never limits anything and is deleted at the next start.
* `profile_switched_off_refuted` – an accepted profile of another purpose that carries a transactionId makes the TxProfile of that
  transaction and stack level invalid (the check selects by TRANSACTION_ID only).
* `remote_start_profile_used_refuted` – a TxProfile from RequestStartTransaction is stored without a transaction id, which nothing
  fills in: it never passes the validation before use, so it never limits its transaction, and it is not deleted when the
  transaction ends (only at the next start).
* `remote_start_invalid_profile_refuted`, `remote_start_other_purpose_refuted`, `remote_start_refused_stores_refuted` – an invalid profile does
  not make the start fail (F01.FR.26); one of another purpose is ignored; a valid one is stored even when the start is refused.
* `profile_rate_limit_refused_requests_refuted` – requests refused for coming too soon restart the period.
* `one_tx_profile_per_level_refuted` – RequestStartTransaction skips the stack level check.
* `in_use_requires` – a stored ChargingStationExternalConstraints profile finds itself as a conflict, so it can never be used; it is also
  deleted at every start. No request stores one (`stored_profiles_conflict_free`).
* `clear_spares_external_refuted`, `clear_empty_store_accepted_refuted` – clearing by id or without any criterion also clears external
  constraints; clearing everything is Accepted with nothing stored.
* `profiles_reported_once_refuted` – `CiString` sets are ordered by spelling but compared without case.

### OCPP 2.x composite schedules (C47)

`Sc2Spec2.v` says what a composite schedule has to say: per EVSE the strictest of what the deciding
TxProfile or TxDefaultProfile demands and what the deciding ChargingStationMaxProfile allows; for the
station the sum of what the EVSEs demand within that maximum.  Proved for every second of the window,
for all stored profiles, both protocol versions, any rounding of float operations (`arith` is a
parameter) and any sorting algorithm (`sorts`).  Conditions: values are multiples of 2^-52 below 2^127,
limits not negative, discharge limits negative (`sane`); dividing powers by 2 or 3 stays within that
(`shareable`, OCPP 2.1 only); for the station also the sums (`addable`).  `decision_unique`: among the
stored profiles the deciding one is unique.

Findings:
- The periods of a schedule are merged when L1, the number of phases and the first setpoint and
  discharge limit agree: changes of L2 and L3 are lost (`composite_other_phases_refuted`).
- Discharging setpoints for L2 and L3 are dropped (`composite_discharging_setpoints_refuted`).
- A discharge limit of 0 is dropped (`composite_zero_discharge_refuted`).
- A TxProfile in mode Idle does not override the TxDefaultProfile (`composite_idle_refuted`).
- The station's schedule loses the setpoints and discharge limits of the EVSEs
  (`composite_station_setpoints_refuted`).
- Only the first schedule of a profile is used, also after it ended (`composite_second_schedule_refuted`).
- External constraints never take part: their validation always fails (`in_use_requires`); priority
  charging and local generation profiles are stored but never used (the rules do not mention them).

### Enumerations (C40)

`tools/gen_enums.py` reads, for each of the 173 enumerations with conversions in both directions, the enumerators from the
header, the cases of `..._to_string` and the comparisons of `string_to_...` from the source, independently of each other
(`EnumTables.v`, one definition per enumeration with the lines it comes from). A value is identified by its enumerator; that
`switch` selects the case with the same enumerator is part of the reading. Not covered: `string_to_bool` (everything but
"true" is false), `queue_type_to_string`, `generate_certificate_signing_request_status_to_string` and
`string_to_variable_monitor_type`, which exist in one direction only.

- OCPP 1.6 `MessageType::InternalError` is written as "InternalError" but `string_to_messagetype` refuses that string
  (`enum_round_trip_refuted`). OCPP 2.x reads it.

### Address and credentials of the central system (C41, C66)

Modelled in `UriModel.v`: base64 encoding and decoding, the Authorization header and when it is sent, the constructor of
the third-party class `uri`, std::stoul on a port, `Uri::parse_and_validate` and `Uri::string`. Text is a list of bytes.
Not modelled: the libwebsockets calls the result is handed to, the setters of `Uri`.

Findings:

- `path_split_last_segment` mishandles a trailing slash: it moves to the character before the slash instead of to the
  slash before it. `ws://host/ocpp/CP1/` with identity `CP1` therefore connects to `/ocpp/CP1/CP1`
  (`identity_once_refuted`, `address_with_slash` for all such addresses). C66 is partial for this reason:
  `address_understood_partial` excludes addresses that end in the identity and a slash.
- An identity that contains a colon produces the header of another identity and key (`header_collision_refuted`); RFC 7617
  forbids such user names, the code does not check. C41 is partial for this reason.
- An unknown security profile is refused only when the address has a scheme (`unknown_profile_refuted`): with profile -1 and
  no scheme the connection is made without TLS.
- Text after the digits of a port is ignored, so `:80abc` is port 80 (`port_is_a_number_refuted`); an empty host is accepted
  (`host_is_given_refuted`).
- A port of more than 19 digits raises std::out_of_range where the documentation names std::invalid_argument
  (`only_invalid_argument_refuted`). `ConnectivityManager::get_ws_connection_options` catches only the latter.
- `Uri::string` writes an IPv6 host without brackets (`written_ipv6_refuted`); it is used for log messages only.

### Meter values (C44, C45, C46, C67, C68, C69)

`MvModel.v`: filtering (v2/utils.cpp), AverageMeterValues, align_timestamp, get_next_timepoint, the two meter value tables
with the statements of database_handler.cpp. `MvEvse.v`: one EVSE as a state machine over meter values, the start and end of
transactions, the four kinds of timer, authorization results and pricing triggers; the device model is read at each call
(`config`), other EVSEs write to the same tables (`OtherInsert`, `OtherClear`). Values are exact rationals; timers are
events of the environment; the power meter callback and the message dispatcher are outputs.

`reports_follow_history`: every execution is explained by a `history` of the specification: what has been measured since
the last report of each kind, what was written, and for each call exactly what it must say.

Findings:

- Prepared statements keep the location, unit and multiplier of the previous sampled value when the next has none
  (`stored_location_refuted`).
- Custom data of a sampled value are written, but read from a column the other statement does not have, which is undefined
  (`stored_sample_custom_refuted`); custom data of a meter value are not written (`stored_custom_refuted`).
- A signed value without a public key is lost (`stored_signed_refuted`).
- A value with the millisecond and context of a stored one is dropped (`stored_all_refuted`). A failed insertion leaves a
  meter value without samples, which then blocks that millisecond (`failed_insertion_refuted`).
- Averages ignore unit and multiplier (`average_units_refuted`); measurands that are missing from the latest value are not
  reported at all (`report` in `MvSpec.v`).
- A register in a unit other than Wh and kWh makes `open_transaction` throw after the transaction has been set: the EVSE has a
  transaction for which no Started event was sent (`NStartUnit` in `MvSpec2.v`).
- With AlignedDataSendDuringIdle, values collected during a transaction stay in the average of the next idle report.
- Odd intervals are not rounded to the nearest point (`timestamp_nearest_refuted`), an interval of 0 divides by zero
  (`timestamp_zero_refuted`). Timers count from the midnight of the day they were set, alignment from today's: for intervals
  that do not divide a day the two differ (`timer_grid_refuted`).
- The pause comes at half a Wh below the limit (`pause_threshold`).
- A time trigger is not cancelled by new triggers without a time (`time_trigger_replaced_refuted`); a power that equals the
  trigger disables it (`power_at_trigger_refuted`); new triggers compare with the power reported under the old ones.

### Times (C70)

- Modelled: `DateTimeImpl::to_rfc3339` and `from_rfc3339` (lib/ocpp/common/types.cpp 31-51) in DtModel.v. Both call the
  library date (Howard Hinnant's date.h), which is not in /repo. The model follows its documented formats `%FT%TZ`, `%Ez`
  and its published calendar algorithms. This is part of the trusted base.
- Left out: leap seconds (utc_clock counts them, both directions apply the same table) and rounding of fractions with more
  than nine digits.
- DtSpec.v counts days from 1970-01-01 by the rules of the Gregorian calendar and gives RFC 3339 texts their meaning.
- The calendar of an era of 400 years is proved by arithmetic (DtCalendar.v) and extended to all years by periodicity.
- Finding (C70_only_times_are_accepted_refuted): `from_rfc3339` accepts "2020-01-01T00:00:00 nonsense", because the
  third format has no zone and the rest of the stream is not looked at.

### Messages and data types as JSON (C71, C72)

- Modelled: every to_json and from_json of lib/ocpp/{v16,v2}/ocpp_types.cpp and lib/ocpp/{v16,v2}/messages/*.cpp. The
  functions consist of a few kinds of statements. `tools/gen_messages.py` reads the members of each struct from its header and the
  statements of its two functions from the .cpp file, and stops at anything it does not know. SerTables.v is its output.
  SerModel.v gives the statements their meaning (nlohmann::json: `at`, `contains`, `operator[]`, initializer lists, implicit
  conversions).
- SerSpec.v says what the JSON form of a value is from the declarations only. The proofs are by induction over types, given a
  check of every table entry that is computed (`all_sound`).
- Oracle: arithmetic on floats (`floats`). A float value is the token nlohmann::json writes for it; NaN and infinities are excluded.
- Left out: UTF-8 (strings are bytes; dump throws on invalid UTF-8 in the code), conversions of lib/ocpp/common/types.cpp.
- Finding (only_proper_forms_are_accepted_refuted): `std::int32_t` members take any number: 4294967297 becomes 1, true becomes 1.
- Finding (only_objects_are_accepted_refuted): an array, string or number is accepted where no member is required.
- Finding: `CiString::is_valid` is never called (String::is_valid is not virtual), so CiString accepts any bytes.

### Configuration of OCPP 1.6 (C73-C79)

- Modelled: `ChargePointConfiguration` (lib/ocpp/v16/charge_point_configuration.cpp): the constructor, `get`, `set`,
  `get_all_key_value` with the getters and setters they call, setInUserConfig; `set_configuration_key_internal`,
  `get_configuration_key` and the handlers around them in charge_point_impl.cpp with the exceptions a handler answers.
- `tools/gen_config.py` writes CfgSchema.v from config/v16/profile_schemas/*.json, CfgTables.v from the comparisons of `get` and
  `set`, CfgExample.v from an example configuration. It stops at anything it does not know. CfgSchemaLang.v is the part of JSON schema
  the files use. CfgModel.v gives the kinds of getters and setters their meaning.
- Parameters: Custom.json and its validator, std::stof, whether the file can be written, the clock, installed certificates.
- Left out: merging of the user configuration and default values (done before the constructor; `complete` says what it gives),
  effects on timers, websocket and queue (listed as effects, they do not throw).
- `ordinary` excludes texts of prices per language, keys of the section Custom and SecurityProfile from C73's first theorem.
  They are included in the theorems about answers and about everything else being unchanged.
- C74 is partial: it holds exactly if the schema takes the value, which is always so for switches, numbers and texts without
  bounds. Findings (C74_every_accepted_value_survives_restart_refuted): after an accepted value the next start fails for
  - AuthorizationKey in hexadecimal with 8 to 14 digits (decoded to fewer than the 8 characters the schema asks for),
  - TimeOffset with more than 10 characters, TimeOffsetNextTransition with more than 40,
  - an empty ConnectorEvseIds, an empty CentralSystemURI (if it is writable),
  - DefaultPrice with any JSON, DefaultPriceText with a priceText that is no text,
  - SeccLeafSubjectCountry and SeccLeafSubjectCommonName: setters count bytes, the schema counts characters.
- Findings (C75): RetryBackoffRandomRange, RetryBackoffRepeatTimes and RetryBackoffWaitMinimum are reported as writable but
  always refused (writable_keys_can_be_changed_refuted). "authorizationkey" in another case ends in bad_optional_access and a
  CALLERROR (keys_are_case_insensitive_refuted). A value of more than 500 characters is accepted and makes every
  GetConfiguration for all keys fail (Example long_value).
- Findings (C73, from `acceptable`): eight switches take any text as false (`lenient`). In ConnectorPhaseRotation the second
  character is not checked and connectors from 10 on cannot be given. AuthorizationKey can be set, but is reported as unknown.
- Findings (C76_bad_profiles_are_refused_refuted): a SecurityProfile beyond int is answered by a CALLERROR; "3abc" is taken as 3.
- Language and VerifyCsmsAllowWildcards have a setter that is never reached, as they are reported as read-only.
- `ordinary` keys are joined by C73_custom_values_are_stored (section Custom), C78 (price texts) and C76 (SecurityProfile). A key of
  the section Custom that begins with DefaultPriceText is taken for a price text; a configuration whose Custom section repeats a key
  of the catalogue is excluded by `no_shadow`.
- JsonPretty.v proves that what json::dump(2) writes is parsed again to the same value, for every value json::parse gives.
- C77 speaks about the effects that carry a configured value (`carries`). OcspRequestInterval is stated by itself, as it is handed over
  only while certificates are managed.
- Finding (C77_every_accepted_change_is_reported_refuted): callbacks are looked up by the key as it is spelled in the request, while
  the change itself ignores case. "heartbeatinterval" is accepted and stored, and the callback for HeartbeatInterval is not called.
- Finding (C78_every_price_text_gets_a_status_refuted): DefaultPriceText with a text that is not JSON ends in an exception and a
  CALLERROR FormationViolation.
- Finding: LocalAuthListEnabled can be set while the section LocalAuthListManagement is missing; the section is then created with this
  key alone, and the next start fails on the missing required keys.

### Certificates of OCPP 2.x (C84, C85)

- Modelled: lib/ocpp/v2/functional_blocks/security.cpp without on_get_15118_ev_certificate_request, and the conversions of
  evse_security.cpp it uses. What the certificate store answers is part of the call; what it is asked is output.
- The timer of a request is the time it was set to. That it runs off is a call (`Fires`), as is the expiration check (`Expiry`).
- Finding (C84_lost_answers_are_recovered_refuted): after a SignCertificate.req that is answered by a CALLERROR or not at all, no
  further request is made until a CertificateSigned.req arrives. The same holds after an accepted one if CertSigningWaitMinimum or
  CertSigningRepeatTimes is not configured (C84_accepted_without_timer_is_recovered_refuted), and after `stop()`.
- Finding (C84_process_survives_refuted): the callback of the timer calls `awaited_certificate_signing_use_enum.value()`. If a
  certificate overtakes the answer to its request, the optional can be empty; the exception ends the process.
- Finding (C84_fresh_requests_are_repeated_in_full_refuted): `csr_attempt` goes on counting when no key could be generated in a repetition.
- Finding (C84_each_use_is_awaited_refuted): a certificate of one use ends the wait for the certificate of the other.
- Finding (C85_events_name_the_certificate_refuted): a V2G certificate the store refuses is reported as
  InvalidChargingStationCertificate.
- V2G20Certificate is treated as V2GCertificate throughout.

### Firmware updates of OCPP 2.x (C86)

- Modelled: all of lib/ocpp/v2/functional_blocks/firmware_update.cpp, on TxModel (transactions, availability, database). The
  certificate check and the answer of the callback are part of the call. No SQL statement fails and no crash happens inside the
  functions of this block; both may happen in all other calls.
- Finding (C86_rejected_request_is_harmless_refuted): `firmware_status_before_installing` is set before the request is judged. A rejected
  request for unsigned firmware makes a signed update that is running skip the step that takes connectors out of service.
- Finding (C86_failed_update_leaves_evses_alone_refuted): what was scheduled for a charging EVSE is not taken back when the update
  fails; the EVSE becomes inoperative when its transaction ends and nothing restores it, as only connectors are restored
  (compare evse_stays_inoperative_refuted).

### Remote control and reservations of OCPP 2.x (C80–C83)

- Modelled: all of remote_transaction_control.cpp and reservation.cpp (without on_reservation_status), the parts of charge_point.cpp that
  decide by the registration status, `does_connector_exist`. What the application and smart charging answer is part of the call. The
  meter value of a triggered TransactionEvent is left out. No SQL statement fails and no crash happens during the functions of this
  block; both may happen in all other calls.
- Finding (C80_bad_profile_is_rejected_refuted): a request whose TxProfile is invalid is accepted and started (F01.FR.26 asks for Rejected);
  only the status info tells. The profile is handed to smart charging even if the request is rejected.
- Finding (C80_rejected_start_leaves_nothing_refuted): the remote start id is stored before the application is asked and is not taken back
  if it refuses; a later local start with that token is reported as RemoteStart with that id.
- Finding (C80_inoperative_connectors_cannot_start_refuted): `get_connector_effective_status` does not look at the operational status of the
  connector, so that connectors made inoperative by ChangeAvailability count as available until the application reports them unavailable.
- Finding (C80_start_is_answered_refuted): the reference to smart charging is formed by dereferencing a null pointer if SmartChargingCtrlr is
  not available; if it is enabled nevertheless, a request with a TxProfile calls through it.
- Finding (C81_only_connectors_are_unlocked_refuted): connector 0 counts as valid and reaches the application; for EVSE 0 `get_evse` throws
  and the request is answered with a CALLERROR instead of UnknownConnector.
- Finding (C82_accepted_is_sent_refuted): a trigger for a SignCertificate is accepted though nothing is sent, if an earlier one is not
  answered yet or a name is not configured. C82_sign_certificate_partial therefore says "at most one".

### Initialisation of the device model database of OCPP 2.x (C87–C90)

- Modelled: all of lib/ocpp/v2/init_device_model_db.cpp that changes or reads the database, the choice among configuration files, the
  check of the data types, and the statements of device_model_storage_sqlite.cpp that write values and monitors. The configuration is
  given as parsed. No SQL statement fails; the process can die between two statements of the phase that removes components and
  during the transaction that inserts the rest.
- `good_config` excludes what the findings below are about: empty instances, components without variables, variables without
  attributes, configured custom monitors, delta monitors without a reference value, values of more than 2500 characters.
- Finding (C87_values_survive_with_empty_instances_refuted): an empty instance is stored as NULL and read as none; the component is
  removed and inserted again at every start, with all values set by the CSMS lost.
- Finding (C87_kept_values_are_of_the_type_refuted): if the data type of a variable changes, a value set by the CSMS stays though it is
  not of the new type.
- Findings of C88 (each with a witness): a changed source alone is not applied; values, units and lists are compared without regard to
  case, so that a changed case is not applied; a default that is removed stays; a default that is added is not applied to an attribute
  that has no value; persistence and constness are ignored when an attribute is inserted and applied at a later start; components
  without variables and variables without attributes are inserted again at every start.
- Finding (C89_failed_start_changes_nothing_refuted): components are removed outside the transaction of the insertion. If the insertion
  fails, they are gone.
- Finding (C89_starts_succeed_with_long_defaults_refuted): a default of more than 2500 characters is stored but cannot be read, so that
  no later start succeeds.
- Finding (C90_configured_custom_monitors_are_there_once_refuted): configured custom monitors are added again at every start.

### Transactions, availability and remote control of OCPP 1.6 (C91–C99)

- Modelled: the functions of v16/charge_point_impl.cpp that start, stop, resume and control transactions and change the availability of
  connectors, v16/transaction.cpp and the tables TRANSACTIONS and CONNECTORS. The queue is a list (C01–C10 are about the real one).
  Not modelled: the state machines of the connectors (other properties are about them), the authorization of tags, the contents of meter values,
  failing SQL statements, a change of NumberOfConnectors.
- `fine` says what the application does: a transaction is started on a connector only if none is running there, and no restart.
- Finding (C91_…_after_a_restart_refuted): a transaction stopped before its start was answered, and a restart: the stop is sent with the
  made-up id, and a second one with the right id and the reason PowerLoss follows.
- Finding (C92_meter_values_after_a_retry_refuted): the ids of waiting meter values are found by the message id of the start, which
  changes with a retry; they are then sent without a transaction.
- Finding (C92_meter_values_after_a_restart_refuted): a resumed transaction whose start is not answered uses the made-up id for its meter
  values, and has no timer for sampled ones.
- Finding (C94_power_loss_with_equal_ids_refuted): rows are acknowledged by the id of the CSMS, so that with equal ids (0 for rejected
  ones) the end of one transaction closes the other one too.
- Finding (C94_reason_is_kept_refuted): a stop that was given up is reported again at the next start, without its tag and as PowerLoss.
- Findings of C95: a scheduled change is not dropped when the opposite is requested and made at once; what a firmware update scheduled is
  stored by the next request; the answer to the stop of an earlier transaction makes the change while another transaction runs; the
  answer to a repeated stop does not make it, and the stopped transaction is never removed.
- Finding (C97_installed_ends_the_update_refuted): Installed does not reset the flag of the update; the end of the next transaction
  disables all connectors again, and Installed itself disables and enables them.
- Finding (C98_no_undefined_behaviour_refuted): a resumed transaction has no timer; a change of MeterValueSampleInterval dereferences it.
- Finding (C99_answers_concern_their_transaction_refuted): an answer that does not accept the tag of a transaction that is over pauses
  and stops the transaction that is now running on that connector.
- Finding (C99_stop_answers_update_the_cache_refuted): the transaction is looked up among the active ones when its end is answered, so
  that the idTagInfo of StopTransaction.conf is never cached.

### Authorization of OCPP 1.6 (C100–C103)

- Modelled: authorize_id_token, validate_against_cache_entries, data_transfer_pnc_authorize and the handlers of SendLocalList,
  GetLocalListVersion, ClearCache, ReserveNow and CancelReservation of v16/charge_point_impl.cpp, with the statements on AUTH_LIST,
  AUTH_LIST_VERSION and AUTH_CACHE. Configuration, connection, clock, failing queries and answers of the CSMS are arguments. Of tariff
  messages only the origin is modelled. Not modelled: the mutex of the user prices, which is held while Authorize.conf is waited for and
  also taken by the handler of SetUserPrice.
- Finding (C100_no_undefined_behaviour_refuted): the tariff message of a tag that is accepted locally dereferences the websocket, which is
  null before the first connection. The same in data_transfer_pnc_authorize (C102_no_undefined_behaviour_refuted).
- Finding (C100_failing_query_refuted): validate_against_cache_entries ends without a return value if the query fails.
- Finding (C100_tags_are_case_insensitive_refuted): the tables compare tags byte by byte; a blocked tag written in another case is
  unknown and may be accepted offline.
- Finding (C100_disabled_cache_is_not_filled_refuted): answers are cached though the cache is disabled, ClearCache is rejected then, and
  the entries are used when the cache is enabled.
- Findings (C101_interrupted_update_refuted, C101_interrupted_differential_refuted): the version is written before the entries and outside
  of a transaction; after a loss of power the new version is reported with entries missing, and sending the update again is refused.
- Finding (C101_greater_versions_are_accepted_refuted): an empty list is reported as version 0, but a differential update is compared with
  the version stored.

### Registration of OCPP 2.x (C104–C107)

- Modelled: start, stop, handle_message, message_callback and the websocket callbacks of v2/charge_point.cpp, boot_notification_req and
  handle_boot_notification_response of provisioning.cpp, the BootNotification part of handle_trigger_message, the life of the thread of
  OcspUpdater and, of the message queue, what becomes of BootNotification.reqs that fail. What a block does with a message (answers, is
  silent, throws) is an argument. Left out: writing HeartbeatInterval and the availability to the device model, logging.
- Finding (C104_results_unanswered_refuted): while Pending or Rejected a CALLRESULT or CALLERROR is answered with a CALLERROR
  "SecurityError", since the kind of the message is not looked at; a DeviceModelError during the handling of a CALLRESULT is answered too.
- Finding (C105_keeps_asking_refuted): with QueueAllMessages a BootNotification.req that fails MessageAttempts times is dropped by the
  queue, and nothing sends another one: the station is never registered.
- Finding (C105_heartbeat_refuted): accepted with the interval 0 the station sends no heartbeats (OCPP lets the station choose one).
- Finding (C106_goes_on_refuted): two BootNotification.reqs that are both accepted end the process, since OcspUpdater::start assigns to a
  thread that has not been joined. A CSMS gets there by answering Pending, triggering a BootNotification and accepting both that one and
  the one of the retry timer; so does a stop and start with an unanswered BootNotification.req.
- Finding (C107_statuses_refuted): with OfflineThreshold 0 the time of the disconnection is not remembered, so that after the
  reconnection neither changed statuses are sent nor the certificate checks resumed.

### Customer information, monitoring reports, display messages and costs of OCPP 2.x (C108–C111)

- Modelled: the functions of diagnostics.cpp, display_message.cpp and tariff_and_cost.cpp cited in BlkModel.v. The application, the
  device model, the database and the hash of a token are arguments. Not modelled: GetLog (passed on as it is), NotifyEvent, reading a
  RunningCost from custom data, the floating point conversion of costs.
- Finding (C109_report_refuted, C109_only_ten): the inner loop of notify_monitoring_report_req runs from i to 10 instead of from 0 to 10,
  so that every part after the first is empty: of a report with more than ten entries only ten reach the CSMS.
- Finding (C108_utf8_refuted): the text is cut after 512 bytes even within a character; the JSON library throws when such a part is
  written.
- Finding (C108_negative_maximum_refuted): the length is compared unsigned, a negative maximum does not limit anything.
- Findings (C110_round_trip_refuted, C110_get_refuted, C110_identifier_refuted): the display a message is meant for and its texts in other
  languages are dropped; one message of the application with a language of more than 8 or an identifier of more than 36 characters
  makes the request fail as a whole; the identifier of a message is told as a transaction whatever its type is.
- Findings (C111_message_shown_refuted, C111_meter_refuted): a personal message that comes without a total cost is not shown if costs
  are enabled; sampled values without a measurand (by default the energy register) are not seen; a register of 2^31 Wh or more is
  converted to an int32, which is undefined behaviour.
- Seen, not modelled: if SmartChargingCtrlr is not available, charge_point.cpp 606-631 dereferences the null pointer to the smart charging
  block to pass a reference to the transaction and remote control blocks.

### The updater of the OCSP cache (C112)

- Modelled: ocsp_updater.cpp completely, the callback that asks the CSMS, and the one thread that reads messages and calls the trigger.
  The clock, the certificates and the answers are arguments of the steps. Not modelled: an exception of update_ocsp_cache or
  get_v2g_ocsp_request_data, which would end the process like the ones modelled.
- Finding (C112_each_refuted): the results are stored only after all certificates have been answered. One certificate the CSMS rejects keeps
  the cache of all others from being updated, now and at each retry.
- Finding (C112_held, C112_used_refuted): the updater holds its mutex while it waits for GetCertificateStatus.conf, and the trigger after
  CertificateSigned.req is called by the thread that reads messages. If both meet, no message is read until the question has timed out, the
  answer that waits in the queue is not used and the update fails.
- Finding (C112_start): a second start without a stop assigns to a joinable std::thread, which terminates the process. start is called for
  each BootNotification.conf with Accepted (provisioning.cpp 208), so two of them, e.g. for a triggered and a timed BootNotification.req
  both waiting in the queue, are enough.
- Finding (C112_restart_refuted): after a stop and a start the old deadline is kept; the comment in start says it is in the past.
- Finding (C112_long_refuted): the strings from the certificate are put into strings of limited length; a responder URL of more than 2000
  characters throws in the updater thread, which terminates the process. So does an answer of the CSMS that cannot be read (C112_fails).

### Availability of connectors in OCPP 1.6 (C113, C114)

- Modelled: the functions of charge_point_impl.cpp cited in Av16Model.v. Which connectors are in use is an argument of each step, so the
  theorems hold for any behaviour of transactions and state machines. Not modelled: the state machines themselves (C01 ff.), failing
  database access, and the missing lock around the loop that writes the queue to the table (1772-1782).
- Finding (C113_last_refuted): a request that is accepted at once does not remove an older one from the queue. Inoperative is scheduled
  during a transaction, Operative is accepted after it has stopped; at the end of the session the connector becomes Inoperative, and
  remains so after a restart.
- Finding (C113_others_refuted): each request writes the whole queue to the table, also the entries of a firmware update that are
  marked not to be persisted. The connector stays unavailable after the update.
- Finding (C114_failed_refuted): when an update fails, the changes it has queued remain. A connector with a transaction becomes
  unavailable when its session ends, although the update has failed and the table says Operative.
- Finding (C114_installed_refuted): Installed does not reset firmware_update_is_pending. After an update without a reboot a
  TriggerMessage.req for FirmwareStatusNotification (or the next StopTransaction.conf) makes all connectors unavailable and tells the
  application so, which is its sign to install the firmware.
- Also seen (w_again_plain, w_again_signed in the specification): the states of the two kinds of update are kept apart but the flag is
  shared, so a trigger can make an update wait again that the failure of the other kind has ended.

### Registration in OCPP 1.6 (C115) and triggers (C116)

- Modelled: the functions cited in B16Model.v. The queue is only "held until accepted" or "free to be sent"; its order, retries and
  storage are C01 ff. The handlers that message_callback calls are an event, and whether they throw is an argument. Measurements are
  reduced to nothing, something, something with a configured measurand.
- Finding (C115_restarted_refuted): stop() and restart() leave connection_state Booted and registration_status Accepted, but create a new
  queue and stop all timers. The answer to the BootNotification.req of the restart is then ignored (handle_message does nothing for it),
  so heartbeats are not started again and set_registration_status_accepted is not called on the new queue: transaction messages
  loaded from the database wait until the process ends.
- Finding (C115_last_answer_refuted): for the same reason an answer of Pending or Rejected after a restart has no effect.
- Finding (C115_interval_refuted): the interval of a Pending or Rejected answer is stored as HeartbeatInterval (also in the user
  configuration) and is used if the accepting answer has the interval 0.
- Finding (C115_asks_again_refuted): if the answer to BootNotification.req cannot be parsed, no timer is set, and as the queue regards
  the request as answered, no further BootNotification.req is sent.
- Finding (C115_checks_refuted): a disconnection stops the timers of the OCSP and certificate checks, a reconnection does not set
  them again.
- Finding (C115_silent_refuted): unsupported and unreadable messages are answered with a CALLERROR even while rejected.
- Finding (C116_accepted_refuted, C116_all_refuted): see the names; TriggerMessage.req is accepted if something was measured, although
  none of it may be configured, and ExtendedTriggerMessage.req for meter values without a connector means connector 0 only.
- Also seen: diagnostic_status_notification sends as if asked for (4677-4683), so it is sent while the station is not accepted; [stopped]
  has no initial value, so stop() before start() reads an indeterminate value.

### DataTransfer (C117), certificates (C118), resets (C119) in OCPP 1.6

- Modelled: the functions cited in D16Model.v and R16Model.v. JSON inside DataTransfer is read by oracles, answers are structured.
  The certificate store is an oracle that may throw. The thread of a reset is a state, its condition variable is looked at by events.
  Not modelled: handleGetLogRequest and handleSignedUpdateFirmwareRequest (the firmware part is Av16), the locking of
  stop_transaction_mutex.
- Finding (C117_overruled_refuted): the answer of a registered callback that says UnknownMessageId or UnknownVendorId (with its data) is
  thrown away if there is a general callback.
- Finding (C117_case_refuted): vendor and message ids are CiStrings, but compared as std::string, i.e. with regard to case.
- Finding (C118_throws_refuted): handle_data_transfer_pnc_certificate_signed writes Accepted before it calls the store; if that throws,
  Accepted is sent without data, while the handlers for other messages send Rejected.
- Finding (C118_negative_refuted, C118_size_refuted): CertificateSignedMaxChainSize is cast to size_t, so that a negative one is no limit;
  handleCertificateSignedRequest does not look at it at all.
- Finding (C118_trigger_refuted): a trigger inside DataTransfer is Accepted before the signing request is made; if that fails, no message
  follows. The content of the trigger is not read: any requestedMessage triggers a signing request. The request
  is dispatched as not triggered, so that it is dropped while the registration is pending.
- Finding (C118_event_refuted): an invalid manufacturer certificate is noted as InvalidCentralSystemCertificate.
- Finding (C119_second_refuted, C119_destroy_refuted): reset_thread is assigned (2316) and never joined or detached. A second accepted
  Reset.req, or the destructor after one, calls std::terminate.
- Finding (C119_soon_refuted): the condition variable is notified by StopTransaction.conf only; if the connector leaves the state
  Charging after that, the reset waits for WaitForStopTransactionsOnResetTimeout.
- Finding (C119_unknown_refuted): for a connector that is not there, UnlockConnector.conf(NotSupported) is sent, then transaction_active
  throws std::out_of_range and a CALLERROR for the same request follows.
- Also seen: handleGetLogRequest without a callback sends a status that was never set; reset_callback runs while stop_transaction_mutex
  is held, so that an application that stops a transaction in it (on_transaction_stopped locks it, 4498) waits forever.

### Costs and meter values for pricing in OCPP 1.6 (C120)

- Modelled: the functions cited in Px16Model.v. Whole Wh and W instead of doubles; the texts of the costs are left out; JSON is read by an
  oracle; the timer is an event.
- Finding (C120_final_refuted): handle_set_session_cost looks for the transaction among the active ones, from which
  on_transaction_stopped removes it. A FinalCost, which a CSMS sends when it knows that the transaction has stopped, is Rejected.
- Finding (C120_power_stuck, C120_power_refuted): if meter values were sent with exactly the power asked for, neither `<` nor `>` holds
  from then on, and no crossing is noticed any more.
- Finding (C120_status_refuted): previous_status is only updated while states are watched. When they are watched again, entering the state
  seen last before is not noticed.
- Finding (C120_offset_refuted): the minutes of a negative DisplayTimeOffset are added, not subtracted. Also an offset whose minutes cannot
  be read is applied by its hours, and whether the time is over is asked before the offset is applied.
- Finding (C120_old_time_refuted): energy, power and states asked for are overwritten by each message, the time is not if the new message
  has none or one that is over.
- Finding (C120_decimals): the number of decimals is a static variable, read once; a change of the configuration has no effect.
- Finding (C120_cost): std::stoi is outside the try block: a transactionId that is no number, or that does not fit, is answered by a
  CALLERROR instead of Rejected. A negative id given as a number is converted to uint32_t before, so that it does not fit.

### Prices for users in OCPP 1.6 (C121)

- Modelled: the functions cited in Up16Model.v. A thread is a phase between its blocking points; the mutex, the map of condition
  variables and the map of tariffs are state; the receiving thread is another one that may wait for the mutex. Not modelled:
  configuration changes meanwhile, spurious ends of wait_for other than "nothing happens".
- Finding (C121_cut_off, C121_accepted_refuted): authorize_id_token holds user_price_map_mutex while it waits for Authorize.conf, up to
  60 s. A SetUserPrice that arrives then (for a call that waits for its price, or one that the CSMS sends before the Authorize.conf) blocks
  the thread that receives messages, so that the Authorize.conf cannot be received: the call ends as Invalid although the CSMS accepts
  the token, and calls that wait for a price cannot end either, time-out or not.
- Finding (C121_undefined_refuted): two calls that wait for the same token share a condition variable; the first that ends erases it from
  the map while the other waits for it, which is undefined behaviour.
- Finding (C121_lost_refuted): a second call for the token erases the tariff that has come for the first.
- Also seen: DEFAULT_WAIT_FOR_SET_USER_PRICE_TIMEOUT_MS is 0, so that without WaitForSetUserPriceTimeout the default tariff is
  always returned. A stopped transaction of the same token is found too, so that a price for the next one may be shown for the old session.

### Message log (C122, C123)

- Modelled: the functions cited in LogModel.v. A directory is a function from names to lines with sizes; a name is the file of the log,
  that file with an extension, or another one. The listing of the directory is an input in any order. Not modelled: failures of the file
  system, the console, the time in a line, the rename of the file of a session when it stops (its content is), threads.
- Finding (C122_unlimited_refuted, C122_twelve_refuted): rotate_log sorts the files as texts, so that "9" comes after "10". From the twelfth
  old file on, .9 is renamed to .10 first and overwrites it: a part of the log is lost though none is to be deleted. With a maximum of
  twelve the second oldest file is deleted and the oldest kept.
- Finding (C122_dated_refuted): with date_suffix the first file in descending order is the newest of the old ones, and that one is deleted.
- Finding (C122_second_refuted): two rotations in one second give the same name; the second replaces the first.
- Finding (C122_foreign_refuted): any file "log.x" counts and is deleted first if x sorts after digits.
- Finding (C122_reopened_refuted): a HTML log that is opened again goes on after its closing tags (a TODO in the code).
- Finding (C123_system_refuted): sys and raw call log_output of the station in the loop over the sessions instead of the session's.
- Finding (C123_growth): format_message erases the text of a looked-up type but not the entry, so that the map grows with every id. It is
  also changed without a mutex by threads that send and receive.
- Finding (C123_markup_refuted, C123_encode_refuted): the action of a CALL goes unencoded to the HTML log, so a peer can put a script
  there; the ampersand is not encoded.
- Also seen: security writes and reports its status also if log_security is off; the destructor does not close the raw logs.

### Change of the security profile in OCPP 1.6 (C124)

- Modelled: the functions cited in Sp16Model.v. The websocket is idle, trying or connected; each of its threads calls the callback
  for "stopped connecting" once when it ends. Not modelled: the number of attempts before it gives up (two, for a maximum of 1), the
  parsing of the value, exceptions of Uri::parse_and_validate.
- Finding (C124_restart_refuted): the new profile is stored before it is tried. If the station loses power then, it starts with a profile
  that never worked, tries it for ever and has no way back.
- Finding (C124_stop_refuted): going back sets the callback to the profile that just failed. If the station is stopped before it has
  connected, the end of the websocket's thread calls that callback: the failed profile is stored, and the timer, started after stop had
  stopped it, connects a station that was stopped.
- Finding (C124_connect_refuted): start_connecting ends a thread that is there, which calls the callback too. If the application calls
  connect_websocket in the two seconds before the new profile is tried, the station leaves it without a failure and then changes between
  the two profiles every two seconds as long as neither connects in that time.
- Finding (C124_twice_refuted): a second change by the application while the first is tried goes back to the first, not to the profile
  that worked.

### Allowed energy transfer, charging needs and DataTransfer (C125)

- Modelled: the functions cited in BdModel.v. What the device model says for an EVSE and what the application answers are arguments.
  Not modelled: the text in additionalInfo, DataTransfer from the CSMS (passed to the callback as it is).
- Finding (C125_silent_refuted): a station that has V2X and is connected with OCPP 2.0.1 logs an error and never answers the request; the
  CSMS runs into its timeout.
- Finding (C125_error_refuted): an answer to DataTransfer that cannot be read is answered with a CALLERROR, which may only follow a CALL.

### Variables and the settings that follow them (C126)

- Modelled: the functions cited in VcModel.v. Values are numbers, whether the device model accepts one is part of the request. Not
  modelled: the security log, the callback of the application (C28), a network profile that is missing.
- The results of SetVariables are kept in a map whose order looks at component and variable only (comparators.hpp 63-68). For a variable
  that is named twice the first entry stays as the key, with the result of the last.
- Finding (C126_twice_refuted): HeartbeatInterval 20, then 10 in one request: 10 is stored and shown, the heartbeat runs with 20.
- Finding (C126_rejected_refuted): MessageTimeout 20 accepted and a second entry refused: 20 is stored, the queue goes on with the old one.
- Finding (C126_target_refuted): an entry for the attribute Target before that for Actual: the change of Actual is not noticed.
- Finding (C126_zero_refuted): registered with the interval 0 the station sends no heartbeat, though it has a HeartbeatInterval, even one
  that was set while it was Pending.

### Functions given to a station (C127)

- Modelled: the functions cited in CbModel.v. A function is only whether it has a target; the conditions before a place of call that do not
  look at a callback, a block or an availability variable are taken as met. Not modelled: what the functions do.
- Finding (C127_started_stations_survive_their_transactions_refuted): charge_point.cpp 605 and 618 form a reference from
  `*this->smart_charging` though the block exists only if SmartChargingCtrlr is available. A station without it starts; when a transaction
  ends, transaction.cpp 138 calls a member of the null block after the Ended event and before the transaction is released. The same
  happens with on_ev_charging_needs (charge_point.cpp 418) and with a remote start that brings a TxProfile while SmartChargingCtrlrEnabled
  is true.
- Finding (C127_hollow_functions_are_noticed_refuted): the check leaves out connection_state_changed_callback, and asks for
  update_allowed_energy_transfer_modes_callback only with ISO15118Ctrlr available while the block is created for V2X alone. If they hold an
  empty function the station starts and the call throws std::bad_function_call. The running cost function is likewise only looked at if
  costs were available at the start.
- Finding (C127_available_tariffs_are_told_refuted): with tariffs available the check asks for set_display_message_callback, but the tariff
  is handed to tariff_message_callback; without the latter and without costs nobody is told the tariff.

### Deferred callbacks (C128)

- Modelled: the functions cited in SqModel.v, with the test of the predicate and falling asleep as two steps under the mutex. Not modelled:
  what callbacks do, a destructor run from the thread itself.
- Finding (C128_the_destructor_always_comes_back_refuted): websocket_libwebsockets.cpp 372-373 stores stop_deferred_handler and notifies
  without holding the queue's mutex. If both fall between the thread's test of the predicate and its falling asleep, the wake-up is lost;
  the wait has no timeout, so the thread sleeps and the destructor's join blocks for ever. With the mutex held around the store or the
  notification (`careful`) the destructor is proved to come back.
- A callback deferred after the thread ended is kept in the queue and never called (Example C128_too_late).

### Sending over the websocket (C129)

- Modelled: the functions cited in PmModel.v, with any number of sending threads. Not modelled: the checks of the connection before a
  push (Ws), what libwebsockets does with the bytes it took, request_write.
- Finding (C129_failure_means_not_written_refuted): after one second poll_message gives up and send returns false, but the message stays in
  the queue and is written when the socket becomes writable. The message queue, told that it was not sent, sends it again.
- Finding (C129_success_means_written_refuted): sent_bytes >= length holds at once for an empty payload, so an empty message is marked as
  sent without lws_write. With WebsocketPingPayload set to the empty string no ping ever goes out, and none is missed.
- Finding (C129_nobody_sleeps_on_a_sent_message_refuted): all senders wait on one condition variable with their own predicates and pop
  notifies one of them. If it is the wrong one (a ping while a call is sent), the other waits for its timeout though its message was sent.
- A partial write starts the message again from its first byte (Example C129_one_by_one).

### Certificate data between CSMS and security module (C130)

- Modelled: the functions cited in EsModel.v, with three separate sets of types. Not modelled: customData, security events, CSR and
  certificate info, what libevse-security does, from_ocpp_v2 of OCSPRequestData. The latter forgets the algorithm but is not called.
- Finding (C130_installed_certificates_are_reported_refuted): a GetInstalledCertificateIds.req that names OEMRootCertificate beside others
  is answered with a CALLERROR (FormationViolation), since from_ocpp throws for it, though the others are installed.
- Finding (C130_how_an_oem_root_is_refused): InstallCertificate.req with an OEM root is Rejected up to security profile 1 and fails with an
  exception above it, because should_allow_certificate_install looks at the purpose only on insecure connections.
- Finding (C130_when_none_is_reported, Example C130_one_too_long): one certificate with a serial number above 40 or a hash above 128
  characters keeps all installed certificates from being reported.
- Finding (C130_status_data_are_passed_on_refuted): OCSP data without certificate hash data, which the type of libevse-security allows, leave
  hashAlgorithm unassigned, and the conversion to 2.x switches over it.

### Receiving over the websocket (C131)

- Modelled: the functions cited in RxModel.v. Not modelled: the wait of the receiving thread, the unsynchronised clearing of
  recv_buffered_message by safe_close_threads, a receiving thread that was detached, exceptions of message_callback. What libwebsockets
  passes on (pieces of frames with the number of bytes still to come) is taken from its documentation.
- Finding (C131_messages_arrive_whole_once_and_in_order_refuted): the receive case asks lws_remaining_packet_payload, which is about the
  current frame, and not lws_is_final_fragment. A message the CSMS sends in several frames is handed over in parts, none of them JSON.
- Finding (C131_no_undefined_behaviour_refuted): the receiving thread calls empty() and pop() under separate locks. If the connection is
  closed in between, the client thread clears the queue and pop() takes the front of an empty std::queue.
