(** Model of OCPP 2.x smart charging:
    lib/ocpp/v2/functional_blocks/smart_charging.cpp, the charging profile part of
    lib/ocpp/v2/database_handler.cpp, ChargePoint::clear_invalid_charging_profiles of
    lib/ocpp/v2/charge_point.cpp and handle_remote_start_transaction_request of
    lib/ocpp/v2/functional_blocks/remote_transaction_control.cpp.

    Conventions of P2Model.v; in addition:
    - The device model variables that are read are the fields of [station], with the value
      that value_or supplies filled in.  They do not change during one call.
    - A row of the table CHARGING_PROFILES is the profile with its EVSE and its source: the
      columns ID, STACK_LEVEL, CHARGING_PROFILE_PURPOSE and TRANSACTION_ID are always written
      from the profile.  The JSON text in the column PROFILE is read back as the profile that
      was written.
    - SQL statements succeed, except where a parameter says otherwise. *)

From Coq Require Import ZArith String List Bool.
From Verif Require Import StrModel P2Model.
Import ListNotations.
Open Scope string_scope.
Open Scope Z_scope.

(* include/ocpp/v2/evse.hpp:21-25 CurrentPhaseType *)
Inductive phase_type := AC | DC | UnknownPhases.

Record evse := {
  ev_supply : option Z;             (* EvseComponentVariables::SupplyPhases *)
  ev_dcctl : bool;                  (* EvseComponentVariables::DCInputPhaseControl *)
  ev_tx : option (Z * Z);           (* transaction: id and start_time *)
  ev_usable : list bool;            (* per connector: neither Faulted nor Unavailable *)
}.

Record station := {
  s_version : version;
  s_supply : Z;                     (* ChargingStationSupplyPhases *)
  s_units : list runit;             (* ChargingScheduleChargingRateUnit, a comma separated list *)
  s_extra : list purpose;           (* SupportedAdditionalPurposes, through utils.cpp:209-221 *)
  s_dynamic : bool;                 (* SupportsDynamicProfiles *)
  s_local : bool;                   (* SupportsUseLocalTime *)
  s_delay : bool;                   (* SupportsRandomizedDelay *)
  s_soc : bool;                     (* SupportsLimitAtSoC *)
  s_sleep : bool;                   (* SupportsEvseSleep *)
  s_switch : bool;                  (* ACPhaseSwitchingSupported *)
  s_maxext : option Z;              (* MaxExternalConstraintsId *)
  s_rate : option Z;                (* ChargingProfileUpdateRateLimit *)
  s_available : bool;               (* SmartChargingCtrlrAvailable *)
  s_enabled : bool;                 (* SmartChargingCtrlrEnabled *)
  s_ignored : list purpose;         (* IgnoredProfilePurposesOffline *)
  s_amps : option Z;                (* CompositeScheduleDefaultLimitAmps *)
  s_watts : option Z;               (* CompositeScheduleDefaultLimitWatts *)
  s_phases : option Z;              (* CompositeScheduleDefaultNumberPhases *)
  s_volts : option Z;               (* SupplyVoltage *)
  s_evses : list evse;              (* EVSE 1, 2, ... *)
}.

(* include/ocpp/v2/functional_blocks/smart_charging.hpp:38-81 ProfileValidationResultEnum *)
Inductive result :=
| Valid
| EvseDoesNotExist
| ExistingChargingStationExternalConstraints
| InvalidProfileType
| TxProfileMissingTransactionId
| TxProfileEvseIdNotGreaterThanZero
| TxProfileTransactionNotOnEvse
| TxProfileEvseHasNoActiveTransaction
| TxProfileConflictingStackLevel
| ChargingProfileNoChargingSchedulePeriods
| ChargingProfileFirstStartScheduleIsNotZero
| ChargingProfileMissingRequiredStartSchedule
| ChargingProfileExtraneousStartSchedule
| ChargingProfileRateLimitExceeded
| ChargingProfileIdSmallerThanMaxExternalConstraintsId
| ChargingProfileUnsupportedPurpose
| ChargingProfileUnsupportedKind
| ChargingProfileNotDynamic
| ChargingScheduleChargingRateUnitUnsupported
| ChargingSchedulePriorityExtranousDuration
| ChargingScheduleRandomizedDelay
| ChargingScheduleUnsupportedLocalTime
| ChargingScheduleUnsupportedRandomizedDelay
| ChargingScheduleUnsupportedLimitAtSoC
| ChargingScheduleUnsupportedEvseSleep
| ChargingSchedulePeriodsOutOfOrder
| ChargingSchedulePeriodInvalidPhaseToUse
| ChargingSchedulePeriodUnsupportedNumberPhases
| ChargingSchedulePeriodExtraneousPhaseValues
| ChargingSchedulePeriodPhaseToUseACPhaseSwitchingUnsupported
| ChargingSchedulePeriodPriorityChargingNotChargingOnly
| ChargingSchedulePeriodUnsupportedOperationMode
| ChargingSchedulePeriodUnsupportedLimitSetpoint
| ChargingSchedulePeriodNoPhaseForDC
| ChargingSchedulePeriodNoFreqWattCurve
| ChargingSchedulePeriodSignDifference
| ChargingStationMaxProfileCannotBeRelative
| ChargingStationMaxProfileEvseIdGreaterThanZero
| DuplicateTxDefaultProfileFound
| DuplicateProfileValidityPeriod
| RequestStartTransactionNonTxProfile
| ChargingProfileEmptyChargingSchedules.

(* smart_charging.cpp:162-225 profile_validation_result_to_reason_code *)
Definition reason_code (r : result) : string :=
  match r with
  | Valid => "NoError"
  | DuplicateProfileValidityPeriod | DuplicateTxDefaultProfileFound
  | ExistingChargingStationExternalConstraints => "DuplicateProfile"
  | TxProfileTransactionNotOnEvse | TxProfileEvseHasNoActiveTransaction => "TxNotFound"
  | TxProfileConflictingStackLevel => "InvalidStackLevel"
  | ChargingScheduleChargingRateUnitUnsupported => "UnsupportedRateUnit"
  | ChargingProfileRateLimitExceeded => "RateLimitExceeded"
  | ChargingProfileIdSmallerThanMaxExternalConstraintsId => "InvalidProfileId"
  | ChargingProfileUnsupportedPurpose => "UnsupportedPurpose"
  | ChargingProfileUnsupportedKind => "UnsupportedKind"
  | ChargingProfileNotDynamic => "InvalidProfile"
  | ChargingProfileNoChargingSchedulePeriods | ChargingProfileFirstStartScheduleIsNotZero
  | ChargingProfileMissingRequiredStartSchedule | ChargingProfileExtraneousStartSchedule
  | ChargingProfileEmptyChargingSchedules | ChargingSchedulePriorityExtranousDuration
  | ChargingScheduleRandomizedDelay | ChargingScheduleUnsupportedLocalTime
  | ChargingScheduleUnsupportedRandomizedDelay | ChargingScheduleUnsupportedLimitAtSoC
  | ChargingScheduleUnsupportedEvseSleep | ChargingSchedulePeriodsOutOfOrder
  | ChargingSchedulePeriodInvalidPhaseToUse | ChargingSchedulePeriodUnsupportedNumberPhases
  | ChargingSchedulePeriodExtraneousPhaseValues
  | ChargingSchedulePeriodPhaseToUseACPhaseSwitchingUnsupported
  | ChargingSchedulePeriodPriorityChargingNotChargingOnly
  | ChargingSchedulePeriodUnsupportedOperationMode
  | ChargingSchedulePeriodUnsupportedLimitSetpoint
  | ChargingSchedulePeriodSignDifference => "InvalidSchedule"
  | ChargingSchedulePeriodNoPhaseForDC => "NoPhaseForDC"
  | ChargingSchedulePeriodNoFreqWattCurve => "NoFreqWattCurve"
  | TxProfileMissingTransactionId => "MissingParam"
  | EvseDoesNotExist | TxProfileEvseIdNotGreaterThanZero
  | ChargingStationMaxProfileCannotBeRelative
  | ChargingStationMaxProfileEvseIdGreaterThanZero
  | RequestStartTransactionNonTxProfile => "InvalidValue"
  | InvalidProfileType => "InternalError"
  end.

(* a row of CHARGING_PROFILES *)
Record row := { r_evse : Z; r_source : string; r_p : profile }.

(* include/ocpp/v2/functional_blocks/smart_charging.hpp:85-88 AddChargingProfileSource *)
Inductive origin := SetProfile | RemoteStart.

Definition in_purposes (p : purpose) (l : list purpose) : bool := existsb (purpose_eqb p) l.

(* lib/ocpp/v2/evse_manager.cpp:58-60 does_evse_exist *)
Definition evse_exists (st : station) (id : Z) : bool :=
  (0 <=? id) && (id <=? Z.of_nat (List.length (s_evses st))).

(* EvseManager::get_evse for an id from 1 on *)
Definition get_evse (st : station) (id : Z) : option evse :=
  if id <=? 0 then None else nth_error (s_evses st) (Z.to_nat (id - 1)).

(* smart_charging.cpp:33-38 validate_request_start_transaction_profile *)
Definition validate_request_start (p : profile) : result :=
  if negb (purpose_eqb PTx (pf_purpose p)) then RequestStartTransactionNonTxProfile else Valid.

(* smart_charging.cpp:42-49 conform_schedule_number_phases *)
Definition conform_phases (c : csp) : csp :=
  match sp_phases c with
  | Some _ => c
  | None =>
      {| sp_start := sp_start c; sp_limit := sp_limit c; sp_phases := Some 3;
         sp_touse := sp_touse c; sp_dis := sp_dis c; sp_set := sp_set c;
         sp_react := sp_react c; sp_sleep := sp_sleep c; sp_baseline := sp_baseline c;
         sp_mode := sp_mode c; sp_curve := sp_curve c |}
  end.

(* date::utc_clock::time_point::max(), in nanoseconds *)
Definition MAX_TIME : Z := 9223372036854775807.

(* smart_charging.cpp:56-68 conform_validity_periods *)
Definition conform_validity (p : profile) : profile :=
  {| pf_id := pf_id p; pf_stack := pf_stack p; pf_purpose := pf_purpose p; pf_kind := pf_kind p;
     pf_scheds := pf_scheds p; pf_recur := pf_recur p;
     pf_from := match pf_from p with None => Some 0 | x => x end;
     pf_to := match pf_to p with None => Some MAX_TIME | x => x end;
     pf_tx := pf_tx p; pf_dynint := pf_dynint p; pf_dyntime := pf_dyntime p |}.

Definition set_periods (s : sched) (l : list csp) : sched :=
  {| sc_unit := sc_unit s; sc_periods := l; sc_soc := sc_soc s; sc_start := sc_start s;
     sc_duration := sc_duration s; sc_local := sc_local s; sc_delay := sc_delay s |}.

Definition set_scheds (p : profile) (l : list sched) : profile :=
  {| pf_id := pf_id p; pf_stack := pf_stack p; pf_purpose := pf_purpose p; pf_kind := pf_kind p;
     pf_scheds := l; pf_recur := pf_recur p; pf_from := pf_from p; pf_to := pf_to p;
     pf_tx := pf_tx p; pf_dynint := pf_dynint p; pf_dyntime := pf_dyntime p |}.

(* smart_charging.cpp:1408-1418, lib/ocpp/v2/evse.cpp:705-712 *)
Definition phases_type (supply : Z) : phase_type :=
  if (supply =? 1) || (supply =? 3) then AC else if supply =? 0 then DC else UnknownPhases.

(* smart_charging.cpp:1404-1419 get_current_phase_type; evse.cpp:698-713 for an EVSE *)
Definition get_current_phase_type (st : station) (e : option evse) : phase_type :=
  match e with
  | Some ev => match ev_supply ev with Some n => phases_type n | None => UnknownPhases end
  | None => phases_type (s_supply st)
  end.

(* smart_charging.cpp:342-361 has_dc_input_phase_control *)
Definition has_dc_input_phase_control (st : station) (e : option evse) : bool :=
  match e with
  | None => forallb ev_dcctl (s_evses st)
  | Some ev => ev_dcctl ev
  end.

(* smart_charging.cpp:233-250 operation_modes_for_charging_profile_purposes *)
Definition modes_for (p : purpose) : list opmode :=
  match p with
  | PTx | PTxDefault =>
      [ChargingOnly; CentralSetpoint; ExternalSetpoint; ExternalLimits; CentralFrequency;
       LocalFrequency; LocalLoadBalancing; Idle]
  | PPriority => [ChargingOnly]
  | PMax => [ChargingOnly]
  | PExternal => [ChargingOnly; ExternalLimits; ExternalSetpoint]
  | PLocalGen => [ChargingOnly; ExternalLimits]
  end.

(* smart_charging.cpp:1483-1495 check_operation_modes_for_charging_profile_purposes *)
Definition check_operation_modes (m : opmode) (p : purpose) : bool :=
  existsb (mode_eqb m) (modes_for p).

(* include/ocpp/v2/functional_blocks/smart_charging.hpp:31-36 LimitSetpointType *)
Inductive limit_type := TLimit | TDischarge | TSetpoint | TReactive.
Definition limit_type_eqb (a b : limit_type) : bool :=
  match a, b with
  | TLimit, TLimit | TDischarge, TDischarge | TSetpoint, TSetpoint | TReactive, TReactive => true
  | _, _ => false
  end.

(* smart_charging.cpp:258-270 limits_setpoints_per_operation_mode: required and optional *)
Definition limits_for (m : opmode) : list limit_type * list limit_type :=
  match m with
  | ChargingOnly => ([TLimit], [])
  | CentralSetpoint => ([TSetpoint], [TLimit; TDischarge; TReactive])
  | CentralFrequency => ([TSetpoint], [TLimit; TDischarge])
  | LocalFrequency => ([], [])
  | ExternalSetpoint => ([], [TLimit; TDischarge])
  | ExternalLimits => ([], [])
  | LocalLoadBalancing => ([], [])
  | Idle => ([], [])
  end.

(* smart_charging.cpp:1421-1433 are_limits_and_setpoints_of_operation_mode_correct *)
Definition limits_correct (m : opmode) (t : limit_type) (x : otri) : bool :=
  let '(req, opt) := limits_for m in
  negb ((existsb (limit_type_eqb t) req && negb (is_some (t1 x))) ||
        ((is_some (t1 x) || is_some (t2 x) || is_some (t3 x)) &&
         negb (existsb (limit_type_eqb t) req) && negb (existsb (limit_type_eqb t) opt))).

(* smart_charging.cpp:1435-1461 check_limits_and_setpoints *)
Definition check_limits_and_setpoints (c : csp) : bool :=
  let m := value_or (sp_mode c) ChargingOnly in
  limits_correct m TLimit (sp_limit c) && limits_correct m TDischarge (sp_dis c) &&
  limits_correct m TSetpoint (sp_set c) && limits_correct m TReactive (sp_react c).

(* smart_charging.cpp:1463-1481 all_setpoints_signs_equal *)
Definition opt_is (f : Z -> bool) (o : option Z) : bool :=
  match o with Some x => f x | None => false end.
Definition all_setpoints_signs_equal (c : csp) : bool :=
  let neg := opt_is (fun y => y <? 0) in
  let pos := opt_is (fun y => 0 <? y) in
  let s := sp_set c in
  negb (is_some (t1 s) && (is_some (t2 s) || is_some (t3 s)) &&
        ((pos (t1 s) && (neg (t2 s) || neg (t3 s))) ||
         (neg (t1 s) && (pos (t2 s) || pos (t3 s))))).

(* smart_charging.cpp:840-944, the body of the loop over the periods; [first]: i == 0 *)
Definition check_period (st : station) (e : option evse) (p : profile) (s : sched) (first : bool)
           (c : csp) (next : option csp) : result :=
  let v21 := is_v21 (s_version st) in
  let pt := get_current_phase_type st e in
  let mode := value_or (sp_mode c) ChargingOnly in
  if negb (opt_is (fun n => n =? 1) (sp_phases c)) && is_some (sp_touse c)
  then ChargingSchedulePeriodInvalidPhaseToUse
  else if is_some (sp_touse c) && negb (s_switch st)
  then ChargingSchedulePeriodPhaseToUseACPhaseSwitchingUnsupported
  else if first && negb (sp_start c =? 0)
  then ChargingProfileFirstStartScheduleIsNotZero
  else if match next with Some n => sp_start n <=? sp_start c | None => false end
  then ChargingSchedulePeriodsOutOfOrder
  else if match pt with DC => true | _ => false end &&
          (is_some (sp_phases c) || is_some (sp_touse c)) && negb v21
  then ChargingSchedulePeriodExtraneousPhaseValues
  else if match pt with DC => true | _ => false end &&
          (is_some (sp_phases c) || is_some (sp_touse c)) && v21 &&
          negb (has_dc_input_phase_control st e)
  then ChargingSchedulePeriodNoPhaseForDC
  else if match pt with AC => true | _ => false end &&
          opt_is (fun n => s_supply st <? n) (sp_phases c)
  then ChargingSchedulePeriodUnsupportedNumberPhases
  else if negb v21 then Valid
  else if purpose_eqb (pf_purpose p) PPriority && negb (mode_eqb mode ChargingOnly)
  then ChargingSchedulePeriodPriorityChargingNotChargingOnly
  else if negb (check_operation_modes mode (pf_purpose p))
  then ChargingSchedulePeriodUnsupportedOperationMode
  else if mode_eqb mode LocalFrequency && unit_eqb (sc_unit s) UA
  then ChargingScheduleChargingRateUnitUnsupported
  else if value_or (sp_sleep c) false && negb (s_sleep st)
  then ChargingScheduleUnsupportedEvseSleep
  else if negb (check_limits_and_setpoints c)
  then ChargingSchedulePeriodUnsupportedLimitSetpoint
  else if mode_eqb mode LocalFrequency &&
          (negb (match sp_curve c with Some n => (2 <=? n)%nat | None => false end) ||
           negb (sp_baseline c))
  then ChargingSchedulePeriodNoFreqWattCurve
  else if negb (all_setpoints_signs_equal c)
  then ChargingSchedulePeriodSignDifference
  else Valid.

(* smart_charging.cpp:839-945, the loop over the periods *)
Fixpoint check_periods (st : station) (e : option evse) (p : profile) (s : sched) (first : bool)
         (l : list csp) : result :=
  match l with
  | [] => Valid
  | c :: rest =>
      match check_period st e p s first c (hd_error rest) with
      | Valid => check_periods st e p s false rest
      | r => r
      end
  end.

(* smart_charging.cpp:766-958, the body of the loop over the schedules *)
Definition check_schedule (st : station) (e : option evse) (p : profile) (s : sched) : result :=
  let v21 := is_v21 (s_version st) in
  let tx := purpose_eqb (pf_purpose p) PTx || purpose_eqb (pf_purpose p) PTxDefault in
  if negb (existsb (unit_eqb (sc_unit s)) (s_units st))
  then ChargingScheduleChargingRateUnitUnsupported
  else if match sc_periods s with [] => true | _ => false end
  then ChargingProfileNoChargingSchedulePeriods
  else if v21 && negb tx && opt_is (fun d => 0 <? d) (sc_delay s)
  then ChargingScheduleRandomizedDelay
  else if v21 && (purpose_eqb (pf_purpose p) PPriority || purpose_eqb (pf_purpose p) PLocalGen) &&
          negb (in_purposes (pf_purpose p) (s_extra st))
  then ChargingProfileUnsupportedPurpose
  else if v21 && kind_eqb (pf_kind p) Dynamic && negb (s_dynamic st)
  then ChargingProfileUnsupportedKind
  else if v21 && (pf_dynint p || pf_dyntime p) && negb (kind_eqb (pf_kind p) Dynamic)
  then ChargingProfileNotDynamic
  else if v21 && value_or (sc_local s) false && negb (s_local st)
  then ChargingScheduleUnsupportedLocalTime
  else if v21 && is_some (sc_delay s) && negb (s_delay st)
  then ChargingScheduleUnsupportedRandomizedDelay
  else if v21 && sc_soc s && negb (s_soc st)
  then ChargingScheduleUnsupportedLimitAtSoC
  else
    match check_periods st e p s true (sc_periods s) with
    | Valid =>
        if (kind_eqb (pf_kind p) Absolute || kind_eqb (pf_kind p) Recurring) &&
           negb (is_some (sc_start s))
        then ChargingProfileMissingRequiredStartSchedule
        else if kind_eqb (pf_kind p) Relative && is_some (sc_start s)
        then ChargingProfileExtraneousStartSchedule
        else Valid
    | r => r
    end.

Fixpoint check_schedules (st : station) (e : option evse) (p : profile) (l : list sched) : result :=
  match l with
  | [] => Valid
  | s :: rest =>
      match check_schedule st e p s with
      | Valid => check_schedules st e p rest
      | r => r
      end
  end.

(* smart_charging.cpp:755-961 validate_profile_schedules: the result.  The periods are
   conformed on the way (line 894), see [conform_schedules]; what has been conformed is not
   looked at again by the checks. *)
Definition validate_profile_schedules (st : station) (e : option evse) (p : profile) : result :=
  match pf_scheds p with
  | [] => ChargingProfileEmptyChargingSchedules
  | l => check_schedules st e p l
  end.

(* smart_charging.cpp:894, for the whole profile *)
Definition conform_schedules (st : station) (e : option evse) (p : profile) : profile :=
  match get_current_phase_type st e with
  | AC => set_scheds p (map (fun s => set_periods s (map conform_phases (sc_periods s))) (pf_scheds p))
  | _ => p
  end.

(* smart_charging.cpp:963-986 verify_no_conflicting_external_constraints_id *)
Definition verify_no_conflicting_external_constraints_id (st : station) (db : list row) (p : profile)
  : result :=
  if is_v21 (s_version st) && opt_is (fun m => pf_id p <=? m) (s_maxext st)
  then ChargingProfileIdSmallerThanMaxExternalConstraintsId
  else if existsb (fun r => (pf_id (r_p r) =? pf_id p) && purpose_eqb (pf_purpose (r_p r)) PExternal) db
  then ExistingChargingStationExternalConstraints
  else Valid.

(* operator<= of std::optional<DateTime> *)
Definition ole (a b : option Z) : bool :=
  match a, b with
  | None, _ => true
  | Some _, None => false
  | Some x, Some y => x <=? y
  end.

(* smart_charging.cpp:1319-1345 is_overlapping_validity_period *)
Definition is_overlapping_validity_period (db : list row) (p : profile) (evse_id : Z) : bool :=
  if purpose_eqb (pf_purpose p) PTx then false
  else existsb (fun r =>
         purpose_eqb (pf_purpose (r_p r)) (pf_purpose p) && (r_evse r =? evse_id) &&
         negb (pf_id (r_p r) =? pf_id p) && (pf_stack (r_p r) =? pf_stack p) &&
         ole (pf_from p) (pf_to (r_p r)) && ole (pf_from (r_p r)) (pf_to p)) db.

(* smart_charging.cpp:634-650 validate_charging_station_max_profile *)
Definition validate_max (p : profile) (evse_id : Z) : result :=
  if negb (purpose_eqb (pf_purpose p) PMax) then InvalidProfileType
  else if 0 <? evse_id then ChargingStationMaxProfileEvseIdGreaterThanZero
  else if kind_eqb (pf_kind p) Relative then ChargingStationMaxProfileCannotBeRelative
  else Valid.

(* smart_charging.cpp:652-666 validate_tx_default_profile, 1347-1372 *)
Definition validate_tx_default (db : list row) (p : profile) (evse_id : Z) : result :=
  let candidates :=
    filter (fun r => purpose_eqb (pf_purpose (r_p r)) PTxDefault &&
                     (if evse_id =? 0 then negb (r_evse r =? 0) else r_evse r =? 0)) db in
  if existsb (fun r => (pf_stack (r_p r) =? pf_stack p) && negb (pf_id (r_p r) =? pf_id p)) candidates
  then DuplicateTxDefaultProfileFound else Valid.

(* smart_charging.cpp:669-724 validate_tx_profile *)
Definition validate_tx (st : station) (db : list row) (p : profile) (evse_id : Z) (src : origin)
  : result :=
  if evse_id <=? 0 then TxProfileEvseIdNotGreaterThanZero
  else if negb (evse_exists st evse_id) then EvseDoesNotExist
  else
    match src with
    | RemoteStart => Valid
    | SetProfile =>
        match pf_tx p with
        | None => TxProfileMissingTransactionId
        | Some id =>
            match get_evse st evse_id with
            | None => EvseDoesNotExist           (* get_evse throws; ruled out above *)
            | Some ev =>
                match ev_tx ev with
                | None => TxProfileEvseHasNoActiveTransaction
                | Some (tid, _) =>
                    if negb (tid =? id) then TxProfileTransactionNotOnEvse
                    else if existsb (fun r => opt_is (fun x => x =? id) (pf_tx (r_p r)) &&
                                              (pf_stack (r_p r) =? pf_stack p) &&
                                              negb (pf_id (r_p r) =? pf_id p)) db
                    then TxProfileConflictingStackLevel else Valid
                end
            end
        end
    end.

(* smart_charging.cpp:726-746 validate_priority_charging_profile *)
Definition validate_priority (p : profile) : result :=
  if negb (purpose_eqb (pf_purpose p) PPriority) then InvalidProfileType
  else if existsb (fun s => is_some (sc_duration s)) (pf_scheds p)
  then ChargingSchedulePriorityExtranousDuration else Valid.

(* smart_charging.cpp:459-481 *)
Definition validate_purpose (st : station) (db : list row) (p : profile) (evse_id : Z) (src : origin)
  : result :=
  match pf_purpose p with
  | PMax => validate_max p evse_id
  | PTxDefault => validate_tx_default db p evse_id
  | PTx => validate_tx st db p evse_id src
  | PExternal => Valid
  | PPriority => validate_priority p
  | PLocalGen => InvalidProfileType
  end.

Definition andthen (r s : result) : result := match r with Valid => s | _ => r end.

(* smart_charging.cpp:415-484 conform_and_validate_profile: the result and the profile as it
   has been conformed when the result is Valid *)
Definition conform_and_validate_profile (st : station) (db : list row) (p : profile) (evse_id : Z)
           (src : origin) : result * profile :=
  let e := get_evse st evse_id in
  let p1 := conform_validity p in
  (andthen (match src with RemoteStart => validate_request_start p | SetProfile => Valid end)
   (andthen (if evse_id =? 0 then Valid else if evse_exists st evse_id then Valid else EvseDoesNotExist)
    (andthen (verify_no_conflicting_external_constraints_id st db p1)
     (andthen (validate_profile_schedules st e p1)
      (andthen (if is_overlapping_validity_period db p1 evse_id then DuplicateProfileValidityPeriod
                else Valid)
               (validate_purpose st db p1 evse_id src))))),
   conform_schedules st e p1).

(* the functional block: the table CHARGING_PROFILES and last_charging_profile_update *)
Record sc_state := { db : list row; last_update : purpose -> option Z }.

Definition set_last (m : purpose -> option Z) (p : purpose) (t : Z) : purpose -> option Z :=
  fun q => if purpose_eqb q p then Some t else m q.

(* smart_charging.cpp:316-340 verify_rate_limit; both readings of the clock are [now] *)
Definition verify_rate_limit (st : station) (last : purpose -> option Z) (p : profile) (now : Z)
  : result * (purpose -> option Z) :=
  match s_rate st with
  | Some lim =>
      if is_v21 (s_version st) then
        (match last (pf_purpose p) with
         | Some t => if Z.quot (now - t) NS <? lim then ChargingProfileRateLimitExceeded else Valid
         | None => Valid
         end, set_last last (pf_purpose p) now)
      else (Valid, last)
  | None => (Valid, last)
  end.

(* database_handler.cpp:762-791 insert_or_update_charging_profile: INSERT OR REPLACE *)
Definition insert_profile (db : list row) (evse_id : Z) (p : profile) (source : string) : list row :=
  (filter (fun r => negb (pf_id (r_p r) =? pf_id p)) db ++
   [{| r_evse := evse_id; r_source := source; r_p := p |}])%list.

Inductive answer :=
| Accepted
| Rejected (code : string).

(* smart_charging.cpp:391-413 conform_validate_and_add_profile and 988-1007 add_profile;
   [stored]: the SQL statement succeeds *)
Definition conform_validate_and_add_profile (st : station) (s : sc_state) (now : Z) (stored : bool)
           (p : profile) (evse_id : Z) (source : string) (src : origin) : sc_state * answer :=
  let '(r, p') := conform_and_validate_profile st (db s) p evse_id src in
  match r with
  | Valid =>
      let '(r2, last) := verify_rate_limit st (last_update s) p' now in
      match r2 with
      | Valid =>
          if stored
          then ({| db := insert_profile (db s) evse_id p' source; last_update := last |}, Accepted)
          else ({| db := db s; last_update := last |}, Rejected "InternalError")
      | _ => ({| db := db s; last_update := last |}, Rejected (reason_code r2))
      end
  | _ => (s, Rejected (reason_code r))
  end.

(* what the functional block does on a request: the answer and whether
   set_charging_profiles_callback is called *)
Inductive reply := CallError (code : string) | Answer (a : answer) (callback : bool).

(* smart_charging.cpp:1069-1124 handle_set_charging_profile_req *)
Definition handle_set_charging_profile_req (st : station) (s : sc_state) (now : Z) (stored : bool)
           (p : profile) (evse_id : Z) : sc_state * reply :=
  if negb (s_available st) then (s, CallError "NotSupported")
  else if purpose_eqb (pf_purpose p) PExternal then (s, Answer (Rejected "InvalidValue") false)
  else
    let '(s', a) := conform_validate_and_add_profile st s now stored p evse_id "CSO" SetProfile in
    (s', Answer a match a with Accepted => true | Rejected _ => false end).

(* include/ocpp/v2/ocpp_types.hpp:403 struct ClearChargingProfile *)
Record clear_criteria := {
  cc_evse : option Z;
  cc_purpose : option purpose;
  cc_stack : option Z;
}.

(* column = @value, left out when there is no value *)
Definition opt_eq (o : option Z) (x : Z) : bool :=
  match o with Some y => y =? x | None => true end.
Definition opt_purpose (o : option purpose) (x : purpose) : bool :=
  match o with Some y => purpose_eqb y x | None => true end.

(* database_handler.cpp:793-803, 815-817, 819-875: the rows left and the result;
   clear_table returns true *)
Definition clear_charging_profiles_matching_criteria (db : list row) (id : option Z)
           (c : option clear_criteria) : list row * bool :=
  let delete f := (filter (fun r => negb (f r)) db, existsb f db) in
  match id with
  | Some i => delete (fun r => pf_id (r_p r) =? i)
  | None =>
      match c with
      | None => ([], true)
      | Some cr =>
          if is_some (cc_purpose cr) || is_some (cc_evse cr) || is_some (cc_stack cr) then
            delete (fun r => negb (purpose_eqb (pf_purpose (r_p r)) PExternal) &&
                             opt_purpose (cc_purpose cr) (pf_purpose (r_p r)) &&
                             opt_eq (cc_stack cr) (pf_stack (r_p r)) &&
                             opt_eq (cc_evse cr) (r_evse r))
          else (db, false)
      end
  end.

Inductive clear_status := ClearAccepted | ClearUnknown.

(* smart_charging.cpp:1126-1152 handle_clear_charging_profile_req, 1009-1019 clear_profiles:
   the state, the status, the reason code and whether the callback is called *)
Definition handle_clear_charging_profile_req (s : sc_state) (id : option Z)
           (c : option clear_criteria) : sc_state * clear_status * option string * bool :=
  match c with
  | Some cr =>
      if match cc_purpose cr with Some PExternal => true | _ => false end
      then (s, ClearUnknown, Some "InvalidValue", false)
      else
        let '(d, b) := clear_charging_profiles_matching_criteria (db s) id c in
        ({| db := d; last_update := last_update s |}, if b then ClearAccepted else ClearUnknown, None, b)
  | None =>
      let '(d, b) := clear_charging_profiles_matching_criteria (db s) id c in
      ({| db := d; last_update := last_update s |}, if b then ClearAccepted else ClearUnknown, None, b)
  end.

(* database_handler.cpp:805-813 delete_charging_profile_by_transaction_id;
   smart_charging.cpp:387-389 *)
Definition delete_transaction_tx_profiles (s : sc_state) (id : Z) : sc_state :=
  {| db := filter (fun r => negb (opt_is (fun x => x =? id) (pf_tx (r_p r)))) (db s);
     last_update := last_update s |}.

(* include/ocpp/v2/ocpp_types.hpp:502 struct ChargingProfileCriterion *)
Record criterion := {
  cr_purpose : option purpose;
  cr_stack : option Z;
  cr_ids : option (list Z);
  cr_sources : option (list string);
}.

(* database_handler.cpp:877-959 get_charging_profiles_matching_criteria.  IN compares the
   strings byte by byte. *)
Definition get_charging_profiles_matching_criteria (db : list row) (evse_id : option Z) (c : criterion)
  : list row :=
  let on_evse r := opt_eq evse_id (r_evse r) in
  match cr_ids c with
  | Some (i :: ids) =>
      filter (fun r => on_evse r && existsb (fun x => x =? pf_id (r_p r)) (i :: ids)) db
  | _ =>
      filter (fun r => on_evse r && opt_purpose (cr_purpose c) (pf_purpose (r_p r)) &&
                       opt_eq (cr_stack c) (pf_stack (r_p r)) &&
                       match cr_sources c with
                       | Some (x :: xs) => existsb (fun y => String.eqb y (r_source r)) (x :: xs)
                       | _ => true
                       end) db
  end.

(* a ReportChargingProfilesRequest *)
Record report := {
  rp_request : Z;
  rp_evse : Z;
  rp_source : string;
  rp_profiles : list profile;
  rp_tbc : bool;
}.

(* std::set<std::int32_t>::insert, ascending *)
Fixpoint insert_z (x : Z) (l : list Z) : list Z :=
  match l with
  | [] => [x]
  | y :: r => if x <? y then x :: l else if y <? x then y :: insert_z x r else l
  end.
(* std::set<CiString<20>>::insert: ordered by operator< of the texts *)
Fixpoint insert_s (x : string) (l : list string) : list string :=
  match l with
  | [] => [x]
  | y :: r => if ci_lt x y then x :: l else if ci_lt y x then y :: insert_s x r else l
  end.

(* smart_charging.cpp:1208 requests_to_send.back().tbc = false *)
Definition set_tbc (r : report) (b : bool) : report :=
  {| rp_request := rp_request r; rp_evse := rp_evse r; rp_source := rp_source r;
     rp_profiles := rp_profiles r; rp_tbc := b |}.
Fixpoint finish (l : list report) : list report :=
  match l with
  | [] => []
  | [r] => [set_tbc r false]
  | r :: rest => r :: finish rest
  end.

(* smart_charging.cpp:1187-1206 *)
Definition report_for (request_id : Z) (rows : list row) (e : Z) (src : string) : list report :=
  match filter (fun r => (r_evse r =? e) && ci_eq (r_source r) src) rows with
  | [] => []
  | l => [{| rp_request := request_id; rp_evse := e; rp_source := src;
             rp_profiles := map r_p l; rp_tbc := true |}]
  end.

Inductive get_status := NoProfiles | Reporting.

(* smart_charging.cpp:1154-1214 handle_get_charging_profiles_req: the answer and the
   ReportChargingProfilesRequests sent after it *)
Definition handle_get_charging_profiles_req (s : sc_state) (request_id : Z) (evse_id : option Z)
           (c : criterion) : get_status * list report :=
  let rows := get_charging_profiles_matching_criteria (db s) evse_id c in
  match rows with
  | [] => (NoProfiles, [])
  | _ =>
      let evses := fold_left (fun acc r => insert_z (r_evse r) acc) rows [] in
      let sources := fold_left (fun acc r => insert_s (r_source r) acc) rows [] in
      (Reporting,
       finish (flat_map (fun e => flat_map (fun src => report_for request_id rows e src) sources) evses))
  end.

(* database_handler.cpp:961-976 get_charging_profiles_for_evse *)
Definition get_charging_profiles_for_evse (db : list row) (evse_id : Z) : list profile :=
  map r_p (filter (fun r => r_evse r =? evse_id) db).

(* smart_charging.cpp:1387-1402 get_valid_profiles_for_evse *)
Definition get_valid_profiles_for_evse (st : station) (db : list row) (evse_id : Z)
           (ignore : list purpose) : list profile :=
  flat_map (fun p =>
    let '(r, p') := conform_and_validate_profile st db p evse_id SetProfile in
    match r with
    | Valid => if in_purposes (pf_purpose p') ignore then [] else [p']
    | _ => []
    end) (get_charging_profiles_for_evse db evse_id).

(* charge_point.cpp:1182-1204 clear_invalid_charging_profiles, called when the charge point is
   started; [rows]: what get_all_charging_profiles_group_by_evse returned, in the order visited *)
Definition clear_invalid_charging_profiles (st : station) (d : list row) (rows : list row) : list row :=
  fold_left (fun d r =>
    match fst (conform_and_validate_profile st d (r_p r) (r_evse r) SetProfile) with
    | Valid => d
    | _ => filter (fun x => negb (pf_id (r_p x) =? pf_id (r_p r))) d
    end) rows d.

Section Composite.
  Variable ar : arith.
  Variable sort_date sort_stack : list entry -> list entry.

  (* smart_charging.cpp:517-550 generate_evse_intermediates *)
  Definition generate_evse_intermediates (evse_profiles station_wide : list profile)
             (in_now in_end : Z) (session : option Z) (simulate : bool) : list (list iperiod) :=
    let ps := (evse_profiles ++ station_wide)%list in
    let gen pu := generate_profile_from_periods sort_stack
                    (calculate_all_profiles sort_date in_now in_end session ps pu) in_now in_end in
    gen PExternal ::
    (if is_some session || simulate
     then [merge_tx_profile_with_tx_default_profile (gen PTx) (gen PTxDefault)] else []).

  (* smart_charging.cpp:487-515 CompositeScheduleConfig *)
  Definition current_limit (st : station) : Z :=
    match s_amps st with Some x => f_of_int ar x | None => DEFAULT_LIMIT_AMPS end.
  Definition power_limit (st : station) : Z :=
    match s_watts st with Some x => f_of_int ar x | None => DEFAULT_LIMIT_WATTS end.
  Definition default_number_phases (st : station) : Z := value_or (s_phases st) 3.
  Definition supply_voltage (st : station) : Z :=
    match s_volts st with Some x => f_of_int ar x | None => 230 * ONE_F end.
  Definition purposes_to_ignore (st : station) (is_offline : bool) : list purpose :=
    if is_offline then s_ignored st else [].

  Definition tx_start (e : evse) : option Z := option_map snd (ev_tx e).

  (* smart_charging.cpp:553-627 calculate_composite_schedule: the periods *)
  Definition calculate_composite_schedule (st : station) (d : list row) (in_now in_end evse_id : Z)
             (u : runit) (is_offline simulate : bool) : list operiod :=
    let ignore := purposes_to_ignore st is_offline in
    let v := s_version st in
    let station_wide := get_valid_profiles_for_evse st d 0 ignore in
    let '(combined, session) :=
      if evse_id =? 0 then
        let per_evse (ie : nat * evse) :=
          merge_profiles_by_lowest_limit ar v
            (generate_evse_intermediates
               (get_valid_profiles_for_evse st d (Z.of_nat (fst ie)) ignore) station_wide
               in_now in_end (tx_start (snd ie)) simulate) in
        ([merge_profiles_by_summing_limits ar v
            (map per_evse (combine (seq 1 (List.length (s_evses st))) (s_evses st)))
            (current_limit st) (power_limit st)],
         match rev (s_evses st) with e :: _ => tx_start e | [] => None end)
      else
        let session := match get_evse st evse_id with Some e => tx_start e | None => None end in
        (generate_evse_intermediates (get_valid_profiles_for_evse st d evse_id ignore) station_wide
           in_now in_end session simulate, session) in
    let charge_point_max :=
      generate_profile_from_periods sort_stack
        (calculate_all_profiles sort_date in_now in_end session station_wide PMax) in_now in_end in
    convert_intermediate_into_schedule ar
      (merge_profiles_by_lowest_limit ar v (combined ++ [charge_point_max])%list) u
      (match u with UA => current_limit st | UW => power_limit st end)
      (default_number_phases st) (supply_voltage st).

  (* include/ocpp/v2/ocpp_types.hpp:583 struct CompositeSchedule *)
  Record composite := {
    co_evse : Z;
    co_start : Z;                 (* whole seconds *)
    co_duration : Z;
    co_unit : runit;
    co_periods : list operiod;
  }.

  (* smart_charging.cpp:1271-1317 get_composite_schedule_internal; [now]: the clock.  The
     answer carries the schedule or the reason code. *)
  Definition get_composite_schedule_internal (st : station) (d : list row) (now : Z) (evse_id : Z)
             (duration : Z) (requested : option runit) (is_offline simulate : bool)
    : composite + string :=
    let u := match requested with
             | Some x => if existsb (unit_eqb x) (s_units st) then Some x else None
             | None => hd_error (s_units st)
             end in
    match u with
    | None => inr (reason_code ChargingScheduleChargingRateUnitUnsupported)
    | Some u =>
        if evse_exists st evse_id then
          let in_end := now + duration * NS in
          inl {| co_evse := evse_id; co_start := floor_seconds now;
                 co_duration := elapsed_seconds (floor_seconds in_end) (floor_seconds now);
                 co_unit := u;
                 co_periods := calculate_composite_schedule st d now in_end evse_id u is_offline simulate |}
        else inr (reason_code EvseDoesNotExist)
    end.

  (* smart_charging.cpp:363-385 get_all_composite_schedules; one reading of the clock per EVSE,
     all the same here *)
  Definition get_all_composite_schedules (st : station) (d : list row) (now duration : Z) (u : runit)
             (is_offline : bool) : list composite :=
    flat_map (fun i =>
      match get_composite_schedule_internal st d now (Z.of_nat i) duration (Some u) is_offline true with
      | inl c => [c]
      | inr _ => []
      end) (seq 0 (S (List.length (s_evses st)))).
End Composite.

(* remote_transaction_control.cpp:36-57 is_evse_connector_available *)
Definition is_evse_connector_available (e : evse) : bool :=
  negb (is_some (ev_tx e)) && existsb (fun b => b) (ev_usable e).

Inductive remote_reply :=
| RemoteError                                     (* EvseOutOfRangeException: a CALLERROR *)
| RemoteAnswer (accepted : bool) (code : option string).

(* remote_transaction_control.cpp:122-210 handle_remote_start_transaction_request.
   [reserved]: is_evse_reserved_for_other finds a reservation for another token;
   [starts]: what remote_start_transaction_callback answers when it is called.
   Results: the state, whether the remote start id is remembered for the EVSE, whether the
   callback is called, the answer. *)
Definition handle_remote_start_transaction_request (st : station) (s : sc_state) (now : Z)
           (stored : bool) (evse_id : option Z) (reserved starts : bool) (p : option profile)
  : sc_state * bool * bool * remote_reply :=
  match evse_id with
  | None => (s, false, false, RemoteAnswer false None)
  | Some id =>
      match get_evse st id with
      | None => (s, false, false, RemoteError)
      | Some e =>
          let ok := is_evse_connector_available e && negb reserved in
          let '(s', code) :=
            match p with
            | Some q =>
                if s_enabled st && purpose_eqb (pf_purpose q) PTx then
                  match conform_validate_and_add_profile st s now stored q id "CSO" RemoteStart with
                  | (s', Accepted) => (s', None)
                  | (s', Rejected c) => (s', Some c)
                  end
                else (s, None)
            | None => (s, None)
            end in
          (s', ok, ok, RemoteAnswer (ok && starts) code)
      end
  end.

(* What reaches the stored profiles, in the order it is handled.  [OBoot rows]: the process is
   started again; [rows] is what get_all_charging_profiles_group_by_evse returns. *)
Inductive sc_op :=
| OSet (stored : bool) (p : profile) (evse_id : Z)
| ORemote (stored : bool) (evse_id : option Z) (reserved starts : bool) (p : option profile)
| OClear (id : option Z) (c : option clear_criteria)
| OEnd (transaction : Z)
| OBoot (rows : list row).

Inductive sc_out :=
| TSet (r : reply)
| TRemote (r : remote_reply)
| TOther.

(* the handlers above, called from smart_charging.cpp:280-297 handle_message and
   remote_transaction_control.cpp:88; the end of a transaction from transaction.cpp:138;
   clear_invalid_charging_profiles from charge_point.cpp:130 (start) *)
Definition sc_step (st : station) (now : Z) (s : sc_state) (o : sc_op) : sc_state * sc_out :=
  match o with
  | OSet stored p e => let '(s', r) := handle_set_charging_profile_req st s now stored p e in (s', TSet r)
  | ORemote stored e reserved starts p =>
      let '(s', _, _, r) := handle_remote_start_transaction_request st s now stored e reserved starts p in
      (s', TRemote r)
  | OClear id c => let '(s', _, _, _) := handle_clear_charging_profile_req s id c in (s', TOther)
  | OEnd t => (delete_transaction_tx_profiles s t, TOther)
  | OBoot rows =>
      ({| db := clear_invalid_charging_profiles st (db s) rows; last_update := fun _ => None |}, TOther)
  end.

(* one entry per operation: the station as it is then, the time, the operation *)
Fixpoint sc_run (s : sc_state) (l : list (station * Z * sc_op)) : sc_state * list sc_out :=
  match l with
  | [] => (s, [])
  | (st, now, o) :: r =>
      let '(s1, out) := sc_step st now s o in
      let '(s2, outs) := sc_run s1 r in (s2, out :: outs)
  end.

Definition sc_start_state : sc_state := {| db := []; last_update := fun _ => None |}.
