(** Specification of OCPP 2.x smart charging, independent of how smart_charging.cpp computes it.
    Only the record types of the models are used, and P2Spec.v. *)

From Coq Require Import ZArith String List Bool Permutation Sorted.
From Verif Require Import P2Model P2Spec Sc2Model.
Import ListNotations.
Open Scope string_scope.
Open Scope Z_scope.

(** ** Requirements on a profile *)

Definition evse_of (st : station) (id : Z) (e : evse) : Prop :=
  0 < id /\ nth_error (s_evses st) (Z.to_nat (id - 1)) = Some e.

(** EVSE 0 is the whole station. *)
Definition known (st : station) (id : Z) : Prop := id = 0 \/ exists e, evse_of st id e.

(** Number of supply phases, where known: 1 and 3 are AC, 0 is DC. *)
Definition supply_of (st : station) (id : Z) (n : Z) : Prop :=
  (id = 0 /\ n = s_supply st) \/ (exists e, evse_of st id e /\ ev_supply e = Some n).
Definition is_ac (st : station) (id : Z) : Prop := supply_of st id 1 \/ supply_of st id 3.
Definition is_dc (st : station) (id : Z) : Prop := supply_of st id 0.

(** The input phases of a DC EVSE can be controlled; for the station: of every EVSE. *)
Definition phases_controllable (st : station) (id : Z) : Prop :=
  forall e, (id = 0 /\ In e (s_evses st)) \/ evse_of st id e -> ev_dcctl e = true.

Definition from_of (p : profile) : Z := or_else (pf_from p) 0.
Definition to_of (p : profile) : Z := or_else (pf_to p) (2 ^ 63 - 1).

(** Some schedule, some period of the profile. *)
Definition some_sched (p : profile) (P : sched -> Prop) : Prop := exists s, In s (pf_scheds p) /\ P s.
Definition some_period (p : profile) (P : sched -> csp -> Prop) : Prop :=
  exists s c, In s (pf_scheds p) /\ In c (sc_periods s) /\ P s c.

Definition mode_of (c : csp) : opmode := match sp_mode c with Some m => m | None => ChargingOnly end.

(** Table 95 of part 2 of the OCPP 2.1 specification. *)
Definition mode_allowed (pu : purpose) (m : opmode) : Prop :=
  match pu with
  | PTx | PTxDefault => True
  | PPriority | PMax => m = ChargingOnly
  | PExternal => m = ChargingOnly \/ m = ExternalLimits \/ m = ExternalSetpoint
  | PLocalGen => m = ChargingOnly \/ m = ExternalLimits
  end.

(** Limits and setpoints per operation mode: what has to be there and what may be there. *)
Definition must_have (m : opmode) (c : csp) : Prop :=
  match m with
  | ChargingOnly => t1 (sp_limit c) <> None
  | CentralSetpoint | CentralFrequency => t1 (sp_set c) <> None
  | _ => True
  end.
Definition may_limit (m : opmode) : Prop :=
  In m [ChargingOnly; CentralSetpoint; CentralFrequency; ExternalSetpoint].
Definition may_discharge (m : opmode) : Prop := In m [CentralSetpoint; CentralFrequency; ExternalSetpoint].
Definition may_setpoint (m : opmode) : Prop := In m [CentralSetpoint; CentralFrequency].
Definition may_reactive (m : opmode) : Prop := m = CentralSetpoint.
Definition given (x : otri) : Prop := t1 x <> None \/ t2 x <> None \/ t3 x <> None.

Definition values_fit (c : csp) : Prop :=
  let m := mode_of c in
  must_have m c /\ (given (sp_limit c) -> may_limit m) /\ (given (sp_dis c) -> may_discharge m) /\
  (given (sp_set c) -> may_setpoint m) /\ (given (sp_react c) -> may_reactive m).

(** The setpoint of L2 or L3 has the other sign than that of L1. *)
Definition opposite_signs (c : csp) : Prop :=
  exists a b, t1 (sp_set c) = Some a /\ (t2 (sp_set c) = Some b \/ t3 (sp_set c) = Some b) /\ a * b < 0.

(** Two neighbouring periods of which the second does not start later. *)
Definition out_of_order (s : sched) : Prop :=
  exists l a b r, sc_periods s = (l ++ a :: b :: r)%list /\ sp_start b <= sp_start a.

(** What is wrong with a profile for the EVSE [id], for every reason that can be given. *)
Definition violates (st : station) (d : list row) (src : origin) (id : Z) (p : profile) (r : result)
  : Prop :=
  match r with
  | Valid => False
  | RequestStartTransactionNonTxProfile => src = RemoteStart /\ pf_purpose p <> PTx
  | EvseDoesNotExist => ~ known st id
  | ChargingProfileIdSmallerThanMaxExternalConstraintsId =>
      s_version st = V21 /\ exists m, s_maxext st = Some m /\ pf_id p <= m
  | ExistingChargingStationExternalConstraints =>
      exists x, In x d /\ pf_id (r_p x) = pf_id p /\ pf_purpose (r_p x) = PExternal
  (* schedules *)
  | ChargingProfileEmptyChargingSchedules => pf_scheds p = []
  | ChargingScheduleChargingRateUnitUnsupported =>
      some_sched p (fun s => ~ In (sc_unit s) (s_units st)) \/
      (s_version st = V21 /\ some_period p (fun s c => mode_of c = LocalFrequency /\ sc_unit s = UA))
  | ChargingProfileNoChargingSchedulePeriods => some_sched p (fun s => sc_periods s = [])
  | ChargingScheduleRandomizedDelay =>
      s_version st = V21 /\ pf_purpose p <> PTx /\ pf_purpose p <> PTxDefault /\
      some_sched p (fun s => exists n, sc_delay s = Some n /\ 0 < n)
  | ChargingProfileUnsupportedPurpose =>
      s_version st = V21 /\ (pf_purpose p = PPriority \/ pf_purpose p = PLocalGen) /\
      ~ In (pf_purpose p) (s_extra st)
  | ChargingProfileUnsupportedKind => s_version st = V21 /\ pf_kind p = Dynamic /\ s_dynamic st = false
  | ChargingProfileNotDynamic =>
      s_version st = V21 /\ (pf_dynint p = true \/ pf_dyntime p = true) /\ pf_kind p <> Dynamic
  | ChargingScheduleUnsupportedLocalTime =>
      s_version st = V21 /\ s_local st = false /\ some_sched p (fun s => sc_local s = Some true)
  | ChargingScheduleUnsupportedRandomizedDelay =>
      s_version st = V21 /\ s_delay st = false /\ some_sched p (fun s => sc_delay s <> None)
  | ChargingScheduleUnsupportedLimitAtSoC =>
      s_version st = V21 /\ s_soc st = false /\ some_sched p (fun s => sc_soc s = true)
  | ChargingProfileMissingRequiredStartSchedule =>
      (pf_kind p = Absolute \/ pf_kind p = Recurring) /\ some_sched p (fun s => sc_start s = None)
  | ChargingProfileExtraneousStartSchedule =>
      pf_kind p = Relative /\ some_sched p (fun s => sc_start s <> None)
  (* periods *)
  | ChargingSchedulePeriodInvalidPhaseToUse =>
      some_period p (fun _ c => sp_touse c <> None /\ sp_phases c <> Some 1)
  | ChargingSchedulePeriodPhaseToUseACPhaseSwitchingUnsupported =>
      s_switch st = false /\ some_period p (fun _ c => sp_touse c <> None)
  | ChargingProfileFirstStartScheduleIsNotZero =>
      some_sched p (fun s => exists c l, sc_periods s = c :: l /\ sp_start c <> 0)
  | ChargingSchedulePeriodsOutOfOrder => some_sched p out_of_order
  | ChargingSchedulePeriodExtraneousPhaseValues =>
      s_version st = V201 /\ is_dc st id /\
      some_period p (fun _ c => sp_phases c <> None \/ sp_touse c <> None)
  | ChargingSchedulePeriodNoPhaseForDC =>
      s_version st = V21 /\ is_dc st id /\ ~ phases_controllable st id /\
      some_period p (fun _ c => sp_phases c <> None \/ sp_touse c <> None)
  | ChargingSchedulePeriodUnsupportedNumberPhases =>
      is_ac st id /\ some_period p (fun _ c => exists n, sp_phases c = Some n /\ s_supply st < n)
  | ChargingSchedulePeriodPriorityChargingNotChargingOnly =>
      s_version st = V21 /\ pf_purpose p = PPriority /\
      some_period p (fun _ c => mode_of c <> ChargingOnly)
  | ChargingSchedulePeriodUnsupportedOperationMode =>
      s_version st = V21 /\ some_period p (fun _ c => ~ mode_allowed (pf_purpose p) (mode_of c))
  | ChargingScheduleUnsupportedEvseSleep =>
      s_version st = V21 /\ s_sleep st = false /\ some_period p (fun _ c => sp_sleep c = Some true)
  | ChargingSchedulePeriodUnsupportedLimitSetpoint =>
      s_version st = V21 /\ some_period p (fun _ c => ~ values_fit c)
  | ChargingSchedulePeriodNoFreqWattCurve =>
      s_version st = V21 /\
      some_period p (fun _ c => mode_of c = LocalFrequency /\
                                ~ (sp_baseline c = true /\ exists n, sp_curve c = Some n /\ (2 <= n)%nat))
  | ChargingSchedulePeriodSignDifference =>
      s_version st = V21 /\ some_period p (fun _ c => opposite_signs c)
  (* other profiles *)
  | DuplicateProfileValidityPeriod =>
      pf_purpose p <> PTx /\
      exists x, In x d /\ pf_purpose (r_p x) = pf_purpose p /\ r_evse x = id /\
                pf_id (r_p x) <> pf_id p /\ pf_stack (r_p x) = pf_stack p /\
                (exists u, pf_to (r_p x) = Some u /\ from_of p <= u) /\
                (forall f, pf_from (r_p x) = Some f -> f <= to_of p)
  | DuplicateTxDefaultProfileFound =>
      pf_purpose p = PTxDefault /\
      exists x, In x d /\ pf_purpose (r_p x) = PTxDefault /\ pf_id (r_p x) <> pf_id p /\
                pf_stack (r_p x) = pf_stack p /\ (r_evse x = 0 <-> id <> 0)
  (* purposes *)
  | ChargingStationMaxProfileEvseIdGreaterThanZero => pf_purpose p = PMax /\ 0 < id
  | ChargingStationMaxProfileCannotBeRelative => pf_purpose p = PMax /\ pf_kind p = Relative
  | TxProfileEvseIdNotGreaterThanZero => pf_purpose p = PTx /\ id <= 0
  | TxProfileMissingTransactionId => pf_purpose p = PTx /\ src = SetProfile /\ pf_tx p = None
  | TxProfileEvseHasNoActiveTransaction =>
      pf_purpose p = PTx /\ src = SetProfile /\ exists e, evse_of st id e /\ ev_tx e = None
  | TxProfileTransactionNotOnEvse =>
      pf_purpose p = PTx /\ src = SetProfile /\
      exists e t, evse_of st id e /\ ev_tx e = Some t /\ pf_tx p <> Some (fst t)
  | TxProfileConflictingStackLevel =>
      pf_purpose p = PTx /\ src = SetProfile /\
      exists x, In x d /\ pf_tx (r_p x) <> None /\ pf_tx (r_p x) = pf_tx p /\
                pf_stack (r_p x) = pf_stack p /\ pf_id (r_p x) <> pf_id p
  | ChargingSchedulePriorityExtranousDuration =>
      pf_purpose p = PPriority /\ some_sched p (fun s => sc_duration s <> None)
  | InvalidProfileType => pf_purpose p = PLocalGen
  (* not a requirement on the profile *)
  | ChargingProfileRateLimitExceeded => False
  end.

Definition fit_for (st : station) (d : list row) (src : origin) (id : Z) (p : profile) : Prop :=
  forall r, ~ violates st d src id p r.

(** The reason codes of appendix 5 of the OCPP specification, as used for each reason. *)
Definition codes : list (string * list result) :=
  [("DuplicateProfile", [DuplicateProfileValidityPeriod; DuplicateTxDefaultProfileFound;
                         ExistingChargingStationExternalConstraints]);
   ("TxNotFound", [TxProfileTransactionNotOnEvse; TxProfileEvseHasNoActiveTransaction]);
   ("InvalidStackLevel", [TxProfileConflictingStackLevel]);
   ("UnsupportedRateUnit", [ChargingScheduleChargingRateUnitUnsupported]);
   ("RateLimitExceeded", [ChargingProfileRateLimitExceeded]);
   ("InvalidProfileId", [ChargingProfileIdSmallerThanMaxExternalConstraintsId]);
   ("UnsupportedPurpose", [ChargingProfileUnsupportedPurpose]);
   ("UnsupportedKind", [ChargingProfileUnsupportedKind]);
   ("InvalidProfile", [ChargingProfileNotDynamic]);
   ("NoPhaseForDC", [ChargingSchedulePeriodNoPhaseForDC]);
   ("NoFreqWattCurve", [ChargingSchedulePeriodNoFreqWattCurve]);
   ("MissingParam", [TxProfileMissingTransactionId]);
   ("InvalidValue", [EvseDoesNotExist; TxProfileEvseIdNotGreaterThanZero;
                     ChargingStationMaxProfileCannotBeRelative;
                     ChargingStationMaxProfileEvseIdGreaterThanZero;
                     RequestStartTransactionNonTxProfile]);
   ("InternalError", [InvalidProfileType]);
   ("InvalidSchedule",
    [ChargingProfileNoChargingSchedulePeriods; ChargingProfileFirstStartScheduleIsNotZero;
     ChargingProfileMissingRequiredStartSchedule; ChargingProfileExtraneousStartSchedule;
     ChargingProfileEmptyChargingSchedules; ChargingSchedulePriorityExtranousDuration;
     ChargingScheduleRandomizedDelay; ChargingScheduleUnsupportedLocalTime;
     ChargingScheduleUnsupportedRandomizedDelay; ChargingScheduleUnsupportedLimitAtSoC;
     ChargingScheduleUnsupportedEvseSleep; ChargingSchedulePeriodsOutOfOrder;
     ChargingSchedulePeriodInvalidPhaseToUse; ChargingSchedulePeriodUnsupportedNumberPhases;
     ChargingSchedulePeriodExtraneousPhaseValues;
     ChargingSchedulePeriodPhaseToUseACPhaseSwitchingUnsupported;
     ChargingSchedulePeriodPriorityChargingNotChargingOnly;
     ChargingSchedulePeriodUnsupportedOperationMode;
     ChargingSchedulePeriodUnsupportedLimitSetpoint; ChargingSchedulePeriodSignDifference])].

Definition names (code : string) (r : result) : Prop := exists l, In (code, l) codes /\ In r l.

(** ** What is stored: the profile with its validity period filled in and, on AC, the number of
    phases of every period *)

Definition all_phases (c : csp) : csp :=
  {| sp_start := sp_start c; sp_limit := sp_limit c; sp_phases := Some (or_else (sp_phases c) 3);
     sp_touse := sp_touse c; sp_dis := sp_dis c; sp_set := sp_set c; sp_react := sp_react c;
     sp_sleep := sp_sleep c; sp_baseline := sp_baseline c; sp_mode := sp_mode c;
     sp_curve := sp_curve c |}.

Definition with_scheds (p : profile) (l : list sched) : profile :=
  {| pf_id := pf_id p; pf_stack := pf_stack p; pf_purpose := pf_purpose p; pf_kind := pf_kind p;
     pf_scheds := l; pf_recur := pf_recur p; pf_from := Some (from_of p); pf_to := Some (to_of p);
     pf_tx := pf_tx p; pf_dynint := pf_dynint p; pf_dyntime := pf_dyntime p |}.

Definition spelled_out (st : station) (id : Z) (p q : profile) : Prop :=
  (is_ac st id ->
   q = with_scheds p (map (fun s =>
         {| sc_unit := sc_unit s; sc_periods := map all_phases (sc_periods s); sc_soc := sc_soc s;
            sc_start := sc_start s; sc_duration := sc_duration s; sc_local := sc_local s;
            sc_delay := sc_delay s |}) (pf_scheds p))) /\
  (~ is_ac st id -> q = with_scheds p (pf_scheds p)).

(** The rate limit of OCPP 2.1: less than the configured number of seconds since [t]. *)
Definition too_soon (st : station) (now : Z) (t : option Z) : Prop :=
  s_version st = V21 /\ exists n t0, s_rate st = Some n /\ t = Some t0 /\
    (* whole seconds, rounded towards zero *)
    (if t0 <=? now then (now - t0) / 10 ^ 9 < n else - ((t0 - now) / 10 ^ 9) < n).

(** A row replaces the rows with the id of its profile. *)
Definition replaced (d d' : list row) (x : row) : Prop :=
  forall y, In y d' <-> y = x \/ (In y d /\ pf_id (r_p y) <> pf_id (r_p x)).

(** ** Clearing *)

Definition is_external (r : row) : Prop := pf_purpose (r_p r) = PExternal.

Definition asked (c : clear_criteria) (r : row) : Prop :=
  (forall e, cc_evse c = Some e -> r_evse r = e) /\
  (forall u, cc_purpose c = Some u -> pf_purpose (r_p r) = u) /\
  (forall n, cc_stack c = Some n -> pf_stack (r_p r) = n).

(** Exactly the rows satisfying [P] are gone. *)
Definition removed (P : row -> Prop) (d d' : list row) : Prop :=
  (forall r, In r d' <-> In r d /\ ~ P r) /\ exists f, d' = filter f d.

(** ** Reporting *)

Definition matches (evse_id : option Z) (c : criterion) (r : row) : Prop :=
  (forall e, evse_id = Some e -> r_evse r = e) /\
  match cr_ids c with
  | Some (i :: ids) => In (pf_id (r_p r)) (i :: ids)
  | _ => (forall u, cr_purpose c = Some u -> pf_purpose (r_p r) = u) /\
         (forall n, cr_stack c = Some n -> pf_stack (r_p r) = n) /\
         (forall x l, cr_sources c = Some (x :: l) -> In (r_source r) (x :: l))
  end.

(** The profiles of a report, with the EVSE and the source it names. *)
Definition reported (l : list report) : list (Z * string * profile) :=
  flat_map (fun r => map (fun p => (rp_evse r, rp_source r, p)) (rp_profiles r)) l.

Definition as_reported (r : row) : Z * string * profile := (r_evse r, r_source r, r_p r).

(** All but the last are marked "to be continued". *)
Definition marked (l : list report) : Prop :=
  exists a z, l = (a ++ [z])%list /\ rp_tbc z = false /\ Forall (fun r => rp_tbc r = true) a.

(** ** Stored profiles at any time *)

(** No two profiles with different ids get in each other's way. *)
Definition conflict_free (d : list row) : Prop :=
  NoDup (map (fun r => pf_id (r_p r)) d) /\
  forall x y, In x d -> In y d -> pf_id (r_p x) <> pf_id (r_p y) ->
  pf_stack (r_p x) = pf_stack (r_p y) -> pf_purpose (r_p x) = pf_purpose (r_p y) ->
  (pf_purpose (r_p x) <> PTx -> r_evse x = r_evse y ->
   forall fx tx fy ty, pf_from (r_p x) = Some fx -> pf_to (r_p x) = Some tx ->
                       pf_from (r_p y) = Some fy -> pf_to (r_p y) = Some ty -> tx < fy \/ ty < fx) /\
  (pf_purpose (r_p x) = PTxDefault -> (r_evse x = 0 <-> r_evse y = 0)).

(** What may be stored at all. *)
Definition well_placed (r : row) : Prop :=
  match pf_purpose (r_p r) with
  | PExternal | PLocalGen => False
  | PMax => r_evse r = 0 /\ pf_kind (r_p r) <> Relative
  | PTxDefault => 0 <= r_evse r
  | PTx => 0 < r_evse r
  | PPriority => 0 <= r_evse r /\ Forall (fun s => sc_duration s = None) (pf_scheds (r_p r))
  end /\ r_source r = "CSO" /\ pf_scheds (r_p r) <> [] /\
  pf_from (r_p r) <> None /\ pf_to (r_p r) <> None.
