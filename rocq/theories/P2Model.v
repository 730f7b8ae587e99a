(** Model of the OCPP 2.x composite schedule calculation:
    lib/ocpp/v2/profile.cpp, include/ocpp/v2/profile.hpp.

    Conventions, as for OCPP 1.6 (Prof16Model.v).
    - [ocpp::DateTime] is a [Z]: nanoseconds since some epoch.  Every instant
      that the code has passed through [floor_seconds] is kept as a [Z] of whole
      seconds.
    - A finite [float] is a [Z] in units of 2^-149; comparisons are exact.  Infinities
      and NaN are not modelled.  Rounded operations (+, *, / and int -> float) are the
      fields of a record [arith] over which all theorems quantify.
    - std::sort is a parameter; the theorems only assume that it returns a sorted
      permutation. *)

From Coq Require Import ZArith List Bool.
Import ListNotations.
Open Scope Z_scope.

(* include/ocpp/v2/ocpp_enums.hpp: ChargingRateUnitEnum *)
Inductive runit := UA | UW.
(* include/ocpp/v2/ocpp_enums.hpp:438-445 ChargingProfilePurposeEnum *)
Inductive purpose := PExternal | PMax | PTxDefault | PTx | PPriority | PLocalGen.
(* include/ocpp/v2/ocpp_enums.hpp:1818-1823 ChargingProfileKindEnum *)
Inductive pkind := Absolute | Recurring | Relative | Dynamic.
(* include/ocpp/v2/ocpp_enums.hpp:1841-1844 RecurrencyKindEnum *)
Inductive recur := Daily | Weekly.
(* include/ocpp/v2/ocpp_enums.hpp:908-917 OperationModeEnum *)
Inductive opmode := Idle | ChargingOnly | CentralSetpoint | ExternalSetpoint | ExternalLimits
                  | CentralFrequency | LocalFrequency | LocalLoadBalancing.
(* include/ocpp/common/types.hpp: OcppProtocolVersion, without v16 *)
Inductive version := V201 | V21.

Definition unit_eqb (a b : runit) : bool :=
  match a, b with UA, UA => true | UW, UW => true | _, _ => false end.
Definition purpose_eqb (a b : purpose) : bool :=
  match a, b with
  | PExternal, PExternal | PMax, PMax | PTxDefault, PTxDefault | PTx, PTx
  | PPriority, PPriority | PLocalGen, PLocalGen => true
  | _, _ => false
  end.
Definition kind_eqb (a b : pkind) : bool :=
  match a, b with
  | Absolute, Absolute | Recurring, Recurring | Relative, Relative | Dynamic, Dynamic => true
  | _, _ => false
  end.
Definition mode_eqb (a b : opmode) : bool :=
  match a, b with
  | Idle, Idle | ChargingOnly, ChargingOnly | CentralSetpoint, CentralSetpoint
  | ExternalSetpoint, ExternalSetpoint | ExternalLimits, ExternalLimits
  | CentralFrequency, CentralFrequency | LocalFrequency, LocalFrequency
  | LocalLoadBalancing, LocalLoadBalancing => true
  | _, _ => false
  end.
Definition is_v21 (v : version) : bool := match v with V21 => true | V201 => false end.

(* a value with its optional values for the phases L2 and L3 *)
Record otri := { t1 : option Z; t2 : option Z; t3 : option Z }.

(* include/ocpp/v2/ocpp_types.hpp:549-572 struct ChargingSchedulePeriod
   (preconditioningRequest, v2xSignalWattCurve and customData are never read; of
   v2xFreqWattCurve only the number of points, of v2xBaseline only the presence) *)
Record csp := {
  sp_start : Z;
  sp_limit : otri;
  sp_phases : option Z;
  sp_touse : option Z;
  sp_dis : otri;
  sp_set : otri;
  sp_react : otri;
  sp_sleep : option bool;
  sp_baseline : bool;
  sp_mode : option opmode;
  sp_curve : option nat;
}.

(* include/ocpp/v2/ocpp_types.hpp:1086-1103 struct ChargingSchedule (of limitAtSoC only the
   presence; minChargingRate is carried along and never read, the other fields are not used) *)
Record sched := {
  sc_unit : runit;
  sc_periods : list csp;
  sc_soc : bool;
  sc_start : option Z;          (* DateTime *)
  sc_duration : option Z;
  sc_local : option bool;
  sc_delay : option Z;
}.

(* include/ocpp/v2/ocpp_types.hpp:1590-1606 struct ChargingProfile (maxOfflineDuration,
   invalidAfterOfflineDuration, priceScheduleSignature and customData are never read; of
   dynUpdateInterval and dynUpdateTime only the presence; transaction ids are numbers) *)
Record profile := {
  pf_id : Z;
  pf_stack : Z;
  pf_purpose : purpose;
  pf_kind : pkind;
  pf_scheds : list sched;
  pf_recur : option recur;
  pf_from : option Z;           (* DateTime *)
  pf_to : option Z;             (* DateTime *)
  pf_tx : option Z;
  pf_dynint : bool;
  pf_dyntime : bool;
}.

Definition no_sched : sched :=
  {| sc_unit := UA; sc_periods := []; sc_soc := false; sc_start := None; sc_duration := None;
     sc_local := None; sc_delay := None |}.

(* in_profile.chargingSchedule.front(); undefined behaviour on an empty vector, which
   validate_profile_schedules rules out *)
Definition pf_sched (p : profile) : sched := hd no_sched (pf_scheds p).

Definition NS : Z := 1000000000.

(* std::numeric_limits<int>::max() *)
Definition INT_MAX : Z := 2147483647.

(* include/ocpp/common/utils.hpp:47-49 clamp_to<int32_t>: only the upper bound is
   clamped; a value below the range goes through static_cast (modulo 2^32) *)
Definition clamp_int (x : Z) : Z :=
  if x <=? INT_MAX
  then (x + 2147483648) mod 4294967296 - 2147483648
  else INT_MAX.

(* profile.cpp:45-47 floor_seconds, result in whole seconds *)
Definition floor_seconds (t : Z) : Z := t / NS.

(* profile.cpp:41-43 elapsed_seconds, both arguments whole seconds *)
Definition elapsed_seconds (to from : Z) : Z := clamp_int (to - from).

(* include/ocpp/common/constants.hpp:18-25; FLT_MAX is std::numeric_limits<float>::max() *)
Definition ONE_F : Z := 2 ^ 149.
Definition FLT_MAX : Z := (2 ^ 24 - 1) * 2 ^ (104 + 149).
Definition NO_LIMIT : Z := - ONE_F.
Definition NO_SETPOINT : Z := FLT_MAX.
Definition NO_DISCHARGE : Z := - FLT_MAX.
Definition DEFAULT_LIMIT_AMPS : Z := 48 * ONE_F.
Definition DEFAULT_LIMIT_WATTS : Z := 33120 * ONE_F.

(* lib/ocpp/common/utils.cpp:109-115 is_equal with the default epsilon 2^-52: the
   difference is computed in double, which rounds everything from 2^-52 - 2^-106 on up to
   2^-52 *)
Definition is_equal (a b : Z) : bool := Z.abs (a - b) <? 2 ^ 97 - 2 ^ 43.

(* profile.hpp:10-16 struct PeriodLimit *)
Record plim := { l1 : Z; l2 : Z; l3 : Z }.

Definition plim_all (x : Z) : plim := {| l1 := x; l2 := x; l3 := x |}.

(* profile.cpp:73-75 PeriodLimit::operator== *)
Definition plim_eqb (a b : plim) : bool :=
  is_equal (l1 a) (l1 b) && is_equal (l2 a) (l2 b) && is_equal (l3 a) (l3 b).

(* profile.hpp:40-62 struct period_entry_t (min_charging_rate is never read; phase_to_use
   is never set by init and so always absent) *)
Record entry := {
  e_start : Z;                  (* whole seconds *)
  e_end : Z;                    (* whole seconds *)
  e_limit : plim;
  e_dis : plim;
  e_set : plim;
  e_phases : option Z;
  e_stack : Z;
  e_unit : runit;
}.

(* std::optional<T>::value_or *)
Definition value_or {A} (o : option A) (d : A) : A := match o with Some x => x | None => d end.

Definition is_some {A} (o : option A) : bool := match o with Some _ => true | None => false end.

(* profile.cpp:107-113 *)
Definition plim_of (o : otri) (d : Z) : plim :=
  {| l1 := value_or (t1 o) d; l2 := value_or (t2 o) d; l3 := value_or (t3 o) d |}.

(* profile.cpp:95-105 *)
Definition entry_limit (c : csp) (u : runit) : plim :=
  let l := plim_of (sp_limit c) NO_LIMIT in
  if negb (is_some (t1 (sp_limit c))) && mode_eqb (value_or (sp_mode c) ChargingOnly) ChargingOnly
  then {| l1 := match u with UA => DEFAULT_LIMIT_AMPS | UW => DEFAULT_LIMIT_WATTS end;
          l2 := l2 l; l3 := l3 l |}
  else l.

(* profile.cpp:85-116 period_entry_t::init *)
Definition entry_init (in_start in_duration : Z) (c : csp) (p : profile) : entry :=
  {| e_start := in_start + sp_start c;
     e_end := in_start + in_duration;
     e_limit := entry_limit c (sc_unit (pf_sched p));
     e_dis := plim_of (sp_dis c) NO_DISCHARGE;
     e_set := plim_of (sp_set c) NO_SETPOINT;
     e_phases := sp_phases c;
     e_stack := pf_stack p;
     e_unit := sc_unit (pf_sched p) |}.

Definition set_e_start (e : entry) (s : Z) : entry :=
  {| e_start := s; e_end := e_end e; e_limit := e_limit e; e_dis := e_dis e; e_set := e_set e;
     e_phases := e_phases e; e_stack := e_stack e; e_unit := e_unit e |}.

(* profile.cpp:118-138 period_entry_t::validate; [now] in whole seconds.  Returns
   the possibly shortened entry and whether it is valid. *)
Definition entry_validate (e : entry) (p : profile) (now : Z) : entry * bool :=
  let '(e, ok) :=
    match pf_from p with
    | Some vf =>
        let valid_from := floor_seconds vf in
        if e_start e <? valid_from then
          if e_end e <=? valid_from then (e, false)
          else (set_e_start e valid_from, true)
        else (e, true)
    | None => (e, true)
    end in
  (e, ok && (e_start e <? e_end e) && (now <? e_end e)).

(* profile.cpp:198-217: length of one recurrence in seconds *)
Definition recur_seconds (r : recur) : Z :=
  match r with Daily => 24 * 3600 | Weekly => 86400 * 7 end.

(* profile.cpp:222-225: while (start <= end) push_back, start += forward *)
Fixpoint occurrences (fuel : nat) (start forward end_ : Z) : list Z :=
  match fuel with
  | O => []
  | S f => if start <=? end_
           then start :: occurrences f (start + forward) forward end_
           else []
  end.

(* profile.cpp:146-241 calculate_start.  in_now, in_end and the session start are
   DateTimes; the result is in whole seconds.  C++ % truncates towards zero. *)
Definition calculate_start (in_now in_end : Z) (session : option Z) (p : profile) : list Z :=
  let start := floor_seconds in_now in
  match pf_kind p with
  | Absolute =>
      match sc_start (pf_sched p) with
      | Some s => [floor_seconds s]
      | None => match pf_from p with
                | Some vf => [floor_seconds vf]
                | None => [start]
                end
      end
  | Recurring =>
      match pf_recur p, sc_start (pf_sched p) with
      | Some r, Some s =>
          let start_schedule := floor_seconds s in
          let end_ := floor_seconds in_end in
          let back := Z.rem (start - start_schedule) (recur_seconds r) in
          let back := if back <? 0 then back + recur_seconds r else back in
          let first := start - back in
          occurrences (Z.to_nat ((end_ - first) / recur_seconds r + 1))
                      first (recur_seconds r) end_
      | _, _ => []
      end
  | Relative =>
      match session with
      | Some s => [floor_seconds s]
      | None => [start]
      end
  | Dynamic => [start]
  end.

(* profile.cpp:285-317: the duration of a period, counted from the schedule start;
   [next] is the start of the next occurrence, if any *)
Definition entry_duration (p : profile) (next_period : option csp) (start : Z) (next : option Z) : Z :=
  let d := match next_period with Some c => sp_start c | None => INT_MAX end in
  let d := match sc_duration (pf_sched p) with
           | Some x => if x <? d then x else d
           | None => d
           end in
  let d := match next with
           | Some n => if clamp_int (n - start) <? d then clamp_int (n - start) else d
           | None => d
           end in
  match pf_to p with
  | Some vt => let v := clamp_int (floor_seconds vt - start) in
               if v <? d then v else d
  | None => d
  end.

(* profile.cpp:272-326: the loop over the start times *)
Fixpoint entries_of_starts (p : profile) (c : csp) (next_period : option csp) (now : Z)
         (starts : list Z) : list entry :=
  match starts with
  | [] => []
  | s :: rest =>
      let e := entry_init s (entry_duration p next_period s (hd_error rest)) c p in
      let '(e, ok) := entry_validate e p now in
      (if ok then [e] else []) ++ entries_of_starts p c next_period now rest
  end.

(* profile.cpp:243-331 calculate_profile_entry *)
Definition calculate_profile_entry (in_now in_end : Z) (session : option Z) (p : profile)
           (i : nat) : list entry :=
  let ps := sc_periods (pf_sched p) in
  match nth_error ps i with
  | None => []
  | Some this =>
      let bad :=
        match i with
        | O => negb (sp_start this =? 0)
        | S j => match nth_error ps j with
                 | Some prev => sp_start this <=? sp_start prev
                 | None => false
                 end
        end in
      if bad then []
      else entries_of_starts p this (nth_error ps (S i)) (floor_seconds in_now)
                             (calculate_start in_now in_end session p)
  end.

(* profile.cpp:334-350 calculate_profile_unsorted; entry.start is a whole number of
   seconds, [in_end] a DateTime *)
Definition calculate_profile_unsorted (in_now in_end : Z) (session : option Z) (p : profile)
  : list entry :=
  flat_map (fun i => filter (fun e => e_start e * NS <=? in_end)
                            (calculate_profile_entry in_now in_end session p i))
           (seq 0 (length (sc_periods (pf_sched p)))).

Section Sorting.
  (* std::sort with the comparators of profile.cpp:354-360 (by start) and 400-406
     (by stack level) *)
  Variable sort_date : list entry -> list entry.
  Variable sort_stack : list entry -> list entry.

  (* profile.cpp:373-387 calculate_all_profiles *)
  Definition calculate_all_profiles (in_now in_end : Z) (session : option Z)
             (ps : list profile) (pu : purpose) : list entry :=
    sort_date
      (flat_map (fun p => if purpose_eqb (pf_purpose p) pu
                          then calculate_profile_unsorted in_now in_end session p
                          else []) ps).
End Sorting.

(* profile.hpp:18-28 struct IntermediatePeriod (phaseToUse is never set, see [entry]) *)
Record iperiod := {
  ip_start : Z;
  ip_cur : plim;
  ip_pow : plim;
  ip_dcur : plim;
  ip_dpow : plim;
  ip_scur : plim;
  ip_spow : plim;
  ip_phases : option Z;
}.

(* profile.cpp:50-70 default_intermediate_period *)
Definition no_limit_period (start : Z) : iperiod :=
  {| ip_start := start; ip_cur := plim_all NO_LIMIT; ip_pow := plim_all NO_LIMIT;
     ip_dcur := plim_all NO_DISCHARGE; ip_dpow := plim_all NO_DISCHARGE;
     ip_scur := plim_all NO_SETPOINT; ip_spow := plim_all NO_SETPOINT; ip_phases := None |}.

(* profile.cpp:417-429: choosing the entry for the time [current].  State: earliest,
   next_earliest, chosen *)
Fixpoint choose (current : Z) (periods : list entry) (earliest next_earliest : Z)
         (chosen : option entry) : Z * Z * option entry :=
  match periods with
  | [] => (earliest, next_earliest, chosen)
  | s :: rest =>
      if (e_start s <=? earliest) && (current <? e_end s) then
        if e_start s <=? current
        then (e_start s, earliest, Some s)
        else choose current rest (e_start s) earliest (Some s)
      else choose current rest earliest next_earliest chosen
  end.

(* profile.cpp:437-471 *)
Definition period_of_entry (start : Z) (e : entry) : iperiod :=
  match e_unit e with
  | UA => {| ip_start := start; ip_cur := e_limit e; ip_pow := plim_all NO_LIMIT;
             ip_dcur := e_dis e; ip_dpow := plim_all NO_DISCHARGE;
             ip_scur := e_set e; ip_spow := plim_all NO_SETPOINT; ip_phases := e_phases e |}
  | UW => {| ip_start := start; ip_cur := plim_all NO_LIMIT; ip_pow := e_limit e;
             ip_dcur := plim_all NO_DISCHARGE; ip_dpow := e_dis e;
             ip_scur := plim_all NO_SETPOINT; ip_spow := e_set e; ip_phases := e_phases e |}
  end.

(* profile.cpp:411-480, the while loop; [fuel] bounds the number of rounds.  A null
   [chosen] would be dereferenced at line 446; the model then stops (the theorems show
   that it does not happen) *)
Fixpoint generate_loop (fuel : nat) (periods : list entry) (now end_ current : Z) : list iperiod :=
  match fuel with
  | O => []
  | S f =>
      if current <? end_ then
        let '(earliest, next_earliest, chosen) := choose current periods end_ end_ None in
        if current <? earliest then
          no_limit_period (elapsed_seconds current now)
            :: generate_loop f periods now end_ earliest
        else
          match chosen with
          | None => []
          | Some e =>
              period_of_entry (elapsed_seconds current now) e
                :: generate_loop f periods now end_
                     (if e_end e <? next_earliest then e_end e else next_earliest)
          end
      else []
  end.

Section Generate.
  Variable sort_stack : list entry -> list entry.

  (* profile.cpp:389-483 generate_profile_from_periods *)
  Definition generate_profile_from_periods (periods : list entry) (in_now in_end : Z)
    : list iperiod :=
    let now := floor_seconds in_now in
    let end_ := floor_seconds in_end in
    match periods with
    | [] => [no_limit_period 0]
    | _ => generate_loop (2 * length periods + 2) (sort_stack periods) now end_ now
    end.
End Generate.

(* std::optional comparison *)
Definition oz_eqb (a b : option Z) : bool :=
  match a, b with
  | None, None => true
  | Some x, Some y => x =? y
  | _, _ => false
  end.

(* profile.cpp:525-531: [true] when the period equals the last one pushed *)
Definition same_iperiod (a b : iperiod) : bool :=
  plim_eqb (ip_cur a) (ip_cur b) && plim_eqb (ip_pow a) (ip_pow b) &&
  plim_eqb (ip_dcur a) (ip_dcur b) && plim_eqb (ip_dpow a) (ip_dpow b) &&
  plim_eqb (ip_scur a) (ip_scur b) && plim_eqb (ip_spow a) (ip_spow b) &&
  oz_eqb (ip_phases a) (ip_phases b).

Definition set_ip_start (p : iperiod) (s : Z) : iperiod :=
  {| ip_start := s; ip_cur := ip_cur p; ip_pow := ip_pow p; ip_dcur := ip_dcur p;
     ip_dpow := ip_dpow p; ip_scur := ip_scur p; ip_spow := ip_spow p;
     ip_phases := ip_phases p |}.

(* an iterator pair of profile.cpp:510-516 that has not reached its end: the period it
   points to and the ones after it *)
Definition iter := (iperiod * list iperiod)%type.

(* profile.cpp:536-543 *)
Definition next_lowest (its : list iter) (current : Z) : Z :=
  fold_left (fun acc it =>
               match snd it with
               | n :: _ => if (current <? ip_start n) && (ip_start n <? acc)
                           then ip_start n else acc
               | [] => acc
               end) its INT_MAX.

(* profile.cpp:551-556 *)
Definition advance (next : Z) (it : iter) : iter :=
  match snd it with
  | n :: rest => if ip_start n =? next then (n, rest) else it
  | [] => it
  end.

(* profile.cpp:518-558, the while loop over at least one iterator; no iterator ever
   reaches its end, so the loop condition stays true *)
Fixpoint combine_loop (fuel : nat) (comb : list iperiod -> iperiod) (its : list iter)
         (current : Z) (last : option iperiod) : list iperiod :=
  match fuel with
  | O => []
  | S f =>
      let period := set_ip_start (comb (map fst its)) current in
      let skip := match last with Some l => same_iperiod period l | None => false end in
      let last' := if skip then last else Some period in
      let nl := next_lowest its current in
      (if skip then [] else [period]) ++
      (if nl =? INT_MAX then []
       else combine_loop f comb (map (advance nl) its) nl last')
  end.

Definition iters (profiles : list (list iperiod)) : list iter :=
  flat_map (fun p => match p with [] => [] | x :: r => [(x, r)] end) profiles.

(* profile.cpp:500-565 combine_list_of_profiles *)
Definition combine_list_of_profiles (profiles : list (list iperiod))
           (comb : list iperiod -> iperiod) : list iperiod :=
  match iters profiles with
  | [] => [no_limit_period 0]
  | its => combine_loop (S (length (concat profiles))) comb its 0 None
  end.

(* profile.cpp:584-588 *)
Definition specifies (p : iperiod) : bool :=
  let d := no_limit_period 0 in
  negb (plim_eqb (ip_cur p) (ip_cur d)) || negb (plim_eqb (ip_pow p) (ip_pow d)) ||
  negb (plim_eqb (ip_dcur p) (ip_dcur d)) || negb (plim_eqb (ip_dpow p) (ip_dpow d)) ||
  negb (plim_eqb (ip_scur p) (ip_scur d)) || negb (plim_eqb (ip_spow p) (ip_spow d)).

(* profile.cpp:571-601 *)
Fixpoint comb_tx (ps : list iperiod) : iperiod :=
  match ps with
  | [] => no_limit_period 0
  | p :: rest => if specifies p then set_ip_start p 0 else comb_tx rest
  end.

(* profile.cpp:569-607 *)
Definition merge_tx_profile_with_tx_default_profile (tx tx_default : list iperiod) : list iperiod :=
  combine_list_of_profiles [tx; tx_default] comb_tx.

(* rounded binary32 operations, see the head of the file *)
Record arith := {
  f_add : Z -> Z -> Z;
  f_mul : Z -> Z -> Z;
  f_div : Z -> Z -> Z;
  f_of_int : Z -> Z;
}.

(* profile.cpp:868-878, 880-890: one phase only, the lowest value counts *)
Definition single_phase (x : plim) (none : Z) : plim :=
  if is_equal (l1 x) none then x
  else
    let x := if is_equal (l2 x) none then x
             else {| l1 := Z.min (l1 x) (l2 x); l2 := none; l3 := l3 x |} in
    if is_equal (l3 x) none then x
    else {| l1 := Z.min (l1 x) (l3 x); l2 := l2 x; l3 := none |}.

(* profile.cpp:855-912 set_setpoint_limit_phase_values: the current limit and the power
   limit after the call *)
Definition set_setpoint_limit_phase_values (ar : arith) (cur pow : plim) (none : Z)
           (phases : option Z) (v : version) : plim * plim :=
  if negb (is_v21 v) then (cur, pow)
  else
    match phases with
    | None => (cur, pow)
    | Some n =>
        if n =? 1 then (single_phase cur none, single_phase pow none)
        else if n <? 1 then (cur, pow)
        else
          (if negb (is_equal (l1 cur) none) && (is_equal (l2 cur) none || is_equal (l3 cur) none)
           then plim_all (l1 cur) else cur,
           if negb (is_equal (l1 pow) none) && (is_equal (l2 pow) none || is_equal (l3 pow) none)
           then plim_all (f_div ar (l1 pow) (f_of_int ar n)) else pow)
    end.

(* profile.cpp:921-932 get_max_limit *)
Definition get_max_limit (a b : Z) (cap : option Z) : Z :=
  let l := if b <? 0 then Z.max a b else a in
  match cap with Some c => Z.max l c | None => l end.

(* profile.cpp:959-970 get_min_limit *)
Definition get_min_limit (a b : Z) (cap : option Z) : Z :=
  let l := if 0 <=? b then Z.min a b else a in
  match cap with Some c => Z.min l c | None => l end.

(* profile.cpp:941-950 and 979-988: the same for every phase *)
Definition plim_lift (f : Z -> Z -> option Z -> Z) (a b : plim) (cap : option plim) : plim :=
  {| l1 := f (l1 a) (l1 b) (option_map l1 cap);
     l2 := f (l2 a) (l2 b) (option_map l2 cap);
     l3 := f (l3 a) (l3 b) (option_map l3 cap) |}.

Definition set_l1 (x : plim) (v : Z) : plim := {| l1 := v; l2 := l2 x; l3 := l3 x |}.

(* profile.cpp:1004-1035 get_set_setpoint_limit: setpoint1 after the call *)
Definition get_set_setpoint_limit (s1 s2 cap_limit cap_discharge : plim) : plim :=
  let has1 := negb (is_equal (l1 s1) NO_SETPOINT) in
  let has2 := negb (is_equal (l1 s2) NO_SETPOINT) in
  if has2 || has1 then
    let s1 := if has2 && has1
              then set_l1 s1 (if l1 s1 <? 0 then Z.max (l1 s1) (l1 s2) else Z.min (l1 s1) (l1 s2))
              else if has2 then set_l1 s1 (l1 s2) else s1 in
    if l1 s1 <? 0 then plim_lift get_max_limit s1 s2 (Some cap_discharge)
    else plim_lift get_min_limit s1 s2 (Some cap_limit)
  else s1.

(* profile.cpp:1042-1055 uses_three_phase_values *)
Definition uses_three_phase_values (p : iperiod) : bool :=
  let some_of x none := negb (is_equal (l2 x) none) || negb (is_equal (l3 x) none) in
  some_of (ip_cur p) NO_LIMIT || some_of (ip_pow p) NO_LIMIT ||
  some_of (ip_dcur p) NO_DISCHARGE || some_of (ip_dpow p) NO_DISCHARGE ||
  some_of (ip_scur p) NO_SETPOINT || some_of (ip_spow p) NO_SETPOINT.

(* profile.cpp:628-632: the number of phases of the merged period *)
Definition lowest_phases (acc it : option Z) : option Z :=
  match acc, it with
  | None, x => x
  | Some a, Some b => if b <? a then Some b else Some a
  | Some a, None => Some a
  end.

(* profile.cpp:702-707 *)
Definition highest_phases (acc it : option Z) : option Z :=
  match acc, it with
  | None, x => x
  | Some a, Some b => if a <? b then Some b else Some a
  | Some a, None => Some a
  end.

(* profile.cpp:639-647 and 715-723: the copy of the period with equalised phases *)
Definition spread_period (ar : arith) (three : bool) (phases : option Z) (v : version)
           (p : iperiod) : iperiod :=
  if three then
    let '(c, w) := set_setpoint_limit_phase_values ar (ip_cur p) (ip_pow p) NO_LIMIT phases v in
    let '(dc, dw) := set_setpoint_limit_phase_values ar (ip_dcur p) (ip_dpow p) NO_DISCHARGE phases v in
    let '(sc, sw) := set_setpoint_limit_phase_values ar (ip_scur p) (ip_spow p) NO_SETPOINT phases v in
    {| ip_start := ip_start p; ip_cur := c; ip_pow := w; ip_dcur := dc; ip_dpow := dw;
       ip_scur := sc; ip_spow := sw; ip_phases := ip_phases p |}
  else p.

(* profile.cpp:649-660: one round of the second loop, [it] already equalised *)
Definition lowest_step (acc it : iperiod) : iperiod :=
  let c := plim_lift get_min_limit (ip_cur acc) (ip_cur it) None in
  let w := plim_lift get_min_limit (ip_pow acc) (ip_pow it) None in
  let dc := plim_lift get_max_limit (ip_dcur acc) (ip_dcur it) None in
  let dw := plim_lift get_max_limit (ip_dpow acc) (ip_dpow it) None in
  {| ip_start := ip_start acc; ip_cur := c; ip_pow := w; ip_dcur := dc; ip_dpow := dw;
     ip_scur := get_set_setpoint_limit (ip_scur acc) (ip_scur it) c dc;
     ip_spow := get_set_setpoint_limit (ip_spow acc) (ip_spow it) w dw;
     ip_phases := ip_phases acc |}.

(* profile.cpp:663-673 replace_max_with_no_limit *)
Definition replace_max (x : plim) (mx by_ : Z) : plim :=
  let r y := if is_equal y mx then by_ else y in
  {| l1 := r (l1 x); l2 := r (l2 x); l3 := r (l3 x) |}.

(* profile.cpp:611-685 *)
Definition comb_lowest (ar : arith) (v : version) (ps : list iperiod) : iperiod :=
  let phases := fold_left (fun acc p => lowest_phases acc (ip_phases p)) ps None in
  let three := existsb (fun p => is_v21 v && uses_three_phase_values p) ps in
  let p := fold_left lowest_step (map (spread_period ar three phases v) ps)
             {| ip_start := 0; ip_cur := plim_all FLT_MAX; ip_pow := plim_all FLT_MAX;
                ip_dcur := plim_all NO_DISCHARGE; ip_dpow := plim_all NO_DISCHARGE;
                ip_scur := plim_all FLT_MAX; ip_spow := plim_all FLT_MAX; ip_phases := phases |} in
  {| ip_start := ip_start p;
     ip_cur := replace_max (ip_cur p) FLT_MAX NO_LIMIT;
     ip_pow := replace_max (ip_pow p) FLT_MAX NO_LIMIT;
     ip_dcur := replace_max (ip_dcur p) NO_DISCHARGE NO_DISCHARGE;
     ip_dpow := replace_max (ip_dpow p) NO_DISCHARGE NO_DISCHARGE;
     ip_scur := replace_max (ip_scur p) FLT_MAX NO_SETPOINT;
     ip_spow := replace_max (ip_spow p) FLT_MAX NO_SETPOINT;
     ip_phases := ip_phases p |}.

(* profile.cpp:609-688; convert_to_ref_vector (491-498) is the identity here *)
Definition merge_profiles_by_lowest_limit (ar : arith) (v : version) (ps : list (list iperiod))
  : list iperiod :=
  combine_list_of_profiles ps (comb_lowest ar v).

(* profile.cpp:725-748: adding one limit *)
Definition sum_plim (ar : arith) (three : bool) (dflt : Z) (acc x : plim) : plim :=
  let add a b := f_add ar a (if 0 <=? b then b else dflt) in
  {| l1 := add (l1 acc) (l1 x);
     l2 := if three then add (l2 acc) (l2 x) else NO_LIMIT;
     l3 := if three then add (l3 acc) (l3 x) else NO_LIMIT |}.

(* profile.cpp:714-749 *)
Definition sum_step (ar : arith) (three : bool) (cdef wdef : Z) (acc it : iperiod) : iperiod :=
  {| ip_start := ip_start acc;
     ip_cur := sum_plim ar three cdef (ip_cur acc) (ip_cur it);
     ip_pow := sum_plim ar three wdef (ip_pow acc) (ip_pow it);
     ip_dcur := ip_dcur acc; ip_dpow := ip_dpow acc;
     ip_scur := ip_scur acc; ip_spow := ip_spow acc;
     ip_phases := ip_phases acc |}.

(* profile.cpp:693-751; the discharge limits keep the zeros of the value-initialised period *)
Definition comb_sum (ar : arith) (v : version) (cdef wdef : Z) (ps : list iperiod) : iperiod :=
  let phases := fold_left (fun acc p => highest_phases acc (ip_phases p)) ps None in
  let three := existsb (fun p => is_v21 v && uses_three_phase_values p) ps in
  fold_left (sum_step ar three cdef wdef) (map (spread_period ar three phases v) ps)
    {| ip_start := 0; ip_cur := plim_all 0; ip_pow := plim_all 0;
       ip_dcur := plim_all 0; ip_dpow := plim_all 0;
       ip_scur := plim_all NO_SETPOINT; ip_spow := plim_all NO_SETPOINT; ip_phases := phases |}.

(* profile.cpp:690-754 *)
Definition merge_profiles_by_summing_limits (ar : arith) (v : version) (ps : list (list iperiod))
           (cdef wdef : Z) : list iperiod :=
  combine_list_of_profiles ps (comb_sum ar v cdef wdef).

(* the fields of the ChargingSchedulePeriods of a composite schedule that are ever set *)
Record operiod := {
  op_start : Z;
  op_phases : option Z;
  op_limit : otri;
  op_dis : otri;
  op_set : otri;
}.

(* profile.cpp:1065-1079 store_limit_to_phase_limits *)
Definition store_limit (x : plim) (none : Z) (v : otri) : otri :=
  let st y o := if is_equal y none then o else Some y in
  {| t1 := st (l1 x) (t1 v); t2 := st (l2 x) (t2 v); t3 := st (l3 x) (t3 v) |}.

(* profile.cpp:1094-1115 convert_and_transform_limit_value *)
Definition transform_value (ar : arith) (x none t : Z) (v : option Z) (use_min use_divide : bool)
  : option Z :=
  if is_equal x none then v
  else
    let y := if use_divide then f_div ar x t else f_mul ar x t in
    match v with
    | Some w => Some (if use_min then Z.min w y else Z.max w y)
    | None => Some y
    end.

(* profile.cpp:1136-1151 convert_and_transform_limit_to_period_schedule *)
Definition transform_limit (ar : arith) (x : plim) (none voltage phases : Z) (v : otri)
           (use_min use_divide : bool) : otri :=
  let t := if is_equal (l2 x) none || is_equal (l3 x) none
           then f_mul ar voltage (f_of_int ar phases) else voltage in
  {| t1 := transform_value ar (l1 x) none t (t1 v) use_min use_divide;
     t2 := transform_value ar (l2 x) none t (t2 v) use_min use_divide;
     t3 := transform_value ar (l3 x) none t (t3 v) use_min use_divide |}.

(* profile.cpp:763-820: converting one period *)
Definition convert_period (ar : arith) (u : runit) (default_limit default_phases voltage : Z)
           (p : iperiod) : operiod :=
  let none := {| t1 := None; t2 := None; t3 := None |} in
  let first := {| t1 := Some (if is_equal (l1 (ip_cur p)) NO_LIMIT && is_equal (l1 (ip_pow p)) NO_LIMIT
                              then default_limit else FLT_MAX);
                  t2 := None; t3 := None |} in
  let n := value_or (ip_phases p) default_phases in
  let both direct other none_v start use_min :=
    transform_limit ar other none_v voltage n (store_limit direct none_v start) use_min
                    (unit_eqb u UA) in
  let pick a b := match u with UA => a | UW => b end in
  {| op_start := ip_start p;
     op_phases := ip_phases p;
     op_limit := both (pick (ip_cur p) (ip_pow p)) (pick (ip_pow p) (ip_cur p)) NO_LIMIT first true;
     op_dis := both (pick (ip_dcur p) (ip_dpow p)) (pick (ip_dpow p) (ip_dcur p)) NO_DISCHARGE none false;
     op_set := both (pick (ip_scur p) (ip_spow p)) (pick (ip_spow p) (ip_scur p)) NO_SETPOINT none true |}.

(* profile.cpp:822-824 *)
Definition same_operiod (a b : operiod) : bool :=
  oz_eqb (t1 (op_limit a)) (t1 (op_limit b)) && oz_eqb (op_phases a) (op_phases b) &&
  oz_eqb (t1 (op_set a)) (t1 (op_set b)) && oz_eqb (t1 (op_dis a)) (t1 (op_dis b)).

(* profile.cpp:762-827 *)
Fixpoint convert_loop (ar : arith) (u : runit) (default_limit default_phases voltage : Z)
         (l : list iperiod) (last : option operiod) : list operiod :=
  match l with
  | [] => []
  | p :: rest =>
      let o := convert_period ar u default_limit default_phases voltage p in
      match last with
      | Some b =>
          if same_operiod o b
          then convert_loop ar u default_limit default_phases voltage rest last
          else o :: convert_loop ar u default_limit default_phases voltage rest (Some o)
      | None => o :: convert_loop ar u default_limit default_phases voltage rest (Some o)
      end
  end.

(* profile.cpp:756-830 convert_intermediate_into_schedule *)
Definition convert_intermediate_into_schedule (ar : arith) (l : list iperiod) (u : runit)
           (default_limit default_phases voltage : Z) : list operiod :=
  convert_loop ar u default_limit default_phases voltage l None.
