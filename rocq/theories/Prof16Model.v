(** Model of the OCPP 1.6 composite schedule calculation:
    lib/ocpp/v16/profile.cpp, include/ocpp/v16/profile.hpp.

    Conventions.
    - [ocpp::DateTime] is a [Z]: nanoseconds since some epoch.  Every instant
      that the code has passed through [floor_seconds] is kept as a [Z] of whole
      seconds.
    - A finite [float] is a [Z] in units of 2^-149: every finite binary32 value is
      an integer multiple of that, so comparisons are exact.  Infinities and NaN
      are not modelled.  Rounded operations (+, *, / and int -> float) are the
      fields of a record [arith] over which all theorems quantify.
    - std::sort is a parameter; the theorems only assume that it returns a sorted
      permutation. *)

From Coq Require Import ZArith List Bool.
Import ListNotations.
Open Scope Z_scope.

(* include/ocpp/v16/ocpp_enums.hpp: ChargingRateUnit *)
Inductive runit := UA | UW.
(* ChargingProfilePurposeType *)
Inductive purpose := PMax | PTxDefault | PTx.
(* ChargingProfileKindType *)
Inductive pkind := Absolute | Recurring | Relative.
(* RecurrencyKindType *)
Inductive recur := Daily | Weekly.

Definition unit_eqb (a b : runit) : bool :=
  match a, b with UA, UA => true | UW, UW => true | _, _ => false end.
Definition purpose_eqb (a b : purpose) : bool :=
  match a, b with
  | PMax, PMax => true | PTxDefault, PTxDefault => true | PTx, PTx => true
  | _, _ => false
  end.
Definition kind_eqb (a b : pkind) : bool :=
  match a, b with
  | Absolute, Absolute => true | Recurring, Recurring => true | Relative, Relative => true
  | _, _ => false
  end.

(* include/ocpp/v16/ocpp_types.hpp: struct ChargingSchedulePeriod *)
Record csp := { sp_start : Z; sp_limit : Z; sp_phases : option Z }.

(* include/ocpp/v16/ocpp_types.hpp: struct ChargingSchedule (minChargingRate is
   carried along by the code and never read; left out) *)
Record sched := {
  sc_unit : runit;
  sc_periods : list csp;
  sc_duration : option Z;
  sc_start : option Z;          (* DateTime *)
}.

(* include/ocpp/v16/ocpp_types.hpp: struct ChargingProfile *)
Record profile := {
  pf_id : Z;
  pf_stack : Z;
  pf_purpose : purpose;
  pf_kind : pkind;
  pf_sched : sched;
  pf_tx : option Z;
  pf_recur : option recur;
  pf_from : option Z;           (* DateTime *)
  pf_to : option Z;             (* DateTime *)
}.

Definition NS : Z := 1000000000.

(* std::numeric_limits<int>::max() *)
Definition INT_MAX : Z := 2147483647.

(* include/ocpp/common/utils.hpp:47-49 clamp_to<int32_t>: only the upper bound is
   clamped; a value below the range goes through static_cast (modulo 2^32) *)
Definition clamp_int (x : Z) : Z :=
  if x <=? INT_MAX
  then (x + 2147483648) mod 4294967296 - 2147483648
  else INT_MAX.

(* profile.cpp:81-83 floor_seconds, result in whole seconds *)
Definition floor_seconds (t : Z) : Z := t / NS.

(* profile.cpp:77-79 elapsed_seconds, both arguments whole seconds *)
Definition elapsed_seconds (to from : Z) : Z := clamp_int (to - from).

(* profile.hpp: struct period_entry_t (min_charging_rate left out, never read) *)
Record entry := {
  e_start : Z;                  (* whole seconds *)
  e_end : Z;                    (* whole seconds *)
  e_limit : Z;
  e_phases : option Z;
  e_stack : Z;
  e_unit : runit;
}.

(* profile.cpp:105-117 period_entry_t::init *)
Definition entry_init (in_start in_duration : Z) (c : csp) (p : profile) : entry :=
  {| e_start := in_start + sp_start c;
     e_end := in_start + in_duration;
     e_limit := sp_limit c;
     e_phases := sp_phases c;
     e_stack := pf_stack p;
     e_unit := sc_unit (pf_sched p) |}.

Definition set_e_start (e : entry) (s : Z) : entry :=
  {| e_start := s; e_end := e_end e; e_limit := e_limit e; e_phases := e_phases e;
     e_stack := e_stack e; e_unit := e_unit e |}.

(* profile.cpp:123-143 period_entry_t::validate; [now] in whole seconds.  Returns
   the possibly shortened entry and whether it is valid. *)
Definition entry_validate (e : entry) (p : profile) (now : Z) : entry * bool :=
  let '(e, ok) :=
    match pf_from p with
    | Some vf =>
        let valid_from := floor_seconds vf in
        if e_start e <? valid_from then
          if e_end e <=? valid_from then (e, false)
          else (set_e_start e valid_from, true)
        else (e, true)
    | None => (e, true)
    end in
  (e, ok && (e_start e <? e_end e) && (now <? e_end e)).

(* profile.cpp:205-230: length of one recurrence in seconds *)
Definition recur_seconds (r : recur) : Z :=
  match r with Daily => 24 * 3600 | Weekly => 86400 * 7 end.

(* profile.cpp:234-237: while (start <= end) push_back, start += forward *)
Fixpoint occurrences (fuel : nat) (start forward end_ : Z) : list Z :=
  match fuel with
  | O => []
  | S f => if start <=? end_
           then start :: occurrences f (start + forward) forward end_
           else []
  end.

(* profile.cpp:151-253 calculate_start.  in_now, in_end and the session start are
   DateTimes; the result is in whole seconds.  C++ % truncates towards zero. *)
Definition calculate_start (in_now in_end : Z) (session : option Z) (p : profile) : list Z :=
  let start := floor_seconds in_now in
  match pf_kind p with
  | Absolute =>
      match sc_start (pf_sched p) with
      | Some s => [floor_seconds s]
      | None => match pf_from p with
                | Some vf => [floor_seconds vf]
                | None => [start]
                end
      end
  | Recurring =>
      match pf_recur p, sc_start (pf_sched p) with
      | Some r, Some s =>
          let start_schedule := floor_seconds s in
          let end_ := floor_seconds in_end in
          let back := Z.rem (start - start_schedule) (recur_seconds r) in
          let back := if back <? 0 then back + recur_seconds r else back in
          let first := start - back in
          occurrences (Z.to_nat ((end_ - first) / recur_seconds r + 1))
                      first (recur_seconds r) end_
      | _, _ => []
      end
  | Relative =>
      match session with
      | Some s => [floor_seconds s]
      | None => [start]
      end
  end.

(* profile.cpp:304-334: the duration of a period, counted from the schedule start;
   [next] is the start of the next occurrence, if any *)
Definition entry_duration (p : profile) (next_period : option csp) (start : Z) (next : option Z) : Z :=
  let d := match next_period with Some c => sp_start c | None => INT_MAX end in
  let d := match sc_duration (pf_sched p) with
           | Some x => if x <? d then x else d
           | None => d
           end in
  let d := match next with
           | Some n => if n - start <? d then clamp_int (n - start) else d
           | None => d
           end in
  match pf_to p with
  | Some vt => let v := floor_seconds vt - start in
               if v <? d then clamp_int v else d
  | None => d
  end.

(* profile.cpp:291-343: the loop over the start times *)
Fixpoint entries_of_starts (p : profile) (c : csp) (next_period : option csp) (now : Z)
         (starts : list Z) : list entry :=
  match starts with
  | [] => []
  | s :: rest =>
      let e := entry_init s (entry_duration p next_period s (hd_error rest)) c p in
      let '(e, ok) := entry_validate e p now in
      (if ok then [e] else []) ++ entries_of_starts p c next_period now rest
  end.

(* profile.cpp:262-348 calculate_profile_entry *)
Definition calculate_profile_entry (in_now in_end : Z) (session : option Z) (p : profile)
           (i : nat) : list entry :=
  let ps := sc_periods (pf_sched p) in
  match nth_error ps i with
  | None => []
  | Some this =>
      let bad :=
        match i with
        | O => negb (sp_start this =? 0)
        | S j => match nth_error ps j with
                 | Some prev => sp_start this <=? sp_start prev
                 | None => false
                 end
        end in
      if bad then []
      else entries_of_starts p this (nth_error ps (S i)) (floor_seconds in_now)
                             (calculate_start in_now in_end session p)
  end.

(* profile.cpp:351-367 calculate_profile_unsorted; entry.start is a whole number of
   seconds, [in_end] a DateTime *)
Definition calculate_profile_unsorted (in_now in_end : Z) (session : option Z) (p : profile)
  : list entry :=
  flat_map (fun i => filter (fun e => e_start e * NS <=? in_end)
                            (calculate_profile_entry in_now in_end session p i))
           (seq 0 (length (sc_periods (pf_sched p)))).

Section Sorting.
  (* std::sort with the comparators of profile.cpp:369-378 (by start) and 417-423
     (by stack level) *)
  Variable sort_date : list entry -> list entry.
  Variable sort_stack : list entry -> list entry.

  (* profile.cpp:390-404 calculate_all_profiles *)
  Definition calculate_all_profiles (in_now in_end : Z) (session : option Z)
             (ps : list profile) (pu : purpose) : list entry :=
    sort_date
      (flat_map (fun p => if purpose_eqb (pf_purpose p) pu
                          then calculate_profile_unsorted in_now in_end session p
                          else []) ps).
End Sorting.

(* float NO_LIMIT_SPECIFIED = -1.0 and std::numeric_limits<float>::max() *)
Definition ONE_F : Z := 2 ^ 149.
Definition NO_LIMIT : Z := - ONE_F.
Definition FLT_MAX : Z := (2 ^ 24 - 1) * 2 ^ (104 + 149).

(* profile.hpp: struct IntermediatePeriod (phaseToUse is never set in 1.6) *)
Record iperiod := {
  ip_start : Z;
  ip_cur : Z;
  ip_pow : Z;
  ip_scur : Z;
  ip_spow : Z;
  ip_phases : option Z;
}.

Definition no_limit_period (start : Z) : iperiod :=
  {| ip_start := start; ip_cur := NO_LIMIT; ip_pow := NO_LIMIT; ip_scur := 0; ip_spow := 0;
     ip_phases := None |}.

(* profile.cpp:430-446: choosing the entry for the time [current].  State: earliest,
   next_earliest, chosen *)
Fixpoint choose (current : Z) (periods : list entry) (earliest next_earliest : Z)
         (chosen : option entry) : Z * Z * option entry :=
  match periods with
  | [] => (earliest, next_earliest, chosen)
  | s :: rest =>
      if (e_start s <=? earliest) && (current <? e_end s) then
        if e_start s <=? current
        then (e_start s, earliest, Some s)
        else choose current rest (e_start s) earliest (Some s)
      else choose current rest earliest next_earliest chosen
  end.

(* profile.cpp:455-470 *)
Definition period_of_entry (start : Z) (e : entry) : iperiod :=
  match e_unit e with
  | UA => {| ip_start := start; ip_cur := e_limit e; ip_pow := NO_LIMIT;
             ip_scur := e_stack e; ip_spow := 0; ip_phases := e_phases e |}
  | UW => {| ip_start := start; ip_cur := NO_LIMIT; ip_pow := e_limit e;
             ip_scur := 0; ip_spow := e_stack e; ip_phases := e_phases e |}
  end.

(* profile.cpp:428-479, the while loop; [fuel] bounds the number of rounds.  A null
   [chosen] would be dereferenced at line 460; the model then stops (the theorems show
   that it does not happen) *)
Fixpoint generate_loop (fuel : nat) (periods : list entry) (now end_ current : Z) : list iperiod :=
  match fuel with
  | O => []
  | S f =>
      if current <? end_ then
        let '(earliest, next_earliest, chosen) := choose current periods end_ end_ None in
        if current <? earliest then
          no_limit_period (elapsed_seconds current now)
            :: generate_loop f periods now end_ earliest
        else
          match chosen with
          | None => []
          | Some e =>
              period_of_entry (elapsed_seconds current now) e
                :: generate_loop f periods now end_
                     (if e_end e <? next_earliest then e_end e else next_earliest)
          end
      else []
  end.

Section Generate.
  Variable sort_stack : list entry -> list entry.

  (* profile.cpp:406-482 generate_profile_from_periods *)
  Definition generate_profile_from_periods (periods : list entry) (in_now in_end : Z)
    : list iperiod :=
    let now := floor_seconds in_now in
    let end_ := floor_seconds in_end in
    match periods with
    | [] => [no_limit_period 0]
    | _ => generate_loop (2 * length periods + 2) (sort_stack periods) now end_ now
    end.
End Generate.

(* std::optional comparison *)
Definition oz_eqb (a b : option Z) : bool :=
  match a, b with
  | None, None => true
  | Some x, Some y => x =? y
  | _, _ => false
  end.

(* profile.cpp:524-528: [true] when the period equals the last one pushed *)
Definition same_iperiod (a b : iperiod) : bool :=
  (ip_cur a =? ip_cur b) && (ip_pow a =? ip_pow b) && oz_eqb (ip_phases a) (ip_phases b) &&
  (ip_scur a =? ip_scur b) && (ip_spow a =? ip_spow b).

Definition set_ip_start (p : iperiod) (s : Z) : iperiod :=
  {| ip_start := s; ip_cur := ip_cur p; ip_pow := ip_pow p; ip_scur := ip_scur p;
     ip_spow := ip_spow p; ip_phases := ip_phases p |}.

(* an iterator pair of profile.cpp:509-515 that has not reached its end: the period it
   points to and the ones after it *)
Definition iter := (iperiod * list iperiod)%type.

(* profile.cpp:535-540 *)
Definition next_lowest (its : list iter) (current : Z) : Z :=
  fold_left (fun acc it =>
               match snd it with
               | n :: _ => if (current <? ip_start n) && (ip_start n <? acc)
                           then ip_start n else acc
               | [] => acc
               end) its INT_MAX.

(* profile.cpp:548-553 *)
Definition advance (next : Z) (it : iter) : iter :=
  match snd it with
  | n :: rest => if ip_start n =? next then (n, rest) else it
  | [] => it
  end.

(* profile.cpp:517-555, the while loop over at least one iterator; no iterator ever
   reaches its end, so the loop condition stays true *)
Fixpoint combine_loop (fuel : nat) (comb : list iperiod -> iperiod) (its : list iter)
         (current : Z) (last : option iperiod) : list iperiod :=
  match fuel with
  | O => []
  | S f =>
      let period := set_ip_start (comb (map fst its)) current in
      let skip := match last with Some l => same_iperiod period l | None => false end in
      let last' := if skip then last else Some period in
      let nl := next_lowest its current in
      (if skip then [] else [period]) ++
      (if nl =? INT_MAX then []
       else combine_loop f comb (map (advance nl) its) nl last')
  end.

Definition iters (profiles : list (list iperiod)) : list iter :=
  flat_map (fun p => match p with [] => [] | x :: r => [(x, r)] end) profiles.

(* profile.cpp:499-562 combine_list_of_profiles *)
Definition combine_list_of_profiles (profiles : list (list iperiod))
           (comb : list iperiod -> iperiod) : list iperiod :=
  match iters profiles with
  | [] => [no_limit_period 0]
  | its => combine_loop (S (length (concat profiles))) comb its 0 None
  end.

(* profile.cpp:569-588 *)
Fixpoint comb_tx (ps : list iperiod) : iperiod :=
  match ps with
  | [] => no_limit_period 0
  | p :: rest =>
      if negb (ip_cur p =? NO_LIMIT) || negb (ip_pow p =? NO_LIMIT) then set_ip_start p 0
      else comb_tx rest
  end.

(* profile.cpp:566-594 *)
Definition merge_tx_profile_with_tx_default_profile (tx tx_default : list iperiod) : list iperiod :=
  combine_list_of_profiles [tx; tx_default] comb_tx.

(* profile.cpp:602-619: one round of the loop *)
Definition lowest_step (acc it : iperiod) : iperiod :=
  let '(c, sc) := if (0 <=? ip_cur it) && (ip_cur it <? ip_cur acc)
                  then (ip_cur it, ip_scur it) else (ip_cur acc, ip_scur acc) in
  let '(w, sw) := if (0 <=? ip_pow it) && (ip_pow it <? ip_pow acc)
                  then (ip_pow it, ip_spow it) else (ip_pow acc, ip_spow acc) in
  let ph := match ip_phases acc, ip_phases it with
            | None, x => x
            | Some a, Some b => if b <? a then Some b else Some a
            | Some a, None => Some a
            end in
  {| ip_start := ip_start acc; ip_cur := c; ip_pow := w; ip_scur := sc; ip_spow := sw;
     ip_phases := ph |}.

(* profile.cpp:597-631 *)
Definition comb_lowest (ps : list iperiod) : iperiod :=
  let p := fold_left lowest_step ps
             {| ip_start := 0; ip_cur := FLT_MAX; ip_pow := FLT_MAX; ip_scur := 0; ip_spow := 0;
                ip_phases := None |} in
  let '(c, sc) := if ip_cur p =? FLT_MAX then (NO_LIMIT, 0) else (ip_cur p, ip_scur p) in
  let '(w, sw) := if ip_pow p =? FLT_MAX then (NO_LIMIT, 0) else (ip_pow p, ip_spow p) in
  {| ip_start := ip_start p; ip_cur := c; ip_pow := w; ip_scur := sc; ip_spow := sw;
     ip_phases := ip_phases p |}.

(* profile.cpp:596-634; convert_to_ref_vector (490-497) is the identity here *)
Definition merge_profiles_by_lowest_limit (ps : list (list iperiod)) : list iperiod :=
  combine_list_of_profiles ps comb_lowest.

(* rounded binary32 operations, see the head of the file *)
Record arith := {
  f_add : Z -> Z -> Z;
  f_mul : Z -> Z -> Z;
  f_div : Z -> Z -> Z;
  f_of_int : Z -> Z;
}.

(* profile.cpp:640-653 *)
Definition sum_step (ar : arith) (cdef wdef : Z) (acc it : iperiod) : iperiod :=
  {| ip_start := ip_start acc;
     ip_cur := f_add ar (ip_cur acc) (if 0 <=? ip_cur it then ip_cur it else cdef);
     ip_pow := f_add ar (ip_pow acc) (if 0 <=? ip_pow it then ip_pow it else wdef);
     ip_scur := 0; ip_spow := 0;
     ip_phases := match ip_phases acc, ip_phases it with
                  | None, x => x
                  | Some a, Some b => if a <? b then Some b else Some a
                  | Some a, None => Some a
                  end |}.

(* profile.cpp:638-655 *)
Definition comb_sum (ar : arith) (cdef wdef : Z) (ps : list iperiod) : iperiod :=
  fold_left (sum_step ar cdef wdef) ps
    {| ip_start := 0; ip_cur := 0; ip_pow := 0; ip_scur := 0; ip_spow := 0; ip_phases := None |}.

(* profile.cpp:636-658 *)
Definition merge_profiles_by_summing_limits (ar : arith) (ps : list (list iperiod)) (cdef wdef : Z)
  : list iperiod :=
  combine_list_of_profiles ps (comb_sum ar cdef wdef).

(* include/ocpp/v16/types.hpp:205-211 EnhancedChargingSchedulePeriod *)
Record operiod := {
  op_start : Z;
  op_limit : Z;
  op_phases : option Z;
  op_stack : Z;
  op_transformed : bool;
}.

(* profile.cpp:667-706: converting one period *)
Definition convert_period (ar : arith) (u : runit) (default_limit default_phases voltage : Z)
           (p : iperiod) : operiod :=
  let '(l, s, t) :=
    if (ip_cur p =? NO_LIMIT) && (ip_pow p =? NO_LIMIT) then (default_limit, 0, false)
    else
      let tv := f_mul ar voltage
                  (f_of_int ar (match ip_phases p with Some n => n | None => default_phases end)) in
      match u with
      | UA =>
          let '(l, s, t) := if negb (ip_cur p =? NO_LIMIT)
                            then (ip_cur p, ip_scur p, false) else (FLT_MAX, 0, false) in
          if negb (ip_pow p =? NO_LIMIT) then
            let cv := f_div ar (ip_pow p) tv in
            if cv <? l then (cv, ip_spow p, true) else (l, s, t)
          else (l, s, t)
      | UW =>
          let '(l, s, t) := if negb (ip_pow p =? NO_LIMIT)
                            then (ip_pow p, ip_spow p, false) else (FLT_MAX, 0, false) in
          if negb (ip_cur p =? NO_LIMIT) then
            let cv := f_mul ar (ip_cur p) tv in
            if cv <? l then (cv, ip_scur p, true) else (l, s, t)
          else (l, s, t)
      end in
  {| op_start := ip_start p; op_limit := l; op_phases := ip_phases p; op_stack := s;
     op_transformed := t |}.

(* profile.cpp:708-710 *)
Definition same_operiod (a b : operiod) : bool :=
  (op_limit a =? op_limit b) && oz_eqb (op_phases a) (op_phases b) && (op_stack a =? op_stack b).

(* profile.cpp:666-713 *)
Fixpoint convert_loop (ar : arith) (u : runit) (default_limit default_phases voltage : Z)
         (l : list iperiod) (last : option operiod) : list operiod :=
  match l with
  | [] => []
  | p :: rest =>
      let o := convert_period ar u default_limit default_phases voltage p in
      match last with
      | Some b =>
          if same_operiod o b
          then convert_loop ar u default_limit default_phases voltage rest last
          else o :: convert_loop ar u default_limit default_phases voltage rest (Some o)
      | None => o :: convert_loop ar u default_limit default_phases voltage rest (Some o)
      end
  end.

(* profile.cpp:660-716 convert_intermediate_into_schedule *)
Definition convert_intermediate_into_schedule (ar : arith) (l : list iperiod) (u : runit)
           (default_limit default_phases voltage : Z) : list operiod :=
  convert_loop ar u default_limit default_phases voltage l None.
