(** Times and their text: DateTimeImpl::to_rfc3339 and from_rfc3339 (lib/ocpp/common/types.cpp 31-51).

    Formatting and parsing are done by the library date (date.h), which is not part of /repo; this file models the part of
    its documented behaviour the two functions depend on. A time is a number of nanoseconds since 1970 in 64 bits; leap
    seconds are not modelled. *)
From Coq Require Import ZArith List Bool String Ascii.
From Verif Require Import StrModel JsonModel.
Import ListNotations.
Local Open Scope string_scope.
Local Open Scope Z_scope.

(** ** Calendar (sys_days and year_month_day of date.h) *)

(** Day count of a date. *)
Definition days_from_civil (y m d : Z) : Z :=
  let y' := if m <=? 2 then y - 1 else y in
  let era := y' / 400 in
  let yoe := y' - era * 400 in
  let doy := (153 * (if 2 <? m then m - 3 else m + 9) + 2) / 5 + d - 1 in
  let doe := yoe * 365 + yoe / 4 - yoe / 100 + doy in
  era * 146097 + doe - 719468.
(** The date of a day within its era of 400 years; March is the first month. *)
Definition civil_in_era (doe : Z) : Z * Z * Z :=
  let yoe := (doe - doe / 1460 + doe / 36524 - doe / 146096) / 365 in
  let doy := doe - (365 * yoe + yoe / 4 - yoe / 100) in
  let mp := (5 * doy + 2) / 153 in
  let d := doy - (153 * mp + 2) / 5 + 1 in
  let m := if mp <? 10 then mp + 3 else mp - 9 in
  (if m <=? 2 then yoe + 1 else yoe, m, d).
Definition civil_from_days (n : Z) : Z * Z * Z :=
  let z := n + 719468 in
  let era := z / 146097 in
  let '(y, m, d) := civil_in_era (z - era * 146097) in (y + era * 400, m, d).
(** year_month_day::ok. *)
Definition is_leap (y : Z) : bool := (y mod 4 =? 0) && (negb (y mod 100 =? 0) || (y mod 400 =? 0)).
Definition last_day (y m : Z) : Z :=
  if m =? 2 then (if is_leap y then 29 else 28) else if (m =? 4) || (m =? 6) || (m =? 9) || (m =? 11) then 30 else 31.
Definition ymd_ok (y m d : Z) : bool := (1 <=? m) && (m <=? 12) && (1 <=? d) && (d <=? last_day y m).

(** ** Formatting *)

(** A number >= 0 with [w] digits. *)
Fixpoint pad (w : nat) (n : Z) : string :=
  match w with O => "" | S w' => pad w' (n / 10) ++ String (chr (48 + n mod 10)) "" end.
Definition ns_per_ms := 1000000.
Definition ms_per_day := 86400000.
(** to_rfc3339 (types.cpp 31-33): time_point_cast truncates towards zero; "%FT%TZ" of milliseconds. *)
Definition to_rfc3339 (t : Z) : string :=
  let ms := Z.quot t ns_per_ms in
  let days := ms / ms_per_day in
  let rest := ms mod ms_per_day in
  let '(y, m, d) := civil_from_days days in
  pad 4 y ++ "-" ++ pad 2 m ++ "-" ++ pad 2 d ++ "T" ++
  pad 2 (rest / 3600000) ++ ":" ++ pad 2 (rest / 60000 mod 60) ++ ":" ++ pad 2 (rest / 1000 mod 60) ++ "." ++ pad 3 (rest mod 1000) ++ "Z".

(** ** Parsing *)

(** read_unsigned: at most [max] digits; the number of digits read is returned as well. *)
Fixpoint read_digits (max : nat) (acc : Z) (count : nat) (s : string) : Z * nat * string :=
  match max, s with
  | S max', String c s' => if isdigit c then read_digits max' (acc * 10 + (code c - 48)) (S count) s' else (acc, count, s)
  | _, _ => (acc, count, s)
  end.
Definition read_unsigned (max : nat) (s : string) : option (Z * string) :=
  let '(n, count, r) := read_digits max 0 0 s in if Nat.eqb count 0 then None else Some (n, r).
(** read_signed. *)
Definition read_signed (max : nat) (s : string) : option (Z * string) :=
  match s with
  | String c s' =>
      if code c =? 45 then match read_unsigned max s' with Some (n, r) => Some (- n, r) | None => None end
      else if code c =? 43 then read_unsigned max s'
      else read_unsigned max s
  | EmptyString => None
  end.
Definition expect (c : ascii) (s : string) : option string :=
  match s with String x r => if Ascii.eqb x c then Some r else None | EmptyString => None end.
(** read_long_double for seconds: at most 12 characters, one of them may be a point. The result is in nanoseconds; the
    fraction has at most 9 digits if there are two digits before the point (further ones are rounded in the code, here
    they are cut off). *)
Fixpoint read_fraction (max : nat) (scale : Z) (acc : Z) (s : string) : Z * string :=
  match max, s with
  | S max', String c s' => if isdigit c then read_fraction max' (scale / 10) (acc + (code c - 48) * scale) s' else (acc, s)
  | _, _ => (acc, s)
  end.
Definition read_seconds (s : string) : option (Z * string) :=
  let '(n, count, r) := read_digits 12 0 0 s in
  match r with
  | String c r' =>
      if (code c =? 46) && Nat.ltb count 12 then
        let '(f, r'') := read_fraction (11 - count) 100000000 0 r' in Some (n * 1000000000 + f, r'')
      else if Nat.eqb count 0 then None else Some (n * 1000000000, r)
  | EmptyString => if Nat.eqb count 0 then None else Some (n * 1000000000, r)
  end.
Notation "'let?' p := e 'in' f" := (match e with Some p => f | None => None end) (at level 200, p pattern, right associativity).
(** "%FT%T": local time in nanoseconds. *)
Definition read_local (s : string) : option (Z * string) :=
  let? (y, s) := read_signed 4 s in
  let? s := expect "-" s in
  let? (m, s) := read_unsigned 2 s in
  let? s := expect "-" s in
  let? (d, s) := read_unsigned 2 s in
  let? s := expect "T" s in
  let? (h, s) := read_unsigned 2 s in
  let? s := expect ":" s in
  let? (mi, s) := read_unsigned 2 s in
  let? s := expect ":" s in
  let? (sec, s) := read_seconds s in
  if ymd_ok y m d && (h <? 24) && (mi <? 60) && (sec <? 60000000000)
  then Some ((((days_from_civil y m d * 24 + h) * 60 + mi) * 60) * 1000000000 + sec, s) else None.
(** "%Ez": [+|-]h[h][:mm], in minutes. *)
Definition read_minutes (s : string) : option Z :=
  let '(n, count, _) := read_digits 2 0 0 s in if Nat.eqb count 2 then Some n else None.
Definition read_offset (s : string) : option Z :=
  let negative := match s with String c _ => code c =? 45 | EmptyString => false end in
  let? (h, r) := read_signed 2 s in
  let? m := match expect ":" r with Some r' => read_minutes r' | None => Some 0 end in
  Some ((if negative then -1 else 1) * (Z.abs h * 60 + m)).
(** from_rfc3339 (types.cpp 35-51): three formats in turn; what follows the match is ignored. None: TimePointParseException. *)
Definition from_rfc3339 (s : string) : option Z :=
  let? (t, r) := read_local s in
  match read_offset r with
  | Some o => Some (t - o * 60000000000)
  | None => match expect "Z" r with Some _ => Some t | None => Some t end
  end.
