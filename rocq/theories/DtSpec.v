(** What the text of a time means. *)
From Coq Require Import ZArith List Bool String Ascii.
Import ListNotations.
Local Open Scope string_scope.
Local Open Scope Z_scope.

(** The Gregorian calendar: every fourth year is a leap year, but of the hundredth years only every fourth. *)
Definition leap (y : Z) : Prop := (4 | y) /\ ((100 | y) -> (400 | y)).
Definition month_length (y m : Z) (n : Z) : Prop :=
  In (m, n) [(1, 31); (3, 31); (4, 30); (5, 31); (6, 30); (7, 31); (8, 31); (9, 30); (10, 31); (11, 30); (12, 31)] \/
  (m = 2 /\ leap y /\ n = 29) \/ (m = 2 /\ ~ leap y /\ n = 28).
Inductive next_day : Z * Z * Z -> Z * Z * Z -> Prop :=
| SameMonth : forall y m d n, month_length y m n -> d < n -> next_day (y, m, d) (y, m, d + 1)
| NextMonth : forall y m d, month_length y m d -> m < 12 -> next_day (y, m, d) (y, m + 1, 1)
| NextYear : forall y, next_day (y, 12, 31) (y + 1, 1, 1).
(** Days are counted from the first of January 1970. *)
Inductive on_day : Z -> Z * Z * Z -> Prop :=
| Epoch : on_day 0 (1970, 1, 1)
| DayAfter : forall n a b, on_day n a -> next_day a b -> on_day (n + 1) b
| DayBefore : forall n a b, on_day n b -> next_day a b -> 1 <= snd a -> on_day (n - 1) a.
(** [number s n]: [s] consists of digits and is read as [n]. *)
Definition digit (c : ascii) (n : Z) : Prop := In (c, n) [("0", 0); ("1", 1); ("2", 2); ("3", 3); ("4", 4); ("5", 5); ("6", 6); ("7", 7); ("8", 8); ("9", 9)]%char.
Inductive number : string -> Z -> Prop :=
| NumberNil : number "" 0
| NumberSnoc : forall s n c d, number s n -> digit c d -> number (s ++ String c "") (n * 10 + d).
(** A fraction of a second in nanoseconds: up to nine digits. *)
Definition nanos (s : string) (f : Z) : Prop :=
  exists n, number s n /\ (1 <= String.length s <= 9)%nat /\ f = n * 10 ^ (9 - Z.of_nat (String.length s)).
(** Date and time of day as text, and the time in nanoseconds it means if it is one of UTC. *)
Inductive local_text : string -> Z -> Prop :=
| Local : forall sy sm sd sh smi ss sf y m d h mi s f day,
    number sy y -> String.length sy = 4%nat -> number sm m -> String.length sm = 2%nat -> number sd d -> String.length sd = 2%nat ->
    number sh h -> String.length sh = 2%nat -> number smi mi -> String.length smi = 2%nat -> number ss s -> String.length ss = 2%nat ->
    h < 24 -> mi < 60 -> s < 60 -> on_day day (y, m, d) ->
    (sf = "" /\ f = 0 \/ exists g, sf = "." ++ g /\ nanos g f) ->
    local_text (sy ++ "-" ++ sm ++ "-" ++ sd ++ "T" ++ sh ++ ":" ++ smi ++ ":" ++ ss ++ sf)
               ((((day * 24 + h) * 60 + mi) * 60 + s) * 1000000000 + f).
(** The offset of the local time from UTC in minutes. *)
Inductive offset_text : string -> Z -> Prop :=
| Utc : offset_text "Z" 0
| East : forall sh sm h m, number sh h -> String.length sh = 2%nat -> number sm m -> String.length sm = 2%nat -> offset_text ("+" ++ sh ++ ":" ++ sm) (h * 60 + m)
| West : forall sh sm h m, number sh h -> String.length sh = 2%nat -> number sm m -> String.length sm = 2%nat -> offset_text ("-" ++ sh ++ ":" ++ sm) (- (h * 60 + m)).
(** RFC 3339. *)
Definition rfc3339 (s : string) (t : Z) : Prop :=
  exists a b l o, s = a ++ b /\ local_text a l /\ offset_text b o /\ t = l - o * 60000000000.
