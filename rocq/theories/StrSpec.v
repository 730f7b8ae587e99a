(** What the string types and utilities are supposed to do, said without the model. *)
From Coq Require Import ZArith List Bool String Ascii QArith.
Import ListNotations.
Local Open Scope string_scope.

Definition chars (s : string) : list ascii := list_ascii_of_string s.

Definition lower_letters : list ascii := chars "abcdefghijklmnopqrstuvwxyz".
Definition upper_letters : list ascii := chars "ABCDEFGHIJKLMNOPQRSTUVWXYZ".

(** [x] is a lower case letter and [y] the same letter in upper case. *)
Definition case_pair (x y : ascii) : Prop :=
  exists n, nth_error lower_letters n = Some x /\ nth_error upper_letters n = Some y.

Definition same_letter (x y : ascii) : Prop := x = y \/ case_pair x y \/ case_pair y x.

(** Two texts that differ at most in the case of their letters. *)
Definition same_text (a b : string) : Prop := Forall2 same_letter (chars a) (chars b).

(** Printable ASCII, or a line feed. *)
Definition printable (c : ascii) : Prop :=
  (32 <= nat_of_ascii c <= 126)%nat \/ nat_of_ascii c = 10%nat.

(** [p] is a beginning of [s]. *)
Definition is_beginning (p s : string) : Prop := exists r, s = p ++ r.

Definition digit_chars : list ascii := chars "0123456789".
Definition is_digit (c : ascii) : Prop := In c digit_chars.

(** The character of a decimal digit. *)
Definition digit_char (d : nat) : ascii := nth d digit_chars "0"%char.

(** [digits n s]: [s] is a non-empty run of decimal digits denoting [n]. *)
Inductive digits : Z -> string -> Prop :=
| digits_one d : (d < 10)%nat -> digits (Z.of_nat d) (String (digit_char d) "")
| digits_more n s d : digits n s -> (d < 10)%nat ->
    digits (10 * n + Z.of_nat d)%Z (s ++ String (digit_char d) "").

(** Integer literals with their value. *)
Inductive int_literal : Z -> string -> Prop :=
| lit_plain n s : digits n s -> int_literal n s
| lit_plus n s : digits n s -> int_literal n (String "+" s)
| lit_minus n s : digits n s -> int_literal (- n)%Z (String "-" s).

(** Decimal literals: a sign, digits, and a point that may stand anywhere; some digit must be there. *)
Definition all_digits (s : string) : Prop := Forall is_digit (chars s).
Definition opt_sign (s : string) : Prop := s = "" \/ s = "+" \/ s = "-".
Definition decimal_literal (s : string) : Prop :=
  exists sg i f, opt_sign sg /\ all_digits i /\ all_digits f /\ (i ++ f <> "") /\
    (s = sg ++ i ++ f \/ s = sg ++ i ++ "." ++ f).

(** Two and four digit fields. *)
Definition two (n : nat) : string := String (digit_char (n / 10)) (String (digit_char (n mod 10)) "").
Definition four (n : nat) : string := two (n / 100) ++ two (n mod 100).

Inductive zone : string -> Prop :=
| zone_utc : zone "Z"
| zone_offset sg h m colon : (sg = "+" \/ sg = "-") -> (colon = ":" \/ colon = "") ->
    (h < 100)%nat -> (m < 100)%nat -> zone (sg ++ two h ++ colon ++ two m).

Definition fraction (f : string) : Prop :=
  f = "" \/ exists d, f = "." ++ d /\ all_digits d /\ (length d <= 3)%nat.

Definition datetime (s : string) : Prop :=
  exists Y M D h m sec f z,
    (Y < 100 * 100)%nat /\ (1 <= M <= 12)%nat /\ (1 <= D <= 31)%nat /\ (h < 24)%nat /\ (m < 60)%nat /\ (sec < 60)%nat /\
    fraction f /\ zone z /\
    s = four Y ++ "-" ++ two M ++ "-" ++ two D ++ "T" ++ two h ++ ":" ++ two m ++ ":" ++ two sec ++ f ++ z.

(** Fields joined with a separator. *)
Definition joined (c : ascii) (fields : list string) : string := String.concat (String c "") fields.

Definition without (c : ascii) (s : string) : Prop := ~ In c (chars s).

Definition spaces (n : nat) : string := string_of_list_ascii (repeat " "%char n).

(** No space at either end, and not empty. *)
Definition neat (t : string) : Prop :=
  t <> "" /\ (forall r, t <> String " " r) /\ (forall r, t <> r ++ " ").
