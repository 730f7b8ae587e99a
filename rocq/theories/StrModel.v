(** Strings of the library and the small string utilities.

    Model of
    - include/ocpp/common/string.hpp        String<L>
    - include/ocpp/common/cistring.hpp      CiString<L>
    - lib/ocpp/common/utils.cpp             iequals, is_integer, is_positive_integer, is_decimal_number,
                                            is_rfc3339_datetime, split_string, trim_string, is_boolean,
                                            convert_to_positive_size_t
    - include/ocpp/common/utils.hpp 55-57   clamp_to

    A [std::string] is a Coq [string]: a finite sequence of 8-bit characters.
    [char] is signed, as on the supported x86/ARM-with-signed-char builds; this only matters for
    [CiString::is_valid], where a byte above 0x7f compares below 0x20.
    The process runs in the classic "C" locale: isdigit accepts exactly '0'..'9' and
    toupper changes exactly 'a'..'z'. *)
From Coq Require Import ZArith List Bool String Ascii QArith Qround.
Import ListNotations.
Local Open Scope string_scope.
Local Open Scope Z_scope.

(** Code of a character as an unsigned byte. *)
Definition code (c : ascii) : Z := Z.of_N (N_of_ascii c).

(** The same byte read as a signed [char]. *)
Definition signed_code (c : ascii) : Z := if code c <? 128 then code c else code c - 256.

(** ** string.hpp *)

(** string.hpp 18-21: StringTooLarge. *)
Inductive too_large := TooLargeThrow | TooLargeTruncate.

(** Result of an operation that may throw. *)
Inductive result (A : Type) := Ret (a : A) | Throws (what : string).
Arguments Ret {A} a.
Arguments Throws {A} what.

(** std::string_view::substr(0, n). *)
Fixpoint take (n : nat) (s : string) : string :=
  match n, s with
  | O, _ => EmptyString
  | S _, EmptyString => EmptyString
  | S n', String c s' => String c (take n' s')
  end.

(** string.hpp 69-72: String<L>::is_valid; cistring.hpp hides but does not override it, since it is not virtual. *)
Definition str_is_valid (s : string) : bool := true.

(** string.hpp 49-66: String<L>::set. The result is the new content of [data]; on [Throws] it is unchanged. *)
Definition str_set (L : nat) (s : string) (tl : too_large) : result string :=
  if Nat.ltb L (length s) then
    match tl with
    | TooLargeThrow => Throws "StringConversionException"
    | TooLargeTruncate => if str_is_valid (take L s) then Ret (take L s) else Throws "StringConversionException"
    end
  else if str_is_valid s then Ret s else Throws "StringConversionException".

(** string.hpp 75-77 / 32-38, cistring.hpp 20-24: the constructors call [set]. The call inside String<L>::set is
    bound to String<L>::is_valid at compile time, so a CiString<L> is built exactly like a String<L>. *)
Definition ci_make (L : nat) (s : string) (tl : too_large) : result string := str_set L s tl.

(** The content of a variable of type String<L>/CiString<L> after calling [set]; a throwing call keeps it. *)
Definition var_set (L : nat) (old : string) (s : string) (tl : too_large) : string :=
  match str_set L s tl with Ret v => v | Throws _ => old end.

(** cistring.hpp 26-27: copying goes through String<L>(data.get()), hence through [set] again. *)
Definition ci_copy (L : nat) (s : string) : result string := str_set L s TooLargeThrow.

(** cistring.hpp 38-46: CiString<L>::is_valid, [None] for the exception. It has no caller. *)
Fixpoint ci_is_valid (s : string) : option bool :=
  match s with
  | EmptyString => Some true
  | String c s' =>
      if ((signed_code c <? 32) || (126 <? signed_code c)) && negb (signed_code c =? 10) then None
      else ci_is_valid s'
  end.

(** ** utils.cpp *)

(** toupper in the classic locale. *)
Definition toupper (c : ascii) : ascii :=
  if (97 <=? code c) && (code c <=? 122) then ascii_of_N (N_of_ascii c - 32) else c.

(** utils.cpp 15-17: boost::algorithm::iequals, which compares toupper of both characters, position by position. *)
Fixpoint iequals (a b : string) : bool :=
  match a, b with
  | EmptyString, EmptyString => true
  | String x a', String y b' => Ascii.eqb (toupper x) (toupper y) && iequals a' b'
  | _, _ => false
  end.

(** std::string operator==. *)
Definition str_eq (a b : string) : bool := String.eqb a b.

(** std::string operator<: lexicographic on unsigned bytes (char_traits<char>::compare). *)
Fixpoint str_lt (a b : string) : bool :=
  match a, b with
  | _, EmptyString => false
  | EmptyString, String _ _ => true
  | String x a', String y b' =>
      if code x <? code y then true else if code y <? code x then false else str_lt a' b'
  end.

(** cistring.hpp 60-62: operator==. *)
Definition ci_eq (a b : string) : bool := iequals a b.

(** cistring.hpp 70-72: operator!=, which compares the underlying std::strings. *)
Definition ci_ne (a b : string) : bool := negb (str_eq a b).

(** cistring.hpp 75-77: operator<. *)
Definition ci_lt (a b : string) : bool := str_lt a b.

(** ::isdigit in the classic locale. *)
Definition isdigit (c : ascii) : bool := (48 <=? code c) && (code c <=? 57).

Fixpoint all_of (p : ascii -> bool) (s : string) : bool :=
  match s with EmptyString => true | String c s' => p c && all_of p s' end.

(** The sign characters. *)
Definition is_sign (c : ascii) : bool := (code c =? 43) || (code c =? 45).

(** Skip a sign in the beginning. *)
Definition skip_sign (s : string) : string :=
  match s with String c s' => if is_sign c then s' else s | EmptyString => s end.

(** utils.cpp 19-31: is_integer. *)
Definition is_integer (s : string) : bool :=
  match s with EmptyString => false | _ => all_of isdigit (skip_sign s) end.

(** Value of the leading digits. *)
Fixpoint digits_value (acc : Z) (s : string) : Z :=
  match s with
  | String c s' => if isdigit c then digits_value (acc * 10 + (code c - 48)) s' else acc
  | EmptyString => acc
  end.

Definition starts_with_digit (s : string) : bool :=
  match s with String c _ => isdigit c | EmptyString => false end.

Definition int_min : Z := -2147483648.
Definition int_max : Z := 2147483647.

(** std::stoi (base 10) on a string without leading white space: sign, digits, rest ignored. *)
Definition stoi (s : string) : result Z :=
  if starts_with_digit (skip_sign s) then
    let n := digits_value 0 (skip_sign s) in
    let v := match s with String c _ => if code c =? 45 then - n else n | EmptyString => n end in
    if (v <? int_min) || (int_max <? v) then Throws "out_of_range" else Ret v
  else Throws "invalid_argument".

(** utils.cpp 33-43: is_positive_integer. *)
Definition is_positive_integer (s : string) : result (bool * Z) :=
  if is_integer s then
    match stoi s with
    | Ret v => if v <? 0 then Ret (false, v) else Ret (true, v)
    | Throws w => Throws w
    end
  else Ret (false, 0).

Definition is_dot (c : ascii) : bool := code c =? 46.

(** utils.cpp 45-69: is_decimal_number; the loop with its count of decimal points. *)
Fixpoint decimal_loop (points : nat) (s : string) : bool :=
  match s with
  | EmptyString => true
  | String c s' =>
      if is_dot c then (if Nat.ltb 1 (S points) then false else decimal_loop (S points) s')
      else if isdigit c then decimal_loop points s' else false
  end.

Definition is_decimal_number (s : string) : bool :=
  match s with EmptyString => false | _ => decimal_loop 0 (skip_sign s) end.

(** utils.cpp 71-80: the regular expression of is_rfc3339_datetime, matched character class by character class.
    Each step consumes what the corresponding part of the expression matches; every alternative of the expression
    is deterministic on its first characters except the optional fraction, handled in [match_fraction]. *)
Definition eat (p : ascii -> bool) (k : string -> bool) (s : string) : bool :=
  match s with String c s' => p c && k s' | EmptyString => false end.

Definition is_char (n : Z) (c : ascii) : bool := code c =? n.

(** [lo-hi] as a character class. *)
Definition in_class (lo hi : Z) (c : ascii) : bool := (lo <=? code c) && (code c <=? hi).

(** (?:0[1-9]|1[0-2]) *)
Definition match_month (k : string -> bool) (s : string) : bool :=
  eat (is_char 48) (eat (in_class 49 57) k) s || eat (is_char 49) (eat (in_class 48 50) k) s.

(** (?:0[1-9]|[1-2]\d|3[0-1]) *)
Definition match_day (k : string -> bool) (s : string) : bool :=
  eat (is_char 48) (eat (in_class 49 57) k) s || eat (in_class 49 50) (eat isdigit k) s
  || eat (is_char 51) (eat (in_class 48 49) k) s.

(** (?:[0-1]\d|2[0-3]) *)
Definition match_hour (k : string -> bool) (s : string) : bool :=
  eat (in_class 48 49) (eat isdigit k) s || eat (is_char 50) (eat (in_class 48 51) k) s.

(** [0-5]\d *)
Definition match_60 (k : string -> bool) (s : string) : bool := eat (in_class 48 53) (eat isdigit k) s.

(** (?:\.\d{0,3}|) *)
Definition match_fraction (k : string -> bool) (s : string) : bool :=
  eat (is_char 46) (fun s =>
    k s || eat isdigit (fun s => k s || eat isdigit (fun s => k s || eat isdigit k s) s) s) s
  || k s.

Definition at_end (s : string) : bool := match s with EmptyString => true | _ => false end.

(** (?:Z|(?:\+|\-)(?:\d{2}):?(?:\d{2})) and the end of the string (regex_match) *)
Definition match_zone (s : string) : bool :=
  eat (is_char 90) at_end s
  || eat is_sign (eat isdigit (eat isdigit (fun s =>
       eat (is_char 58) (eat isdigit (eat isdigit at_end)) s || eat isdigit (eat isdigit at_end) s))) s.

Definition is_rfc3339_datetime (s : string) : bool :=
  eat isdigit (eat isdigit (eat isdigit (eat isdigit (eat (is_char 45)
    (match_month (eat (is_char 45) (match_day (eat (is_char 84)
      (match_hour (eat (is_char 58) (match_60 (eat (is_char 58) (match_60
        (match_fraction match_zone))))))))))))))  s.

(** utils.cpp 99-106: trim_string; find_first_not_of(' ') / find_last_not_of(' '), npos = None. *)
Definition is_space (c : ascii) : bool := code c =? 32.

Fixpoint find_first_not_space (i : nat) (s : string) : option nat :=
  match s with
  | EmptyString => None
  | String c s' => if is_space c then find_first_not_space (S i) s' else Some i
  end.

Fixpoint find_last_not_space (i : nat) (s : string) : option nat :=
  match s with
  | EmptyString => None
  | String c s' =>
      match find_last_not_space (S i) s' with
      | Some j => Some j
      | None => if is_space c then None else Some i
      end
  end.

(** std::string::substr(pos, n) for pos <= size. *)
Fixpoint drop (n : nat) (s : string) : string :=
  match n, s with O, _ => s | S n', String _ s' => drop n' s' | S _, EmptyString => EmptyString end.

Definition trim_string (s : string) : string :=
  match find_first_not_space 0 s with
  | None => s
  | Some first =>
      match find_last_not_space 0 s with
      | None => s
      | Some last => take (last - first + 1) (drop first s)
      end
  end.

(** std::getline(input, temp, c): the characters up to the delimiter and what is left in the stream behind it;
    [None] in place of the rest when the end of the stream was reached instead of a delimiter. *)
Fixpoint getline (c : ascii) (s : string) : string * option string :=
  match s with
  | EmptyString => (EmptyString, None)
  | String x s' =>
      if Ascii.eqb x c then (EmptyString, Some s')
      else let (t, r) := getline c s' in (String x t, r)
  end.

(** utils.cpp 82-97: split_string. getline fails exactly when nothing is left in the stream, so the loop runs once
    per call on a non-empty rest. [n] bounds the rounds; the length of the string suffices. *)
Fixpoint split_loop (n : nat) (c : ascii) (trim : bool) (s : string) : list string :=
  match n with
  | O => []
  | S n' =>
      match s with
      | EmptyString => []
      | String _ _ =>
          let (t, r) := getline c s in
          (if trim then trim_string t else t)
            :: match r with Some s' => split_loop n' c trim s' | None => [] end
      end
  end.

Definition split_string (s : string) (c : ascii) (trim : bool) : list string :=
  split_loop (length s) c trim s.

(** utils.cpp 108-110: is_boolean. *)
Definition is_boolean (s : string) : bool := iequals s "true" || iequals s "false".

(** utils.hpp 55-57: clamp_to<T>, for a type with maximum [m]. The comparison is made after the usual arithmetic
    conversions; for a 64-bit unsigned T a negative operand turns into a large unsigned number first. *)
Definition size_max : Z := 18446744073709551615.
Definition clamp_to_size (len : Z) : Z := if (len mod 18446744073709551616) <=? size_max then len mod 18446744073709551616 else size_max.

(** utils.cpp 120-125: convert_to_positive_size_t, on a finite float given as a rational. llround is unspecified when
    the rounded value does not fit in 64 bits ([None]). *)
Definition convert_to_positive_size_t (v : Q) : option Z :=
  if Qlt_le_dec v 0 then Some 0
  else let c := Qceiling v in
       if c <=? 9223372036854775807 then Some (clamp_to_size c) else None.
