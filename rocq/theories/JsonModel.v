(** JSON values and their text form.

    The library uses nlohmann::json for every message. That library is not part of /repo; this file models the part of its
    documented behaviour the modelled code depends on: [json::dump()] (compact form, ensure_ascii = false) and
    [json::parse()], as used in
    - include/ocpp/common/message_queue.hpp 730 (json::parse), 447, 468, 481 (dump)
    - lib/ocpp/v2/notify_report_requests_splitter.cpp 53, 58, 109 (dump().size())
    Simplifications: strings are taken to be valid UTF-8 (otherwise both functions throw); the escape \uXXXX is read only
    below 0x80 (dump never writes it above 0x1f); floating point numbers are kept as their token. *)
From Coq Require Import ZArith List Bool String Ascii.
From Verif Require Import StrModel.
Import ListNotations.
Local Open Scope string_scope.
Local Open Scope Z_scope.

(** nlohmann::json; an object is a std::map, i.e. a list sorted by key without duplicates. *)
Inductive json :=
| JNull
| JBool (b : bool)
| JInt (z : Z)
| JFloat (token : string)
| JStr (s : string)
| JArr (l : list json)
| JObj (l : list (string * json)).

(** ** dump *)

Definition chr (n : Z) : ascii := ascii_of_N (Z.to_N n).

(** Decimal digits of a number >= 0. *)
Fixpoint dec_fuel (f : nat) (n : Z) : string :=
  match f with
  | O => ""
  | S f' => if n <? 10 then String (chr (48 + n)) ""
            else dec_fuel f' (n / 10) ++ String (chr (48 + n mod 10)) ""
  end.

Definition dec (n : Z) : string := dec_fuel (S (Z.to_nat (Z.log2 n))) n.

Definition dump_int (z : Z) : string := if z <? 0 then String "-" (dec (- z)) else dec z.

Definition hex_digit (n : Z) : ascii := if n <? 10 then chr (48 + n) else chr (87 + n).

(** serializer::dump_escaped, one character. *)
Definition escape_char (c : ascii) : string :=
  let n := code c in
  if n =? 34 then String "\" (String (chr 34) "")
  else if n =? 92 then "\\"
  else if n =? 8 then "\b"
  else if n =? 9 then "\t"
  else if n =? 10 then "\n"
  else if n =? 12 then "\f"
  else if n =? 13 then "\r"
  else if n <? 32 then "\u00" ++ String (hex_digit (n / 16)) (String (hex_digit (n mod 16)) "")
  else String c "".

Fixpoint escape (s : string) : string :=
  match s with EmptyString => "" | String c s' => escape_char c ++ escape s' end.

Definition quote : string := String (chr 34) "".
Definition dump_str (s : string) : string := quote ++ escape s ++ quote.

(** serializer::dump without indentation. *)
Fixpoint dump (j : json) : string :=
  match j with
  | JNull => "null"
  | JBool true => "true"
  | JBool false => "false"
  | JInt z => dump_int z
  | JFloat t => t
  | JStr s => dump_str s
  | JArr l => "[" ++ String.concat "," (map dump l) ++ "]"
  | JObj l => "{" ++ String.concat "," (map (fun kv => dump_str (fst kv) ++ ":" ++ dump (snd kv)) l) ++ "}"
  end.

(** ** Objects *)

(** std::map::operator[] followed by an assignment. *)
Fixpoint obj_set (k : string) (v : json) (l : list (string * json)) : list (string * json) :=
  match l with
  | [] => [(k, v)]
  | (k', v') :: l' =>
      if String.eqb k k' then (k, v) :: l'
      else if str_lt k k' then (k, v) :: l
      else (k', v') :: obj_set k v l'
  end.

(** std::map::find. *)
Fixpoint obj_get (k : string) (l : list (string * json)) : option json :=
  match l with
  | [] => None
  | (k', v) :: l' => if String.eqb k k' then Some v else obj_get k l'
  end.

(** ** parse *)

Definition is_ws (c : ascii) : bool := (code c =? 32) || (code c =? 9) || (code c =? 10) || (code c =? 13).

Fixpoint skip_ws (s : string) : string :=
  match s with String c s' => if is_ws c then skip_ws s' else s | EmptyString => s end.

Definition hex_val (c : ascii) : option Z :=
  let n := code c in
  if (48 <=? n) && (n <=? 57) then Some (n - 48)
  else if (97 <=? n) && (n <=? 102) then Some (n - 87)
  else if (65 <=? n) && (n <=? 70) then Some (n - 55)
  else None.

(** The rest of a string literal behind the opening quote, and what follows it. *)
Fixpoint parse_str (s : string) : option (string * string) :=
  match s with
  | EmptyString => None
  | String c s1 =>
      if code c =? 34 then Some ("", s1)
      else if code c =? 92 then
        match s1 with
        | EmptyString => None
        | String e s2 =>
            let simple (x : ascii) := match parse_str s2 with Some (t, r) => Some (String x t, r) | None => None end in
            let n := code e in
            if n =? 34 then simple e
            else if n =? 92 then simple e
            else if n =? 47 then simple e
            else if n =? 98 then simple (chr 8)
            else if n =? 102 then simple (chr 12)
            else if n =? 110 then simple (chr 10)
            else if n =? 114 then simple (chr 13)
            else if n =? 116 then simple (chr 9)
            else if n =? 117 then
              match s2 with
              | String a (String b (String d (String g s3))) =>
                  match hex_val a, hex_val b, hex_val d, hex_val g with
                  | Some a', Some b', Some d', Some g' =>
                      let v := ((a' * 16 + b') * 16 + d') * 16 + g' in
                      if v <? 128 then match parse_str s3 with Some (t, r) => Some (String (chr v) t, r) | None => None end
                      else None
                  | _, _, _, _ => None
                  end
              | _ => None
              end
            else None
        end
      else if code c <? 32 then None
      else match parse_str s1 with Some (t, r) => Some (String c t, r) | None => None end
  end.

(** Characters a number can consist of. *)
Definition number_char (c : ascii) : bool :=
  isdigit c || (code c =? 43) || (code c =? 45) || (code c =? 46) || (code c =? 101) || (code c =? 69).

Fixpoint span_number (s : string) : string * string :=
  match s with
  | String c s' => if number_char c then let (t, r) := span_number s' in (String c t, r) else ("", s)
  | EmptyString => ("", "")
  end.

(** The grammar of numbers. *)
Definition digits1 (s : string) : bool := match s with EmptyString => false | _ => all_of isdigit s end.
Definition int_part (s : string) : bool :=
  match s with
  | String c EmptyString => isdigit c
  | String c s' => isdigit c && negb (code c =? 48) && all_of isdigit s'
  | EmptyString => false
  end.
Definition strip_minus (s : string) : string :=
  match s with String c s' => if code c =? 45 then s' else s | EmptyString => s end.
Definition int_token (s : string) : bool := int_part (strip_minus s).
(** Cut at the first character satisfying [p]. *)
Fixpoint cut (p : ascii -> bool) (s : string) : string * option string :=
  match s with
  | EmptyString => ("", None)
  | String c s' => if p c then ("", Some s') else let (t, r) := cut p s' in (String c t, r)
  end.
Definition is_e (c : ascii) : bool := (code c =? 101) || (code c =? 69).
Definition float_token (s : string) : bool :=
  let (mant, ex) := cut is_e (strip_minus s) in
  let (i, f) := cut is_dot mant in
  int_part i && match f with Some f => digits1 f | None => true end
  && match ex with Some e => digits1 (skip_sign e) | None => true end
  && match f, ex with None, None => false | _, _ => true end.

(** Integers are stored in 64 bits; what does not fit is stored as a floating point number. *)
Definition int64_ok (z : Z) : bool := (- 9223372036854775808 <=? z) && (z <=? 18446744073709551615).

Definition number_of (t : string) : option json :=
  if int_token t then
    let n := digits_value 0 (strip_minus t) in
    let z := match t with String c _ => if code c =? 45 then - n else n | EmptyString => n end in
    Some (if int64_ok z then JInt z else JFloat t)
  else if float_token t then Some (JFloat t)
  else None.

(** [eat_word w s]: the rest of [s] behind [w]. *)
Fixpoint eat_word (w s : string) : option string :=
  match w with
  | EmptyString => Some s
  | String a w' => match s with String b s' => if Ascii.eqb a b then eat_word w' s' else None | EmptyString => None end
  end.

(** One value and what follows it. [f] bounds the nesting plus the number of elements. *)
Fixpoint parse_value (f : nat) (s : string) : option (json * string) :=
  match f with
  | O => None
  | S f' =>
      let s := skip_ws s in
      match s with
      | EmptyString => None
      | String c s1 =>
          let n := code c in
          if n =? 110 then match eat_word "null" s with Some r => Some (JNull, r) | None => None end
          else if n =? 116 then match eat_word "true" s with Some r => Some (JBool true, r) | None => None end
          else if n =? 102 then match eat_word "false" s with Some r => Some (JBool false, r) | None => None end
          else if n =? 34 then match parse_str s1 with Some (t, r) => Some (JStr t, r) | None => None end
          else if n =? 91 then
            match eat_word "]" (skip_ws s1) with
            | Some r => Some (JArr [], r)
            | None => match parse_elems f' s1 with Some (l, r) => Some (JArr l, r) | None => None end
            end
          else if n =? 123 then
            match eat_word "}" (skip_ws s1) with
            | Some r => Some (JObj [], r)
            | None => match parse_members f' s1 [] with Some (l, r) => Some (JObj l, r) | None => None end
            end
          else
            let (t, r) := span_number s in
            match number_of t with Some j => Some (j, r) | None => None end
      end
  end
(** Elements of an array behind the opening bracket. *)
with parse_elems (f : nat) (s : string) : option (list json * string) :=
  match f with
  | O => None
  | S f' =>
      match parse_value f' s with
      | None => None
      | Some (j, r) =>
          match eat_word "," (skip_ws r) with
          | Some r' => match parse_elems f' r' with Some (l, r'') => Some (j :: l, r'') | None => None end
          | None => match eat_word "]" (skip_ws r) with Some r' => Some ([j], r') | None => None end
          end
      end
  end
(** Members of an object behind the opening brace; a repeated key overwrites. *)
with parse_members (f : nat) (s : string) (acc : list (string * json)) : option (list (string * json) * string) :=
  match f with
  | O => None
  | S f' =>
      match eat_word quote (skip_ws s) with
      | None => None
      | Some s1 =>
          match parse_str s1 with
          | None => None
          | Some (k, s2) =>
              match eat_word ":" (skip_ws s2) with
              | None => None
              | Some s3 =>
                  match parse_value f' s3 with
                  | None => None
                  | Some (j, r) =>
                      let acc' := obj_set k j acc in
                      match eat_word "," (skip_ws r) with
                      | Some r' => parse_members f' r' acc'
                      | None => match eat_word "}" (skip_ws r) with Some r' => Some (acc', r') | None => None end
                      end
                  end
              end
          end
      end
  end.

(** json::parse: one value, nothing but white space behind it; the length of the text suffices as fuel. *)
Definition parse (s : string) : option json :=
  match parse_value (S (2 * String.length s)) s with
  | Some (j, r) => match skip_ws r with EmptyString => Some j | _ => None end
  | None => None
  end.
