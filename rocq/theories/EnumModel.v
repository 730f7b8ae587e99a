(** Conversions between enumerations and wire strings: ..._to_string and string_to_... of ocpp_enums.cpp, types.cpp. *)
From Coq Require Import String List Bool.
Import ListNotations.
Local Open Scope string_scope.

(** An enumeration: its name, its enumerators, the cases of ..._to_string (enumerator, string) and the comparisons of
    string_to_... (string, enumerator). The tables are in EnumTables.v. *)
Record enum := Enum { e_name : string; e_decl : list string; e_out : list (string * string); e_in : list (string * string) }.

(** ..._to_string (e.g. lib/ocpp/v16/ocpp_enums.cpp 16-31): the matching case, otherwise EnumToStringException. *)
Definition to_wire (t : enum) (v : string) : option string :=
  option_map snd (find (fun p => fst p =? v) (e_out t)).
(** string_to_... (e.g. lib/ocpp/v16/ocpp_enums.cpp 33-51): the first comparison that holds, otherwise
    StringToEnumException. *)
Definition of_wire (t : enum) (s : string) : option string :=
  option_map snd (find (fun p => fst p =? s) (e_in t)).
