(** Conversions of the OCPP data types and messages to JSON and back: the to_json and from_json functions of
    lib/ocpp/v16/ocpp_types.cpp, lib/ocpp/v2/ocpp_types.cpp, lib/ocpp/v16/messages/*.cpp and lib/ocpp/v2/messages/*.cpp.
    All of them consist of the few kinds of statements below; SerTables.v lists the statements of each. *)
From Coq Require Import String ZArith List Bool.
From Verif Require Import StrModel JsonModel EnumModel DtModel.
Import ListNotations.
Local Open Scope string_scope.
Local Open Scope list_scope.
Local Open Scope Z_scope.

(** How one value is converted.
    - [Plain]: k.m or j.at("m"), by the conversion of the member's type.
    - [Text]: k.m.to_rfc3339(), ocpp::DateTime(std::string(j.at("m"))) or j.at("m").get<std::string>() into a DateTime.
    - [Conv]: conversions::..._to_string(k.m), conversions::string_to_...(j.at("m")).
    - [Each], [EachConv]: a loop over the elements, each converted as it is or by the conversion of an enumeration.
    - [Dumped]: from_json of VariableAttribute (lib/ocpp/v2/ocpp_types.cpp): a string is kept, true and false become their
      names, anything else its text. *)
Inductive how := Plain | Text | Conv (e : enum) | Each | EachConv (e : enum) | Dumped.
(** Statements of to_json: an element {"key", k.member} of the initializer; if (k.guard) j["key"] = k.member.value(). *)
Inductive write := WReq (key member : string) (h : how) | WOpt (guard key member : string) (h : how).
(** Statements of from_json: k.member = j.at("key"); if (j.contains("guard")) k.member.emplace(j.at("key")). *)
Inductive read := RReq (key member : string) (h : how) | ROpt (guard key member : string) (h : how).

(** Types of members: CiString<n> and std::string, bool, std::int32_t, float, DateTime, json, enumerations, std::vector and
    structs. A struct has its members (name, whether std::optional, type) and the statements of its two functions. *)
Inductive ty :=
| Str (max : option Z) | Flag | Int | Float | Time | Any | Enm (e : enum) | Vec (t : ty)
| Struct (ms : list (string * bool * ty)) (ws : list write) (rs : list read).

(** Values. A float is the token nlohmann::json writes for it; a time is in nanoseconds; an enumerator is its name. The
    members of a struct are in the order of the declaration; [None] is an empty optional or a member that was never set. *)
Inductive value :=
| VStr (s : string) | VFlag (b : bool) | VInt (z : Z) | VFloat (token : string) | VTime (t : Z) | VJson (j : json) | VEnum (x : string)
| VVec (l : list value) | VStruct (l : list (option value)).

(** Floating point arithmetic is not modelled: the float nearest to what a token says, the float nearest to an integer, and
    the conversion of what a token says to an integer. *)
Record floats := Floats { single : string -> string; of_int : Z -> string; truncated : string -> Z }.

Fixpoint all_some {A} (l : list (option A)) : option (list A) :=
  match l with
  | [] => Some []
  | Some x :: q => match all_some q with Some r => Some (x :: r) | None => None end
  | None :: _ => None
  end.
Fixpoint assoc {A} (k : string) (l : list (string * A)) : option A :=
  match l with [] => None | (k', x) :: q => if String.eqb k k' then Some x else assoc k q end.
Fixpoint index (x : string) (l : list string) : Z :=
  match l with [] => 0 | y :: q => if String.eqb x y then 0 else 1 + index x q end.

(** ** Writing; None: an exception. *)

(** One value; [f] is the conversion of the member's type. *)
Definition put (h : how) (f : value -> option json) (v : value) : option json :=
  match h, v with
  | Plain, _ | Each, _ => f v
  | Text, VTime t => Some (JStr (to_rfc3339 t))
  | Conv e, VEnum x => option_map JStr (to_wire e x)
  | EachConv e, VVec l =>
      option_map JArr (all_some (map (fun x => match x with VEnum y => option_map JStr (to_wire e y) | _ => None end) l))
  | _, _ => None
  end.
(** The statements of one to_json. [env]: the members with their conversions and values. Of two elements of the initializer
    with the same key the first counts; an assignment replaces what is there. *)
Fixpoint run_writes (ws : list write) (env : list (string * ((value -> option json) * option value)))
  (o : list (string * json)) : option (list (string * json)) :=
  match ws with
  | [] => Some o
  | WReq key m h :: q =>
      match assoc m env with
      | Some (f, Some v) =>
          match put h f v with
          | Some j => run_writes q env (match obj_get key o with Some _ => o | None => obj_set key j o end)
          | None => None
          end
      | _ => None
      end
  | WOpt g key m h :: q =>
      match assoc g env with
      | Some (_, Some _) =>
          match assoc m env with
          | Some (f, Some v) => match put h f v with Some j => run_writes q env (obj_set key j o) | None => None end
          | _ => None
          end
      | Some (_, None) => run_writes q env o
      | None => None
      end
  end.
(** to_json of a type. CiString: include/ocpp/common/cistring.hpp 86-88. An enumeration by itself would be written as its
    number, a DateTime as its text; both do not occur. *)
Fixpoint to_json (t : ty) (v : value) {struct t} : option json :=
  match t, v with
  | Str _, VStr s => Some (JStr s)
  | Flag, VFlag b => Some (JBool b)
  | Int, VInt z => Some (JInt z)
  | Float, VFloat x => Some (JFloat x)
  | Time, VTime n => Some (JStr (to_rfc3339 n))
  | Any, VJson j => Some j
  | Enm e, VEnum x => Some (JInt (index x (e_decl e)))
  | Vec u, VVec l => option_map JArr (all_some (map (to_json u) l))
  | Struct ms ws _, VStruct vs =>
      option_map JObj (run_writes ws (combine (map (fun m => fst (fst m)) ms) (combine (map (fun m => to_json (snd m)) ms) vs)) [])
  | _, _ => None
  end.

(** ** Reading; None: an exception. *)

(** String<L>::set (include/ocpp/common/string.hpp 45-62); is_valid is not virtual, so the one of CiString is not called. *)
Definition fits (max : option Z) (s : string) : bool :=
  match max with Some n => Z.of_nat (String.length s) <=? n | None => true end.
(** static_cast<std::int32_t>. *)
Definition wrap32 (z : Z) : Z := (z + 2147483648) mod 4294967296 - 2147483648.
(** for (const auto& val : j): the elements of an array, the values of an object, nothing of null, otherwise the value itself. *)
Definition elements (j : json) : list json :=
  match j with JArr l => l | JObj l => map snd l | JNull => [] | _ => [j] end.
(** One value; [f] is the conversion of the member's type and [g] that of the elements of a vector. *)
Definition take (h : how) (f g : json -> option value) (j : json) : option value :=
  match h, j with
  | Plain, _ => f j
  | Text, JStr s => option_map VTime (from_rfc3339 s)
  | Conv e, JStr s => option_map VEnum (of_wire e s)
  | Each, _ => option_map VVec (all_some (map g (elements j)))
  | EachConv e, _ =>
      option_map VVec (all_some (map (fun x => match x with JStr s => option_map VEnum (of_wire e s) | _ => None end) (elements j)))
  | Dumped, JStr s => f (JStr s)
  | Dumped, JBool b => f (JStr (if b then "true" else "false"))
  | Dumped, _ => f (JStr (dump j))
  | _, _ => None
  end.
(** j.contains and j.at: only objects have keys. *)
Definition at_key (k : string) (j : json) : option json := match j with JObj o => obj_get k o | _ => None end.
(** The statements of one from_json; [env]: the members with the conversions of their types and of the types' elements. The
    result has the values that were set, the last first. *)
Fixpoint run_reads (rs : list read) (env : list (string * ((json -> option value) * (json -> option value)))) (j : json)
  (set : list (string * value)) : option (list (string * value)) :=
  match rs with
  | [] => Some set
  | RReq key m h :: q =>
      match at_key key j, assoc m env with
      | Some x, Some (f, g) => match take h f g x with Some v => run_reads q env j ((m, v) :: set) | None => None end
      | _, _ => None
      end
  | ROpt guard key m h :: q =>
      match at_key guard j with
      | None => run_reads q env j set
      | Some _ =>
          match at_key key j, assoc m env with
          | Some x, Some (f, g) => match take h f g x with Some v => run_reads q env j ((m, v) :: set) | None => None end
          | _, _ => None
          end
      end
  end.
(** from_json of a type: the conversions of nlohmann::json for bool, numbers (from any kind of number and from bool), vectors
    (from arrays only) and json; CiString: include/ocpp/common/cistring.hpp 90-92. An enumeration or a DateTime by itself does
    not occur. *)
Fixpoint from_json (F : floats) (t : ty) (j : json) {struct t} : option value :=
  match t, j with
  | Str max, JStr s => if fits max s then Some (VStr s) else None
  | Flag, JBool b => Some (VFlag b)
  | Int, JInt z => Some (VInt (wrap32 z))
  | Int, JBool b => Some (VInt (if b then 1 else 0))
  | Int, JFloat x => Some (VInt (truncated F x))
  | Float, JFloat x => Some (VFloat (single F x))
  | Float, JInt z => Some (VFloat (of_int F z))
  | Float, JBool b => Some (VFloat (of_int F (if b then 1 else 0)))
  | Any, _ => Some (VJson j)
  | Vec u, JArr l => option_map VVec (all_some (map (from_json F u) l))
  | Struct ms _ rs, _ =>
      option_map (fun set => VStruct (map (fun m => assoc (fst (fst m)) set) ms))
        (run_reads rs (map (fun m => (fst (fst m), (from_json F (snd m), match snd m with Vec u => from_json F u | _ => fun _ => None end))) ms) j [])
  | _, _ => None
  end.
