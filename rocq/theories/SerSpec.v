(** What the JSON form of a value is. Only the declarations of the structs matter here, not the statements of their
    conversions. *)
From Coq Require Import String ZArith List Bool.
From Verif Require Import JsonModel JsonProofs EnumModel DtSpec SerModel SerTables.
Import ListNotations.
Local Open Scope string_scope.
Local Open Scope list_scope.
Local Open Scope Z_scope.

(** At most [max] bytes. *)
Definition short (max : option Z) (s : string) : Prop := forall n, max = Some n -> Z.of_nat (String.length s) <= n.
(** Values a variable of the type can have. A float is finite and its token the one written for it. *)
Inductive typed (F : floats) : ty -> value -> Prop :=
| T_str max s : short max s -> typed F (Str max) (VStr s)
| T_flag b : typed F Flag (VFlag b)
| T_int z : - 2 ^ 31 <= z < 2 ^ 31 -> typed F Int (VInt z)
| T_float x : float_token x = true -> int_token x = false -> single F x = x -> typed F Float (VFloat x)
| T_time n : - 2 ^ 63 <= n < 2 ^ 63 -> typed F Time (VTime n)
| T_any j : wf j -> typed F Any (VJson j)
| T_enum e x : In x (e_decl e) -> typed F (Enm e) (VEnum x)
| T_vec u l : Forall (typed F u) l -> typed F (Vec u) (VVec l)
| T_struct ms ws rs vs : Forall2 (fun m ov => (exists v, ov = Some v /\ typed F (snd m) v) \/ (ov = None /\ snd (fst m) = true)) ms vs ->
    typed F (Struct ms ws rs) (VStruct vs).

(** The value under a key of an object. *)
Inductive has : list (string * json) -> string -> json -> Prop :=
| has_here k j q : has ((k, j) :: q) k j
| has_later k k' j' q j : k <> k' -> has q k j -> has ((k', j') :: q) k j.
Definition lacks (o : list (string * json)) (k : string) : Prop := ~ In k (map fst o).

(** [represents strict t v j]: [j] is a proper JSON form of [v]. Enumerators have their strings, times are RFC 3339 texts. An
    object has all required members and exactly those of the optional ones that are set, under their names. If not
    [strict], it may have others besides. *)
Inductive represents (F : floats) (strict : bool) : ty -> value -> json -> Prop :=
| P_str max s : short max s -> represents F strict (Str max) (VStr s) (JStr s)
| P_flag b : represents F strict Flag (VFlag b) (JBool b)
| P_int z : - 2 ^ 31 <= z < 2 ^ 31 -> represents F strict Int (VInt z) (JInt z)
| P_float x y : single F x = y -> represents F strict Float (VFloat y) (JFloat x)
| P_float_int z y : strict = false -> of_int F z = y -> represents F strict Float (VFloat y) (JInt z)
| P_time n s : rfc3339 s n -> represents F strict Time (VTime n) (JStr s)
| P_any j : represents F strict Any (VJson j) j
| P_enum e x s : In x (e_decl e) -> to_wire e x = Some s -> represents F strict (Enm e) (VEnum x) (JStr s)
| P_vec u l js : Forall2 (represents F strict u) l js -> represents F strict (Vec u) (VVec l) (JArr js)
| P_struct ms ws rs vs o :
    Forall2 (fun m ov => (exists v j, ov = Some v /\ has o (fst (fst m)) j /\ represents F strict (snd m) v j) \/
                         (ov = None /\ snd (fst m) = true /\ lacks o (fst (fst m)))) ms vs ->
    NoDup (map fst o) ->
    (strict = true -> forall k, In k (map fst o) -> In k (map (fun m => fst (fst m)) ms)) ->
    represents F strict (Struct ms ws rs) (VStruct vs) (JObj o).

(** Times have milliseconds on the wire. *)
Fixpoint to_milliseconds (v : value) : value :=
  match v with
  | VTime n => VTime (Z.quot n 1000000 * 1000000)
  | VVec l => VVec (map to_milliseconds l)
  | VStruct l => VStruct (map (option_map to_milliseconds) l)
  | _ => v
  end.

(** [accepts t v j]: what is read, as [v], at all. Numbers: integers out of range, fractions, true and false are converted;
    for vectors anything goes whose parts, if it has some, can be read; where no member is required, anything at all. *)
Definition parts (j : json) (js : list json) : Prop :=
  match j with JArr l => js = l | JObj o => js = map snd o | JNull => js = [] | _ => js = [j] end.
Definition under (j : json) (k : string) (x : json) : Prop := exists o, j = JObj o /\ has o k x.
(** The text of a member that takes any JSON: VariableAttribute.value. *)
Definition lax (ms : list (string * bool * ty)) (k : string) : Prop :=
  k = "value" /\ match v2_VariableAttribute with Struct ms' _ _ => map fst ms = map fst ms' | _ => False end.
Definition text_of (j : json) (s : string) : Prop :=
  match j with JStr x => s = x | JBool true => s = "true" | JBool false => s = "false" | _ => s = dump j end.
Inductive accepts (F : floats) : ty -> value -> json -> Prop :=
| A_str max s : short max s -> accepts F (Str max) (VStr s) (JStr s)
| A_flag b : accepts F Flag (VFlag b) (JBool b)
| A_int z y : - 2 ^ 31 <= y < 2 ^ 31 -> (exists k, y = z + k * 2 ^ 32) -> accepts F Int (VInt y) (JInt z)
| A_int_flag b : accepts F Int (VInt (if b : bool then 1 else 0)) (JBool b)
| A_int_float x : accepts F Int (VInt (truncated F x)) (JFloat x)
| A_float x : accepts F Float (VFloat (single F x)) (JFloat x)
| A_float_int z : accepts F Float (VFloat (of_int F z)) (JInt z)
| A_float_flag b : accepts F Float (VFloat (of_int F (if b : bool then 1 else 0))) (JBool b)
| A_time n s : DtModel.from_rfc3339 s = Some n -> accepts F Time (VTime n) (JStr s)
| A_any j : accepts F Any (VJson j) j
| A_enum e x s : In x (e_decl e) -> to_wire e x = Some s -> accepts F (Enm e) (VEnum x) (JStr s)
| A_vec u l j js : parts j js -> Forall2 (accepts F u) l js -> accepts F (Vec u) (VVec l) j
| A_struct ms ws rs vs j :
    Forall2 (fun m ov => (exists v x, ov = Some v /\ under j (fst (fst m)) x /\ accepts F (snd m) v x) \/
                         (exists s x, ov = Some (VStr s) /\ under j (fst (fst m)) x /\ lax ms (fst (fst m)) /\ text_of x s /\ accepts F (snd m) (VStr s) (JStr s)) \/
                         (ov = None /\ snd (fst m) = true /\ (forall x, ~ under j (fst (fst m)) x))) ms vs ->
    accepts F (Struct ms ws rs) (VStruct vs) j.
