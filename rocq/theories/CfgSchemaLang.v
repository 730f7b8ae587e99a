(** The part of JSON schema that the configuration schemas use (config/v16/profile_schemas/*.json), as the validator of
    the library (json-schema-validator, not part of /repo) applies it: a value satisfies a schema or it does not. *)
From Coq Require Import ZArith List Bool String Ascii.
From Verif Require Import StrModel JsonModel.
Import ListNotations.
Local Open Scope string_scope.
Local Open Scope Z_scope.

(** "type" together with its bounds. [SObject closed required props]: [closed] is "additionalProperties": false. *)
Inductive schema :=
| SBool
| SInt (min max : option Z)
| SNumber (min max : option Z)
| SText (min max : option Z)
| SArray (items : schema)
| SObject (closed : bool) (required : list string) (props : list (string * schema)).

(** "minimum"/"maximum", "minLength"/"maxLength". *)
Definition within (min max : option Z) (z : Z) : bool :=
  match min with Some m => m <=? z | None => true end && match max with Some m => z <=? m | None => true end.

(** The number of characters of a UTF-8 text: the bytes that do not continue a character (10xxxxxx). *)
Definition continues (c : ascii) : bool := (128 <=? code c) && (code c <? 192).
Fixpoint characters (s : string) : Z :=
  match s with EmptyString => 0 | String c s' => (if continues c then 0 else 1) + characters s' end.

(** [number min max t] decides the bounds of a number that is not written as an integer; its value is not modelled. *)
Section Valid.
Variable number : option Z -> option Z -> string -> bool.

(** Does the value satisfy the schema? *)
Fixpoint valid (s : schema) (j : json) {struct s} : bool :=
  match s with
  | SBool => match j with JBool _ => true | _ => false end
  | SInt lo hi => match j with JInt z => within lo hi z | _ => false end
  | SNumber lo hi => match j with JInt z => within lo hi z | JFloat t => number lo hi t | _ => false end
  | SText lo hi => match j with JStr t => within lo hi (characters t) | _ => false end
  | SArray i => match j with JArr l => forallb (valid i) l | _ => false end
  | SObject closed required props =>
      match j with
      | JObj l =>
          forallb (fun k => match obj_get k l with Some _ => true | None => false end) required
          && (fix each (ps : list (string * schema)) : bool :=
                match ps with
                | [] => true
                | (k, p) :: ps' =>
                    match obj_get k l with Some v => valid p v | None => true end && each ps'
                end) props
          && (if closed then forallb (fun kv => existsb (fun p => String.eqb (fst kv) (fst p)) props) l else true)
      | _ => false
      end
  end.
End Valid.
