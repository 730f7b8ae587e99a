(** Specification of the frames on the wire and of a split report, without the functions of the model. *)
From Coq Require Import ZArith List Bool String Ascii.
From Verif Require Import JsonModel.
Import ListNotations.
Local Open Scope string_scope.
Local Open Scope Z_scope.

(** The three kinds of messages (OCPP-J, chapter 4). *)
Inductive frame :=
| Call (id action : string) (payload : json)
| CallResult (id : string) (payload : json)
| CallError (id errorCode description : string) (details : json).

(** The text of a message: a JSON array with the type number, the id and the parts of the message. *)
Definition wire (f : frame) : string :=
  match f with
  | Call i a p => "[2," ++ dump_str i ++ "," ++ dump_str a ++ "," ++ dump p ++ "]"
  | CallResult i p => "[3," ++ dump_str i ++ "," ++ dump p ++ "]"
  | CallError i c d x => "[4," ++ dump_str i ++ "," ++ dump_str c ++ "," ++ dump_str d ++ "," ++ dump x ++ "]"
  end.

Definition frame_id (f : frame) : string := match f with Call i _ _ | CallResult i _ | CallError i _ _ _ => i end.
Definition frame_payload (f : frame) : json := match f with Call _ _ p | CallResult _ p | CallError _ _ _ p => p end.

(** One part of a report: its number, the entries it carries, whether more parts follow. *)
Definition report_part (request_id : Z) (generated_at : string) (n : nat) (id : string) (entries : list json) (more : bool) : json :=
  JArr [JInt 2; JStr id; JStr "NotifyReport";
        JObj [("generatedAt", JStr generated_at); ("reportData", JArr entries); ("requestId", JInt request_id);
              ("seqNo", JInt (Z.of_nat n)); ("tbc", JBool more)]].

(** The messages for the given parts, numbered from [n] on; the last one is final. *)
Fixpoint numbered (request_id : Z) (generated_at : string) (ids : nat -> string) (n : nat) (parts : list (list json)) : list json :=
  match parts with
  | [] => []
  | p :: rest =>
      report_part request_id generated_at n (ids n) p (match rest with [] => false | _ => true end)
      :: numbered request_id generated_at ids (S n) rest
  end.

(** A string that is written as it is between quotes. *)
Definition plain (s : string) : Prop := dump (JStr s) = String """" (s ++ String """" "").
