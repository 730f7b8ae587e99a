(** What a user expects of the message log, in terms of what was written and of the files that are there. *)
From Coq Require Import ZArith String Ascii List Bool.
From Verif Require Import StrModel LogModel.
Import ListNotations.
Open Scope string_scope.
Open Scope list_scope.
Open Scope Z_scope.

(** The log as a book: the parts it was divided into, the newest first. A part ends when it has reached the maximum size
    and something is written or the log is opened. *)
Definition weight (l : list line) : Z := fold_left Z.add (List.map bytes l) 0.
Definition tags (x : option line) : list line := match x with Some l => [l] | None => [] end.
Definition full (c : cfg) (l : list line) : bool := rotates c && (0 <? max_size c) && (max_size c <=? weight l).
Definition turn (c : cfg) (b : list (list line)) : list (list line) :=
  match b with
  | l :: r => if full c l then tags (opening c) :: (l ++ tags (closing c)) :: r else b
  | [] => []
  end.
Fixpoint book (c : cfg) (h : list op) : list (list line) :=
  match h with
  | [] => []
  | Start _ _ :: h =>
    match turn c (book c h) with
    | [] => [tags (opening c)]
    | l :: r => (if 0 <? weight l then l else l ++ tags (opening c)) :: r
    end
  | Write _ _ x :: h => match turn c (book c h) with [] => [] | l :: r => (l ++ [x]) :: r end
  | Stop :: h => match book c h with [] => [] | l :: r => (if closes c then l ++ tags (closing c) else l) :: r end
  end.

(** [ls] lists the files of [d]; when the log is opened its file is there already. *)
Definition lists (ls : list name) (d : dir) : Prop := NoDup ls /\ forall x, In x ls <-> d x <> None.
Definition sees (o : op) (d : dir) : Prop :=
  match o with
  | Start _ ls => NoDup ls /\ forall x, In x ls <-> (x = Base \/ d x <> None)
  | Write _ ls _ => lists ls d
  | Stop => True
  end.

(** A history (newest first) of a log that began in [d0] without a file of that log. *)
Inductive happened (c : cfg) (d0 : dir) : list op -> dir -> Prop :=
| hp_none : d0 Base = None -> (forall s, d0 (Ext s) = None) -> happened c d0 [] d0
| hp_step h d o : happened c d0 h d -> sees o d -> happened c d0 (o :: h) (fst (step c d o)).

(** "0" ... "9". *)
Definition digit (s : string) : option nat :=
  match s with
  | String a EmptyString => if (48 <=? nat_of_ascii a)%nat && (nat_of_ascii a <=? 57)%nat then Some (nat_of_ascii a - 48)%nat else None
  | _ => None
  end.

(** The files that hold these parts: the newest in the file itself, the next with 0, then 1 and so on. *)
Definition shelf (b : list (list line)) (d0 : dir) (x : name) : option (list line) :=
  match x with
  | Base => nth_error b 0
  | Ext s => match digit s with Some j => nth_error b (Datatypes.S j) | None => None end
  | Other _ => d0 x
  end.

(** The line is in a file of the log. *)
Definition kept (d : dir) (x : line) : Prop := exists n l, d n = Some l /\ In x l.

(* ------------------------------------------------------------------------------------------------------------------ *)

(** The call with this id that waits for its answer after these calls of the log (newest first). *)
Fixpoint open_call (h : list call) (id : string) : option string :=
  match h with
  | Message _ _ x :: r =>
    match reads x with
    | Call i a => if String.eqb i id then Some a else open_call r id
    | Result i => if String.eqb i id then None else open_call r id
    | _ => open_call r id
    end
  | _ :: r => open_call r id
  | [] => None
  end.

(** The lines for the messages of a history (newest first). *)
Definition line_of (h : list call) (up : bool) (ty : string) (x : message) : entry :=
  {| from := if up then ChargePoint else CentralSystem;
     kind := match reads x with
             | Call _ a => a
             | Result id => match open_call h id with Some a => a ++ "Response" | None => "" end
             | Unreadable (Some a) => a
             | _ => ty
             end;
     said := body x;
     pretty := match reads x with Unreadable _ => false | _ => true end |}.
Fixpoint expected (h : list call) : list entry :=
  match h with
  | Message up ty x :: r => expected r ++ [line_of r up ty x]
  | _ :: r => expected r
  | [] => []
  end.

Definition from_peer (e : entry) : bool := match from e with System => false | _ => true end.
Definition from_system (e : entry) : bool := negb (from_peer e).

Fixpoint received (l : list call) : list (string * log_type) :=
  match l with
  | Message up _ x :: r => (body x, if up then ChargePoint else CentralSystem) :: received r
  | _ :: r => received r
  | [] => []
  end.
Fixpoint sys_lines (l : list call) : list entry :=
  match l with Sys m :: r => {| from := System; kind := m; said := ""; pretty := false |} :: sys_lines r | _ :: r => sys_lines r | [] => [] end.
Fixpoint raw_lines (l : list call) : list entry :=
  match l with Raw m t :: r => {| from := t; kind := m; said := ""; pretty := false |} :: raw_lines r | _ :: r => raw_lines r | [] => [] end.

Definition started : entry := {| from := System; kind := "Session logging started."; said := ""; pretty := false |}.

(** The call concerns the session. *)
Definition about (id : string) (o : call) : Prop := o = StartSession id \/ o = StopSession id.

(** An id that was seen in a CALL or a CALLRESULT. *)
Definition seen (l : list call) (id : string) : Prop :=
  exists up ty x, In (Message up ty x) l /\ ((exists a, reads x = Call id a) \/ reads x = Result id).

Fixpoint occurrences (a : ascii) (s : string) : nat :=
  match s with EmptyString => 0 | String b r => (if Ascii.eqb a b then 1 else 0) + occurrences a r end.
