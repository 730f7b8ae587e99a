(** * What the CSMS sends and what should arrive *)
From Coq Require Import List Arith.
From Verif Require Import RxModel.
Import ListNotations.

(** A frame comes in pieces; each comes with the number of bytes of the frame still to come.
    Only a frame that is empty has an empty piece. *)
Definition frame := list bytes.
Fixpoint arrives (f : frame) : list event :=
  match f with
  | [] => []
  | d :: f' => Chunk d (length (concat f')) :: arrives f'
  end.
Definition proper (f : frame) : Prop :=
  f <> [] /\ (length f = 1 \/ Forall (fun d => d <> []) f).

(** A message is one frame or several (RFC 6455, 5.4). *)
Definition message := list frame.
Definition content (m : message) : bytes := concat (concat m).
Definition message_arrives (m : message) : list event := flat_map arrives m.
Definition in_one_frame (m : message) : Prop := exists f, m = [f] /\ proper f.

(** What the client thread did. *)
Definition by_client (e : event) : bool := match e with Chunk _ _ | Clear => true | _ => false end.
Definition client (es : list event) : list event := filter by_client es.

(** A connection brings messages, maybe the beginning of another, and then is cleared away. *)
Record connection := { whole : list message; torn : frame; rest : frame }.
Definition connection_arrives (c : connection) : list event :=
  flat_map message_arrives (whole c) ++ firstn (length (torn c)) (arrives (torn c ++ rest c)) ++ [Clear].
Definition plausible (c : connection) : Prop :=
  Forall in_one_frame (whole c) /\ (torn c = [] \/ rest c <> [] /\ proper (torn c ++ rest c)).

(** Some of a list in the same order. *)
Inductive some_of {A : Type} : list A -> list A -> Prop :=
| some_nil : some_of [] []
| some_take : forall x a b, some_of a b -> some_of (x :: a) (x :: b)
| some_skip : forall x a b, some_of a b -> some_of a (x :: b).
