(** What a thread that sends a message expects, said with the events, what is
    returned and what is on the wire. *)

From Coq Require Import List Bool Arith Sorted.
From Verif Require Import PmModel.
Import ListNotations.

(** The lengths of the messages sent in a history: number [m] is the [m]-th. *)
Fixpoint messages (es : list event) : list nat :=
  match es with
  | [] => []
  | Send n :: es' => n :: messages es'
  | _ :: es' => messages es'
  end.

(** The messages that are on the wire as a whole, in the order of the wire. *)
Definition whole (lengths : list nat) (w : list (nat * nat)) : list nat :=
  map fst (filter (fun e => Nat.eqb (snd e) (nth (fst e) lengths 0)) w).

Definition waiting (p : pc) : Prop := p = Testing \/ p = Decided \/ p = Asleep \/ p = Woken.

(** A history in which nobody sends while another thread is still waiting. *)
Fixpoint one_at_a_time (s : state) (es : list event) : Prop :=
  match es with
  | [] => True
  | e :: es' =>
      (forall n, e = Send n -> forall m, ~ waiting (waiter s m)) /\
      match step s e with Some s' => one_at_a_time s' es' | None => True end
  end.

(** What the client thread does alone. *)
Definition by_client (e : event) : Prop := e = Write Full \/ e = Mark \/ e = Pop.
