(** What the users of the deferred callbacks expect, said with the events and
    what is pushed and called. *)

From Coq Require Import List Bool ZArith.
From Verif Require Import SqModel.
Import ListNotations.

Definition reachable (s : state) : Prop := exists es, run init es = Some s.

(** The callbacks handed over in a history. *)
Fixpoint handed (es : list event) : list callback :=
  match es with
  | [] => []
  | Push c :: es' => c :: handed es'
  | _ :: es' => handed es'
  end.

(** The callback that is running. *)
Definition running (s : state) : list callback :=
  match thread s with Calling c => [c] | _ => [] end.

(** Nothing but a wake-up that nobody asked for, or new work, can happen. *)
Definition stuck (s : state) : Prop :=
  forall e, e <> Spurious -> (forall c, e <> Push c) -> step s e = None.

(** A history in which the destructor's notification never falls between the
    thread's test and its falling asleep (as with the mutex held around it). *)
Fixpoint careful (s : state) (es : list event) : Prop :=
  match es with
  | [] => True
  | e :: es' =>
      (e = StopNotify -> thread s <> Decided) /\
      match step s e with Some s' => careful s' es' | None => True end
  end.
