(** What a user expects of a change of the security profile. *)
From Coq Require Import ZArith List Bool.
From Verif Require Import Sp16Model.
Import ListNotations.
Open Scope Z_scope.

(** The profile of a connection made by an event, or the one before. *)
Definition proven (old : link) (new : link) (b : Z) : Z := match old, new with Trying _ _, Up q => q | _, _ => b end.

(** A history (newest first) of a station that began with profile [p] and was last connected with [b] ([p] if it never was);
    requests come over the connection. *)
Inductive happened (p : Z) : list event -> Z -> state -> Prop :=
| hp_none : happened p [] p (start p)
| hp_step h b s e : happened p h b s ->
    (forall v key ca leaf, e = Request v key ca leaf -> closing s = false /\ exists q, conn s = Up q) ->
    happened p (e :: h) (proven (conn s) (conn (fst (step s e))) b) (fst (step s e)).

(** The application neither stops the station nor calls connect_websocket, and the station does not start again. *)
Definition undisturbed (h : list event) : Prop := ~ In Stop h /\ ~ In Connect h /\ ~ In Restart h.

(** Which profile is possible with what is installed. *)
Definition possible (v : Z) (key ca leaf : bool) : Prop :=
  v <= 3 /\ (v = 1 \/ v = 2 -> key = true) /\ (v = 2 \/ v = 3 -> ca = true) /\ (v = 3 -> leaf = true).
