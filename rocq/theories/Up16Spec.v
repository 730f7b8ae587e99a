(** Who waits and what is offered, told from what could be seen (newest first). *)
From Coq Require Import ZArith List Bool.
From Verif Require Import Up16Model.
Import ListNotations.
Local Open Scope list_scope.
Local Open Scope Z_scope.

Definition log := list out.
Inductive happened (e : env) : state -> log -> Prop :=
| h_init : happened e init []
| h_step s g o : happened e s g -> happened e (fst (step e s o)) (rev (snd (step e s o)) ++ g).

(** The last thing seen of thread [t]. *)
Definition of_thread (t : Z) (o : out) : bool :=
  match o with OBegin u _ | OAuthorize u _ | OWaits u _ | OResult u _ _ => u =? t | _ => false end.
Definition last_of (t : Z) (g : log) : option out := find (of_thread t) g.
(** Thread [t] has been called with token [i] and has sent nothing yet; has sent Authorize.req and has no answer; waits for a price. *)
Definition begun (g : log) (t i : Z) : Prop := last_of t g = Some (OBegin t i).
Definition asks (g : log) (t i : Z) : Prop := last_of t g = Some (OAuthorize t i).
Definition waits (g : log) (t i : Z) : Prop := last_of t g = Some (OWaits t i).

(** The receiving thread holds a price back. *)
Definition of_price (o : out) : bool := match o with OHeld _ _ | OTariff _ _ => true | _ => false end.
Definition blocked (g : log) (i : Z) (x : tariff) : Prop := find of_price g = Some (OHeld i x).

(** Tariff [x] has come for token [i] while a thread waits for it, and none has taken it; it is lost if the token is asked for again. *)
Inductive offer : log -> Z -> tariff -> Prop :=
| of_now g t i x : waits g t i -> offer (OTariff i x :: g) i x
| of_keep g i x o : offer g i x -> (forall t, o <> OAuthorize t i) -> (forall t s r, o = OResult t s r -> ~ waits g t i) -> (forall y, o <> OTariff i y) ->
    offer (o :: g) i x.

(** The texts of a message and whom it is for. *)
Inductive says (e : env) : message -> list (Z * option Z) -> Prop :=
| sa_none i ex : (multi e = false \/ ex = None) -> says e (Price i None ex) []
| sa_text i m ex : (multi e = false \/ ex = None) -> says e (Price i (Some (Some m)) ex) [(m, language e)]
| sa_extra i l : multi e = true -> says e (Price i None (Some (Some l))) l
| sa_both i m l : multi e = true -> says e (Price i (Some (Some m)) (Some (Some l))) ((m, language e) :: l).
(** The first transaction of this token, running or, if none runs, stopped. *)
Inductive first_of : list transaction -> Z -> transaction -> Prop :=
| fo l1 t l2 i : tag t = i -> (forall u, In u l1 -> tag u <> i) -> first_of (l1 ++ t :: l2) i t.
Definition meant (active stopped : list transaction) (i : Z) (w : ident) : Prop :=
  (exists t, first_of (active ++ stopped) i t /\ w = BySession (session t) (txid t)) \/
  ((forall t, In t (active ++ stopped) -> tag t <> i) /\ w = ByToken i).
