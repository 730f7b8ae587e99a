(** Which meter values are due for pricing, told from what has happened (newest first, each event with what it put out). *)
From Coq Require Import ZArith List Bool.
From Verif Require Import Px16Model.
Import ListNotations.
Local Open Scope list_scope.
Local Open Scope Z_scope.

Definition hist := list (op * list out).

Inductive happened (e : env) : state -> hist -> Prop :=
| h_init : happened e init []
| h_step s h o : happened e s h -> happened e (fst (step e s o)) ((o, snd (step e s o)) :: h).

(** The transaction of connector [c] has the id [i]. *)
Inductive runs : hist -> Z -> Z -> Prop :=
| ru_now h c i l : runs ((Started c i, l) :: h) c i
| ru_keep h c i o l : runs h c i -> o <> Stopped c -> (forall j, o <> Started c j) -> runs ((o, l) :: h) c i.

(** A message with costs that concerns connector [c], the first with this id. *)
Definition concerns (e : env) (h : hist) (o : op) (c : Z) (t : trigger) : Prop :=
  has_callback e = true /\ exists f m of now d a i, o = Cost f (Some (Some m)) of now d a /\ trig m = t /\ id m = Some i /\
    1 <= c <= Z.of_nat (n e) /\ runs h c i /\ forall b, 1 <= b < c -> ~ runs h b i.

(** Meter values are wanted once at [k] Wh, and this has not been done yet. *)
Inductive wants_energy (e : env) : hist -> Z -> Z -> Prop :=
| we_now h o l c t k : concerns e h o c t -> at_energy t = Some k -> wants_energy e ((o, l) :: h) c k
| we_keep h o l c k : wants_energy e h c k -> (forall t, ~ concerns e h o c t) -> o <> Stopped c -> ~ In (OMeter c ByEnergy) l ->
    wants_energy e ((o, l) :: h) c k.
(** Meter values are wanted whenever the power crosses [k] W. *)
Inductive wants_power (e : env) : hist -> Z -> Z -> Prop :=
| wp_now h o l c t k : concerns e h o c t -> at_power t = Some k -> wants_power e ((o, l) :: h) c k
| wp_keep h o l c k : wants_power e h c k -> (forall t, ~ concerns e h o c t) -> o <> Stopped c -> wants_power e ((o, l) :: h) c k.
(** Meter values are wanted when the connector enters one of these states. *)
Inductive wants_status (e : env) : hist -> Z -> list status -> Prop :=
| ws_now h o l c t ss : concerns e h o c t -> at_status t = Some ss -> wants_status e ((o, l) :: h) c ss
| ws_keep h o l c ss : wants_status e h c ss -> (forall t, ~ concerns e h o c t) -> o <> Stopped c -> wants_status e ((o, l) :: h) c ss.

(** The power with which meter values were last sent for that reason, in this transaction. *)
Inductive sent_power : hist -> Z -> Z -> Prop :=
| sp_now h c en p l : In (OMeter c ByPower) l -> sent_power ((Measure c en (Some p), l) :: h) c p
| sp_keep h c p o l : sent_power h c p -> o <> Stopped c -> ~ In (OMeter c ByPower) l -> sent_power ((o, l) :: h) c p.

(** The state that the connector last entered while states were watched. *)
Inductive seen (e : env) : hist -> Z -> status -> Prop :=
| se_now h c st l ss : wants_status e h c ss -> seen e ((Status c st, l) :: h) c st
| se_keep h c st o l : seen e h c st -> o <> Stopped c -> (forall st' ss, o = Status c st' -> ~ wants_status e h c ss) -> seen e ((o, l) :: h) c st.

Definition has_measured (h : hist) (c : Z) : Prop := exists en p l, In (Measure c en p, l) h.

(** The time read as an instant, after the offset for the display. *)
Definition shifted (o : offset) (t t' : Z) : Prop :=
  (exists hh mm, o = Parts (Some hh) (Some mm) /\ t' = t + 60 * (60 * hh + mm)) \/
  (exists hh, o = Parts (Some hh) None /\ t' = t + 3600 * hh) \/
  ((forall hh x, o <> Parts (Some hh) x) /\ t' = t).

(** A timer is set for [t]: by the last message with a time that was not over. *)
Definition sets_timer (e : env) (h : hist) (o : op) (c t : Z) : Prop :=
  exists f m of now d a t0, o = Cost f m of now d a /\ (exists tr, concerns e h o c tr /\ at_time tr = Some t0) /\ now <= t0 /\ shifted of t0 t.
Inductive wants_time (e : env) : hist -> Z -> Z -> Prop :=
| wt_now h o l c t : sets_timer e h o c t -> wants_time e ((o, l) :: h) c t
| wt_keep h o l c t : wants_time e h c t -> (forall t', ~ sets_timer e h o c t') -> o <> Stopped c -> (forall now, o = TimeUp c now -> now < t) ->
    wants_time e ((o, l) :: h) c t.
