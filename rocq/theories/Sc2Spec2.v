(** Specification of the composite schedules of OCPP 2.x, independent of how smart_charging.cpp
    computes them.  Only the record types of the models, P2Spec.v and Sc2Spec.v are used. *)

From Coq Require Import ZArith String List Bool.
From Verif Require Import P2Model P2Spec Sc2Model Sc2Spec.
Import ListNotations.
Open Scope Z_scope.

(** A stored profile that counts for EVSE [e] ([0]: for the station): it was set for that EVSE or
    for the station, meets the requirements, and is not to be ignored while offline. *)
Definition counts_for (st : station) (d : list row) (offline : bool) (e : Z) (q : profile) : Prop :=
  exists x, In x d /\ (r_evse x = e \/ r_evse x = 0) /\
            fit_for st d SetProfile (r_evse x) (r_p x) /\ spelled_out st (r_evse x) (r_p x) q /\
            (offline = true -> ~ In (pf_purpose q) (s_ignored st)).

(** Start of the transaction of an EVSE. *)
Definition started (ev : evse) : option Z := match ev_tx ev with Some t => Some (snd t) | None => None end.

(** What an EVSE demands at second [t] of a window beginning at [now]: nothing without a
    transaction (unless one is simulated), otherwise what its TxProfile or else its
    TxDefaultProfile says. *)
Definition demands (st : station) (d : list row) (offline simulate : bool) (now : Z) (e : Z) (ev : evse)
           (t : Z) (w : want) : Prop :=
  (started ev = None /\ simulate = false /\ w = nothing) \/
  ((started ev <> None \/ simulate = true) /\
   exists tx txd, decides (counts_for st d offline e) PTx now (started ev) t tx /\
                  decides (counts_for st d offline e) PTxDefault now (started ev) t txd /\
                  w = override (wanted_by tx) (wanted_by txd)).

(** What the station allows at [t]. *)
Definition station_allows (st : station) (d : list row) (offline : bool) (now t : Z) (w : want) : Prop :=
  exists m, decides (counts_for st d offline 0) PMax now None t m /\ w = wanted_by m.

(** *** What a schedule for one EVSE says *)

Definition evse_rule (ar : arith) (v : version) (w m : want) : want :=
  strictest ar (per_phase v [w; m]) [w; m].

(** *** What a schedule for the station says: the demands of the EVSEs, each one within its own
    limits, added, within what the station allows *)

Definition one_by_one (ar : arith) (v : version) (w : want) : want := strictest ar (per_phase v [w]) [w].

Definition amps_limit (ar : arith) (st : station) : Z :=
  match s_amps st with Some n => f_of_int ar n | None => 48 * 2 ^ 149 end.
Definition watts_limit (ar : arith) (st : station) : Z :=
  match s_watts st with Some n => f_of_int ar n | None => 33120 * 2 ^ 149 end.
Definition mains_voltage (ar : arith) (st : station) : Z :=
  match s_volts st with Some n => f_of_int ar n | None => 230 * 2 ^ 149 end.
Definition usual_phases (st : station) : Z := or_else (s_phases st) 3.

Definition together (ar : arith) (st : station) (ws : list want) : want :=
  let l := map (one_by_one ar (s_version st)) ws in
  added ar (per_phase (s_version st) l) (amps_limit ar st) (watts_limit ar st) l.

Definition station_rule (ar : arith) (st : station) (ws : list want) (m : want) : want :=
  strictest ar (match s_version st with V21 => true | V201 => false end) [together ar st ws; m].

(** *** The answer *)

Definition in_unit (ar : arith) (st : station) (u : runit) (w : want) : operiod :=
  expressed ar u (match u with UA => amps_limit ar st | UW => watts_limit ar st end)
    (usual_phases st) (mains_voltage ar st) w.

(** A list of periods for [len] seconds from [now] follows the rule: every period says, at the
    moment it starts, what the rule says, and what periods say about L1 (or the total) is right at
    every second. *)
Definition values (o : operiod) : otri * otri * otri * option Z := (op_limit o, op_dis o, op_set o, op_phases o).

Definition follows (l : list operiod) (now len : Z) (rule : Z -> operiod -> Prop) : Prop :=
  wf_output len l /\
  (forall o, In o l -> exists x, rule (now + op_start o) x /\ values o = values x) /\
  (forall t, now <= t < now + len ->
     exists o x, look op_start l (t - now) = Some o /\ rule t x /\ first_phase o = first_phase x).

(** *** Well-behaved stored profiles *)

(** Offsets are 32-bit numbers, values are regular, the end of the validity is not too far before
    the start of the schedule. *)
Definition sane (now end_ : Z) (session : option Z) (p : profile) : Prop :=
  Forall (fun c => sp_start c <= 2147483647) (sc_periods (the_schedule p)) /\
  tidy_profile p /\ near_valid_to p now end_ session.

(** Dividing the powers among two or three phases leaves regular values. *)
Definition shareable (ar : arith) (p : profile) : Prop :=
  Forall (fun c => (forall n, sp_phases c = Some n -> n <= 3) /\
    (sc_unit (the_schedule p) = UW -> forall k, k = 2 \/ k = 3 ->
     let share x := f_div ar x (f_of_int ar k) in
     tri_ok (fun x => regular (share x) /\ 0 <= share x) (limit_of c UW) /\
     tri_ok (fun x => regular (share x) /\ share x < 0) (sp_dis c) /\
     tri_ok (fun x => regular (share x)) (sp_set c))) (sc_periods (the_schedule p)).

(** The values brought to the same phases are regular. *)
Definition equalisable (ar : arith) (by_phase : bool) (n : option Z) (l : list want) : Prop :=
  by_phase = true -> Forall tidy (map (equalised ar n) l).

Definition most_phases (l : list want) : option Z := fold_left (fun a w => omax a (w_phases w)) l None.

(** Adding the demands of the EVSEs leaves regular values. *)
Definition addable (ar : arith) (st : station) (ws : list want) (m : want) : Prop :=
  let v := s_version st in
  let l := map (one_by_one ar v) ws in
  equalisable ar (per_phase v l) (most_phases l) l /\
  tidy (together ar st ws) /\
  equalisable ar (match v with V21 => true | V201 => false end)
    (strictest_phases [together ar st ws; m]) [together ar st ws; m].

(** What all the EVSEs demand, in their order. *)
Definition all_demand (st : station) (d : list row) (offline simulate : bool) (now t : Z) (ws : list want) : Prop :=
  List.length ws = List.length (s_evses st) /\
  forall i ev w, nth_error (s_evses st) i = Some ev -> nth_error ws i = Some w ->
                 demands st d offline simulate now (Z.of_nat i + 1) ev t w.
