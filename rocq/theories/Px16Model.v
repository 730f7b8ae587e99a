(** OCPP 1.6 with California pricing: running and final costs, and the meter values that the CSMS asks for with them
    (lib/ocpp/v16/charge_point_impl.cpp). Model only.

    Simplified: energies are whole Wh and powers whole W, thresholds too, without the rounding of doubles (the hysteresis of 5 % is then
    exact: p >= 1.05 k iff 20 p >= 21 k). Times are seconds. The text of the costs is left out. A message is read by an oracle
    (json::parse, from_json of RunningCost and TriggerMeterValue). Connectors named by the application exist. The session id of a
    transaction is told by its connector. *)
From Coq Require Import ZArith List Bool.
Import ListNotations.
Local Open Scope list_scope.
Local Open Scope Z_scope.

(** ChargePointStatus (include/ocpp/v16/ocpp_enums.hpp), by number. *)
Definition status := Z.

(** TriggerMeterValue (include/ocpp/common/types.hpp; lib/ocpp/common/types.cpp:732-760). *)
Record trigger := { at_time : option Z; at_energy : option Z; at_power : option Z; at_status : option (list status) }.
(** What is read from the data of RunningCost or FinalCost: [id] is std::stoi(transactionId), [None] if that throws. *)
Record cost := { id : option Z; trig : trigger }.

(** DisplayTimeOffset split at ':' and each part read by std::stoi (3409-3427). *)
Inductive offset := NoOffset | WrongParts | Parts (h m : option Z).

(** Connector (include/ocpp/v16/connector.hpp:16-30), the fields for pricing; whether something was measured; [tx] is the id of its
    active transaction. *)
Record conn := { on_energy : option Z; on_power : option Z; on_status : option (list status); timer : option Z;
                 last_power : option Z; prev : option status; measured : bool; tx : option Z }.

(** Why a meter value is sent. *)
Inductive why := ByEnergy | ByPower | ByStatus | ByTime.
Inductive out :=
| OMeter (c : Z) (w : why)                  (* MeterValues.req *)
| OCost (c : Z) (final : bool) (dec : Z)    (* session_cost_callback with the session of connector c *)
| ORejected                                 (* DataTransfer.conf: Rejected *)
| OAnswer (a : Z)                           (* DataTransfer.conf: what the callback answered *)
| OCallError.                               (* an exception left the handler *)

Record env := { n : nat; has_callback : bool }.
(** The connectors, and the static number_of_decimals (3375-3376), [None] until first used. *)
Record state := { conns : Z -> conn; decimals : option Z }.

Definition upd (s : state) (c : Z) (k : conn) : state := {| conns := fun d => if d =? c then k else conns s d; decimals := decimals s |}.

(** get_connector_from_transaction_id (lib/ocpp/v16/transaction.cpp:230-243); nothing is ever active at connector 0. *)
Definition connector_of (e : env) (s : state) (i : Z) : option Z :=
  find (fun c => match tx (conns s c) with Some x => x =? i | None => false end) (map Z.of_nat (seq 1 (n e))).

(** 3409-3427: the offset is added part by part, until one cannot be read. *)
Definition shift (o : offset) (t : Z) : Z :=
  match o with
  | Parts (Some h) (Some m) => t + 3600 * h + 60 * m
  | Parts (Some h) None => t + 3600 * h
  | _ => t
  end.

(** set_connector_trigger_metervalue_timer, 3394-3442. *)
Definition set_timer (k : conn) (o : offset) (now t : Z) : conn :=
  if t <? now then k
  else {| on_energy := on_energy k; on_power := on_power k; on_status := on_status k; timer := Some (shift o t);
          last_power := last_power k; prev := prev k; measured := measured k; tx := tx k |}.

(** handle_set_session_cost, 3320-3392. [dec]: the configured number of decimals, or 3 (DEFAULT_PRICE_NUMBER_OF_DECIMALS). *)
Definition set_session_cost (e : env) (s : state) (final : bool) (msg : option (option cost)) (o : offset) (now : Z) (dec : option Z) (a : Z) : state * list out :=
  match msg with
  | None => (s, [ORejected])
  | Some m =>
    if negb (has_callback e) then (s, [ORejected])
    else match m with
    | None => (s, [ORejected])
    | Some m =>
      match id m with
      | None => (s, [OCallError])
      | Some i =>
        match connector_of e s i with
        | None => (s, [ORejected])
        | Some c =>
          let d := match decimals s with Some d => d | None => match dec with Some d => d | None => 3 end end in
          let k := conns s c in
          let k := {| on_energy := at_energy (trig m); on_power := at_power (trig m); on_status := at_status (trig m); timer := timer k;
                      last_power := last_power k; prev := prev k; measured := measured k; tx := tx k |} in
          let k := match at_time (trig m) with Some t => set_timer k o now t | None => k end in
          let s := upd s c k in
          ({| conns := conns s; decimals := Some d |}, [OCost c final d; OAnswer a])
        end
      end
    end
  end.

(** send_meter_value_on_pricing_trigger, 1035-1104. The measurement was stored just before (4271-4282), so that a meter value is there. *)
Definition crossed (p q k : Z) : bool := (p <? k) && (21 * k <=? 20 * q) || (k <? p) && (20 * q <=? 19 * k).
Definition pricing_trigger (c : Z) (k : conn) (e : Z) (p : option Z) : conn * list out :=
  let by_energy := match on_energy k with Some x => x <=? e | None => false end in
  if by_energy then
    ({| on_energy := None; on_power := on_power k; on_status := on_status k; timer := timer k;
        last_power := last_power k; prev := prev k; measured := measured k; tx := tx k |}, [OMeter c ByEnergy])
  else match on_power k, p with
       | Some x, Some q =>
           let send := match last_power k with Some l => crossed l q x | None => true end in
           if send then
             ({| on_energy := on_energy k; on_power := on_power k; on_status := on_status k; timer := timer k;
                 last_power := Some q; prev := prev k; measured := measured k; tx := tx k |}, [OMeter c ByPower])
           else (k, [])
       | _, _ => (k, [])
       end.
(** on_meter_values, 4271-4282. *)
Definition measure (s : state) (c e : Z) (p : option Z) : state * list out :=
  let k := conns s c in
  let k := {| on_energy := on_energy k; on_power := on_power k; on_status := on_status k; timer := timer k;
              last_power := last_power k; prev := prev k; measured := true; tx := tx k |} in
  let '(k, l) := pricing_trigger c k e p in (upd s c k, l).

(** The callback of the state machines, from line 155 on: 155-175. *)
Definition status_changed (s : state) (c : Z) (st : status) : state * list out :=
  let k := conns s c in
  match on_status k with
  | None => (s, [])
  | Some l =>
    let new := match prev k with Some x => negb (x =? st) | None => true end in
    let k' := {| on_energy := on_energy k; on_power := on_power k; on_status := on_status k; timer := timer k;
                 last_power := last_power k; prev := Some st; measured := measured k; tx := tx k |} in
    (upd s c k', if existsb (Z.eqb st) l && new && measured k then [OMeter c ByStatus] else [])
  end.

(** The timer of set_connector_trigger_metervalue_timer comes once (3431-3440). *)
Definition time_up (s : state) (c now : Z) : state * list out :=
  let k := conns s c in
  match timer k with
  | Some t => if t <=? now then
      (upd s c {| on_energy := on_energy k; on_power := on_power k; on_status := on_status k; timer := None;
                  last_power := last_power k; prev := prev k; measured := measured k; tx := tx k |},
       if measured k then [OMeter c ByTime] else [])
      else (s, [])
  | None => (s, [])
  end.

(** on_transaction_stopped: remove_active_transaction and reset_pricing_triggers, 1107-1120, 4449, 4457. *)
Definition stopped (s : state) (c : Z) : state * list out :=
  (upd s c {| on_energy := None; on_power := None; on_status := None; timer := None; last_power := None; prev := None;
              measured := measured (conns s c); tx := None |}, []).

Inductive op :=
| Started (c i : Z)                                     (* StartTransaction.conf has given the transaction of connector c the id i *)
| Stopped (c : Z)
| Cost (final : bool) (msg : option (option cost)) (o : offset) (now : Z) (dec : option Z) (a : Z)
| Measure (c e : Z) (p : option Z)
| Status (c : Z) (st : status)
| TimeUp (c now : Z).

Definition step (e : env) (s : state) (o : op) : state * list out :=
  match o with
  | Started c i => (upd s c {| on_energy := on_energy (conns s c); on_power := on_power (conns s c); on_status := on_status (conns s c);
      timer := timer (conns s c); last_power := last_power (conns s c); prev := prev (conns s c); measured := measured (conns s c); tx := Some i |}, [])
  | Stopped c => stopped s c
  | Cost f m of now d a => set_session_cost e s f m of now d a
  | Measure c en p => measure s c en p
  | Status c st => status_changed s c st
  | TimeUp c now => time_up s c now
  end.

Definition init : state :=
  {| conns := fun _ => {| on_energy := None; on_power := None; on_status := None; timer := None; last_power := None; prev := None; measured := false; tx := None |};
     decimals := None |}.
