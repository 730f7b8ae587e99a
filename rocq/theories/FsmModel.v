(** Model of the OCPP 1.6 connector state machines: lib/ocpp/v16/charge_point_state_machine.cpp and
    include/ocpp/v16/charge_point_state_machine.hpp. *)
From Coq Require Import String List ZArith Bool.
Import ListNotations.
Open Scope Z_scope.

(** ChargePointStatus, include/ocpp/v16/ocpp_enums.hpp (FSMState, charge_point_state_machine.hpp:61). *)
Inductive status := Available | Preparing | Charging | SuspendedEVSE | SuspendedEV | Finishing | Reserved | Unavailable | Faulted.

(** FSMEvent, charge_point_state_machine.hpp:19-38. *)
Inductive event :=
| BecomeAvailable | UsageInitiated | StartCharging | PauseChargingEV | PauseChargingEVSE | ReserveConnector
| TransactionStoppedAndUserActionRequired | ChangeAvailabilityToUnavailable | ReservationEnd
| I1_ReturnToAvailable | I2_ReturnToPreparing | I3_ReturnToCharging | I4_ReturnToSuspendedEV | I5_ReturnToSuspendedEVSE
| I6_ReturnToFinishing | I7_ReturnToReserved | I8_ReturnToUnavailable.

Scheme Equality for status.
Scheme Equality for event.

(** FSM_DEF, charge_point_state_machine.cpp:14-86. *)
Definition FSM_DEF : list (status * list (event * status)) :=
  [ (Available,
      [(UsageInitiated, Preparing); (StartCharging, Charging); (PauseChargingEV, SuspendedEV); (PauseChargingEVSE, SuspendedEVSE);
       (ReserveConnector, Reserved); (ChangeAvailabilityToUnavailable, Unavailable)]);
    (Preparing,
      [(BecomeAvailable, Available); (StartCharging, Charging); (PauseChargingEV, SuspendedEV); (PauseChargingEVSE, SuspendedEVSE);
       (TransactionStoppedAndUserActionRequired, Finishing)]);
    (Charging,
      [(BecomeAvailable, Available); (PauseChargingEV, SuspendedEV); (PauseChargingEVSE, SuspendedEVSE);
       (TransactionStoppedAndUserActionRequired, Finishing); (ChangeAvailabilityToUnavailable, Unavailable)]);
    (SuspendedEV,
      [(BecomeAvailable, Available); (StartCharging, Charging); (PauseChargingEVSE, SuspendedEVSE);
       (TransactionStoppedAndUserActionRequired, Finishing); (ChangeAvailabilityToUnavailable, Unavailable)]);
    (SuspendedEVSE,
      [(BecomeAvailable, Available); (StartCharging, Charging); (PauseChargingEV, SuspendedEV);
       (TransactionStoppedAndUserActionRequired, Finishing); (ChangeAvailabilityToUnavailable, Unavailable)]);
    (Finishing,
      [(BecomeAvailable, Available); (UsageInitiated, Preparing); (ChangeAvailabilityToUnavailable, Unavailable)]);
    (Reserved,
      [(BecomeAvailable, Available); (UsageInitiated, Preparing); (ChangeAvailabilityToUnavailable, Unavailable);
       (ReservationEnd, Available)]);
    (Unavailable,
      [(BecomeAvailable, Available); (UsageInitiated, Preparing); (StartCharging, Charging); (PauseChargingEV, SuspendedEV);
       (PauseChargingEVSE, SuspendedEVSE)]);
    (Faulted,
      [(I1_ReturnToAvailable, Available); (I2_ReturnToPreparing, Preparing); (I3_ReturnToCharging, Charging);
       (I4_ReturnToSuspendedEV, SuspendedEV); (I5_ReturnToSuspendedEVSE, SuspendedEVSE); (I6_ReturnToFinishing, Finishing);
       (I7_ReturnToReserved, Reserved); (I8_ReturnToUnavailable, Unavailable)]) ].

(** std::map::find on the two maps. FSM_DEF.at(state) cannot fail: every state has a row; the empty row stands for that
    case here (charge_point_state_machine.cpp:189-195). *)
Fixpoint assoc {A B} (eqb : A -> A -> bool) (k : A) (l : list (A * B)) : option B :=
  match l with [] => None | (k', v) :: q => if eqb k k' then Some v else assoc eqb k q end.
Definition find_transition (s : status) (e : event) : option status :=
  match assoc status_beq s FSM_DEF with Some row => assoc event_beq e row | None => None end.

(** ErrorInfo, charge_point_state_machine.hpp:41-59. Error codes are opaque numbers, 0 is NoError. *)
Record error := Err {
  e_uuid : string; e_code : N; e_fault : bool; e_info : option string; e_vendor : option string; e_vcode : option string; e_ts : Z }.
Definition NoError : N := 0%N.

(** The longest constructor of ErrorInfo, charge_point_state_machine.cpp:105-152; the shorter ones pass nullopt. *)
Definition cut (n : nat) (s : option string) : option string :=
  match s with
  | None => None
  | Some x => if Nat.ltb n (String.length x) then Some (substring 0 n x) else Some x
  end.
Definition mk_error (uuid : string) (code : N) (fault : bool) (info vendor vcode : option string) (now : Z) : error :=
  Err uuid code fault (cut 50 info) (cut 255 vendor) (cut 50 vcode) now.

(** ChargePointFSM, charge_point_state_machine.hpp:84-92. The unordered map of active errors is a list with distinct
    uuids; its (unspecified) iteration order is the order of the list. *)
Record fsm := Fsm { f_state : status; f_errors : list error }.

(** StatusNotificationCallback: status, error code, timestamp, info, vendor id, vendor error code. *)
Record note := Note { n_status : status; n_code : N; n_ts : Z; n_info : option string; n_vendor : option string; n_vcode : option string }.

(** charge_point_state_machine.cpp:166-171 *)
Definition is_faulted (f : fsm) : bool := existsb e_fault (f_errors f).

(** charge_point_state_machine.cpp:159-164 *)
Definition fsm_get_state (f : fsm) : status := if is_faulted f then Faulted else f_state f.

(** charge_point_state_machine.cpp:173-185 *)
Definition fsm_latest (f : fsm) : option error :=
  match f_errors f with
  | [] => None
  | e :: q => Some (fold_left (fun l x => if e_ts l <? e_ts x then x else l) (e :: q) e)
  end.

(** value_or(ErrorInfo("", NoError, false)): its timestamp is the current time. *)
Definition latest_or_none (f : fsm) (now : Z) : error :=
  match fsm_latest f with Some e => e | None => Err EmptyString NoError false None None None now end.

(** charge_point_state_machine.cpp:187-209 *)
Definition handle_event (f : fsm) (e : event) (ts : Z) (info : option string) : fsm * list note :=
  match find_transition (f_state f) e with
  | None => (f, [])
  | Some d =>
    let f' := Fsm d (f_errors f) in
    let err := latest_or_none f' ts in
    (f', if negb (is_faulted f') then [Note d (e_code err) ts info (e_vendor err) (e_vcode err)] else [])
  end.

Definition has_error (f : fsm) (uuid : string) : bool := existsb (fun e => String.eqb (e_uuid e) uuid) (f_errors f).

(** charge_point_state_machine.cpp:211-227 *)
Definition handle_error (f : fsm) (e : error) : fsm * list note :=
  if has_error f (e_uuid e) then (f, [])
  else
    let f' := Fsm (f_state f) (f_errors f ++ [e]) in
    (f', [Note (if is_faulted f' then Faulted else f_state f') (e_code e) (e_ts e) (e_info e) (e_vendor e) (e_vcode e)]).

(** charge_point_state_machine.cpp:229-265 *)
Definition handle_error_cleared (f : fsm) (uuid : string) (now : Z) : fsm * list note :=
  if negb (has_error f uuid) then (f, [])
  else
    let f' := Fsm (f_state f) (filter (fun e => negb (String.eqb (e_uuid e) uuid)) (f_errors f)) in
    if is_faulted f' then (f', [])
    else
      (f', [match fsm_latest f' with
            | Some e => Note (f_state f') (e_code e) now (e_info e) (e_vendor e) (e_vcode e)
            | None => Note (f_state f') NoError now None None None
            end]).

(** charge_point_state_machine.cpp:267-272 *)
Definition handle_all_errors_cleared (f : fsm) (now : Z) : fsm * list note :=
  (Fsm (f_state f) [], [Note (f_state f) NoError now None None None]).

(** charge_point_state_machine.cpp:274-284 *)
Definition trigger (f : fsm) (now : Z) : list note :=
  let e := latest_or_none f now in
  [Note (if is_faulted f then Faulted else f_state f) (e_code e) (e_ts e) (e_info e) (e_vendor e) (e_vcode e)].

(** ChargePointStates, charge_point_state_machine.hpp:94-120. *)
Record states := States { zero : option fsm; machines : list fsm }.
(** charge_point_state_machine.cpp:286 *)
Definition init : states := States None [].

Inductive out :=
| Notify (connector : Z) (n : note)
| Throw           (** std::out_of_range or std::runtime_error leaves the method *)
| UB.             (** null pointer dereferenced *)

Inductive op :=
| Reset (m : list (Z * status))                  (** connector_status_map, keys distinct *)
| Event (c : Z) (e : event) (ts : Z) (info : option string)
| Error (c : Z) (e : error)
| Cleared (c : Z) (uuid : string) (now : Z)
| AllCleared (c : Z) (now : Z)
| Trigger (c : Z) (now : Z)
| TriggerAll (now : Z).

Definition tag (c : Z) (ns : list note) : list out := map (Notify c) ns.

(** charge_point_state_machine.cpp:289-323: the loop, from connector [c] on with [n] connectors left. *)
Fixpoint reset_loop (m : list (Z * status)) (n : nat) (c : Z) (s : states) : states * list out :=
  match n with
  | O => (s, [])
  | S n' =>
    match assoc Z.eqb c m with
    | None => (s, [Throw])
    | Some i =>
      if (c =? 0) && negb (status_beq i Available) && negb (status_beq i Unavailable) && negb (status_beq i Faulted) then (s, [Throw])
      else if c =? 0 then reset_loop m n' (c + 1) (States (Some (Fsm i [])) (machines s))
      else reset_loop m n' (c + 1) (States (zero s) (machines s ++ [Fsm i []]))
    end
  end.

(** The connectors addressed by submit_*: 0, or 1..size (charge_point_state_machine.cpp:325-360); [h] is the method of the
    state machine. *)
Fixpoint set_nth {A} (i : nat) (x : A) (l : list A) : list A :=
  match l, i with
  | [], _ => []
  | _ :: q, O => x :: q
  | y :: q, S k => y :: set_nth k x q
  end.
Definition submit (s : states) (c : Z) (h : fsm -> fsm * list note) : states * list out :=
  if c =? 0 then
    match zero s with
    | None => (s, [UB])
    | Some f => (States (Some (fst (h f))) (machines s), tag 0 (snd (h f)))
    end
  else if (0 <? c) && (c <=? Z.of_nat (length (machines s))) then
    match nth_error (machines s) (Z.to_nat (c - 1)) with
    | None => (s, [])
    | Some f => (States (zero s) (set_nth (Z.to_nat (c - 1)) (fst (h f)) (machines s)), tag c (snd (h f)))
    end
  else (s, []).

(** charge_point_state_machine.cpp:362-369; a negative or too large id makes vector::at throw. *)
Definition trigger_one (s : states) (c : Z) (now : Z) : list out :=
  if c =? 0 then match zero s with None => [UB] | Some f => tag 0 (trigger f now) end
  else if c <? 0 then [Throw]
  else match nth_error (machines s) (Z.to_nat (c - 1)) with None => [Throw] | Some f => tag c (trigger f now) end.

(** charge_point_state_machine.cpp:371-377 *)
Fixpoint trigger_list (c : Z) (l : list fsm) (now : Z) : list out :=
  match l with [] => [] | f :: q => tag c (trigger f now) ++ trigger_list (c + 1) q now end.
Definition trigger_all (s : states) (now : Z) : list out :=
  match zero s with None => [UB] | Some f => tag 0 (trigger f now) ++ trigger_list 1 (machines s) now end.

(** The public methods of ChargePointStates; each holds the mutex throughout. *)
Definition step (s : states) (o : op) : states * list out :=
  match o with
  | Reset m => reset_loop m (length m) 0 (States (zero s) [])
  | Event c e ts info => submit s c (fun f => handle_event f e ts info)
  | Error c e => submit s c (fun f => handle_error f e)
  | Cleared c u now => submit s c (fun f => handle_error_cleared f u now)
  | AllCleared c now => submit s c (fun f => handle_all_errors_cleared f now)
  | Trigger c now => (s, trigger_one s c now)
  | TriggerAll now => (s, trigger_all s now)
  end.

(** charge_point_state_machine.cpp:379-390; None: null pointer dereferenced. *)
Definition get_state (s : states) (c : Z) : option status :=
  if (0 <? c) && (c <=? Z.of_nat (length (machines s))) then option_map fsm_get_state (nth_error (machines s) (Z.to_nat (c - 1)))
  else if c =? 0 then option_map fsm_get_state (zero s)
  else Some Unavailable.

(** charge_point_state_machine.cpp:392-398; the outer None: null pointer dereferenced. *)
Definition get_latest_error (s : states) (c : Z) : option (option error) :=
  if (0 <? c) && (c <=? Z.of_nat (length (machines s))) then option_map fsm_latest (nth_error (machines s) (Z.to_nat (c - 1)))
  else option_map fsm_latest (zero s).
