(** Model of the functions an application gives to a v2 station: which of them
    the station insists on before it starts, which blocks it then creates, and
    what happens when it comes to call one of them.

    - lib/ocpp/v2/charge_point_callbacks.cpp 7-112 (all_callbacks_valid)
    - lib/ocpp/v2/charge_point.cpp 81-84 (the constructor's check), 436-446,
      538-636 (creation of the blocks), 405-419, 685-741 (messages handed to
      blocks that may be absent), 1115-1118, 1132-1135 (connection state)
    - the places in lib/ocpp/v2/functional_blocks and
      lib/ocpp/v21/functional_blocks/bidirectional.cpp where they are called.

    Simplified: a function is only whether it holds something to call; what it
    does and returns is not modelled.  A place of call stands for the enclosing
    handler having got there; of the conditions before it, those that look at a
    callback, at a block or at the device model's availability variables are
    kept and the others (token, EVSE, transaction...) are taken as met. *)

From Coq Require Import List Bool ZArith.
Import ListNotations.

(** A std::function: with a target, or empty (== nullptr; calling it throws
    std::bad_function_call). *)
Inductive fn := Given | Empty.

(** include/ocpp/v2/charge_point_callbacks.hpp: the members that are plain
    functions ... *)
Inductive mcb :=
| IsResetAllowed | Reset | StopTransaction | PauseCharging | ConnectorStatusChanged
| GetLog | UnlockConnector | RemoteStart | IsReservationForToken | UpdateFirmware
| SecurityEvent | SetChargingProfiles.

(** ... and those that are std::optional of a function. *)
Inductive ocb :=
| VariableChanged | ValidateNetworkProfile | ConfigureNetwork | TimeSync | BootNotification
| OcppMessages | CsStatusChanged | EvseStatusChanged | GetCustomerInfo | ClearCustomerInfo
| AllUnavailable | DataTransfer | TransactionEvent | TransactionEventResponse
| ClearDisplay | GetDisplay | SetDisplay | RunningCost | TariffMessage
| ReserveNow | CancelReservation | UpdateEnergyTransfer | ConnectionState.

Record callbacks := { mand : mcb -> fn; opt : ocb -> option fn }.

(** The variables of the device model that are read; [None] when the variable
    has no value. *)
Record dm := {
  display_available : option bool; cost_available : option bool; cost_enabled : option bool;
  tariff_available : option bool; tariff_enabled : option bool;
  reservation_available : option bool; reservation_enabled : option bool;
  smart_available : option bool; smart_enabled : option bool; iso_available : option bool;
  v2x_available : Z -> option bool }.

(** get_optional_value<bool>(..).value_or(false) *)
Definition value_or_false (o : option bool) : bool :=
  match o with Some b => b | None => false end.

(** [f != nullptr] *)
Definition not_null (f : fn) : bool := match f with Given => true | Empty => false end.
(** [!o.has_value() or o.value() != nullptr] *)
Definition absent_or_given (o : option fn) : bool :=
  match o with None => true | Some f => not_null f end.
(** [!o.has_value() or o.value() == nullptr] *)
Definition missing (o : option fn) : bool :=
  match o with None => true | Some f => negb (not_null f) end.
(** [o.has_value()] *)
Definition has_value (o : option fn) : bool := match o with Some _ => true | None => false end.

(** charge_point_callbacks.cpp 89-96, charge_point.cpp 625-632 *)
Definition v2x_anywhere (d : dm) (evses : list Z) : bool :=
  existsb (fun e => value_or_false (v2x_available d e)) evses.

(** charge_point_callbacks.cpp 9-38 *)
Definition always_valid (c : callbacks) : bool :=
  not_null (mand c IsResetAllowed) && not_null (mand c Reset) &&
  not_null (mand c StopTransaction) && not_null (mand c PauseCharging) &&
  not_null (mand c ConnectorStatusChanged) && not_null (mand c GetLog) &&
  not_null (mand c UnlockConnector) && not_null (mand c RemoteStart) &&
  not_null (mand c IsReservationForToken) && not_null (mand c UpdateFirmware) &&
  not_null (mand c SecurityEvent) && not_null (mand c SetChargingProfiles) &&
  absent_or_given (opt c VariableChanged) && absent_or_given (opt c ValidateNetworkProfile) &&
  absent_or_given (opt c ConfigureNetwork) && absent_or_given (opt c TimeSync) &&
  absent_or_given (opt c BootNotification) && absent_or_given (opt c OcppMessages) &&
  absent_or_given (opt c CsStatusChanged) && absent_or_given (opt c EvseStatusChanged) &&
  absent_or_given (opt c GetCustomerInfo) && absent_or_given (opt c ClearCustomerInfo) &&
  absent_or_given (opt c AllUnavailable) && absent_or_given (opt c DataTransfer) &&
  absent_or_given (opt c TransactionEvent) && absent_or_given (opt c TransactionEventResponse).

(** charge_point_callbacks.cpp 7-112; comparing an engaged optional with
    nullptr compares the function it holds (79, 85, 102). *)
Definition all_callbacks_valid (c : callbacks) (d : dm) (evses : list Z) : bool :=
  if always_valid c then
    negb (value_or_false (display_available d) &&
          (missing (opt c ClearDisplay) || missing (opt c GetDisplay) || missing (opt c SetDisplay))) &&
    negb (value_or_false (cost_available d) && missing (opt c RunningCost)) &&
    negb (value_or_false (tariff_available d) && missing (opt c SetDisplay)) &&
    negb (value_or_false (reservation_available d) &&
          (missing (opt c ReserveNow) || missing (opt c CancelReservation))) &&
    negb (v2x_anywhere d evses && value_or_false (iso_available d) &&
          missing (opt c UpdateEnergyTransfer))
  else false.

(** The blocks that may be absent, with the functions copied into them. *)
Record station := {
  cbs : callbacks;
  reservation : option (fn * fn * fn);   (* reserve, cancel, is reserved for *)
  display : option (fn * fn * fn);       (* get, set, clear *)
  smart : option (fn * fn);              (* profiles changed, stop transaction *)
  bidirectional : option (option fn) }.

(** charge_point.cpp 542-636 *)
Definition initialize (c : callbacks) (d : dm) (evses : list Z) : station :=
  {| cbs := c;
     reservation :=
       if value_or_false (reservation_available d) then
         match opt c ReserveNow, opt c CancelReservation with
         | Some r, Some x => Some (r, x, mand c IsReservationForToken)
         | _, _ => None
         end
       else None;
     display :=
       if value_or_false (display_available d) then
         match opt c GetDisplay, opt c SetDisplay, opt c ClearDisplay with
         | Some g, Some s, Some x => Some (g, s, x)
         | _, _, _ => None
         end
       else None;
     smart :=
       if value_or_false (smart_available d)
       then Some (mand c SetChargingProfiles, mand c StopTransaction) else None;
     bidirectional :=
       if v2x_anywhere d evses then Some (opt c UpdateEnergyTransfer) else None |}.

(** charge_point.cpp 77-90: [None] is std::invalid_argument. *)
Definition construct (c : callbacks) (d : dm) (evses : list Z) : option station :=
  if all_callbacks_valid c d evses then Some (initialize c d evses) else None.

Inductive who := M (m : mcb) | O (o : ocb).

Inductive outcome :=
| Calls (l : list who)        (* the functions called, in order *)
| BadCall (w : who)           (* std::bad_function_call *)
| NullBlock                   (* member call on a block that was not created *)
| Rejects                     (* answered Rejected without a call *)
| NotImplemented.             (* CALLERROR NotImplemented *)

(** Calling a function. *)
Definition call (w : who) (f : fn) : outcome :=
  match f with Given => Calls [w] | Empty => BadCall w end.
(** [if (o.has_value()) { o.value()(..); }] *)
Definition call_if (w : ocb) (o : option fn) : outcome :=
  match o with None => Calls [] | Some f => call (O w) f end.
(** One after the other. *)
Definition then_ (a b : outcome) : outcome :=
  match a, b with
  | Calls l, Calls k => Calls (l ++ k)
  | Calls _, _ => b
  | _, _ => a
  end.

(** tariff_and_cost.cpp 261-280 *)
Definition is_cost_enabled (d : dm) : bool :=
  value_or_false (cost_available d) && value_or_false (cost_enabled d).
Definition is_tariff_enabled (d : dm) : bool :=
  value_or_false (tariff_available d) && value_or_false (tariff_enabled d).

(** transaction.cpp 70-200 (on_transaction_finished): the Ended event (250,
    transaction_event), then the block for smart charging through the
    reference it was created with from [*this->smart_charging] (charge_point.cpp
    605), then, if a reset was waiting, reset. *)
Definition finish_transaction (st : station) (reset_waiting : bool) : outcome :=
  then_ (call_if TransactionEvent (opt (cbs st) TransactionEvent))
    (match smart st with
     | None => NullBlock
     | Some _ => if reset_waiting then call (M Reset) (mand (cbs st) Reset) else Calls []
     end).

(** remote_transaction_control.cpp 162-207: an accepted request, with or
    without a TxProfile; the answer of the profile's check is not looked at. *)
Definition remote_start (st : station) (d : dm) (tx_profile : bool) : outcome :=
  then_ (if value_or_false (smart_enabled d) && tx_profile then
           match smart st with None => NullBlock | Some _ => Calls [] end
         else Calls [])
    (call (M RemoteStart) (mand (cbs st) RemoteStart)).

(** tariff_and_cost.cpp 37-182: the answer to a transaction event, with or
    without a message about the tariff and with or without a total. *)
Definition cost_and_tariff (st : station) (d : dm) (tariff total : bool) : outcome :=
  then_ (if tariff && is_tariff_enabled d then
           if negb (is_cost_enabled d) then
             match opt (cbs st) TariffMessage with
             | Some Given => Calls [O TariffMessage]
             | _ => Calls []
             end
           else Calls []
         else Calls [])
    (if is_cost_enabled d && total then call_if RunningCost (opt (cbs st) RunningCost) else Calls []).

(** tariff_and_cost.cpp 184-232 *)
Definition cost_updated (st : station) (d : dm) : outcome :=
  if negb (is_cost_enabled d) || negb (has_value (opt (cbs st) RunningCost)) then Calls []
  else call_if RunningCost (opt (cbs st) RunningCost).

(** charge_point.cpp 692-699 and reservation.cpp 64-100 *)
Definition reserve_now (st : station) (d : dm) : outcome :=
  match reservation st with
  | None => NotImplemented
  | Some (r, _, _) =>
      if not_null r && value_or_false (reservation_available d) && value_or_false (reservation_enabled d)
      then call (O ReserveNow) r else Rejects
  end.

(** charge_point.cpp 692-699 and reservation.cpp 174-190 *)
Definition cancel_reservation (st : station) (d : dm) : outcome :=
  match reservation st with
  | None => NotImplemented
  | Some (_, x, _) =>
      if not_null x && value_or_false (reservation_available d) && value_or_false (reservation_enabled d)
      then call (O CancelReservation) x else Rejects
  end.

(** remote_transaction_control.cpp 438-442 and reservation.cpp 53 *)
Definition check_reserved (st : station) : outcome :=
  match reservation st with
  | None => Calls []
  | Some (_, _, t) => call (M IsReservationForToken) t
  end.

Inductive display_message := GetMessages | SetMessage | ClearMessage.

(** charge_point.cpp 718-726 and display_message.cpp 42, 145, 152 *)
Definition display_request (st : station) (m : display_message) : outcome :=
  match display st with
  | None => NotImplemented
  | Some (g, s, x) =>
      match m with
      | GetMessages => call (O GetDisplay) g
      | SetMessage => call (O SetDisplay) s
      | ClearMessage => call (O ClearDisplay) x
      end
  end.

(** charge_point.cpp 707-717; smart_charging.cpp 1107, 1147: a profile stored
    or cleared *)
Definition profile_request (st : station) : outcome :=
  match smart st with
  | None => NotImplemented
  | Some (p, _) => call (M SetChargingProfiles) p
  end.

(** charge_point.cpp 417-419: the application asks for the request to be sent;
    the block is used without a look at whether it is there. *)
Definition ev_charging_needs (st : station) : outcome :=
  match smart st with None => NullBlock | Some _ => Calls [] end.

(** charge_point.cpp 707-717, smart_charging.cpp 1216-1246; [rejected]: the
    request with V2X parameters was rejected over OCPP 2.1. *)
Definition ev_charging_needs_response (st : station) (rejected : bool) : outcome :=
  match smart st with
  | None => NotImplemented
  | Some (_, s) => if rejected then call (M StopTransaction) s else Calls []
  end.

(** charge_point.cpp 735-741 and bidirectional.cpp 113-117 *)
Definition allowed_energy_transfer (st : station) : outcome :=
  match bidirectional st with
  | None => NotImplemented
  | Some o => match o with None => Rejects | Some f => call (O UpdateEnergyTransfer) f end
  end.

(** security.cpp 154-155 *)
Definition security_event (st : station) (internally : bool) : outcome :=
  if internally && not_null (mand (cbs st) SecurityEvent)
  then call (M SecurityEvent) (mand (cbs st) SecurityEvent) else Calls [].

(** charge_point.cpp 1115-1118, 1132-1135 *)
Definition connection_changed (st : station) : outcome :=
  call_if ConnectionState (opt (cbs st) ConnectionState).

(** provisioning.cpp 360-383 *)
Definition set_network_profile (st : station) : outcome :=
  match opt (cbs st) ValidateNetworkProfile with
  | None => Rejects
  | Some f => call (O ValidateNetworkProfile) f
  end.

(** provisioning.cpp 465-536: with transactions [running], a reset that is to
    wait is only scheduled; otherwise they are stopped one by one and the reset
    is made. *)
Fixpoint stop_all (st : station) (running : nat) : outcome :=
  match running with
  | 0 => Calls []
  | S n => then_ (call (M StopTransaction) (mand (cbs st) StopTransaction)) (stop_all st n)
  end.
Definition reset_request (st : station) (allowed on_idle : bool) (running : nat) : outcome :=
  then_ (call (M IsResetAllowed) (mand (cbs st) IsResetAllowed))
    (if allowed then
       if on_idle && negb (Nat.eqb running 0) then Calls []
       else then_ (stop_all st running) (call (M Reset) (mand (cbs st) Reset))
     else Calls []).

(** What a station comes to do.  [Plain]: the functions called at the given
    places with no block in between that might be absent - remote stop 220 and
    invalid token 321 (StopTransaction), 330 and evse.cpp 406 (PauseCharging),
    component_state_manager through charge_point.cpp 445
    (ConnectorStatusChanged), diagnostics.cpp 174 (GetLog),
    remote_transaction_control.cpp 110 (UnlockConnector), firmware_update.cpp
    143 (UpdateFirmware).  [Optional]: those called as [call_if]:
    provisioning.cpp 617, 221, 183, availability.cpp 171, 74,
    firmware_update.cpp 176, connectivity_manager.cpp 261-266, charge_point.cpp
    285, 436-443, diagnostics.cpp 381, 409, data_transfer.cpp 23,
    transaction.cpp 250, 272. *)
Inductive plain := PStop | PPause | PConnectorStatus | PGetLog | PUnlock | PUpdateFirmware.
Inductive optional :=
| OVariableChanged | OConfigureNetwork | OTimeSync | OBoot | OMessages | OCs | OEvse
| OGetCustomer | OClearCustomer | OAllUnavailable | ODataTransfer | OTxEvent | OTxEventResponse.

Definition of_plain (p : plain) : mcb :=
  match p with
  | PStop => StopTransaction | PPause => PauseCharging | PConnectorStatus => ConnectorStatusChanged
  | PGetLog => GetLog | PUnlock => UnlockConnector | PUpdateFirmware => UpdateFirmware
  end.
Definition of_optional (o : optional) : ocb :=
  match o with
  | OVariableChanged => VariableChanged | OConfigureNetwork => ConfigureNetwork
  | OTimeSync => TimeSync | OBoot => BootNotification | OMessages => OcppMessages
  | OCs => CsStatusChanged | OEvse => EvseStatusChanged | OGetCustomer => GetCustomerInfo
  | OClearCustomer => ClearCustomerInfo | OAllUnavailable => AllUnavailable
  | ODataTransfer => DataTransfer | OTxEvent => TransactionEvent
  | OTxEventResponse => TransactionEventResponse
  end.

Inductive action :=
| APlain (p : plain) | AOptional (o : optional)
| AReset (allowed on_idle : bool) (running : nat)
| AFinish (reset_waiting : bool) | ARemoteStart (tx_profile : bool)
| ACostAndTariff (tariff total : bool) | ACostUpdated
| AReserve | ACancel | ACheckReserved | ADisplay (m : display_message)
| AProfile | ANeeds | ANeedsResponse (rejected : bool) | AEnergy
| ASecurity (internally : bool) | AConnection | ANetworkProfile.

(** [d] is the device model as it is when the action takes place. *)
Definition act (st : station) (d : dm) (a : action) : outcome :=
  match a with
  | APlain p => call (M (of_plain p)) (mand (cbs st) (of_plain p))
  | AOptional o => call_if (of_optional o) (opt (cbs st) (of_optional o))
  | AReset b i n => reset_request st b i n
  | AFinish r => finish_transaction st r
  | ARemoteStart p => remote_start st d p
  | ACostAndTariff t c => cost_and_tariff st d t c
  | ACostUpdated => cost_updated st d
  | AReserve => reserve_now st d
  | ACancel => cancel_reservation st d
  | ACheckReserved => check_reserved st
  | ADisplay m => display_request st m
  | AProfile => profile_request st
  | ANeeds => ev_charging_needs st
  | ANeedsResponse r => ev_charging_needs_response st r
  | AEnergy => allowed_energy_transfer st
  | ASecurity i => security_event st i
  | AConnection => connection_changed st
  | ANetworkProfile => set_network_profile st
  end.
