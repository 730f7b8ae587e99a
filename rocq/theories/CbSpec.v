(** What an application may expect of the functions it gives to a v2 station,
    said without the station's checks and call sites. *)

From Coq Require Import List Bool ZArith.
From Verif Require Import CbModel.
Import ListNotations.

Definition is_on (o : option bool) : Prop := o = Some true.

(** Those that are looked at whenever they are given at all. *)
Definition looked_at (o : ocb) : Prop :=
  match o with
  | ClearDisplay | GetDisplay | SetDisplay | RunningCost | TariffMessage
  | ReserveNow | CancelReservation | UpdateEnergyTransfer | ConnectionState => False
  | _ => True
  end.

Definition v2x_somewhere (d : dm) (evses : list Z) : Prop :=
  exists e, In e evses /\ is_on (v2x_available d e).

(** The functions a station must be given before it starts. *)
Record complete (c : callbacks) (d : dm) (evses : list Z) : Prop := {
  all_plain : forall m, mand c m = Given;
  none_hollow : forall o, looked_at o -> opt c o <> Some Empty;
  for_display : is_on (display_available d) ->
    opt c ClearDisplay = Some Given /\ opt c GetDisplay = Some Given /\ opt c SetDisplay = Some Given;
  for_cost : is_on (cost_available d) -> opt c RunningCost = Some Given;
  for_tariff : is_on (tariff_available d) -> opt c SetDisplay = Some Given;
  for_reservation : is_on (reservation_available d) ->
    opt c ReserveNow = Some Given /\ opt c CancelReservation = Some Given;
  for_v2x : v2x_somewhere d evses -> is_on (iso_available d) ->
    opt c UpdateEnergyTransfer = Some Given }.

(** Does smart charging have something to do in this action, other than answer
    a request that could be refused? *)
Definition takes_smart_charging (d : dm) (a : action) : Prop :=
  match a with
  | AFinish _ | ANeeds => True
  | ARemoteStart p => p = true /\ is_on (smart_enabled d)
  | _ => False
  end.

Definition cost_on (d : dm) : Prop := is_on (cost_available d) /\ is_on (cost_enabled d).
Definition tariff_on (d : dm) : Prop := is_on (tariff_available d) /\ is_on (tariff_enabled d).

(** The hollow functions a station that was started can still come to call:
    [d0] is the device model when it was started, [d] now. *)
Definition may_call_hollow (c : callbacks) (d0 d : dm) (evses : list Z) (a : action) (w : ocb) : Prop :=
  opt c w = Some Empty /\
  match a, w with
  | AConnection, ConnectionState => True
  | AEnergy, UpdateEnergyTransfer => v2x_somewhere d0 evses /\ ~ is_on (iso_available d0)
  | ACostUpdated, RunningCost => ~ is_on (cost_available d0) /\ cost_on d
  | ACostAndTariff _ true, RunningCost => ~ is_on (cost_available d0) /\ cost_on d
  | _, _ => False
  end.

(** The functions an action is to call when nothing goes wrong, in order. *)
Definition given_only (c : callbacks) (o : ocb) (l : list who) : Prop :=
  (opt c o = Some Given /\ l = [O o]) \/ (opt c o = None /\ l = []).

Definition plain_name (p : plain) (m : mcb) : Prop :=
  match p with
  | PStop => m = StopTransaction | PPause => m = PauseCharging
  | PConnectorStatus => m = ConnectorStatusChanged | PGetLog => m = GetLog
  | PUnlock => m = UnlockConnector | PUpdateFirmware => m = UpdateFirmware
  end.
Definition optional_name (o : optional) (n : ocb) : Prop :=
  match o with
  | OVariableChanged => n = VariableChanged | OConfigureNetwork => n = ConfigureNetwork
  | OTimeSync => n = TimeSync | OBoot => n = BootNotification | OMessages => n = OcppMessages
  | OCs => n = CsStatusChanged | OEvse => n = EvseStatusChanged | OGetCustomer => n = GetCustomerInfo
  | OClearCustomer => n = ClearCustomerInfo | OAllUnavailable => n = AllUnavailable
  | ODataTransfer => n = DataTransfer | OTxEvent => n = TransactionEvent
  | OTxEventResponse => n = TransactionEventResponse
  end.
Definition display_name (m : display_message) (n : ocb) : Prop :=
  match m with
  | GetMessages => n = GetDisplay | SetMessage => n = SetDisplay | ClearMessage => n = ClearDisplay
  end.

Definition expected (c : callbacks) (d0 d : dm) (a : action) (l : list who) : Prop :=
  match a with
  | APlain p => exists m, plain_name p m /\ l = [M m]
  | AOptional o => exists n, optional_name o n /\ given_only c n l
  | AReset allowed on_idle running =>
      l = M IsResetAllowed ::
          (if allowed
           then match on_idle, running with
                | true, S _ => []
                | _, _ => repeat (M StopTransaction) running ++ [M Reset]
                end
           else [])
  | AFinish waiting =>
      exists k, given_only c TransactionEvent k /\ l = k ++ (if waiting then [M Reset] else [])
  | ARemoteStart _ => l = [M RemoteStart]
  | ACostAndTariff tariff total =>
      exists k1 k2, l = k1 ++ k2 /\
        (k1 = [O TariffMessage] <->
         tariff = true /\ tariff_on d /\ ~ cost_on d /\ opt c TariffMessage = Some Given) /\
        (k1 = [] \/ k1 = [O TariffMessage]) /\
        (k2 = [O RunningCost] <-> total = true /\ cost_on d /\ opt c RunningCost = Some Given) /\
        (k2 = [] \/ k2 = [O RunningCost])
  | ACostUpdated =>
      (l = [O RunningCost] /\ cost_on d /\ opt c RunningCost = Some Given) \/
      (l = [] /\ (~ cost_on d \/ opt c RunningCost = None))
  | AReserve => l = [O ReserveNow] /\ is_on (reservation_available d) /\ is_on (reservation_enabled d)
  | ACancel => l = [O CancelReservation] /\ is_on (reservation_available d) /\ is_on (reservation_enabled d)
  | ACheckReserved =>
      (is_on (reservation_available d0) /\ l = [M IsReservationForToken]) \/
      (~ is_on (reservation_available d0) /\ l = [])
  | ADisplay m => exists n, display_name m n /\ l = [O n]
  | AProfile => l = [M SetChargingProfiles]
  | ANeeds => l = []
  | ANeedsResponse rejected => l = if rejected then [M StopTransaction] else []
  | AEnergy => l = [O UpdateEnergyTransfer]
  | ASecurity internally => l = if internally then [M SecurityEvent] else []
  | AConnection => given_only c ConnectionState l
  | ANetworkProfile => l = [O ValidateNetworkProfile]
  end.

(** The requests that belong to a block, and when the block is there. *)
Definition block_for (d0 : dm) (evses : list Z) (a : action) : option Prop :=
  match a with
  | AReserve | ACancel => Some (is_on (reservation_available d0))
  | ADisplay _ => Some (is_on (display_available d0))
  | AProfile | ANeedsResponse _ => Some (is_on (smart_available d0))
  | AEnergy => Some (v2x_somewhere d0 evses)
  | _ => None
  end.

(** Requests answered with Rejected because there is nothing to ask. *)
Definition nothing_to_ask (c : callbacks) (d0 d : dm) (evses : list Z) (a : action) : Prop :=
  match a with
  | AReserve | ACancel =>
      is_on (reservation_available d0) /\
      ~ (is_on (reservation_available d) /\ is_on (reservation_enabled d))
  | AEnergy => v2x_somewhere d0 evses /\ opt c UpdateEnergyTransfer = None
  | ANetworkProfile => opt c ValidateNetworkProfile = None
  | _ => False
  end.
