(** Allowed energy transfer, the answer about charging needs, and DataTransfer of an OCPP 2.x station.
    Modelled, of the repository:
    - lib/ocpp/v21/functional_blocks/bidirectional.cpp  handle_notify_allowed_energy_transfer (37-126)
    - lib/ocpp/v2/evse_manager.cpp  get_transaction_evseid (80-90)
    - lib/ocpp/v2/functional_blocks/smart_charging.cpp  handle_notify_ev_charging_needs_response (1216-1258)
    - lib/ocpp/v2/functional_blocks/data_transfer.cpp  data_transfer_req (46-83)
    - include/ocpp/common/message_queue.hpp 786-791, 872-880 for what the future gives
    Simplified: what the device model and the application say are arguments; of a StatusInfo only the reason code; the JSON of a
    DataTransfer is a string; a message that cannot be read is None; logging is left out. *)
From Coq Require Import String ZArith List Bool.
From Verif Require Import StrModel.
Import ListNotations.
Local Open Scope string_scope.
Local Open Scope list_scope.
Local Open Scope Z_scope.

(** ocpp/common/types.hpp 621-626. *)
Inductive version := V16 | V201 | V21 | Unknown.

(** ** NotifyAllowedEnergyTransfer *)

(** An EVSE: its id and its transaction, if any. *)
Record evse := Evse { e_id : Z; e_transaction : option string }.
(** EvseManager::get_transaction_evseid (80-90); CiString::operator== ignores the case (cistring.hpp). *)
Fixpoint get_transaction_evseid (l : list evse) (t : string) : option Z :=
  match l with
  | [] => None
  | e :: l' =>
      match e_transaction e with
      | Some u => if iequals t u then Some (e_id e) else get_transaction_evseid l' t
      | None => get_transaction_evseid l' t
      end
  end.

(** std::string::find(p) != npos. *)
Fixpoint contains (p s : string) : bool :=
  prefix p s || match s with EmptyString => false | String _ s' => contains p s' end.

(** What the device model says per EVSE, and the application if it has a callback. *)
Record setting := Setting {
  v2x_enabled : Z -> option bool;          (* V2XChargingCtrlr.Enabled *)
  protocol_agreed : Z -> option string;    (* ConnectedEV.ProtocolAgreed *)
  renegotiation : Z -> option bool;        (* ISO15118Ctrlr.ServiceRenegotiationSupport *)
  callback : option (list Z -> string -> bool)
}.
(** NotifyAllowedEnergyTransferRequest (v21/messages/NotifyAllowedEnergyTransfer.hpp). *)
Record transfer_req := TransferReq { t_transaction : string; t_allowed : list Z }.
(** What is seen. *)
Inductive out :=
| Ask (allowed : list Z) (transaction : string)       (* notify_allowed_energy_transfer_callback *)
| Accepted
| Rejected (reason : string).
(** std::optional<bool>::value_or(false). *)
Definition value_or_false (b : option bool) : bool := match b with Some true => true | _ => false end.
(** bidirectional.cpp 80. *)
Definition iso20 : string := "urn:iso:std:iso:15118:-20".

(** handle_notify_allowed_energy_transfer (37-126). *)
Definition handle_transfer (v : version) (evses : list evse) (c : setting) (r : transfer_req) : list out :=
  match v with
  | V21 =>
      match get_transaction_evseid evses (t_transaction r) with
      | None => [Rejected "InvalidValue"]
      | Some e =>
          if negb (value_or_false (v2x_enabled c e)) then [Rejected "InvalidValue"]
          else if negb (match protocol_agreed c e with Some p => contains iso20 p | None => false end) then [Rejected "UnsupportedRequest"]
          else if negb (value_or_false (renegotiation c e)) then [Rejected "UnsupportedRequest"]
          else match callback c with
               | Some f =>
                   Ask (t_allowed r) (t_transaction r) ::
                   (if f (t_allowed r) (t_transaction r) then [Accepted] else [Rejected "InternalError"])
               | None => [Rejected "InternalError"]
               end
      end
  | _ => []
  end.

(** ** NotifyEVChargingNeeds.conf *)

(** NotifyEVChargingNeedsStatusEnum (ocpp_enums.hpp). *)
Inductive needs_status := NAccepted | NRejected | NProcessing | NNoProfile.
(** handle_notify_ev_charging_needs_response (1216-1258): the EVSE whose transaction is stopped with ReqEnergyTransferRejected. *)
Definition needs_answered (v : version) (evse_id : Z) (v2x : bool) (s : needs_status) : option Z :=
  match s with
  | NRejected => match v with V201 => None | _ => if v2x then Some evse_id else None end
  | _ => None
  end.

(** ** DataTransfer *)

(** DataTransferStatusEnum (ocpp_enums.hpp). *)
Inductive dt_status := DAccepted | DRejected | DUnknownMessageId | DUnknownVendorId.
(** DataTransferResponse (messages/DataTransfer.hpp). *)
Record dt_response := DtResponse { d_status : dt_status; d_data : option string }.
(** What the future gives: nothing in time; a message dropped because the station is offline; the CALLRESULT, if it can be read; a
    CALLERROR (its messageType stays InternalError). *)
Inductive reply := NoReply | Offline | Result (r : option dt_response) | Error.
(** data_transfer_req (46-83): what is returned, and whether a CALLERROR FormationViolation is sent. *)
Definition data_transfer_req (a : reply) : option dt_response * bool :=
  match a with
  | NoReply => (None, false)
  | Offline => (None, false)
  | Result (Some r) => (Some r, false)
  | Result None => (None, true)
  | Error => (Some (DtResponse DRejected None), false)
  end.
