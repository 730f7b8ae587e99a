(** The registration of an OCPP 2.x station and what it makes of the messages it receives.
    Modelled, of the repository:
    - lib/ocpp/v2/charge_point.cpp  start, stop (119-173), the StatusNotification callback (425-436), handle_message
      (642-884), message_callback (886-1075), websocket_connected_callback (1092-1124), websocket_disconnected_callback
      (1126-1141), send_not_implemented_error (1253-1258)
    - lib/ocpp/v2/functional_blocks/provisioning.cpp  boot_notification_req (91-110), handle_boot_notification_response
      (172-225), the HeartbeatInterval part of handle_variable_changed (554-565)
    - lib/ocpp/v2/functional_blocks/remote_transaction_control.cpp  the BootNotification part of handle_trigger_message
      (243-250, 349-351)
    - lib/ocpp/v2/ocsp_updater.cpp  start, stop (28-47), as far as the thread is concerned
    - include/ocpp/common/message_queue.hpp  receive (728-779), what becomes of an unanswered BootNotification.req (820-920)
    Simplified: connectors are numbered by one number; of the message queue only the BootNotification.reqs are kept (the
    rest is [MQModel]); the answers of the blocks to a CALL are given from outside, as are the exceptions they throw;
    writing the device model (HeartbeatInterval, SecurityProfile, availability) and logging are left out. *)
From Coq Require Import String ZArith List Bool.
Import ListNotations.
Local Open Scope Z_scope.

(** RegistrationStatusEnum (ocpp_enums.hpp). *)
Inductive reg := Accepted | Pending | Rejected.
Definition reg_eqb (a b : reg) : bool := match a, b with Accepted, Accepted | Pending, Pending | Rejected, Rejected => true | _, _ => false end.

(** The functional blocks a message can be given to (charge_point.cpp 645-727). *)
Inductive block := Provisioning | Availability | Transaction | Remote | DataTransfer | Diagnostics | Authorization | Firmware
  | Reservation | Security | SmartCharging | Display | Tariff | Bidirectional.
(** The blocks that need not exist (charge_point.cpp 542-640). *)
Record parts := Parts { p_reservation : bool; p_smart : bool; p_display : bool; p_bidirectional : bool }.
Definition there (p : parts) (b : block) : bool :=
  match b with Reservation => p_reservation p | SmartCharging => p_smart p | Display => p_display p | Bidirectional => p_bidirectional p | _ => true end.
(** The switch of handle_message (charge_point.cpp 645-727); all other types are not implemented (728-879). *)
Definition route_table : list (block * list string) := [
  (Provisioning, ["BootNotificationResponse"; "SetVariables"; "GetVariables"; "GetBaseReport"; "GetReport"; "Reset"; "SetNetworkProfile"]);
  (Availability, ["ChangeAvailability"; "HeartbeatResponse"]);
  (Transaction, ["TransactionEventResponse"; "GetTransactionStatus"]);
  (Remote, ["RequestStartTransaction"; "RequestStopTransaction"; "UnlockConnector"; "TriggerMessage"]);
  (DataTransfer, ["DataTransfer"]);
  (Diagnostics, ["GetLog"; "CustomerInformation"; "SetMonitoringBase"; "SetMonitoringLevel"; "SetVariableMonitoring"; "GetMonitoringReport"; "ClearVariableMonitoring"]);
  (Authorization, ["ClearCache"; "SendLocalList"; "GetLocalListVersion"]);
  (Firmware, ["UpdateFirmware"]);
  (Reservation, ["ReserveNow"; "CancelReservation"]);
  (Security, ["CertificateSigned"; "SignCertificateResponse"; "GetInstalledCertificateIds"; "InstallCertificate"; "DeleteCertificate"]);
  (SmartCharging, ["SetChargingProfile"; "ClearChargingProfile"; "GetChargingProfiles"; "GetCompositeSchedule"; "NotifyEVChargingNeedsResponse"]);
  (Display, ["GetDisplayMessages"; "SetDisplayMessage"; "ClearDisplayMessage"]);
  (Tariff, ["CostUpdated"]);
  (Bidirectional, ["NotifyAllowedEnergyTransfer"])]%string.
Definition mem (s : string) (l : list string) : bool := existsb (String.eqb s) l.
Definition route (t : string) : option block := option_map fst (find (fun e => mem t (snd e)) route_table).

(** The exceptions caught around the handling of a message (charge_point.cpp 880-883, 1026-1074); any other one ends the
    thread and thereby the process. *)
Inductive exn := NotImplemented | EvseRange | ConnectorRange | StringConv | EnumConv | TimeParse | DeviceModel | Json | Any.
(** MessageTypeId (types.hpp). *)
Inductive kind := Call | Result | Error.
(** What a block does with a message: it answers and is done, is done without an answer, or throws, perhaps after its answer. *)
Inductive deed := Answers | Silent | Throws (answered : bool) (x : exn).
(** What is seen. The first six are addressed to the message that has been received. *)
Inductive out :=
| OResult                       (* the answer of a block *)
| OStartRejected                (* RequestStartTransaction.conf, Rejected *)
| OStopRejected                 (* RequestStopTransaction.conf, Rejected *)
| OError (code : string)        (* a CALLERROR *)
| OAnonymous (code : string)    (* a CALLERROR with the id "-1" *)
| OEvent                        (* the security event InvalidMessages *)
| OGiven (b : block)            (* the message is given to a block *)
| OBoot (reason : string)       (* a BootNotification.req is queued *)
| OTime                         (* the time is set *)
| OConfirmed                    (* the network profile has proved itself *)
| OStatus (c : Z) (v : N)       (* StatusNotification.req *)
| ORegistered (r : reg)         (* boot_notification_callback *)
| ODead.                        (* std::terminate *)

(** The state of the station. *)
Record st := St {
  registered : reg;             (* registration_status *)
  started : bool;               (* between start and stop *)
  boots : list Z;               (* the BootNotification.reqs not answered yet, and how often each has failed *)
  retry : option Z;             (* boot_notification_timer, with its time *)
  heartbeat : option Z;         (* heartbeat_timer, with its interval *)
  checks : bool;                (* the certificate expiration check timers are running *)
  thread : bool;                (* the thread of the OcspUpdater runs; running and joinable *)
  connected : bool;
  lost : Z;                     (* time_disconnected, 0: none *)
  status : Z -> N;              (* the status of the connectors *)
  reported : Z -> N;            (* last_connector_reported_statuses *)
  dead : bool }.

Definition set_registered v s := St v (started s) (boots s) (retry s) (heartbeat s) (checks s) (thread s) (connected s) (lost s) (status s) (reported s) (dead s).
Definition set_started v s := St (registered s) v (boots s) (retry s) (heartbeat s) (checks s) (thread s) (connected s) (lost s) (status s) (reported s) (dead s).
Definition set_boots v s := St (registered s) (started s) v (retry s) (heartbeat s) (checks s) (thread s) (connected s) (lost s) (status s) (reported s) (dead s).
Definition set_retry v s := St (registered s) (started s) (boots s) v (heartbeat s) (checks s) (thread s) (connected s) (lost s) (status s) (reported s) (dead s).
Definition set_heartbeat v s := St (registered s) (started s) (boots s) (retry s) v (checks s) (thread s) (connected s) (lost s) (status s) (reported s) (dead s).
Definition set_checks v s := St (registered s) (started s) (boots s) (retry s) (heartbeat s) v (thread s) (connected s) (lost s) (status s) (reported s) (dead s).
Definition set_thread v s := St (registered s) (started s) (boots s) (retry s) (heartbeat s) (checks s) v (connected s) (lost s) (status s) (reported s) (dead s).
Definition set_connected v s := St (registered s) (started s) (boots s) (retry s) (heartbeat s) (checks s) (thread s) v (lost s) (status s) (reported s) (dead s).
Definition set_lost v s := St (registered s) (started s) (boots s) (retry s) (heartbeat s) (checks s) (thread s) (connected s) v (status s) (reported s) (dead s).
Definition set_status v s := St (registered s) (started s) (boots s) (retry s) (heartbeat s) (checks s) (thread s) (connected s) (lost s) v (reported s) (dead s).
Definition set_reported v s := St (registered s) (started s) (boots s) (retry s) (heartbeat s) (checks s) (thread s) (connected s) (lost s) (status s) v (dead s).
Definition set_dead v s := St (registered s) (started s) (boots s) (retry s) (heartbeat s) (checks s) (thread s) (connected s) (lost s) (status s) (reported s) v.

(** A new process (charge_point.cpp 59); [v]: the status the connectors have. *)
Definition initial (v : Z -> N) : st := St Rejected false [] None None false false false 0 v v false.

(** The configuration when the call is made. *)
Record cfg := Cfg {
  c_connectors : list Z;        (* the connectors of the station *)
  c_sync : bool;                (* time_sync_callback is set *)
  c_source : option string;     (* TimeSource; None: it has no value, reading it throws *)
  c_threshold : Z;              (* OfflineThreshold *)
  c_parts : parts;
  c_queue_all : bool;           (* QueueAllMessages *)
  c_attempts : Z }.             (* MessageAttempts *)

(** The callback for a StatusNotification (charge_point.cpp 425-436) and
    send_status_notification_single_connector_internal (component_state_manager.cpp 315-328). *)
Definition upd (f : Z -> N) (c : Z) (v : N) : Z -> N := fun x => if x =? c then v else f x.
Definition notify (only_changed : bool) (c : Z) (s : st) : st * list out :=
  if (negb only_changed || negb (N.eqb (reported s c) (status s c))) && connected s && reg_eqb (registered s) Accepted
  then (set_reported (upd (reported s) c (status s c)) s, [OStatus c (status s c)])
  else (s, []).
(** send_status_notification_all_connectors, _changed_connectors (component_state_manager.cpp 329-342). *)
Fixpoint notify_all (only_changed : bool) (l : list Z) (s : st) : st * list out :=
  match l with
  | [] => (s, [])
  | c :: l => let '(s1, o1) := notify only_changed c s in let '(s2, o2) := notify_all only_changed l s1 in (s2, o1 ++ o2)
  end.

(** Provisioning::boot_notification_req (provisioning.cpp 91-110); it is always queued (message_queue.hpp 98-111, 248-249). *)
Definition boot (reason : string) (s : st) : st * list out := (set_boots (0 :: boots s) s, [OBoot reason]).
(** OcspUpdater::start (ocsp_updater.cpp 28-34): assigning to a thread that has not been joined ends the process. *)
Definition ocsp_start (s : st) : st * list out := if thread s then (set_dead true s, [ODead]) else (set_thread true s, []).
(** DEFAULT_BOOT_NOTIFICATION_RETRY_INTERVAL (provisioning.cpp 31). *)
Definition default_retry : Z := 30.
(** std::string::find("Heartbeat") != npos. *)
Definition by_heartbeat (s : string) : bool := match String.index 0 "Heartbeat" s with Some _ => true | None => false end.

(** handle_boot_notification_response (provisioning.cpp 172-225); an exception leaves the rest undone. *)
Definition boot_confirmed (c : cfg) (r : reg) (interval : Z) (s : st) : st * list out * deed :=
  let s := set_registered r s in
  if reg_eqb r Accepted then
    match (if c_sync c then c_source c else Some ""%string) with
    | None => (s, [], Throws false DeviceModel)
    | Some source =>
        let o1 := if c_sync c && by_heartbeat source then [OTime] else [] in
        let s := if 0 <? interval then set_heartbeat (Some interval) s else s in
        let s := set_checks true (set_retry None s) in
        let '(s, o2) := notify_all false (c_connectors c) s in
        let '(s, o3) := ocsp_start s in
        if dead s then (s, o1 ++ [OConfirmed] ++ o2 ++ o3, Silent)
        else (s, o1 ++ [OConfirmed] ++ o2 ++ o3 ++ [ORegistered r], Silent)
    end
  else (set_retry (Some (if 0 <? interval then interval else default_retry)) s, [ORegistered r], Silent).

(** ** Messages *)

(** send_not_implemented_error (charge_point.cpp 1253-1258). *)
Definition not_implemented (k : kind) : list out := match k with Call => [OError "NotImplemented"] | _ => [] end.
(** The exception handlers of message_callback (charge_point.cpp 1026-1074) and of handle_message (880-883). *)
Definition caught (k : kind) (x : exn) : list out :=
  let only_call code := match k with Call => [OError code] | _ => [] end in
  match x with
  | NotImplemented => not_implemented k
  | EvseRange | ConnectorRange => only_call "OccurrenceConstraintViolation"%string
  | StringConv | EnumConv | TimeParse | Json => only_call "FormationViolation"%string
  | DeviceModel => [OError "GenericError"]
  | Any => [ODead]
  end.
Definition after_deed (k : kind) (d : deed) (s : st) : st * list out :=
  match d with
  | Answers => (s, [OResult])
  | Silent => (s, [])
  | Throws a Any => (set_dead true s, (if a then [OResult] else []) ++ caught k Any)
  | Throws a x => (s, (if a then [OResult] else []) ++ caught k x)
  end.
(** A message as received: its kind, its type (for a CALLRESULT that of the CALL in flight with "Response", "InternalError"
    if there is none or for a CALLERROR; message_queue.hpp 728-790), what the block does with it, and of a TriggerMessage
    whether a BootNotification is asked for or the exception that its reading throws. *)
Record message := Message { m_kind : kind; m_type : string; m_deed : deed; m_boot : bool + exn }.
(** handle_trigger_message for BootNotification (remote_transaction_control.cpp 243-250, 349-351), after its answer. *)
Definition triggered (m : message) (s : st) : st * list out :=
  match m_deed m, m_boot m with
  | Answers, inl true => if String.eqb (m_type m) "TriggerMessage" && negb (reg_eqb (registered s) Accepted) then boot "Triggered" s else (s, [])
  | _, _ => (s, [])
  end.
(** handle_message (charge_point.cpp 642-884). A CALL cannot be read as a BootNotification.conf. *)
Definition handle (p : parts) (m : message) (s : st) : st * list out :=
  match route (m_type m) with
  | None => (s, not_implemented (m_kind m))
  | Some b =>
      if there p b then
        let d := if String.eqb (m_type m) "BootNotificationResponse" then Throws false Json else m_deed m in
        let '(s1, o1) := after_deed (m_kind m) d s in
        if dead s1 then (s1, OGiven b :: o1) else let '(s2, o2) := triggered m s1 in (s2, OGiven b :: o1 ++ o2)
      else (s, not_implemented (m_kind m))
  end.
(** message_callback (charge_point.cpp 953-1025). The payload of a CALL named BootNotificationResponse is not what it should
    be: an exception. *)
Definition while_pending : list string := ["GetVariables"; "SetVariables"; "GetBaseReport"; "GetReport"; "NotifyReportResponse"; "TriggerMessage"]%string.
Definition dispatch (p : parts) (m : message) (s : st) : st * list out :=
  match registered s with
  | Accepted => handle p m s
  | Pending =>
      if String.eqb (m_type m) "BootNotificationResponse" then handle p m s
      else if mem (m_type m) while_pending then handle p m s
      else if String.eqb (m_type m) "RequestStartTransaction" then (s, [OStartRejected])
      else if String.eqb (m_type m) "RequestStopTransaction" then (s, [OStopRejected])
      else (s, [OError "SecurityError"])
  | Rejected =>
      if String.eqb (m_type m) "BootNotificationResponse" then handle p m s
      else if String.eqb (m_type m) "TriggerMessage" then
        match m_boot m with
        | inl true => handle p m s
        | inl false => (s, [OError "SecurityError"])
        | inr Any => (set_dead true s, [ODead])
        | inr x => (s, caught (m_kind m) x)
        end
      else (s, [OError "SecurityError"])
  end.
(** What cannot be received (charge_point.cpp 888-944): not JSON, a string that is too long, an unknown action, not an RPC
    message, a message type id that is not known. *)
Inductive bad := NotJson | BadString | BadEnum | BadRpc | UnknownKind.
Definition bad_code (b : bad) : string :=
  match b with NotJson | BadString | BadRpc => "RpcFrameworkError" | BadEnum => "FormationViolation" | UnknownKind => "MessageTypeNotSupported" end.

(** ** Calls *)

Inductive op :=
| Start (reason : string)
| Stop
| Retry                          (* boot_notification_timer *)
| Confirmed (r : reg) (interval : Z)   (* a CALLRESULT for the BootNotification.req in flight *)
| Failed                         (* no answer to the BootNotification.req in flight *)
| Errored                        (* a CALLERROR, to the BootNotification.req in flight if there is one *)
| Receive (m : message)          (* any other message *)
| Garbage (b : bad)
| Interval (v : Z)               (* HeartbeatInterval is set *)
| Connected (now : Z)
| Disconnected (now : Z)
| Changed (c : Z) (v : N).       (* the status of a connector changes *)

(** The BootNotification.req in flight fails (message_queue.hpp 833-905): it is sent again, unless all messages are queued
    and it has been sent often enough. *)
Definition boot_failed (c : cfg) (s : st) : st :=
  match boots s with
  | [] => s
  | n :: l => if c_queue_all c && (c_attempts c <=? n + 1) then set_boots l s else set_boots (n + 1 :: l) s
  end.

(** handle_boot_notification_response and the exceptions around it. *)
Definition confirm (c : cfg) (r : reg) (interval : Z) (s : st) : st * list out :=
  match boots s with
  | [] => dispatch (c_parts c) (Message Result "InternalError" Silent (inl false)) s
  | _ :: l =>
      let '(s1, o1, d) := boot_confirmed c r interval (set_boots l s) in
      if dead s1 then (s1, OGiven Provisioning :: o1)
      else let '(s2, o2) := after_deed Result d s1 in (s2, OGiven Provisioning :: o1 ++ o2)
  end.

(** Times are in nanoseconds, as those of std::chrono::steady_clock; the threshold is in seconds. *)
Definition second : Z := 1000000000.
(** One call. *)
Definition step (c : cfg) (o : op) (s : st) : st * list out :=
  if dead s then (s, [])
  else match o with
  | Start reason => boot reason (set_started true s)
  | Stop => (set_started false (set_thread false (set_heartbeat None (set_retry None (set_checks false s)))), [])
  | Retry => match retry s with None => (s, []) | Some _ => boot "PowerUp" (set_retry None s) end
  | Confirmed r i => confirm c r i s
  | Failed => (boot_failed c s, [])
  | Errored => dispatch (c_parts c) (Message Error "InternalError" Silent (inl false)) (boot_failed c s)
  | Receive m => dispatch (c_parts c) m s
  | Garbage b => (s, [OAnonymous (bad_code b); OEvent])
  | Interval v => (if reg_eqb (registered s) Accepted then set_heartbeat (Some v) s else s, [])
  | Connected now =>
      (* websocket_connected_callback *)
      let s := set_connected true s in
      let '(s, o) :=
        if reg_eqb (registered s) Accepted then
          let '(s, o) :=
            if negb (lost s =? 0)
            then let '(s, o) := notify_all (negb (second * c_threshold c <? now - lost s)) (c_connectors c) s in (set_checks true s, o)
            else (s, []) in
          (s, OConfirmed :: o)
        else (s, []) in
      (set_lost 0 s, o)
  | Disconnected now =>
      (* websocket_disconnected_callback *)
      (set_checks false (if negb (c_threshold c =? 0) then set_lost now (set_connected false s) else set_connected false s), [])
  | Changed k v => notify true k (set_status (upd (status s) k v) s)
  end.
Fixpoint run (h : list (cfg * op)) (s : st) : st := match h with [] => s | (c, o) :: h => run h (fst (step c o s)) end.
Fixpoint events (h : list (cfg * op)) (s : st) : list (cfg * op * list out) :=
  match h with [] => [] | (c, o) :: h => let '(s1, l) := step c o s in (c, o, l) :: events h s1 end.
