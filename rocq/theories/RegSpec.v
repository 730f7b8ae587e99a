(** What is said of the registration of an OCPP 2.x station and of its answers. *)
From Coq Require Import String ZArith List Bool.
From Verif Require Import RegModel.
Import ListNotations.
Local Open Scope Z_scope.

(** The messages the station deals with, and the part of it that must be there. *)
Inductive feature := Always | Reserving | Smart | Showing | Bidi.
Definition has (p : parts) (f : feature) : bool :=
  match f with Always => true | Reserving => p_reservation p | Smart => p_smart p | Showing => p_display p | Bidi => p_bidirectional p end.
Definition dealt_with : list (string * feature) := [
  ("CancelReservation", Reserving); ("CertificateSigned", Always); ("ChangeAvailability", Always); ("ClearCache", Always);
  ("ClearChargingProfile", Smart); ("ClearDisplayMessage", Showing); ("ClearVariableMonitoring", Always); ("CostUpdated", Always);
  ("CustomerInformation", Always); ("DataTransfer", Always); ("DeleteCertificate", Always); ("GetBaseReport", Always);
  ("GetChargingProfiles", Smart); ("GetCompositeSchedule", Smart); ("GetDisplayMessages", Showing);
  ("GetInstalledCertificateIds", Always); ("GetLocalListVersion", Always); ("GetLog", Always); ("GetMonitoringReport", Always);
  ("GetReport", Always); ("GetTransactionStatus", Always); ("GetVariables", Always); ("InstallCertificate", Always);
  ("NotifyAllowedEnergyTransfer", Bidi); ("RequestStartTransaction", Always); ("RequestStopTransaction", Always);
  ("ReserveNow", Reserving); ("Reset", Always); ("SendLocalList", Always); ("SetChargingProfile", Smart);
  ("SetDisplayMessage", Showing); ("SetMonitoringBase", Always); ("SetMonitoringLevel", Always); ("SetNetworkProfile", Always);
  ("SetVariableMonitoring", Always); ("SetVariables", Always); ("TriggerMessage", Always); ("UnlockConnector", Always);
  ("UpdateFirmware", Always);
  ("BootNotificationResponse", Always); ("HeartbeatResponse", Always); ("NotifyEVChargingNeedsResponse", Smart);
  ("SignCertificateResponse", Always); ("TransactionEventResponse", Always)]%string.
Definition known (p : parts) (t : string) : bool :=
  match find (fun e => String.eqb (fst e) t) dealt_with with Some e => has p (snd e) | None => false end.
(** What may be dealt with before the station is accepted. *)
Definition allowed (r : reg) (m : message) : Prop :=
  match r with
  | Accepted => True
  | Pending => In (m_type m) ["BootNotificationResponse"; "GetVariables"; "SetVariables"; "GetBaseReport"; "GetReport"; "NotifyReportResponse"; "TriggerMessage"]%string
  | Rejected => m_type m = "BootNotificationResponse"%string \/ m_type m = "TriggerMessage"%string /\ m_boot m = inl true
  end.
(** What is addressed to the message that was received. *)
Definition addressed (o : out) : bool := match o with OResult | OStartRejected | OStopRejected | OError _ => true | _ => false end.
Definition answers (l : list out) : nat := List.length (filter addressed l).
Definition given (l : list out) : Prop := exists b, In (OGiven b) l.

(** The answer to a BootNotification.req that was taken note of. *)
Definition heard (e : cfg * op * list out) : option (reg * Z) :=
  match e with (_, Confirmed r i, OGiven _ :: _) => Some (r, i) | _ => None end.
Definition said1 (old : reg) (e : cfg * op * list out) : reg := match heard e with Some (r, _) => r | None => old end.
Definition said (l : list (cfg * op * list out)) : reg := fold_left said1 l Rejected.
(** The station has been started, and not been stopped since. *)
Definition on1 (old : bool) (e : cfg * op) : bool := match snd e with Start _ => true | Stop => false | _ => old end.
Definition on (h : list (cfg * op)) : bool := fold_left on1 h false.
(** The station has seen itself accepted. *)
Definition taken (e : cfg * op * list out) : bool :=
  match e with (_, Confirmed Accepted _, l) => existsb (fun o => match o with OConfirmed => true | _ => false end) l | _ => false end.
(** The heartbeat interval that applies. *)
Definition beat1 (old : reg * option Z) (e : cfg * op * list out) : reg * option Z :=
  (said1 (fst old) e,
   match e with
   | (_, Stop, _) => None
   | (_, Interval v, _) => match fst old with Accepted => Some v | _ => snd old end
   | (_, Confirmed _ i, _) => if taken e && (0 <? i) then Some i else snd old
   | _ => snd old
   end).
Definition beat (l : list (cfg * op * list out)) : option Z := snd (fold_left beat1 l (Rejected, None)).

(** The station has seen itself accepted twice without being stopped in between. *)
Definition twice1 (old : nat) (e : cfg * op * list out) : nat :=
  match old with
  | 2%nat => 2%nat
  | _ => match e with (_, Stop, _) => 0%nat | _ => if taken e then S old else old end
  end.
Definition twice (l : list (cfg * op * list out)) : bool := Nat.eqb (fold_left twice1 l 0%nat) 2.

(** No exception ends the process. *)
Definition tame (e : cfg * op) : Prop :=
  match snd e with Receive m => (forall a, m_deed m <> Throws a Any) /\ m_boot m <> inr Any | _ => True end.
(** No BootNotification is asked for. *)
Definition untriggered (e : cfg * op) : Prop := match snd e with Receive m => m_boot m <> inl true | _ => True end.
Definition no_start (e : cfg * op) : Prop := match snd e with Start _ => False | _ => True end.

(** What the CSMS has been told about a connector. *)
Definition told1 (c : Z) (old : option N) (o : out) : option N := match o with OStatus k v => if k =? c then Some v else old | _ => old end.
Definition told (c : Z) (l : list (cfg * op * list out)) : option N := fold_left (told1 c) (flat_map snd l) None.
(** When the connection was lost. *)
Definition lost1 (old : option Z) (e : cfg * op) : option Z := match snd e with Disconnected t => Some t | Connected _ => None | _ => old end.
Definition lost_at (h : list (cfg * op)) : option Z := fold_left lost1 h None.
(** The status of a connector, [v] at first. *)
Definition now1 (c : Z) (old : N) (e : cfg * op) : N := match snd e with Changed k v => if k =? c then v else old | _ => old end.
Definition now_of (v : Z -> N) (c : Z) (h : list (cfg * op)) : N := fold_left (now1 c) h (v c).
(** The connection is there. *)
Definition link1 (old : bool) (e : cfg * op) : bool := match snd e with Connected _ => true | Disconnected _ => false | _ => old end.
Definition link (h : list (cfg * op)) : bool := fold_left link1 h false.

(** A station with the connectors [k] that has a time source and an offline threshold, and a clock that has started. *)
Definition set_up (k : list Z) (e : cfg * op) : Prop :=
  let '(c, o) := e in
  c_connectors c = k /\ (c_sync c = true -> c_source c <> None)
  /\ match o with Disconnected t => c_threshold c <> 0 /\ t <> 0 | _ => True end.
(** Answers to BootNotification.reqs come while the connection is there. *)
Fixpoint in_time (b : bool) (h : list (cfg * op)) : Prop :=
  match h with
  | [] => True
  | e :: h => match snd e with Confirmed _ _ => b = true | _ => True end /\ in_time (link1 b e) h
  end.
