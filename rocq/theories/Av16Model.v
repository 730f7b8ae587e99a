(** Availability of the connectors of an OCPP 1.6 station.
    Modelled, of lib/ocpp/v16/charge_point_impl.cpp (lines given alone are of that file): preprocess_change_availability_request
    (1735-1793), execute_connectors_availability_change (1795-1824), execute_queued_availability_change (1826-1843),
    handleChangeAvailabilityRequest (2001-2019), on_change_availability (4907-4921), on_session_stopped (4353-4355) and
    handleStopTransactionResponse (2393-2436) as far as availability is concerned, firmware_status_notification (4692-4716),
    signed_firmware_update_status_notification (3076-3110), on_firmware_update_status_notification (4623-4675), the trigger of
    FirmwareStatusNotification (2646-2648, 2772-2775), change_all_connectors_to_unavailable_for_firmware_update (1213-1245),
    init_state_machine (365-396) without a given map; and the conversions of lib/ocpp/common/types.cpp 1236-1300.
    Simplified: whether a connector has an active transaction or is in use is an argument of each step; the table CONNECTORS
    has a row for each of 0..n; the callbacks are registered; access to the database does not fail; the map of queued changes
    and the table are functions. *)
From Coq Require Import ZArith List Bool.
Import ListNotations.
Local Open Scope list_scope.
Local Open Scope Z_scope.

Inductive avail := Operative | Inoperative.
(** FirmwareStatusNotification (types.hpp). *)
Inductive fw :=
| Downloaded | DownloadFailed | Downloading | DownloadScheduled | DownloadPaused | Idle | InstallationFailed | Installing | Installed
| InstallRebooting | InstallScheduled | InstallVerificationFailed | InvalidSignature | SignatureVerified.
Inductive answer := Accepted | Scheduled | Rejected.

(** What is kept: change_availability_queue (availability and persist), the table CONNECTORS, firmware_update_is_pending,
    firmware_status, signed_firmware_status. *)
Record av := Av { q : Z -> option (avail * bool); db : Z -> option avail; pending : bool; st_plain : fw; st_signed : fw }.

Inductive op :=
| Change (c : Z) (t : avail) (busy : Z -> bool)             (* ChangeAvailability.req; busy: active transaction or Preparing *)
| Ended (c : Z)                                             (* on_session_stopped *)
| StopConf (c : option Z) (active : Z -> bool)              (* StopTransaction.conf, for a known transaction of connector c *)
| Firmware (signed : bool) (st : fw) (active : Z -> bool)   (* on_firmware_update_status_notification; signed: request_id is not -1 *)
| TriggerFw (signed : bool) (active : Z -> bool)            (* (Extended)TriggerMessage.req of FirmwareStatusNotification *)
| Boot.                                                     (* the process starts anew *)
Inductive out :=
| OAnswer (a : answer)                                      (* ChangeAvailability.conf *)
| OZero (a : avail)                                         (* the event for the state machine of connector 0 *)
| OEnable (c : Z)                                           (* enable_evse_callback *)
| ODisable (c : Z)                                          (* disable_evse_callback *)
| OFw (signed : bool) (st : fw)                             (* (Signed)FirmwareStatusNotification.req *)
| OAll.                                                     (* all_connectors_unavailable_callback *)

(** 1..n and 0..n. *)
Definition upto (n : nat) : list Z := map Z.of_nat (seq 1 n).
Definition from0 (n : nat) : list Z := 0 :: upto n.
Definition set {A} (f : Z -> option A) (c : Z) (x : option A) : Z -> option A := fun d => if d =? c then x else f d.

(** execute_connectors_availability_change (1795-1824). *)
Definition command (a : avail) (c : Z) : list out :=
  match a with
  | Operative => (if c =? 0 then [OZero Operative] else []) ++ [OEnable c]
  | Inoperative => (if c =? 0 then [OZero Inoperative] else []) ++ [ODisable c]
  end.
Fixpoint execute (cs : list Z) (a : avail) (persist : bool) (d : Z -> option avail) : (Z -> option avail) * list out :=
  match cs with
  | [] => (d, [])
  | c :: cs => let d := if persist then set d c (Some a) else d in
               let (d', l) := execute cs a persist d in (d', command a c ++ l)
  end.
(** execute_queued_availability_change (1826-1843). *)
Definition execute_queued (s : av) (c : Z) : av * list out :=
  match q s c with
  | Some (a, p) => let (d, l) := execute [c] a p (db s) in (Av (set (q s) c None) d (pending s) (st_plain s) (st_signed s), l)
  | None => (s, [])
  end.

(** preprocess_change_availability_request (1735-1793): the loop over the connectors of the request. *)
Fixpoint sort (cs : list Z) (t : avail) (busy : Z -> bool) (m : Z -> option (avail * bool)) : (Z -> option (avail * bool)) * list Z * bool :=
  match cs with
  | [] => (m, [], false)
  | c :: cs =>
      if busy c then let '(m, now, _) := sort cs t busy (set m c (Some (t, true))) in (m, now, true)
      else let '(m, now, later) := sort cs t busy m in (m, c :: now, later)
  end.
(** All queued changes are written (1772-1782). *)
Definition write_all (m : Z -> option (avail * bool)) (d : Z -> option avail) : Z -> option avail :=
  fun c => match m c with Some (a, _) => Some a | None => d c end.
Definition change (n : nat) (s : av) (c : Z) (t : avail) (busy : Z -> bool) : av * list out :=
  if (c <=? Z.of_nat n) && (0 <=? c) then
    let '(m, now, later) := sort (if c =? 0 then upto n else [c]) t busy (q s) in
    let now := if c =? 0 then 0 :: now else now in
    let (d, l) := execute now t true (write_all m (db s)) in
    (Av m d (pending s) (st_plain s) (st_signed s), OAnswer (if later then Scheduled else Accepted) :: l)
  else (s, [OAnswer Rejected]).

(** change_all_connectors_to_unavailable_for_firmware_update (1213-1245). *)
Definition all_unavailable (n : nat) (s : av) (active : Z -> bool) : av * list out :=
  (Av (fun c => if existsb (Z.eqb c) (upto n) && active c then Some (Inoperative, false) else q s c) (db s) (pending s) (st_plain s) (st_signed s),
   map ODisable (filter (fun c => negb (active c)) (upto n)) ++ if existsb active (upto n) then [] else [OAll]).

(** firmware_status_notification (4692-4716), signed_firmware_update_status_notification (3076-3110). *)
Definition pending_after (signed : bool) (st : fw) (p : bool) : bool :=
  if signed
  then match st with
       | SignatureVerified => true
       | InstallationFailed | DownloadFailed | InstallVerificationFailed | InvalidSignature => false
       | _ => p
       end
  else match st with Downloaded => true | DownloadFailed | InstallationFailed => false | _ => p end.
Definition notify (n : nat) (signed : bool) (st : fw) (active : Z -> bool) (s : av) : av * list out :=
  let s := Av (q s) (db s) (pending_after signed st (pending s)) (if signed then st_plain s else st) (if signed then st else st_signed s) in
  let (s', l) := if pending s then all_unavailable n s active else (s, []) in (s', OFw signed st :: l).
(** firmware_status_notification_to_firmware_status (types.cpp 1236-1265): the others throw. *)
Definition plain (st : fw) : bool :=
  match st with Downloaded | DownloadFailed | Downloading | Idle | InstallationFailed | Installing | Installed => true | _ => false end.
(** on_firmware_update_status_notification (4623-4675). *)
Definition restores (st : fw) : bool := match st with InstallationFailed | Installed | InstallVerificationFailed => true | _ => false end.
Definition is_over (st : fw) : bool :=
  match st with InstallationFailed | Installed | InvalidSignature | InstallVerificationFailed | DownloadFailed => true | _ => false end.
Definition restore (n : nat) (d : Z -> option avail) : list out :=
  flat_map (fun c => match d c with Some Operative => command Operative c | _ => [] end) (from0 n).
Definition firmware (n : nat) (signed : bool) (st : fw) (active : Z -> bool) (s : av) : av * list out :=
  let (s, l) := if signed || plain st then notify n signed st active s else (s, []) in
  (if is_over st then Av (q s) (db s) (pending s) (if signed then st_plain s else Idle) (if signed then Idle else st_signed s) else s,
   l ++ if restores st then restore n (db s) else []).

(** init_state_machine (365-390): the state machines themselves are reset to what the table says. *)
Definition boot (n : nat) (s : av) : av * list out :=
  (Av (fun _ => None) (db s) false Idle Idle,
   flat_map (fun c => match db s c with Some Operative => [OEnable c] | Some Inoperative => [ODisable c] | None => [] end) (from0 n)).

Definition step (n : nat) (s : av) (o : op) : av * list out :=
  match o with
  | Change c t busy => change n s c t busy
  | Ended c => execute_queued s c
  | StopConf c active =>
      let (s, l) := match c with Some c => execute_queued s c | None => (s, []) end in
      let (s, l') := if pending s then all_unavailable n s active else (s, []) in (s, l ++ l')
  | Firmware signed st active => firmware n signed st active s
  | TriggerFw signed active => notify n signed (if signed then st_signed s else st_plain s) active s
  | Boot => boot n s
  end.
(** A station with the table [d]. *)
Definition init (d : Z -> option avail) : av := Av (fun _ => None) d false Idle Idle.
Fixpoint run (n : nat) (s : av) (os : list op) : av :=
  match os with [] => s | o :: os => run n (fst (step n s o)) os end.
