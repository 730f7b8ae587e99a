(** Firmware updates of an OCPP 2.x station.

    Model of lib/ocpp/v2/functional_blocks/firmware_update.cpp (lines given alone are of that file) on top of [TxModel], which
    has its functions that change the availability of connectors (159-207).

    Simplifications. The component variable FirmwareVersion has a value. The certificate check and the callback that starts
    the update are outside: what they answer is part of the call. A process that is started again begins with a new
    FirmwareUpdate object. The functions run one after the other. No SQL statement fails and no crash happens during the
    functions of this block; both can happen during all other calls. *)
From Coq Require Import ZArith List Bool.
From Verif Require Import TxModel.
Import ListNotations.
Local Open Scope Z_scope.

(** ocpp_enums.hpp: FirmwareStatusEnum and UpdateFirmwareStatusEnum. *)
Inductive fstatus := Downloaded | DownloadFailed | Downloading | DownloadScheduled | DownloadPaused | Idle | InstallationFailed
  | Installing | Installed | InstallRebooting | InstallScheduled | InstallVerificationFailed | InvalidSignature
  | SignatureVerified.
Definition fstatus_eq_dec : forall a b : fstatus, {a = b} + {a <> b}.
Proof. decide equality. Defined.
Definition fstatus_eqb (a b : fstatus) : bool := if fstatus_eq_dec a b then true else false.
Inductive ustatus := UAccepted | URejected | UAcceptedCanceled | UInvalidCertificate | URevokedCertificate.
(** The security events of this block. *)
Inductive fevent := FirmwareUpdated | InvalidFirmwareSignature | InvalidFirmwareSigningCertificate.

(** What leaves the library: FirmwareStatusNotification, security events, the callback with the request, the response, and
    what [TxModel] puts out. [FStarted]: the process has been started again. *)
Inductive fout :=
| FNote (s : fstatus) (id : option Z) (triggered : bool)
| FEvent (e : fevent)
| FCall (req : Z)
| FResp (s : ustatus)
| FTx (o : out)
| FStarted.

(** The members (firmware_update.hpp 39-43) and the rest of the station. *)
Record fw := Fw { f_status : fstatus; f_id : option Z; f_before : fstatus; f_w : world }.
(** The constructor (25-35). *)
Definition fresh (w : world) : fw := Fw Idle None SignatureVerified w.

(** firmware_status_end_states (21-23). *)
Definition ends (s : fstatus) : bool :=
  match s with
  | DownloadFailed | InstallationFailed | Installed | InstallVerificationFailed | InvalidSignature => true
  | _ => false
  end.
(** A function of [TxModel] and what it puts out. *)
Definition do_tx (o : op) (w : world) : world * list fout :=
  let w1 := TxModel.step w (Call o [] None) in (w1, map FTx (skipn (length (w_out w)) (w_out w1))).
(** The security event of a status (68-81). *)
Definition event_of (s : fstatus) : list fout :=
  match s with
  | Installed => [FEvent FirmwareUpdated]
  | InvalidSignature => [FEvent InvalidFirmwareSignature]
  | _ => []
  end.
(** on_firmware_update_status_notification (45-107). *)
Definition on_status (id : Z) (s : fstatus) (f : fw) : fw * list fout :=
  if fstatus_eqb (f_status f) s && ((id =? -1) || match f_id f with Some i => i =? id | None => false end) then (f, [])
  else
    let rid := if id =? -1 then None else Some id in
    let fid := if id =? -1 then f_id f else Some id in
    let '(w1, o1) := if ends s then do_tx ORestore (f_w f) else (f_w f, []) in
    let before := fstatus_eqb (f_before f) s in
    let busy := any_active w1 in
    let '(w2, o2) := if before then do_tx OFirmware w1 else (w1, []) in
    (Fw (if before && busy then InstallScheduled else s) fid (f_before f) w2,
     [FNote s rid false] ++ event_of s ++ o1 ++ (if before && busy then [FNote InstallScheduled rid false] else []) ++ o2).
(** on_firmware_status_notification_request (109-125). *)
Definition on_request (f : fw) : fw * list fout :=
  (f, [match f_status f with
       | Idle | Installed => FNote Idle None true
       | s => FNote s (f_id f) true
       end]).
(** handle_firmware_update_req (127-157). [req]: the request; [cert]: whether the signing certificate is valid, if there is
    one; [signature]: whether there is a signature; [answer]: the status the callback gives. *)
Definition handle_update (req : Z) (cert : option bool) (signature : bool) (answer : ustatus) (f : fw) : fw * list fout :=
  let signed := match cert with Some _ => true | None => signature end in
  let valid := match cert with Some false => false | _ => true end in
  let s := if valid then answer else UInvalidCertificate in
  (Fw (f_status f) (f_id f) (if signed then SignatureVerified else Downloaded) (f_w f),
   (if valid then [FCall req] else []) ++ [FResp s]
   ++ match s with UInvalidCertificate | URevokedCertificate => [FEvent InvalidFirmwareSigningCertificate] | _ => [] end).

(** One call into the library. *)
Inductive fop :=
| Report (id : Z) (s : fstatus)
| Ask                                                       (* TriggerMessage for FirmwareStatusNotification *)
| Update (req : Z) (cert : option bool) (signature : bool) (answer : ustatus)
| Other (c : call).
(** Does the process end during the call? *)
Definition restarts (w : world) (c : call) : bool :=
  match c_op c with
  | ORestart => true
  | o => match w_prog (exec o (set_w_prog Running (set_w_budget (c_crash c) (set_w_fail (c_fail c) w)))) with
         | Dead => true
         | _ => false
         end
  end.
Definition fstep (f : fw) (o : fop) : fw * list fout :=
  match o with
  | Report id s => on_status id s f
  | Ask => on_request f
  | Update r c sg a => handle_update r c sg a f
  | Other c =>
      let w1 := TxModel.step (f_w f) c in
      let outs := map FTx (skipn (length (w_out (f_w f))) (w_out w1)) in
      if restarts (f_w f) c then (fresh w1, outs ++ [FStarted])
      else (Fw (f_status f) (f_id f) (f_before f) w1, outs)
  end.
(** A history: what each call puts out. *)
Fixpoint ftrace (f : fw) (h : list fop) : list (fop * list fout) :=
  match h with [] => [] | o :: q => let '(f1, l) := fstep f o in (o, l) :: ftrace f1 q end.
Fixpoint fstate (f : fw) (h : list fop) : fw :=
  match h with [] => f | o :: q => fstate (fst (fstep f o)) q end.
