(** What the firmware update theorems say, in terms of what was put out. *)
From Coq Require Import ZArith List Bool.
From Verif Require Import TxModel TxSpec FwModel.
Import ListNotations.
Local Open Scope Z_scope.

(** All that a history puts out. *)
Definition log (t : list (fop * list fout)) : list fout := concat (map snd t).
(** The last status the station told the CSMS of its own, since the process was started. *)
Definition last_status (l : list fout) : fstatus :=
  fold_left (fun a o => match o with FNote s _ false => s | FStarted => Idle | _ => a end) l Idle.
(** The last request id it told. *)
Definition last_id (l : list fout) : option Z :=
  fold_left (fun a o => match o with FNote _ (Some i) false => Some i | FStarted => None | _ => a end) l None.
(** The status that precedes the installation: the firmware of the last request has to be verified if it is signed. *)
Definition expected (t : list (fop * list fout)) : fstatus :=
  fold_left (fun a e => match fst e with
    | Update _ None false _ => Downloaded
    | Update _ _ _ _ => SignatureVerified
    | _ => if existsb (fun o => match o with FStarted => true | _ => false end) (snd e) then SignatureVerified else a
    end) t SignatureVerified.
(** Notifications among what was put out. *)
Definition is_note (o : fout) : bool := match o with FNote _ _ _ => true | _ => false end.
Definition is_fevent (o : fout) : bool := match o with FEvent _ => true | _ => false end.
(** States from which no installation follows. *)
Definition end_state (s : fstatus) : Prop :=
  s = DownloadFailed \/ s = InstallationFailed \/ s = Installed \/ s = InstallVerificationFailed \/ s = InvalidSignature.
(** Is the report of a status the CSMS was told already? *)
Definition told_already (l : list fout) (id : Z) (s : fstatus) : Prop :=
  last_status l = s /\ (id = -1 \/ last_id l = Some id).
