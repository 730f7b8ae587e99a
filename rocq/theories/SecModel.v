(** Certificates of an OCPP 2.x station.

    Model of lib/ocpp/v2/functional_blocks/security.cpp (lines given alone are of that file) but for
    on_get_15118_ev_certificate_request, and of the conversions of lib/ocpp/common/evse_security.cpp it uses.

    Simplifications. The certificate store (EvseSecurity) is outside: what it answers is part of the call, what it is asked
    is put out. The timer of a SignCertificate.req is the time it was set to; that it runs off is a call. The functions run
    one after the other. SignCertificate.req are answered in the order they were sent ([MQModel]), or never ([Lost]). The
    number of attempts is not bounded by int. The intervals of the expiration checks are left out, when they run is a call
    ([Expiry]). What is written to the security log is left out. *)
From Coq Require Import ZArith String List Bool.
Import ListNotations.
Local Open Scope Z_scope.

(** ocpp_enums.hpp: CertificateSigningUseEnum and InstallCertificateUseEnum; types.hpp: InstallCertificateResult,
    DeleteCertificateResult, and CertificateType. *)
Inductive use := Station | V2G | V2G20.
Inductive root := V2GRoot | MORoot | CSMSRoot | ManufacturerRoot | OEMRoot.
Inductive installed := InvalidSignature | InvalidCertificateChain | InvalidFormat | InvalidCommonName
  | NoRootCertificateInstalled | Expired | StoreMaxLengthExceeded | WriteError | Installed.
Inductive deleted := Deleted | DeleteFailed | NotFound.
Inductive ctype := TV2GRoot | TMORoot | TCSMSRoot | TV2GChain | TMFRoot | TOEMRoot.
(** GetCertificateIdUseEnum. *)
Inductive idtype := IV2GRoot | IMORoot | ICSMSRoot | IV2GChain | IManufacturerRoot | IOEMRoot.
(** GenericStatusEnum and the status enums of the responses. *)
Inductive status := Accepted | Rejected | Failed | SNotFound.
(** types.hpp 785-815: the security events used. *)
Inductive event := CSRGenerationFailed | InvalidChargingStationCertificate | ReconfigurationOfSecurityParameters.

(** The variables of the device model read. *)
Record config := Config {
  g_profile : Z;                           (* SecurityProfile *)
  g_serial : option string;                (* ChargeBoxSerialNumber *)
  g_org : option string;                   (* OrganizationName *)
  g_country : option string;               (* ISO15118CtrlrCountryName *)
  g_tpm : option bool;                     (* UseTPM *)
  g_secc : option string;                  (* ISO15118CtrlrSeccId *)
  g_isoorg : option string;                (* ISO15118CtrlrOrganizationName *)
  g_tpmleaf : option bool;                 (* UseTPMSeccLeafCertificate *)
  g_wait : option Z;                       (* CertSigningWaitMinimum *)
  g_repeat : option Z;                     (* CertSigningRepeatTimes *)
  g_links : option bool;                   (* UpdateCertificateSymlinks *)
  g_v2g : option bool;                     (* V2GCertificateInstallationEnabled *)
  g_allowcsms : option bool;               (* AllowCSMSRootCertInstallWithUnsecureConnection *)
  g_allowmf : option bool }.               (* AllowMFRootCertInstallWithUnsecureConnection *)

(** What leaves the library: messages, questions to the certificate store, calls of other parts. *)
Inductive out :=
| OGenerate (u : use) (country org common : string) (tpm : bool)
| OSign (u : use) (csr : string) (triggered : bool)
| OEvent (e : event)                       (* SecurityEventNotification.req *)
| OTell (e : event)                        (* security_event_callback *)
| OTimer (seconds : Z)                     (* certificate_signed_timer.timeout *)
| OLeaf (chain : string) (u : use)         (* update_leaf_certificate *)
| OSignedResp (s : status)
| OOcsp                                    (* trigger_ocsp_cache_update *)
| OLinks (u : use)                         (* update_certificate_links *)
| OReconnect                               (* on_charging_station_certificate_changed *)
| OInstallCa (cert : string) (t : root)    (* install_ca_certificate *)
| OInstallResp (s : status) (unsecure : bool)
| ODelete (hash : string)                  (* delete_certificate *)
| ODeleteResp (s : status)
| OFetch (l : list ctype)                  (* get_installed_certificates *)
| OIdsResp (s : status) (chains : list string).

(** The members. [k_unanswered]: SignCertificate.req handed to the message dispatcher and not answered yet. [k_gone]: an
    exception left the callback of the timer, and with it the process. *)
Record st := St {
  k_awaited : option use; k_attempt : Z; k_timer : option Z; k_unanswered : nat; k_gone : bool; k_cb : bool }.

(** Running functions one after the other. *)
Definition cmd := st -> st * list out.
Definition seqc (f g : cmd) : cmd := fun s => let '(s1, o1) := f s in let '(s2, o2) := g s1 in (s2, o1 ++ o2).
Notation "f ;; g" := (seqc f g) (at level 61, right associativity).
Definition skip : cmd := fun s => (s, []).
Definition put (o : out) : cmd := fun s => (s, [o]).
(** Assignments to the members. *)
Definition set_awaited (v : option use) : cmd :=
  fun s => (St v (k_attempt s) (k_timer s) (k_unanswered s) (k_gone s) (k_cb s), []).
Definition set_attempt (v : Z) : cmd :=
  fun s => (St (k_awaited s) v (k_timer s) (k_unanswered s) (k_gone s) (k_cb s), []).
Definition set_timer (v : option Z) : cmd :=
  fun s => (St (k_awaited s) (k_attempt s) v (k_unanswered s) (k_gone s) (k_cb s), []).
Definition set_unanswered (v : nat) : cmd :=
  fun s => (St (k_awaited s) (k_attempt s) (k_timer s) v (k_gone s) (k_cb s), []).
Definition set_gone : cmd :=
  fun s => (St (k_awaited s) (k_attempt s) (k_timer s) (k_unanswered s) true (k_cb s), []).

(** std::optional<bool>::value_or. *)
Definition or_else (o : option bool) (d : bool) : bool := match o with Some b => b | None => d end.
(** utils::is_critical (v2/utils.cpp 159-207) for the events used. *)
Definition is_critical (e : event) : bool :=
  match e with InvalidChargingStationCertificate => true | CSRGenerationFailed | ReconfigurationOfSecurityParameters => false end.

(** security_event_notification_req (135-157), with triggered_internally. *)
Definition security_event (e : event) (critical : bool) : cmd :=
  (if critical then put (OEvent e) else skip) ;;
  (fun s => if k_cb s then put (OTell e) s else skip s).

(** The parameters of the signing request (174-194). *)
Definition names (c : config) (u : use) : option string * option string * option string * bool :=
  match u with
  | Station => (g_serial c, g_org c, g_country c, or_else (g_tpm c) false)
  | _ => (g_secc c, g_isoorg c, g_country c, or_else (g_tpmleaf c) false)
  end.
(** The certificate type of the request (175, 185). *)
Definition asked_for (u : use) : use := match u with Station => Station | _ => V2G end.
(** sign_certificate_req (159-232). [csr]: the signing request generate_certificate_signing_request gives if its status is
    Accepted. *)
Definition sign_certificate_req (c : config) (u : use) (triggered : bool) (csr : option string) : cmd := fun s =>
  match k_awaited s with
  | Some _ => skip s
  | None =>
      match names c u with
      | (Some common, Some org, Some country, tpm) =>
          (put (OGenerate u country org common tpm) ;;
           match csr with
           | None => security_event CSRGenerationFailed true
           | Some r => set_awaited (Some u) ;; put (OSign (asked_for u) r triggered) ;; set_unanswered (S (k_unanswered s))
           end) s
      | _ => skip s
      end
  end.

(** handle_certificate_signed_req (234-290). [r]: the answer of update_leaf_certificate. *)
Definition signed_use (t : option use) : use := match t with None | Some Station => Station | Some _ => V2G end.
Definition is_installed (r : installed) : bool := match r with Installed => true | _ => false end.
Definition is_station (u : use) : bool := match u with Station => true | _ => false end.
Definition handle_certificate_signed (c : config) (t : option use) (chain : string) (r : installed) : cmd :=
  let u := signed_use t in
  set_attempt 1 ;; set_awaited None ;; set_timer None ;;
  put (OLeaf chain u) ;;
  (if is_installed r && negb (is_station u) then put OOcsp else skip) ;;
  (if negb (is_station u) && or_else (g_links c) false then put (OLinks u) else skip) ;;
  put (OSignedResp (if is_installed r then Accepted else Rejected)) ;;
  (if is_installed r then skip else security_event InvalidChargingStationCertificate true) ;;
  (if is_installed r && is_station u && (g_profile c =? 3)
   then put OReconnect ;; security_event ReconfigurationOfSecurityParameters (is_critical ReconfigurationOfSecurityParameters)
   else skip).

(** The waiting time (323-325): clamp_to<int> of the product, which is exact in a double. *)
Definition int_max : Z := 2147483647.
Definition backoff (w attempt : Z) : Z :=
  let x := Z.max 250 w * 2 ^ attempt in if x <=? int_max then x else int_max.
(** handle_sign_certificate_response (292-341). *)
Definition handle_sign_response (c : config) (ok : bool) : cmd := fun s =>
  match k_awaited s with
  | None => skip s
  | Some _ =>
      if ok then
        match g_wait c, g_repeat c with
        | Some w, Some n =>
            if n <? k_attempt s then (set_attempt 1 ;; set_timer None ;; set_awaited None) s
            else let b := backoff w (k_attempt s) in (set_timer (Some b) ;; put (OTimer b)) s
        | _, _ => skip s
        end
      else (set_awaited None ;; set_attempt 1) s
  end.
(** The callback of certificate_signed_timer (327-334): std::optional::value throws if there is none. *)
Definition timer_fires (c : config) (csr : option string) : cmd := fun s =>
  match k_timer s with
  | None => skip s
  | Some _ =>
      (set_timer None ;; set_attempt (k_attempt s + 1) ;;
       match k_awaited s with
       | None => set_gone
       | Some u => set_awaited None ;; sign_certificate_req c u false csr
       end) s
  end.

(** scheduled_check_client_certificate_expiration (461-477) and scheduled_check_v2g_certificate_expiration (479-505). *)
Definition check_expiry (c : config) (u : use) (days : Z) (csr : option string) : cmd :=
  match u with
  | Station => if days <? 30 then sign_certificate_req c Station false csr else skip
  | _ => if or_else (g_v2g c) false then if days <? 30 then sign_certificate_req c V2G false csr else skip else skip
  end.

(** should_allow_certificate_install (434-459). *)
Definition should_allow (c : config) (t : root) : bool :=
  if 1 <? g_profile c then true
  else match t with
       | CSMSRoot => or_else (g_allowcsms c) true
       | ManufacturerRoot => or_else (g_allowmf c) true
       | MORoot | V2GRoot => true
       | OEMRoot => false
       end.
(** to_ocpp_v2 of an InstallCertificateResult (evse_security.cpp 59-76). *)
Definition install_status (r : installed) : status :=
  match r with
  | InvalidSignature | InvalidCertificateChain | InvalidFormat | InvalidCommonName | NoRootCertificateInstalled | Expired
  | StoreMaxLengthExceeded => Rejected
  | WriteError => Failed
  | Installed => Accepted
  end.
(** handle_install_certificate_req (383-408). *)
Definition handle_install (c : config) (t : root) (cert : string) (r : installed) : cmd :=
  if negb (should_allow c t) then put (OInstallResp Rejected true)
  else
    put (OInstallCa cert t) ;;
    match install_status r with
    | Accepted => security_event ReconfigurationOfSecurityParameters (is_critical ReconfigurationOfSecurityParameters)
    | _ => skip
    end ;;
    put (OInstallResp (install_status r) false).
(** to_ocpp_v2 of a DeleteCertificateResult (evse_security.cpp 78-89). *)
Definition delete_status (r : deleted) : status :=
  match r with Deleted => Accepted | DeleteFailed => Failed | NotFound => SNotFound end.
(** handle_delete_certificate_req (410-432). *)
Definition handle_delete (hash : string) (r : deleted) : cmd :=
  put (ODelete hash) ;;
  match delete_status r with
  | Accepted => security_event ReconfigurationOfSecurityParameters (is_critical ReconfigurationOfSecurityParameters)
  | _ => skip
  end ;;
  put (ODeleteResp (delete_status r)).
(** from_ocpp_v2 of a GetCertificateIdUseEnum (evse_security.cpp 133-150). *)
Definition ctype_of (t : idtype) : ctype :=
  match t with
  | IV2GRoot => TV2GRoot | IV2GChain => TV2GChain | IMORoot => TMORoot | ICSMSRoot => TCSMSRoot
  | IManufacturerRoot => TMFRoot | IOEMRoot => TOEMRoot
  end.
(** handle_get_installed_certificate_ids_req (343-381). [found]: what get_installed_certificates gives. *)
Definition handle_ids (l : option (list idtype)) (found : list string) : cmd :=
  put (OFetch match l with
              | Some l => map ctype_of l
              | None => [TCSMSRoot; TMFRoot; TMORoot; TV2GChain; TV2GRoot]
              end) ;;
  put (match found with [] => OIdsResp SNotFound [] | _ => OIdsResp Accepted found end).

(** One call into the library, with the configuration of that moment. *)
Inductive op :=
| Sign (u : use) (triggered : bool) (csr : option string)
| Expiry (u : use) (days : Z) (csr : option string)
| Conf (ok : bool)                                   (* SignCertificate.conf for the oldest unanswered request *)
| Lost                                               (* the oldest unanswered request will never be answered *)
| Fires (csr : option string)                        (* the timer runs off *)
| Signed (t : option use) (chain : string) (r : installed)
| Install (t : root) (cert : string) (r : installed)
| Delete (hash : string) (r : deleted)
| Ids (l : option (list idtype)) (found : list string)
| Stop.                                              (* stop_certificate_signed_timer (65-67) *)
Definition exec (c : config) (o : op) : cmd :=
  match o with
  | Sign u tr csr => sign_certificate_req c u tr csr
  | Expiry u d csr => check_expiry c u d csr
  | Conf ok => fun s => match k_unanswered s with
                        | O => skip s
                        | S n => (set_unanswered n ;; handle_sign_response c ok) s
                        end
  | Lost => fun s => set_unanswered (pred (k_unanswered s)) s
  | Fires csr => timer_fires c csr
  | Signed t chain r => handle_certificate_signed c t chain r
  | Install t cert r => handle_install c t cert r
  | Delete h r => handle_delete h r
  | Ids l found => handle_ids l found
  | Stop => set_timer None
  end.
Definition step (s : st) (x : config * op) : st * list out := if k_gone s then (s, []) else exec (fst x) (snd x) s.
(** A history: what each call puts out. *)
Fixpoint trace (s : st) (h : list (config * op)) : list (op * list out) :=
  match h with
  | [] => []
  | x :: q => let '(s1, o) := step s x in (snd x, o) :: trace s1 q
  end.
Fixpoint state (s : st) (h : list (config * op)) : st :=
  match h with [] => s | x :: q => state (fst (step s x)) q end.
(** The constructor (26-35). *)
Definition init (cb : bool) : st := St None 1 None 0 false cb.
