(** OCPP 1.6: DataTransfer.req and its handlers for certificates, the certificate requests of the security extension, the
    unlocking of connectors, and Reset.req (lib/ocpp/v16/charge_point_impl.cpp). Model only.

    Simplified: certificates, hashes and signing requests are strings or numbers; JSON in the data of a DataTransfer is read
    by oracles (parsers are modelled in the Json and Ser files) and answers are structured values instead of dumped text; the
    certificate store (evse_security) is an oracle that may throw. Texts for the log and the technical info of security
    events are left out. *)
From Coq Require Import ZArith String List Bool.
Import ListNotations.
Local Open Scope string_scope.
Local Open Scope list_scope.
Local Open Scope Z_scope.

(** * DataTransfer.req *)

(** DataTransferStatus (include/ocpp/v16/ocpp_enums.hpp). *)
Inductive dts := DAccepted | DRejected | DUnknownMessageId | DUnknownVendorId.
Definition dts_eqb (a b : dts) : bool :=
  match a, b with DAccepted, DAccepted | DRejected, DRejected | DUnknownMessageId, DUnknownMessageId | DUnknownVendorId, DUnknownVendorId => true | _, _ => false end.

(** DataTransferRequest (include/ocpp/v16/messages/DataTransfer.hpp): vendorId, messageId, data. *)
Record req := { vendor : string; message : option string; data : option string }.

(** lib/ocpp/v16/charge_point_impl.cpp:27. *)
Definition pnc_vendor : string := "org.openchargealliance.iso15118pnc".

(** InstallCertificateResult and DeleteCertificateResult (include/ocpp/common/types.hpp), the answers of the certificate store. *)
Inductive inst := InvalidSignature | InvalidCertificateChain | InvalidFormat | InvalidCommonName | NoRootCertificateInstalled
  | Expired | CertificateStoreMaxLengthExceeded | WriteError | IAccepted.
Inductive del := DelAccepted | DelFailed | DelNotFound.
(** The enums of the answers: InstallCertificateStatus (Accepted, Rejected, Failed). *)
Inductive ist := SAccepted | SRejected | SFailed.
(** CertificateSigningUseEnum of OCPP 2.0.1. *)
Inductive use := UStation | UV2G.
(** The kinds of certificates asked for or installed: GetCertificateIdUseEnum, CertificateType (common types), InstallCertificateUseEnum,
    CaCertificateType; OCPP 1.6 only has the central system and the manufacturer. *)
Inductive kind := KV2GRoot | KMORoot | KCsmsRoot | KMfRoot | KOemRoot | KV2GChain.

(** What the data of a DataTransfer answer holds. *)
Inductive payload := PTrigger | PNoName | PSigned (ok : bool) | PIds (l : list string) | PNoIds | PDelete (d : del) | PInstall (s : ist) | PText (t : string).

(** Security events that occur here (include/ocpp/common/constants / types). *)
Inductive sev := InvalidChargePointCertificate | InvalidCentralSystemCertificate | CsrGenerationFailed.

(** Observable effects. *)
Inductive out :=
| OConf (s : dts) (p : option payload)                  (* DataTransfer.conf *)
| OCallError                                            (* an exception left the handler: message_callback sends a CALLERROR *)
| ORun (cb : Z) (d : option string)                     (* a registered callback is called *)
| ORunGeneral (r : req)                                 (* the general callback is called *)
| OUpdateLeaf (u : use) (chain : string)                (* evse_security->update_leaf_certificate *)
| OInstalled (ks : list kind)                           (* evse_security->get_installed_certificates *)
| ODelete (h : string)                                  (* evse_security->delete_certificate *)
| OInstall (k : kind) (cert : string)                   (* evse_security->install_ca_certificate *)
| OCsr (u : use) (name : string)                        (* evse_security->generate_certificate_signing_request *)
| OSignDt (csr : string)                                (* DataTransfer.req(SignCertificate), not as triggered *)
| OSign (csr : string) (triggered : bool)               (* SignCertificate.req *)
| OEvent (e : sev) (forced : bool)                      (* securityEventNotification, triggered internally *)
| OOcspNow                                              (* the OCSP timer is set to now *)
| OSigned (ok : bool)                                   (* CertificateSigned.conf *)
| OIds (l : option (list string))                       (* GetInstalledCertificateIds.conf: NotFound, or Accepted with the list *)
| ODeleted (d : del)                                    (* DeleteCertificate.conf *)
| OInstalledConf (s : ist)                              (* InstallCertificate.conf *)
| OReconnect                                            (* websocket->reconnect(1000) *)
| OStatusReq (c : string)                               (* DataTransfer.req(GetCertificateStatus) *)
| OOcspCache (c r : string).                            (* evse_security->update_ocsp_cache *)

(** What the configuration, the JSON parsers and the certificate store answer; [None] of the store is an exception. *)
Record env := {
  pnc_profile : bool;                                   (* SupportedFeatureProfiles has PnC *)
  cert_mgmt : bool;                                     (* ISO15118CertificateManagementEnabled *)
  cpo_name : option string;
  organization : option string;                         (* SeccLeafSubjectOrganization *)
  csr : use -> string -> option string;                 (* the signing request, if its status is Accepted and it is there *)
  max_chain : option Z;                                 (* CertificateSignedMaxChainSize, an int *)
  sec_profile : Z;
  parse_signed : string -> option (option use * string);(* CertificateSignedRequest of 2.0.1 in data *)
  parse_ids : string -> option (option (list kind));    (* GetInstalledCertificateIdsRequest of 2.0.1 in data *)
  parse_delete : string -> option string;
  parse_install : string -> option (kind * string);
  update_leaf : use -> string -> option inst;
  installed : list kind -> option (list string);
  delete : string -> option del;
  install : kind -> string -> option inst
}.

(** is_iso15118_certificate_management_enabled, lib/ocpp/v16/charge_point_impl.cpp:3671-3674. *)
Definition mgmt (e : env) : bool := pnc_profile e && cert_mgmt e.

(** to_ocpp_v2(InstallCertificateResult), lib/ocpp/common/evse_security.cpp:59-76. *)
Definition to_status (r : inst) : ist :=
  match r with
  | InvalidSignature | InvalidCertificateChain | InvalidFormat | InvalidCommonName | NoRootCertificateInstalled | Expired
  | CertificateStoreMaxLengthExceeded => SRejected
  | WriteError => SFailed
  | IAccepted => SAccepted
  end.

Definition has {A} (o : option A) : bool := match o with Some _ => true | None => false end.
Definition or_else (o : option string) (d : string) : string := match o with Some x => x | None => d end.
Definition is_accepted (r : inst) : bool := match r with IAccepted => true | _ => false end.

(** static_cast<size_t>(int): 64 bits. *)
Definition to_size (z : Z) : Z := z mod 18446744073709551616.

(** data_transfer_pnc_sign_certificate, lib/ocpp/v16/charge_point_impl.cpp:3845-3884. *)
Definition pnc_sign (e : env) : list out :=
  if negb (has (cpo_name e)) && negb (has (organization e)) then []
  else let name := or_else (organization e) (or_else (cpo_name e) "DEFAULT") in
    OCsr UV2G name :: match csr e UV2G name with None => [OEvent CsrGenerationFailed false] | Some c => [OSignDt c] end.

(** handle_data_transfer_pnc_trigger_message, 4009-4034. *)
Definition pnc_trigger (e : env) (r : req) : list out :=
  if has (cpo_name e) || has (organization e) then OConf DAccepted (Some PTrigger) :: pnc_sign e
  else [OConf DRejected (Some PNoName)].

(** handle_data_transfer_pnc_certificate_signed, 4036-4103. An exception of the store is caught at 4097 with the status
    Accepted already written at 4049. *)
Definition pnc_signed (e : env) (r : req) : list out :=
  match data r with
  | None => [OConf DRejected None]
  | Some d =>
    match parse_signed e d with
    | None => [OConf DRejected None]
    | Some (u, chain) =>
      let wrong_use := match u with Some UStation => true | _ => false end in
      let too_long := match max_chain e with Some m => to_size m <? Z.of_nat (String.length chain) | None => false end in
      if wrong_use || too_long then [OConf DAccepted (Some (PSigned false)); OEvent InvalidChargePointCertificate false]
      else OUpdateLeaf UV2G chain ::
        match update_leaf e UV2G chain with
        | None => [OConf DAccepted None]
        | Some x => if is_accepted x then [OConf DAccepted (Some (PSigned true)); OOcspNow]
                    else [OConf DAccepted (Some (PSigned false)); OEvent InvalidChargePointCertificate false]
        end
    end
  end.

(** handle_data_transfer_pnc_get_installed_certificates, 4105-4155. *)
Definition pnc_ids (e : env) (r : req) : list out :=
  match data r with
  | None => [OConf DRejected None]
  | Some d =>
    match parse_ids e d with
    | None => [OConf DRejected None]
    | Some ks => let kinds := match ks with Some l => l | None => [] end in
      OInstalled kinds :: match installed e kinds with
                          | None => [OConf DRejected None]
                          | Some [] => [OConf DAccepted (Some PNoIds)]
                          | Some l => [OConf DAccepted (Some (PIds l))]
                          end
    end
  end.

(** handle_data_transfer_delete_certificate, 4157-4184. *)
Definition pnc_delete (e : env) (r : req) : list out :=
  match data r with
  | None => [OConf DRejected None]
  | Some d =>
    match parse_delete e d with
    | None => [OConf DRejected None]
    | Some h => ODelete h :: match delete e h with None => [OConf DRejected None] | Some x => [OConf DAccepted (Some (PDelete x))] end
    end
  end.

(** handle_data_transfer_install_certificate, 4186-4211. *)
Definition pnc_install (e : env) (r : req) : list out :=
  match data r with
  | None => [OConf DRejected None]
  | Some d =>
    match parse_install e d with
    | None => [OConf DRejected None]
    | Some (k, c) => OInstall k c :: match install e k c with None => [OConf DRejected None] | Some x => [OConf DAccepted (Some (PInstall (to_status x)))] end
    end
  end.

(** The table data_transfer_pnc_callbacks, filled in the constructor (184-211). *)
Definition pnc_handler (m : string) : option (env -> req -> list out) :=
  if String.eqb m "TriggerMessage" then Some pnc_trigger
  else if String.eqb m "CertificateSigned" then Some pnc_signed
  else if String.eqb m "GetInstalledCertificateIds" then Some pnc_ids
  else if String.eqb m "DeleteCertificate" then Some pnc_delete
  else if String.eqb m "InstallCertificate" then Some pnc_install
  else None.

(** The callbacks of the application: data_transfer_callbacks and data_transfer_callback. A callback is a number; what it
    answers is told with each call. The three callbacks for California pricing (214-232) are registered the same way. *)
Record dt_state := { explicit : list (string * string * Z); general : bool }.

(** register_data_transfer_callback, 4259-4264: map[vendor][message] = callback. *)
Definition register (s : dt_state) (v m : string) (cb : Z) : dt_state :=
  {| explicit := (v, m, cb) :: explicit s; general := general s |}.
(** register_data_transfer_callback (general), 4266-4269. *)
Definition register_general (s : dt_state) : dt_state := {| explicit := explicit s; general := true |}.

(** std::map::count(vendorId) and count(messageId) / operator[]. *)
Definition knows_vendor (s : dt_state) (v : string) : bool := existsb (fun '(v', _, _) => String.eqb v' v) (explicit s).
Definition lookup (s : dt_state) (v m : string) : option Z :=
  match find (fun '(v', m', _) => (String.eqb v' v) && (String.eqb m' m)) (explicit s) with Some (_, _, cb) => Some cb | None => None end.

(** What a callback answers, [None] if it throws. *)
Definition answer := option (dts * option payload).

(** handleDataTransferRequest, 2078-2125. *)
Definition data_transfer (e : env) (s : dt_state) (r : req) (own : Z -> answer) (gen : answer) : list out :=
  let m := or_else (message r) "" in
  let finish (pre : list out) (st : dts) (p : option payload) : list out :=
    if (dts_eqb st DUnknownVendorId || dts_eqb st DUnknownMessageId) && general s
    then pre ++ ORunGeneral r :: match gen with None => [OCallError] | Some (st', p') => [OConf st' p'] end
    else pre ++ [OConf st p] in
  if (String.eqb (vendor r) pnc_vendor) && negb (mgmt e) then finish [] DUnknownVendorId None
  else if String.eqb (vendor r) pnc_vendor then
    match pnc_handler m with Some h => h e r | None => finish [] DUnknownMessageId None end
  else if negb (knows_vendor s (vendor r)) then finish [] DUnknownVendorId None
  else match lookup s (vendor r) m with
       | None => finish [] DUnknownMessageId None
       | Some cb => match own cb with
                    | None => [ORun cb (data r); OCallError]
                    | Some (st, p) => finish [ORun cb (data r)] st p
                    end
       end.

Inductive dt_op :=
| Register (v m : string) (cb : Z)
| RegisterGeneral
| Receive (r : req) (own : Z -> answer) (gen : answer).

Definition dt_step (e : env) (s : dt_state) (o : dt_op) : dt_state * list out :=
  match o with
  | Register v m cb => (register s v m cb, [])
  | RegisterGeneral => (register_general s, [])
  | Receive r own gen => (s, data_transfer e s r own gen)
  end.

(** * The certificate requests of the security extension *)

(** sign_certificate, 2812-2857. *)
Definition sign (e : env) (u : use) (triggered : bool) : list out :=
  match cpo_name e with
  | None => [OEvent CsrGenerationFailed false]
  | Some n => OCsr u n :: match csr e u n with None => [OEvent CsrGenerationFailed false] | Some c => [OSign c triggered] end
  end.

(** handleCertificateSignedRequest, 2873-2903. *)
Definition signed (e : env) (chain : string) : list out :=
  OUpdateLeaf UStation chain ::
  match update_leaf e UStation chain with
  | None => [OCallError]
  | Some x => OSigned (is_accepted x) ::
      (if is_accepted x then if sec_profile e =? 3 then [OReconnect] else [] else [OEvent InvalidChargePointCertificate true])
  end.

(** CertificateUseEnumType of OCPP 1.6. *)
Inductive use16 := CentralSystemRoot | ManufacturerRoot.

(** handleGetInstalledCertificateIdsRequest, 2905-2937. *)
Definition get_ids (e : env) (u : use16) : list out :=
  let ks := match u with CentralSystemRoot => [KCsmsRoot] | ManufacturerRoot => [KMfRoot] end in
  OInstalled ks :: match installed e ks with None => [OCallError] | Some [] => [OIds None] | Some l => [OIds (Some l)] end.

(** handleDeleteCertificateRequest, 2939-2952. *)
Definition delete_cert (e : env) (h : string) : list out :=
  ODelete h :: match delete e h with None => [OCallError] | Some d => [ODeleted d] end.

(** handleInstallCertificateRequest, 2954-2985. *)
Definition install_cert (e : env) (u : use16) (cert : string) : list out :=
  let k := match u with CentralSystemRoot => KCsmsRoot | ManufacturerRoot => KMfRoot end in
  OInstall k cert ::
  match install e k cert with
  | None => [OCallError]
  | Some x => let s := match x with IAccepted => SAccepted | WriteError => SFailed | _ => SRejected end in
      OInstalledConf s :: match s with SRejected => [OEvent InvalidCentralSystemCertificate false] | _ => [] end
  end.

(** What comes of a DataTransfer.req(GetCertificateStatus) (data_transfer_pnc_get_certificate_status, 3945-4007): nothing in
    time, offline, no data or something unreadable; read, with its status and result. *)
Inductive status_answer := NoAnswer | Read (accepted : bool) (result : option string).
Definition get_status (c : string) (a : status_answer) : list out :=
  OStatusReq c :: match a with Read true (Some r) => [OOcspCache c r] | _ => [] end.
(** update_ocsp_cache, 2859-2871. *)
Definition update_ocsp (certs : list string) (ans : string -> status_answer) : list out :=
  flat_map (fun c => get_status c (ans c)) certs.

(** * DataTransfer.req sent by the application *)

(** What comes of the future: not ready in time; a DataTransfer.conf that can or cannot be read; something else; [offline] is the
    flag of the message the queue hands over. *)
Inductive reply := Late | Conf (a : option (dts * option payload)) (offline : bool) | Other (offline : bool).
(** data_transfer, 4213-4257: the call is given to the queue first; [connected] is websocket->is_connected(). *)
Definition send_dt (connected : bool) (a : reply) : option (dts * option payload) :=
  if negb connected then None
  else match a with
       | Late => None
       | Conf x off => if off then None else Some (match x with Some y => y | None => (DRejected, None) end)
       | Other off => if off then None else Some (DRejected, None)
       end.
