(** * Certificate data between the CSMS and the security module

    Model of the conversions of lib/ocpp/common/evse_security_impl.cpp (between the
    types of libevse-security and the common ones) and lib/ocpp/common/evse_security.cpp
    (between the common types and those of OCPP 2.x), and of the handlers of
    lib/ocpp/v2/functional_blocks/security.cpp that use both. The security module is a
    function. A thrown exception is [Threw]; reading a field nobody assigned is
    [Undefined]. Names starting with M are of libevse-security, with C common and
    with V of OCPP 2.x. Not modelled: customData (never set), security events, logs,
    the file and CSR functions, from_ocpp_v2 of OCSPRequestData (not called). *)
From Coq Require Import List String Arith.
Import ListNotations.

Inductive outcome (A : Type) : Type :=
| Ok (a : A)
| Threw
| Undefined.
Arguments Ok {A} a.
Arguments Threw {A}.
Arguments Undefined {A}.

(** Sequencing of statements that may throw. *)
Definition bind {A B : Type} (o : outcome A) (f : A -> outcome B) : outcome B :=
  match o with
  | Ok a => f a
  | Threw => Threw
  | Undefined => Undefined
  end.

(** The loops push_back(convert(x)) over a vector, e.g. evse_security_impl.cpp 68-71, 78-80. *)
Fixpoint each {A B : Type} (f : A -> outcome B) (l : list A) : outcome (list B) :=
  match l with
  | [] => Ok []
  | x :: l' => bind (f x) (fun y => bind (each f l') (fun r => Ok (y :: r)))
  end.

(** The enumerations: libevse-security as the switches of evse_security_impl.cpp use them
    (180-263, 361-437); include/ocpp/common/types.hpp 449-455 and 520-700;
    include/ocpp/v2/ocpp_enums.hpp. *)
Inductive malg := M256 | M384 | M512.
Inductive calg := C256 | C384 | C512.
Inductive valg := V256 | V384 | V512.
Inductive mkind := MV2GRoot | MMORoot | MCSMSRoot | MV2GChain | MMFRoot.
Inductive ckind := CV2GRoot | CMORoot | CCSMSRoot | CV2GChain | CMFRoot | COEMRoot.
Inductive vkind := VV2GRoot | VMORoot | VCSMSRoot | VV2GChain | VManufacturerRoot | VOEMRoot.
Inductive mca := MCaV2G | MCaMO | MCaCSMS | MCaMF.
Inductive cca := CCaV2G | CCaMO | CCaCSMS | CCaMF | CCaOEM.
Inductive vca := VCaV2G | VCaMO | VCaCSMS | VCaManufacturer | VCaOEM.
Inductive minst := MInvalidSignature | MInvalidChain | MInvalidFormat | MInvalidCommonName
  | MNoRoot | MExpired | MMaxLength | MWriteError | MAccepted.
Inductive cinst := CInvalidSignature | CInvalidChain | CInvalidFormat | CInvalidCommonName
  | CNoRoot | CExpired | CMaxLength | CWriteError | CAccepted.
Inductive vinst := VRejected | VFailed | VAccepted.
Inductive mdel := MDAccepted | MDFailed | MDNotFound.
Inductive cdel := CDAccepted | CDFailed | CDNotFound.
Inductive vdel := VDAccepted | VDFailed | VDNotFound.

(** CertificateHashData / CertificateHashDataType (types.hpp 567-572, v2/ocpp_types.hpp 451-457). *)
Record mhash := { m_alg : malg; m_name : string; m_key : string; m_serial : string }.
Record chash := { c_alg : calg; c_name : string; c_key : string; c_serial : string }.
Record vhash := { v_alg : valg; v_name : string; v_key : string; v_serial : string }.
(** CertificateHashDataChain (types.hpp 606-610, v2/ocpp_types.hpp 601-606). *)
Record mchain := { m_kind : mkind; m_hash : mhash; m_children : list mhash }.
Record cchain := { c_kind : ckind; c_hash : chash; c_children : option (list chash) }.
Record vchain := { v_kind : vkind; v_hash : vhash; v_children : option (list vhash) }.
(** OCSPRequestData (types.hpp 665-671, v2/ocpp_types.hpp 82-89). The common one has no
    initial value for the algorithm: [None] is the value nobody assigned. *)
Record mocsp := { mo_hash : option mhash; mo_url : option string }.
Record cocsp := { co_alg : option calg; co_name : string; co_key : string; co_serial : string; co_url : string }.
Record vocsp := { vo_alg : valg; vo_name : string; vo_key : string; vo_serial : string; vo_url : string }.

(** CiString<n> from a std::string (include/ocpp/common/string.hpp 49-66; the check of
    the characters is not called, being a function of the base class). *)
Definition ci (n : nat) (s : string) : outcome string :=
  if n <? String.length s then Threw else Ok s.

(** to_ocpp(HashAlgorithm) (evse_security_impl.cpp 211-221). *)
Definition to_alg (a : malg) : calg := match a with M256 => C256 | M384 => C384 | M512 => C512 end.
(** to_ocpp_v2(HashAlgorithmEnumType) (evse_security.cpp 46-57). *)
Definition to_alg_v2 (a : calg) : valg := match a with C256 => V256 | C384 => V384 | C512 => V512 end.
(** from_ocpp_v2(HashAlgorithmEnum) (evse_security.cpp 191-202). *)
Definition from_alg_v2 (a : valg) : calg := match a with V256 => C256 | V384 => C384 | V512 => C512 end.
(** from_ocpp(HashAlgorithmEnumType) (evse_security_impl.cpp 427-437). *)
Definition from_alg (a : calg) : malg := match a with C256 => M256 | C384 => M384 | C512 => M512 end.

(** to_ocpp(CertificateType) (evse_security_impl.cpp 195-209). *)
Definition to_kind (k : mkind) : ckind :=
  match k with
  | MV2GRoot => CV2GRoot | MMORoot => CMORoot | MCSMSRoot => CCSMSRoot
  | MV2GChain => CV2GChain | MMFRoot => CMFRoot
  end.
(** to_ocpp_v2(CertificateType) (evse_security.cpp 10-27). *)
Definition to_kind_v2 (k : ckind) : vkind :=
  match k with
  | CV2GRoot => VV2GRoot | CMORoot => VMORoot | CCSMSRoot => VCSMSRoot
  | CV2GChain => VV2GChain | CMFRoot => VManufacturerRoot | COEMRoot => VOEMRoot
  end.
(** from_ocpp_v2(GetCertificateIdUseEnum) (evse_security.cpp 133-150). *)
Definition from_kind_v2 (k : vkind) : ckind :=
  match k with
  | VV2GRoot => CV2GRoot | VV2GChain => CV2GChain | VMORoot => CMORoot
  | VCSMSRoot => CCSMSRoot | VManufacturerRoot => CMFRoot | VOEMRoot => COEMRoot
  end.
(** from_ocpp(CertificateType) (evse_security_impl.cpp 408-425): throws for OEM. *)
Definition from_kind (k : ckind) : outcome mkind :=
  match k with
  | CV2GRoot => Ok MV2GRoot | CMORoot => Ok MMORoot | CCSMSRoot => Ok MCSMSRoot
  | CV2GChain => Ok MV2GChain | CMFRoot => Ok MMFRoot | COEMRoot => Threw
  end.
(** from_ocpp_v2(InstallCertificateUseEnum) (evse_security.cpp 161-176). *)
Definition from_ca_v2 (k : vca) : cca :=
  match k with
  | VCaV2G => CCaV2G | VCaMO => CCaMO | VCaCSMS => CCaCSMS | VCaManufacturer => CCaMF | VCaOEM => CCaOEM
  end.
(** from_ocpp(CaCertificateType) (evse_security_impl.cpp 361-376): throws for OEM. *)
Definition from_ca (k : cca) : outcome mca :=
  match k with
  | CCaV2G => Ok MCaV2G | CCaMO => Ok MCaMO | CCaCSMS => Ok MCaCSMS | CCaMF => Ok MCaMF | CCaOEM => Threw
  end.
(** to_ocpp(InstallCertificateResult) (evse_security_impl.cpp 240-263). *)
Definition to_inst (r : minst) : cinst :=
  match r with
  | MInvalidSignature => CInvalidSignature | MInvalidChain => CInvalidChain
  | MInvalidFormat => CInvalidFormat | MInvalidCommonName => CInvalidCommonName
  | MNoRoot => CNoRoot | MExpired => CExpired | MMaxLength => CMaxLength
  | MWriteError => CWriteError | MAccepted => CAccepted
  end.
(** to_ocpp_v2(InstallCertificateResult) (evse_security.cpp 59-76). *)
Definition to_inst_v2 (r : cinst) : vinst :=
  match r with
  | CInvalidSignature | CInvalidChain | CInvalidFormat | CInvalidCommonName
  | CNoRoot | CExpired | CMaxLength => VRejected
  | CWriteError => VFailed
  | CAccepted => VAccepted
  end.
(** to_ocpp(DeleteCertificateResult) (evse_security_impl.cpp 286-297). *)
Definition to_del (r : mdel) : cdel :=
  match r with MDAccepted => CDAccepted | MDFailed => CDFailed | MDNotFound => CDNotFound end.
(** to_ocpp_v2(DeleteCertificateResult) (evse_security.cpp 78-89). *)
Definition to_del_v2 (r : cdel) : vdel :=
  match r with CDAccepted => VDAccepted | CDFailed => VDFailed | CDNotFound => VDNotFound end.

(** to_ocpp(CertificateHashData) (evse_security_impl.cpp 299-306). *)
Definition to_hash (h : mhash) : outcome chash :=
  bind (ci 128 (m_name h)) (fun n =>
  bind (ci 128 (m_key h)) (fun k =>
  bind (ci 40 (m_serial h)) (fun s =>
  Ok {| c_alg := to_alg (m_alg h); c_name := n; c_key := k; c_serial := s |}))).
(** to_ocpp_v2(CertificateHashDataType) (evse_security.cpp 91-98). *)
Definition to_hash_v2 (h : chash) : vhash :=
  {| v_alg := to_alg_v2 (c_alg h); v_name := c_name h; v_key := c_key h; v_serial := c_serial h |}.
(** from_ocpp_v2(CertificateHashDataType) (evse_security.cpp 232-239). *)
Definition from_hash_v2 (h : vhash) : chash :=
  {| c_alg := from_alg_v2 (v_alg h); c_name := v_name h; c_key := v_key h; c_serial := v_serial h |}.
(** from_ocpp(CertificateHashDataType) (evse_security_impl.cpp 477-484). *)
Definition from_hash (h : chash) : mhash :=
  {| m_alg := from_alg (c_alg h); m_name := c_name h; m_key := c_key h; m_serial := c_serial h |}.

(** to_ocpp(CertificateHashDataChain) (evse_security_impl.cpp 308-321). *)
Definition to_chain (c : mchain) : outcome cchain :=
  bind (to_hash (m_hash c)) (fun h =>
  bind (each to_hash (m_children c)) (fun l =>
  Ok {| c_kind := to_kind (m_kind c); c_hash := h; c_children := Some l |})).
(** to_ocpp_v2(CertificateHashDataChain) (evse_security.cpp 100-112). *)
Definition to_chain_v2 (c : cchain) : vchain :=
  {| v_kind := to_kind_v2 (c_kind c); v_hash := to_hash_v2 (c_hash c);
     v_children := match c_children c with
                   | Some [] => None
                   | Some l => Some (map to_hash_v2 l)
                   | None => None
                   end |}.

(** to_ocpp(OCSPRequestData) (evse_security_impl.cpp 323-335). *)
Definition to_ocsp (o : mocsp) : cocsp :=
  let u := match mo_url o with Some u => u | None => ""%string end in
  match mo_hash o with
  | Some h => {| co_alg := Some (to_alg (m_alg h)); co_name := m_name h; co_key := m_key h;
                 co_serial := m_serial h; co_url := u |}
  | None => {| co_alg := None; co_name := ""%string; co_key := ""%string; co_serial := ""%string; co_url := u |}
  end.
(** to_ocpp_v2(OCSPRequestData) (evse_security.cpp 114-122). *)
Definition to_ocsp_v2 (o : cocsp) : outcome vocsp :=
  bind (ci 128 (co_name o)) (fun n =>
  bind (ci 128 (co_key o)) (fun k =>
  bind (ci 40 (co_serial o)) (fun s =>
  bind (ci 2000 (co_url o)) (fun u =>
  match co_alg o with
  | Some a => Ok {| vo_alg := to_alg_v2 a; vo_name := n; vo_key := k; vo_serial := s; vo_url := u |}
  | None => Undefined
  end)))).

(** EvseSecurityImpl::get_installed_certificates (evse_security_impl.cpp 64-82). *)
Definition get_installed (store : list mkind -> list mchain) (ks : list ckind) : outcome (list cchain) :=
  bind (each from_kind ks) (fun ms => each to_chain (store ms)).

(** What GetInstalledCertificateIds.req is answered with. *)
Inductive ids_response := NotFound | Accepted (l : list vchain).

(** Security::handle_get_installed_certificate_ids_req (v2/functional_blocks/security.cpp 343-381). *)
Definition handle_ids (store : list mkind -> list mchain) (req : option (list vkind)) : outcome ids_response :=
  let ks := match req with
            | Some l => map from_kind_v2 l
            | None => [CCSMSRoot; CMFRoot; CMORoot; CV2GChain; CV2GRoot]
            end in
  bind (get_installed store ks) (fun l =>
  match map to_chain_v2 l with
  | [] => Ok NotFound
  | l' => Ok (Accepted l')
  end).

(** Security::handle_delete_certificate_req (security.cpp 410-432) with
    EvseSecurityImpl::delete_certificate (evse_security_impl.cpp 33-36). *)
Definition handle_delete (store : mhash -> mdel) (h : vhash) : outcome vdel :=
  Ok (to_del_v2 (to_del (store (from_hash (from_hash_v2 h))))).

(** Security::should_allow_certificate_install (security.cpp 434-459); the settings are
    the security profile and the two optional booleans. *)
Definition should_allow (profile : nat) (csms mf : option bool) (k : vca) : bool :=
  if 1 <? profile then true
  else match k with
       | VCaCSMS => match csms with Some b => b | None => true end
       | VCaManufacturer => match mf with Some b => b | None => true end
       | VCaMO | VCaV2G => true
       | VCaOEM => false
       end.

(** Security::handle_install_certificate_req (security.cpp 383-408) with
    EvseSecurityImpl::install_ca_certificate (evse_security_impl.cpp 27-31). *)
Definition handle_install (store : string -> mca -> minst) (profile : nat) (csms mf : option bool)
    (cert : string) (k : vca) : outcome vinst :=
  if should_allow profile csms mf k
  then bind (from_ca (from_ca_v2 k)) (fun m => Ok (to_inst_v2 (to_inst (store cert m))))
  else Ok VRejected.

(** The data passed on in Authorize.req (v2/functional_blocks/authorization.cpp 217-218,
    EvseSecurityImpl::get_mo_ocsp_request_data, evse_security_impl.cpp 96-106, and
    to_ocpp_v2 of a vector, evse_security.cpp 124-131). *)
Definition ocsp_list (l : list mocsp) : outcome (list vocsp) := each to_ocsp_v2 (map to_ocsp l).
