(** * What it means that certificate data stay the same *)
From Coq Require Import List String Arith.
From Verif Require Import EsModel.
Import ListNotations.

(** Algorithms by their number of bits. *)
Definition bits_m (a : malg) : nat := match a with M256 => 256 | M384 => 384 | M512 => 512 end.
Definition bits_v (a : valg) : nat := match a with V256 => 256 | V384 => 384 | V512 => 512 end.

(** What a certificate is for. *)
Inductive purpose := ForV2G | ForMO | ForCSMS | ForV2GChain | ForManufacturer | ForOEM.
Definition purpose_m (k : mkind) : purpose :=
  match k with MV2GRoot => ForV2G | MMORoot => ForMO | MCSMSRoot => ForCSMS
             | MV2GChain => ForV2GChain | MMFRoot => ForManufacturer end.
Definition purpose_v (k : vkind) : purpose :=
  match k with VV2GRoot => ForV2G | VMORoot => ForMO | VCSMSRoot => ForCSMS
             | VV2GChain => ForV2GChain | VManufacturerRoot => ForManufacturer | VOEMRoot => ForOEM end.
Definition purpose_mca (k : mca) : purpose :=
  match k with MCaV2G => ForV2G | MCaMO => ForMO | MCaCSMS => ForCSMS | MCaMF => ForManufacturer end.
Definition purpose_vca (k : vca) : purpose :=
  match k with VCaV2G => ForV2G | VCaMO => ForMO | VCaCSMS => ForCSMS
             | VCaManufacturer => ForManufacturer | VCaOEM => ForOEM end.

(** The CSMS is told the same as the security module said. *)
Definition same_hash (m : mhash) (v : vhash) : Prop :=
  bits_v (v_alg v) = bits_m (m_alg m) /\ v_name v = m_name m /\ v_key v = m_key m /\ v_serial v = m_serial m.
(** No empty list of children is sent. *)
Definition same_chain (m : mchain) (v : vchain) : Prop :=
  purpose_v (v_kind v) = purpose_m (m_kind m) /\ same_hash (m_hash m) (v_hash v) /\
  match v_children v with
  | Some l => l <> [] /\ Forall2 same_hash (m_children m) l
  | None => m_children m = []
  end.

(** What OCPP has room for. *)
Definition fits (h : mhash) : Prop :=
  String.length (m_name h) <= 128 /\ String.length (m_key h) <= 128 /\ String.length (m_serial h) <= 40.
Definition chain_fits (c : mchain) : Prop := fits (m_hash c) /\ Forall fits (m_children c).

(** What the CSMS is told of a request for status data. *)
Definition same_ocsp (m : mocsp) (v : vocsp) : Prop :=
  exists h, mo_hash m = Some h /\
    bits_v (vo_alg v) = bits_m (m_alg h) /\ vo_name v = m_name h /\ vo_key v = m_key h /\
    vo_serial v = m_serial h /\
    vo_url v = match mo_url m with Some u => u | None => ""%string end.
Definition ocsp_fits (m : mocsp) : Prop :=
  (forall h, mo_hash m = Some h -> fits h) /\
  (forall u, mo_url m = Some u -> String.length u <= 2000).
