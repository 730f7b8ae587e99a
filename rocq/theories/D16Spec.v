(** What ought to come of a DataTransfer.req, told from the callbacks registered before (newest first) and from what the
    certificate store says. *)
From Coq Require Import ZArith String List Bool.
From Verif Require Import D16Model.
Import ListNotations.
Local Open Scope string_scope.
Local Open Scope list_scope.
Local Open Scope Z_scope.

(** The callback last registered for a vendor and a message. *)
Inductive registered : list dt_op -> string -> string -> Z -> Prop :=
| r_now h v m cb : registered (Register v m cb :: h) v m cb
| r_before h v m cb o : registered h v m cb -> (forall cb', o <> Register v m cb') -> registered (o :: h) v m cb.

Inductive dt_happened (e : env) : dt_state -> list dt_op -> Prop :=
| dh_init : dt_happened e {| explicit := []; general := false |} []
| dh_step s h o : dt_happened e s h -> dt_happened e (fst (dt_step e s o)) (o :: h).

(** The message named, or none. *)
Definition named (r : req) (m : string) : Prop := message r = Some m \/ message r = None /\ m = "".

(** What the last word is: that of the callback asked first, unless that knows nothing and there is another to ask. *)
Definition says (a : answer) : list out := match a with Some (s, p) => [OConf s p] | None => [OCallError] end.
Definition knows_nothing (a : answer) : Prop := exists p, a = Some (DUnknownVendorId, p) \/ a = Some (DUnknownMessageId, p).

Definition is_reply (o : out) : bool :=
  match o with OConf _ _ | OCallError | OSigned _ | OIds _ | ODeleted _ | OInstalledConf _ => true | _ => false end.
Definition to_store (o : out) : Prop :=
  match o with OUpdateLeaf _ _ | OInstalled _ | ODelete _ | OInstall _ _ | OCsr _ _ => True | _ => False end.

(** A result of an installation, as the CSMS is told. *)
Definition worth (r : inst) (s : ist) : Prop := (s = SAccepted <-> r = IAccepted) /\ (s = SFailed <-> r = WriteError).

(** A chain that may be installed for ISO 15118. *)
Definition fits (e : env) (chain : string) : Prop := forall m, max_chain e = Some m -> 0 <= m -> Z.of_nat (String.length chain) <= m.
(** Whose name a certificate for ISO 15118 is asked for. *)
Definition subject (e : env) (n : string) : Prop := organization e = Some n \/ organization e = None /\ cpo_name e = Some n.

(** What the store is asked to do by the data of a message for ISO 15118. *)
Inductive asked (e : env) : string -> option string -> out -> Prop :=
| a_signed d u c : parse_signed e d = Some (u, c) -> u <> Some UStation -> fits e c -> asked e "CertificateSigned" (Some d) (OUpdateLeaf UV2G c)
| a_ids d : parse_ids e d = Some None -> asked e "GetInstalledCertificateIds" (Some d) (OInstalled [])
| a_some_ids d l : parse_ids e d = Some (Some l) -> asked e "GetInstalledCertificateIds" (Some d) (OInstalled l)
| a_delete d h : parse_delete e d = Some h -> asked e "DeleteCertificate" (Some d) (ODelete h)
| a_install d k c : parse_install e d = Some (k, c) -> asked e "InstallCertificate" (Some d) (OInstall k c)
| a_csr d n : subject e n -> asked e "TriggerMessage" d (OCsr UV2G n).

(** What the CSMS is told of it, as Accepted. *)
Inductive told (e : env) : string -> option string -> payload -> Prop :=
| t_signed d u c r : parse_signed e d = Some (u, c) -> u <> Some UStation -> fits e c -> update_leaf e UV2G c = Some r ->
    forall b, (b = true <-> r = IAccepted) -> told e "CertificateSigned" (Some d) (PSigned b)
| t_use d c : parse_signed e d = Some (Some UStation, c) -> told e "CertificateSigned" (Some d) (PSigned false)
| t_long d u c : parse_signed e d = Some (u, c) -> ~ fits e c -> told e "CertificateSigned" (Some d) (PSigned false)
| t_ids d o l : parse_ids e d = Some o -> l <> [] -> installed e (match o with Some x => x | None => [] end) = Some l -> told e "GetInstalledCertificateIds" (Some d) (PIds l)
| t_none d o : parse_ids e d = Some o -> installed e (match o with Some x => x | None => [] end) = Some [] -> told e "GetInstalledCertificateIds" (Some d) PNoIds
| t_delete d h r : parse_delete e d = Some h -> delete e h = Some r -> told e "DeleteCertificate" (Some d) (PDelete r)
| t_install d k c r s : parse_install e d = Some (k, c) -> install e k c = Some r -> worth r s -> told e "InstallCertificate" (Some d) (PInstall s)
| t_csr d n : subject e n -> told e "TriggerMessage" d PTrigger.

(** The configured size is an int, and a chain fits into memory. *)
Definition sane (e : env) : Prop := (forall m, max_chain e = Some m -> -2147483648 <= m < 2147483648) /\
  (forall d u c, parse_signed e d = Some (u, c) -> Z.of_nat (String.length c) < 9223372036854775808).
