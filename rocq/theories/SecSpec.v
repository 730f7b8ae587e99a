(** What the certificate theorems say, in terms of the calls made and what they put out. *)
From Coq Require Import ZArith String List Bool.
From Verif Require Import SecModel.
Import ListNotations.
Local Open Scope Z_scope.

Definition entry : Type := (op * list out)%type.

(** A SignCertificate.req is among what the call put out. *)
Definition asks (e : entry) : Prop := exists u r t, In (OSign u r t) (snd e).
Definition asks_nothing (e : entry) : Prop := forall u r t, ~ In (OSign u r t) (snd e).
(** The call was made by the timer. *)
Definition by_timer (e : entry) : Prop := exists csr, fst e = Fires csr.
Definition sets_timer (e : entry) : Prop := exists b, In (OTimer b) (snd e).
(** What makes the station stop waiting for a certificate: it arrived, the request was rejected, it was accepted without
    the station setting a timer, or the timer ran off. *)
Definition settles (e : entry) : Prop :=
  match fst e with
  | Signed _ _ _ | Conf false | Fires _ => True
  | Conf true => ~ sets_timer e
  | _ => False
  end.
(** What stops or uses up the timer. *)
Definition clears_timer (e : entry) : Prop :=
  match fst e with Signed _ _ _ | Fires _ | Stop => True | _ => False end.

(** Number of SignCertificate.req put out. *)
Definition is_sign (o : out) : bool := match o with OSign _ _ _ => true | _ => false end.
Fixpoint requests (t : list entry) : nat :=
  match t with [] => O | e :: q => (List.length (filter is_sign (snd e)) + requests q)%nat end.
(** Number of those neither answered nor lost, starting with [n]. *)
Fixpoint pending (n : nat) (t : list entry) : nat :=
  match t with
  | [] => n
  | e :: q => pending (match fst e with Conf _ | Lost => pred n | _ => n end + List.length (filter is_sign (snd e)))%nat q
  end.
(** The last request has been settled for certain: there was none, or since then a certificate has arrived or an outstanding
    request has been rejected. *)
Definition settled (t : list entry) : Prop :=
  Forall asks_nothing t
  \/ exists t1 e t2, t = t1 ++ e :: t2 /\ Forall asks_nothing t2 /\
       match fst e with
       | Signed _ _ _ => True
       | Conf false => (0 < pending 0 t1)%nat
       | _ => False
       end.
(** No certificate arrives before the request it belongs to was answered. *)
Definition in_order (t : list entry) : Prop :=
  forall t1 e t2, t = t1 ++ e :: t2 -> match fst e with Signed _ _ _ => pending 0 t1 = O | _ => True end.

(** The names of the certificate asked for: those of the station, or those of the ISO 15118 controller. *)
Definition configured (c : config) (u : use) (country org common : string) (tpm : bool) : Prop :=
  g_country c = Some country /\
  match u with
  | Station => g_serial c = Some common /\ g_org c = Some org /\ (tpm = true <-> g_tpm c = Some true)
  | V2G | V2G20 => g_secc c = Some common /\ g_isoorg c = Some org /\ (tpm = true <-> g_tpmleaf c = Some true)
  end.

(** Root certificates that may be installed: over a secure connection all, otherwise those the operator has not
    forbidden. *)
Definition permitted (c : config) (t : root) : Prop :=
  2 <= g_profile c
  \/ match t with
     | V2GRoot | MORoot => True
     | CSMSRoot => g_allowcsms c <> Some false
     | ManufacturerRoot => g_allowmf c <> Some false
     | OEMRoot => False
     end.

(** The application's or the CSMS's messages among what was put out. *)
Definition is_resp (o : out) : bool :=
  match o with OSignedResp _ | OInstallResp _ _ | ODeleteResp _ | OIdsResp _ _ => true | _ => false end.
(** What changes or asks the certificate store. *)
Definition is_store (o : out) : bool :=
  match o with OLeaf _ _ | OInstallCa _ _ | ODelete _ | OFetch _ => true | _ => false end.
