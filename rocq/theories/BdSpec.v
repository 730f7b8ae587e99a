(** What is said about allowed energy transfer, charging needs and DataTransfer. *)
From Coq Require Import String ZArith List.
From Verif Require Import StrSpec BdModel.
Import ListNotations.
Local Open Scope string_scope.
Local Open Scope list_scope.
Local Open Scope Z_scope.

(** The EVSE has this transaction, upper and lower case being the same. *)
Definition has (t : string) (e : evse) : Prop := exists u, e_transaction e = Some u /\ same_text t u.
(** The transaction runs at this EVSE; the first one counts. *)
Inductive RunsAt (t : string) : list evse -> Z -> Prop :=
| runs_here e l : has t e -> RunsAt t (e :: l) (e_id e)
| runs_later e l n : ~ has t e -> RunsAt t l n -> RunsAt t (e :: l) n.

Definition speaks_iso20 (p : option string) : Prop := exists a b, p = Some (a ++ "urn:iso:std:iso:15118:-20" ++ b)%string.

(** Why a request fails, in this order. *)
Definition no_v2x (evses : list evse) (c : setting) (r : transfer_req) : Prop :=
  forall e, RunsAt (t_transaction r) evses e -> v2x_enabled c e <> Some true.
Definition no_renegotiation (c : setting) (e : Z) : Prop := ~ speaks_iso20 (protocol_agreed c e) \/ renegotiation c e <> Some true.
(** The service may be renegotiated at this EVSE. *)
Definition possible (evses : list evse) (c : setting) (r : transfer_req) : Prop :=
  exists e, RunsAt (t_transaction r) evses e /\ v2x_enabled c e = Some true /\ speaks_iso20 (protocol_agreed c e) /\ renegotiation c e = Some true.
Definition answers (o : out) : Prop := match o with Ask _ _ => False | _ => True end.
