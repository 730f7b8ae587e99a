(** What a reset, a remote stop and an unlocking ought to do, told from what has happened (newest first). *)
From Coq Require Import ZArith List Bool.
From Verif Require Import R16Model.
Import ListNotations.
Local Open Scope list_scope.
Local Open Scope Z_scope.

(** Connector [c] has a transaction, with the id [tx] if the CSMS has answered. *)
Inductive on : list op -> Z -> option Z -> Prop :=
| on_start h c : on (Started c :: h) c None
| on_conf h c i tx : on h c i -> on (Confirmed c tx :: h) c (Some tx)
| on_keep h c i o : on h c i -> o <> Started c -> o <> Stopped c -> (forall tx, o <> Confirmed c tx) -> on (o :: h) c i.

(** Connector [c] is in the state Charging. *)
Inductive charges : list op -> Z -> Prop :=
| ch_in h c : charges (Status c true :: h) c
| ch_keep h c o : charges h c -> (forall b, o <> Status c b) -> charges (o :: h) c.

(** No connector has a transaction or is charging. *)
Definition quiet (e : env) (h : list op) : Prop :=
  forall c, 1 <= c <= Z.of_nat (n e) -> (forall i, ~ on h c i) /\ ~ charges h c.

(** A reset that the application allows. *)
Definition grants (e : env) (o : op) (t : rtype) : Prop := o = Reset t true /\ asks e = true /\ resets e = true.
Definition granted (e : env) (h : list op) : Prop := exists o t, In o h /\ grants e o t.

(** The process still runs: not destroyed, and not a second reset. *)
Inductive alive (e : env) : list op -> Prop :=
| al_nil : alive e []
| al_more h o : alive e h -> o <> Destroy -> (forall t, grants e o t -> ~ granted e h) -> alive e (o :: h).

(** A reset has been accepted and waits for the transactions. *)
Inductive waits (e : env) : list op -> rtype -> Prop :=
| w_new h o t : grants e o t -> ~ quiet e h -> waits e (o :: h) t
| w_keep h o t : waits e h t -> o <> TimeOut -> (o = StopConf \/ o = Wake -> ~ quiet e h) -> waits e (o :: h) t.

(** All that was put out, and the state it led to. *)
Inductive happened (e : env) : state -> list op -> list out -> Prop :=
| h_init : happened e init [] []
| h_step s h l o : happened e s h l -> happened e (fst (step e s o)) (o :: h) (l ++ snd (step e s o)).

Definition is_do (o : out) : bool := match o with ODoReset _ => true | _ => false end.
(** Answers to the CSMS. *)
Definition is_reply (o : out) : bool := match o with OReset _ | ORemoteStop _ | OUnlockConf _ | OCallError => true | _ => false end.
