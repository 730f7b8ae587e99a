(** Specification of the OCPP 1.6 connector status (section 4.9 of OCPP 1.6 edition 2). *)
From Coq Require Import String List ZArith Bool.
From Verif Require Import FsmModel.
Import ListNotations.
Open Scope Z_scope.

(** Row and column numbers of the state transition table: A1..I9. *)
Definition number (s : status) : nat :=
  match s with
  | Available => 1 | Preparing => 2 | Charging => 3 | SuspendedEV => 4 | SuspendedEVSE => 5 | Finishing => 6
  | Reserved => 7 | Unavailable => 8 | Faulted => 9
  end.

(** The transitions of the table, by row, without the column Faulted (faults are an overlay here). *)
Definition allowed (row : nat) : list nat :=
  match row with
  | 1 => [2; 3; 4; 5; 7; 8]
  | 2 => [1; 3; 4; 5; 6]
  | 3 => [1; 4; 5; 6; 8]
  | 4 => [1; 3; 5; 6; 8]
  | 5 => [1; 3; 4; 6; 8]
  | 6 => [1; 2; 8]
  | 7 => [1; 2; 8]
  | 8 => [1; 2; 3; 4; 5]
  | 9 => [1; 2; 3; 4; 5; 6; 7; 8]
  | _ => []
  end%nat.

(** The state an event asks for. *)
Definition target (e : event) : status :=
  match e with
  | BecomeAvailable | ReservationEnd | I1_ReturnToAvailable => Available
  | UsageInitiated | I2_ReturnToPreparing => Preparing
  | StartCharging | I3_ReturnToCharging => Charging
  | PauseChargingEV | I4_ReturnToSuspendedEV => SuspendedEV
  | PauseChargingEVSE | I5_ReturnToSuspendedEVSE => SuspendedEVSE
  | TransactionStoppedAndUserActionRequired | I6_ReturnToFinishing => Finishing
  | ReserveConnector | I7_ReturnToReserved => Reserved
  | ChangeAvailabilityToUnavailable | I8_ReturnToUnavailable => Unavailable
  end.

(** Events that only make sense in one state. *)
Definition return_event (e : event) : Prop :=
  In e [I1_ReturnToAvailable; I2_ReturnToPreparing; I3_ReturnToCharging; I4_ReturnToSuspendedEV; I5_ReturnToSuspendedEVSE;
        I6_ReturnToFinishing; I7_ReturnToReserved; I8_ReturnToUnavailable].
Definition applicable (s : status) (e : event) : Prop :=
  In (number (target e)) (allowed (number s)) /\
  (return_event e <-> s = Faulted) /\ (e = ReservationEnd -> s = Reserved).

(** One event: it moves the connector to its target if the table allows it, and is ignored otherwise. *)
Inductive moves : status -> event -> status -> Prop :=
| moves_ok s e : applicable s e -> moves s e (target e)
| moves_no s e : ~ applicable s e -> moves s e s.
Inductive runs : status -> list event -> status -> Prop :=
| runs_nil s : runs s [] s
| runs_cons s e t q u : moves s e t -> runs t q u -> runs s (e :: q) u.

(** The operations of a history that concern connector [c]. *)
Definition concerns (c : Z) (o : op) : bool :=
  match o with
  | Event d _ _ _ | Error d _ | Cleared d _ _ | AllCleared d _ => d =? c
  | _ => false
  end.
Definition history (c : Z) (os : list op) : list op := filter (concerns c) os.
Definition events (h : list op) : list event := flat_map (fun o => match o with Event _ e _ _ => [e] | _ => [] end) h.

Definition clears (u : string) (o : op) : Prop :=
  match o with Cleared _ v _ => v = u | AllCleared _ _ => True | _ => False end.

(** After history [h] the error [e] is active: it was reported, not cleared since, and no error with the same uuid was
    active when it was reported. *)
Definition active (h : list op) (e : error) : Prop :=
  exists pre d post, h = pre ++ Error d e :: post /\
    (forall o, In o post -> ~ clears (e_uuid e) o) /\
    (forall p1 d' e' p2, pre = p1 ++ Error d' e' :: p2 -> e_uuid e' = e_uuid e -> exists o, In o p2 /\ clears (e_uuid e) o).

Fixpoint final (s : states) (os : list op) : states :=
  match os with [] => s | o :: q => final (fst (step s o)) q end.
Fixpoint outs (s : states) (os : list op) : list out :=
  match os with [] => [] | o :: q => snd (step s o) ++ outs (fst (step s o)) q end.

Definition no_reset (os : list op) : Prop := forall m, ~ In (Reset m) os.

(** A usable start: connectors 0..n with their stored status. *)
Definition station (n : nat) (start : Z -> status) (m : list (Z * status)) : Prop :=
  (length m = S n) /\ (forall c, 0 <= c <= Z.of_nat n -> In (c, start c) m) /\ NoDup (map fst m) /\
  In (start 0) [Available; Unavailable; Faulted].

(** The notifications of a connector. *)
Definition notes (c : Z) (l : list out) : list note :=
  flat_map (fun x => match x with Notify d n => if d =? c then [n] else [] | _ => [] end) l.

(** What the CSMS knows after the notifications [l], when it knew [k] before. *)
Definition told (k : status) (l : list note) : status := last (map n_status l) k.

(** ** Single operations *)

(** The state machine of connector [c]. *)
Definition machine_at (s : states) (c : Z) (f : fsm) : Prop :=
  (c = 0 /\ zero s = Some f) \/ (0 < c /\ nth_error (machines s) (Z.to_nat (c - 1)) = Some f).

Definition fault_active (f : fsm) : Prop := exists e, In e (f_errors f) /\ e_fault e = true.
(** A most recent active error. *)
Definition newest (f : fsm) (e : error) : Prop := In e (f_errors f) /\ forall x, In x (f_errors f) -> e_ts x <= e_ts e.

(** The error part of a notification: that of a newest active error, or NoError. *)
Definition reports_newest (f : fsm) (n : note) : Prop :=
  (f_errors f = [] /\ n_code n = NoError /\ n_vendor n = None /\ n_vcode n = None) \/
  (exists e, newest f e /\ n_code n = e_code e /\ n_vendor n = e_vendor e /\ n_vcode n = e_vcode e).

(** [stored] is [given], cut to [n] characters when it is longer. *)
Definition fits (n : nat) (given stored : option string) : Prop :=
  match stored with
  | None => given = None
  | Some t => exists x, given = Some x /\ (String.length x <= n -> t = x)%nat /\
      (n < String.length x -> String.length t = n /\ exists r, x = (t ++ r)%string)%nat
  end.
