(** What is expected of the availability of connectors, told from what has happened (the latest first). *)
From Coq Require Import ZArith List Bool.
From Verif Require Import Av16Model.
Import ListNotations.
Local Open Scope list_scope.
Local Open Scope Z_scope.

Definition history := list op.
Definition connector (n : nat) (c : Z) : Prop := 1 <= c <= Z.of_nat n.
(** The request c addresses the connector d. *)
Definition addresses (n : nat) (c d : Z) : Prop := (c = 0 /\ 0 <= d <= Z.of_nat n) \/ (c = d /\ connector n d).

(** The states of an update without and after which there is nothing more to tell. *)
Definition plain_states := [Downloaded; DownloadFailed; Downloading; Idle; InstallationFailed; Installing; Installed].
Definition last_states := [InstallationFailed; Installed; InvalidSignature; InstallVerificationFailed; DownloadFailed].
(** The state a trigger makes the station tell again. *)
Inductive told (signed : bool) : history -> fw -> Prop :=
| to_nil : told signed [] Idle
| to_boot h : told signed (Boot :: h) Idle
| to_now st active h : signed = true \/ In st plain_states -> ~ In st last_states -> told signed (Firmware signed st active :: h) st
| to_over st active h : In st last_states -> told signed (Firmware signed st active :: h) Idle
| to_same o h st : told signed h st -> o <> Boot ->
    (forall st' active, o = Firmware signed st' active -> signed = false /\ ~ In st' plain_states /\ ~ In st' last_states) -> told signed (o :: h) st.

(** A new firmware waits for the connectors: it has been told that it was downloaded (or its signature verified) and not that
    it has failed since. *)
Inductive waits : history -> Prop :=
| w_plain active h : waits (Firmware false Downloaded active :: h)
| w_signed active h : waits (Firmware true SignatureVerified active :: h)
| w_again_plain active h : told false h Downloaded -> waits (TriggerFw false active :: h)
| w_again_signed active h : told true h SignatureVerified -> waits (TriggerFw true active :: h)
| w_same o h : waits h -> o <> Boot ->
    (forall active, o <> Firmware false DownloadFailed active /\ o <> Firmware false InstallationFailed active /\
       o <> Firmware true DownloadFailed active /\ o <> Firmware true InstallationFailed active /\
       o <> Firmware true InstallVerificationFailed active /\ o <> Firmware true InvalidSignature active) -> waits (o :: h).

(** The event after which, if firmware waits, connectors are made unavailable, with the active transactions. *)
Inductive claims : op -> (Z -> bool) -> Prop :=
| cl_stop c active : claims (StopConf c active) active
| cl_signed st active : claims (Firmware true st active) active
| cl_plain st active : In st plain_states -> claims (Firmware false st active) active
| cl_trigger signed active : claims (TriggerFw signed active) active.

(** The event at which what is owed to a connector is done. *)
Definition pays (o : op) (c : Z) : Prop := o = Ended c \/ exists active, o = StopConf (Some c) active.

(** The change owed to connector c: that of the last request that met it busy, or that of the waiting firmware if that met it
    with an active transaction later. *)
Inductive owed (n : nat) : history -> Z -> avail -> bool -> Prop :=
| ow_request c d t busy h : addresses n c d -> 1 <= d -> busy d = true -> owed n (Change c t busy :: h) d t true
| ow_firmware o active h d : claims o active -> waits (o :: h) -> connector n d -> active d = true -> owed n (o :: h) d Inoperative false
| ow_same o h d t p : owed n h d t p -> ~ pays o d -> o <> Boot ->
    (forall c t busy, o = Change c t busy -> addresses n c d -> busy d = false) ->
    (forall active, claims o active -> waits (o :: h) -> connector n d -> active d = false) -> owed n (o :: h) d t p.

(** The availability wanted of connector c: that of the last request that addresses it, or the first one known. *)
Fixpoint wanted (n : nat) (d0 : Z -> option avail) (h : history) (d : Z) : option avail :=
  match h with
  | [] => d0 d
  | Change c t _ :: h =>
      if ((c =? 0) || (c =? d)) && (0 <=? d) && (d <=? Z.of_nat n) then Some t else wanted n d0 h d
  | _ :: h => wanted n d0 h d
  end.

(** A history in which no firmware is owed to a connector at a request and no request finds a connector free to which an older
    change is still owed. *)
Inductive tidy (n : nat) : history -> Prop :=
| td_nil : tidy n []
| td_change c t busy h : tidy n h -> (forall d a p, owed n h d a p -> p = true) ->
    (forall d a p, addresses n c d -> owed n h d a p -> busy d = true) -> tidy n (Change c t busy :: h)
| td_other o h : tidy n h -> (forall c t busy, o <> Change c t busy) -> tidy n (o :: h).

(** The history of a run. *)
Inductive happened (n : nat) (d0 : Z -> option avail) : av -> history -> Prop :=
| hap_new : happened n d0 (init d0) []
| hap_step s h o : happened n d0 s h -> happened n d0 (fst (step n s o)) (o :: h).

(** The connectors in their order. *)
Definition in_order (n : nat) : list Z := map Z.of_nat (seq 1 n).
(** What is done to make connector c (un)available. *)
Definition commands (a : avail) (c : Z) : list out :=
  match c, a with
  | 0, Operative => [OZero Operative; OEnable 0]
  | 0, Inoperative => [OZero Inoperative; ODisable 0]
  | _, Operative => [OEnable c]
  | _, Inoperative => [ODisable c]
  end.
(** What is done when firmware waits: the connectors without a transaction are made unavailable; if all are, that is told. *)
Definition wave (n : nat) (active : Z -> bool) : list out :=
  map ODisable (filter (fun c => negb (active c)) (in_order n)) ++ (if forallb (fun c => negb (active c)) (in_order n) then [OAll] else []).
