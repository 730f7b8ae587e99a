(** C127: which functions a v2 station insists on before it starts, and what
    becomes of its calls of them afterwards. *)

From Coq Require Import List Bool ZArith.
From Verif Require Import CbModel CbSpec CbProofs.
Import ListNotations.

(** A station starts exactly when the functions it was given are complete for
    what its device model says is available. *)
Theorem C127_a_station_starts_iff_its_functions_are_complete : forall c d evses,
  (exists st, construct c d evses = Some st) <-> complete c d evses.
Proof. exact construct_iff. Qed.
Print Assumptions C127_a_station_starts_iff_its_functions_are_complete.

(** A started station uses a block it never created exactly where smart
    charging is needed and was not available at the start. *)
Theorem C127_a_missing_block_is_used_iff : forall c d0 d evses st a,
  construct c d0 evses = Some st ->
  (act st d a = NullBlock <-> takes_smart_charging d a /\ ~ is_on (smart_available d0)).
Proof. intros c d0 d evses st a H. symmetry. apply (started_ok c d0 d evses st a H). Qed.
Print Assumptions C127_a_missing_block_is_used_iff.

(** A started station calls an empty function exactly in these cases; none of
    the functions that are not optional is among them. *)
Theorem C127_an_empty_function_is_called_iff : forall c d0 d evses st a w,
  construct c d0 evses = Some st ->
  (act st d a = BadCall w <-> exists n, w = O n /\ may_call_hollow c d0 d evses a n).
Proof. intros c d0 d evses st a w H. symmetry. apply (started_ok c d0 d evses st a H). Qed.
Print Assumptions C127_an_empty_function_is_called_iff.

(** So with smart charging available at the start, the connection state and
    energy transfer functions not hollow, and the availability of costs as it
    was, every action goes through. *)
Theorem C127_no_call_fails_partial : forall c d0 d evses st a,
  construct c d0 evses = Some st ->
  is_on (smart_available d0) ->
  opt c ConnectionState <> Some Empty ->
  opt c UpdateEnergyTransfer <> Some Empty ->
  (is_on (cost_available d) -> is_on (cost_available d0)) ->
  act st d a <> NullBlock /\ (forall w, act st d a <> BadCall w).
Proof.
  intros c d0 d evses st a H Hs Hc Hu Hk. split.
  - intros X. apply (C127_a_missing_block_is_used_iff _ _ _ _ _ _ H) in X. tauto.
  - intros w X. apply (C127_an_empty_function_is_called_iff _ _ _ _ _ _ _ H) in X.
    destruct X as [n [_ [E Y]]].
    destruct a as [?|?|? ? ?|?|?|? []| | | | |?| | |?| |?| |]; cbn in Y; try contradiction;
      destruct n; try contradiction; try congruence; destruct Y as [Y1 [Y2 Y3]]; auto.
Qed.
Print Assumptions C127_no_call_fails_partial.

(** The functions an action calls are the ones meant for it, in order. *)
Theorem C127_the_right_functions_are_called : forall c d0 d evses st a l,
  construct c d0 evses = Some st ->
  act st d a = Calls l -> expected c d0 d a l.
Proof. intros c d0 d evses st a l H. apply (started_ok c d0 d evses st a H). Qed.
Print Assumptions C127_the_right_functions_are_called.

(** A request is answered NotImplemented exactly when it belongs to a block that
    was not available at the start ... *)
Theorem C127_not_implemented_iff : forall c d0 d evses st a,
  construct c d0 evses = Some st ->
  (act st d a = NotImplemented <-> exists P, block_for d0 evses a = Some P /\ ~ P).
Proof. intros c d0 d evses st a H. symmetry. apply (started_ok c d0 d evses st a H). Qed.
Print Assumptions C127_not_implemented_iff.

(** ... and rejected unasked exactly when reservation is off now or the function
    to ask was not given. *)
Theorem C127_rejected_unasked_iff : forall c d0 d evses st a,
  construct c d0 evses = Some st ->
  (act st d a = Rejects <-> nothing_to_ask c d0 d evses a).
Proof. intros c d0 d evses st a H. symmetry. apply (started_ok c d0 d evses st a H). Qed.
Print Assumptions C127_rejected_unasked_iff.

(** ** Cases *)

Definition all_given : callbacks := {| mand := fun _ => Given; opt := fun _ => Some Given |}.
Definition only_plain : callbacks := {| mand := fun _ => Given; opt := fun _ => None |}.
Definition full : dm :=
  {| display_available := Some true; cost_available := Some true; cost_enabled := Some true;
     tariff_available := Some true; tariff_enabled := Some true;
     reservation_available := Some true; reservation_enabled := Some true;
     smart_available := Some true; smart_enabled := Some true; iso_available := Some true;
     v2x_available := fun e => if Z.eqb e 2 then Some true else None |}.
Definition bare : dm :=
  {| display_available := Some false; cost_available := None; cost_enabled := None;
     tariff_available := None; tariff_enabled := None;
     reservation_available := None; reservation_enabled := None;
     smart_available := None; smart_enabled := Some true; iso_available := None;
     v2x_available := fun _ => None |}.
Definition without (c : callbacks) (o : ocb) (v : option fn) : callbacks :=
  {| mand := mand c;
     opt := fun n => match n, o with
                     | ConnectionState, ConnectionState | UpdateEnergyTransfer, UpdateEnergyTransfer
                     | RunningCost, RunningCost | SetDisplay, SetDisplay
                     | TariffMessage, TariffMessage | TimeSync, TimeSync
                     | CancelReservation, CancelReservation => v
                     | _, _ => opt c n end |}.

Example C127_a_full_station_starts :
  construct all_given full [1; 2]%Z <> None /\ construct only_plain bare [1]%Z <> None.
Proof. vm_compute. split; discriminate. Qed.
Example C127_stations_that_do_not_start :
  map (fun c => construct c full [1; 2]%Z)
      [only_plain; without all_given RunningCost None; without all_given TimeSync (Some Empty);
       without all_given CancelReservation (Some Empty); without all_given UpdateEnergyTransfer None]
  = [None; None; None; None; None].
Proof. reflexivity. Qed.
Example C127_a_full_station_at_work :
  map (act (initialize all_given full [1; 2]%Z) full)
      [AReset true false 2; AReset true true 1; AFinish true; ARemoteStart true;
       ACostAndTariff true true; ADisplay ClearMessage; AReserve; AEnergy]
  = [Calls [M IsResetAllowed; M StopTransaction; M StopTransaction; M Reset];
     Calls [M IsResetAllowed]; Calls [O TransactionEvent; M Reset]; Calls [M RemoteStart];
     Calls [O RunningCost]; Calls [O ClearDisplay]; Calls [O ReserveNow];
     Calls [O UpdateEnergyTransfer]].
Proof. reflexivity. Qed.
Example C127_the_hypotheses_of_no_call_fails_hold :
  construct all_given full [1; 2]%Z = Some (initialize all_given full [1; 2]%Z) /\
  is_on (smart_available full) /\ opt all_given ConnectionState <> Some Empty /\
  opt all_given UpdateEnergyTransfer <> Some Empty.
Proof. split; [reflexivity|]. split; [reflexivity|]. split; discriminate. Qed.

(** ** What does not hold *)

(** A station without smart charging starts, and the first transaction that
    ends uses the block that is not there. *)
Theorem C127_started_stations_survive_their_transactions_refuted :
  exists c d evses st,
    construct c d evses = Some st /\ ~ is_on (smart_available d) /\
    act st d (AFinish false) = NullBlock /\ act st d ANeeds = NullBlock /\
    act st d (ARemoteStart true) = NullBlock.
Proof.
  exists only_plain, bare, [1%Z], (initialize only_plain bare [1%Z]).
  split; [reflexivity|]. split; [discriminate|]. repeat split; reflexivity.
Qed.
Print Assumptions C127_started_stations_survive_their_transactions_refuted.

(** An optional that holds an empty function is noticed at the start for most
    members, but not for these two. *)
Theorem C127_hollow_functions_are_noticed_refuted :
  exists c1 d1 st1 c2 d2 st2 evses,
    construct c1 d1 evses = Some st1 /\ act st1 d1 AConnection = BadCall (O ConnectionState) /\
    construct c2 d2 evses = Some st2 /\ act st2 d2 AEnergy = BadCall (O UpdateEnergyTransfer).
Proof.
  set (d2 := {| display_available := None; cost_available := None; cost_enabled := None;
     tariff_available := None; tariff_enabled := None;
     reservation_available := None; reservation_enabled := None;
     smart_available := Some true; smart_enabled := Some true; iso_available := Some false;
     v2x_available := fun _ => Some true |}).
  exists (without all_given ConnectionState (Some Empty)), full,
    (initialize (without all_given ConnectionState (Some Empty)) full [1; 2]%Z),
    (without all_given UpdateEnergyTransfer (Some Empty)), d2,
    (initialize (without all_given UpdateEnergyTransfer (Some Empty)) d2 [1; 2]%Z), [1; 2]%Z.
  repeat split; reflexivity.
Qed.
Print Assumptions C127_hollow_functions_are_noticed_refuted.

(** With tariffs available the station insists on the function that displays
    messages, but hands the tariff to another one, which may be missing: then
    nobody is told of it. *)
Theorem C127_available_tariffs_are_told_refuted :
  exists c d evses st,
    construct c d evses = Some st /\ tariff_on d /\
    act st d (ACostAndTariff true true) = Calls [].
Proof.
  set (d := {| display_available := None; cost_available := None; cost_enabled := None;
     tariff_available := Some true; tariff_enabled := Some true;
     reservation_available := None; reservation_enabled := None;
     smart_available := Some true; smart_enabled := Some true; iso_available := None;
     v2x_available := fun _ => None |}).
  exists (without all_given TariffMessage None), d, [1%Z],
    (initialize (without all_given TariffMessage None) d [1%Z]).
  repeat split; reflexivity.
Qed.
Print Assumptions C127_available_tariffs_are_told_refuted.
