(** Property C42: ChangeAvailability requests. *)
From Coq Require Import ZArith List Bool Lia.
From Verif Require Import TxModel TxSpec TxProofs TxProofs5 TxProofs6 TxProofs7 TxProofs8 TxProperties.
From Verif Require CsmModel.
Import ListNotations.
Local Open Scope Z_scope.
Import CsmModel (Operative, Inoperative).

(** A station with two connectors on EVSE 1 and one on EVSE 2, and a transaction on connector 1 of EVSE 1. *)
Definition charging_station : world := run (init [2; 1] true true true) [plainly (start 1 100)].
Lemma station_reachable : forall h, reachable (run (init [2; 1] true true true) h).
Proof. intros h. exists [2; 1], true, true, true, h. split; [repeat constructor; discriminate|reflexivity]. Qed.
Lemma charging_reachable : reachable charging_station.
Proof. apply station_reachable. Qed.
Lemma then_reachable : forall w k, reachable w -> reachable (step w k).
Proof.
  intros w k (con&a&b&c&h&F&E). exists con, a, b, c, (h ++ [k]). split; [exact F|]. unfold run. rewrite fold_left_app, E. reflexivity.
Qed.
Definition change (t : option (Z * option Z)) (v : CsmModel.opstat) : op := OAvail (Areq t v).

(** Executed at once when no transaction is affected: the answer is Accepted, the component has the status asked for, in
    the database too, nothing is left to be done later, and no other component's status changes. *)
Theorem change_availability_at_once :
  forall w r k, reachable w -> c_op k = OAvail r -> c_fail k = [] -> c_crash k = None ->
    exists_target (w_con w) (q_evse r) -> ~ waits_for (w_con w) (busy_of w) (q_evse r) ->
    let w1 := step w k in
    visible (added w w1) = [OAvResp Accepted] /\
    status_of (w_csm w1) (q_evse r) = q_op r /\ stored (w_csm w1) (q_evse r) = Some (q_op r) /\
    map_get (target_key (q_evse r)) (w_sched w1) = None /\
    (forall t, t <> q_evse r -> status_of (w_csm w1) t = status_of (w_csm w) t).
Proof. intros. apply request_now; auto. apply reachable_coh. assumption. Qed.
Print Assumptions change_availability_at_once.

Example change_availability_at_once_ex :
  let w := charging_station in let r := Areq (Some (2, Some 1)) Inoperative in
  reachable w /\ exists_target (w_con w) (q_evse r) /\ ~ waits_for (w_con w) (busy_of w) (q_evse r) /\
  status_of (w_csm w) (q_evse r) = Operative.
Proof.
  cbv zeta. split; [apply charging_reachable|]. split; [split; split; vm_compute; discriminate|]. vm_compute. split; [discriminate|reflexivity].
Qed.

(** Otherwise the answer is Scheduled, unless there is nothing to change or the request is to make the whole station
    operative ([station_operative_never_refuted]). The database keeps the old status for now. The components put out of
    service until then are the idle EVSEs, or the unused connectors of the EVSE; nothing else changes. *)
Theorem change_availability_scheduled :
  forall w r k, reachable w -> c_op k = OAvail r -> c_fail k = [] -> c_crash k = None ->
    exists_target (w_con w) (q_evse r) -> waits_for (w_con w) (busy_of w) (q_evse r) ->
    status_of (w_csm w) (q_evse r) <> q_op r -> (q_evse r = None -> q_op r = Inoperative) ->
    let w1 := step w k in
    visible (added w w1) = [OAvResp Scheduled] /\
    stored (w_csm w1) (q_evse r) = stored (w_csm w) (q_evse r) /\
    map_get (target_key (q_evse r)) (w_sched w1) = Some (r, true) /\
    (forall t, put_out w (q_evse r) t -> status_of (w_csm w1) t = Inoperative) /\
    (forall t, ~ put_out w (q_evse r) t -> status_of (w_csm w1) t = status_of (w_csm w) t).
Proof.
  intros w r k R O F C ET W S N. apply reachable_coh in R. destruct (request_later r w k R O F C ET W S N) as (A&(_&_&B)&D).
  destruct (request_others r w k R O F C ET W S N) as (E&G). cbv zeta. auto.
Qed.
Print Assumptions change_availability_scheduled.

Example change_availability_scheduled_ex :
  let w := charging_station in let r := Areq (Some (1, None)) Inoperative in
  reachable w /\ exists_target (w_con w) (q_evse r) /\ waits_for (w_con w) (busy_of w) (q_evse r) /\
  status_of (w_csm w) (q_evse r) <> q_op r /\ put_out w (q_evse r) (Some (1, Some 2)) /\ ~ put_out w (q_evse r) (Some (1, Some 1)).
Proof.
  cbv zeta. split; [apply charging_reachable|]. split; [split; vm_compute; discriminate|]. split; [reflexivity|].
  split; [discriminate|]. split.
  - exists 2. split; [split; vm_compute; discriminate|]. split; [|reflexivity]. intros (t&T&C). vm_compute in T. inversion T; subst. discriminate.
  - intros (c&_&U&E). injection E as <-. apply U. eexists. split; [vm_compute; reflexivity|reflexivity].
Qed.

(** A scheduled request survives any calls during which a transaction it waits for is running, failing statements
    included, unless another request for the same EVSE (or the station) or a firmware update comes; its component keeps its
    status in the database. It is executed by the very call that ends the last of these transactions. *)
Theorem scheduled_change_executed_partial :
  forall w r k0 h k, reachable w -> c_op k0 = OAvail r -> c_fail k0 = [] -> c_crash k0 = None ->
    exists_target (w_con w) (q_evse r) -> waits_for (w_con w) (busy_of w) (q_evse r) ->
    status_of (w_csm w) (q_evse r) <> q_op r -> (q_evse r = None -> q_op r = Inoperative) ->
    no_restarts h -> no_crashes h -> Forall (fun k => ~ replaces (w_con w) (q_evse r) (c_op k)) h ->
    waits_through (w_con w) (busy_of w) (q_evse r) h ->
    is_restart (c_op k) = false -> c_crash k = None -> c_fail k = [] ->
    ~ waits_for (w_con w) (track (w_con w) (busy_after (w_con w) (busy_of w) h) (c_op k)) (q_evse r) ->
    stored (w_csm (run (step w k0) h)) (q_evse r) = stored (w_csm w) (q_evse r) /\
    let w2 := step (run (step w k0) h) k in
    status_of (w_csm w2) (q_evse r) = q_op r /\ stored (w_csm w2) (q_evse r) = Some (q_op r).
Proof. intros. apply request_history; auto. apply reachable_coh. assumption. Qed.
Print Assumptions scheduled_change_executed_partial.

Example scheduled_change_executed_ex :
  let w := charging_station in let r := Areq None Inoperative in
  let h := map plainly [start 2 200; OMeter 1 true; change (Some (2, Some 1)) Inoperative; finish 1; OTrigger None] in
  let k := plainly (finish 2) in
  reachable w /\ exists_target (w_con w) (q_evse r) /\ waits_for (w_con w) (busy_of w) (q_evse r) /\
  status_of (w_csm w) (q_evse r) <> q_op r /\ no_restarts h /\ no_crashes h /\
  Forall (fun k => ~ replaces (w_con w) (q_evse r) (c_op k)) h /\ waits_through (w_con w) (busy_of w) (q_evse r) h /\
  ~ waits_for (w_con w) (track (w_con w) (busy_after (w_con w) (busy_of w) h) (c_op k)) (q_evse r) /\
  CsmModel.s_cs (w_csm (run (step w (plainly (OAvail r))) h)) = Operative.
Proof.
  cbv zeta. split; [apply charging_reachable|]. split; [exact I|].
  assert (K1 : known_evse (w_con charging_station) 1) by (split; vm_compute; discriminate).
  assert (K2 : known_evse (w_con charging_station) 2) by (split; vm_compute; discriminate).
  split; [exists 1; split; [exact K1|reflexivity]|]. split; [discriminate|]. split; [repeat constructor|]. split; [repeat constructor|].
  split; [repeat constructor; cbn; tauto|]. split.
  - cbn [map waits_through]. repeat apply conj; try exact I; try (exists 1; split; [exact K1|reflexivity]); exists 2; (split; [exact K2|reflexivity]).
  - split; [|vm_compute; reflexivity]. intros (e&K&B). destruct K as (K&L). change (Z.of_nat (length (w_con charging_station))) with 2 in L.
    assert (D : e = 1 \/ e = 2) by lia. destruct D as [-> | ->]; vm_compute in B; discriminate.
Qed.

(** A request for what is the case already is accepted and changes nothing, but it does replace a request that waits for
    the same EVSE. *)
Theorem change_to_same_status :
  forall w r k, reachable w -> c_op k = OAvail r -> c_fail k = [] -> c_crash k = None ->
    exists_target (w_con w) (q_evse r) -> waits_for (w_con w) (busy_of w) (q_evse r) ->
    status_of (w_csm w) (q_evse r) = q_op r ->
    let w1 := step w k in
    visible (added w w1) = [OAvResp Accepted] /\ w_csm w1 = w_csm w /\ map_get (target_key (q_evse r)) (w_sched w1) = None.
Proof. intros. apply request_same; auto. apply reachable_coh. assumption. Qed.
Print Assumptions change_to_same_status.

Example change_to_same_status_ex :
  let w := step charging_station (plainly (change (Some (1, None)) Inoperative)) in let r := Areq (Some (1, None)) Operative in
  reachable w /\ exists_target (w_con w) (q_evse r) /\ waits_for (w_con w) (busy_of w) (q_evse r) /\
  status_of (w_csm w) (q_evse r) = q_op r /\ map_get 1 (w_sched w) = Some (Areq (Some (1, None)) Inoperative, true).
Proof.
  cbv zeta. split.
  - apply then_reachable. apply charging_reachable.
  - split; [split; vm_compute; discriminate|]. vm_compute. auto.
Qed.

(** A request for a component that does not exist is rejected or left unanswered, and changes nothing. *)
Theorem change_of_unknown_component :
  forall w r k, reachable w -> c_op k = OAvail r -> c_crash k = None -> ~ exists_target (w_con w) (q_evse r) ->
    let w1 := step w k in
    w_csm w1 = w_csm w /\ w_sched w1 = w_sched w /\
    (visible (added w w1) = [] \/ visible (added w w1) = [OAvResp Rejected]).
Proof. intros. apply request_unknown with (r := r); auto. apply reachable_coh. assumption. Qed.
Print Assumptions change_of_unknown_component.

Example change_of_unknown_component_ex :
  reachable charging_station /\ ~ exists_target (w_con charging_station) (Some (1, Some 3)) /\
  visible (added charging_station (step charging_station (plainly (change (Some (1, Some 3)) Inoperative)))) = [OAvResp Rejected].
Proof.
  split; [apply charging_reachable|]. split; [|vm_compute; reflexivity]. intros (_&_&L). vm_compute in L. apply L. reflexivity.
Qed.

(** *** What does not hold *)

(** No answer at all: evse id 0 together with a connector, and connectorId 0 of an existing EVSE, end in exceptions. *)
Theorem unknown_component_unanswered_refuted :
  exists w r, reachable w /\ ~ exists_target (w_con w) (q_evse r) /\ added w (step w (plainly (OAvail r))) = [] /\
    q_evse r = Some (1, Some 0).
Proof.
  exists charging_station, (Areq (Some (1, Some 0)) Inoperative). split; [apply charging_reachable|].
  split; [intros (_&L&_); vm_compute in L; apply L; reflexivity|]. vm_compute. auto.
Qed.
Print Assumptions unknown_component_unanswered_refuted.
Theorem evse_zero_unanswered_refuted :
  exists w, reachable w /\ added w (step w (plainly (change (Some (0, Some 1)) Inoperative))) = [] /\
    added w (step w (plainly (change (Some (0, None)) Inoperative))) = [].
Proof. exists charging_station. split; [apply charging_reachable|]. vm_compute. auto. Qed.
Print Assumptions evse_zero_unanswered_refuted.

(** A request to make the whole station operative is accepted while a transaction runs, but never executed: not then, and
    not when the transaction ends. *)
Theorem station_operative_never_refuted :
  exists w, reachable w /\ CsmModel.s_cs (w_csm w) = Inoperative /\
    let w1 := step w (plainly (change None Operative)) in
    visible (added w w1) = [OAvResp Accepted] /\
    let w2 := step w1 (plainly (finish 1)) in
    any_busy (w_con w2) (busy_of w2) = false /\ CsmModel.s_cs (w_csm w2) = Inoperative /\ w_sched w2 = [].
Proof.
  exists (run (init [2; 1] true true true) [plainly (change None Inoperative); plainly (start 1 100)]).
  split; [|vm_compute; auto].
  apply station_reachable.
Qed.
Print Assumptions station_operative_never_refuted.

(** A scheduled request to make something operative makes idle components inoperative. *)
Theorem operative_makes_inoperative_refuted :
  exists w, reachable w /\ status_of (w_csm w) (Some (1, Some 2)) = Operative /\
    let w1 := step w (plainly (change (Some (1, None)) Operative)) in
    visible (added w w1) = [OAvResp Scheduled] /\ status_of (w_csm w1) (Some (1, Some 2)) = Inoperative /\
    let w2 := step w1 (plainly (finish 1)) in
    status_of (w_csm w2) (Some (1, None)) = Operative /\ status_of (w_csm w2) (Some (1, Some 2)) = Inoperative.
Proof.
  exists (run (init [2; 1] true true true) [plainly (change (Some (1, None)) Inoperative); plainly (start 1 100)]).
  split; [|vm_compute; auto].
  apply station_reachable.
Qed.
Print Assumptions operative_makes_inoperative_refuted.

(** Scheduled requests are kept per EVSE, not per connector: a request for another connector of the EVSE replaces one that
    was answered Scheduled, which is then never executed. *)
Theorem other_connector_replaces_refuted :
  exists w, reachable w /\
    let w1 := step w (plainly (change (Some (1, Some 1)) Inoperative)) in
    visible (added w w1) = [OAvResp Scheduled] /\
    let w2 := run w1 [plainly (change (Some (1, Some 2)) Inoperative); plainly (finish 1)] in
    any_busy (w_con w2) (busy_of w2) = false /\ status_of (w_csm w2) (Some (1, Some 1)) = Operative /\ w_sched w2 = [].
Proof. exists charging_station. split; [apply charging_reachable|]. vm_compute. auto. Qed.
Print Assumptions other_connector_replaces_refuted.

(** A scheduled request is forgotten when the process is started again, though the transaction goes on. *)
Theorem scheduled_lost_by_restart_refuted :
  exists w, reachable w /\
    let w1 := step w (plainly (change (Some (1, None)) Inoperative)) in
    visible (added w w1) = [OAvResp Scheduled] /\
    let w2 := run w1 [plainly ORestart; plainly (finish 1)] in
    busy_of (step w1 (plainly ORestart)) 1 = true /\ any_busy (w_con w2) (busy_of w2) = false /\
    status_of (w_csm w2) (Some (1, None)) = Operative.
Proof. exists charging_station. split; [apply charging_reachable|]. vm_compute. auto. Qed.
Print Assumptions scheduled_lost_by_restart_refuted.

(** An accepted request need not be in the database: one for the status a component has only until the next start. *)
Theorem accepted_not_stored_refuted :
  exists w, reachable w /\ status_of (w_csm w) (Some (1, Some 2)) = Inoperative /\
    let w1 := step w (plainly (change (Some (1, Some 2)) Inoperative)) in
    visible (added w w1) = [OAvResp Accepted] /\ stored (w_csm w1) (Some (1, Some 2)) <> Some Inoperative /\
    status_of (w_csm (step w1 (plainly ORestart))) (Some (1, Some 2)) = Operative.
Proof.
  exists (run (init [2; 1] true true true) [plainly (start 1 100); plainly (change (Some (1, None)) Inoperative)]).
  split.
  - apply station_reachable.
  - vm_compute. split; [reflexivity|]. split; [reflexivity|]. split; [discriminate|reflexivity].
Qed.
Print Assumptions accepted_not_stored_refuted.

(** After a firmware update that waited for a transaction, the EVSE stays inoperative: restoring the states of the
    connectors does not touch the status of the EVSE. *)
Theorem evse_stays_inoperative_refuted :
  exists w, reachable w /\ status_of (w_csm w) (Some (1, None)) = Operative /\
    let w1 := run w (map plainly [OFirmware; finish 1; ORestore]) in
    any_busy (w_con w1) (busy_of w1) = false /\ status_of (w_csm w1) (Some (1, None)) = Inoperative /\
    status_of (w_csm w1) (Some (1, Some 1)) = Operative /\ stored (w_csm w1) (Some (1, None)) = Some Operative.
Proof. exists charging_station. split; [apply charging_reachable|]. vm_compute. auto. Qed.
Print Assumptions evse_stays_inoperative_refuted.
