(** Theorems about the OCPP 1.6 connector state machines (properties C11-C13). *)
From Coq Require Import String List ZArith Bool Lia.
From Verif Require Import FsmModel FsmSpec FsmProofs.
Import ListNotations.
Open Scope Z_scope.

Definition ex_map : list (Z * status) := [(0, Available); (1, Available); (2, Unavailable)].
Definition ex_start (c : Z) : status := if c =? 2 then Unavailable else Available.
Definition ex_err : error := mk_error "a" 3%N true (Some "broken"%string) None None 5.
Definition ex_err2 : error := mk_error "b" 4%N false None None None 6.
Definition ex_ops : list op :=
  [Event 1 UsageInitiated 1 None; Error 1 ex_err2; Event 1 StartCharging 2 None; Error 1 ex_err; Event 1 PauseChargingEV 3 None;
   Error 2 ex_err; Cleared 1 "a" 8; Event 1 ReservationEnd 9 None; Cleared 2 "x" 9; AllCleared 0 10].

Lemma ex_station : station 2 ex_start ex_map.
Proof.
  split; [reflexivity|]. split.
  - intros c H. assert (c = 0 \/ c = 1 \/ c = 2) as [-> | [-> | ->]] by lia; cbn; auto.
  - split; [|cbn; auto]. repeat constructor; cbn; intuition discriminate.
Qed.
Lemma ex_no_reset : no_reset ex_ops.
Proof. intros m. cbn. intuition discriminate. Qed.

(** ** C11 *)

Theorem transition_table s e t : find_transition s e = Some t <-> applicable s e /\ t = target e.
Proof. exact (table s e t). Qed.
Print Assumptions transition_table.
Example transition_table_ex : applicable Preparing StartCharging /\ ~ applicable Preparing ChangeAvailabilityToUnavailable.
Proof.
  split; [apply (transition_table _ _ Charging); reflexivity|]. intros H.
  assert (X : find_transition Preparing ChangeAvailabilityToUnavailable = Some Unavailable) by (apply transition_table; auto). discriminate X.
Qed.

Theorem connector_state s0 n start m os c : station n start m -> no_reset os -> 0 <= c <= Z.of_nat n ->
  let s := final (fst (step s0 (Reset m))) os in
  exists u, runs (start c) (events (history c os)) u /\
    ((exists e, active (history c os) e /\ e_fault e = true) -> get_state s c = Some Faulted) /\
    (~ (exists e, active (history c os) e /\ e_fault e = true) -> get_state s c = Some u).
Proof. exact (connector_state_lemma s0 n start m os c). Qed.
Print Assumptions connector_state.
Example connector_state_ex : station 2 ex_start ex_map /\ no_reset ex_ops /\
  map (get_state (final (fst (step init (Reset ex_map))) ex_ops)) [0; 1; 2; 3] = [Some Available; Some SuspendedEV; Some Faulted; Some Unavailable].
Proof. split; [exact ex_station|]. split; [exact ex_no_reset|reflexivity]. Qed.

Theorem latest_error s0 n start m os c : station n start m -> no_reset os -> 0 <= c <= Z.of_nat n ->
  exists r, get_latest_error (final (fst (step s0 (Reset m))) os) c = Some r /\
  match r with
  | None => forall e, ~ active (history c os) e
  | Some e => active (history c os) e /\ forall x, active (history c os) x -> e_ts x <= e_ts e
  end.
Proof. exact (latest_error_lemma s0 n start m os c). Qed.
Print Assumptions latest_error.
Example latest_error_ex : map (get_latest_error (final (fst (step init (Reset ex_map))) ex_ops)) [0; 1; 2] = [Some None; Some (Some ex_err2); Some (Some ex_err)].
Proof. reflexivity. Qed.

Theorem start_state s n start m : station n start m ->
  step s (Reset m) = (States (Some (Fsm (start 0) [])) (map (fun i => Fsm (start (1 + Z.of_nat i)) []) (seq 0 n)), []).
Proof. exact (reset_ok s n start m). Qed.
Print Assumptions start_state.

Theorem start_refused s m i : NoDup (map fst m) -> In (0, i) m -> ~ In i [Available; Unavailable; Faulted] ->
  step s (Reset m) = (States (zero s) [], [Throw]).
Proof. exact (reset_bad s m i). Qed.
Print Assumptions start_refused.
Example start_refused_ex : NoDup (map fst [(0, Charging); (1, Available)]) /\ ~ In Charging [Available; Unavailable; Faulted].
Proof. split; [repeat constructor; cbn; intuition discriminate|cbn; intuition discriminate]. Qed.

Theorem unknown_connector_ignored s c : zero s <> None -> (c < 0 \/ Z.of_nat (length (machines s)) < c) ->
  (forall e ts info, step s (Event c e ts info) = (s, [])) /\ (forall e, step s (Error c e) = (s, [])) /\
  (forall u now, step s (Cleared c u now) = (s, [])) /\ (forall now, step s (AllCleared c now) = (s, [])) /\
  (forall now, step s (Trigger c now) = (s, [Throw])) /\
  get_state s c = Some Unavailable /\ get_latest_error s c = get_latest_error s 0.
Proof. exact (unknown_connector s c). Qed.
Print Assumptions unknown_connector_ignored.
Example unknown_connector_ex : zero (fst (step init (Reset ex_map))) <> None /\ Z.of_nat (length (machines (fst (step init (Reset ex_map))))) < 3.
Proof. split; [discriminate|reflexivity]. Qed.

(** ** C12 *)

Theorem csms_knows_state s0 n start m os c : station n start m -> no_reset os -> 0 <= c <= Z.of_nat n ->
  let s := fst (step s0 (Reset m)) in
  Some (told (start c) (notes c (outs s os))) = get_state (final s os) c.
Proof. exact (told_lemma s0 n start m os c). Qed.
Print Assumptions csms_knows_state.
Example csms_knows_state_ex : map n_status (notes 1 (outs (fst (step init (Reset ex_map))) ex_ops)) = [Preparing; Preparing; Charging; Faulted; SuspendedEV].
Proof. reflexivity. Qed.

Theorem notification_of_event s c f e ts info : machine_at s c f ->
  let r := step s (Event c e ts info) in
  exists f', machine_at (fst r) c f' /\ f_errors f' = f_errors f /\
  (~ applicable (f_state f) e -> f_state f' = f_state f /\ snd r = []) /\
  (applicable (f_state f) e -> f_state f' = target e /\
     (fault_active f -> snd r = []) /\
     (~ fault_active f -> exists n, snd r = [Notify c n] /\ n_status n = target e /\ n_ts n = ts /\ n_info n = info /\ reports_newest f n)).
Proof. exact (event_note s c f e ts info). Qed.
Print Assumptions notification_of_event.
Theorem notification_of_error s c f e : machine_at s c f ->
  let r := step s (Error c e) in
  (In (e_uuid e) (map e_uuid (f_errors f)) -> snd r = [] /\ machine_at (fst r) c f) /\
  (~ In (e_uuid e) (map e_uuid (f_errors f)) ->
     exists u, snd r = [Notify c (Note u (e_code e) (e_ts e) (e_info e) (e_vendor e) (e_vcode e))] /\
       (e_fault e = true \/ fault_active f -> u = Faulted) /\ (e_fault e = false -> ~ fault_active f -> u = f_state f)).
Proof. exact (error_note s c f e). Qed.
Print Assumptions notification_of_error.
Theorem notification_of_clear s c f u now : machine_at s c f ->
  let r := step s (Cleared c u now) in
  exists f', machine_at (fst r) c f' /\ f_state f' = f_state f /\
    (forall e, In e (f_errors f') <-> In e (f_errors f) /\ e_uuid e <> u) /\
    (~ In u (map e_uuid (f_errors f)) -> snd r = []) /\
    (In u (map e_uuid (f_errors f)) -> fault_active f' -> snd r = []) /\
    (In u (map e_uuid (f_errors f)) -> ~ fault_active f' ->
       exists n, snd r = [Notify c n] /\ n_status n = f_state f /\ n_ts n = now /\ reports_newest f' n /\
         (f_errors f' = [] -> n_info n = None) /\ (f_errors f' <> [] -> exists e, newest f' e /\ n_info n = e_info e /\ n_code n = e_code e)).
Proof. exact (cleared_note s c f u now). Qed.
Print Assumptions notification_of_clear.
Theorem notification_of_clear_all s c f now : machine_at s c f ->
  let r := step s (AllCleared c now) in
  snd r = [Notify c (Note (f_state f) NoError now None None None)] /\ machine_at (fst r) c (Fsm (f_state f) []).
Proof. exact (all_cleared_note s c f now). Qed.
Print Assumptions notification_of_clear_all.
Theorem notification_on_trigger s c f now : machine_at s c f -> zero s <> None ->
  exists n, snd (step s (Trigger c now)) = [Notify c n] /\ notes c (snd (step s (TriggerAll now))) = [n] /\
    fst (step s (Trigger c now)) = s /\ fst (step s (TriggerAll now)) = s /\
    get_state s c = Some (n_status n) /\ reports_newest f n /\
    (f_errors f = [] -> n_info n = None /\ n_ts n = now) /\
    (f_errors f <> [] -> exists e, newest f e /\ n_info n = e_info e /\ n_code n = e_code e /\ n_ts n = e_ts e).
Proof. exact (trigger_note s c f now). Qed.
Print Assumptions notification_on_trigger.
Definition ex_final : states := final (fst (step init (Reset ex_map))) ex_ops.
Example notifications_ex : machine_at ex_final 1 (Fsm SuspendedEV [ex_err2]) /\ zero ex_final <> None /\
  applicable SuspendedEV StartCharging /\ ~ fault_active (Fsm SuspendedEV [ex_err2]) /\ fault_active (Fsm Unavailable [ex_err]) /\
  machine_at ex_final 2 (Fsm Unavailable [ex_err]).
Proof.
  split; [right; split; [lia|reflexivity]|]. split; [vm_compute; discriminate|]. split; [apply (transition_table _ _ Charging); reflexivity|].
  split; [intros (e & [<-|[]] & H); discriminate H|]. split; [exists ex_err; cbn; auto|]. right. split; [lia|reflexivity].
Qed.

(** The texts of an error are cut to the OCPP lengths, never rejected. *)
Theorem error_texts u k fl i v c now :
  let e := mk_error u k fl i v c now in
  e_uuid e = u /\ e_code e = k /\ e_fault e = fl /\ e_ts e = now /\ fits 50 i (e_info e) /\ fits 255 v (e_vendor e) /\ fits 50 c (e_vcode e).
Proof. exact (mk_error_spec u k fl i v c now). Qed.
Print Assumptions error_texts.

(** The error code known to the CSMS can be that of an error that is not active any more: clearing one of two faults is
    not reported. *)
Theorem cleared_fault_still_reported_refuted :
  exists n start m os e, station n start m /\ no_reset os /\
    last (map n_code (notes 1 (outs (fst (step init (Reset m))) os))) NoError = e_code e /\
    (forall x, active (history 1 os) x -> e_code x <> e_code e).
Proof.
  set (e := mk_error "b" 4%N true None None None 6).
  set (os := [Error 1 ex_err; Error 1 e; Cleared 1 "b" 7]).
  exists 2%nat, ex_start, ex_map, os, e. split; [exact ex_station|]. split; [intros m; cbn; intuition discriminate|]. split; [reflexivity|].
  intros x A. destruct (reset_valid init 2 ex_start ex_map 1 ex_station ltac:(lia)) as [V M].
  assert (NR : no_reset os) by (intros m; cbn; intuition discriminate).
  destruct (inv_run 1 _ _ os V M NR) as (V' & f & M' & [E _] & _). apply E in A.
  vm_compute in M'. inversion M'; subst. destruct A as [<-|[]]. discriminate.
Qed.
Print Assumptions cleared_fault_still_reported_refuted.

(** ** C13 *)

(** Missing for the full C13: events other than the four of the reduced table; for them the property is false. *)
Theorem connector_zero_partial s0 n start m os : station n start m -> no_reset os ->
  (forall e ts info, In (Event 0 e ts info) os ->
     In e [BecomeAvailable; ChangeAvailabilityToUnavailable; I1_ReturnToAvailable; I8_ReturnToUnavailable]) ->
  exists u, get_state (final (fst (step s0 (Reset m))) os) 0 = Some u /\ In u [Available; Unavailable; Faulted].
Proof. exact (connector_zero_reduced s0 n start m os). Qed.
Print Assumptions connector_zero_partial.
Example connector_zero_ex : forall e ts info, In (Event 0 e ts info) [Event 0 ChangeAvailabilityToUnavailable 3 None; Error 0 ex_err] ->
     In e [BecomeAvailable; ChangeAvailabilityToUnavailable; I1_ReturnToAvailable; I8_ReturnToUnavailable].
Proof. intros e ts info [H|[H|[]]]; inversion H; subst. cbn. auto. Qed.
(** The reduced table FSM_DEF_CONNECTOR_ZERO is never consulted. *)
Theorem connector_zero_refuted :
  exists n start m os, station n start m /\ no_reset os /\
    get_state (final (fst (step init (Reset m))) os) 0 = Some Preparing.
Proof.
  exists 2%nat, ex_start, ex_map, [Event 0 UsageInitiated 1 None]. split; [exact ex_station|].
  split; [intros m; cbn; intuition discriminate|reflexivity].
Qed.
Print Assumptions connector_zero_refuted.
