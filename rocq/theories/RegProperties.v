(** The registration of an OCPP 2.x station: theorems. [run h (initial v)] is the station after the calls [h]. *)
From Coq Require Import String ZArith NArith List Bool Lia.
From Verif Require Import RegModel RegSpec RegProofs RegProofs2 RegProofs3.
Import ListNotations.
Local Open Scope Z_scope.

(** Examples. *)
Definition all_parts : parts := Parts true true true true.
Definition no_parts : parts := Parts false false false false.
Definition plain : cfg := Cfg [1; 2] true (Some "NTP,Heartbeat"%string) 60 all_parts false 3.
Definition msg (k : kind) (t : string) (d : deed) : message := Message k t d (inl false).
Definition ask_boot : message := Message Call "TriggerMessage" Answers (inl true).
Definition up : list (cfg * op) := [(plain, Start "PowerUp"); (plain, Connected 5)].
Definition zero : Z -> N := fun _ => 0%N.
Definition pending : list (cfg * op) := up ++ [(plain, Confirmed Pending 10)].
Definition accepted : list (cfg * op) := pending ++ [(plain, Retry); (plain, Confirmed Accepted 300)].

(** ** C104 *)
(** A message is given to the part of the station it is meant for exactly if the station is accepted, or the message is one
    that may be dealt with before, and there is such a part. *)
Theorem C104_gate : forall c m s, dead s = false ->
  given (snd (step c (Receive m) s)) <-> allowed (registered s) m /\ known (c_parts c) (m_type m) = true.
Proof. intros c m s D. unfold step. rewrite D. apply dispatch_given. Qed.
(** What is not given to a part has no effect, and this answer: *)
Theorem C104_turned_away : forall c m s, dead s = false -> (registered s = Rejected -> m_type m = "TriggerMessage"%string -> exists b, m_boot m = inl b) ->
  ~ given (snd (step c (Receive m) s)) ->
  step c (Receive m) s =
    (s, if reg_eqb (registered s) Accepted || reg_eqb (registered s) Pending && existsb (String.eqb (m_type m)) ["BootNotificationResponse"; "GetVariables"; "SetVariables"; "GetBaseReport"; "GetReport"; "NotifyReportResponse"; "TriggerMessage"]%string
        then match m_kind m with Call => [OError "NotImplemented"] | _ => [] end
        else if reg_eqb (registered s) Pending && String.eqb (m_type m) "RequestStartTransaction" then [OStartRejected]
        else if reg_eqb (registered s) Pending && String.eqb (m_type m) "RequestStopTransaction" then [OStopRejected]
        else [OError "SecurityError"]).
Proof.
  intros c m s D B G. assert (G2 := G). rewrite (C104_gate c m s D) in G. unfold step. rewrite D. unfold dispatch. unfold allowed in G. destruct (registered s) eqn:R; cbn [reg_eqb orb andb].
  - apply handle_unknown. destruct (known _ _); auto. exfalso. auto.
  - change (existsb (String.eqb (m_type m)) ["BootNotificationResponse"; "GetVariables"; "SetVariables"; "GetBaseReport"; "GetReport"; "NotifyReportResponse"; "TriggerMessage"]%string) with (String.eqb (m_type m) "BootNotificationResponse" || mem (m_type m) while_pending).
    destruct (String.eqb (m_type m) "BootNotificationResponse") eqn:E1. { apply String.eqb_eq in E1. exfalso. apply G. rewrite E1. split; [ now left | reflexivity ]. }
    cbn [orb]. destruct (mem (m_type m) while_pending) eqn:E2.
    + apply handle_unknown. destruct (known _ _); auto. exfalso. apply G. split; auto. right. now apply mem_in in E2.
    + destruct (String.eqb (m_type m) "RequestStartTransaction"); auto. destruct (String.eqb (m_type m) "RequestStopTransaction"); auto.
  - (destruct (String.eqb (m_type m) "BootNotificationResponse") eqn:E1; [ apply String.eqb_eq in E1; exfalso; apply G; rewrite E1; split; [ now left | reflexivity ] | ]);
    (destruct (String.eqb (m_type m) "TriggerMessage") eqn:E2; [ | reflexivity ]); apply String.eqb_eq in E2; destruct (B eq_refl E2) as [b Eb]; rewrite Eb in *;
    (destruct b; [ exfalso; apply G; split; [ now right | rewrite E2; reflexivity ] | reflexivity ]).
Qed.
(** A CALL is answered exactly once, if the part it is given to answers it or throws something the station knows. *)
Definition behaves (d : deed) : Prop := match d with Answers => True | Throws false Any => False | Throws false _ => True | _ => False end.
Theorem C104_one_answer : forall c m s, dead s = false -> m_kind m = Call -> behaves (m_deed m) -> m_boot m <> inr Any ->
  answers (snd (step c (Receive m) s)) = 1%nat.
Proof.
  intros c m s D K B T. unfold step. rewrite D.
  assert (H : answers (snd (handle (c_parts c) m s)) = 1%nat).
  { rewrite handle_answers; auto. rewrite K. destruct (known _ _); auto. unfold read_deed. destruct (String.eqb _ _); auto. destruct (m_deed m) as [ | | [ | ] x ]; cbn in B; try tauto; auto. destruct x; cbn in *; tauto || reflexivity. }
  unfold dispatch. destruct (registered s); auto.
  - destruct (String.eqb _ _); auto. destruct (mem _ _); auto. destruct (String.eqb (m_type m) "RequestStartTransaction"); auto. destruct (String.eqb _ _); auto.
  - destruct (String.eqb _ _); auto. destruct (String.eqb (m_type m) "TriggerMessage"); auto. destruct (m_boot m) as [ [ | ] | x ]; auto. rewrite K. destruct x; auto. congruence.
Qed.
(** A message changes nothing of the registration: all it can do is to have a BootNotification.req queued before the station is accepted. *)
Theorem C104_no_effect : forall c m s, dead s = false -> (forall a, m_deed m <> Throws a Any) -> m_boot m <> inr Any ->
  let s' := fst (step c (Receive m) s) in
  s' = s \/ (s' = set_boots (0 :: boots s) s /\ registered s <> Accepted /\ m_type m = "TriggerMessage"%string /\ m_boot m = inl true /\ In (OBoot "Triggered") (snd (step c (Receive m) s))).
Proof.
  intros c m s D X Y. assert (C := dispatch_calm (c_parts c) m s D). unfold step. rewrite D. cbn zeta. destruct C as [ -> | [ ( -> & a & [ E | E ] ) | ( -> & R & B & T & A & I ) ] ]; auto.
  - exfalso. eapply X. exact E. - congruence.
  - right. auto.
Qed.
(** What cannot be read is told the CSMS, and has no effect. *)
Theorem C104_garbage : forall c b s, dead s = false ->
  step c (Garbage b) s = (s, [OAnonymous (match b with BadEnum => "FormationViolation" | UnknownKind => "MessageTypeNotSupported" | _ => "RpcFrameworkError" end); OEvent]).
Proof. intros c b s D. unfold step. rewrite D. destruct b; reflexivity. Qed.
(** Answers of the CSMS are not answered: for an accepted station, and parts that do not and that find their variables. *)
Theorem C104_results_unanswered_partial : forall c m s, dead s = false -> registered s = Accepted -> m_kind m <> Call ->
  m_deed m <> Answers -> (forall a x, m_deed m = Throws a x -> a = false /\ x <> DeviceModel) ->
  answers (snd (step c (Receive m) s)) = 0%nat.
Proof.
  intros c m s D R K A T. unfold step. rewrite D. unfold dispatch. rewrite R. rewrite handle_answers; auto. destruct (m_kind m); [ congruence | | ];
  (destruct (known _ _); auto; unfold read_deed; destruct (String.eqb _ _); auto; destruct (m_deed m) as [ | | a x ]; auto; [ congruence | ]; destruct (T a x eq_refl) as [ -> X ]; destruct x; auto; congruence).
Qed.
(** Before, they are: the station answers a CALLRESULT, and a CALLERROR, with a CALLERROR. *)
Theorem C104_results_unanswered_refuted :
  (exists m, m_kind m = Result /\ snd (step plain (Receive m) (run pending (initial zero))) = [OError "SecurityError"])
  /\ snd (step plain Errored (run up (initial zero))) = [OError "SecurityError"]
  /\ exists m, m_kind m = Result /\ snd (step plain (Receive m) (run accepted (initial zero))) = [OGiven Availability; OError "GenericError"].
Proof.
  split; [ exists (msg Result "DataTransferResponse" Silent); split; [ reflexivity | vm_compute; reflexivity ] | ].
  split; [ vm_compute; reflexivity | exists (msg Result "HeartbeatResponse" (Throws false DeviceModel)); split; [ reflexivity | vm_compute; reflexivity ] ].
Qed.
Example gate_1 : registered (run pending (initial zero)) = Pending /\ dead (run pending (initial zero)) = false
  /\ snd (step plain (Receive (msg Call "SetVariables" Answers)) (run pending (initial zero))) = [OGiven Provisioning; OResult]
  /\ snd (step plain (Receive (msg Call "RequestStartTransaction" Answers)) (run pending (initial zero))) = [OStartRejected]
  /\ snd (step plain (Receive (msg Call "Reset" Answers)) (run pending (initial zero))) = [OError "SecurityError"]
  /\ snd (step plain (Receive ask_boot) (run up (initial zero))) = [OGiven Remote; OResult; OBoot "Triggered"]
  /\ snd (step (Cfg [] false None 0 no_parts false 0) (Receive (msg Call "ReserveNow" Answers)) (run accepted (initial zero))) = [OError "NotImplemented"]
  /\ snd (step plain (Receive (msg Call "ReserveNow" Answers)) (run accepted (initial zero))) = [OGiven Reservation; OResult]
  /\ snd (step plain (Receive (msg Call "ChangeAvailability" (Throws false EvseRange))) (run accepted (initial zero))) = [OGiven Availability; OError "OccurrenceConstraintViolation"].
Proof. vm_compute. repeat split. Qed.
Example gate_2 : behaves (Throws false EvseRange) /\ m_kind (msg Result "HeartbeatResponse" Silent) <> Call.
Proof. split; [ exact Logic.I | discriminate ]. Qed.

(** ** C105 *)
(** The station is registered as the last answer to a BootNotification.req that reached it says. *)
Theorem C105_registered : forall h v, registered (run h (initial v)) = said (events h (initial v)).
Proof. exact registration. Qed.
(** Answers to BootNotification.reqs are heard exactly if there is a BootNotification.req, and told the user. *)
Theorem C105_heard : forall c r i s, dead s = false ->
  heard (c, Confirmed r i, snd (step c (Confirmed r i) s)) = match boots s with [] => None | _ => Some (r, i) end
  /\ (thread s = false -> (c_sync c = true -> c_source c <> None) -> boots s <> [] -> In (ORegistered r) (snd (step c (Confirmed r i) s))).
Proof.
  intros c r i s D. unfold step. rewrite D. destruct (boots s) as [ | b l ] eqn:E.
  - unfold confirm. rewrite E. split; [ | congruence ]. cbn [heard]. unfold dispatch. destruct (registered s); reflexivity.
  - destruct (confirm_cases c r i s b l D E) as [ (R & ->) | [ (R & Y & Z & ->) | (R & _ & o1 & o2 & f & _ & _ & ->) ] ]; cbn [snd heard]; (split; [ reflexivity | ]).
    + intros _ _ _. cbn. auto.
    + intros _ X. exfalso. now apply X in Y.
    + intros -> _ _. subst. right. apply in_or_app. right. right. apply in_or_app. right. now left.
Qed.
(** Until it is accepted a station that is switched on keeps asking: either a BootNotification.req is on its way, so that an
    answer to it is taken note of, or the timer for the next one is running. *)
Theorem C105_keeps_asking_partial : forall h v c r i, Forall (fun e => c_queue_all (fst e) = false) h ->
  let s := run h (initial v) in dead s = false -> on h = true -> said (events h (initial v)) <> Accepted ->
  heard (c, Confirmed r i, snd (step c (Confirmed r i) s)) = Some (r, i) \/ snd (step c Retry s) = [OBoot "PowerUp"].
Proof.
  intros h v c r i F s D O S. unfold s in *. clear s. rewrite <- registration in S. destruct (keeps_booting h v F D) as [E B]. rewrite E in B. specialize (B O S).
  destruct (C105_heard c r i (run h (initial v)) D) as [H _]. rewrite H. destruct (boots (run h (initial v))); [ | now left ]. right. destruct B as [ B | B ]; [ congruence | ].
  unfold step. rewrite D. destruct (retry (run h (initial v))); [ reflexivity | congruence ].
Qed.
(** Not so if all messages are to be kept while offline: a BootNotification.req that could not be sent is then given up after
    MessageAttempts attempts, and the station never asks again. *)
Definition keeping : cfg := Cfg [1] false None 60 all_parts true 3.
Theorem C105_keeps_asking_refuted : exists h v,
  let s := run h (initial v) in dead s = false /\ on h = true /\ said (events h (initial v)) <> Accepted
  /\ (forall c, snd (step c Retry s) = []) /\ forall c r i, heard (c, Confirmed r i, snd (step c (Confirmed r i) s)) = None.
Proof.
  exists [(keeping, Start "PowerUp"); (keeping, Connected 5); (keeping, Failed); (keeping, Failed); (keeping, Failed)], zero. cbn zeta.
  set (s := run _ _). vm_compute in s. subst s. repeat split; try discriminate. 
Qed.
(** When the next BootNotification.req is due after an answer that does not accept the station. *)
Theorem C105_interval : forall c r i s, dead s = false -> boots s <> [] -> r <> Accepted ->
  retry (fst (step c (Confirmed r i) s)) = Some (if 0 <? i then i else 30).
Proof.
  intros c r i s D B R. unfold step. rewrite D. destruct (boots s) as [ | b l ] eqn:E; [ congruence | ].
  destruct (confirm_cases c r i s b l D E) as [ (_ & ->) | [ (C & _) | (C & _) ] ]; [ reflexivity | congruence | congruence ].
Qed.
(** Heartbeats are sent with the interval the CSMS has set last, with the answer or the variable. *)
Theorem C105_heartbeat : forall h v, dead (run h (initial v)) = false -> heartbeat (run h (initial v)) = beat (events h (initial v)).
Proof. exact heartbeats. Qed.
(** An accepted station need not send heartbeats at all: not if the interval it is accepted with is 0. *)
Theorem C105_heartbeat_refuted : exists h v, let s := run h (initial v) in
  dead s = false /\ on h = true /\ registered s = Accepted /\ connected s = true /\ heartbeat s = None.
Proof. exists (up ++ [(plain, Confirmed Accepted 0)]), zero. vm_compute. repeat split. Qed.
Example boot_1 : Forall (fun e => c_queue_all (fst e) = false) pending /\ on pending = true /\ said (events pending (initial zero)) = Pending
  /\ snd (step plain Retry (run pending (initial zero))) = [OBoot "PowerUp"] /\ retry (run pending (initial zero)) = Some 10
  /\ said (events accepted (initial zero)) = Accepted /\ beat (events accepted (initial zero)) = Some 300
  /\ beat (events (accepted ++ [(plain, Interval 60)]) (initial zero)) = Some 60.
Proof. split; [ repeat constructor | vm_compute; repeat split ]. Qed.

(** ** C106 *)
(** The process ends exactly if the station is accepted twice without having been stopped in between (exceptions aside). *)
Theorem C106_ends : forall h v, Forall tame h -> dead (run h (initial v)) = twice (events h (initial v)).
Proof. exact crashes. Qed.
(** It goes on if the station is started once and the CSMS does not ask for a BootNotification. *)
Theorem C106_goes_on_partial : forall c reason h v, Forall (fun e => tame e /\ untriggered e /\ no_start e) h ->
  dead (run ((c, Start reason) :: h) (initial v)) = false.
Proof. intros c reason h v F. cbn [run]. apply (stays_single h _ F). split; [ reflexivity | split; [ cbn; auto | discriminate ] ]. Qed.
(** It need not otherwise: a CSMS that answers Pending, asks for a BootNotification and accepts both that one and the one the
    station sends of its own accord ends the process; so does one whose answer to a BootNotification.req of before a restart
    comes after the answer to that of after it. *)
Theorem C106_goes_on_refuted :
  (exists h v, Forall tame h /\ List.length (filter (fun e => match snd e with Start _ => true | _ => false end) h) = 1%nat /\ dead (run h (initial v)) = true)
  /\ exists h v, Forall (fun e => tame e /\ untriggered e) h /\ dead (run h (initial v)) = true.
Proof.
  split.
  - exists (pending ++ [(plain, Receive ask_boot); (plain, Retry); (plain, Confirmed Accepted 300); (plain, Confirmed Accepted 300)]), zero.
    split; [ | split; vm_compute; reflexivity ]. repeat constructor; cbn; intros; discriminate.
  - exists (up ++ [(plain, Stop); (plain, Start "RemoteReset"); (plain, Confirmed Accepted 300); (plain, Confirmed Accepted 300)]), zero.
    split; [ | vm_compute; reflexivity ]. repeat constructor.
Qed.
Example ends_1 : Forall tame accepted /\ twice (events accepted (initial zero)) = false
  /\ Forall (fun e => tame e /\ untriggered e /\ no_start e) (tl accepted) /\ run ((plain, Start "PowerUp") :: tl accepted) (initial zero) = run accepted (initial zero).
Proof. split; [ repeat constructor | ]. split; [ vm_compute; reflexivity | ]. split; [ repeat constructor | reflexivity ]. Qed.

(** ** C107 *)
(** While the station is connected and accepted the CSMS knows the status of every connector (with an OfflineThreshold). *)
Theorem C107_statuses_partial : forall k c h v, In c k -> Forall (set_up k) h -> in_time false h ->
  let s := run h (initial v) in dead s = false -> link h = true -> said (events h (initial v)) = Accepted ->
  told c (events h (initial v)) = Some (now_of v c h).
Proof.
  intros k c h v I F T s D L A. unfold s in *. clear s. rewrite <- registration in A.
  assert (X := run_known c k h (initial v) None I F T). assert (Y : known_of c (initial v) None) by (intros _ C; discriminate). specialize (X Y D A). destruct X as (X1 & X2 & _).
  unfold told. fold (heard_of c None (flat_map snd (events h (initial v)))). rewrite X1. f_equal. rewrite X2. - rewrite run_status; auto. - rewrite run_link; auto.
Qed.
(** What is sent when the connection is back: all statuses if it was away longer than the threshold, else those that have
    changed since they were told. *)
Theorem C107_reconnection : forall k h v now cf t, Forall (set_up k) h -> NoDup k -> c_connectors cf = k -> in_time false h ->
  let s := run h (initial v) in dead s = false -> said (events h (initial v)) = Accepted -> lost_at h = Some t ->
  snd (step cf (Connected now) s) =
    OConfirmed :: flat_map (fun c => if (10^9 * c_threshold cf <? now - t) || negb (match told c (events h (initial v)) with Some x => N.eqb x (now_of v c h) | None => false end) then [OStatus c (now_of v c h)] else []) k.
Proof.
  intros k h v now cf t F ND KK IT s D A L. unfold s in *. clear s. assert (A' := A). rewrite <- registration in A'.
  destruct (run_lost k h (initial v) None F D eq_refl) as [L1 L2]; [ discriminate | ]. unfold lost_at in L. rewrite L in L1. specialize (L2 t L).
  assert (KN : forall c, In c k -> told c (events h (initial v)) = Some (reported (run h (initial v)) c)).
  { intros c I. assert (X := run_known c k h (initial v) None I F IT). assert (Y : known_of c (initial v) None) by (intros _ C; discriminate). exact (proj1 (X Y D A')). }
  unfold step. rewrite D. cbn [registered set_connected]. rewrite A'. cbn [reg_eqb lost set_connected]. rewrite L1. destruct (t =? 0) eqn:Z0; [ apply Z.eqb_eq in Z0; congruence | ]. cbn [negb]. rewrite KK.
  assert (E := notify_all_exact (negb (second * c_threshold cf <? now - t)) k (set_connected true (run h (initial v)))).
  assert (E2 := E (conj eq_refl A') ND). clear E. destruct (notify_all _ k _) as [s1 o1]. cbn [snd] in *. f_equal. rewrite E2. clear E2.
  change second with (10 ^ 9). rewrite negb_involutive. clear -KN D. assert (G : forall l, (forall c, In c l -> In c k) -> flat_map (fun c => if (10 ^ 9 * c_threshold cf <? now - t) || negb (N.eqb (reported (set_connected true (run h (initial v))) c) (status (set_connected true (run h (initial v))) c)) then [OStatus c (status (set_connected true (run h (initial v))) c)] else []) l = flat_map (fun c => if (10 ^ 9 * c_threshold cf <? now - t) || negb (match told c (events h (initial v)) with Some x => N.eqb x (now_of v c h) | None => false end) then [OStatus c (now_of v c h)] else []) l).
  { induction l as [ | c l IH ]; intros H; auto. cbn [flat_map]. rewrite IH by (intros; apply H; now right). f_equal. cbn [status reported set_connected]. rewrite KN by (apply H; now left). rewrite run_status by exact D. reflexivity. }
  now apply G.
Qed.
(** A status that changes while the station is connected and accepted is told at once. *)
Theorem C107_change : forall cf c v s, dead s = false -> connected s = true -> registered s = Accepted ->
  snd (step cf (Changed c v) s) = if N.eqb (reported s c) v then [] else [OStatus c v].
Proof.
  intros cf c v s D C R. unfold step. rewrite D. rewrite notify_free by (split; auto). cbn [negb orb reported status set_status]. unfold upd. rewrite Z.eqb_refl. destruct (N.eqb (reported s c) v); reflexivity.
Qed.
(** The expiry of certificates is checked while the station is connected and accepted. *)
Theorem C107_checks_partial : forall k h v, Forall (set_up k) h -> Forall (fun e => snd e <> Stop) h -> in_time false h ->
  let s := run h (initial v) in dead s = false -> link h = true -> said (events h (initial v)) = Accepted -> checks s = true.
Proof.
  intros k h v F N T s D L A. unfold s in *. clear s. rewrite <- registration in A. assert (X := run_checked k h (initial v) F). assert (Y : checked (initial v)) by (intros _ C; discriminate).
  refine (proj1 (X _ T Y D A) _). - eapply Forall_impl; [ | exact N ]. intros [c o] H. unfold no_stop. cbn in *. destruct o; auto. - rewrite run_link; auto.
Qed.
(** With the OfflineThreshold 0 neither holds after a loss of the connection: the station does not remember that it was lost. *)
Definition nothreshold : cfg := Cfg [1; 2] true (Some "NTP"%string) 0 all_parts false 3.
Theorem C107_statuses_refuted : exists h v c, let s := run h (initial v) in
  Forall (fun e => c_connectors (fst e) = [1; 2] /\ c_source (fst e) <> None) h /\ in_time false h /\ In c [1; 2] /\ dead s = false /\ link h = true /\ said (events h (initial v)) = Accepted
  /\ told c (events h (initial v)) <> Some (now_of v c h) /\ checks s = false.
Proof.
  exists [(nothreshold, Start "PowerUp"); (nothreshold, Connected 5); (nothreshold, Confirmed Accepted 300); (nothreshold, Disconnected 7); (nothreshold, Changed 1 3%N); (nothreshold, Connected 1000)], zero, 1.
  cbn zeta. split; [ repeat constructor; discriminate | ]. split; [ cbn; repeat split | ]. split; [ now left | ]. vm_compute. repeat split; discriminate.
Qed.
Definition away : list (cfg * op) := accepted ++ [(plain, Disconnected (7 * 10^9)); (plain, Changed 1 3%N)].
Example statuses_1 : Forall (set_up [1; 2]) away /\ in_time false away /\ NoDup [1; 2] /\ dead (run away (initial zero)) = false /\ said (events away (initial zero)) = Accepted
  /\ lost_at away = Some (7 * 10^9) /\ told 1 (events away (initial zero)) = Some 0%N /\ now_of zero 1 away = 3%N
  /\ snd (step plain (Connected (8 * 10^9)) (run away (initial zero))) = [OConfirmed; OStatus 1 3%N]
  /\ snd (step plain (Connected (70 * 10^9)) (run away (initial zero))) = [OConfirmed; OStatus 1 3%N; OStatus 2 0%N]
  /\ let h := away ++ [(plain, Connected (8 * 10^9))] in link h = true /\ told 1 (events h (initial zero)) = Some 3%N /\ Forall (set_up [1; 2]) h /\ Forall (fun e => snd e <> Stop) h /\ checks (run h (initial zero)) = true.
Proof.
  split; [ repeat constructor; discriminate | ]. split; [ cbn; repeat split | ]. split. { repeat constructor; cbn; intuition congruence. }
  split; [ vm_compute; reflexivity | ]. split; [ vm_compute; reflexivity | ]. split; [ reflexivity | ]. split; [ vm_compute; reflexivity | ]. split; [ vm_compute; reflexivity | ]. split; [ vm_compute; reflexivity | ]. split; [ vm_compute; reflexivity | ].
  cbn zeta. split; [ vm_compute; reflexivity | ]. split; [ vm_compute; reflexivity | ]. split; [ repeat constructor; discriminate | ]. split; [ repeat constructor; discriminate | vm_compute; reflexivity ].
Qed.
Print Assumptions C104_gate.
Print Assumptions C104_turned_away.
Print Assumptions C104_one_answer.
Print Assumptions C104_no_effect.
Print Assumptions C104_garbage.
Print Assumptions C104_results_unanswered_partial.
Print Assumptions C104_results_unanswered_refuted.
Print Assumptions C105_registered.
Print Assumptions C105_heard.
Print Assumptions C105_keeps_asking_partial.
Print Assumptions C105_keeps_asking_refuted.
Print Assumptions C105_interval.
Print Assumptions C105_heartbeat.
Print Assumptions C105_heartbeat_refuted.
Print Assumptions C106_ends.
Print Assumptions C106_goes_on_partial.
Print Assumptions C106_goes_on_refuted.
Print Assumptions C107_statuses_partial.
Print Assumptions C107_reconnection.
Print Assumptions C107_change.
Print Assumptions C107_checks_partial.
Print Assumptions C107_statuses_refuted.
