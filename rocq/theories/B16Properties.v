(** C115, C116: registration and triggers in OCPP 1.6 *)
From Coq Require Import String List ZArith Bool Lia Permutation.
From Verif Require Import B16Model B16Spec B16Proofs B16Proofs2.
Import ListNotations.
Open Scope Z_scope.

(** *** C115: a station is registered before it takes part *)

(** A supported request of the CSMS is handled by an accepted station, by one that waits unless it is a remote start or
    stop, and not even answered otherwise. *)
Theorem C115_gate : forall c hb h k id x,
  step c (fst (run c hb h)) (ORecv (GCall true k id x)) =
  (fst (run c hb h), shows (treats (stands h) k) (was_connected h) id x).
Proof.
  intros c hb h k id x. destruct (run_members c hb h) as [A B _ _ _ _ _ _]. cbn [step message_callback negb].
  rewrite A. destruct (stands h) eqn:S; rewrite ?B; cbn [treats shows].
  - now destruct (was_connected h).
  - destruct k; [reflexivity | reflexivity | destruct x as [[]|]; reflexivity].
  - destruct (was_connected h) eqn:W; [reflexivity|]. rewrite (stands_connected h W) in S. discriminate.
  - destruct x as [[]|]; reflexivity.
Qed.

(** A request that is not supported is always answered so. *)
Theorem C115_unsupported : forall c s k id x,
  step c s (ORecv (GCall false k id x)) = (s, [EError id "NotSupported"]).
Proof. reflexivity. Qed.

(** Until it is accepted, only BootNotification.req and what was asked for goes to the CSMS. *)
Theorem C115_before : forall c hb h, no_stop h -> accepted h = false ->
  outs (snd (run c hb h)) = free c hb h.
Proof. intros c hb h N A. exact (q_free _ _ _ _ _ (run_queue c hb h N) A). Qed.

(** Once it is, all that had to wait and all that is sent since has gone there, each once. *)
Theorem C115_after : forall c hb h, no_stop h -> accepted h = true ->
  Permutation (outs (snd (run c hb h))) (due c hb h).
Proof.
  intros c hb h N A. pose proof (run_queue c hb h N) as Q. pose proof (q_due _ _ _ _ _ Q) as D.
  rewrite (q_none _ _ _ _ _ Q A), app_nil_r in D. exact D.
Qed.

(** The answer that counts: what the station does on it *)
Theorem C115_answer : forall c hb h r,
  was_connected h = true -> accepted h = false ->
  let es := snd (step c (fst (run c hb h)) (ORecv (GConf true (Some r)))) in
  let beat := if 0 <? bc_interval r then bc_interval r else interval_now hb h in
  exists before, outs es = outs before /\
  es = before ++ (if accepts r then [ESetTime (bc_time r); EHbTimer beat; EStatuses; EConfTold r]
                  else [EBootTimer (wait_of r); EConfTold r]) /\
  (accepts r = false -> before = []).
Proof.
  intros c hb h r W N es beat. unfold es, beat. clear es beat.
  pose proof (run_members c hb h) as M. destruct M as [A B _ E _ _ _ _]. cbn [step message_callback negb].
  assert (K : (match conn_state (fst (run c hb h)) with
               | Disconnected => (fst (run c hb h), [])
               | Connected => handle_boot_conf c (fst (run c hb h)) (Some r)
               | CRejected => match reg_status (fst (run c hb h)) with
                              | RRejected => handle_boot_conf c (fst (run c hb h)) (Some r)
                              | _ => (fst (run c hb h), []) end
               | CPending => match reg_status (fst (run c hb h)) with
                             | RPending => handle_boot_conf c (fst (run c hb h)) (Some r)
                             | _ => (fst (run c hb h), []) end
               | Booted => (fst (run c hb h), [])
               end) = handleBootNotificationResponse c (fst (run c hb h)) r).
  { rewrite A. destruct (stands_cases h) as [[_ X] | [_ [X | [X | X]]]]; [congruence | | |];
      rewrite X in *; rewrite ?W, ?B; reflexivity. }
  rewrite K. clear K. unfold handleBootNotificationResponse, wait_of, accepts. rewrite E.
  destruct (bc_status r); cbn [snd].
  - exists (map EOut (q_held (fst (run c hb h)))). rewrite outs_app. simpl. rewrite app_nil_r. auto.
    repeat split; auto. discriminate.
  - exists []. auto.
  - exists []. auto.
Qed.

(** The timers at any time: for the next BootNotification.req, for Heartbeat.req and for checking certificates *)
Theorem C115_timers : forall c hb h,
  let s := fst (run c hb h) in
  boot_timer s = next_boot h /\ hb_timer s = beats hb h /\ hb_interval s = interval_now hb h /\
  cert_timers s = checks (c_iso c) h /\ client_timer s = checks (c_profile3 c) h.
Proof.
  intros c hb h s. destruct (run_members c hb h) as [_ _ A B C D E _]. repeat apply conj; assumption.
Qed.

(** Other connections of an accepted station only repeat the states of its connectors. *)
Theorem C115_reconnect : forall c hb h,
  step c (fst (run c hb h)) OConnect =
    (if was_connected h then (fst (run c hb h), if accepted h then [EStatuses] else [])
     else (set_conn (fst (run c hb h)) Connected, [])).
Proof.
  intros c hb h. destruct (run_members c hb h) as [A _ _ _ _ _ _ _]. cbn [step]. unfold connected_callback. rewrite A.
  destruct (was_connected h) eqn:W.
  - destruct (stands_cases h) as [[S X] | [X [S | [S | S]]]]; rewrite S, X; reflexivity.
  - rewrite (stands_connected h W). reflexivity.
Qed.

(** A restart needs a stop before, and a station stops once. *)
Theorem C115_restart : forall c hb h l n,
  (is_running h = true -> step c (fst (run c hb h)) (ORestart l n) = (fst (run c hb h), [])) /\
  (is_running h = false -> step c (fst (run c hb h)) (OStop l) = (fst (run c hb h), [])) /\
  (is_running h = false ->
   exists e, snd (step c (fst (run c hb h)) (ORestart l n)) = e /\ In {| mty := MBoot; mid := n |} (outs e)).
Proof.
  intros c hb h l n. pose proof (m_stop _ _ _ _ (run_members c hb h)) as S. repeat apply conj; intros R.
  - cbn [step]. unfold restart. rewrite S, R. reflexivity.
  - cbn [step]. unfold stop. rewrite S, R. reflexivity.
  - eexists. split; [reflexivity|]. cbn [step]. unfold restart. rewrite S, R. cbn [negb].
    unfold start, boot_notification.
    destruct (if initialized (new_queue _) then _ else _) as [s0 e0] eqn:E0.
    assert (Q : q_running s0 = true).
    { destruct (initialized (new_queue (fst (run c hb h)))); inversion E0; subst; reflexivity. }
    assert (D : dispatch_call c s0 {| mty := MBoot; mid := n |} false = (s0, [EOut {| mty := MBoot; mid := n |}])).
    { unfold dispatch_call, get_message_transmission_priority. simpl.
      rewrite orb_true_r. unfold push_call. simpl. rewrite Q. reflexivity. }
    rewrite D. destruct (security_event c s0 n) as [s2 e2]. cbn [snd]. rewrite !outs_app.
    apply in_or_app. right. apply in_or_app. left. now left.
Qed.

(** *** What does not hold *)

Definition plain : cfg := {| c_queue_all := false; c_no_security_events := false; c_iso := true; c_profile3 := true |}.
Definition conf (s : reg) (i : Z) : op := ORecv (GConf true (Some {| bc_status := s; bc_interval := i; bc_time := 0 |})).
Definition stop_tx : msg := {| mty := MStopTx; mid := 7 |}.

(** "A station that is restarted and accepted sends heartbeats and the messages it has kept": neither. *)
Theorem C115_restarted_refuted :
  exists h, is_running h = true /\ accepted h = true /\
    (exists r, nth_error h 0 = Some (conf RAccepted 300) /\ nth_error h 1 = Some OConnect /\
               nth_error h 2 = Some (ORestart [stop_tx] r)) /\
    beats 100 h = None /\ hb_timer (fst (run plain 100 h)) = None /\
    ~ In stop_tx (outs (snd (run plain 100 h))) /\ In stop_tx (q_held (fst (run plain 100 h))).
Proof.
  exists [conf RAccepted 300; OConnect; ORestart [stop_tx] 2; ODisconnect; OStop []; conf RAccepted 300; OConnect;
          OStart [] 1].
  repeat apply conj; try (vm_compute; reflexivity).
  - exists 2. repeat split.
  - vm_compute. intros H. repeat destruct H as [H | H]; try discriminate H; contradiction.
  - vm_compute. now left.
Qed.

(** "The station does what the last answer says": once accepted, it does not listen to further answers. *)
Theorem C115_last_answer_refuted :
  exists h, (exists r, heard h = {| bc_status := RRejected; bc_interval := 10; bc_time := 0 |} :: r) /\
    snd (step plain (fst (run plain 100 h)) (ORecv (GCall true KRemoteStart 5 None))) = [EHandle 5] /\
    boot_timer (fst (run plain 100 h)) = None.
Proof.
  exists [conf RRejected 10; OConnect; ORestart [] 2; ODisconnect; OStop []; conf RAccepted 300; OConnect;
          OStart [] 1].
  repeat apply conj; try (vm_compute; reflexivity). eexists. vm_compute. reflexivity.
Qed.

(** "The interval of an answer that does not accept is only the time to wait": it becomes the HeartbeatInterval. *)
Theorem C115_interval_refuted :
  exists h, heard h = [{| bc_status := RAccepted; bc_interval := 0; bc_time := 0 |};
                       {| bc_status := RPending; bc_interval := 5; bc_time := 0 |}] /\
    hb_timer (fst (run plain 3600 h)) = Some 5.
Proof.
  exists [conf RAccepted 0; OBootTimer 2; conf RPending 5; OConnect; OStart [] 1].
  split; vm_compute; reflexivity.
Qed.

(** "A station that is not accepted asks again": not if the answer could not be read. *)
Theorem C115_asks_again_refuted :
  exists h, no_stop h /\ accepted h = false /\ In (ORecv (GConf true None)) h /\
    forall more, (forall o, In o more -> exists n, o = OBootTimer n \/ o = OHbTimer n \/ o = OConnect \/ o = ODisconnect) ->
      outs (snd (run plain 300 (more ++ h))) = [{| mty := MBoot; mid := 1 |}].
Proof.
  exists [ORecv (GConf true None); OConnect; OStart [] 1].
  split; [|split; [reflexivity | split; [now left|]]].
  - intros o H. repeat destruct H as [<- | H]; auto. contradiction.
  - intros more. induction more as [|o more IH]; intros M; [vm_compute; reflexivity|].
    assert (M' : forall x, In x more -> exists n, x = OBootTimer n \/ x = OHbTimer n \/ x = OConnect \/ x = ODisconnect)
      by (intros x X; apply M; now right).
    specialize (IH M').
    set (h := more ++ [ORecv (GConf true None); OConnect; OStart [] 1]) in *.
    assert (HE : heard h = [] /\ next_boot h = None /\ beats 300 h = None).
    { unfold h. clear - M'. induction more as [|o more IH]; [repeat split; reflexivity|].
      assert (M : forall x, In x more -> exists n, x = OBootTimer n \/ x = OHbTimer n \/ x = OConnect \/ x = ODisconnect)
        by (intros x X; apply M'; now right).
      destruct (IH M) as (A & B & C). destruct (M' o (or_introl eq_refl)) as [n [-> | [-> | [-> | ->]]]];
        simpl; auto. }
    destruct HE as (HE & NB & BE). rewrite <- app_comm_cons. fold h.
    pose proof (run_members plain 300 h) as R. cbn [run].
    destruct (run plain 300 h) as [s e]. cbn [fst snd] in *.
    assert (AH : accepted h = false) by (unfold accepted; now rewrite HE).
    assert (SH : stands h = Unknown) by (unfold stands; now rewrite AH, HE).
    destruct (M o (or_introl eq_refl)) as [n [-> | [-> | [-> | ->]]]]; cbn [step].
    + unfold boot_timer_fires. rewrite (m_boot _ _ _ _ R), NB. now rewrite app_nil_r.
    + unfold hb_timer_fires. rewrite (m_hb _ _ _ _ R), BE. now rewrite app_nil_r.
    + unfold connected_callback. pose proof (m_conn _ _ _ _ R) as CS. rewrite SH in CS.
      destruct (was_connected h); rewrite CS; cbn [snd]; now rewrite app_nil_r.
    + cbn [snd]. now rewrite app_nil_r.
Qed.

(** "An accepted station that is connected checks its certificates": not after it was disconnected once. *)
Theorem C115_checks_refuted :
  exists h, hd ODisconnect h = OConnect /\ accepted h = true /\ no_stop h /\
    cert_timers (fst (run plain 100 h)) = false /\ client_timer (fst (run plain 100 h)) = false.
Proof.
  exists [OConnect; ODisconnect; conf RAccepted 300; OConnect; OStart [] 1].
  repeat apply conj; try (vm_compute; reflexivity).
  intros o H. repeat destruct H as [<- | H]; simpl; auto. contradiction.
Qed.

(** "A rejected station answers nothing": it answers requests that it does not support, and what it cannot read. *)
Theorem C115_silent_refuted :
  exists h, stands h = Refused /\
    snd (step plain (fst (run plain 100 h)) (ORecv (GCall false KOther 5 None))) = [EError 5 "NotSupported"] /\
    snd (step plain (fst (run plain 100 h)) (ORecv GGarbage)) = [EError (-1) "GenericError"].
Proof.
  exists [conf RRejected 10; OConnect; OStart [] 1]. repeat apply conj; vm_compute; reflexivity.
Qed.

(** A history that meets the hypotheses: the station starts with a message left over, is told to wait, a meter value
    waits and a status is lost, a status that was asked for is sent; then it is accepted *)
Definition story : list op :=
  [OSend {| mty := MStatus; mid := 5 |} false; OHbTimer 6; conf RAccepted 0; OBootTimer 4;
   OSend {| mty := MStatus; mid := 3 |} true; OSend {| mty := MStatus; mid := 2 |} false;
   OSend {| mty := MMeter; mid := 1 |} false; conf RPending 0; OConnect; OStart [stop_tx] 0].

Example C115_story :
  no_stop story /\ accepted story = true /\ next_boot (skipn 3 story) = None /\ next_boot (skipn 4 story) = Some 60 /\
  stands (skipn 3 story) = Waiting /\ treats (stands (skipn 3 story)) KRemoteStop = RefusedAnswer /\
  free plain 900 (skipn 3 story) = [{| mty := MBoot; mid := 0 |}; {| mty := MStatus; mid := 3 |}; {| mty := MBoot; mid := 4 |}] /\
  due plain 900 story = [stop_tx; {| mty := MBoot; mid := 0 |}; {| mty := MSec; mid := 0 |}; {| mty := MMeter; mid := 1 |};
                         {| mty := MStatus; mid := 3 |}; {| mty := MBoot; mid := 4 |}; {| mty := MHeartbeat; mid := 6 |};
                         {| mty := MStatus; mid := 5 |}] /\
  beats 900 story = Some 900.
Proof.
  repeat apply conj; try (vm_compute; reflexivity).
  intros o H. unfold story in H. simpl in H. repeat destruct H as [<- | H]; simpl; auto. contradiction.
Qed.

(** *** C116: triggers *)

(** TriggerMessage.req is accepted iff there is such a connector and, for meter values, one of those meant has measured
    something; then exactly the messages asked for are sent, and none otherwise. *)
Theorem C116_trigger : forall ms t c, ms <> [] ->
  let n := Z.of_nat (List.length ms) - 1 in
  let (a, l) := handleTriggerMessageRequest ms t c in
  (a = true <-> names_connector n c /\
                (t = TMeter -> exists k, meant n c k /\ nth_error ms (Z.to_nat k) <> Some NoMeasurement)) /\
  (a = false -> l = []) /\ NoDup l /\
  (a = true -> forall x, In x l <->
     match t with
     | TBoot => x = (MBoot, None)
     | TDiagnostics => x = (MDiag, None)
     | TFirmware => x = (MFirmware, None)
     | THeartbeat => x = (MHeartbeat, None)
     | TMeter => exists k, meant n c k /\ nth_error ms (Z.to_nat k) = Some Useful /\ x = (MMeter, Some k)
     | TStatus => exists k, meant n c k /\ x = (MStatus, Some k)
     end).
Proof.
  intros ms t c NE n.
  assert (N : 0 <= n) by (unfold n; destruct ms; [congruence | cbn [List.length]; lia]).
  assert (MO : forall k v, 0 <= k <= n -> (meas_of ms k = v <-> nth_error ms (Z.to_nat k) = Some v)).
  { intros k v K. unfold meas_of. rewrite (nth_error_nth' ms NoMeasurement) by (unfold n in *; lia).
    split; [now intros -> | now intros [= ->]]. }
  assert (HM : forall k, 0 <= k <= n -> (has_measurement (meas_of ms k) = true <-> nth_error ms (Z.to_nat k) <> Some NoMeasurement)).
  { intros k K. rewrite <- (MO k NoMeasurement K). destruct (meas_of ms k); simpl; split; congruence. }
  assert (EX : existsb has_measurement ms = true <->
               exists k, 0 <= k <= n /\ nth_error ms (Z.to_nat k) <> Some NoMeasurement).
  { rewrite existsb_exists. split.
    - intros (m & I & H). destruct (In_nth_error _ _ I) as [i X].
      assert (i < List.length ms)%nat by (apply nth_error_Some; congruence).
      exists (Z.of_nat i). rewrite Nat2Z.id. split; [unfold n; lia|]. rewrite X. intros [= ->]. discriminate.
    - intros (k & K & X). exists (meas_of ms k). split; [apply nth_In; unfold n in *; lia | now apply HM]. }
  assert (ND : NoDup (map (fun k => (MStatus, Some k)) (connectors_to n)) /\ NoDup (flat_map (send_meter ms) (connectors_to n))).
  { pose proof (connectors_to_nodup n) as D. induction (connectors_to n) as [|k r IH]; [split; constructor|].
    inversion D; subst. destruct (IH H2) as [I1 I2]. split; simpl.
    - constructor; [|exact I1]. rewrite in_map_iff. intros (z & [= ->] & Z). contradiction.
    - unfold send_meter at 1. destruct (meas_of ms k); simpl; auto. constructor; [|exact I2].
      rewrite in_flat_map. intros (z & Z & Y). apply send_meter_in in Y. destruct Y as [[= <-] _]. contradiction. }
  destruct ND as [ND1 ND2].
  unfold handleTriggerMessageRequest. fold n.
  set (k0 := match c with Some c => c | None => 0 end).
  destruct ((k0 <? 0) || (n <? k0)) eqn:OK; cbn [negb].
  - assert (~ names_connector n c).
    { unfold names_connector, k0 in *. destruct c as [z|]; [|lia]. lia. }
    split; [split; [discriminate | tauto]|]. split; [auto|]. split; [constructor | discriminate].
  - assert (NC : names_connector n c) by (unfold names_connector, k0 in *; destruct c as [z|]; [lia | auto]).
    assert (ONE : forall (x y : tmsg), In y [x] <-> y = x) by (intros x y; simpl; split; [intros [<- | []]; auto | intros ->; auto]).
    assert (N1 : forall x : tmsg, NoDup [x]) by (intros x; repeat constructor; auto).
    destruct t; cbn zeta; try (split; [|split; [|split]]; auto; try discriminate; intros; try apply ONE;
                    split; auto; intros _; split; [exact NC | discriminate]).
    + assert (G : (match c with Some z => has_measurement (meas_of ms z) | None => existsb has_measurement ms end) = true <->
                  exists k, meant n c k /\ nth_error ms (Z.to_nat k) <> Some NoMeasurement).
      { destruct c as [z|]; [|exact EX]. simpl in NC. rewrite (HM z NC). split.
        - intros H. exists z. simpl. auto.
        - intros (k & [-> _] & H). exact H. }
      destruct (match c with Some z => has_measurement (meas_of ms z) | None => existsb has_measurement ms end).
      * split; [|split; [|split]]; try discriminate.
        -- split; auto. intros _. split; [exact NC | intros _; exact (proj1 G eq_refl)].
        -- destruct c as [z|]; [|exact ND2]. unfold send_meter. destruct (meas_of ms z); [constructor | constructor | apply N1].
        -- intros _ x. destruct c as [z|].
           ++ simpl in NC. rewrite send_meter_in, (MO z Useful NC). simpl. split.
              ** intros [-> H]. exists z. auto.
              ** intros (k & [-> _] & H & ->). auto.
           ++ rewrite in_flat_map. simpl. split.
              ** intros (k & K & H). apply (connectors_to_in n k N) in K. apply send_meter_in in H.
                 destruct H as [-> H]. exists k. rewrite <- (MO k Useful K). auto.
              ** intros (k & K & H & ->). exists k. rewrite (connectors_to_in n k N), send_meter_in, (MO k Useful K). auto.
      * split; [split; [discriminate | intros [_ H]; exact (proj2 G (H eq_refl))]|].
        split; [auto|]. split; [constructor | discriminate].
    + split; [|split; [|split]]; try discriminate.
      * split; auto. intros _. split; [exact NC | discriminate].
      * destruct c as [z|]; auto.
      * intros _ x. destruct c as [z|].
        -- rewrite ONE. simpl in *. split; [intros ->; exists z; auto | intros (k & [-> _] & ->); auto].
        -- rewrite in_map_iff. simpl. split.
           ++ intros (k & <- & K). exists k. rewrite <- (connectors_to_in n k N). auto.
           ++ intros (k & K & ->). exists k. rewrite (connectors_to_in n k N). auto.
Qed.

(** ExtendedTriggerMessage.req likewise, but for meter values only of the connector named, or 0. *)
Theorem C116_extended : forall cpo csr ms t c, ms <> [] ->
  let n := Z.of_nat (List.length ms) - 1 in
  let (a, l) := handleExtendedTriggerMessageRequest cpo csr ms t c in
  (a = true <-> names_connector n c /\ (t = XSign -> cpo = true)) /\
  (a = false -> l = []) /\ NoDup l /\
  (a = true -> forall x, In x l <->
     match t with
     | XBoot => x = (MBoot, None)
     | XFirmware => x = (MSigned, None)
     | XHeartbeat => x = (MHeartbeat, None)
     | XLog => x = (MLog, None)
     | XMeter => exists k, k = match c with Some k => k | None => 0 end /\
                           nth_error ms (Z.to_nat k) = Some Useful /\ x = (MMeter, Some k)
     | XSign => csr = true /\ x = (MSign, None)
     | XStatus => exists k, meant n c k /\ x = (MStatus, Some k)
     end).
Proof.
  intros cpo csr ms t c NE n.
  assert (N : 0 <= n) by (unfold n; destruct ms; [congruence | cbn [List.length]; lia]).
  assert (MO : forall k v, 0 <= k <= n -> (meas_of ms k = v <-> nth_error ms (Z.to_nat k) = Some v)).
  { intros k v K. unfold meas_of. rewrite (nth_error_nth' ms NoMeasurement) by (unfold n in *; lia).
    split; [now intros -> | now intros [= ->]]. }
  assert (ND1 : NoDup (map (fun k => (MStatus, Some k)) (connectors_to n))).
  { pose proof (connectors_to_nodup n) as D. induction (connectors_to n) as [|k r IH]; [constructor|].
    inversion D; subst. simpl. constructor; [|exact (IH H2)]. rewrite in_map_iff. intros (z & [= ->] & Z). contradiction. }
  unfold handleExtendedTriggerMessageRequest. fold n.
  set (k0 := match c with Some c => c | None => 0 end).
  destruct ((k0 <? 0) || (n <? k0)) eqn:OK.
  - assert (F : ~ names_connector n c).
    { unfold names_connector, k0 in *. destruct c as [z|]; [|lia]. lia. }
    rewrite <- orb_assoc, OK, orb_true_r. cbn [negb].
    split; [split; [discriminate | tauto]|]. split; [auto|]. split; [constructor | discriminate].
  - assert (NC : names_connector n c) by (unfold names_connector, k0 in *; destruct c as [z|]; [lia | auto]).
    assert (K0 : 0 <= k0 <= n) by (apply orb_false_iff in OK; lia).
    assert (ONE : forall (x y : tmsg), In y [x] <-> y = x) by (intros x y; simpl; split; [intros [<- | []]; auto | intros ->; auto]).
    assert (N1 : forall x : tmsg, NoDup [x]) by (intros x; repeat constructor; auto).
    rewrite <- orb_assoc, OK, orb_false_r. cbn zeta. rewrite negb_involutive.
    destruct t; cbn zeta iota; try (split; [|split; [|split]]; auto; try discriminate; intros; try apply ONE;
                    split; auto; intros _; split; [exact NC | discriminate]).
    + split; [|split; [|split]]; try discriminate.
      * split; auto. intros _. split; [exact NC | discriminate].
      * unfold send_meter. destruct (meas_of ms k0); [constructor | constructor | apply N1].
      * intros _ x. rewrite send_meter_in, (MO k0 Useful K0). split.
        -- intros [-> H]. exists k0. auto.
        -- intros (k & -> & H & ->). auto.
    + destruct cpo.
      * split; [split; auto|]. split; [discriminate|]. split; [destruct csr; [apply N1 | constructor]|].
        intros _ x. split.
        -- intros H. destruct csr; [|contradiction]. apply ONE in H. auto.
        -- intros [-> ->]. now left.
      * split; [split; [discriminate | intros [_ H]; specialize (H eq_refl); discriminate]|].
        split; [auto|]. split; [constructor | discriminate].
    + split; [|split; [|split]]; try discriminate.
      * split; auto. intros _. split; [exact NC | discriminate].
      * destruct c as [z|]; auto.
      * intros _ x. destruct c as [z|].
        -- rewrite ONE. simpl in *. split; [intros ->; exists z; auto | intros (k & [-> _] & ->); auto].
        -- rewrite in_map_iff. simpl. split.
           ++ intros (k & <- & K). exists k. rewrite <- (connectors_to_in n k N). auto.
           ++ intros (k & K & ->). exists k. rewrite (connectors_to_in n k N). auto.
Qed.

(** "What is accepted is sent": not if nothing configured was measured. *)
Theorem C116_accepted_refuted :
  exists ms c, handleTriggerMessageRequest ms TMeter c = (true, []).
Proof. exists [NoMeasurement; Useless], None. reflexivity. Qed.

(** "Without a connector, all are meant": not for meter values in ExtendedTriggerMessage.req. *)
Theorem C116_all_refuted :
  exists ms, nth_error ms 1 = Some Useful /\
    handleExtendedTriggerMessageRequest true true ms XMeter None = (true, []) /\
    snd (handleTriggerMessageRequest ms TMeter None) = [(MMeter, Some 1)].
Proof. exists [NoMeasurement; Useful]. repeat split. Qed.

Example C116_case :
  handleTriggerMessageRequest [NoMeasurement; Useful; Useless] TStatus None =
    (true, [(MStatus, Some 0); (MStatus, Some 1); (MStatus, Some 2)]) /\
  handleTriggerMessageRequest [NoMeasurement; Useful; Useless] TMeter (Some 0) = (false, []) /\
  handleTriggerMessageRequest [NoMeasurement; Useful; Useless] TStatus (Some 3) = (false, []) /\
  handleExtendedTriggerMessageRequest true true [NoMeasurement; Useful; Useless] XMeter (Some 1) = (true, [(MMeter, Some 1)]) /\
  handleExtendedTriggerMessageRequest false true [NoMeasurement; Useful; Useless] XSign None = (false, []).
Proof. repeat split. Qed.

Print Assumptions C115_gate.
Print Assumptions C115_unsupported.
Print Assumptions C115_before.
Print Assumptions C115_after.
Print Assumptions C115_answer.
Print Assumptions C115_timers.
Print Assumptions C115_reconnect.
Print Assumptions C115_restart.
Print Assumptions C115_restarted_refuted.
Print Assumptions C115_last_answer_refuted.
Print Assumptions C115_interval_refuted.
Print Assumptions C115_asks_again_refuted.
Print Assumptions C115_checks_refuted.
Print Assumptions C115_silent_refuted.
Print Assumptions C116_trigger.
Print Assumptions C116_extended.
Print Assumptions C116_accepted_refuted.
Print Assumptions C116_all_refuted.
