(** C91-C99: transactions, availability and remote control of an OCPP 1.6 station. *)
From Coq Require Import ZArith NArith List Bool Lia Sorting.Sorted.
From Verif Require Import T16Model T16Spec T16Proofs T16Proofs2 T16Proofs3 T16Proofs4 T16Proofs5 T16Proofs6 T16Proofs7 T16Proofs8.
Import ListNotations.
Local Open Scope Z_scope.

(** A history of a station with [n] connectors, and what was observed. *)
Definition after (n : Z) (h : list op) : st := fst (run h (initial n)).
Definition saw (n : Z) (h : list op) : list (op * list out) := events h (initial n).
Definition known (n : Z) (h : list op) : obs := watch (saw n h) nothing.
Lemma after_inv : forall n h, fine (saw n h) nothing -> inv (after n h) (known n h).
Proof. intros n h F. apply run_inv; auto. apply inv_initial. Qed.
Lemma after_timed : forall n h, fine (saw n h) nothing -> timed (after n h).
Proof. intros n h F. apply (run_timed h (initial n) nothing); auto. apply timed_initial. Qed.
Lemma after_n : forall n h, T16Model.n (after n h) = n.
Proof.
  assert (G : forall h s, T16Model.n (fst (run h s)) = T16Model.n s).
  { induction h as [ | o h IH ]; intros s; auto. cbn [run].
    assert (E : T16Model.n (fst (step o s)) = T16Model.n s).
    { unfold step. destruct (dead s). { destruct o; auto. now destruct (boot_keeps resuming restore s). }
      destruct o; auto.
      - unfold started, push. destruct (in_range s c); auto. unfold insert_row. destruct (existsb _ _); auto.
      - unfold stop, stop_transaction, push. destruct (in_range s c); auto. destruct (act s c); auto.
      - unfold meter, push. destruct (in_range s c); auto. destruct (act s c) as [t | ]; [ destruct (periodic && _) | destruct periodic ]; auto. cbn [fst]. destruct last; [ destruct periodic | ]; destruct (0 <? c), (t_id t); auto.
      - unfold deliver. destruct (q s) as [ | p0 r ]; auto. destruct (send_head p0 (set_q s r)) as [s1 p] eqn:E. apply send_head_core in E as (_ & _ & _ & _ & _ & _ & _ & _ & _ & E4). change (T16Model.n (set_q s r)) with (T16Model.n s) in E4. destruct (p_body p).
        + destruct (start_conf_keeps (p_mid p) tid ok parent inv s1) as [E _]. destruct (start_conf _ _ _ _ _ _). cbn [fst] in *. congruence.
        + destruct (stop_conf_core (p_mid p) id s1) as (_ & _ & E). destruct (stop_conf _ _ _). cbn [fst] in *. congruence.
        + exact E4.
      - unfold sent. destruct (q s) as [ | p0 r ]; auto. destruct (send_head p0 s) as [s1 p] eqn:E. now apply send_head_core in E as (_ & _ & _ & _ & _ & _ & _ & _ & _ & E4).
      - unfold retry. destruct (q s) as [ | p0 r ]; auto. destruct (send_head p0 s) as [s1 p] eqn:E. apply send_head_core in E as (_ & _ & _ & _ & _ & _ & _ & _ & _ & E4). cbn [fst].
        destruct (p_body p); auto. match goal with |- context [change_tx ?a ?f ?x] => destruct (keeps_change a f x) as [K _] end. rewrite K. auto.
      - unfold give_up. destruct (q s) as [ | p0 r ]; auto. destruct (send_head p0 (set_q s r)) as [s1 p] eqn:E. now apply send_head_core in E as (_ & _ & _ & _ & _ & _ & _ & _ & _ & E4).
      - now destruct (boot_keeps resuming restore s).
      - now destruct (avail_core c up prep s).
      - now destruct (T16Proofs2.queued_core c s).
      - now destruct (firmware_core signed x s).
      - unfold change_interval. destruct (existsb _ _); auto. }
    specialize (IH (fst (step o s))). destruct (step o s) as [s1 o1]. cbn [fst] in *. destruct (run h s1). cbn [fst] in *. congruence. }
  intros n h. apply (G h (initial n)).
Qed.

(** ** C91 *)
Theorem C91_stop_carries_the_transaction_id : forall n h o p id mt tm why tag, fine (saw n h) nothing -> fine1 o (known n h) ->
  In (OSend p) (snd (step o (after n h))) -> p_body p = BStop id mt tm why tag ->
  exists m, In (p_init p, m) (ostop (known n h)) /\ (forall i, In (m, i) (ans (known n h)) -> id = i)
    /\ (~ In GiveUp h -> In (m, id) (ans (known n h))).
Proof.
  intros n h o p id mt tm why tag F F1 X B. assert (I := after_inv n h F). destruct (step_inv o _ _ I F1) as [_ T].
  assert (S : is_stop p) by (unfold is_stop; now rewrite B). assert (SI : stop_id p = Some id) by (unfold stop_id; now rewrite B).
  destruct (T p X S) as [m [A C]]. exists m. split; auto. split.
  - intros i Y. apply C in Y. congruence.
  - intros G. assert (W : waiting (after n h) (known n h)).
    { apply wait_run; auto; [ | apply inv_initial ]. intros k [[c K] | [c K]]; [ discriminate | destruct K ]. }
    destruct (answered_before_stop o _ _ p I W F1 X S) as [m' [i (A1 & A2 & A3)]].
    assert (m' = m) by (eapply i_ostop_fun; eauto; exact I). subst. congruence.
Qed.
Definition ex_start : op := Started 1 7 5 1000 None 100 (-11).
Definition ex_stop : op := Stopped 1 EVDisconnected 200 2500 (Some 5%N) true.
Example C91_stop_carries_the_transaction_id_ex :
  let h := [ex_start; ex_stop; Started 1 8 6 2500 None 210 (-12); Deliver 77 true None false] in
  fine (saw 1 h) nothing /\ fine1 (Deliver 0 true None false) (known 1 h) /\ ~ In GiveUp h
  /\ snd (step (Deliver 0 true None false) (after 1 h)) = [OSend (P 1 (BStop 77 2500 200 EVDisconnected (Some 5%N)) 1 (BStop (-11) 2500 200 EVDisconnected (Some 5%N)))].
Proof. cbn zeta. split; [ vm_compute; repeat split | ]. split; [ exact Logic.I | ]. split; [ cbn; intuition discriminate | vm_compute; reflexivity ]. Qed.
Definition sends (l : list out) : list body := flat_map (fun x => match x with OSend p => [p_body p] | _ => [] end) l.
(** A transaction that ended before its StartTransaction.req was answered, and a restart: the StopTransaction.req is sent with the
    made-up id, and a second one with the right id follows. *)
Theorem C91_stop_carries_the_transaction_id_after_a_restart_refuted : exists h,
  h = [ex_start; ex_stop; Deliver 77 true None false; Boot [] true; Deliver 0 true None false; Deliver 0 true None false]
  /\ sends (snd (run h (initial 1))) = [BStart 1 5 1000 100 None; BStop (-11) 2500 200 EVDisconnected (Some 5%N); BStop 77 2500 200 PowerLoss None].
Proof. eexists. split; [ reflexivity | vm_compute; reflexivity ]. Qed.
(** ** C92 *)
Theorem C92_meter_values_carry_the_transaction_id_partial : forall n h o p c x v, fine (saw n (h ++ [o])) nothing -> no_start_retry (saw n (h ++ [o])) ->
  In (OSend p) (snd (step o (after n h))) -> p_body p = BMeter c x v ->
  forall i, x = Some i <-> exists m, In (p_init p, m) (ometer (known n h)) /\ In (m, i) (ans (known n h)).
Proof.
  intros n h o p c x v F NR X B.
  assert (EV : saw n (h ++ [o]) = saw n h ++ [(o, snd (step o (after n h)))]).
  { unfold saw, after. generalize (initial n). clear. induction h as [ | a h IH ]; intros s; auto. cbn [app events run]. destruct (step a s) as [s1 o1]. cbn [fst snd]. rewrite IH. destruct (run h s1). reflexivity. }
  assert (FA : forall l b, fine (l ++ [(o, snd (step o (after n h)))]) b -> fine l b /\ fine1 o (watch l b)).
  { clear. induction l as [ | [a y] l IH ]; intros b; cbn; [ tauto | ]. intros [A1 A2]. apply IH in A2. tauto. }
  rewrite EV in *. apply FA in F as [F F1].
  assert (NR' : no_start_retry (saw n h)) by (intros y m c' tag w t r i g Y; apply (NR y m c' tag w t r i g); apply in_app_iff; auto).
  assert (IM : invm (after n h) (known n h)) by (apply m_run; auto; apply invm_initial).
  destruct (m_step o _ _ IM F1) as [_ K].
  { intros -> y Y S. unfold is_start in S. destruct y as [pm pb pi po]. cbn in S. destruct pb; try contradiction. eapply NR; [ apply in_app_iff; right; left; reflexivity | exact Y ]. }
  intros i. specialize (K p X). unfold knows, is_meter, meter_id in K. rewrite B in K. apply (K Logic.I i).
Qed.
Example C92_meter_values_carry_the_transaction_id_partial_ex :
  let h := [ex_start; Meter 1 true 3 (Some (Stamp 150 1500)); Deliver 77 true None false] in
  fine (saw 1 (h ++ [Sent])) nothing /\ no_start_retry (saw 1 (h ++ [Sent]))
  /\ sends (snd (step Sent (after 1 h))) = [BMeter 1 (Some 77) 3].
Proof.
  cbn zeta. split; [ vm_compute; repeat split | ]. split; [ | vm_compute; reflexivity ].
  intros x m c tag w t r i g X. vm_compute in X. intuition discriminate.
Qed.
(** StartTransaction.req is sent a second time: meter values made before that are sent without the transaction. *)
Theorem C92_meter_values_after_a_retry_refuted : exists h, h = [ex_start; Meter 1 true 3 None; Retry; Deliver 77 true None false; Sent]
  /\ fine (saw 1 h) nothing /\ sends (snd (run h (initial 1))) = [BStart 1 5 1000 100 None; BStart 1 5 1000 100 None; BMeter 1 None 3].
Proof. eexists. split; [ reflexivity | ]. split; [ vm_compute; repeat split | vm_compute; reflexivity ]. Qed.

(** A transaction that is resumed before its StartTransaction.req was answered: its meter values have the made-up id; and those of its
    timer are not made. *)
Theorem C92_meter_values_after_a_restart_refuted : exists h, h = [ex_start; Boot [7%N] true; Meter 1 true 2 None; Meter 1 false 3 None; Deliver 77 true None false; Sent]
  /\ pushed (snd (run h (initial 1))) = [BStart 1 5 1000 100 None; BMeter 1 (Some (-11)) 3]
  /\ sends (snd (run h (initial 1))) = [BStart 1 5 1000 100 None; BMeter 1 (Some (-11)) 3].
Proof. eexists. split; [ reflexivity | split; vm_compute; reflexivity ]. Qed.

(** ** C93 *)
Theorem C93_starts_and_stops_are_reported : forall n h c, fine (saw n h) nothing ->
  (forall sess tag wh resv time iid, pushed (snd (step (Started c sess tag wh resv time iid) (after n h)))
     = if (0 <=? c) && (c <=? n) then [BStart c tag (Z.max (-2147483648) (Z.min 2147483647 wh)) time resv] else [])
  /\ (forall why time wh tag unlock, exists id,
        pushed (snd (step (Stopped c why time wh tag unlock) (after n h)))
        = match cur (known n h) c with Some _ => [BStop id (Z.max (-2147483648) (Z.min 2147483647 wh)) time why tag] | None => [] end
        /\ (forall m i, cur (known n h) c = Some m -> In (m, i) (ans (known n h)) -> id = i)
        /\ (In (OUnlock c) (snd (step (Stopped c why time wh tag unlock) (after n h))) <-> cur (known n h) c <> None /\ why = EVDisconnected /\ unlock = true)).
Proof.
  intros n h c F. assert (I := after_inv n h F). destruct (after_timed n h F) as [D T]. unfold step. rewrite D. split.
  - intros. unfold started, in_range, push. rewrite after_n. destruct (_ && _); reflexivity.
  - intros. unfold stop. destruct (in_range (after n h) c) eqn:R.
    + destruct (act (after n h) c) as [t | ] eqn:A.
      * destruct (i_act _ _ _ _ _ _ _ _ I c t A) as [m (A1 & _ & _ & _ & _ & _ & A2)]. rewrite A1. eexists. split; [ | split ].
        -- unfold stop_transaction, push. cbn [snd]. rewrite pushed_app. destruct why, unlock; reflexivity.
        -- intros m' i E X. inversion E; subst. apply A2 in X. now rewrite X.
        -- unfold stop_transaction, push. cbn [snd]. rewrite !in_app_iff. destruct why, unlock; cbn; intuition (try congruence; try discriminate).
      * apply (act_cur _ _ c I) in A. rewrite A. exists 0. cbn. intuition congruence.
    + assert (A : act (after n h) c = None).
      { destruct (act (after n h) c) as [t | ] eqn:A; auto. destruct (i_act _ _ _ _ _ _ _ _ I c t A) as [m (_ & A1 & _)]. unfold in_range in R. apply andb_false_iff in R. rewrite !Z.leb_gt in R. lia. }
      apply (act_cur _ _ c I) in A. rewrite A. exists 0. cbn. intuition congruence.
Qed.
Example C93_starts_and_stops_are_reported_ex : let h := [ex_start; Deliver 77 true None false] in
  fine (saw 1 h) nothing /\ cur (known 1 h) 1 = Some 0%N /\ In (0%N, 77) (ans (known 1 h))
  /\ snd (step ex_stop (after 1 h)) = [OUnlock 1; OPush (P 1 (BStop 77 2500 200 EVDisconnected (Some 5%N)) 1 (BStop 77 2500 200 EVDisconnected (Some 5%N))); OTxStopped 1 7 77].
Proof. cbn zeta. split; [ vm_compute; repeat split | ]. split; [ reflexivity | ]. split; [ now left | vm_compute; reflexivity ]. Qed.
(** What is sent, also after restarts, was pushed before, and only the transaction id can differ. *)
Theorem C93_messages_keep_their_data : forall n h o p, In (OSend p) (snd (step o (after n h))) ->
  exists b e, same_but_id b (p_body p) /\ In e (saw n h) /\ In (OPush (P (p_init p) b (p_init p) b)) (snd e).
Proof.
  intros n h o p X.
  assert (A : forall p, In p (q (after n h)) -> came (saw n h) p) by (intros x Y; apply (came_run h (initial n) []); auto; intros ? []).
  assert (NB : forall r x, o <> Boot r x).
  { intros r x ->. destruct (boot_from r x (after n h)) as [_ B]. unfold step in X. destruct (dead _); now apply B in X. }
  destruct (sent_head o _ p X NB) as [p0 [r (Q & E1 & _ & E2 & E3)]]. destruct (A p0) as [B [e [C E]]]. rewrite Q; now left.
  exists (p_orig p), e. split; [ | split; auto; now rewrite E1, E2 ]. rewrite E2. destruct E3 as [-> | [i ->]]; auto. now apply same_set.
Qed.
Example C93_messages_keep_their_data_ex : let h := [ex_start; ex_stop; Deliver 77 true None false; Boot [] true] in
  sends (snd (step Sent (after 1 h))) = [BStop (-11) 2500 200 EVDisconnected (Some 5%N)].
Proof. vm_compute. reflexivity. Qed.

(** ** C94 *)
Theorem C94_restart_closes_transactions : forall R restore s, NoDup (map w_tid (filter (fun w => negb (w_ack w)) (rows s))) ->
  (forall b, In b (pushed (snd (step (Boot R restore) s)))
     <-> exists w, In w (rows s) /\ w_ack w = false /\ ~ stop_stored s w /\ ~ In (w_sess w) R /\ b = closing w)
  /\ (forall w, In w (rows s) -> w_ack w = false -> In (w_sess w) R -> ~ stop_stored s w ->
        (forall v, In v (rows s) -> w_ack v = false -> v <> w -> w_conn v <> w_conn w) ->
        exists t, act (fst (step (Boot R restore) s)) (w_conn w) = Some t /\ t_sess t = w_sess w /\ t_id t = Some (w_tid w) /\ t_tag t = w_tag w /\ t_start t = w_start w).
Proof.
  intros R restore s ND. assert (E : step (Boot R restore) s = boot R restore s) by (unfold step; destruct (dead s); reflexivity). rewrite E.
  destruct (boot_eq R restore s ND) as [A B].
  assert (NS : forall w, negb (stop_queued (w_tid w) (loaded s)) = true <-> ~ stop_stored s w) by (intros w; rewrite negb_true_iff, <- loaded_queued; destruct (stop_queued _ _); intuition congruence).
  assert (EX : forall w, existsb (N.eqb (w_sess w)) R = true <-> In (w_sess w) R).
  { intros w. rewrite existsb_exists. split. intros [x [X Y]]. apply N.eqb_eq in Y. now subst. intros X. exists (w_sess w). now rewrite N.eqb_refl. }
  split.
  - intros b. rewrite A, in_map_iff. split.
    + intros [w [<- X]]. rewrite !filter_In in X. destruct X as [[X1 X2] X3]. exists w. unfold closes in X3. apply andb_true_iff in X3 as [X3 X4]. apply NS in X3. apply negb_true_iff in X2, X4.
      split; auto. split; auto. split; auto. split; auto. rewrite <- EX. congruence.
    + intros [w (X1 & X2 & X3 & X4 & ->)]. exists w. split; auto. rewrite !filter_In. rewrite X2. split; auto. unfold closes. apply andb_true_iff. split. now apply NS.
      apply negb_true_iff. rewrite <- EX in X4. destruct (existsb _ R); congruence.
  - intros w W1 W2 W3 W4 W5. assert (W : In w (filter (fun w => negb (w_ack w)) (rows s))) by (apply filter_In; now rewrite W2).
    apply in_split in W as [l1 [l2 SP]]. exists (resumed w). rewrite (B l1 w l2 SP).
    + apply NS in W4. apply EX in W3. rewrite W3, W4. cbn. auto 6.
    + intros v V. assert (V' : In v (filter (fun w => negb (w_ack w)) (rows s))) by (rewrite SP, in_app_iff; cbn; auto). apply filter_In in V' as [V1 V2]. apply negb_true_iff in V2.
      apply W5; auto. intros ->. rewrite SP, map_app in ND. cbn in ND. apply NoDup_remove_2 in ND. apply ND. apply in_app_iff. right. now apply in_map.
Qed.
Example C94_restart_closes_transactions_ex : let s := after 2 [ex_start; Meter 1 true 3 (Some (Stamp 150 1500)); Started 2 8 6 10 None 120 (-12); Deliver 77 true None false] in
  map w_tid (filter (fun w => negb (w_ack w)) (rows s)) = [77; -12]
  /\ pushed (snd (step (Boot [8%N] true) s)) = [BStop 77 1500 150 PowerLoss None]
  /\ option_map t_sess (act (fst (step (Boot [8%N] true) s)) 2) = Some 8%N.
Proof. vm_compute. repeat split. Qed.
(** A transaction that is running when power is lost is closed with the id that the CSMS gave and the last meter value. *)
Theorem C94_power_loss : forall n h c m restore, fine (saw n h) nothing ->
  NoDup (flat_map new_ids (saw n h)) -> NoDup (flat_map sessions (saw n h)) -> cur (known n h) c = Some m ->
  exists id, In (BStop id (Z.max (-2147483648) (Z.min 2147483647 (s_wh (reading (saw n h) c)))) (s_time (reading (saw n h) c)) PowerLoss None)
                (pushed (snd (step (Boot [] restore) (after n h))))
    /\ (forall i, In (m, i) (ans (known n h)) -> id = i) /\ NoDup (pushed (snd (step (Boot [] restore) (after n h)))).
Proof.
  intros n h c m restore F N1 N2 C. assert (E : step (Boot [] restore) (after n h) = boot [] restore (after n h)) by (unfold step; destruct (dead _); reflexivity).
  rewrite E. exact (power_loss n h c m restore F N1 N2 C).
Qed.
Example C94_power_loss_ex : let h := [ex_start; Meter 1 true 3 (Some (Stamp 150 1500)); Retry; Deliver 77 true None false] in
  fine (saw 1 h) nothing /\ flat_map new_ids (saw 1 h) = [-11; 77] /\ flat_map sessions (saw 1 h) = [7%N] /\ cur (known 1 h) 1 = Some 0%N /\ In (0%N, 77) (ans (known 1 h))
  /\ pushed (snd (step (Boot [] true) (after 1 h))) = [BStop 77 1500 150 PowerLoss None].
Proof. cbn zeta. split; [ vm_compute; repeat split | ]. split; [ reflexivity | ]. split; [ reflexivity | ]. split; [ reflexivity | ]. split; [ now left | vm_compute; reflexivity ]. Qed.
(** A CSMS that gives two running transactions the same id, for example 0 to those it rejects: the end of one is taken for the end of
    the other. *)
Theorem C94_power_loss_with_equal_ids_refuted : exists h,
  h = [ex_start; Deliver 0 true None false; Started 2 8 6 2500 None 210 (-12); Deliver 0 true None false; ex_stop; Deliver 0 true None false]
  /\ fine (saw 2 h) nothing /\ cur (known 2 h) 2 = Some 1%N /\ pushed (snd (step (Boot [] true) (after 2 h))) = [].
Proof. eexists. split; [ reflexivity | ]. split; [ vm_compute; repeat split | split; vm_compute; reflexivity ]. Qed.
(** The end of a transaction whose StopTransaction.req was given up is reported after a restart, but as a loss of power. *)
Theorem C94_reason_is_kept_refuted : exists h, h = [ex_start; Deliver 77 true None false; ex_stop; GiveUp]
  /\ fine (saw 1 h) nothing /\ pushed (snd (step (Boot [] true) (after 1 h))) = [BStop 77 2500 200 PowerLoss None].
Proof. eexists. split; [ reflexivity | ]. split; [ vm_compute; repeat split | vm_compute; reflexivity ]. Qed.

(** ** C95 *)
Theorem C95_availability_request : forall c up prep s, dead s = false -> 0 <= n s ->
  let s' := fst (step (Avail c up prep) s) in
  let o := snd (step (Avail c up prep) s) in
  (answered o = [AvRejected] <-> ~ 0 <= c <= n s)
  /\ (answered o = [AvScheduled] <-> exists i, target s c i /\ busy s prep i /\ ~ (i = 0 /\ c = 0))
  /\ (exists a, answered o = [a])
  /\ NoDup (switched o)
  /\ (forall i u, In (i, u) (switched o) <-> u = up /\ target s c i /\ (~ busy s prep i \/ i = 0 /\ (c = 0 \/ ~ busy s prep i)))
  /\ (forall i, avq s' i = Some (up, true) /\ target s c i /\ busy s prep i /\ ~ (i = 0 /\ c = 0)
                \/ avq s' i = avq s i /\ ~ (target s c i /\ busy s prep i /\ ~ (i = 0 /\ c = 0)))
  /\ (forall i, target s c i -> busy s prep i \/ avq s i = None -> avdb s' i = up)
  /\ (forall i, ~ target s c i -> avq s i = None -> avdb s' i = avdb s i).
Proof.
  intros c up prep s D NN. assert (ES : step (Avail c up prep) s = change_availability c up prep s) by (unfold step; now rewrite D). rewrite ES. clear ES. intros s' o.
  assert (BD : forall i, busy s prep i \/ ~ busy s prep i).
  { intros i. destruct (to_schedule s prep i) eqn:E; [ left; now apply to_schedule_spec | right; rewrite <- to_schedule_spec; congruence ]. }
  assert (CC : 0 <= c <= n s \/ ~ 0 <= c <= n s) by lia. destruct CC as [C | C].
  - destruct (change_eq c up prep s C) as (A & W & Q & V). change (snd (change_availability c up prep s)) with o in A, W. change (fst (change_availability c up prep s)) with s' in Q, V. clearbody o s'.
    assert (SN : sched_list s c prep <> [] <-> exists i, target s c i /\ busy s prep i /\ ~ (i = 0 /\ c = 0)).
    { setoid_rewrite <- (sched_spec s c prep); auto. destruct (sched_list s c prep) as [ | z l ]; split; try congruence. intros [i []]. intros _. exists z. now left. }
    assert (TN : forall i, In i (now_list s c prep) <-> target s c i /\ (i = 0 /\ c = 0 \/ ~ busy s prep i)).
    { intros i. unfold now_list. rewrite in_app_iff, filter_In, negb_true_iff, <- to_schedule_spec. unfold target.
      destruct (Z.eqb_spec c 0) as [-> | NC]; cbn [In]; rewrite ?in_conns; destruct (to_schedule s prep i); intuition (try lia; try congruence). }
    split; [ | split; [ | split; [ | split; [ | split; [ | split; [ | split ] ] ] ] ] ].
    + split; [ | tauto ]. rewrite A. destruct (sched_list s c prep); discriminate.
    + rewrite <- SN, A. destruct (sched_list s c prep); split; congruence.
    + eauto.
    + rewrite W. generalize (now_nodup s c prep). generalize (now_list s c prep). induction l as [ | x l IH ]; intros N; cbn; constructor; inversion N; subst; auto.
      intros X. apply in_map_iff in X as [y [E Y]]. inversion E; subst. contradiction.
    + intros i u. rewrite W, in_map_iff. split.
      * intros [x [E X]]. inversion E; subst. apply TN in X. tauto.
      * intros [-> [T H]]. exists i. split; auto. apply TN. split; auto. destruct H as [H | [H1 [H2 | H2]]]; auto.
    + intros i. rewrite Q. rewrite <- (sched_spec s c prep) by auto. destruct (existsb (Z.eqb i) (sched_list s c prep)) eqn:E.
      * left. split; auto. now apply existsb_in in E.
      * right. split; auto. rewrite <- existsb_in. congruence.
    + intros i T H. rewrite V. destruct (existsb (Z.eqb i) (now_list s c prep)) eqn:E; auto. rewrite Q.
      assert (NI : ~ In i (now_list s c prep)) by (rewrite <- existsb_in; congruence). rewrite TN in NI.
      destruct (existsb (Z.eqb i) (sched_list s c prep)) eqn:E2; auto.
      assert (NS : ~ In i (sched_list s c prep)) by (rewrite <- existsb_in; congruence). rewrite sched_spec in NS by auto. destruct (BD i); tauto.
    + intros i T H. rewrite V. destruct (existsb (Z.eqb i) (now_list s c prep)) eqn:E; [ apply existsb_in in E; apply TN in E; tauto | ]. rewrite Q.
      destruct (existsb (Z.eqb i) (sched_list s c prep)) eqn:E2; [ apply existsb_in in E2; apply sched_spec in E2; tauto | ]. now rewrite H.
  - assert (E : change_availability c up prep s = (s, [OAvail AvRejected])).
    { unfold change_availability, preprocess. replace ((c <=? n s) && (0 <=? c)) with false; auto. symmetry. apply andb_false_iff. rewrite !Z.leb_gt. lia. }
    subst s' o. rewrite E. cbn [fst snd answered switched flat_map app].
    assert (NT : forall i, ~ target s c i) by (intros i [X _]; contradiction).
    split; [ tauto | ]. split; [ split; [ discriminate | intros [i [X _]]; now apply NT in X ] | ]. split; [ eauto | ]. split; [ constructor | ].
    split; [ intros i u; split; [ intros [] | intros [_ [X _]]; now apply NT in X ] | ]. split; [ intros i; right; split; auto; intros [X _]; now apply NT in X | ].
    split; auto. intros i X. now apply NT in X.
Qed.
Example C95_availability_request_ex : let s := after 2 [ex_start] in
  dead s = false /\ n s = 2 /\ snd (step (Avail 0 false (fun _ => false)) s) = [OAvail AvScheduled; OZero false; ODisable 0; ODisable 2]
  /\ avq (fst (step (Avail 0 false (fun _ => false)) s)) 1 = Some (false, true) /\ avdb (fst (step (Avail 0 false (fun _ => false)) s)) 1 = false.
Proof. vm_compute. repeat split. Qed.
(** A scheduled change is made at the end of the session, or when the StopTransaction.req is answered. *)
Theorem C95_scheduled_changes_are_made : forall s c up p, dead s = false -> avq s c = Some (up, p) ->
  switched (snd (step (SessionStopped c) s)) = [(c, up)] /\ avq (fst (step (SessionStopped c) s)) c = None
  /\ (forall tid ok parent inv x r t id m tm y g, q s = x :: r -> find (fun e => N.eqb (fst e) (p_mid x)) (txmap s) = None -> p_body x = BStop id m tm y g ->
        (forall d v, act s d = Some v -> t_smid v <> p_mid x /\ t_emid v <> Some (p_mid x)) ->
        find (has_mid (p_mid x)) (stopped s) = Some t -> t_conn t = c -> fw s = false ->
        switched (snd (step (Deliver tid ok parent inv) s)) = [(c, up)] /\ avq (fst (step (Deliver tid ok parent inv) s)) c = None).
Proof.
  intros s c up p D A. unfold step. rewrite D.
  assert (QC : switched (snd (execute_queued c s)) = [(c, up)] /\ avq (fst (execute_queued c s)) c = None).
  { unfold execute_queued. rewrite A. split. now rewrite execute_switched. unfold execute_changes. cbn [fst]. destruct p; cbn [avq set_avdb set_avq]; unfold upd; now rewrite Z.eqb_refl. }
  destruct QC as [Q1 Q2]. split; auto. split; auto. intros tid ok parent inv x r t id m tm y g Q TM B NA F T W.
  unfold deliver. rewrite Q. unfold send_head. cbn [txmap set_q]. rewrite TM. cbn [p_body p_mid]. rewrite B.
  assert (AW : active_with (p_mid x) (set_q s r) = None).
  { clear TM F. unfold active_with. destruct (find _ _) as [d | ] eqn:FD; auto. apply find_some in FD as [_ FD]. cbn [act set_q] in FD. destruct (act s d) as [v | ] eqn:V; [ | discriminate ].
    destruct (NA d v V) as [N1 N2]. unfold has_mid, opt_is in FD. apply orb_true_iff in FD as [FD | FD]. apply N.eqb_eq in FD. contradiction. destruct (t_emid v); [ | discriminate ]. apply N.eqb_eq in FD. congruence. }
  unfold stop_conf, get_tx. rewrite AW. cbn [stopped set_q]. rewrite F, T.
  assert (QC : switched (snd (execute_queued c (set_q s r))) = [(c, up)] /\ avq (fst (execute_queued c (set_q s r))) c = None /\ fw (fst (execute_queued c (set_q s r))) = false).
  { unfold execute_queued. cbn [avq set_q]. rewrite A. split. now rewrite execute_switched. unfold execute_changes. cbn [fst]. destruct p; cbn [avq fw set_avdb set_avq set_q]; unfold upd; now rewrite Z.eqb_refl. }
  destruct (execute_queued c (set_q s r)) as [s1 o1]. cbn [fst snd] in QC. destruct QC as (C1 & C2 & C3). cbn [fw set_stopped ack_rows set_rows]. rewrite C3.
  cbn [fst snd]. rewrite app_nil_r. split; auto.
Qed.
Example C95_scheduled_changes_are_made_ex : let s := after 1 [ex_start; Deliver 77 true None false; Avail 1 false (fun _ => false); ex_stop] in
  dead s = false /\ avq s 1 = Some (false, true) /\ map p_mid (q s) = [1%N] /\ act s 1 = None /\ map t_emid (stopped s) = [Some 1%N]
  /\ snd (step (Deliver 0 true None false) s) = [OSend (P 1 (BStop 77 2500 200 EVDisconnected (Some 5%N)) 1 (BStop 77 2500 200 EVDisconnected (Some 5%N))); ODisable 1].
Proof. vm_compute. repeat split. Qed.
(** After any number of restarts connectors are as last requested. *)
Theorem C95_last_request_counts_partial : forall n h, orderly h (initial n) ->
  forall c, 0 <= c <= n -> avdb (after n h) c = wanted c (saw n h)
    /\ (forall u p, avq (after n h) c = Some (u, p) -> u = wanted c (saw n h))
    /\ forall R, In (if wanted c (saw n h) then OEnable c else ODisable c) (snd (step (Boot R true) (after n h))).
Proof.
  intros n h O c C. assert (OK : avail_ok (after n h) (fun c => wanted c (saw n h))).
  { apply (ok_run h (initial n) (fun _ => true)); auto. split; auto. split; auto. discriminate. }
  destruct OK as (_ & A & B). rewrite after_n in *. split; [ auto | ]. split. intros u p X. now destruct (B c u p C X).
  intros R. assert (E : step (Boot R true) (after n h) = boot R true (after n h)) by (unfold step; destruct (dead _); reflexivity). rewrite E.
  destruct (boot_avail R (after n h)) as (_ & _ & _ & X). rewrite after_n in X. rewrite <- (A c C). auto.
Qed.
Definition idle : Z -> bool := fun _ => false.
Example C95_last_request_counts_partial_ex : let h := [Avail 2 false idle; ex_start; Avail 1 false idle; Avail 2 true idle; Boot [7%N] true] in
  orderly h (initial 2) /\ (wanted 1 (saw 2 h), wanted 2 (saw 2 h)) = (false, true).
Proof.
  cbn zeta. split; [ | vm_compute; reflexivity ]. cbn [orderly orderly1]. split; [ intros i _; right; reflexivity | ]. split; [ exact Logic.I | ]. split; [ | split; [ | split; exact Logic.I ] ].
  - intros i [_ [-> | [X _]]]; [ | discriminate ]. left. split; [ | discriminate ]. left. eexists. split; vm_compute; reflexivity.
  - intros i [_ [-> | [X _]]]; [ | discriminate ]. right. vm_compute. reflexivity.
Qed.
(** A change that was scheduled is not forgotten when the opposite is requested and made. *)
Theorem C95_last_request_counts_refuted : exists h,
  h = [Avail 1 false (fun _ => true); Avail 1 true idle; SessionStopped 1]
  /\ wanted 1 (saw 1 h) = true /\ avdb (after 1 h) 1 = false /\ switched (snd (run h (initial 1))) = [(1, true); (1, false)].
Proof. eexists. split; [ reflexivity | ]. vm_compute. repeat split. Qed.
(** What is scheduled for a firmware update is stored with the next request, whatever that is about. *)
Theorem C95_other_connectors_are_left_alone_refuted : exists h,
  h = [ex_start; Firmware false FwDownloaded; Avail 2 true idle] /\ wanted 1 (saw 2 h) = true /\ avdb (after 2 h) 1 = false.
Proof. eexists. split; [ reflexivity | ]. vm_compute. repeat split. Qed.
(** The answer to the StopTransaction.req of an earlier transaction makes the change while another one is running. *)
Theorem C95_running_transactions_are_waited_for_refuted : exists h,
  h = [ex_start; ex_stop; Started 1 8 6 2500 None 210 (-12); Deliver 77 true None false; Avail 1 false idle; Deliver 0 true None false]
  /\ fine (saw 1 h) nothing /\ cur (known 1 h) 1 = Some 2%N /\ answered (snd (run h (initial 1))) = [AvScheduled] /\ switched (snd (run h (initial 1))) = [(1, false)].
Proof. eexists. split; [ reflexivity | ]. split; [ vm_compute; repeat split | ]. vm_compute. repeat split. Qed.
(** The StopTransaction.req is sent a second time: its answer does not make the change. *)
Theorem C95_scheduled_changes_are_made_after_a_retry_refuted : exists h,
  h = [ex_start; Deliver 77 true None false; Avail 1 false idle; ex_stop; Retry; Deliver 0 true None false]
  /\ fine (saw 1 h) nothing /\ cur (known 1 h) 1 = None /\ q (after 1 h) = [] /\ switched (snd (run h (initial 1))) = [] /\ List.length (stopped (after 1 h)) = 1%nat.
Proof. eexists. split; [ reflexivity | ]. split; [ vm_compute; repeat split | ]. vm_compute. repeat split. Qed.

(** ** C96 *)
Theorem C96_remote_start : forall n h c tag profile status other authorize, fine (saw n h) nothing -> 1 <= n ->
  let l := match c with Some i => [i] | None => map Z.of_nat (seq 1 (Z.to_nat n)) end in
  let out := snd (step (RemoteStart c tag profile status other authorize) (after n h)) in
  (exists i, meant n c i /\ startable (known n h) status other i)
  /\ (match profile with None => out = [ORemote true; OToken tag l (negb authorize)]
                       | Some (valid, isx) => exists i, c = Some i /\ valid = true /\ isx = true /\ out = [OProfile i; ORemote true; OToken tag l (negb authorize)] end)
  \/ ~ ((exists i, meant n c i /\ startable (known n h) status other i)
        /\ (match profile with None => True | Some (valid, isx) => (exists i, c = Some i) /\ valid = true /\ isx = true end))
     /\ out = [ORemote false].
Proof.
  intros n h c tag profile status other authorize F N. destruct (after_timed n h F) as [D _]. unfold step. rewrite D. cbn [snd].
  assert (X := remote_start_spec (after n h) (known n h) c tag profile status other authorize (after_inv n h F)). rewrite after_n in X. unfold conns in X. rewrite after_n in X. exact (X N).
Qed.
Example C96_remote_start_ex : let h := [ex_start] in fine (saw 2 h) nothing
  /\ snd (step (RemoteStart None 9 None (fun c => if c =? 1 then CsOther else CsReserved) (Some (fun _ => false)) true) (after 2 h)) = [ORemote true; OToken 9 [1; 2] false]
  /\ snd (step (RemoteStart (Some 1) 9 None (fun _ => CsOther) None true) (after 2 h)) = [ORemote false]
  /\ snd (step (RemoteStart (Some 2) 9 (Some (true, true)) (fun _ => CsAvailable) None false) (after 2 h)) = [OProfile 2; ORemote true; OToken 9 [2] true].
Proof. cbn zeta. split; [ vm_compute; repeat split | ]. vm_compute. repeat split. Qed.
Theorem C96_remote_stop : forall n h tid, fine (saw n h) nothing ->
  (exists c m, cur (known n h) c = Some m /\ In (m, tid) (ans (known n h)) /\ snd (step (RemoteStop tid) (after n h)) = [ORemote true; OStopTx c Remote])
  \/ (forall c m, cur (known n h) c = Some m -> ~ In (m, tid) (ans (known n h))) /\ snd (step (RemoteStop tid) (after n h)) = [ORemote false].
Proof. intros n h tid F. destruct (after_timed n h F) as [D _]. unfold step. rewrite D. cbn [snd]. apply remote_stop_spec. now apply after_inv. Qed.
Example C96_remote_stop_ex : let h := [ex_start; Started 2 8 6 10 None 120 (-12); Deliver 76 true None false; Deliver 77 true None false] in fine (saw 2 h) nothing
  /\ snd (step (RemoteStop 77) (after 2 h)) = [ORemote true; OStopTx 2 Remote] /\ snd (step (RemoteStop 78) (after 2 h)) = [ORemote false].
Proof. cbn zeta. split; [ vm_compute; repeat split | ]. vm_compute. repeat split. Qed.
Theorem C96_unlock_and_reset : forall n h, fine (saw n h) nothing ->
  (forall c answer stopif,
     snd (step (Unlock c answer stopif) (after n h))
     = if (1 <=? c) && (c <=? n) then
         OUnlock c :: OUnlockResp answer :: (match answer, cur (known n h) c with NotSupported, Some _ => if stopif then [OStopTx c UnlockCommand] else [] | _, _ => [] end)
       else OUnlockResp NotSupported :: (if (c =? 0) && (0 <=? n) then [] else [OThrow]))
  /\ (forall soft allowed, exists l, snd (step (Reset soft allowed) (after n h)) = OReset allowed :: map (fun c => OStopTx c (if soft then SoftReset else HardReset)) l
        /\ NoDup l /\ forall c, In c l <-> allowed = true /\ 1 <= c <= n /\ cur (known n h) c <> None).
Proof.
  intros n h F. assert (I := after_inv n h F). assert (T := after_timed n h F). destruct T as [D T']. assert (T : timed (after n h)) by (split; auto). unfold step. rewrite D. cbn [snd].
  assert (AC : forall c, active (after n h) c = match cur (known n h) c with Some _ => true | None => false end).
  { intros c. assert (X := active_cur _ _ c I T). destruct (cur (known n h) c) as [m | ]; [ apply X; eauto | ]. destruct (active (after n h) c); auto. destruct (proj1 X eq_refl). discriminate. }
  split.
  - intros c answer stopif. unfold unlock, in_range. rewrite after_n. rewrite AC.
    destruct ((1 <=? c) && (c <=? n)) eqn:R.
    + apply andb_true_iff in R. rewrite !Z.leb_le in R. replace ((c <=? 0) || (n <? c)) with false by (symmetry; apply orb_false_iff; rewrite Z.leb_gt, Z.ltb_ge; lia).
      cbn [negb app]. replace ((0 <=? c) && (c <=? n)) with true by (symmetry; apply andb_true_iff; rewrite !Z.leb_le; lia).
      destruct answer; auto. destruct (cur (known n h) c), stopif; reflexivity.
    + apply andb_false_iff in R. rewrite !Z.leb_gt in R. replace ((c <=? 0) || (n <? c)) with true by (symmetry; apply orb_true_iff; rewrite Z.leb_le, Z.ltb_lt; lia).
      cbn [negb app]. assert (C0 : cur (known n h) c = None).
      { destruct (cur (known n h) c) as [m | ] eqn:C; auto. assert (A := i_cur _ _ _ _ _ _ _ _ I c m C). destruct (act (after n h) c) as [t | ] eqn:X; [ | contradiction ].
        destruct (i_act _ _ _ _ _ _ _ _ I c t X) as [m' (_ & Y & _)]. rewrite after_n in Y. lia. }
      rewrite C0. cbn [andb]. f_equal. destruct (Z.eqb_spec c 0) as [-> | NC]; cbn [andb]. destruct (0 <=? n); reflexivity.
      replace ((0 <=? c) && (c <=? n)) with false; auto. symmetry. apply andb_false_iff. rewrite !Z.leb_gt. lia.
  - intros soft allowed. exists (if allowed then filter (active (after n h)) (conns (after n h)) else []). split; [ | split ].
    + unfold reset. f_equal. destruct allowed; auto.
    + destruct allowed; [ apply NoDup_filter, conns_nodup | constructor ].
    + intros c. destruct allowed; cbn; [ | intuition discriminate ]. rewrite filter_In, in_conns, after_n, AC. destruct (cur (known n h) c); intuition (try congruence; try lia).
Qed.
Example C96_unlock_and_reset_ex : let h := [ex_start] in fine (saw 2 h) nothing
  /\ snd (step (Unlock 1 NotSupported true) (after 2 h)) = [OUnlock 1; OUnlockResp NotSupported; OStopTx 1 UnlockCommand]
  /\ snd (step (Reset true true) (after 2 h)) = [OReset true; OStopTx 1 SoftReset].
Proof. cbn zeta. split; [ vm_compute; repeat split | ]. vm_compute. repeat split. Qed.

(** ** C97 *)
Theorem C97_connectors_are_taken_out_of_service : forall n h (signed : bool) x, fine (saw n h) nothing ->
  x = (if signed then FwSignatureVerified else FwDownloaded) ->
  let s' := fst (step (Firmware signed x) (after n h)) in
  let o := snd (step (Firmware signed x) (after n h)) in
  (forall c u, In (c, u) (switched o) <-> u = false /\ 1 <= c <= n /\ cur (known n h) c = None)
  /\ (In OAllUnavailable o <-> forall c, cur (known n h) c = None)
  /\ (forall c, avq s' c = if match cur (known n h) c with Some _ => true | None => false end then Some (false, false) else avq (after n h) c)
  /\ avdb s' = avdb (after n h).
Proof.
  intros n h signed x F -> s' o. assert (I := after_inv n h F). assert (T := after_timed n h F).
  assert (ES : step (Firmware signed (if signed then FwSignatureVerified else FwDownloaded)) (after n h) = (fst (all_unavailable (set_fw (after n h) true)), snd (all_unavailable (set_fw (after n h) true)))).
  { unfold step. rewrite (proj1 T). unfold firmware. destruct signed; cbn [fw_next fw_ends]; destruct (all_unavailable _) as [a b]; now rewrite app_nil_r. }
  subst s' o. rewrite ES. cbn [fst snd].
  assert (X := all_unavailable_spec (set_fw (after n h) true) (known n h)). cbn zeta in X. change (T16Model.n (set_fw (after n h) true)) with (T16Model.n (after n h)) in X. rewrite after_n in X. apply X.
  - exact I.
  - eapply timed_core; [ | | exact T ]; reflexivity.
Qed.
Example C97_connectors_are_taken_out_of_service_ex : let h := [ex_start] in fine (saw 2 h) nothing
  /\ snd (step (Firmware false FwDownloaded) (after 2 h)) = [ODisable 2] /\ avq (fst (step (Firmware false FwDownloaded) (after 2 h))) 1 = Some (false, false)
  /\ snd (step (Firmware true FwSignatureVerified) (after 2 [])) = [ODisable 1; ODisable 2; OAllUnavailable].
Proof. cbn zeta. split; [ vm_compute; repeat split | ]. vm_compute. repeat split. Qed.
(** When a StopTransaction.req is answered meanwhile, the rest follows; the callback is called as soon as no transaction runs. *)
Theorem C97_the_rest_follows : forall n h tid ok parent inv p r id mt tm why tag, fine (saw n h) nothing -> q (after n h) = p :: r -> p_body p = BStop id mt tm why tag ->
  let o := snd (step (Deliver tid ok parent inv) (after n h)) in
  (In OAllUnavailable o <-> updating h = true /\ forall c, cur (known n h) c = None)
  /\ (updating h = true -> forall c, 1 <= c <= n -> cur (known n h) c = None -> In (ODisable c) o).
Proof.
  intros n h tid ok parent inv p r id mt tm why tag F Q B o. assert (I := after_inv n h F). assert (T := after_timed n h F).
  assert (U : fw (after n h) = updating h) by (apply (fw_run h (initial n) nothing); auto; apply timed_initial).
  subst o. unfold step. rewrite (proj1 T). unfold deliver. rewrite Q. destruct (send_head p (set_q (after n h) r)) as [s1 p1] eqn:E.
  assert (B1 : exists i, p_body p1 = BStop i mt tm why tag) by (unfold send_head in E; destruct (find _ _) as [[k j] | ]; inversion E; subst; cbn; rewrite B; cbn; eauto).
  destruct B1 as [i B1]. rewrite B1. apply send_head_core in E as (E1 & E2 & E3 & _ & _ & _ & _ & _ & E4 & E5). change (fw (set_q (after n h) r)) with (fw (after n h)) in E4. rewrite U in E4. change (act (set_q (after n h) r)) with (act (after n h)) in E2. change (T16Model.n (set_q (after n h) r)) with (T16Model.n (after n h)) in E5. rewrite after_n in E5. cbn [dead set_q] in E1.
  unfold stop_conf.
  assert (C : let x := match get_tx (p_mid p1) s1 with Some t => execute_queued (t_conn t) s1 | None => (s1, []) end in
     dead (fst x) = dead s1 /\ act (fst x) = act s1 /\ fw (fst x) = fw s1 /\ T16Model.n (fst x) = T16Model.n s1 /\ ~ In OAllUnavailable (snd x)).
  { destruct (get_tx (p_mid p1) s1) as [t | ]; cbn zeta; [ | cbn; auto 6 ]. destruct (queued_all (t_conn t) s1) as (A1 & A2 & _ & _ & _ & _ & _ & A3 & A4). split; auto. split; auto. split; auto. split; auto.
    unfold execute_queued. destruct (avq s1 (t_conn t)) as [[u y] | ]; cbn; auto. destruct (t_conn t =? 0), u; cbn; intuition discriminate. }
  cbn zeta in C. destruct (match get_tx (p_mid p1) s1 with Some t => execute_queued (t_conn t) s1 | None => (s1, []) end) as [s2 o2]. cbn [fst snd] in C. destruct C as (C1 & C2 & C3 & C4 & C5).
  set (s3 := set_stopped _ _). assert (D : act s3 = act (after n h) /\ fw s3 = updating h /\ T16Model.n s3 = n) by (unfold s3; cbn; rewrite C2, C3, C4, E2, E4, E5; auto). clearbody s3. destruct D as (D1 & D2 & D3). rewrite D2.
  assert (AU : let o := snd (all_unavailable s3) in (In OAllUnavailable o <-> forall c, cur (known n h) c = None) /\ forall c, 1 <= c <= n -> cur (known n h) c = None -> In (ODisable c) o).
  { assert (AC : forall c, active s3 c = match cur (known n h) c with Some _ => true | None => false end).
    { intros c. unfold active. rewrite D1. assert (X := active_cur _ _ c I T). unfold active in X. destruct (cur (known n h) c) as [m | ]; [ apply X; eauto | ]. destruct (match act (after n h) c with Some t => t_active t | None => false end); auto. destruct (proj1 X eq_refl). discriminate. }
    assert (BL : forall c, In c (filter (active s3) (conns s3)) <-> cur (known n h) c <> None).
    { intros c. rewrite filter_In, in_conns, AC, D3. destruct (cur (known n h) c) as [m | ] eqn:K; [ | intuition congruence ]. assert (A := i_cur _ _ _ _ _ _ _ _ I c m K). destruct (act (after n h) c) as [t | ] eqn:X; [ | contradiction ].
      destruct (i_act _ _ _ _ _ _ _ _ I c t X) as [m' (_ & Y & _)]. rewrite after_n in Y. intuition congruence. }
    unfold all_unavailable. cbn [snd]. split.
    - rewrite in_app_iff, in_map_iff. split.
      + intros [[y [X _]] | X]; [ discriminate | ]. destruct (filter (active s3) (conns s3)) as [ | z l ] eqn:FF; [ | destruct X ]. intros c. destruct (cur (known n h) c) eqn:K; auto. exfalso. apply (BL c). congruence.
      + intros N. right. destruct (filter (active s3) (conns s3)) as [ | z l ] eqn:FF; [ now left | ]. exfalso. apply (BL z). now left. apply N.
    - intros c K N. apply in_app_iff. left. apply in_map. rewrite filter_In, in_conns, D3, AC, N. cbn. intuition lia. }
  cbn zeta in AU. destruct AU as [AU1 AU2]. destruct (updating h).
  - destruct (all_unavailable s3) as [s4 o4]. cbn [snd] in *. split.
    + cbn [In]. rewrite in_app_iff, AU1. intuition discriminate.
    + intros _ c K N. right. apply in_app_iff. right. auto.
  - cbn [snd]. rewrite app_nil_r. cbn [In]. split; [ intuition discriminate | discriminate ].
Qed.
Example C97_the_rest_follows_ex : let h := [ex_start; Deliver 77 true None false; Firmware false FwDownloaded; ex_stop] in fine (saw 1 h) nothing
  /\ updating h = true /\ map p_body (q (after 1 h)) = [BStop 77 2500 200 EVDisconnected (Some 5%N)]
  /\ tl (snd (step (Deliver 0 true None false) (after 1 h))) = [ODisable 1; ODisable 1; OAllUnavailable].
Proof. cbn zeta. split; [ vm_compute; repeat split | ]. vm_compute. repeat split. Qed.
(** Afterwards the connectors that are to be available are enabled. *)
Theorem C97_connectors_are_put_back_into_service : forall s signed x c, dead s = false -> x = FwInstalled \/ x = FwInstallationFailed \/ x = FwVerificationFailed -> 0 <= c <= n s ->
  fw s = false \/ x <> FwInstalled ->
  (In (OEnable c) (snd (step (Firmware signed x) s)) <-> avdb s c = true).
Proof.
  intros s signed x c D X C FW. unfold step. rewrite D. unfold firmware.
  assert (FE : fw_ends x = true) by (destruct X as [-> | [-> | ->]]; reflexivity). rewrite FE.
  assert (G : forall s1 : st, avdb s1 = avdb s -> n s1 = n s -> (In (OEnable c) (flat_map (fun c => if avdb s1 c then (if c =? 0 then [OZero true] else []) ++ [OEnable c] else []) (slots s1)) <-> avdb s c = true)).
  { intros s1 A1 A2. rewrite A1, in_flat_map. split.
    - intros [i [_ Y]]. destruct (avdb s i) eqn:V; [ | destruct Y ]. apply in_app_iff in Y as [Y | Y]. destruct (i =? 0); cbn in Y; intuition discriminate. destruct Y as [Y | []]. inversion Y; subst; auto.
    - intros V. exists c. split. unfold slots. destruct (Z.eq_dec c 0); [ left; auto | right; apply in_conns; lia ]. rewrite V. apply in_app_iff. right. now left. }
  assert (NX : match fw_next signed x (fw s) with Some true => False | _ => True end).
  { destruct X as [-> | [-> | ->]], signed, (fw s); cbn; auto; destruct FW as [FW | FW]; try discriminate; congruence. }
  destruct (fw_next signed x (fw s)) as [[ | ] | ]; [ destruct NX | | ]; cbn [snd app]; apply G; reflexivity.
Qed.
Example C97_connectors_are_put_back_into_service_ex : let s := after 2 [Avail 2 false idle; Firmware false FwDownloaded] in
  dead s = false /\ fw s = true /\ snd (step (Firmware false FwInstallationFailed) s) = [OZero true; OEnable 0; OEnable 1].
Proof. vm_compute. repeat split. Qed.
(** Installed does not end the update: the end of the next transaction takes the connectors out of service again. *)
Theorem C97_installed_ends_the_update_refuted : exists h,
  h = [Firmware false FwDownloaded; Firmware false FwInstalled; ex_start; Deliver 77 true None false; ex_stop; Deliver 0 true None false]
  /\ fine (saw 1 h) nothing
  /\ switched (snd (step (Firmware false FwInstalled) (after 1 [Firmware false FwDownloaded]))) = [(1, false); (0, true); (1, true)]
  /\ switched (snd (run h (initial 1))) = [(1, false); (1, false); (0, true); (1, true); (1, false)].
Proof. eexists. split; [ reflexivity | ]. split; [ vm_compute; repeat split | ]. vm_compute. repeat split. Qed.

(** ** C98 *)
Theorem C98_no_undefined_behaviour_without_restart : forall n h, fine (saw n h) nothing -> ~ In OUB (snd (run h (initial n))).
Proof. intros n h F. apply (run_timed h (initial n) nothing); auto. apply timed_initial. Qed.
Example C98_no_undefined_behaviour_without_restart_ex : fine (saw 1 [ex_start; ChangeInterval; ex_stop]) nothing.
Proof. vm_compute. repeat split. Qed.
(** A resumed transaction has no timer, which is used when the sample interval is changed. *)
Theorem C98_no_undefined_behaviour_refuted : exists h, h = [ex_start; Boot [7%N] true; ChangeInterval] /\ In OUB (snd (run h (initial 1))).
Proof. eexists. split; [ reflexivity | ]. vm_compute. repeat (try (left; reflexivity); right). Qed.

(** ** C99 *)
Theorem C99_answers_concern_their_transaction_partial : forall n h tid ok parent stop_invalid p r c, fine (saw n h) nothing ->
  q (after n h) = p :: r -> (exists a b d e f, p_body p = BStart a b d e f) -> cur (known n h) c = Some (p_init p) ->
  exists tag sess x, snd (step (Deliver tid ok parent stop_invalid) (after n h))
    = OSend x :: OCache tag ok :: (if ok then [] else OPause c :: if stop_invalid then [OStopTx c DeAuthorized] else []) ++ [OTxUpdated c sess tid ok].
Proof.
  intros n h tid ok parent iv p r c F Q (a & b & d & e & f & B) C. assert (I := after_inv n h F). assert (T := after_timed n h F).
  assert (PS : is_start p) by (unfold is_start; now rewrite B). assert (FS := find_start _ _ p r I Q PS).
  unfold step. rewrite (proj1 T). unfold deliver. rewrite Q.
  destruct (send_head p (set_q (after n h) r)) as [s1 p1] eqn:E.
  assert (E1 : p_mid p1 = p_mid p /\ (exists a b d e f, p_body p1 = BStart a b d e f) /\ act s1 = act (after n h) /\ T16Model.n s1 = T16Model.n (after n h)).
  { clear FS. unfold send_head in E. destruct (find _ _) as [[k j] | ]; inversion E; subst; (split; [ reflexivity | ]); (split; [ cbn; rewrite ?B; cbn; eauto 8 | split; reflexivity ]). }
  destruct E1 as (E1 & (a' & b' & d' & e' & f' & B1) & E2 & E3). rewrite B1, E1. unfold start_conf, get_tx. rewrite (active_with_ext (p_mid p) (after n h) s1) by auto.
  destruct (active_with (p_mid p) (after n h)) as [c' | ].
  - destruct FS as [t (A1 & A2 & A3 & _ & _)]. assert (c' = c) by (eapply i_cur_inj; [ exact I | exact A3 | exact C ]). subst c'. rewrite E2, A1.
    assert (TC : t_conn t = c) by (apply (proj2 T c t A1)). rewrite TC. cbn [snd]. eauto.
  - destruct FS as (_ & X & _). now apply X in C.
Qed.
Example C99_answers_concern_their_transaction_partial_ex : let h := [ex_start] in fine (saw 1 h) nothing /\ cur (known 1 h) 1 = Some 0%N
  /\ tl (snd (step (Deliver 77 false None true) (after 1 h))) = [OCache 5 false; OPause 1; OStopTx 1 DeAuthorized; OTxUpdated 1 7 77 false].
Proof. cbn zeta. split; [ vm_compute; repeat split | ]. vm_compute. repeat split. Qed.
(** The id tag of a transaction that is over was not accepted: the next transaction of the connector is paused and stopped. *)
Theorem C99_answers_concern_their_transaction_refuted : exists h,
  h = [ex_start; ex_stop; Started 1 8 6 2500 None 210 (-12)] /\ fine (saw 1 h) nothing /\ cur (known 1 h) 1 = Some 2%N
  /\ snd (step (Deliver 77 false None true) (after 1 h)) = [OSend (P 0 (BStart 1 5 1000 100 None) 0 (BStart 1 5 1000 100 None)); OCache 5 false; OPause 1; OStopTx 1 DeAuthorized; OTxUpdated 1 7 77 false].
Proof. eexists. split; [ reflexivity | ]. split; [ vm_compute; repeat split | ]. vm_compute. repeat split. Qed.
(** The authorization that comes with the answer to a StopTransaction.req is not kept. *)
Theorem C99_stop_answers_update_the_cache_refuted : exists h tag, h = [ex_start; Deliver 77 true None false; ex_stop] /\ tag = 5%N
  /\ sends (snd (step (Deliver 0 false None false) (after 1 h))) = [BStop 77 2500 200 EVDisconnected (Some tag)]
  /\ forall ok x, ~ In (OCache x ok) (snd (step (Deliver 0 false None false) (after 1 h))).
Proof. do 2 eexists. split; [ reflexivity | ]. split; [ reflexivity | ]. split; [ vm_compute; reflexivity | ]. intros ok x. vm_compute. intuition discriminate. Qed.

Print Assumptions C91_stop_carries_the_transaction_id.
Print Assumptions C91_stop_carries_the_transaction_id_after_a_restart_refuted.
Print Assumptions C92_meter_values_carry_the_transaction_id_partial.
Print Assumptions C92_meter_values_after_a_retry_refuted.
Print Assumptions C92_meter_values_after_a_restart_refuted.
Print Assumptions C93_starts_and_stops_are_reported.
Print Assumptions C93_messages_keep_their_data.
Print Assumptions C94_restart_closes_transactions.
Print Assumptions C94_power_loss.
Print Assumptions C94_power_loss_with_equal_ids_refuted.
Print Assumptions C94_reason_is_kept_refuted.
Print Assumptions C95_availability_request.
Print Assumptions C95_scheduled_changes_are_made.
Print Assumptions C95_last_request_counts_partial.
Print Assumptions C95_last_request_counts_refuted.
Print Assumptions C95_other_connectors_are_left_alone_refuted.
Print Assumptions C95_running_transactions_are_waited_for_refuted.
Print Assumptions C95_scheduled_changes_are_made_after_a_retry_refuted.
Print Assumptions C96_remote_start.
Print Assumptions C96_remote_stop.
Print Assumptions C96_unlock_and_reset.
Print Assumptions C97_connectors_are_taken_out_of_service.
Print Assumptions C97_the_rest_follows.
Print Assumptions C97_connectors_are_put_back_into_service.
Print Assumptions C97_installed_ends_the_update_refuted.
Print Assumptions C98_no_undefined_behaviour_without_restart.
Print Assumptions C98_no_undefined_behaviour_refuted.
Print Assumptions C99_answers_concern_their_transaction_partial.
Print Assumptions C99_answers_concern_their_transaction_refuted.
Print Assumptions C99_stop_answers_update_the_cache_refuted.
