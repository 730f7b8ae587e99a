(** Proofs about the message queue, third part: the worker, failures, queue size, pause, promises, dispatcher. *)
From Coq Require Import List ZArith NArith Bool Lia Permutation.
From Verif Require Import MQModel MQSpec MQProofs MQProofs2.
Import ListNotations.
Open Scope Z_scope.

(** ** The worker *)

Lemma allowed_ready s now m : allowed m now (s_acc s) = true <-> ready s now m.
Proof.
  unfold allowed, ready. destruct (m_stall m), (s_acc s); cbn; destruct (Z.ltb_spec now (m_ts m)) as [L|L];
    intuition (try discriminate; try lia).
Qed.
Lemma not_allowed_ready s now m : allowed m now (s_acc s) = false <-> ~ ready s now m.
Proof. rewrite <- allowed_ready. destruct (allowed _ _ _); split; congruence. Qed.

Lemma find_allowed_first s now pre m post : find_allowed (s_nq s) now (s_acc s) = Some (pre, m, post) ->
  first_ready s now m.
Proof.
  intros H. apply find_allowed_spec in H as (E & A & F). exists pre, post. split; [assumption|].
  split; [apply allowed_ready; assumption|]. eapply Forall_impl; [|exact F]. intros x. apply not_allowed_ready.
Qed.
Lemma find_allowed_none s now : find_allowed (s_nq s) now (s_acc s) = None -> forall m, ~ first_ready s now m.
Proof.
  intros H m (pre & post & E & R & _). rewrite E in H. clear E. induction pre as [|x pre IH]; cbn in H.
  - apply allowed_ready in R. rewrite R in H. discriminate.
  - destruct (allowed x now (s_acc s)); [discriminate|]. destruct (find_allowed _ _ _) as [[[? ?] ?]|]; [discriminate|auto].
Qed.
Lemma first_ready_unique s now m m' : first_ready s now m -> first_ready s now m' -> m = m'.
Proof.
  intros (p & q & E & R & F) (p' & q' & E' & R' & F'). rewrite E in E'. clear E.
  revert p' E' F'. induction p as [|x p IH]; intros [|x' p'] E' F'; cbn in E'; inversion E'; subst; auto.
  - inversion F'; subst. contradiction.
  - inversion F; subst. contradiction.
  - inversion F; subst. inversion F'; subst. eapply IH; eauto.
Qed.

Lemma select_due s now m : (exists pre post, select s now = SelNormal pre m post) \/ (exists rest, select s now = SelTx m rest) <->
  due s now m.
Proof.
  assert (FR : forall pre n post, find_allowed (s_nq s) now (s_acc s) = Some (pre, n, post) -> forall n', first_ready s now n' -> n' = n).
  { intros pre n post E n' Hn'. eapply first_ready_unique; [exact Hn'|]. eapply find_allowed_first; eauto. }
  split.
  - intros [(pre & post & E)|(rest & E)].
    + pose proof (select_normal _ _ _ _ _ E) as Ef. apply due_normal; [eapply find_allowed_first; eauto|].
      intros t rest Et Hr. unfold select in E. rewrite Et, Ef in E. apply allowed_ready in Hr. rewrite Hr in E. cbn in E.
      destruct (mtype_eqb (m_type m) TBoot) eqn:Eb; [left; apply mtype_eqb_eq; assumption|].
      destruct (m_ts t <=? m_ts m) eqn:El; [discriminate|]. right; lia.
    + pose proof (select_tx _ _ _ _ E) as [Et Ea]. apply (due_tx s now m rest); [assumption|apply allowed_ready; assumption|].
      intros n Hn. unfold select in E. rewrite Et, Ea in E. cbn in E.
      destruct (find_allowed (s_nq s) now (s_acc s)) as [[[pre n'] post]|] eqn:Ef.
      * rewrite (FR _ _ _ eq_refl n Hn). destruct (mtype_eqb (m_type n') TBoot) eqn:Eb; [discriminate|].
        destruct (m_ts m <=? m_ts n') eqn:El; [|discriminate]. split; [|lia].
        intros E'. apply mtype_eqb_eq in E'. congruence.
      * exfalso. eapply find_allowed_none; eauto.
  - intros [t rest Et Hr Hn|n Hn Ht].
    + right. exists rest. unfold select. rewrite Et. pose proof Hr as Hr'. apply allowed_ready in Hr'. rewrite Hr'. cbn.
      destruct (find_allowed (s_nq s) now (s_acc s)) as [[[pre n'] post]|] eqn:Ef; [|reflexivity].
      destruct (Hn n') as [H1 H2]; [eapply find_allowed_first; eauto|].
      assert (mtype_eqb (m_type n') TBoot = false) as ->.
      { apply not_true_is_false. intros E. apply mtype_eqb_eq in E. contradiction. }
      assert (m_ts t <=? m_ts n' = true) as -> by lia. reflexivity.
    + left. destruct (find_allowed (s_nq s) now (s_acc s)) as [[[pre n'] post]|] eqn:Ef;
        [|exfalso; eapply find_allowed_none; eauto].
      rewrite <- (FR _ _ _ eq_refl n Hn) in *. exists pre, post. unfold select. rewrite Ef.
      destruct (s_tq s) as [|t rest]; [reflexivity|].
      destruct (allowed t now (s_acc s)) eqn:Ea; [|reflexivity]. cbn.
      apply allowed_ready in Ea. destruct (Ht t rest eq_refl Ea) as [Hb|Hb].
      * rewrite (FR _ _ _ eq_refl n Hn) in Hb. assert (mtype_eqb (m_type n) TBoot = true) as -> by (apply mtype_eqb_eq; rewrite (FR _ _ _ eq_refl n Hn); assumption).
        reflexivity.
      * destruct (mtype_eqb (m_type n) TBoot); [reflexivity|]. assert (m_ts t <=? m_ts n = false) as -> by lia. reflexivity.
Qed.

Lemma prepare_same m map : same_message (prepare m map) m /\ m_att (prepare m map) = m_att m + 1 /\
  m_tx (prepare m map) = match lookup (m_id m) map with Some t => Some t | None => m_tx m end.
Proof. unfold prepare. cbn. destruct (lookup (m_id m) map); repeat split. Qed.

Lemma due_present s now m : due s now m -> no_messages s = false.
Proof.
  unfold no_messages. intros [t rest Et _ _|n (pre & post & En & _) _].
  - rewrite Et. reflexivity.
  - destruct (s_tq s); [|reflexivity]. rewrite En. destruct pre; reflexivity.
Qed.

Lemma held_back_spec s m : held_back s m = false <-> (forall id, s_next s = Some id -> id = m_id m).
Proof.
  unfold held_back. destruct (s_next s) as [n|].
  - destruct (N.eqb_spec n (m_id m)); cbn; split; intros H; try discriminate; auto; intros; try congruence.
    exfalso. apply n0. apply H. reflexivity.
  - split; auto. intros _ ? H. discriminate.
Qed.

(** The worker transmits the message that is due, if it can, and nothing else. *)
Lemma worker_transmits s now ok m : due s now m -> can_send s m ->
  exists m' l, step s (Work now ok) = (fst (step s (Work now ok)), OSend m' ok :: l) /\ same_message m' m /\
    m_att m' = m_att m + 1 /\ no_calls l /\
    m_tx m' = match lookup (m_id m) (s_txmap s) with Some t => Some t | None => m_tx m end.
Proof.
  intros Hd (C1 & C2 & C3 & C4 & C5 & C6).
  assert (E : exists sel, snd (step s (Work now ok)) = snd (transmit sel m now ok s)).
  { cbn [step]. rewrite C1. unfold work. rewrite C2. cbn [negb].
    assert (wake s = true) as ->. { unfold wake. rewrite C3, C4. destruct (s_running s); [rewrite C5 by reflexivity|]; reflexivity. }
    cbn [negb]. unfold iterate. rewrite (due_present _ _ _ Hd), C3, C4.
    apply held_back_spec in C6.
    apply select_due in Hd as [(pre & post & ->)|(rest & ->)]; rewrite C6;
      [exists (SelNormal pre m post)|exists (SelTx m rest)];
      destruct (transmit _ m now ok s); reflexivity. }
  destruct E as [sel E]. destruct (transmit_outs sel m now ok s) as (r & R1 & R2 & R3).
  destruct (prepare_same m (s_txmap s)) as (P1 & P2 & P3).
  exists (prepare m (s_txmap s)), r. split; [rewrite <- R1, <- E; apply surjective_pairing|].
  split; [assumption|]. split; [assumption|]. split; [|exact P3].
  unfold no_calls, quiet in *. rewrite forallb_forall in R2. apply Forall_forall. intros x Hx. apply R2 in Hx. destruct x; auto; discriminate.
Qed.

Lemma transmits_only_due s o m' b : In (OSend m' b) (snd (step s o)) ->
  exists now m, o = Work now b /\ due s now m /\ can_send s m /\ same_message m' m /\ m_att m' = m_att m + 1 /\
    m_tx m' = match lookup (m_id m) (s_txmap s) with Some t => Some t | None => m_tx m end.
Proof.
  intros H.
  assert (Hq : (forall now ok, o <> Work now ok) -> False).
  { intros Hn. apply step_quiet with (s := s) in Hn. unfold quiet in Hn. rewrite forallb_forall in Hn. apply Hn in H. discriminate. }
  destruct o; try (exfalso; apply Hq; discriminate).
  cbn [step] in H. destruct (s_dead s) eqn:Ed; [destruct H|].
  destruct (work_cases now ok s) as [E|(sel & z & H1 & H2 & H3 & H4 & H5 & H6 & H7 & H8)]; [rewrite E in H; destruct H|].
  rewrite H7 in H. destruct (transmit_outs sel z now ok s) as (r & R1 & R2 & R3). rewrite R1 in H.
  destruct H as [H|H].
  - inversion H; subst b m'. exists now, z. split; [reflexivity|].
    split; [apply select_due; destruct H6 as [(p & q & ->)|(r' & ->)]; eauto|].
    destruct (prepare_same z (s_txmap s)) as (P1 & P2 & P3).
    split; [|auto]. unfold can_send. repeat split; auto.
    + intros Hr. clear - H7 R1 H1 H2 H3 Hr Ed. unfold work in H7. rewrite H1 in H7. cbn [negb] in H7.
      destruct (s_new s) eqn:En; [reflexivity|]. unfold wake in H7. rewrite Hr, En, H2 in H7. cbn in H7. rewrite R1 in H7. discriminate.
    + apply held_back_spec. assumption.
  - exfalso. unfold quiet in R2. rewrite forallb_forall in R2. apply R2 in H. discriminate.
Qed.

(** ** Failures of the message in flight *)

Lemma retryable_spec c t : is_tx (c_ver c) t || check_queue c t = true <-> retryable c t.
Proof.
  unfold retryable, check_queue. rewrite is_tx_spec, orb_true_iff, andb_true_iff, negb_true_iff.
  assert (existsb (mtype_eqb t) (c_discard c) = false <-> ~ In t (c_discard c)) as ->; [|tauto].
  split.
  - intros H Hin. assert (existsb (mtype_eqb t) (c_discard c) = true); [|congruence].
    apply existsb_exists. exists t. split; [assumption|apply mtype_eqb_eq; reflexivity].
  - intros H. apply not_true_is_false. intros E. apply existsb_exists in E as (y & Hy & E). apply mtype_eqb_eq in E. subst. auto.
Qed.

Lemma failure_op_step s o err newid now : s_dead s = false -> failure_op s o err newid now ->
  exists s0, step s o = handle_failure err newid now s0 /\ s_fl s0 = s_fl s /\ s_nq s0 = s_nq s /\ s_tq s0 = s_tq s /\
    s_cfg s0 = s_cfg s /\ s_dbt s0 = s_dbt s /\ s_dbn s0 = s_dbn s /\ s_done s0 = s_done s.
Proof.
  unfold failure_op. intros Hd Hf. destruct (s_fl s) as [m|] eqn:Ef; [|contradiction].
  destruct Hf as [[-> ->]|(-> & -> & d & Ea & Hl)]; cbn [step]; rewrite Hd.
  - unfold recv_error. rewrite Ef, N.eqb_refl. exists (set_s_next None s). repeat split. cbn. assumption.
  - rewrite Ea. apply Z.leb_le in Hl. rewrite Hl. exists (set_s_armed None s). repeat split. cbn. assumption.
Qed.

(** A retryable message with attempts left is queued again in front, with a new id and a later time; nothing else in
    the queues or the database changes. *)
Lemma failure_requeues s o err newid now m :
  s_dead s = false -> failure_op s o err newid now -> s_fl s = Some m ->
  retryable (s_cfg s) (m_type m) -> m_att m < c_attempts (s_cfg s) ->
  let s' := fst (step s o) in
  exists m', (if transactional (c_ver (s_cfg s)) (m_type m)
              then s_tq s' = m' :: s_tq s /\ s_nq s' = s_nq s
              else s_nq s' = m' :: s_nq s /\ s_tq s' = s_tq s) /\
    m_id m' = newid /\ m_ts m' = (if 0 <? c_interval (s_cfg s) then m_ts m + c_interval (s_cfg s) * m_att m else now) /\
    m_h m' = m_h m /\ msg_data m' = msg_data m /\ m_att m' = m_att m /\ m_tx m' = m_tx m /\ m_off m' = m_off m /\
    m_stall m' = m_stall m /\
    s_fl s' = None /\ s_armed s' = None /\ s_nt s' = Some (m_ts m') /\ s_dbt s' = s_dbt s /\ s_dbn s' = s_dbn s /\
    snd (step s o) = if match c_ver (s_cfg s), m_type m with V16, TStart => true | _, _ => false end
                     then [ORetry newid (m_id m)] else [].
Proof.
  intros Hd Hf Ef Hr Ha. cbn zeta. destruct (failure_op_step _ _ _ _ _ Hd Hf) as (s0 & -> & F1 & F2 & F3 & F4 & F5 & F6 & F7).
  unfold handle_failure. rewrite F1, Ef, F4. apply retryable_spec in Hr. rewrite Hr.
  assert (m_att m <? c_attempts (s_cfg s) = true) as -> by lia.
  rewrite is_tx_spec. eexists (requeued m newid _). destruct (transactional _ _); cbn; rewrite ?F2, ?F3, ?F5, ?F6; repeat split.
Qed.

(** A retryable message without attempts left is given up: its caller is told, and its row is deleted. *)
Lemma failure_gives_up s o err newid now m :
  s_dead s = false -> failure_op s o err newid now -> s_fl s = Some m ->
  retryable (s_cfg s) (m_type m) -> c_attempts (s_cfg s) <= m_att m -> ~ In (m_h m) (s_done s) ->
  let s' := fst (step s o) in
  snd (step s o) = [OPromise (m_h m) (match err with Some i => PError i | None => POffline end); ODrop m DropAttempts] /\
  s_fl s' = None /\ s_armed s' = None /\ s_tq s' = s_tq s /\ s_nq s' = s_nq s /\
  (if transactional (c_ver (s_cfg s)) (m_type m)
   then s_dbt s' = filter (fun r => negb (N.eqb (r_uid r) (m_init m))) (s_dbt s) /\ s_dbn s' = s_dbn s
   else s_dbn s' = filter (fun r => negb (N.eqb (r_uid r) (m_init m))) (s_dbn s) /\ s_dbt s' = s_dbt s).
Proof.
  intros Hd Hf Ef Hr Ha Hn. cbn zeta. destruct (failure_op_step _ _ _ _ _ Hd Hf) as (s0 & -> & F1 & F2 & F3 & F4 & F5 & F6 & F7).
  unfold handle_failure. rewrite F1, Ef, F4. apply retryable_spec in Hr. rewrite Hr.
  assert (m_att m <? c_attempts (s_cfg s) = false) as -> by lia.
  assert (resolvable (m_h m) s0 = true) as ->.
  { unfold resolvable. rewrite F7. apply negb_true_iff, not_true_is_false. intros E. apply existsb_exists in E as (y & Hy & E).
    apply N.eqb_eq in E. subst. contradiction. }
  rewrite is_tx_spec. destruct (transactional _ _); cbn; unfold db_remove; rewrite ?F2, ?F3, ?F5, ?F6; repeat split.
Qed.

(** A BootNotification that is not retryable is queued again in front without limit; any other such message is given up at once. *)
Lemma failure_boot s o err newid now m :
  s_dead s = false -> failure_op s o err newid now -> s_fl s = Some m ->
  ~ retryable (s_cfg s) (m_type m) -> m_type m = TBoot ->
  let s' := fst (step s o) in
  exists m', s_nq s' = m' :: s_nq s /\ s_tq s' = s_tq s /\ m_id m' = newid /\ m_ts m' = m_ts m + c_bootretry (s_cfg s) /\
    m_h m' = m_h m /\ msg_data m' = msg_data m /\ m_att m' = m_att m /\ m_stall m' = m_stall m /\
    s_fl s' = None /\ s_nt s' = Some (m_ts m') /\ snd (step s o) = [].
Proof.
  intros Hd Hf Ef Hr Ht. cbn zeta. destruct (failure_op_step _ _ _ _ _ Hd Hf) as (s0 & -> & F1 & F2 & F3 & F4 & F5 & F6 & F7).
  unfold handle_failure. rewrite F1, Ef, F4. rewrite <- retryable_spec in Hr. apply not_true_is_false in Hr. rewrite Hr.
  rewrite Ht. cbn. eexists (requeued m newid _). cbn. rewrite F2, F3. rewrite ?Ht. repeat split.
Qed.

Lemma failure_other s o err newid now m :
  s_dead s = false -> failure_op s o err newid now -> s_fl s = Some m ->
  ~ retryable (s_cfg s) (m_type m) -> m_type m <> TBoot -> ~ In (m_h m) (s_done s) ->
  let s' := fst (step s o) in
  snd (step s o) = [OPromise (m_h m) (match err with Some i => PError i | None => POffline end); ODrop m DropUnanswered] /\
  s_fl s' = None /\ s_tq s' = s_tq s /\ s_nq s' = s_nq s /\ s_dbt s' = s_dbt s /\ s_dbn s' = s_dbn s.
Proof.
  intros Hd Hf Ef Hr Ht Hn. cbn zeta. destruct (failure_op_step _ _ _ _ _ Hd Hf) as (s0 & -> & F1 & F2 & F3 & F4 & F5 & F6 & F7).
  unfold handle_failure. rewrite F1, Ef, F4. rewrite <- retryable_spec in Hr. apply not_true_is_false in Hr. rewrite Hr.
  assert (mtype_eqb (m_type m) TBoot = false) as ->.
  { apply not_true_is_false. intros E. apply mtype_eqb_eq in E. contradiction. }
  assert (resolvable (m_h m) s0 = true) as ->.
  { unfold resolvable. rewrite F7. apply negb_true_iff, not_true_is_false. intros E. apply existsb_exists in E as (y & Hy & E).
    apply N.eqb_eq in E. subst. contradiction. }
  cbn. repeat split; assumption.
Qed.

(** *** The time-out *)

(** Operations that end the wait for an answer to [id]. *)
Definition ends_wait (o : op) (id : N) : bool := answers o id.

Lemma armed_kept s o m :
  s_fl s = Some m -> answers o (m_id m) = false -> s_fired s = false -> s_errs s = [] ->
  s_dead s = false ->
  s_fl (fst (step s o)) = Some m /\ s_armed (fst (step s o)) = s_armed s /\ s_fired (fst (step s o)) = false /\
  s_errs (fst (step s o)) = [] /\ s_dead (fst (step s o)) = false.
Proof.
  intros Hf Ha Hfi He Hd.
  assert (Hcs : forall z, s_fl (fst (check_sizes z)) = s_fl z /\ s_armed (fst (check_sizes z)) = s_armed z /\
    s_fired (fst (check_sizes z)) = s_fired z /\ s_errs (fst (check_sizes z)) = s_errs z /\ s_dead (fst (check_sizes z)) = s_dead z).
  { intros z. unfold check_sizes. destruct (over _ _ _); [|repeat split].
    destruct (drop_normal _ _ _ _), (drop_tx _ _ _ _ _). repeat split. }
  destruct o; cbn [step]; rewrite ?Hd; try (repeat split; assumption); try discriminate.
  - unfold push_call. destruct (negb _); [auto|]. destruct (is_tx _ _).
    + unfold add_tx. match goal with |- context [check_sizes ?z] => destruct (Hcs z) as (-> & -> & -> & -> & ->) end. cbn. auto.
    + destruct (_ || _); [|auto]. unfold add_normal. match goal with |- context [check_sizes ?z] => destruct (Hcs z) as (-> & -> & -> & -> & ->) end. cbn. auto.
  - unfold push_call_async. destruct (negb _); [auto|]. destruct (is_tx _ _).
    + unfold add_tx. match goal with |- context [check_sizes ?z] => destruct (Hcs z) as (-> & -> & -> & -> & ->) end. cbn. auto.
    + destruct (_ && _); [auto|]. unfold add_normal. match goal with |- context [check_sizes ?z] => destruct (Hcs z) as (-> & -> & -> & -> & ->) end. cbn. auto.
  - unfold push_reply. destruct (negb _); [auto|]. destruct (s_next s); [destruct (N.eqb _ _)|]; auto.
  - unfold work. destruct (negb _); [auto|]. destruct (negb _); [auto|].
    unfold iterate. destruct (no_messages s); [auto|]. destruct (s_paused s); [auto|]. rewrite Hf. cbn. auto.
  - cbn in Ha. unfold recv_result. rewrite Hf. rewrite N.eqb_sym, Ha. cbn. auto.
  - cbn in Ha. unfold recv_error_begin. rewrite Hf. rewrite N.eqb_sym, Ha. cbn. auto.
  - unfold recv_error_end. rewrite He. auto.
  - cbn in Ha. unfold recv_error. rewrite Hf. rewrite N.eqb_sym, Ha. cbn. auto.
  - unfold timer_run. rewrite Hfi. auto.
  - destruct (s_nt s) as [t|]; [destruct (t <=? now)|]; auto.
  - cbn [fst]. unfold resume. destruct (negb _); [auto|]. destruct (_ && _); [cbn; auto|].
    unfold resume_now. destruct (N.eqb _ _); cbn; auto.
  - cbn [fst]. unfold resume_timer. destruct (existsb _ _); [|auto]. unfold resume_now. destruct (N.eqb _ _); cbn; auto.
  - cbn [fst]. unfold add_meter_id. destruct (lookup _ _); cbn; auto.
  - cbn [fst]. unfold start_handled. destruct (lookup _ _); cbn; auto.
Qed.

Lemma armed_kept_run m os : forall s,
  s_fl s = Some m -> Forall (fun o => answers o (m_id m) = false) os -> s_fired s = false -> s_errs s = [] ->
  s_dead s = false ->
  s_fl (final s os) = Some m /\ s_armed (final s os) = s_armed s /\ s_dead (final s os) = false.
Proof.
  induction os as [|o os IH]; intros s Hf Ha Hfi He Hd; [cbn; auto|].
  inversion Ha; subst. destruct (armed_kept s o m Hf H1 Hfi He Hd) as (A & B & C & D & E).
  cbn [final]. destruct (IH _ A H2 C D E) as (F & G & H). rewrite G, B. auto.
Qed.

(** After a transmission at [t0] the message times out exactly from t0 + timeout + interval * attempts on. *)
Lemma timeout_deadline s t0 m l os newid t :
  step s (Work t0 true) = (fst (step s (Work t0 true)), OSend m true :: l) ->
  s_fired s = false -> s_errs s = [] -> s_dead s = false ->
  Forall (fun o => answers o (m_id m) = false) os ->
  let s2 := final (fst (step s (Work t0 true))) os in
  let deadline := t0 + c_timeout (s_cfg s) + c_interval (s_cfg s) * m_att m in
  s_fl s2 = Some m /\
  (t < deadline -> step s2 (Timeout newid t) = (s2, [])) /\
  (deadline <= t -> failure_op s2 (Timeout newid t) None newid t).
Proof.
  intros Hs Hfi He Hd Ha. cbn zeta.
  assert (A : let s1 := fst (step s (Work t0 true)) in s_fl s1 = Some m /\
     s_armed s1 = Some (t0 + c_timeout (s_cfg s) + c_interval (s_cfg s) * m_att m) /\
     s_fired s1 = false /\ s_errs s1 = [] /\ s_dead s1 = false).
  { cbn zeta. cbn [step] in *. rewrite Hd in *. inversion Hs as [Hsnd]. clear Hs. apply (f_equal snd) in Hsnd. cbn in Hsnd.
    destruct (work_cases t0 true s) as [E|(sel & z & H1 & H2 & H3 & H4 & H5 & H6 & H7 & H8)]; [rewrite E in Hsnd; discriminate|].
    rewrite H8. rewrite H7 in Hsnd. destruct (transmit_outs sel z t0 true s) as (r & R1 & R2 & R3). rewrite R1 in Hsnd.
    inversion Hsnd; subst m. clear Hsnd R1 R2 R3 H7 H8.
    unfold transmit. cbn [fst]. set (y := prepare z (s_txmap s)).
    match goal with |- context [finish_iteration ?q] => set (q0 := q) end.
    assert (Q : s_fl (finish_iteration q0) = s_fl q0 /\ s_armed (finish_iteration q0) = s_armed q0 /\
       s_fired (finish_iteration q0) = s_fired q0 /\ s_errs (finish_iteration q0) = s_errs q0 /\ s_dead (finish_iteration q0) = s_dead q0).
    { unfold finish_iteration. destruct (no_messages q0); repeat split. }
    cbn. destruct Q as (-> & -> & -> & -> & ->). unfold q0. cbn. unfold message_timeout.
    split; [reflexivity|]. split; [f_equal; lia|]. destruct sel; cbn; auto. }
  destruct A as (A1 & A2 & A3 & A4 & A5).
  destruct (armed_kept_run m os _ A1 Ha A3 A4 A5) as (B1 & B2 & B3). rewrite A2 in B2.
  set (s2 := final _ os) in *. clearbody s2.
  split; [assumption|]. split.
  - intros Hlt. cbn [step]. rewrite B3, B2. assert (_ <=? t = false) as -> by (apply Z.leb_gt; exact Hlt). reflexivity.
  - intros Hle. unfold failure_op. rewrite B1. right. repeat split. eexists. split; [exact B2|lia].
Qed.
