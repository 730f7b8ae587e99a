(** Proofs about the message queue, fifth part: pausing, promises, failed transmissions, refutations. *)
From Coq Require Import List ZArith NArith Bool Lia Permutation.
From Verif Require Import MQModel MQSpec MQProofs MQProofs2 MQProofs3 MQProofs4.
Import ListNotations.
Open Scope Z_scope.

(** ** Fields that the bookkeeping functions do not touch *)

Definition ctl (s : st) : bool * bool * N * list N := (s_paused s, s_resuming s, s_ctr s, s_rt s).

Lemma check_sizes_frame s : ctl (fst (check_sizes s)) = ctl s /\ s_done (fst (check_sizes s)) = s_done s /\
  s_gh (fst (check_sizes s)) = s_gh s /\ s_dead (fst (check_sizes s)) = s_dead s.
Proof.
  unfold check_sizes. destruct (over _ _ _); [|repeat split].
  destruct (drop_normal _ _ _ _), (drop_tx _ _ _ _ _). repeat split.
Qed.
Lemma finish_frame s : ctl (finish_iteration s) = ctl s /\ s_done (finish_iteration s) = s_done s /\
  s_gh (finish_iteration s) = s_gh s /\ s_dead (finish_iteration s) = s_dead s.
Proof. unfold finish_iteration. destruct (no_messages s); repeat split. Qed.
Lemma handle_failure_ctl e i t z : ctl (fst (handle_failure e i t z)) = ctl z.
Proof.
  unfold handle_failure. destruct (s_fl z); [|reflexivity].
  destruct (is_tx _ _); cbn [orb]; [|destruct (check_queue _ _)].
  - destruct (_ <? _); [reflexivity|]. destruct (resolvable _ _); reflexivity.
  - destruct (_ <? _); [reflexivity|]. destruct (resolvable _ _); reflexivity.
  - destruct (mtype_eqb _ _); [reflexivity|]. destruct (resolvable _ _); reflexivity.
Qed.

Lemma transmit_ctl sel m now ok s : ctl (fst (transmit sel m now ok s)) = ctl s \/
  ctl (fst (transmit sel m now ok s)) = (true, s_resuming s, s_ctr s, s_rt s).
Proof.
  unfold transmit. destruct ok; [left; cbn [fst]; rewrite (proj1 (finish_frame _)); destruct sel; reflexivity|].
  right. destruct (is_tx _ _); [cbn [fst]; rewrite (proj1 (finish_frame _)); destruct sel; reflexivity|].
  destruct (check_queue _ _); [cbn [fst]; rewrite (proj1 (finish_frame _)); destruct sel; reflexivity|].
  destruct sel; try (destruct (resolvable _ _)); cbn [fst]; rewrite ?(proj1 (finish_frame _)); reflexivity.
Qed.

Inductive ctl_step (o : op) : bool * bool * N * list N -> bool * bool * N * list N -> Prop :=
| cs_same c : ctl_step o c c
| cs_fail p r n l : ctl_step o (p, r, n, l) (true, r, n, l)
| cs_pause p r n l : o = Pause -> ctl_step o (p, r, n, l) (true, false, (n + 1)%N, l)
| cs_timer p r n l k : o = ResumeTimer k -> In k l ->
    ctl_step o (p, r, n, l) (if N.eqb n k then false else p, if N.eqb n k then false else r, n, filter (fun x => negb (N.eqb x k)) l).

Lemma step_ctl s o : (forall d, o <> Resume d) -> (forall c i, o <> Restart c i) -> ctl_step o (ctl s) (ctl (fst (step s o))).
Proof.
  intros H1 H2. assert (S0 : forall s', ctl s' = ctl s -> ctl_step o (ctl s) (ctl s')) by (intros s' ->; constructor).
  destruct (s_dead s) eqn:Ed; [destruct o; cbn [step]; rewrite ?Ed; try (apply S0; reflexivity); exfalso; eapply H2; reflexivity|].
  destruct o; cbn [step]; rewrite ?Ed; try (apply S0; reflexivity).
  - apply S0. unfold push_call. destruct (negb _); [reflexivity|]. destruct (is_tx _ _).
    + unfold add_tx. rewrite (proj1 (check_sizes_frame _)). reflexivity.
    + destruct (_ || _); [|reflexivity]. unfold add_normal. rewrite (proj1 (check_sizes_frame _)). reflexivity.
  - apply S0. unfold push_call_async. destruct (negb _); [reflexivity|]. destruct (is_tx _ _).
    + unfold add_tx. rewrite (proj1 (check_sizes_frame _)). reflexivity.
    + destruct (_ && _); [reflexivity|]. unfold add_normal. rewrite (proj1 (check_sizes_frame _)). reflexivity.
  - apply S0. unfold push_reply. destruct (negb _); [reflexivity|]. destruct (s_next s); [destruct (N.eqb _ _)|]; reflexivity.
  - unfold work. destruct (negb _); [apply S0; reflexivity|]. destruct (negb _); [apply S0; reflexivity|].
    unfold iterate. destruct (no_messages s); [apply S0; reflexivity|]. destruct (s_paused s); [apply S0; reflexivity|].
    destruct (s_fl s); [apply S0; reflexivity|].
    assert (T : forall sel x, ctl_step (Work now ok) (ctl s) (ctl (fst (transmit sel x now ok s)))).
    { intros sel x. destruct (transmit_ctl sel x now ok s) as [-> | ->]; [apply cs_same|apply cs_fail]. }
    destruct (select s now) as [|a b d|b d]; [apply S0; reflexivity| |];
    (destruct (held_back s b); [apply S0; reflexivity|]).
    + specialize (T (SelNormal a b d) b). destruct (transmit (SelNormal a b d) b now ok s). exact T.
    + specialize (T (SelTx b d) b). destruct (transmit (SelTx b d) b now ok s). exact T.
  - apply S0. unfold recv_result. destruct (s_fl s); [|reflexivity]. destruct (N.eqb _ _); [|reflexivity].
    unfold handle_call_result. destruct (resolvable _ _); [|reflexivity].
    destruct (is_tx _ _); [|destruct (check_queue _ _)]; reflexivity.
  - apply S0. unfold recv_error_begin. destruct (s_fl s); [|reflexivity]. destruct (N.eqb _ _); reflexivity.
  - apply S0. unfold recv_error_end. destruct (s_errs s); [reflexivity|]. rewrite handle_failure_ctl. reflexivity.
  - apply S0. unfold recv_error. destruct (s_fl s); [|reflexivity]. destruct (N.eqb _ _); [|reflexivity].
    rewrite handle_failure_ctl. reflexivity.
  - apply S0. unfold timer_expire. destruct (s_armed s) as [t|]; [destruct (t <=? now)|]; reflexivity.
  - apply S0. unfold timer_run. destruct (s_fired s); [|reflexivity]. rewrite handle_failure_ctl. reflexivity.
  - apply S0. destruct (s_armed s) as [t|]; [destruct (t <=? now)|]; try reflexivity. rewrite handle_failure_ctl. reflexivity.
  - apply S0. destruct (s_nt s) as [t|]; [destruct (t <=? now)|]; reflexivity.
  - cbn [fst]. unfold pause, ctl. apply cs_pause; reflexivity.
  - exfalso; eapply H1; reflexivity.
  - cbn [fst]. unfold resume_timer. destruct (existsb _ _) eqn:E; [|apply S0; reflexivity].
    apply existsb_exists in E as (y & Hy & E). apply N.eqb_eq in E. subst y.
    pose proof (cs_timer (ResumeTimer k) (s_paused s) (s_resuming s) (s_ctr s) (s_rt s) k eq_refl Hy) as T.
    unfold resume_now. cbn [s_ctr set_s_rt]. destruct (N.eqb (s_ctr s) k); exact T.
  - apply S0. cbn [fst]. unfold add_meter_id. destruct (lookup _ _); reflexivity.
  - apply S0. cbn [fst]. unfold start_handled. destruct (lookup _ _); reflexivity.
  - exfalso; eapply H2; reflexivity.
Qed.

Lemma step_rt s o : Forall (fun k => k <= s_ctr s)%N (s_rt s) -> Forall (fun k => k <= s_ctr (fst (step s o)))%N (s_rt (fst (step s o))).
Proof.
  intros H.
  assert (A : (forall d, o <> Resume d) -> (forall c i, o <> Restart c i) ->
    Forall (fun k => k <= s_ctr (fst (step s o)))%N (s_rt (fst (step s o)))).
  { intros H1 H2. pose proof (step_ctl s o H1 H2) as C. unfold ctl in C.
    inversion C as [c E1 E2|p r n l E1 E2|p r n l Ho E1 E2|p r n l k' Ho Hk E1 E2].
    - congruence.
    - congruence.
    - eapply Forall_impl; [|exact H]. cbn. intros a Ha. lia.
    - apply Forall_filter. assumption. }
  destruct o as [| | | | | | | | | | | | | |delay| | | | | | | | | | |c ig]; try (apply A; discriminate).
  - cbn [step]. destruct (s_dead s); [exact H|]. cbn [fst]. unfold resume. destruct (negb _); [exact H|].
    destruct (_ && _); cbn.
    + constructor; [lia|]. eapply Forall_impl; [|exact H]. cbn. intros a Ha. lia.
    + unfold resume_now. cbn. rewrite N.eqb_refl. cbn. eapply Forall_impl; [|exact H]. cbn. intros a Ha. lia.
  - cbn [step fst]. match goal with |- context [load_persisted ?a ?b] => assert (E : s_rt (load_persisted a b) = []) end.
    { unfold load_persisted. cbn. destruct (s_dbn s); [destruct (s_dbt s)|]; reflexivity. }
    rewrite E. constructor.
Qed.

Lemma run_rt os : forall s, Forall (fun k => k <= s_ctr s)%N (s_rt s) ->
  Forall (fun k => k <= s_ctr (final s os))%N (s_rt (final s os)).
Proof. induction os as [|o os IH]; intros s H; [exact H|]. cbn [final]. apply IH, step_rt, H. Qed.

Definition stays_paused (s : st) : Prop := s_paused s = true /\ Forall (fun k => k < s_ctr s)%N (s_rt s).

Lemma paused_step s o : (forall d, o <> Resume d) -> (forall c i, o <> Restart c i) -> stays_paused s ->
  stays_paused (fst (step s o)) /\ no_calls (snd (step s o)).
Proof.
  intros H1 H2 [P R]. split.
  - pose proof (step_ctl s o H1 H2) as C. unfold ctl in C. unfold stays_paused.
    inversion C as [c E1 E2|p r n l E1 E2|p r n l Ho E1 E2|p r n l k' Ho Hk E1 E2].
    + inversion E2. subst. split; congruence.
    + split; congruence.
    + split; [reflexivity|]. eapply Forall_impl; [|exact R]. cbn. intros a Ha. lia.
    + split; [|apply Forall_filter; assumption]. rewrite Forall_forall in R. specialize (R _ Hk).
      destruct (N.eqb_spec (s_ctr s) k'); [lia|assumption].
  - apply Forall_forall. intros x Hx. destruct x; auto.
    apply transmits_only_due in Hx as (now & m' & -> & _ & (_ & _ & Hp & _) & _). congruence.
Qed.

Lemma paused_run os : forall s, no_resume os -> stays_paused s -> no_calls (outs (trace s os)).
Proof.
  induction os as [|o os IH]; intros s Hn Hs; [constructor|]. inversion Hn as [|? ? Hn1 Hn2]; subst.
  destruct (paused_step s o) as [A B]; [intros d ->; contradiction|intros c i ->; contradiction|assumption|].
  cbn [trace]. change (outs ((o, snd (step s o)) :: trace (fst (step s o)) os)) with (snd (step s o) ++ outs (trace (fst (step s o)) os)).
  apply Forall_app; split; [assumption|apply IH; assumption].
Qed.

Lemma final_dead_or s os : s_dead s = true -> no_restart os -> final s os = s /\ outs (trace s os) = [].
Proof.
  intros Hd. revert s Hd; induction os as [|o os IH]; intros s Hd Hr; [auto|].
  apply no_restart_not in Hr as [Hr1 Hr2].
  assert (E : step s o = (s, [])) by (destruct o; cbn [step]; rewrite ?Hd; try reflexivity; exfalso; eapply Hr1; reflexivity).
  cbn [final trace]. rewrite E. cbn [fst]. destruct (IH s Hd Hr2) as [A B]. split; [assumption|].
  change (outs ((o, snd (s, [])) :: trace s os)) with ([] ++ outs (trace s os)). assumption.
Qed.

Lemma no_resume_no_restart os : no_resume os -> no_restart os.
Proof. intros H. eapply Forall_impl; [|exact H]. intros o. destruct o; auto. Qed.

Lemma silent_while_paused c os1 os2 : no_resume os2 ->
  no_calls (outs (trace (final (fresh c) (os1 ++ [Pause])) os2)).
Proof.
  intros Hn. rewrite final_app. cbn [final].
  pose proof (run_rt os1 (fresh c) (Forall_nil _)) as R. set (s := final (fresh c) os1) in *. clearbody s.
  destruct (s_dead s) eqn:Ed.
  - cbn [step]. rewrite Ed. cbn [fst]. destruct (final_dead_or s os2 Ed (no_resume_no_restart _ Hn)) as [_ ->]. constructor.
  - apply paused_run; [assumption|]. cbn [step]. rewrite Ed. cbn [fst]. split; [reflexivity|].
    cbn. eapply Forall_impl; [|exact R]. cbn. intros a Ha. lia.
Qed.

(** Before the first resume. *)
Lemma silent_at_start c os : no_resume os -> no_calls (outs (trace (fresh c) os)).
Proof. intros Hn. apply paused_run; [assumption|]. split; [reflexivity|constructor]. Qed.

(** A delayed resume un-pauses only through its own timer. *)
Definition timer_waits (k : N) (s : st) : Prop := s_paused s = true /\ s_ctr s = k /\ Forall (fun j => j <= k)%N (s_rt s).

Lemma silent_until_own_timer c os1 d os2 :
  let s := final (fresh c) os1 in
  let s1 := fst (step s (Resume d)) in
  s_dead s = false -> s_paused s = true -> 0 < d -> (0 < s_ctr s)%N ->
  no_resume os2 -> Forall (fun o => o <> ResumeTimer (s_ctr s1)) os2 ->
  s_ctr s1 = (s_ctr s + 1)%N /\ In (s_ctr s1) (s_rt s1) /\ s_resuming s1 = true /\
  no_calls (outs (trace s1 os2)).
Proof.
  cbn zeta. intros Hd Hp Hdel Hc Hn Hk.
  pose proof (run_rt os1 (fresh c) (Forall_nil _)) as R. set (s := final (fresh c) os1) in *. clearbody s.
  assert (E : fst (step s (Resume d)) = set_s_rt ((s_ctr s + 1)%N :: s_rt s) (set_s_resuming true (set_s_ctr (s_ctr s + 1)%N s))).
  { cbn [step]. rewrite Hd. cbn [fst]. unfold resume. rewrite Hp. cbn [negb].
    assert ((1 <? s_ctr s + 1)%N = true) as -> by (apply N.ltb_lt; lia).
    assert (0 <? d = true) as -> by lia. reflexivity. }
  rewrite E. split; [reflexivity|]. split; [left; reflexivity|]. split; [reflexivity|].
  set (k := (s_ctr s + 1)%N) in *. rewrite E in Hk. cbn in Hk. fold k in Hk.
  assert (I : timer_waits k (set_s_rt (k :: s_rt s) (set_s_resuming true (set_s_ctr k s)))).
  { split; [exact Hp|]. split; [reflexivity|]. cbn. constructor; [lia|]. eapply Forall_impl; [|exact R]. cbn. intros a Ha. subst k. lia. }
  clear E. set (s1 := set_s_rt _ _) in *. clearbody s1 k. clear - I Hn Hk. revert s1 I.
  induction os2 as [|o os IH]; intros s1 I; [constructor|]. inversion Hn as [|? ? Hn1 Hn2]; subst. inversion Hk as [|? ? Hk1 Hk2]; subst.
  cbn [trace]. change (outs ((o, snd (step s1 o)) :: trace (fst (step s1 o)) os)) with (snd (step s1 o) ++ outs (trace (fst (step s1 o)) os)).
  destruct I as (I1 & I2 & I3).
  assert (Hr : forall d, o <> Resume d) by (intros d ->; contradiction).
  assert (Hrs : forall c i, o <> Restart c i) by (intros c i ->; contradiction).
  apply Forall_app; split.
  - apply Forall_forall. intros x Hx. destruct x; auto.
    apply transmits_only_due in Hx as (now & m' & -> & _ & (_ & _ & Hp & _) & _). congruence.
  - pose proof (step_ctl s1 o Hr Hrs) as C. unfold ctl in C.
    inversion C as [cc E1 E2|p r n l E1 E2|p r n l Ho E1 E2|p r n l k' Ho Hk' E1 E2].
    + apply IH; auto. inversion E2; subst. repeat split; congruence.
    + apply IH; auto. repeat split; congruence.
    + apply paused_run; [assumption|]. split; [congruence|].
      replace (s_rt (fst (step s1 o))) with (s_rt s1) by congruence. replace (s_ctr (fst (step s1 o))) with (s_ctr s1 + 1)%N by congruence.
      eapply Forall_impl; [|exact I3]. cbn. intros a Ha. lia.
    + apply IH; auto. subst o. assert (k' <> s_ctr s1) by congruence.
      assert (N.eqb (s_ctr s1) k' = false) as En by (apply N.eqb_neq; congruence). rewrite En in *.
      repeat split; try congruence. replace (s_rt (fst (step s1 (ResumeTimer k')))) with (filter (fun x => negb (N.eqb x k')) (s_rt s1)) by congruence.
      apply Forall_filter. assumption.
Qed.

(** Its own timer, if nothing intervened, does un-pause. *)
Lemma own_timer_resumes s k : s_dead s = false -> s_ctr s = k -> In k (s_rt s) ->
  let s' := fst (step s (ResumeTimer k)) in s_paused s' = false /\ s_resuming s' = false.
Proof.
  intros Hd Hc Hin. cbn zeta. cbn [step]. rewrite Hd. cbn [fst]. unfold resume_timer.
  assert (existsb (N.eqb k) (s_rt s) = true) as -> by (apply existsb_exists; exists k; split; [assumption|apply N.eqb_refl]).
  unfold resume_now. cbn. rewrite Hc, N.eqb_refl. split; reflexivity.
Qed.

(** The first resume, or one without delay, un-pauses at once. *)
Lemma immediate_resume s d : s_dead s = false -> s_paused s = true -> d <= 0 \/ s_ctr s = 0%N ->
  s_paused (fst (step s (Resume d))) = false.
Proof.
  intros Hd Hp Hc. cbn [step]. rewrite Hd. cbn [fst]. unfold resume. rewrite Hp. cbn [negb].
  assert (((1 <? s_ctr s + 1)%N && (0 <? d)) = false) as ->.
  { destruct Hc as [Hc|Hc]; [assert (0 <? d = false) as -> by lia; apply andb_false_r|rewrite Hc; reflexivity]. }
  unfold resume_now. cbn. rewrite N.eqb_refl. reflexivity.
Qed.

(** ** C09: responses *)

Lemma response_matched s m body :
  s_dead s = false -> s_fl s = Some m -> ~ In (m_h m) (s_done s) ->
  let s' := fst (step s (RecvResult (m_id m) body)) in
  snd (step s (RecvResult (m_id m) body)) = [OPromise (m_h m) (PResult (m_id m) body)] /\
  s_fl s' = None /\ s_armed s' = None /\ s_nq s' = s_nq s /\ s_tq s' = s_tq s /\ s_next s' = None /\
  (if transactional (c_ver (s_cfg s)) (m_type m)
   then s_dbt s' = filter (fun r => negb (N.eqb (r_uid r) (m_init m))) (s_dbt s)
   else s_dbt s' = s_dbt s) /\
  (transactional (c_ver (s_cfg s)) (m_type m) = false -> c_qall (s_cfg s) = true -> ~ In (m_type m) (c_discard (s_cfg s)) ->
   s_dbn s' = filter (fun r => negb (N.eqb (r_uid r) (m_init m))) (s_dbn s)).
Proof.
  intros Hd Hf Hn. cbn zeta. cbn [step]. rewrite Hd. unfold recv_result. rewrite Hf, N.eqb_refl. unfold handle_call_result.
  assert (resolvable (m_h m) (set_s_next None s) = true) as ->.
  { unfold resolvable. apply negb_true_iff, not_true_is_false. intros E. apply existsb_exists in E as (y & Hy & E).
    apply N.eqb_eq in E. subst. contradiction. }
  rewrite is_tx_spec. cbn [s_cfg set_s_next]. destruct (transactional _ _) eqn:Et; [repeat split; discriminate|].
  destruct (check_queue _ _) eqn:Ec; cbn; repeat split.
  intros _ Hq Hin. exfalso. pose proof (proj2 (retryable_spec (s_cfg s) (m_type m)) (or_intror (conj Hq Hin))) as R.
  rewrite is_tx_spec, Et, Ec in R. discriminate.
Qed.

(** A response that does not carry the id of the CALL in flight only clears next_message_to_send. *)
Lemma response_unmatched s id : s_dead s = false -> (forall m, s_fl s = Some m -> m_id m <> id) ->
  (forall body, step s (RecvResult id body) = (set_s_next None s, [])) /\
  (forall newid now, step s (RecvErr id newid now) = (set_s_next None s, [])) /\
  step s (RecvErrBegin id) = (set_s_next None s, []).
Proof.
  intros Hd H. cbn [step]. rewrite Hd. unfold recv_result, recv_error, recv_error_begin.
  destruct (s_fl s) as [m|]; [|repeat split]. specialize (H m eq_refl). apply N.eqb_neq in H. rewrite H. repeat split.
Qed.

(** *** Promises *)

Definition done_inv (s : st) : Prop := Forall (fun h => h < s_gh s)%N (s_done s).

Definition pstep (s : st) (l : list out) (s' : st) : Prop :=
  (promises l = [] /\ s_done s' = s_done s) \/
  (exists h, promises l = [h] /\ s_done s' = h :: s_done s /\ ~ In h (s_done s)).

Lemma resolvable_not h s : resolvable h s = true -> ~ In h (s_done s).
Proof.
  unfold resolvable. rewrite negb_true_iff. intros H Hin. assert (existsb (N.eqb h) (s_done s) = true); [|congruence].
  apply existsb_exists. exists h. split; [assumption|apply N.eqb_refl].
Qed.

Lemma drops_no_promise l : promises (map (fun m => ODrop m DropOverflow) l) = [].
Proof. induction l; cbn; auto. Qed.
Lemma check_sizes_promises s : promises (snd (check_sizes s)) = [].
Proof.
  unfold check_sizes. destruct (over _ _ _); [|reflexivity]. destruct (drop_normal _ _ _ _), (drop_tx _ _ _ _ _). apply drops_no_promise.
Qed.

Lemma handle_failure_pstep e i t z s : s_done z = s_done s -> pstep s (snd (handle_failure e i t z)) (fst (handle_failure e i t z)).
Proof.
  intros Hd. unfold handle_failure. destruct (s_fl z) as [m|]; [|left; split; [reflexivity|exact Hd]].
  assert (R : resolvable (m_h m) z = true -> ~ In (m_h m) (s_done s)) by (intros R; rewrite <- Hd; apply resolvable_not; exact R).
  destruct (is_tx _ _ || _).
  - destruct (_ <? _).
    + left. split; [destruct (is_start _ _); reflexivity|]. destruct (is_tx _ _); exact Hd.
    + destruct (resolvable _ _); [|left; split; [reflexivity|exact Hd]].
      right. exists (m_h m). split; [reflexivity|]. split; [|auto]. rewrite <- Hd. destruct (is_tx _ _); reflexivity.
  - destruct (mtype_eqb _ _); [left; split; [reflexivity|exact Hd]|].
    destruct (resolvable _ _); [|left; split; [reflexivity|exact Hd]].
    right. exists (m_h m). split; [reflexivity|]. split; [|auto]. rewrite <- Hd. reflexivity.
Qed.

Lemma step_pstep s o : done_inv s -> pstep s (snd (step s o)) (fst (step s o)).
Proof.
  intros Hi.
  assert (Fr : ~ In (s_gh s) (s_done s)).
  { intros H. unfold done_inv in Hi. rewrite Forall_forall in Hi. apply Hi in H. lia. }
  destruct (s_dead s) eqn:Ed; [destruct o; cbn [step]; rewrite ?Ed; try (left; split; reflexivity)|].
  1: { left. split; [reflexivity|]. cbn [fst]. unfold load_persisted. cbn. destruct (s_dbn s); [destruct (s_dbt s)|]; reflexivity. }
  destruct o; cbn [step]; rewrite ?Ed; try (left; split; reflexivity).
  - left. unfold push_call. destruct (negb _); [split; reflexivity|]. destruct (is_tx _ _).
    + unfold add_tx. rewrite check_sizes_promises. split; [reflexivity|]. destruct (check_sizes_frame (set_s_new true (set_s_dbt (db_insert (s_dbt (set_s_gh (s_gh s + 1)%N s)) (mk_msg (s_gh s) k now stall)) (set_s_tq (s_tq (set_s_gh (s_gh s + 1)%N s) ++ [mk_msg (s_gh s) k now stall]) (set_s_gh (s_gh s + 1)%N s))))) as (_ & -> & _). reflexivity.
    + destruct (_ || _); [|split; reflexivity]. unfold add_normal. rewrite check_sizes_promises. split; [reflexivity|].
      match goal with |- context [check_sizes ?z] => destruct (check_sizes_frame z) as (_ & -> & _) end. reflexivity.
  - unfold push_call_async. destruct (negb _); [right; exists (s_gh s); repeat split; assumption|]. destruct (is_tx _ _).
    + left. unfold add_tx. rewrite check_sizes_promises. split; [reflexivity|].
      match goal with |- context [check_sizes ?z] => destruct (check_sizes_frame z) as (_ & -> & _) end. reflexivity.
    + destruct (_ && _); [right; exists (s_gh s); repeat split; assumption|]. left. unfold add_normal. rewrite check_sizes_promises. split; [reflexivity|].
      match goal with |- context [check_sizes ?z] => destruct (check_sizes_frame z) as (_ & -> & _) end. reflexivity.
  - left. unfold push_reply. destruct (negb _); [split; reflexivity|]. destruct (s_next s); [destruct (N.eqb _ _)|]; split; reflexivity.
  - assert (T : forall sel x, pstep s (snd (transmit sel x now ok s)) (fst (transmit sel x now ok s))).
    { intros sel x. unfold transmit. destruct ok.
      - left. split; [reflexivity|]. cbn [fst]. match goal with |- context [finish_iteration ?z] => destruct (finish_frame z) as (_ & -> & _) end. destruct sel; reflexivity.
      - destruct (is_tx _ _); [|destruct (check_queue _ _); [|destruct sel as [|pre y post|y rest]]].
        + left. split; [reflexivity|]. cbn [fst]. match goal with |- context [finish_iteration ?z] => destruct (finish_frame z) as (_ & -> & _) end. destruct sel; reflexivity.
        + left. split; [reflexivity|]. cbn [fst]. match goal with |- context [finish_iteration ?z] => destruct (finish_frame z) as (_ & -> & _) end. destruct sel; reflexivity.
        + left. split; [reflexivity|]. cbn [fst]. match goal with |- context [finish_iteration ?z] => destruct (finish_frame z) as (_ & -> & _) end. reflexivity.
        + destruct (resolvable _ _) eqn:Er; [|left; split; reflexivity]. right. exists (m_h (prepare x (s_txmap s))).
          split; [cbn; destruct (pre ++ _); reflexivity|]. split; [|apply resolvable_not; exact Er].
          cbn [fst]. match goal with |- context [finish_iteration ?z] => destruct (finish_frame z) as (_ & -> & _) end. reflexivity.
        + left. split; [reflexivity|]. cbn [fst]. match goal with |- context [finish_iteration ?z] => destruct (finish_frame z) as (_ & -> & _) end. reflexivity. }
    unfold work. destruct (negb _); [left; split; reflexivity|]. destruct (negb _); [left; split; reflexivity|].
    unfold iterate. destruct (no_messages s); [left; split; reflexivity|]. destruct (s_paused s); [left; split; reflexivity|].
    destruct (s_fl s); [left; split; reflexivity|].
    destruct (select s now) as [|a b d|b d]; [left; split; reflexivity| |];
    (destruct (held_back s b); [left; split; reflexivity|]).
    + specialize (T (SelNormal a b d) b). destruct (transmit (SelNormal a b d) b now ok s). exact T.
    + specialize (T (SelTx b d) b). destruct (transmit (SelTx b d) b now ok s). exact T.
  - unfold recv_result. destruct (s_fl s) as [m|]; [|left; split; reflexivity]. destruct (N.eqb _ _); [|left; split; reflexivity].
    unfold handle_call_result. destruct (resolvable _ _) eqn:Er; [|left; split; reflexivity].
    right. exists (m_h m). split; [reflexivity|]. split; [|apply resolvable_not in Er; exact Er].
    cbn. destruct (is_tx _ _); [|destruct (check_queue _ _)]; reflexivity.
  - left. unfold recv_error_begin. destruct (s_fl s); [|split; reflexivity]. destruct (N.eqb _ _); split; reflexivity.
  - unfold recv_error_end. destruct (s_errs s); [left; split; reflexivity|]. apply handle_failure_pstep. reflexivity.
  - unfold recv_error. destruct (s_fl s); [|left; split; reflexivity]. destruct (N.eqb _ _); [|left; split; reflexivity].
    apply handle_failure_pstep. reflexivity.
  - left. unfold timer_expire. destruct (s_armed s) as [t|]; [destruct (t <=? now)|]; split; reflexivity.
  - unfold timer_run. destruct (s_fired s); [|left; split; reflexivity]. apply handle_failure_pstep. reflexivity.
  - destruct (s_armed s) as [t|]; [destruct (t <=? now)|]; try (left; split; reflexivity). apply handle_failure_pstep. reflexivity.
  - left. destruct (s_nt s) as [t|]; [destruct (t <=? now)|]; split; reflexivity.
  - left. split; [reflexivity|]. cbn [fst]. unfold resume. destruct (negb _); [reflexivity|]. destruct (_ && _); [reflexivity|].
    unfold resume_now. destruct (N.eqb _ _); reflexivity.
  - left. split; [reflexivity|]. cbn [fst]. unfold resume_timer. destruct (existsb _ _); [|reflexivity]. unfold resume_now. destruct (N.eqb _ _); reflexivity.
  - left. split; [reflexivity|]. cbn [fst]. unfold add_meter_id. destruct (lookup _ _); reflexivity.
  - left. split; [reflexivity|]. cbn [fst]. unfold start_handled. destruct (lookup _ _); reflexivity.
  - left. split; [reflexivity|]. cbn [fst]. unfold load_persisted. cbn. destruct (s_dbn s); [destruct (s_dbt s)|]; reflexivity.
Qed.

(** ** Accounting of promises *)

Definition flh (s : st) : list N := match s_fl s with Some m => [m_h m] | None => [] end.
Definition hs (s : st) : list N := map m_h (s_nq s ++ s_tq s) ++ flh s.

Definition dirty (s : st) (o : op) : Prop :=
  exists now x pre m post, o = Work now false /\ select s now = SelNormal (x :: pre) m post.

Definition newh (s : st) (o : op) : list N :=
  match o with Push _ _ _ | PushAsync _ _ => [s_gh s] | _ => [] end.

Definition acct (s : st) (o : op) (l : list out) (s' : st) : Prop :=
  exists new, (new = [] \/ new = [s_gh s] /\ s_gh s' = (s_gh s + 1)%N) /\ (s_gh s <= s_gh s')%N /\
    ((forall k now, o = PushAsync k now -> s_dead s = false -> new = [s_gh s]) /\ Permutation (hs s ++ new) (hs s' ++ promises l ++ overflowed l)
     \/ (s_dead s' = true \/ dirty s o) /\ incl (hs s' ++ promises l) (hs s ++ new)).

Lemma overflowed_drops l : overflowed (map (fun m => ODrop m DropOverflow) l) = map m_h l.
Proof. induction l as [|m l IH]; [reflexivity|]. cbn [map]. change (overflowed (ODrop m DropOverflow :: map (fun m => ODrop m DropOverflow) l)) with (m_h m :: overflowed (map (fun m => ODrop m DropOverflow) l)). rewrite IH. reflexivity. Qed.

Lemma check_sizes_hs s : Permutation (hs s) (hs (fst (check_sizes s)) ++ overflowed (snd (check_sizes s))).
Proof.
  unfold check_sizes. destruct (over _ _ _); [|rewrite app_nil_r; apply Permutation_refl].
  destruct (drop_normal _ _ _ _) as [nq' dn] eqn:En. destruct (drop_tx _ _ _ _ _) as [tq' dt] eqn:Et.
  apply drop_normal_spec in En as [En _]; [|lia]. apply drop_tx_split in Et as (_ & _ & Et).
  cbn [snd fst]. rewrite overflowed_drops. unfold hs, flh. cbn.
  apply (Permutation_count_occ N.eq_dec). intros h. apply (Permutation_map m_h) in Et.
  pose proof (proj1 (Permutation_count_occ N.eq_dec _ _) Et h) as Eh. rewrite En.
  rewrite !map_app, !count_occ_app in *. lia.
Qed.

Lemma acct_same s o s' l : hs s' = hs s -> s_gh s' = s_gh s -> promises l = [] -> overflowed l = [] ->
  (forall k now, o = PushAsync k now -> s_dead s = false -> False) -> acct s o l s'.
Proof.
  intros H G P O N. exists []. split; [left; reflexivity|]. rewrite G. split; [lia|]. left. split; [intros k now -> Hd; exfalso; eapply N; eauto|].
  rewrite H, P, O, !app_nil_r. apply Permutation_refl.
Qed.

Lemma prepare_h m l : m_h (prepare m l) = m_h m.
Proof. unfold prepare. destruct (lookup _ _); reflexivity. Qed.

Lemma mark_offline_h m : m_h (mark_offline m) = m_h m.
Proof. unfold mark_offline. destruct (m_type m); reflexivity. Qed.

Lemma finish_hs s : hs (finish_iteration s) = hs s.
Proof. unfold finish_iteration. destruct (no_messages s); reflexivity. Qed.

Lemma finish_gh s : s_gh (finish_iteration s) = s_gh s.
Proof. apply finish_frame. Qed.

Definition qh (s : st) : list N := map m_h (s_nq s ++ s_tq s).
Lemma hs_none s : s_fl s = None -> hs s = qh s.
Proof. unfold hs, flh. intros ->. apply app_nil_r. Qed.

Lemma keep_modified_qh sel m s : (sel = SelNone -> False) ->
  (forall pre y post, sel = SelNormal pre y post -> s_nq s = pre ++ y :: post /\ m_h m = m_h y) ->
  (forall y rest, sel = SelTx y rest -> s_tq s = y :: rest /\ m_h m = m_h y) ->
  qh (keep_modified sel m s) = qh s.
Proof.
  intros H H1 H2. destruct sel as [|pre y post|y rest]; [contradiction| |].
  - destruct (H1 _ _ _ eq_refl) as [E Eh]. unfold qh. cbn. rewrite E, !map_app. cbn. rewrite Eh. reflexivity.
  - destruct (H2 _ _ eq_refl) as [E Eh]. unfold qh. cbn. rewrite E, !map_app. cbn. rewrite Eh. reflexivity.
Qed.

Lemma select_normal_parts s now pre y post : select s now = SelNormal pre y post -> s_nq s = pre ++ y :: post.
Proof. intros H. apply select_normal, find_allowed_spec in H. intuition. Qed.
Lemma select_tx_parts s now y rest : select s now = SelTx y rest -> s_tq s = y :: rest.
Proof. intros H. apply select_tx in H. intuition. Qed.

Lemma transmit_acct sel m now ok s : s_fl s = None -> select s now = sel ->
  ((exists pre post, sel = SelNormal pre m post) \/ (exists rest, sel = SelTx m rest)) ->
  acct s (Work now ok) (snd (transmit sel m now ok s)) (fst (transmit sel m now ok s)).
Proof.
  intros Hf Hs Hsel. exists [].
  assert (Hgh : s_gh (fst (transmit sel m now ok s)) = s_gh s).
  { unfold transmit. destruct ok; [cbn [fst]; rewrite finish_gh; destruct sel; reflexivity|].
    destruct (is_tx _ _); [cbn [fst]; rewrite finish_gh; destruct sel; reflexivity|].
    destruct (check_queue _ _); [cbn [fst]; rewrite finish_gh; destruct sel; reflexivity|].
    destruct sel; try (destruct (resolvable _ _)); cbn [fst]; rewrite ?finish_gh; reflexivity. }
  split; [left; reflexivity|]. rewrite Hgh. split; [lia|]. rewrite app_nil_r.
  assert (NP : forall k t, Work now ok = PushAsync k t -> s_dead s = false -> @nil N = [s_gh s]) by discriminate.
  assert (K : forall x z, m_h x = m_h m -> s_nq z = s_nq s -> s_tq z = s_tq s -> qh (keep_modified sel x z) = qh s).
  { intros x z Hx Hn Ht. rewrite keep_modified_qh.
    - unfold qh. rewrite Hn, Ht. reflexivity.
    - intros ->. destruct Hsel as [(?&?&E)|(?&E)]; discriminate.
    - intros pre y post ->. destruct Hsel as [(?&?&E)|(?&E)]; [|discriminate]. inversion E; subst. rewrite Hn.
      split; [eapply select_normal_parts; eassumption|assumption].
    - intros y rest ->. destruct Hsel as [(?&?&E)|(?&E)]; [discriminate|]. inversion E; subst. rewrite Ht.
      split; [eapply select_tx_parts; eassumption|assumption]. }
  unfold transmit. set (p := prepare m (s_txmap s)). assert (Hp : m_h p = m_h m) by apply prepare_h.
  set (s1 := set_s_txmap _ s). destruct ok.
  - left. split; [assumption|]. cbn [fst snd]. rewrite finish_hs. rewrite (hs_none s Hf).
    assert (E : hs (set_s_armed (Some (now + message_timeout (s_cfg s) p)) (set_s_fl (Some p) (sent_ok sel s1))) = qh (sent_ok sel s1) ++ [m_h p]) by reflexivity.
    rewrite E. change (promises [OSend p true] ++ overflowed [OSend p true]) with (@nil N). rewrite app_nil_r, Hp.
    destruct Hsel as [(pre&post&->)|(rest&->)]; unfold qh; cbn [sent_ok s_nq s_tq set_s_nq set_s_tq s1 set_s_txmap].
    + rewrite (select_normal_parts _ _ _ _ _ Hs). rewrite !map_app. cbn. rewrite <- !app_assoc. apply Permutation_app_head. cbn.
      rewrite app_assoc. apply Permutation_cons_append.
    + rewrite (select_tx_parts _ _ _ _ Hs). rewrite !map_app. cbn. rewrite <- app_assoc. apply Permutation_app_head. apply Permutation_cons_append.
  - assert (G : forall x, m_h x = m_h m -> hs (finish_iteration (reset_in_flight (keep_modified sel x (set_s_paused true s1)))) = hs s).
    { intros x Hx. rewrite finish_hs, (hs_none s Hf). rewrite hs_none by reflexivity.
      change (qh (keep_modified sel x (set_s_paused true s1)) = qh s). apply K; auto. }
    assert (G' : forall x, m_h x = m_h m -> Permutation (hs s) (hs (finish_iteration (reset_in_flight (keep_modified sel x (set_s_paused true s1)))) ++ promises [OSend p false] ++ overflowed [OSend p false])).
    { intros x Hx. rewrite (G x Hx). cbn. rewrite app_nil_r. apply Permutation_refl. }
    destruct (is_tx _ _); [left; split; [assumption|]; cbn [fst snd]; apply G'; rewrite mark_offline_h; exact Hp|].
    destruct (check_queue _ _); [left; split; [assumption|]; cbn [fst snd]; apply G'; assumption|].
    destruct Hsel as [(pre&post&->)|(rest&->)]; [|left; split; [assumption|]; cbn [fst snd]; apply G'; assumption].
    destruct (resolvable _ _); cbn zeta.
    + cbn [fst snd]. rewrite finish_hs. rewrite (hs_none s Hf). rewrite hs_none by reflexivity.
      match goal with |- context [reset_in_flight ?z] => change (qh (reset_in_flight z)) with (qh z) end.
      destruct pre as [|x pre].
      * left. split; [assumption|]. unfold qh. cbn. rewrite (select_normal_parts _ _ _ _ _ Hs). cbn. rewrite Hp. apply Permutation_cons_append.
      * right. split; [right; exists now, x, pre, m, post; auto|].
        unfold qh. cbn. rewrite (select_normal_parts _ _ _ _ _ Hs). cbn. rewrite !map_app. cbn [map]. rewrite ?map_app. cbn [map].
        fold p. rewrite Hp.
        intros h. rewrite !in_app_iff. cbn. rewrite !in_app_iff. cbn. rewrite ?in_app_iff. tauto.
    + right. split; [left; reflexivity|]. cbn [fst snd]. rewrite (hs_none s Hf). rewrite hs_none by exact Hf.
      intros h. rewrite in_app_iff. cbn. intros [H|[]]; exact H.
Qed.

Lemma hs_same s s' : s_nq s' = s_nq s -> s_tq s' = s_tq s -> s_fl s' = s_fl s -> hs s' = hs s.
Proof. unfold hs, flh. intros -> -> ->. reflexivity. Qed.

Lemma handle_failure_acct o e i t z s : s_nq z = s_nq s -> s_tq z = s_tq s -> s_fl z = s_fl s -> s_gh z = s_gh s ->
  (forall k now, o <> PushAsync k now) -> acct s o (snd (handle_failure e i t z)) (fst (handle_failure e i t z)).
Proof.
  intros Hn Ht Hf Hg Ho. unfold handle_failure.
  assert (Hh : hs z = hs s) by (apply hs_same; assumption).
  assert (D : acct s o [OUB] (set_s_dead true z) /\ forall h, acct s o [OPromiseErr h] (set_s_dead true z)).
  { split; [|intros h]; (apply acct_same; [exact Hh|exact Hg|reflexivity|reflexivity|intros k now E; exfalso; eapply Ho; eauto]). }
  assert (P : forall l s', s_gh s' = s_gh s -> Permutation (hs s) (hs s' ++ promises l ++ overflowed l) -> acct s o l s').
  { intros l s' G Pm. exists []. split; [left; reflexivity|]. rewrite G. split; [lia|]. left. split; [intros k now E; exfalso; eapply Ho; eauto|].
    rewrite app_nil_r. assumption. }
  destruct (s_fl z) as [m|] eqn:Ez; [|apply D].
  assert (Q : hs s = qh s ++ [m_h m]) by (unfold hs, flh; rewrite <- Hf; reflexivity).
  assert (A : forall s' l, s_fl s' = None -> s_gh s' = s_gh s -> promises l = [] -> overflowed l = [] ->
     (s_nq s' = s_nq s /\ s_tq s' = requeued m i (if 0 <? c_interval (s_cfg z) then m_ts m + c_interval (s_cfg z) * m_att m else t) :: s_tq s) \/
     (exists ts, s_nq s' = requeued m i ts :: s_nq s /\ s_tq s' = s_tq s) -> acct s o l s').
  { intros s' l F G P1 P2 [[E1 E2]|(ts & E1 & E2)]; (apply P; [assumption|]); rewrite P1, P2, app_nil_r, Q, (hs_none s' F); unfold qh; rewrite E1, E2, ?map_app; cbn.
    - rewrite <- app_assoc. apply Permutation_app_head. symmetry. apply Permutation_cons_append.
    - symmetry. apply Permutation_cons_append. }
  assert (B : forall s' l, s_fl s' = None -> s_gh s' = s_gh s -> s_nq s' = s_nq s -> s_tq s' = s_tq s ->
     promises l = [m_h m] -> overflowed l = [] -> acct s o l s').
  { intros s' l F G E1 E2 P1 P2. apply P; [assumption|]. rewrite P1, P2, app_nil_r, Q, (hs_none s' F). unfold qh. rewrite E1, E2. apply Permutation_refl. }
  destruct (is_tx _ _) eqn:Etx; cbn [orb]; [|destruct (check_queue _ _)].
  - destruct (m_att m <? _).
    + apply A; try reflexivity; try exact Hg; try (destruct (is_start _ _); reflexivity). left. cbn. rewrite Hn, Ht. split; reflexivity.
    + destruct (resolvable _ _); [|apply D]. apply B; try reflexivity; assumption.
  - destruct (m_att m <? _).
    + apply A; try reflexivity; try exact Hg; try (destruct (is_start _ _); reflexivity). right. cbn. rewrite Hn, Ht. eexists; split; reflexivity.
    + destruct (resolvable _ _); [|apply D]. apply B; try reflexivity; assumption.
  - destruct (mtype_eqb _ _).
    + apply A; try reflexivity; try exact Hg. right. cbn. rewrite Hn, Ht. eexists; split; reflexivity.
    + destruct (resolvable _ _); [|apply D]. apply B; try reflexivity; assumption.
Qed.

Lemma step_acct s o : (forall c i, o <> Restart c i) -> acct s o (snd (step s o)) (fst (step s o)).
Proof.
  intros Hr.
  assert (S0 : forall s' l, hs s' = hs s -> s_gh s' = s_gh s -> promises l = [] -> overflowed l = [] ->
     (forall k now, o <> PushAsync k now) -> acct s o l s').
  { intros s' l H1 H2 H3 H4 H5. apply acct_same; auto. intros k now E; exfalso; eapply H5; eauto. }
  destruct (s_dead s) eqn:Ed.
  { assert (E : step s o = (s, [])) by (destruct o; cbn [step]; rewrite ?Ed; try reflexivity; exfalso; eapply Hr; reflexivity).
    rewrite E. apply acct_same; auto. intros; congruence. }
  assert (CS : forall m z, (s_nq z = s_nq s ++ [m] \/ s_nq z = m :: s_nq s) /\ s_tq z = s_tq s \/ s_nq z = s_nq s /\ s_tq z = s_tq s ++ [m] ->
     m_h m = s_gh s -> s_fl z = s_fl s -> s_gh z = (s_gh s + 1)%N -> acct s o (snd (check_sizes z)) (fst (check_sizes z))).
  { intros m z Hz Hm Hf Hg. exists [s_gh s]. destruct (check_sizes_frame z) as (_ & _ & G & _). rewrite G, Hg.
    split; [right; split; reflexivity|]. split; [lia|]. left. split; [reflexivity|]. rewrite check_sizes_promises. cbn [app].
    rewrite <- check_sizes_hs. unfold hs, flh. rewrite Hf, <- Hm.
    rewrite <- app_assoc. rewrite (Permutation_app_comm (match s_fl s with Some m0 => [m_h m0] | None => [] end) [m_h m]). rewrite app_assoc.
    apply Permutation_app_tail. change [m_h m] with (map m_h [m]). rewrite <- map_app. apply Permutation_map.
    destruct Hz as [[[-> | ->] ->]|[-> ->]]; rewrite <- ?app_assoc.
    - apply Permutation_app_head, Permutation_app_comm.
    - rewrite app_assoc. symmetry. apply Permutation_cons_append.
    - apply Permutation_refl. }
  assert (AN : forall m z, s_nq z = s_nq s -> s_tq z = s_tq s -> m_h m = s_gh s -> s_fl z = s_fl s -> s_gh z = (s_gh s + 1)%N ->
     acct s o (snd (add_normal m z)) (fst (add_normal m z))).
  { intros m z Hn Ht Hm Hf Hg. unfold add_normal. apply CS with m; auto. left. cbn. rewrite Ht, Hn. split; [|reflexivity]. destruct (m_type m); auto. }
  assert (AT : forall m z, s_nq z = s_nq s -> s_tq z = s_tq s -> m_h m = s_gh s -> s_fl z = s_fl s -> s_gh z = (s_gh s + 1)%N ->
     acct s o (snd (add_tx m z)) (fst (add_tx m z))).
  { intros m z Hn Ht Hm Hf Hg. unfold add_tx. apply CS with m; auto. right. cbn. rewrite Ht, Hn. split; reflexivity. }
  assert (PN : forall k now, o = PushAsync k now -> acct s o [OPromise (s_gh s) POffline] (resolve (s_gh s) (set_s_gh (s_gh s + 1)%N s))).
  { intros k now Eo. exists [s_gh s]. cbn [s_gh set_s_gh resolve set_s_done]. split; [right; split; reflexivity|]. split; [lia|]. left. split; [reflexivity|]. apply Permutation_refl. }
  destruct o; cbn [step]; rewrite ?Ed; try (apply S0; (reflexivity || discriminate)).
  - unfold push_call. destruct (negb _); [apply S0; (reflexivity || discriminate)|]. destruct (is_tx _ _); [apply AT; reflexivity|].
    destruct (_ || _); [apply AN; reflexivity|]. exists []. cbn [fst snd s_gh set_s_gh]. split; [left; reflexivity|]. split; [lia|]. left. split; [discriminate|].
    rewrite !app_nil_r. apply Permutation_refl.
  - unfold push_call_async. destruct (negb _); [eapply PN; reflexivity|]. destruct (is_tx _ _); [apply AT; reflexivity|].
    destruct (_ && _); [eapply PN; reflexivity|apply AN; reflexivity].
  - unfold push_reply. destruct (negb _); [apply S0; (reflexivity || discriminate)|]. destruct (s_next s); [destruct (N.eqb _ _)|]; apply S0; (reflexivity || discriminate).
  - unfold work. destruct (negb _); [apply S0; (reflexivity || discriminate)|]. destruct (negb _); [apply S0; (reflexivity || discriminate)|].
    unfold iterate. destruct (no_messages s); [apply S0; (reflexivity || discriminate)|]. destruct (s_paused s); [apply S0; (reflexivity || discriminate)|].
    destruct (s_fl s) eqn:Ef; [apply S0; (reflexivity || discriminate)|].
    destruct (select s now) as [|a b d|b d] eqn:Es; [apply S0; (reflexivity || discriminate)| |];
    (destruct (held_back s b); [apply S0; (reflexivity || discriminate)|]).
    + pose proof (transmit_acct (SelNormal a b d) b now ok s Ef Es ltac:(left; eauto)) as T. destruct (transmit (SelNormal a b d) b now ok s). exact T.
    + pose proof (transmit_acct (SelTx b d) b now ok s Ef Es ltac:(right; eauto)) as T. destruct (transmit (SelTx b d) b now ok s). exact T.
  - unfold recv_result. destruct (s_fl s) as [m|] eqn:Ef; [|apply S0; (reflexivity || discriminate)].
    destruct (N.eqb _ _); [|apply S0; (reflexivity || discriminate)].
    unfold handle_call_result. destruct (resolvable _ _); [|apply S0; (reflexivity || discriminate)].
    exists []. split; [left; reflexivity|]. split; [destruct (is_tx _ _); [|destruct (check_queue _ _)]; cbn; lia|].
    left. split; [discriminate|]. rewrite app_nil_r. cbn [snd fst]. match goal with |- Permutation _ (hs ?z ++ _) => rewrite (hs_none z) by reflexivity end.
    change (promises [OPromise (m_h m) (PResult (m_id m) body)] ++ overflowed [OPromise (m_h m) (PResult (m_id m) body)]) with [m_h m].
    unfold hs, flh, qh. rewrite Ef. destruct (is_tx _ _); [|destruct (check_queue _ _)]; apply Permutation_refl.
  - unfold recv_error_begin. destruct (s_fl s) as [m|] eqn:Ef; [|apply S0; (reflexivity || discriminate)]. destruct (N.eqb _ _); apply S0; (reflexivity || discriminate).
  - unfold recv_error_end. destruct (s_errs s); [apply S0; (reflexivity || discriminate)|]. apply handle_failure_acct; (reflexivity || discriminate).
  - unfold recv_error. destruct (s_fl s) eqn:Ef; [|apply S0; (reflexivity || discriminate)]. destruct (N.eqb _ _); [|apply S0; (reflexivity || discriminate)].
    apply handle_failure_acct; (reflexivity || discriminate).
  - unfold timer_expire. destruct (s_armed s) as [t|]; [destruct (t <=? now)|]; apply S0; (reflexivity || discriminate).
  - unfold timer_run. destruct (s_fired s); [|apply S0; (reflexivity || discriminate)]. apply handle_failure_acct; (reflexivity || discriminate).
  - destruct (s_armed s) as [t|]; [destruct (t <=? now)|]; try (apply S0; (reflexivity || discriminate)). apply handle_failure_acct; (reflexivity || discriminate).
  - destruct (s_nt s) as [t|]; [destruct (t <=? now)|]; apply S0; (reflexivity || discriminate).
  - cbn [fst snd]. unfold resume. destruct (negb _); [apply S0; (reflexivity || discriminate)|]. destruct (_ && _); [apply S0; (reflexivity || discriminate)|].
    unfold resume_now. destruct (N.eqb _ _); apply S0; (reflexivity || discriminate).
  - cbn [fst snd]. unfold resume_timer. destruct (existsb _ _); [|apply S0; (reflexivity || discriminate)]. unfold resume_now. destruct (N.eqb _ _); apply S0; (reflexivity || discriminate).
  - cbn [fst snd]. unfold add_meter_id. destruct (lookup _ _); apply S0; (reflexivity || discriminate).
  - cbn [fst snd]. apply S0; try (reflexivity || discriminate).
    + unfold start_handled. destruct (lookup _ _); [|reflexivity]. unfold hs, flh. cbn. f_equal. rewrite !map_app. f_equal. rewrite map_map. apply map_ext.
      intros m. destruct (existsb _ _); reflexivity.
    + unfold start_handled. destruct (lookup _ _); reflexivity.
  - exfalso; eapply Hr; reflexivity.
Qed.

(** *** At most once, always *)

Definition hbound (s : st) : Prop := Forall (fun h => h < s_gh s)%N (s_done s ++ hs s).

Lemma hbound_step s o : hbound s -> hbound (fst (step s o)).
Proof.
  intros Hb. destruct (match o with Restart _ _ => true | _ => false end) eqn:Eo.
  - destruct o; try discriminate. cbn [step fst]. unfold hbound in *. apply Forall_app in Hb as [Hb _].
    assert (NR : forall rows h x, In x (map m_h (number_rows h rows)) -> (h <= x < h + N.of_nat (length rows))%N).
    { induction rows as [|r q IH]; intros h x; [contradiction|]. cbn [number_rows map length]. intros [<-|Hx]; [cbn; lia|]. apply IH in Hx. lia. }
    assert (Ed : s_done (load_persisted ignore_sec (init c (s_dbn s) (s_dbt s) (s_gh s) (s_done s))) = s_done s)
      by (unfold load_persisted; cbn; destruct (s_dbn s); [destruct (s_dbt s)|]; reflexivity).
    set (keep := fun r => negb (ignore_sec && mtype_eqb (r_type r) TSecurity)) in *.
    assert (Eg : s_gh (load_persisted ignore_sec (init c (s_dbn s) (s_dbt s) (s_gh s) (s_done s))) =
      (s_gh s + N.of_nat (length (filter keep (s_dbn s))) + N.of_nat (length (filter keep (s_dbt s))))%N)
      by (unfold load_persisted; cbn; destruct (s_dbn s); [destruct (s_dbt s)|]; reflexivity).
    assert (En : s_nq (load_persisted ignore_sec (init c (s_dbn s) (s_dbt s) (s_gh s) (s_done s))) = number_rows (s_gh s) (filter keep (s_dbn s)))
      by (unfold load_persisted; cbn; destruct (s_dbn s); [destruct (s_dbt s)|]; reflexivity).
    assert (Et : s_tq (load_persisted ignore_sec (init c (s_dbn s) (s_dbt s) (s_gh s) (s_done s))) = number_rows (s_gh s + N.of_nat (length (filter keep (s_dbn s))))%N (filter keep (s_dbt s)))
      by (unfold load_persisted; cbn; destruct (s_dbn s); [destruct (s_dbt s)|]; reflexivity).
    assert (Ef : s_fl (load_persisted ignore_sec (init c (s_dbn s) (s_dbt s) (s_gh s) (s_done s))) = None)
      by (unfold load_persisted; cbn; destruct (s_dbn s); [destruct (s_dbt s)|]; reflexivity).
    rewrite Ed, Eg, (hs_none _ Ef). unfold qh. rewrite En, Et, map_app. rewrite !Forall_app. repeat split.
    + eapply Forall_impl; [|exact Hb]. cbn. intros; lia.
    + apply Forall_forall. intros x Hx. apply NR in Hx. lia.
    + apply Forall_forall. intros x Hx. apply NR in Hx. lia.
  - assert (Hr : forall c i, o <> Restart c i) by (intros c i ->; discriminate).
    destruct (step_acct s o Hr) as (new & Hnew & Hg & Hc).
    assert (Hi : incl (hs (fst (step s o)) ++ promises (snd (step s o))) (hs s ++ new)).
    { destruct Hc as [[_ Hp]|[_ Hi]]; [|assumption]. intros h Hh. eapply Permutation_in; [symmetry; exact Hp|].
      rewrite !in_app_iff in *. tauto. }
    assert (Hn : forall h, In h (hs s ++ new) -> (h < s_gh (fst (step s o)))%N).
    { unfold hbound in Hb. rewrite Forall_app, !Forall_forall in Hb. intros h Hh. apply in_app_iff in Hh as [Hh|Hh].
      - apply Hb in Hh. lia.
      - destruct Hnew as [-> | [-> Hg']]; [contradiction|]. destruct Hh as [<-|[]]. lia. }
    unfold hbound in *. rewrite Forall_app in *. destruct Hb as [Hb1 Hb2]. split.
    + assert (Hdi : done_inv s) by exact Hb1.
      destruct (step_pstep s o Hdi) as [[_ ->]|(h & Hp & -> & _)].
      * eapply Forall_impl; [|exact Hb1]. cbn; intros; lia.
      * constructor; [apply Hn, Hi; rewrite Hp; apply in_or_app; right; left; reflexivity|]. eapply Forall_impl; [|exact Hb1]. cbn; intros; lia.
    + apply Forall_forall. intros h Hh. apply Hn, Hi, in_or_app. left; assumption.
Qed.

Lemma promises_app a b : promises (a ++ b) = promises a ++ promises b.
Proof. apply flat_map_app. Qed.
Lemma outs_cons o l t : outs ((o, l) :: t) = l ++ outs t.
Proof. reflexivity. Qed.

Lemma promises_run os : forall s, hbound s -> NoDup (promises (outs (trace s os)) ) /\
  Forall (fun h => ~ In h (s_done s)) (promises (outs (trace s os))) /\
  (forall h, In h (s_done (final s os)) <-> In h (s_done s) \/ In h (promises (outs (trace s os)))).
Proof.
  induction os as [|o os IH]; intros s Hb; [repeat split; try constructor; cbn; tauto|].
  cbn [trace final]. rewrite outs_cons, promises_app.
  destruct (IH _ (hbound_step s o Hb)) as (N1 & N2 & N3).
  assert (Hd : done_inv s) by (unfold hbound in Hb; apply Forall_app in Hb; apply Hb).
  destruct (step_pstep s o Hd) as [[Hp He]|(h & Hp & He & Hh)]; rewrite Hp; rewrite He in *; cbn [app].
  - repeat split; auto; apply N3.
  - rewrite Forall_forall in N2. repeat split.
    + constructor; [|assumption]. intros Hin. apply N2 in Hin. apply Hin. left; reflexivity.
    + constructor; [assumption|]. apply Forall_forall. intros x Hx. apply N2 in Hx. intros E. apply Hx. right; assumption.
    + intros Hx. apply N3 in Hx. cbn in *. tauto.
    + intros Hx. apply N3. cbn in *. tauto.
Qed.

Lemma hbound_fresh c : hbound (fresh c).
Proof. unfold hbound, fresh, hs, flh. cbn. constructor. Qed.

Lemma promise_at_most_once c os : NoDup (promises (outs (trace (fresh c) os))).
Proof. apply (promises_run os (fresh c) (hbound_fresh c)). Qed.

(** *** A value in a promise comes from the matching response *)

Lemma result_only_from_match s o h id body : In (OPromise h (PResult id body)) (snd (step s o)) ->
  o = RecvResult id body /\ exists m, s_fl s = Some m /\ m_id m = id /\ m_h m = h.
Proof.
  assert (CS : forall z, ~ In (OPromise h (PResult id body)) (snd (check_sizes z))).
  { intros z. unfold check_sizes. destruct (over _ _ _); [|intros []]. destruct (drop_normal _ _ _ _), (drop_tx _ _ _ _ _). cbn [snd].
    intros H. apply in_map_iff in H as (x & E & _). discriminate. }
  assert (HF : forall e i t z, ~ In (OPromise h (PResult id body)) (snd (handle_failure e i t z))).
  { intros e i t z. unfold handle_failure. destruct (s_fl z); [|intros [E|[]]; discriminate].
    destruct (_ || _); [destruct (_ <? _); [destruct (is_start _ _); intros H; repeat destruct H as [H|H]; try discriminate; contradiction|]|destruct (mtype_eqb _ _); [intros []|]];
    (destruct (resolvable _ _); [|intros [E|[]]; discriminate]); intros [E|[E|[]]]; try discriminate; destruct e; discriminate. }
  intros H. destruct (s_dead s) eqn:Ed; [destruct o; cbn [step] in H; rewrite ?Ed in H; contradiction|].
  destruct o; cbn [step] in H; rewrite ?Ed in H; try contradiction.
  - exfalso. revert H. unfold push_call. destruct (negb _); [intros []|]. destruct (is_tx _ _); [apply CS|]. destruct (_ || _); [apply CS|intros []].
  - exfalso. revert H. unfold push_call_async. destruct (negb _); [intros [E|[]]; discriminate|]. destruct (is_tx _ _); [apply CS|]. destruct (_ && _); [intros [E|[]]; discriminate|apply CS].
  - exfalso. revert H. unfold push_reply. destruct (negb _); [intros []|]. destruct (s_next s); [destruct (N.eqb _ _)|]; intros [E|[]]; discriminate.
  - exfalso. destruct (work_cases now ok s) as [E|(sel & m & _ & _ & _ & _ & _ & Hsel & E & _)]; rewrite E in H; [contradiction|].
    revert H. unfold transmit. destruct ok; [intros [E'|[]]; discriminate|]. destruct (is_tx _ _); [intros [E'|[]]; discriminate|].
    destruct (check_queue _ _); [intros [E'|[]]; discriminate|].
    destruct Hsel as [(pre & post & ->)|(rest & ->)]; [|intros [E'|[]]; discriminate].
    destruct (resolvable _ _); [|intros [E'|[E'|[]]]; discriminate]. intros [E'|[E'|E']]; try discriminate.
    cbn in E'. destruct pre; cbn in E'; destruct E' as [E'|[]]; discriminate.
  - unfold recv_result in H. destruct (s_fl s) as [m|] eqn:Ef; [|contradiction]. destruct (N.eqb_spec (m_id m) id0); [|contradiction].
    unfold handle_call_result in H. destruct (resolvable _ _); destruct H as [H|[]]; [|discriminate]. inversion H; subst. split; [reflexivity|].
    exists m. auto.
  - exfalso. revert H. unfold recv_error_begin. destruct (s_fl s); [destruct (N.eqb _ _)|]; intros [].
  - exfalso. revert H. unfold recv_error_end. destruct (s_errs s); [intros []|]. apply HF.
  - exfalso. revert H. unfold recv_error. destruct (s_fl s); [destruct (N.eqb _ _)|]; try (intros []). apply HF.
  - exfalso. revert H. unfold timer_expire. destruct (s_armed s) as [t|]; [destruct (t <=? now)|]; intros [].
  - exfalso. revert H. unfold timer_run. destruct (s_fired s); [|intros []]. apply HF.
  - exfalso. revert H. destruct (s_armed s) as [t|]; [destruct (t <=? now)|]; try (intros []). apply HF.
  - exfalso. revert H. destruct (s_nt s) as [t|]; [destruct (t <=? now)|]; intros [].
Qed.

(** *** Exactly once, when failed transmissions are orderly *)

Definition clean (s : st) : Prop :=
  s_dead s = false /\ NoDup (s_done s ++ hs s) /\ hbound s /\ (s_armed s <> None -> s_fl s <> None).

Lemma handle_failure_alive e i t z m : s_fl z = Some m -> ~ In (m_h m) (s_done z) ->
  s_dead (fst (handle_failure e i t z)) = s_dead z.
Proof.
  intros Hf Hn. unfold handle_failure. rewrite Hf.
  assert (R : resolvable (m_h m) z = true).
  { unfold resolvable. apply negb_true_iff, not_true_is_false. intros E. apply existsb_exists in E as (y & Hy & E). apply N.eqb_eq in E. subst. contradiction. }
  destruct (is_tx _ _); cbn [orb]; [|destruct (check_queue _ _)].
  - destruct (_ <? _); [reflexivity|]. rewrite R. reflexivity.
  - destruct (_ <? _); [reflexivity|]. rewrite R. reflexivity.
  - destruct (mtype_eqb _ _); [reflexivity|]. rewrite R. reflexivity.
Qed.
Lemma handle_failure_armed e i t z m : s_fl z = Some m -> ~ In (m_h m) (s_done z) ->
  s_armed (fst (handle_failure e i t z)) = None.
Proof.
  intros Hf Hn. unfold handle_failure. rewrite Hf.
  assert (R : resolvable (m_h m) z = true).
  { unfold resolvable. apply negb_true_iff, not_true_is_false. intros E. apply existsb_exists in E as (y & Hy & E). apply N.eqb_eq in E. subst. contradiction. }
  destruct (is_tx _ _); cbn [orb]; [|destruct (check_queue _ _)].
  - destruct (_ <? _); [reflexivity|]. rewrite R. reflexivity.
  - destruct (_ <? _); [reflexivity|]. rewrite R. reflexivity.
  - destruct (mtype_eqb _ _); [reflexivity|]. rewrite R. reflexivity.
Qed.

Lemma check_sizes_armed s : s_armed (fst (check_sizes s)) = s_armed s /\ s_fl (fst (check_sizes s)) = s_fl s.
Proof. unfold check_sizes. destruct (over _ _ _); [|split; reflexivity]. destruct (drop_normal _ _ _ _), (drop_tx _ _ _ _ _). split; reflexivity. Qed.
Lemma finish_armed s : s_armed (finish_iteration s) = s_armed s /\ s_fl (finish_iteration s) = s_fl s.
Proof. unfold finish_iteration. destruct (no_messages s); split; reflexivity. Qed.

Lemma NoDup_app_disj {A} (a b : list A) x : NoDup (a ++ b) -> In x a -> In x b -> False.
Proof.
  induction a as [|y a IH]; cbn; [contradiction|]. intros H [->|Hx] Hb; inversion H as [|? ? Hn H']; subst.
  - apply Hn, in_or_app; right; assumption.
  - eapply IH; eassumption.
Qed.

Lemma clean_alive s o : clean s -> serial [o] ->
  s_dead (fst (step s o)) = false /\ (s_armed (fst (step s o)) <> None -> s_fl (fst (step s o)) <> None).
Proof.
  intros (Hd & Hn & Hb & Ha) Hs. inversion Hs as [|? ? Hs1 _]; subst.
  assert (Hfl : forall m, s_fl s = Some m -> ~ In (m_h m) (s_done s)).
  { intros m Hf Hin. eapply NoDup_app_disj; [exact Hn|exact Hin|]. unfold hs, flh. rewrite Hf. apply in_or_app. right. left. reflexivity. }
  assert (Hq : forall m, In m (s_nq s) -> ~ In (m_h m) (s_done s)).
  { intros m Hf Hin. eapply NoDup_app_disj; [exact Hn|exact Hin|]. unfold hs. apply in_or_app. left. apply in_map, in_or_app. left; assumption. }
  assert (S0 : forall s', s_dead s' = s_dead s -> s_armed s' = s_armed s -> s_fl s' = s_fl s ->
    s_dead s' = false /\ (s_armed s' <> None -> s_fl s' <> None)) by (intros s' -> -> ->; auto).
  assert (CS : forall z, s_dead z = s_dead s -> s_armed z = s_armed s -> s_fl z = s_fl s ->
    s_dead (fst (check_sizes z)) = false /\ (s_armed (fst (check_sizes z)) <> None -> s_fl (fst (check_sizes z)) <> None)).
  { intros z E1 E2 E3. destruct (check_sizes_frame z) as (_ & _ & _ & F). destruct (check_sizes_armed z) as [G1 G2].
    rewrite F, G1, G2, E1, E2, E3. auto. }
  assert (HF : forall e i t z m, s_fl z = Some m -> s_fl s = Some m -> s_done z = s_done s -> s_dead z = s_dead s ->
    s_dead (fst (handle_failure e i t z)) = false /\ (s_armed (fst (handle_failure e i t z)) <> None -> s_fl (fst (handle_failure e i t z)) <> None)).
  { intros e i t z m E1 E2 E3 E4. rewrite (handle_failure_alive e i t z m E1), (handle_failure_armed e i t z m E1).
    - rewrite E4. split; [assumption|intros C; contradiction].
    - rewrite E3; apply Hfl; assumption.
    - rewrite E3; apply Hfl; assumption. }
  assert (LP : forall z ig, s_dead (load_persisted ig z) = s_dead z /\ s_armed (load_persisted ig z) = s_armed z).
  { intros z ig. unfold load_persisted. cbn. destruct (s_dbn z); [destruct (s_dbt z)|]; split; reflexivity. }
  destruct o; cbn [step]; rewrite ?Hd; try (apply S0; reflexivity); try contradiction.
  - unfold push_call. destruct (negb _); [apply S0; reflexivity|]. destruct (is_tx _ _); [apply CS; reflexivity|]. destruct (_ || _); [apply CS; reflexivity|apply S0; reflexivity].
  - unfold push_call_async. destruct (negb _); [apply S0; reflexivity|]. destruct (is_tx _ _); [apply CS; reflexivity|]. destruct (_ && _); [apply S0; reflexivity|apply CS; reflexivity].
  - unfold push_reply. destruct (negb _); [apply S0; reflexivity|]. destruct (s_next s); [destruct (N.eqb _ _)|]; apply S0; reflexivity.
  - assert (T : forall sel x, (exists pre post, sel = SelNormal pre x post /\ s_nq s = pre ++ x :: post) \/ (exists rest, sel = SelTx x rest) ->
       s_fl s = None ->
       s_dead (fst (transmit sel x now ok s)) = false /\ (s_armed (fst (transmit sel x now ok s)) <> None -> s_fl (fst (transmit sel x now ok s)) <> None)).
    { intros sel x Hsel Hf. unfold transmit. destruct ok.
      - cbn [fst]. match goal with |- context [finish_iteration ?z] => destruct (finish_frame z) as (_ & _ & _ & ->); destruct (finish_armed z) as [-> ->] end.
        split; [destruct sel; exact Hd|discriminate].
      - destruct (is_tx _ _); [|destruct (check_queue _ _)]; cbn [fst]; try (match goal with |- context [finish_iteration ?z] => destruct (finish_frame z) as (_ & _ & _ & ->); destruct (finish_armed z) as [-> ->] end;
        split; [destruct sel; exact Hd|intros C; contradiction C; reflexivity]).
        destruct Hsel as [(pre & post & -> & E)|(rest & ->)]; cbn [fst].
        + assert (R : resolvable (m_h (prepare x (s_txmap s))) s = true).
          { rewrite prepare_h. unfold resolvable. apply negb_true_iff, not_true_is_false. intros R. apply existsb_exists in R as (y & Hy & R). apply N.eqb_eq in R. subst y.
            revert Hy. apply Hq. rewrite E. apply in_or_app. right. left. reflexivity. }
          rewrite R. cbn [fst]. match goal with |- context [finish_iteration ?z] => destruct (finish_frame z) as (_ & _ & _ & ->); destruct (finish_armed z) as [-> ->] end.
          split; [exact Hd|intros C; contradiction C; reflexivity].
        + match goal with |- context [finish_iteration ?z] => destruct (finish_frame z) as (_ & _ & _ & ->); destruct (finish_armed z) as [-> ->] end.
          split; [exact Hd|intros C; contradiction C; reflexivity]. }
    unfold work. destruct (negb _); [apply S0; reflexivity|]. destruct (negb _); [apply S0; reflexivity|].
    unfold iterate. destruct (no_messages s); [apply S0; reflexivity|]. destruct (s_paused s); [apply S0; reflexivity|].
    destruct (s_fl s) eqn:Ef; [apply S0; (reflexivity || exact Ef)|].
    destruct (select s now) as [|a b d|b d] eqn:Es; [apply S0; (reflexivity || exact Ef)| |];
    (destruct (held_back s b); [apply S0; (reflexivity || exact Ef)|]).
    + specialize (T (SelNormal a b d) b ltac:(left; exists a, d; split; [reflexivity|eapply select_normal_parts; eassumption]) eq_refl). destruct (transmit (SelNormal a b d) b now ok s). exact T.
    + specialize (T (SelTx b d) b ltac:(right; eauto) eq_refl). destruct (transmit (SelTx b d) b now ok s). exact T.
  - unfold recv_result. destruct (s_fl s) as [m|] eqn:Ef; [|apply S0; (reflexivity || exact Ef)]. destruct (N.eqb _ _); [|apply S0; (reflexivity || exact Ef)].
    unfold handle_call_result. destruct (resolvable _ _); [|apply S0; (reflexivity || exact Ef)]. cbn [fst].
    split; [destruct (is_tx _ _); [|destruct (check_queue _ _)]; exact Hd|intros C; contradiction C; reflexivity].
  - unfold recv_error. destruct (s_fl s) as [m|] eqn:Ef; [|apply S0; (reflexivity || exact Ef)]. destruct (N.eqb _ _); [|apply S0; (reflexivity || exact Ef)].
    apply HF with m; (reflexivity || exact Ef).
  - destruct (s_armed s) as [t|] eqn:Ea; [destruct (t <=? now)|]; try (apply S0; (reflexivity || exact Ea)).
    destruct (s_fl s) as [m|] eqn:Ef; [|exfalso; apply Ha; [discriminate|reflexivity]]. apply HF with m; (reflexivity || exact Ef).
  - destruct (s_nt s) as [t|]; [destruct (t <=? now)|]; apply S0; reflexivity.
  - cbn [fst]. unfold resume. destruct (negb _); [apply S0; reflexivity|]. destruct (_ && _); [apply S0; reflexivity|].
    unfold resume_now. destruct (N.eqb _ _); apply S0; reflexivity.
  - cbn [fst]. unfold resume_timer. destruct (existsb _ _); [|apply S0; reflexivity]. unfold resume_now. destruct (N.eqb _ _); apply S0; reflexivity.
  - cbn [fst]. unfold add_meter_id. destruct (lookup _ _); apply S0; reflexivity.
  - cbn [fst]. unfold start_handled. destruct (lookup _ _); apply S0; reflexivity.
  - cbn [fst]. destruct (LP (init c (s_dbn s) (s_dbt s) (s_gh s) (s_done s)) ignore_sec) as [-> ->]. split; [reflexivity|intros C; contradiction C; reflexivity].
Qed.

Lemma orderly_not_dirty s o os : orderly s (o :: os) -> ~ dirty s o.
Proof.
  intros H (now & x & pre & m & post & -> & Hs). specialize (H [] now os eq_refl m). cbn [final] in H.
  apply select_normal in Hs. pose proof (find_allowed_first s now _ _ _ Hs) as F. destruct (H F) as [rest E].
  apply find_allowed_spec in Hs as (E' & Ha & Hf). rewrite E in E'. inversion E'; subst. inversion Hf; subst. congruence.
Qed.
Lemma orderly_tail s o os : orderly s (o :: os) -> orderly (fst (step s o)) os.
Proof. intros H pre now post E m. apply (H (o :: pre) now post). cbn. rewrite E. reflexivity. Qed.

Lemma overflowed_app a b : overflowed (a ++ b) = overflowed a ++ overflowed b.
Proof. apply flat_map_app. Qed.

Lemma clean_step s o os : clean s -> serial [o] -> (forall c i, o <> Restart c i) -> orderly s (o :: os) ->
  clean (fst (step s o)) /\
  exists new, (forall k now, o = PushAsync k now -> new = [s_gh s]) /\
    Permutation (hs s ++ new) (hs (fst (step s o)) ++ promises (snd (step s o)) ++ overflowed (snd (step s o))).
Proof.
  intros Hc Hs Hr Ho. destruct (clean_alive s o Hc Hs) as [Hd' Ha']. destruct Hc as (Hd & Hn & Hb & Ha).
  destruct (step_acct s o Hr) as (new & Hnew & Hg & [[Hpa Hp]|[[C|C] _]]); [|congruence|exfalso; eapply orderly_not_dirty; eauto].
  split; [|exists new; split; [intros k now E; eapply Hpa; eassumption|assumption]].
  assert (Hb' := hbound_step s o Hb).
  split; [assumption|]. split; [|split; assumption].
  assert (Hdone : exists w, s_done (fst (step s o)) = w ++ s_done s /\ promises (snd (step s o)) = w).
  { assert (Hdi : done_inv s) by (unfold hbound in Hb; apply Forall_app in Hb; apply Hb).
    destruct (step_pstep s o Hdi) as [[-> ->]|(h & -> & -> & _)]; [exists []; auto|exists [h]; auto]. }
  destruct Hdone as (w & -> & Hw). rewrite Hw in Hp.
  assert (N1 : NoDup (s_done s ++ hs s ++ new)).
  { destruct Hnew as [-> | [-> _]]; [rewrite app_nil_r; assumption|].
    rewrite app_assoc. eapply Permutation_NoDup; [apply Permutation_cons_append|]. constructor; [|assumption].
    intros Hin. unfold hbound in Hb. rewrite Forall_forall in Hb. apply Hb in Hin. lia. }
  rewrite Hp in N1. eapply Permutation_NoDup in N1.
  2: { apply (Permutation_count_occ N.eq_dec). intros x.
       instantiate (1 := ((w ++ s_done s) ++ hs (fst (step s o))) ++ overflowed (snd (step s o))). rewrite !count_occ_app. lia. }
  eapply NoDup_app_l. exact N1.
Qed.

Lemma clean_run os : forall s, clean s -> serial os -> no_restart os -> orderly s os ->
  s_dead (final s os) = false /\
  forall h, In h (hs s) -> In h (hs (final s os)) \/ In h (promises (outs (trace s os))) \/ In h (overflowed (outs (trace s os))).
Proof.
  induction os as [|o os IH]; intros s Hc Hs Hr Ho; [split; [apply Hc|auto]|].
  apply no_restart_not in Hr as [Hr1 Hr2]. inversion Hs as [|? ? Hs1 Hs2]; subst.
  destruct (clean_step s o os Hc (Forall_cons _ Hs1 (Forall_nil _)) Hr1 Ho) as (Hc' & new & _ & Hp).
  destruct (IH _ Hc' Hs2 Hr2 (orderly_tail _ _ _ Ho)) as [A B]. cbn [final trace]. split; [assumption|].
  intros h Hh. rewrite outs_cons, promises_app, overflowed_app, !in_app_iff.
  assert (Hi : In h (hs s ++ new)) by (apply in_or_app; left; assumption). rewrite Hp in Hi.
  rewrite !in_app_iff in Hi. destruct Hi as [Hi|[Hi|Hi]]; [apply B in Hi; tauto|tauto|tauto].
Qed.

Lemma clean_fresh c : clean (fresh c).
Proof. repeat split; try constructor. intros C; contradiction C; reflexivity. Qed.

Lemma serial_app a b : serial (a ++ b) <-> serial a /\ serial b.
Proof. apply Forall_app. Qed.
Lemma no_restart_app a b : no_restart (a ++ b) <-> no_restart a /\ no_restart b.
Proof. apply Forall_app. Qed.
Lemma orderly_app s a b : orderly s (a ++ b) -> orderly s a /\ orderly (final s a) b.
Proof.
  intros H. split.
  - intros pre now post E. apply (H pre now (post ++ b)). rewrite E, <- app_assoc. reflexivity.
  - intros pre now post E. rewrite <- final_app. apply (H (a ++ pre) now post). rewrite E, app_assoc. reflexivity.
Qed.

Lemma clean_final os : forall s, clean s -> serial os -> no_restart os -> orderly s os -> clean (final s os).
Proof.
  induction os as [|o os IH]; intros s Hc Hs Hr Ho; [assumption|]. cbn [final].
  apply no_restart_not in Hr as [Hr1 Hr2]. inversion Hs as [|? ? Hs1 Hs2]; subst.
  destruct (clean_step s o os Hc (Forall_cons _ Hs1 (Forall_nil _)) Hr1 Ho) as (Hc' & _).
  apply IH; auto. eapply orderly_tail; eassumption.
Qed.

Lemma hs_pending s h : In h (hs s) -> pending s h.
Proof.
  unfold hs, flh. rewrite in_app_iff. intros [H|H].
  - apply in_map_iff in H as (m & E & Hm). apply in_app_iff in Hm. exists m. tauto.
  - destruct (s_fl s) as [m|] eqn:Ef; [|contradiction]. destruct H as [<-|[]]. exists m. auto.
Qed.

Lemma promise_kept c os1 k now os2 :
  let os := os1 ++ PushAsync k now :: os2 in
  let h := s_gh (final (fresh c) os1) in
  serial os -> no_restart os -> orderly (fresh c) os ->
  s_dead (final (fresh c) os) = false /\
  (pending (final (fresh c) os) h \/ In h (promises (outs (trace (fresh c) os))) \/ In h (overflowed (outs (trace (fresh c) os)))).
Proof.
  cbn zeta. intros Hs Hr Ho. apply serial_app in Hs as [Hs1 Hs2]. apply no_restart_app in Hr as [Hr1 Hr2].
  apply orderly_app in Ho as [Ho1 Ho2].
  pose proof (clean_final os1 (fresh c) (clean_fresh c) Hs1 Hr1 Ho1) as Hc. rewrite final_app, trace_app.
  set (s := final (fresh c) os1) in *. clearbody s. inversion Hs2 as [|? ? Hs3 Hs4]; subst.
  apply no_restart_not in Hr2 as [Hr3 Hr4].
  assert (Hs5 : serial [PushAsync k now]) by (constructor; [exact I|constructor]).
  destruct (clean_step s (PushAsync k now) os2 Hc Hs5 Hr3 Ho2) as (Hc' & new & Hnew & Hp).
  destruct (clean_run os2 _ Hc' Hs4 Hr4 (orderly_tail _ _ _ Ho2)) as [A B]. cbn [final trace].
  split; [assumption|]. rewrite outs_app, outs_cons, !promises_app, !overflowed_app, !in_app_iff.
  assert (Hi : In (s_gh s) (hs s ++ new)) by (rewrite (Hnew k now eq_refl); apply in_or_app; right; left; reflexivity).
  rewrite Hp, !in_app_iff in Hi. destruct Hi as [Hi|[Hi|Hi]]; [|tauto|tauto].
  destruct (B _ Hi) as [Hh|[Hh|Hh]]; [left; apply hs_pending; assumption|tauto|tauto].
Qed.

(** ** C08: a transmission that fails *)

Lemma alive_same s b : s_nq (set_s_alive b s) = s_nq s /\ s_tq (set_s_alive b s) = s_tq s.
Proof. split; reflexivity. Qed.
Lemma finish_queues s : s_nq (finish_iteration s) = s_nq s /\ s_tq (finish_iteration s) = s_tq s.
Proof. unfold finish_iteration. destruct (no_messages s); split; reflexivity. Qed.

Lemma failed_send_kept s now m l :
  s_dead s = false -> snd (step s (Work now false)) = OSend m false :: l -> retryable (s_cfg s) (m_type m) ->
  l = [] /\ s_paused (fst (step s (Work now false))) = true /\ s_fl (fst (step s (Work now false))) = None /\
  exists x kept, same_message m x /\ m_init kept = m_init m /\ m_id kept = m_id m /\ m_h kept = m_h m /\ m_type kept = m_type m /\ m_body kept = m_body m /\
    m_att kept = m_att x + 1 /\ m_ts kept = m_ts x /\ m_tx kept = m_tx m /\
    (m_type m = TEvent -> c_ver (s_cfg s) = V2 -> m_off kept = true) /\
    ((exists pre post, s_nq s = pre ++ x :: post /\ s_nq (fst (step s (Work now false))) = pre ++ kept :: post /\
        s_tq (fst (step s (Work now false))) = s_tq s) \/
     (exists rest, s_tq s = x :: rest /\ s_tq (fst (step s (Work now false))) = kept :: rest /\
        s_nq (fst (step s (Work now false))) = s_nq s)).
Proof.
  intros Hd. cbn [step]. rewrite Hd. intros E Hr.
  destruct (work_cases now false s) as [E'|(sel & x & _ & _ & Hf & _ & Hs & Hsel & E1 & ->)]; [rewrite E' in E; discriminate|].
  rewrite E1 in E. clear E1.
  assert (Hm : m = prepare x (s_txmap s)).
  { destruct (transmit_outs sel x now false s) as (r & Er & _). rewrite Er in E. congruence. }
  destruct (prepare_same x (s_txmap s)) as (P1 & P2 & _). rewrite <- Hm in P1, P2.
  assert (Ht : m_type (prepare x (s_txmap s)) = m_type m) by (rewrite Hm; reflexivity).
  destruct (alive_same (fst (transmit sel x now false s)) (s_running (fst (transmit sel x now false s)))) as [-> ->].
  change (s_paused (set_s_alive (s_running (fst (transmit sel x now false s))) (fst (transmit sel x now false s)))) with (s_paused (fst (transmit sel x now false s))).
  change (s_fl (set_s_alive (s_running (fst (transmit sel x now false s))) (fst (transmit sel x now false s)))) with (s_fl (fst (transmit sel x now false s))).
  apply retryable_spec in Hr. unfold transmit in *. rewrite <- !Hm in *. clear Hm Ht.
  destruct P1 as (Q1 & Q2 & Q3 & Q4 & Q5 & Q6 & Q7 & Q8 & Q9).
  assert (Ksame : forall k, k = mark_offline m \/ k = m -> m_init k = m_init m /\ m_id k = m_id m /\ m_h k = m_h m /\ m_type k = m_type m /\ m_body k = m_body m /\
      m_att k = m_att x + 1 /\ m_ts k = m_ts x /\ m_tx k = m_tx m).
  { intros k [-> | ->]; [|repeat split; congruence]. unfold mark_offline. destruct (m_type m) eqn:Et; repeat split; try congruence; cbn; congruence. }
  destruct (is_tx (c_ver (s_cfg s)) (m_type m)) eqn:Etx; cbn [orb] in Hr.
  - cbn [fst snd] in *. inversion E; subst l. split; [reflexivity|].
    match goal with |- context [finish_iteration ?z] => destruct (finish_queues z) as [-> ->]; assert (s_paused (finish_iteration z) = s_paused z) as -> by (unfold finish_iteration; destruct (no_messages z); reflexivity); destruct (finish_armed z) as [_ ->] end.
    split; [destruct sel; reflexivity|]. split; [reflexivity|]. exists x, (mark_offline m).
    destruct (Ksame _ (or_introl eq_refl)) as (K1 & K2 & K3 & K4 & K5 & K6 & K7 & K8).
    split; [repeat split; assumption|]. do 8 (split; [assumption|]). split; [unfold mark_offline; intros -> _; reflexivity|].
    destruct Hsel as [(pre & post & ->)|(rest & ->)].
    + left. exists pre, post. split; [eapply select_normal_parts; eassumption|]. split; reflexivity.
    + right. exists rest. split; [eapply select_tx_parts; eassumption|]. split; reflexivity.
  - rewrite Hr in *. cbn [fst snd] in *. inversion E; subst l. split; [reflexivity|].
    match goal with |- context [finish_iteration ?z] => destruct (finish_queues z) as [-> ->]; assert (s_paused (finish_iteration z) = s_paused z) as -> by (unfold finish_iteration; destruct (no_messages z); reflexivity); destruct (finish_armed z) as [_ ->] end.
    split; [destruct sel; reflexivity|]. split; [reflexivity|]. exists x, m.
    destruct (Ksame _ (or_intror eq_refl)) as (K1 & K2 & K3 & K4 & K5 & K6 & K7 & K8).
    split; [repeat split; assumption|]. do 8 (split; [assumption|]). split; [intros T V; rewrite T, V in Etx; discriminate|].
    destruct Hsel as [(pre & post & ->)|(rest & ->)].
    + left. exists pre, post. split; [eapply select_normal_parts; eassumption|]. split; reflexivity.
    + right. exists rest. split; [eapply select_tx_parts; eassumption|]. split; reflexivity.
Qed.

(** When the transmitted message is the front of the queue, exactly it is dropped. *)
Lemma failed_send_dropped s now m l x rest :
  s_dead s = false -> snd (step s (Work now false)) = OSend m false :: l -> ~ retryable (s_cfg s) (m_type m) ->
  Forall (fun y => transactional (c_ver (s_cfg s)) (m_type y) = true) (s_tq s) ->
  s_nq s = x :: rest -> first_ready s now x -> ~ In (m_h x) (s_done s) ->
  same_message m x /\ l = [OPromise (m_h m) POffline; ODrop m DropOffline] /\
  s_nq (fst (step s (Work now false))) = rest /\ s_tq (fst (step s (Work now false))) = s_tq s /\
  s_paused (fst (step s (Work now false))) = true /\ s_fl (fst (step s (Work now false))) = None.
Proof.
  intros Hd. cbn [step]. rewrite Hd. intros E Hr Htq Hq Hfr Hdone.
  destruct (work_cases now false s) as [E'|(sel & y & _ & _ & Hf & _ & Hs & Hsel & E1 & ->)]; [rewrite E' in E; discriminate|].
  rewrite E1 in E. clear E1.
  assert (Hm : m = prepare y (s_txmap s)).
  { destruct (transmit_outs sel y now false s) as (r & Er & _). rewrite Er in E. congruence. }
  destruct (alive_same (fst (transmit sel y now false s)) (s_running (fst (transmit sel y now false s)))) as [-> ->].
  change (s_paused (set_s_alive (s_running (fst (transmit sel y now false s))) (fst (transmit sel y now false s)))) with (s_paused (fst (transmit sel y now false s))).
  change (s_fl (set_s_alive (s_running (fst (transmit sel y now false s))) (fst (transmit sel y now false s)))) with (s_fl (fst (transmit sel y now false s))).
  unfold transmit in *. rewrite <- !Hm in *.
  assert (Hrf : is_tx (c_ver (s_cfg s)) (m_type m) || check_queue (s_cfg s) (m_type m) = false).
  { apply not_true_is_false. intros C. apply Hr, retryable_spec, C. }
  apply orb_false_iff in Hrf as [Etx Ecq]. rewrite Etx, Ecq in *.
  destruct Hsel as [(pre & post & ->)|(rest' & ->)].
  - pose proof (select_normal _ _ _ _ _ Hs) as Hfa. apply find_allowed_first in Hfa as Hfy.
    assert (pre = [] /\ y = x /\ post = rest) as (-> & -> & ->).
    { apply find_allowed_spec in Hfa as (E1 & _ & F). rewrite Hq in E1. destruct pre as [|z pre]; [inversion E1; auto|].
      inversion E1; subst z. inversion F as [|? ? F1 _]; subst. destruct Hfr as (p2 & q2 & Eq & [R1 R2] & Fn).
      apply not_allowed_ready in F1. exfalso. apply F1. split; assumption. }
    assert (Hmx : m_h m = m_h x) by (rewrite Hm; apply prepare_h).
    assert (R : resolvable (m_h m) s = true).
    { rewrite Hmx. unfold resolvable. apply negb_true_iff, not_true_is_false. intros R. apply existsb_exists in R as (z & Hz & R). apply N.eqb_eq in R. subst z. contradiction. }
    rewrite R in *. split; [rewrite Hm; apply prepare_same|]. cbn in E. inversion E; subst l. split; [reflexivity|]. cbn [fst].
    match goal with |- context [finish_iteration ?z] => destruct (finish_queues z) as [-> ->]; assert (s_paused (finish_iteration z) = s_paused z) as -> by (unfold finish_iteration; destruct (no_messages z); reflexivity); destruct (finish_armed z) as [_ ->] end.
    repeat split.
  - exfalso. rewrite (select_tx_parts _ _ _ _ Hs) in Htq. inversion Htq as [|? ? T _]; subst. rewrite is_tx_spec in Etx.
    assert (m_type (prepare y (s_txmap s)) = m_type y) as Ety by (destruct (prepare_same y (s_txmap s)) as [(_ & -> & _) _]; reflexivity).
    congruence.
Qed.

(** ** The two critical sections of receive() and of the timer, run without interruption, are the serial operations *)
Lemma recv_error_serial s id newid now : s_errs s = [] ->
  let s1 := fst (step s (RecvErrBegin id)) in
  step s (RecvErr id newid now) = (fst (step s1 (RecvErrEnd newid now)), snd (step s (RecvErrBegin id)) ++ snd (step s1 (RecvErrEnd newid now))).
Proof.
  intros He. cbn zeta. destruct (s_dead s) eqn:Ed; [cbn [step]; rewrite Ed; cbn [fst snd]; rewrite Ed; reflexivity|].
  cbn [step]. rewrite Ed. unfold recv_error, recv_error_begin.
  destruct (s_fl s) as [m|] eqn:Ef; [destruct (N.eqb _ _)|]; cbn [fst snd s_dead set_s_errs set_s_next]; rewrite Ed.
  - unfold recv_error_end. cbn [s_errs set_s_errs set_s_next app]. rewrite He. cbn [app].
    assert (E : set_s_errs [] (set_s_errs [id] (set_s_next None s)) = set_s_next None s) by (destruct s; cbn in *; subst; reflexivity).
    rewrite E. destruct (handle_failure _ _ _ _); reflexivity.
  - unfold recv_error_end. cbn [s_errs set_s_next]. rewrite He. reflexivity.
  - unfold recv_error_end. cbn [s_errs set_s_next]. rewrite He. reflexivity.
Qed.

Lemma timeout_serial s newid now : s_fired s = false ->
  let s1 := fst (step s (TimerExpire now)) in
  step s (Timeout newid now) = (fst (step s1 (TimerRun newid now)), snd (step s (TimerExpire now)) ++ snd (step s1 (TimerRun newid now))).
Proof.
  intros He. cbn zeta. destruct (s_dead s) eqn:Ed; [cbn [step]; rewrite Ed; cbn [fst snd]; rewrite Ed; reflexivity|].
  cbn [step]. rewrite Ed. unfold timer_expire.
  destruct (s_armed s) as [d|] eqn:Ea; [destruct (d <=? now)|]; cbn [fst snd s_dead set_s_armed set_s_fired]; rewrite Ed.
  - unfold timer_run. cbn [s_fired set_s_armed set_s_fired app].
    assert (E : set_s_fired false (set_s_armed None (set_s_fired true s)) = set_s_armed None s) by (destruct s; cbn in *; subst; reflexivity).
    rewrite E. destruct (handle_failure _ _ _ _); reflexivity.
  - unfold timer_run. rewrite He. reflexivity.
  - unfold timer_run. rewrite He. reflexivity.
Qed.

(** ** Starvation: a queued retry that nobody wakes up for *)
Definition wakes (o : op) : bool :=
  match o with Push _ _ _ | PushAsync _ _ | NotifyTimer _ | Restart _ _ | Stop => true | _ => false end.

(** ** Dispatcher *)
Lemma dispatch_spec v acc qall k trig now :
  (acc = true \/ k_type k = TBoot \/ trig = true -> dispatch_call v acc qall k trig now = DPush (Push k now false)) /\
  (~ (acc = true \/ k_type k = TBoot \/ trig = true) -> transactional v (k_type k) = true \/ qall = true ->
     dispatch_call v acc qall k trig now = DPush (Push k now true)) /\
  (~ (acc = true \/ k_type k = TBoot \/ trig = true) -> ~ (transactional v (k_type k) = true \/ qall = true) ->
     dispatch_call v acc qall k trig now = DDiscard).
Proof.
  unfold dispatch_call, transmission_priority. rewrite is_tx_spec.
  assert (B : mtype_eqb (k_type k) TBoot = true <-> k_type k = TBoot) by (destruct (k_type k); cbn; split; congruence).
  destruct (mtype_eqb (k_type k) TBoot), acc, trig, (transactional v (k_type k)), qall; cbn;
  repeat split; intros; try reflexivity; exfalso; intuition (try discriminate).
Qed.

Lemma dispatch_async_spec v acc qall k trig now :
  (acc = true \/ k_type k = TBoot \/ (trig = true /\ v = V16) -> dispatch_call_async v acc qall k trig now = DPush (PushAsync k now)) /\
  (~ (acc = true \/ k_type k = TBoot \/ (trig = true /\ v = V16)) -> dispatch_call_async v acc qall k trig now = DOffline).
Proof.
  unfold dispatch_call_async, transmission_priority.
  assert (B : mtype_eqb (k_type k) TBoot = true <-> k_type k = TBoot) by (destruct (k_type k); cbn; split; congruence).
  destruct (mtype_eqb (k_type k) TBoot), acc, trig, v, (is_tx _ _), qall; cbn;
  repeat split; intros; try reflexivity; exfalso; intuition (try discriminate).
Qed.

(** ** C07, on the interface *)

Lemma push_async_then_policy s k now : s_dead s = false -> s_running s = true ->
  (transactional (c_ver (s_cfg s)) (k_type k) = true \/ s_paused s = false \/ s_resuming s = true \/ k_type k = TBoot \/
   (c_qall (s_cfg s) = true /\ ~ In (k_type k) (c_discard (s_cfg s)))) ->
  step s (PushAsync k now) = step s (Push k now false).
Proof.
  intros Hd Hr Hc. cbn [step]. rewrite Hd. unfold push_call_async, push_call. rewrite Hr. cbn [negb].
  rewrite is_tx_spec. destruct (transactional _ _) eqn:Et; [reflexivity|].
  assert (B : mtype_eqb (k_type k) TBoot = true <-> k_type k = TBoot) by (destruct (k_type k); cbn; split; congruence).
  assert (Q : check_queue (s_cfg s) (k_type k) = true <-> (c_qall (s_cfg s) = true /\ ~ In (k_type k) (c_discard (s_cfg s)))).
  { pose proof (retryable_spec (s_cfg s) (k_type k)) as R. rewrite is_tx_spec, Et in R. cbn [orb] in R. rewrite R. unfold retryable.
    split; [intros [C|C]; [congruence|assumption]|tauto]. }
  destruct (s_paused s), (s_resuming s), (mtype_eqb (k_type k) TBoot), (check_queue (s_cfg s) (k_type k)); cbn; try reflexivity.
  exfalso. destruct Hc as [C|[C|[C|[C|C]]]]; try discriminate; [apply B in C|apply Q in C]; discriminate.
Qed.

Lemma push_policy s p k :
  pushed_call p = Some k -> s_dead s = false -> s_running s = true -> 0 <= c_thr (s_cfg s) ->
  (transactional (c_ver (s_cfg s)) (k_type k) = true \/ s_paused s = false \/ s_resuming s = true \/ k_type k = TBoot \/
   (c_qall (s_cfg s) = true /\ ~ In (k_type k) (c_discard (s_cfg s)))) ->
  let s' := fst (step s p) in
  let thr := c_thr (s_cfg s) in
  let v := c_ver (s_cfg s) in
  exists m nq tq dn dt,
    m_type m = k_type k /\ m_id m = k_id k /\ m_init m = k_id k /\ m_att m = 0 /\ m_upd m = k_upd k /\ m_tx m = k_tx k /\
    m_body m = k_body k /\ m_h m = s_gh s /\ s_gh s' = (s_gh s + 1)%N /\
    (if transactional v (k_type k) then tq = s_tq s ++ [m] /\ nq = s_nq s
     else tq = s_tq s /\ nq = match k_type k with TBoot => m :: s_nq s | _ => s_nq s ++ [m] end) /\
    snd (step s p) = map (fun m => ODrop m DropOverflow) (dn ++ dt) /\
    nq = dn ++ s_nq s' /\
    subseq (s_tq s') tq /\ Permutation (s_tq s' ++ dt) tq /\ Forall (update_msg v) dt /\
    (Z.of_nat (length nq) + Z.of_nat (length tq) <= thr -> dn = [] /\ dt = []) /\
    (dt <> [] -> s_nq s' = []) /\
    (total s' <= thr \/
     (s_nq s' = [] /\ forall a m b, s_tq s' = a ++ m :: b -> update_msg v m -> (length b <= 1)%nat)) /\
    (dn <> [] -> thr < Z.of_nat (length (s_nq s')) + Z.of_nat (length tq) + Z.max (thr / 10) 1) /\
    (forall a b, tq = a ++ b -> (length b <= 2)%nat -> exists a', s_tq s' = a' ++ b) /\
    s_fl s' = s_fl s.
Proof.
  intros Hp Hd Hr Ht Hc. cbn zeta.
  assert (E : exists now stall, step s p = step s (Push k now stall)).
  { destruct p; inversion Hp; subst; [eauto|]. exists now, false. apply push_async_then_policy; assumption. }
  destruct E as (now & stall & E). rewrite E.
  destruct (push_then_policy s k now stall Hd Hr Hc) as (s1 & m & Es & C & F & Nw & M1 & M2 & M3 & M4 & M5 & M6 & M7 & M8 & M9 & M10 & G & Q).
  rewrite Es. assert (Ht1 : 0 <= c_thr (s_cfg s1)) by (rewrite C; assumption).
  destruct (size_policy s1 Ht1) as (dn & dt & P1 & P2 & P3 & P4 & P5 & P6 & P7 & P8 & P9 & P10 & P11).
  rewrite C in *. destruct (check_sizes_frame s1) as (_ & _ & G' & _).
  exists m, (s_nq s1), (s_tq s1), dn, dt. rewrite G', G, P11.
  repeat (split; [first [assumption | reflexivity]|]). assumption.
Qed.

(** ** C05 without the artificial bound *)
Lemma some_bound c os : exists n, c_attempts c <= n /\ attempts_bounded n os.
Proof.
  induction os as [|o os (n & A & B)]; [exists (c_attempts c); split; [lia|constructor]|].
  exists (Z.max n (match o with Restart c _ => c_attempts c | SetAttempts k => k | _ => n end)).
  split; [lia|]. constructor.
  - destruct o; try exact I; lia.
  - eapply Forall_impl; [|exact B]. intros x. destruct x; auto; lia.
Qed.

Lemma gives_up_only_after_attempts c os o m :
  no_restart os -> not_boot (m_init m) os -> (count_occ N.eq_dec (all_pushes os) (m_init m) <= 1)%nat ->
  let s := final (fresh c) os in
  In (ODrop m DropAttempts) (snd (step s o)) ->
  c_attempts (s_cfg s) <= Z.of_nat (handovers (m_init m) (outs (trace (fresh c) os))).
Proof.
  intros H1 H2 H3. destruct (some_bound c os) as (n & A & B). exact (gives_up_after_attempts c os o m n A B H1 H2 H3).
Qed.

(** ** The retry timer *)
Lemma nt_kept s o : no_failures [o] -> s_nt (fst (step s o)) = s_nt s.
Proof.
  intros H. inversion H as [|? ? H1 _]; subst. destruct (s_dead s) eqn:Ed; [destruct o; cbn [step]; rewrite ?Ed; try reflexivity; contradiction|].
  assert (CS : forall z, s_nt (fst (check_sizes z)) = s_nt z).
  { intros z. unfold check_sizes. destruct (over _ _ _); [|reflexivity]. destruct (drop_normal _ _ _ _), (drop_tx _ _ _ _ _). reflexivity. }
  assert (FI : forall z, s_nt (finish_iteration z) = s_nt z) by (intros z; unfold finish_iteration; destruct (no_messages z); reflexivity).
  destruct o; cbn [step]; rewrite ?Ed; try reflexivity; try contradiction.
  - unfold push_call. destruct (negb _); [reflexivity|]. destruct (is_tx _ _); [unfold add_tx; rewrite CS; reflexivity|].
    destruct (_ || _); [unfold add_normal; rewrite CS; reflexivity|reflexivity].
  - unfold push_call_async. destruct (negb _); [reflexivity|]. destruct (is_tx _ _); [unfold add_tx; rewrite CS; reflexivity|].
    destruct (_ && _); [reflexivity|unfold add_normal; rewrite CS; reflexivity].
  - unfold push_reply. destruct (negb _); [reflexivity|]. destruct (s_next s); [destruct (N.eqb _ _)|]; reflexivity.
  - assert (T : forall sel x, s_nt (fst (transmit sel x now ok s)) = s_nt s).
    { intros sel x. unfold transmit. destruct ok; [cbn [fst]; rewrite FI; destruct sel; reflexivity|].
      destruct (is_tx _ _); [cbn [fst]; rewrite FI; destruct sel; reflexivity|].
      destruct (check_queue _ _); [cbn [fst]; rewrite FI; destruct sel; reflexivity|].
      destruct sel; try (destruct (resolvable _ _)); cbn [fst]; rewrite ?FI; reflexivity. }
    unfold work. destruct (negb _); [reflexivity|]. destruct (negb _); [reflexivity|].
    unfold iterate. destruct (no_messages s); [reflexivity|]. destruct (s_paused s); [reflexivity|].
    destruct (s_fl s); [reflexivity|].
    destruct (select s now) as [|a b d|b d]; [reflexivity| |]; (destruct (held_back s b); [reflexivity|]).
    + specialize (T (SelNormal a b d) b). destruct (transmit (SelNormal a b d) b now ok s). exact T.
    + specialize (T (SelTx b d) b). destruct (transmit (SelTx b d) b now ok s). exact T.
  - unfold recv_result. destruct (s_fl s); [|reflexivity]. destruct (N.eqb _ _); [|reflexivity].
    unfold handle_call_result. destruct (resolvable _ _); [|reflexivity]. destruct (is_tx _ _); [|destruct (check_queue _ _)]; reflexivity.
  - unfold recv_error_begin. destruct (s_fl s); [|reflexivity]. destruct (N.eqb _ _); reflexivity.
  - unfold timer_expire. destruct (s_armed s) as [t|]; [destruct (t <=? now)|]; reflexivity.
  - cbn [fst]. unfold resume. destruct (negb _); [reflexivity|]. destruct (_ && _); [reflexivity|]. unfold resume_now. destruct (N.eqb _ _); reflexivity.
  - cbn [fst]. unfold resume_timer. destruct (existsb _ _); [|reflexivity]. unfold resume_now. destruct (N.eqb _ _); reflexivity.
  - cbn [fst]. unfold add_meter_id. destruct (lookup _ _); reflexivity.
  - cbn [fst]. unfold start_handled. destruct (lookup _ _); reflexivity.
Qed.

Lemma retry_timer_armed s o err newid now m os t :
  s_dead s = false -> failure_op s o err newid now -> s_fl s = Some m ->
  retryable (s_cfg s) (m_type m) -> m_att m < c_attempts (s_cfg s) ->
  no_failures os ->
  let ts := if 0 <? c_interval (s_cfg s) then m_ts m + c_interval (s_cfg s) * m_att m else now in
  let s2 := final (fst (step s o)) os in
  s_dead s2 = false -> ts <= t -> s_new (fst (step s2 (NotifyTimer t))) = true /\ s_nt s2 = Some ts.
Proof.
  intros Hd Hf Hfl Hr Ha Hn. cbn zeta. intros Hd2 Hle.
  destruct (failure_requeues s o err newid now m Hd Hf Hfl Hr Ha) as (m' & _ & _ & Hts & _ & _ & _ & _ & _ & _ & _ & _ & Hnt & _).
  assert (K : forall z, no_failures os -> s_nt (final z os) = s_nt z).
  { clear. induction os as [|o os IH]; intros z H; [reflexivity|]. inversion H; subst. cbn [final]. rewrite IH by assumption. apply nt_kept. constructor; [assumption|constructor]. }
  assert (E := K (fst (step s o)) Hn). rewrite Hnt, Hts in E. set (s2 := final _ os) in *. clearbody s2.
  cbn [step]. rewrite Hd2, E. apply Z.leb_le in Hle. rewrite Hle. split; reflexivity.
Qed.

(** Reachable form of [failed_send_dropped]. *)
Lemma failed_send_dropped_reachable c os now m l x rest :
  same_version (c_ver c) os -> NoDup (pushes (c_ver c) os) ->
  let s := final (fresh c) os in
  s_dead s = false -> snd (step s (Work now false)) = OSend m false :: l -> ~ retryable (s_cfg s) (m_type m) ->
  s_nq s = x :: rest -> first_ready s now x -> ~ In (m_h x) (s_done s) ->
  same_message m x /\ l = [OPromise (m_h m) POffline; ODrop m DropOffline] /\
  s_nq (fst (step s (Work now false))) = rest /\ s_tq (fst (step s (Work now false))) = s_tq s /\
  s_paused (fst (step s (Work now false))) = true /\ s_fl (fst (step s (Work now false))) = None.
Proof.
  cbn zeta. intros Hv Hn Hd E Hr Hq Hf Hdn.
  destruct (run_inv (c_ver c) os (fresh c) (Inv_fresh c) Hv Hn) as [(I1 & _ & I3 & _) _].
  eapply failed_send_dropped; eauto. rewrite I1. exact I3.
Qed.

Lemma at_most_one_outstanding_lemma c os : serial os -> one_outstanding None (trace (fresh c) os).
Proof. intros H. apply one_outstanding_from; [assumption|exact I]. Qed.
