(** Proofs about the message queue, sixth part: replies first, transaction ids filled in later, stopping. *)
From Coq Require Import List ZArith NArith Bool Lia Permutation.
From Verif Require Import MQModel MQSpec MQProofs MQProofs2 MQProofs3 MQProofs4 MQProofs5.
Import ListNotations.
Open Scope Z_scope.

(** ** Frames: what the bookkeeping functions leave alone *)

Definition fr (s : st) := (s_next s, s_running s, s_txmap s, s_mvmap s).

Lemma fr_check_sizes s : fr (fst (check_sizes s)) = fr s.
Proof.
  unfold check_sizes. destruct (over _ _ _); [|reflexivity].
  destruct (drop_normal _ _ _ _), (drop_tx _ _ _ _ _). reflexivity.
Qed.
Lemma fr_finish s : fr (finish_iteration s) = fr s.
Proof. unfold finish_iteration. destruct (no_messages s); reflexivity. Qed.
Lemma fr_handle_failure e i t z : fr (fst (handle_failure e i t z)) = fr z.
Proof.
  unfold handle_failure. destruct (s_fl z); [|reflexivity].
  destruct (is_tx _ _); cbn [orb]; [|destruct (check_queue _ _)].
  - destruct (_ <? _); [reflexivity|]. destruct (resolvable _ _); reflexivity.
  - destruct (_ <? _); [reflexivity|]. destruct (resolvable _ _); reflexivity.
  - destruct (mtype_eqb _ _); [reflexivity|]. destruct (resolvable _ _); reflexivity.
Qed.
Lemma fr_push_call k now stall s : fr (fst (push_call k now stall s)) = fr s.
Proof.
  unfold push_call. destruct (negb _); [reflexivity|]. destruct (is_tx _ _).
  - unfold add_tx. rewrite fr_check_sizes. reflexivity.
  - destruct (_ || _); [|reflexivity]. unfold add_normal. rewrite fr_check_sizes. reflexivity.
Qed.
Lemma fr_push_async k now s : fr (fst (push_call_async k now s)) = fr s.
Proof.
  unfold push_call_async. destruct (negb _); [reflexivity|]. destruct (is_tx _ _).
  - unfold add_tx. rewrite fr_check_sizes. reflexivity.
  - destruct (_ && _); [reflexivity|]. unfold add_normal. rewrite fr_check_sizes. reflexivity.
Qed.
Lemma fr_transmit sel m now ok s :
  fr (fst (transmit sel m now ok s)) = (s_next s, s_running s, remove_key (m_id (prepare m (s_txmap s))) (s_txmap s), s_mvmap s).
Proof.
  unfold transmit. destruct ok; [cbn [fst]; rewrite fr_finish; destruct sel; reflexivity|].
  destruct (is_tx _ _); [cbn [fst]; rewrite fr_finish; destruct sel; reflexivity|].
  destruct (check_queue _ _); [cbn [fst]; rewrite fr_finish; destruct sel; reflexivity|].
  destruct sel; try (destruct (resolvable _ _)); cbn [fst]; rewrite ?fr_finish; reflexivity.
Qed.
Lemma fr_resume d s : fr (resume d s) = fr s.
Proof.
  unfold resume. destruct (negb _); [reflexivity|]. destruct (_ && _); [reflexivity|].
  unfold resume_now. destruct (N.eqb _ _); reflexivity.
Qed.
Lemma fr_resume_timer k s : fr (resume_timer k s) = fr s.
Proof.
  unfold resume_timer. destruct (existsb _ _); [|reflexivity].
  unfold resume_now. destruct (N.eqb _ _); reflexivity.
Qed.
Lemma fr_work now ok s : 
  (fr (fst (work now ok s)) = fr s) \/
  exists x, fr (fst (work now ok s)) = (s_next s, s_running s, remove_key (m_id (prepare x (s_txmap s))) (s_txmap s), s_mvmap s).
Proof.
  unfold work. destruct (negb _); [left; reflexivity|]. destruct (negb _); [left; reflexivity|].
  unfold iterate. destruct (no_messages s); [left; reflexivity|]. destruct (s_paused s); [left; reflexivity|].
  destruct (s_fl s); [left; reflexivity|].
  destruct (select s now) as [|pre m post|m rest]; [left; reflexivity| |]; destruct (held_back s m); try (left; reflexivity);
    right; exists m; [rewrite <- (fr_transmit (SelNormal pre m post) m now ok s)|rewrite <- (fr_transmit (SelTx m rest) m now ok s)];
    destruct (transmit _ m now ok s); reflexivity.
Qed.

(** ** The reply to a CALL first *)

Lemma next_kept s o id : reply_pending id [o] -> s_next s = Some id -> s_next (fst (step s o)) = Some id.
Proof.
  intros Hp Hn. inversion Hp as [|? ? Ho _]; subst.
  assert (E : forall s', fr s' = fr s -> s_next s' = Some id).
  { intros s' Hs. unfold fr in Hs. injection Hs as H _ _ _. congruence. }
  destruct o; cbn [step]; try contradiction; destruct (s_dead s); try exact Hn; try (apply E; reflexivity).
  - apply E, fr_push_call.
  - apply E, fr_push_async.
  - unfold push_reply. destruct (negb _); [exact Hn|]. rewrite Hn.
    destruct (N.eqb_spec id id0); [congruence|exact Hn].
  - destruct (fr_work now ok s) as [H|(x & H)]; [apply E, H|]. unfold fr in H. injection H as H _ _ _. congruence.
  - unfold recv_error_end. destruct (s_errs s); [exact Hn|]. apply E. rewrite fr_handle_failure. reflexivity.
  - unfold timer_expire. destruct (s_armed s) as [d|]; [destruct (d <=? now)|]; exact Hn.
  - unfold timer_run. destruct (s_fired s); [|exact Hn]. apply E. rewrite fr_handle_failure. reflexivity.
  - destruct (s_armed s) as [d|]; [destruct (d <=? now)|]; try exact Hn. apply E. rewrite fr_handle_failure. reflexivity.
  - destruct (s_nt s) as [d|]; [destruct (d <=? now)|]; exact Hn.
  - apply E. apply fr_resume.
  - apply E. apply fr_resume_timer.
  - cbn [fst]. unfold add_meter_id. destruct (lookup _ _); exact Hn.
  - cbn [fst]. unfold start_handled. destruct (lookup _ _); exact Hn.
Qed.

Lemma next_gates os : forall s id m b, reply_pending id os -> s_next s = Some id ->
  In (OSend m b) (outs (trace s os)) -> m_id m = id.
Proof.
  induction os as [|o os IH]; intros s id m b Hp Hn H; [destruct H|].
  inversion Hp as [|? ? Ho Hos]; subst.
  cbn [trace] in H. rewrite outs_cons in H. apply in_app_or in H as [H|H].
  - apply transmits_only_due in H as (now & x & _ & _ & (_ & _ & _ & _ & _ & C) & H & _).
    specialize (C id Hn). destruct H as (_ & _ & H & _). congruence.
  - eapply IH; [exact Hos| |exact H]. apply next_kept; [constructor; [exact Ho|constructor]|exact Hn].
Qed.

Lemma reply_first s id os m b : s_dead s = false -> reply_pending id os ->
  In (OSend m b) (outs (trace s (RecvCall id :: os))) -> m_id m = id.
Proof.
  intros Hd Hp H. cbn [trace step] in H. rewrite Hd in H. cbn [recv_call fst snd] in H.
  rewrite outs_cons in H. cbn [app] in H. eapply next_gates; [exact Hp| |exact H]. reflexivity.
Qed.

Lemma reply_releases s id : s_dead s = false -> s_running s = true ->
  snd (step s (Reply id)) = [OReply id] /\
  (s_next s = Some id -> s_next (fst (step s (Reply id))) = None) /\
  (forall n, s_next s = Some n -> n <> id -> s_next (fst (step s (Reply id))) = Some n) /\
  all_msgs (fst (step s (Reply id))) = all_msgs s.
Proof.
  intros Hd Hr. cbn [step]. rewrite Hd. unfold push_reply. rewrite Hr. cbn [negb fst snd].
  split; [reflexivity|]. split; [intros ->; rewrite N.eqb_refl; reflexivity|].
  split; [intros n E Hn; rewrite E; destruct (N.eqb_spec n id); [contradiction|assumption]|].
  destruct (s_next s) as [n|]; [destruct (N.eqb n id)|]; reflexivity.
Qed.

Lemma due_ext s s' now m : s_acc s' = s_acc s -> s_nq s' = s_nq s -> s_tq s' = s_tq s -> due s now m -> due s' now m.
Proof.
  intros Ha Hn Ht H.
  assert (R : forall x, ready s' now x <-> ready s now x) by (intros x; unfold ready; rewrite Ha; tauto).
  assert (F : forall x, first_ready s' now x <-> first_ready s now x).
  { intros x. unfold first_ready. rewrite Hn. split; intros (p & q & E & H1 & H2); exists p, q; (split; [exact E|]);
      (split; [apply R; exact H1|]); eapply Forall_impl; try exact H2; cbn; intros y Hy Q; apply Hy, R, Q. }
  destruct H as [m rest H1 H2 H3|n H1 H2].
  - apply due_tx with rest; [congruence|apply R; assumption|]. intros n Hf. apply H3, F, Hf.
  - apply due_normal; [apply F; assumption|]. intros m rest E Hm. apply (H2 m rest); [congruence|apply R; assumption].
Qed.

Lemma due_unique s now a b : due s now a -> due s now b -> a = b.
Proof.
  intros Ha Hb. apply select_due in Ha, Hb.
  destruct Ha as [(p & q & E)|(r & E)]; rewrite E in Hb; destruct Hb as [(p' & q' & E')|(r' & E')]; congruence.
Qed.

(** The whole cycle: a CALL arrives while [m] is due; [m] waits for the reply and is then transmitted. *)
Lemma reply_then_request s id m now ok : due s now m -> can_send s m -> s_running s = true -> m_id m <> id ->
  let s1 := fst (step s (RecvCall id)) in
  snd (step s1 (Work now ok)) = [] /\
  let s2 := fst (step s1 (Reply id)) in
  snd (step s1 (Reply id)) = [OReply id] /\
  exists m' l, snd (step s2 (Work now ok)) = OSend m' ok :: l /\ same_message m' m /\ no_calls l.
Proof.
  intros Hd Hc Hr Hi. pose proof Hc as (C1 & C2 & C3 & C4 & C5 & C6).
  assert (E1 : fst (step s (RecvCall id)) = set_s_next (Some id) s) by (cbn [step]; rewrite C1; reflexivity).
  cbn zeta. rewrite E1. set (s1 := set_s_next (Some id) s).
  assert (Hd1 : due s1 now m) by (apply (due_ext s); [reflexivity|reflexivity|reflexivity|exact Hd]).
  assert (D1 : s_dead s1 = false) by exact C1.
  split.
  - destruct (snd (step s1 (Work now ok))) as [|x l] eqn:E; [reflexivity|exfalso].
    cbn [step] in E. rewrite D1 in E.
    destruct (work_cases now ok s1) as [E'|(sel & z & H1 & H2 & H3 & H4 & H5 & H6 & H7 & H8)]; [congruence|].
    assert (Hz : due s1 now z). { apply select_due. destruct H6 as [(p & q & ->)|(r' & ->)]; eauto. }
    pose proof (due_unique _ _ _ _ Hd1 Hz) as <-.
    apply held_back_spec with (id := id) in H4; [congruence|reflexivity].
  - destruct (reply_releases s1 id D1 Hr) as (R1 & R2 & _ & _). split; [exact R1|].
    assert (E2 : fst (step s1 (Reply id)) = set_s_next None s1).
    { cbn [step]. rewrite D1. unfold push_reply. change (s_running s1) with (s_running s). rewrite Hr. cbn [negb fst].
      change (s_next s1) with (Some id). cbn iota. rewrite N.eqb_refl. reflexivity. }
    rewrite E2. set (s2 := set_s_next None s1).
    assert (Hd2 : due s2 now m) by (apply (due_ext s); [reflexivity|reflexivity|reflexivity|exact Hd]).
    destruct (worker_transmits s2 now ok m Hd2) as (m' & l & E & Hs & _ & Hq & _).
    { unfold can_send. repeat match goal with |- _ /\ _ => split end; try assumption. discriminate. }
    exists m', l. split; [rewrite E; reflexivity|]. split; assumption.
Qed.

(** ** Stopping *)

Lemma stopped_step s o : s_running s = false -> (forall c i, o <> Restart c i) -> s_running (fst (step s o)) = false.
Proof.
  intros H Hr.
  assert (E : forall s', fr s' = fr s -> s_running s' = false).
  { intros s' Hs. unfold fr in Hs. injection Hs as _ Hs _ _. congruence. }
  destruct o; cbn [step]; try (exfalso; eapply Hr; reflexivity); destruct (s_dead s); try exact H; try reflexivity.
  - apply E, fr_push_call.
  - apply E, fr_push_async.
  - unfold push_reply. rewrite H. exact H.
  - destruct (fr_work now ok s) as [F|(x & F)]; [apply E, F|]. unfold fr in F. injection F as _ F _ _. congruence.
  - unfold recv_result. destruct (s_fl s); [|exact H]. destruct (N.eqb _ _); [|exact H].
    unfold handle_call_result. destruct (resolvable _ _); [|exact H]. cbn [fst].
    destruct (is_tx _ _); [|destruct (check_queue _ _)]; exact H.
  - unfold recv_error_begin. destruct (s_fl s); [|exact H]. destruct (N.eqb _ _); exact H.
  - unfold recv_error_end. destruct (s_errs s); [exact H|]. apply E. rewrite fr_handle_failure. reflexivity.
  - unfold recv_error. destruct (s_fl s); [|exact H]. destruct (N.eqb _ _); [|exact H].
    pose proof (fr_handle_failure (Some id) newid now (set_s_next None s)) as F. unfold fr in F. injection F as _ F _ _.
    rewrite F. exact H.
  - unfold timer_expire. destruct (s_armed s) as [d|]; [destruct (d <=? now)|]; exact H.
  - unfold timer_run. destruct (s_fired s); [|exact H]. apply E. rewrite fr_handle_failure. reflexivity.
  - destruct (s_armed s) as [d|]; [destruct (d <=? now)|]; try exact H. apply E. rewrite fr_handle_failure. reflexivity.
  - destruct (s_nt s) as [d|]; [destruct (d <=? now)|]; exact H.
  - apply E. apply fr_resume.
  - apply E. apply fr_resume_timer.
  - cbn [fst]. unfold add_meter_id. destruct (lookup _ _); exact H.
  - cbn [fst]. unfold start_handled. destruct (lookup _ _); exact H.
Qed.

Lemma alive_check_sizes s : s_alive (fst (check_sizes s)) = s_alive s.
Proof.
  unfold check_sizes. destruct (over _ _ _); [|reflexivity].
  destruct (drop_normal _ _ _ _), (drop_tx _ _ _ _ _). reflexivity.
Qed.
Lemma alive_handle_failure e i t z : s_alive (fst (handle_failure e i t z)) = s_alive z.
Proof.
  unfold handle_failure. destruct (s_fl z); [|reflexivity].
  destruct (is_tx _ _); cbn [orb]; [|destruct (check_queue _ _)].
  - destruct (_ <? _); [reflexivity|]. destruct (resolvable _ _); reflexivity.
  - destruct (_ <? _); [reflexivity|]. destruct (resolvable _ _); reflexivity.
  - destruct (mtype_eqb _ _); [reflexivity|]. destruct (resolvable _ _); reflexivity.
Qed.

(** Once its loop has ended the worker never runs again. *)
Lemma ended_step s o : s_alive s = false -> (forall c i, o <> Restart c i) -> s_alive (fst (step s o)) = false.
Proof.
  intros H Hr.
  destruct o; cbn [step]; try (exfalso; eapply Hr; reflexivity); destruct (s_dead s); try exact H.
  - unfold push_call. destruct (negb _); [exact H|]. destruct (is_tx _ _).
    + unfold add_tx. rewrite alive_check_sizes. exact H.
    + destruct (_ || _); [|exact H]. unfold add_normal. rewrite alive_check_sizes. exact H.
  - unfold push_call_async. destruct (negb _); [exact H|]. destruct (is_tx _ _).
    + unfold add_tx. rewrite alive_check_sizes. exact H.
    + destruct (_ && _); [exact H|]. unfold add_normal. rewrite alive_check_sizes. exact H.
  - unfold push_reply. destruct (negb _); [exact H|]. destruct (s_next s); [destruct (N.eqb _ _)|]; exact H.
  - unfold work. rewrite H. exact H.
  - unfold recv_result. destruct (s_fl s); [|exact H]. destruct (N.eqb _ _); [|exact H].
    unfold handle_call_result. destruct (resolvable _ _); [|exact H]. cbn [fst].
    destruct (is_tx _ _); [|destruct (check_queue _ _)]; exact H.
  - unfold recv_error_begin. destruct (s_fl s); [|exact H]. destruct (N.eqb _ _); exact H.
  - unfold recv_error_end. destruct (s_errs s); [exact H|]. rewrite alive_handle_failure. exact H.
  - unfold recv_error. destruct (s_fl s); [|exact H]. destruct (N.eqb _ _); [|exact H].
    rewrite alive_handle_failure. exact H.
  - unfold timer_expire. destruct (s_armed s) as [d|]; [destruct (d <=? now)|]; exact H.
  - unfold timer_run. destruct (s_fired s); [|exact H]. rewrite alive_handle_failure. exact H.
  - destruct (s_armed s) as [d|]; [destruct (d <=? now)|]; try exact H. rewrite alive_handle_failure. exact H.
  - destruct (s_nt s) as [d|]; [destruct (d <=? now)|]; exact H.
  - cbn [fst]. unfold resume. destruct (negb _); [exact H|]. destruct (_ && _); [exact H|].
    unfold resume_now. destruct (N.eqb _ _); exact H.
  - cbn [fst]. unfold resume_timer. destruct (existsb _ _); [|exact H]. unfold resume_now. destruct (N.eqb _ _); exact H.
  - cbn [fst]. unfold add_meter_id. destruct (lookup _ _); exact H.
  - cbn [fst]. unfold start_handled. destruct (lookup _ _); exact H.
Qed.

Lemma quiet_no_sends l : quiet l -> sends l = 0%nat.
Proof.
  unfold sends. induction l as [|x l IH]; intros H; [reflexivity|]. cbn in H. apply andb_prop in H as [Hx Hl].
  destruct x; cbn in *; try discriminate; apply IH; assumption.
Qed.
Lemma sends_app a b : sends (a ++ b) = (sends a + sends b)%nat.
Proof. unfold sends. rewrite filter_app, app_length. reflexivity. Qed.

Lemma ended_silent os : forall s, s_alive s = false -> no_restart os -> sends (outs (trace s os)) = 0%nat.
Proof.
  induction os as [|o os IH]; intros s H Hr; [reflexivity|].
  apply no_restart_not in Hr as [Ho Hr]. cbn [trace]. rewrite outs_cons, sends_app, IH; [|apply ended_step; assumption|assumption].
  destruct (snd (step s o)) as [|x l] eqn:E; [reflexivity|].
  rewrite <- E, quiet_no_sends; [reflexivity|].
  destruct o; try (apply step_quiet; discriminate). cbn [step]. destruct (s_dead s); [reflexivity|].
  unfold work. rewrite H. reflexivity.
Qed.

Lemma stopped_sends os : forall s, s_running s = false -> no_restart os -> (sends (outs (trace s os)) <= 1)%nat.
Proof.
  induction os as [|o os IH]; intros s H Hr; [cbn; lia|].
  pose proof Hr as Hr0. apply no_restart_not in Hr as [Ho Hr]. cbn [trace]. rewrite outs_cons, sends_app.
  pose proof (stopped_step s o H Ho) as H'.
  destruct o; try (rewrite (quiet_no_sends (snd _)) by (apply step_quiet; discriminate); apply IH; assumption).
  cbn [step] in *. destruct (s_dead s) eqn:Ed; [apply IH; assumption|].
  destruct (work_cases now ok s) as [E|(sel & z & H1 & H2 & H3 & H4 & H5 & H6 & H7 & H8)].
  - rewrite E. apply IH; assumption.
  - rewrite ended_silent; [| |assumption].
    + rewrite H7. destruct (transmit_outs sel z now ok s) as (r & -> & R & _).
      unfold sends. cbn [filter length]. fold (sends r). rewrite quiet_no_sends by assumption. lia.
    + rewrite H8. cbn [set_s_alive s_alive]. rewrite H8 in H'. exact H'.
Qed.

Lemma stopped_push s k now stall : s_running s = false -> step s (Push k now stall) = (s, []).
Proof. intros H. cbn [step]. destruct (s_dead s); [reflexivity|]. unfold push_call. rewrite H. reflexivity. Qed.
Lemma stopped_reply s id : s_running s = false -> step s (Reply id) = (s, []).
Proof. intros H. cbn [step]. destruct (s_dead s); [reflexivity|]. unfold push_reply. rewrite H. reflexivity. Qed.
Lemma stopped_async s k now : s_running s = false -> s_dead s = false ->
  snd (step s (PushAsync k now)) = [OPromise (s_gh s) POffline] /\ all_msgs (fst (step s (PushAsync k now))) = all_msgs s.
Proof. intros H Hd. cbn [step]. rewrite Hd. unfold push_call_async. rewrite H. split; reflexivity. Qed.

Lemma stopped_run os : forall s, s_running s = false -> no_restart os -> s_running (final s os) = false.
Proof.
  induction os as [|o os IH]; intros s H Hr; [exact H|]. apply no_restart_not in Hr as [Ho Hr].
  cbn [final]. apply IH; [apply stopped_step; assumption|assumption].
Qed.

Lemma after_stop s os : s_dead s = false -> no_restart os ->
  let s' := final (fst (step s Stop)) os in
  (sends (outs (trace s (Stop :: os))) <= 1)%nat /\
  (forall k now stall, step s' (Push k now stall) = (s', [])) /\
  (forall id, step s' (Reply id) = (s', [])) /\
  (forall k now, s_dead s' = false ->
     snd (step s' (PushAsync k now)) = [OPromise (s_gh s') POffline] /\ all_msgs (fst (step s' (PushAsync k now))) = all_msgs s').
Proof.
  intros Hd Hr.
  assert (E : step s Stop = (set_s_running false s, [])) by (cbn [step]; rewrite Hd; reflexivity).
  cbn zeta. cbn [trace]. rewrite E. cbn [fst snd]. rewrite outs_cons. cbn [app].
  assert (R : s_running (final (set_s_running false s) os) = false) by (apply stopped_run; [reflexivity|exact Hr]).
  split; [apply stopped_sends; [reflexivity|exact Hr]|].
  split; [intros; apply stopped_push; exact R|].
  split; [intros; apply stopped_reply; exact R|].
  intros k now Hd'. apply stopped_async; assumption.
Qed.
