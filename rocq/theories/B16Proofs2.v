(** What reaches the CSMS and what waits, and the triggers *)
From Coq Require Import String List ZArith Bool Lia Permutation.
From Verif Require Import B16Model B16Spec B16Proofs.
Import ListNotations.
Open Scope Z_scope.

Lemma outs_app : forall a b, outs (a ++ b) = outs a ++ outs b.
Proof.
  induction a as [|x a IH]; intros b; [reflexivity|]. destruct x; simpl; rewrite ?IH; reflexivity.
Qed.

Lemma outs_map : forall l, outs (map EOut l) = l.
Proof. induction l as [|x l IH]; simpl; [reflexivity | now rewrite IH]. Qed.

Lemma outs_hold : forall l, outs (map EHold l) = [].
Proof. induction l as [|x l IH]; simpl; auto. Qed.

(** What sending some requests does, if the station is accepted or not *)
Record sends (a qa : bool) (ws : list wish) (s s' : st) (e : list ev) : Prop := {
  s_out : outs e = map w_msg (filter (fun w => a || always w) ws);
  s_held : q_held s' = q_held s ++ map w_msg (filter (fun w => negb (a || always w) && patient qa w) ws);
  s_frame : frame s s'
}.

Lemma sends_nil : forall a qa s, sends a qa [] s s [].
Proof. constructor; [reflexivity | simpl; now rewrite app_nil_r | apply frame_refl]. Qed.

Lemma sends_app : forall a qa w1 w2 s s1 s2 e1 e2,
  sends a qa w1 s s1 e1 -> sends a qa w2 s1 s2 e2 -> sends a qa (w1 ++ w2) s s2 (e1 ++ e2).
Proof.
  intros a qa w1 w2 s s1 s2 e1 e2 [A B C] [D E F]. constructor.
  - now rewrite outs_app, A, D, filter_app, map_app.
  - now rewrite E, B, filter_app, map_app, app_assoc.
  - eapply frame_trans; eauto.
Qed.

Lemma dispatch_sends : forall c s m t,
  q_running s = true -> reg_accepted (reg_status s) = q_accepted s ->
  sends (q_accepted s) (c_queue_all c) [{| w_msg := m; w_asked := t; w_now := false |}] s
        (fst (dispatch_call c s m t)) (snd (dispatch_call c s m t)).
Proof.
  intros c s m t R A. pose proof (dispatch_frame c s m t) as F. constructor; [| |exact F]; clear F;
    unfold dispatch_call, get_message_transmission_priority, push_call, always, patient; rewrite A;
    simpl; destruct m as [[] n]; simpl; rewrite R; simpl;
    destruct (q_accepted s) eqn:Q, t, (c_queue_all c); simpl; rewrite ?Q; simpl; rewrite ?app_nil_r; reflexivity.
Qed.

Lemma dispatch_async_sends : forall c s m t,
  q_running s = true -> reg_accepted (reg_status s) = q_accepted s ->
  sends (q_accepted s) (c_queue_all c) [{| w_msg := m; w_asked := t; w_now := true |}] s
        (fst (dispatch_call_async c s m t)) (snd (dispatch_call_async c s m t)).
Proof.
  intros c s m t R A. pose proof (dispatch_async_frame c s m t) as F. constructor; [| |exact F]; clear F;
    unfold dispatch_call_async, get_message_transmission_priority, push_call, always, patient; rewrite A;
    simpl; destruct m as [[] n]; simpl; rewrite R; simpl;
    destruct (q_accepted s) eqn:Q, t, (c_queue_all c); simpl; rewrite ?Q; simpl; rewrite ?app_nil_r; reflexivity.
Qed.

Lemma frame_members : forall s s', frame s s' ->
  q_running s' = q_running s /\ reg_status s' = reg_status s /\ q_accepted s' = q_accepted s /\
  initialized s' = initialized s.
Proof. intros s s' F. unfold frame in F. rewrite F. repeat split. Qed.

(** The queue after a history without a stop *)
Record queue_inv (c : cfg) (hb : Z) (h : list op) (s : st) (e : list ev) : Prop := {
  q_run : q_running s = true;
  q_acc : q_accepted s = accepted h;
  q_init : initialized s = negb (never_started h);
  q_free : accepted h = false -> outs e = free c hb h;
  q_due : Permutation (outs e ++ q_held s) (due c hb h);
  q_none : accepted h = true -> q_held s = []
}.

Lemma accepted_reg : forall c hb h s, members c hb h s -> reg_accepted (reg_status s) = accepted h.
Proof.
  intros c hb h s M. rewrite (m_reg _ _ _ _ M).
  destruct (stands_cases h) as [[S A] | [A [S | [S | S]]]]; rewrite S, A; reflexivity.
Qed.

Lemma split_filter : forall (p q : wish -> bool) l,
  Permutation (map w_msg (filter p l) ++ map w_msg (filter (fun w => negb (p w) && q w) l))
              (map w_msg (filter (fun w => p w || q w) l)).
Proof.
  intros p q l. induction l as [|w l IH]; simpl; [constructor|].
  destruct (p w), (q w); simpl; auto.
  eapply Permutation_trans; [apply Permutation_sym, Permutation_middle|]. now constructor.
Qed.

Lemma filter_false : forall (p : wish -> bool) l, (forall w, p w = false) -> filter p l = [].
Proof. intros p l H. induction l as [|x l IH]; simpl; [reflexivity | now rewrite H]. Qed.

Lemma perm_mix : forall (E H a b X Y : list msg),
  Permutation ((E ++ a ++ X) ++ H ++ b ++ Y) ((E ++ H) ++ (a ++ b) ++ X ++ Y).
Proof.
  intros E H a b X Y. rewrite <- !app_assoc. apply Permutation_app_head.
  eapply Permutation_trans with (a ++ H ++ X ++ b ++ Y).
  - apply Permutation_app_head. rewrite !app_assoc. do 2 apply Permutation_app_tail. apply Permutation_app_comm.
  - eapply Permutation_trans with (H ++ a ++ X ++ b ++ Y).
    + rewrite !app_assoc. do 3 apply Permutation_app_tail. apply Permutation_app_comm.
    + do 2 apply Permutation_app_head. rewrite !app_assoc. apply Permutation_app_tail. apply Permutation_app_comm.
Qed.

(** An operation that sends its wishes, after loading what was left over *)
Lemma queue_step : forall c hb h s e s' e' o lo,
  queue_inv c hb h s e -> counts o h = None -> left_over o h = lo ->
  q_running s' = true -> q_accepted s' = q_accepted s -> initialized s' = negb (never_started (o :: h)) ->
  outs e' = (if accepted h then lo else []) ++
            map w_msg (filter (fun w => accepted h || always w) (wishes c hb o h)) ->
  q_held s' = q_held s ++ (if accepted h then [] else lo) ++
              map w_msg (filter (fun w => negb (accepted h || always w) && patient (c_queue_all c) w)
                                (wishes c hb o h)) ->
  queue_inv c hb (o :: h) s' (e ++ e').
Proof.
  intros c hb h s e s' e' o lo [A B C D E F] N L R Q I O H.
  pose proof (accepted_skip o h N) as AS.
  constructor; rewrite ?AS; auto; try congruence.
  - intros Z. rewrite outs_app, O, (D Z), Z. reflexivity.
  - rewrite outs_app, O, H. cbn [due]. rewrite L.
    eapply Permutation_trans; [apply perm_mix|].
    apply Permutation_app; [exact E|]. apply Permutation_app.
    + destruct (accepted h); simpl; rewrite ?app_nil_r; apply Permutation_refl.
    + exact (split_filter (fun w => accepted h || always w) (patient (c_queue_all c)) (wishes c hb o h)).
  - intros Z. rewrite H, (F Z), Z. simpl. rewrite filter_false; [reflexivity|]. reflexivity.
Qed.

(** An operation that sends its wishes and loads nothing *)
Lemma queue_sends : forall c hb h s e s' e' o,
  queue_inv c hb h s e -> counts o h = None -> left_over o h = [] -> never_started (o :: h) = never_started h ->
  sends (q_accepted s) (c_queue_all c) (wishes c hb o h) s s' e' ->
  queue_inv c hb (o :: h) s' (e ++ e').
Proof.
  intros c hb h s e s' e' o K N L NS [A B F]. pose proof (q_acc _ _ _ _ _ K) as Q.
  destruct (frame_members _ _ F) as (F1 & F2 & F3 & F4).
  pose proof (q_run _ _ _ _ _ K). pose proof (q_init _ _ _ _ _ K).
  eapply queue_step; try eassumption; try congruence.
  - rewrite A, Q. now destruct (accepted h).
  - rewrite B, Q. now destruct (accepted h).
Qed.

Lemma queue_same : forall c hb h s e s' e' o,
  queue_inv c hb h s e -> counts o h = None -> left_over o h = [] -> never_started (o :: h) = never_started h ->
  wishes c hb o h = [] -> outs e' = [] -> q_held s' = q_held s -> q_running s' = q_running s ->
  q_accepted s' = q_accepted s -> initialized s' = initialized s ->
  queue_inv c hb (o :: h) s' (e ++ e').
Proof.
  intros c hb h s e s' e' o K N L NS W O H R Q I.
  pose proof (q_run _ _ _ _ _ K). pose proof (q_init _ _ _ _ _ K).
  eapply queue_step; try eassumption; try congruence; rewrite W; simpl; rewrite ?app_nil_r.
  - rewrite O. now destruct (accepted h).
  - rewrite H. destruct (accepted h); now rewrite ?app_nil_r.
Qed.

Lemma queue_conf : forall c hb h s e r,
  queue_inv c hb h s e -> was_connected h = true -> accepted h = false ->
  queue_inv c hb (ORecv (GConf true (Some r)) :: h) (fst (handleBootNotificationResponse c s r))
            (e ++ snd (handleBootNotificationResponse c s r)).
Proof.
  intros c hb h s e r [A B C D E F] W N.
  assert (K : counts (ORecv (GConf true (Some r))) h = Some r) by (simpl; now rewrite W, N).
  pose proof (accepted_count _ _ _ K) as S. unfold accepts in S.
  assert (DU : due c hb (ORecv (GConf true (Some r)) :: h) = due c hb h) by (simpl; apply app_nil_r).
  assert (FR : free c hb (ORecv (GConf true (Some r)) :: h) = free c hb h) by (simpl; apply app_nil_r).
  unfold handleBootNotificationResponse. destruct (bc_status r); cbn [fst snd]; constructor;
    rewrite ?S, ?DU, ?FR, ?outs_app; simpl; rewrite ?outs_app, ?outs_map, ?app_nil_r; simpl; rewrite ?app_nil_r; auto;
    try congruence; try discriminate.
Qed.

Lemma queue_recv : forall c hb h s e g,
  members c hb h s -> queue_inv c hb h s e ->
  queue_inv c hb (ORecv g :: h) (fst (message_callback c s g)) (e ++ snd (message_callback c s g)).
Proof.
  intros c hb h s e g M Q.
  assert (SAME : counts (ORecv g) h = None -> forall e', outs e' = [] -> queue_inv c hb (ORecv g :: h) s (e ++ e')).
  { intros N e' O. apply queue_same with (s := s); auto. }
  assert (HC : forall id x, outs (handle_call id x) = []) by (intros ? [[]|]; reflexivity).
  pose proof (m_conn _ _ _ _ M) as A. pose proof (m_reg _ _ _ _ M) as B.
  destruct g as [b k id x | b r | b id |].
  - specialize (SAME eq_refl). simpl. destruct b; simpl; auto.
    destruct (conn_state s); simpl; auto; destruct (reg_status s); simpl; auto; destruct k; simpl; auto.
  - destruct b; [|simpl; apply SAME; reflexivity]. destruct r as [r|].
    + cbn [message_callback negb].
      destruct (was_connected h) eqn:W.
      * destruct (accepted h) eqn:N.
        -- assert (S : stands h = Member) by (unfold stands; now rewrite N).
           rewrite S in A. rewrite A. apply SAME; [|reflexivity]. simpl. now rewrite W, N.
        -- pose proof (queue_conf c hb h s e r Q W N) as R.
           destruct (stands_cases h) as [[_ X] | [_ [X | [X | X]]]]; [congruence | | |]; rewrite X in A, B;
             rewrite A, ?B; exact R.
      * rewrite (stands_connected h W) in A. rewrite A. apply SAME; [|reflexivity]. simpl. now rewrite W.
    + specialize (SAME eq_refl). simpl. destruct (conn_state s); simpl; auto; destruct (reg_status s); simpl; auto.
  - specialize (SAME eq_refl). simpl. destruct b; simpl; auto.
    destruct (conn_state s); simpl; auto; destruct (reg_status s); simpl; auto.
  - apply SAME; reflexivity.
Qed.

Lemma queue_start : forall c hb h s e l n,
  members c hb h s -> queue_inv c hb h s e ->
  queue_inv c hb (OStart l n :: h) (fst (start c s l n)) (e ++ snd (start c s l n)).
Proof.
  intros c hb h s e l n M Q.
  pose proof (accepted_reg _ _ _ _ M) as AR. pose proof (q_acc _ _ _ _ _ Q) as QA.
  pose proof (q_run _ _ _ _ _ Q) as QR. pose proof (q_init _ _ _ _ _ Q) as QI.
  unfold start, boot_notification.
  destruct (if initialized s then (s, []) else _) as [s0 e0] eqn:E0.
  assert (P : outs e0 = (if accepted h then left_over (OStart l n) h else []) /\
              q_held s0 = q_held s ++ (if accepted h then [] else left_over (OStart l n) h) /\
              q_running s0 = true /\ q_accepted s0 = q_accepted s /\ reg_status s0 = reg_status s /\
              initialized s0 = true).
  { unfold left_over. rewrite QI in E0. unfold load_messages in E0. rewrite QA in E0.
    destruct (never_started h) eqn:NS; simpl in E0.
    - destruct (accepted h); inversion E0; subst; simpl; rewrite ?outs_map, ?outs_hold, ?app_nil_r; auto 10.
    - inversion E0; subst. simpl. destruct (accepted h); simpl; rewrite ?app_nil_r; auto 10. }
  destruct P as (P1 & P2 & P3 & P4 & P5 & P6).
  pose proof (dispatch_sends c s0 {| mty := MBoot; mid := n |} false P3 ltac:(congruence)) as S1.
  destruct (dispatch_call c s0 {| mty := MBoot; mid := n |} false) as [s1 e1]. cbn [fst snd] in S1.
  destruct (frame_members _ _ (s_frame _ _ _ _ _ _ S1)) as (F1 & F2 & F3 & F4).
  assert (S2 : sends (q_accepted s0) (c_queue_all c) (if c_no_security_events c then [] else [mk MSec n]) s1
                     (fst (security_event c s1 n)) (snd (security_event c s1 n))).
  { unfold security_event. destruct (c_no_security_events c); [apply sends_nil|].
    rewrite <- F3. apply dispatch_sends; congruence. }
  destruct (security_event c s1 n) as [s2 e2]. cbn [fst snd] in *.
  pose proof (sends_app _ _ _ _ _ _ _ _ _ S1 S2) as [A B F].
  destruct (frame_members _ _ F) as (G1 & G2 & G3 & G4).
  eapply queue_step; try eassumption; try reflexivity.
  - simpl. congruence.
  - simpl. congruence.
  - simpl. rewrite G4. exact P6.
  - rewrite outs_app, P1, A, P4, QA. reflexivity.
  - cbn [set_started q_held]. rewrite B, P2, P4, QA, <- app_assoc. reflexivity.
Qed.

Lemma queue_all_steps : forall c hb h s e o,
  (match o with OStop _ | ORestart _ _ => False | _ => True end) ->
  members c hb h s -> queue_inv c hb h s e ->
  queue_inv c hb (o :: h) (fst (step c s o)) (e ++ snd (step c s o)).
Proof.
  intros c hb h s e o NST M Q.
  pose proof (accepted_reg _ _ _ _ M) as AR. pose proof (q_acc _ _ _ _ _ Q) as QA.
  pose proof (q_run _ _ _ _ _ Q) as QR.
  destruct o as [l n|l n|l| | |g|n|n|m t|m t|z]; try contradiction; cbn [step].
  - apply queue_start; assumption.
  - unfold connected_callback. destruct (conn_state s); cbn [fst snd]; apply queue_same with (s := s); auto.
  - cbn [fst snd]. apply queue_same with (s := s); auto.
  - apply queue_recv; assumption.
  - unfold boot_timer_fires, boot_notification. pose proof (m_boot _ _ _ _ M) as BT.
    destruct (boot_timer s) as [z|] eqn:T.
    + assert (K : sends (q_accepted (set_boot_timer s None)) (c_queue_all c) [mk MBoot n] (set_boot_timer s None)
                    (fst (dispatch_call c (set_boot_timer s None) {| mty := MBoot; mid := n |} false))
                    (snd (dispatch_call c (set_boot_timer s None) {| mty := MBoot; mid := n |} false)))
        by (apply dispatch_sends; simpl; congruence).
      destruct (dispatch_call c (set_boot_timer s None) {| mty := MBoot; mid := n |} false) as [s1 e1].
      cbn [fst snd] in *.
      assert (Q' : queue_inv c hb h (set_boot_timer s None) e).
      { destruct Q as [A B C D E F]. constructor; assumption. }
      eapply queue_sends; try eassumption; try reflexivity. unfold wishes. rewrite <- BT. exact K.
    + cbn [fst snd]. apply queue_same with (s := s); auto. simpl. now rewrite <- BT.
  - unfold hb_timer_fires, heartbeat. pose proof (m_hb _ _ _ _ M) as BT.
    destruct (hb_timer s) as [z|] eqn:T.
    + eapply queue_sends; try eassumption; try reflexivity. unfold wishes. rewrite <- BT.
      apply dispatch_sends; congruence.
    + cbn [fst snd]. apply queue_same with (s := s); auto. simpl. now rewrite <- BT.
  - eapply queue_sends; try eassumption; try reflexivity. apply dispatch_sends; congruence.
  - eapply queue_sends; try eassumption; try reflexivity. apply dispatch_async_sends; congruence.
  - cbn [change_heartbeat fst snd]. apply queue_same with (s := s); auto.
Qed.

Lemma run_queue : forall c hb h, no_stop h -> queue_inv c hb h (fst (run c hb h)) (snd (run c hb h)).
Proof.
  intros c hb h. induction h as [|o r IH]; intros N.
  - constructor; simpl; auto; discriminate.
  - assert (N' : no_stop r) by (intros x X; apply N; now right).
    specialize (IH N'). pose proof (run_members c hb r) as M. simpl.
    destruct (run c hb r) as [s e]. cbn [fst snd] in *.
    pose proof (queue_all_steps c hb r s e o (N o (or_introl eq_refl)) M IH) as K.
    destruct (step c s o) as [s' e']. exact K.
Qed.

(** ** Triggers *)

Lemma connectors_to_in : forall n k, 0 <= n -> In k (connectors_to n) <-> 0 <= k <= n.
Proof.
  intros n k N. unfold connectors_to. rewrite in_map_iff. split.
  - intros (x & <- & X). apply in_seq in X. lia.
  - intros K. exists (Z.to_nat k). split; [lia|]. apply in_seq. lia.
Qed.

Lemma connectors_to_nodup : forall n, NoDup (connectors_to n).
Proof.
  intros n. unfold connectors_to. apply FinFun.Injective_map_NoDup; [|apply seq_NoDup].
  intros a b. lia.
Qed.

Lemma send_meter_in : forall ms c x, In x (send_meter ms c) <-> x = (MMeter, Some c) /\ meas_of ms c = Useful.
Proof.
  intros ms c x. unfold send_meter. destruct (meas_of ms c); simpl; split;
    try (intros []; congruence || contradiction); try (intros [? ?]; try discriminate; auto; fail); auto.
  intros [[]|[]]; auto.
Qed.
