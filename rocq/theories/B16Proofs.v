(** Proofs about registration in OCPP 1.6 *)
From Coq Require Import String List ZArith Bool Lia Permutation.
From Verif Require Import B16Model B16Spec.
Import ListNotations.
Open Scope Z_scope.

(** ** Facts about histories *)

Lemma heard_connected : forall h, was_connected h = false -> heard h = [].
Proof.
  induction h as [|o r IH]; [reflexivity|]. intros W.
  destruct o as [| | | | |g| | | | |]; try (simpl in *; auto; fail); simpl in W; try discriminate.
  destruct g as [| [|] [c|] | |]; simpl; auto. rewrite W. auto.
Qed.

Lemma accepted_connected : forall h, accepted h = true -> was_connected h = true.
Proof.
  intros h A. destruct (was_connected h) eqn:W; [reflexivity|].
  unfold accepted in A. rewrite (heard_connected h W) in A. discriminate.
Qed.

Lemma stands_connected : forall h, was_connected h = false -> stands h = Unknown.
Proof.
  intros h W. unfold stands, accepted. rewrite (heard_connected h W). reflexivity.
Qed.

Lemma counts_inv : forall o h c, counts o h = Some c ->
  o = ORecv (GConf true (Some c)) /\ was_connected h = true /\ accepted h = false.
Proof.
  intros o h c H. destruct o as [| | | | |g| | | | |]; try discriminate H.
  destruct g as [| [|] [c'|] | |]; try discriminate H. simpl in H.
  destruct (was_connected h), (accepted h); try discriminate H. inversion H; subst. auto.
Qed.

Lemma heard_skip : forall o h, counts o h = None ->
  heard (o :: h) = heard h \/ (accepted h = true /\ exists c, heard (o :: h) = c :: heard h).
Proof.
  intros o h H. destruct o as [| | | | |g| | | | |]; try (left; reflexivity).
  destruct g as [| [|] [c'|] | |]; try (left; reflexivity).
  simpl in *. destruct (was_connected h) eqn:W; [|left; reflexivity].
  destruct (accepted h); [|discriminate H]. right. split; [reflexivity|]. now exists c'.
Qed.

Lemma accepted_skip : forall o h, counts o h = None -> accepted (o :: h) = accepted h.
Proof.
  intros o h H. destruct (heard_skip o h H) as [E | [A [c E]]].
  - unfold accepted. now rewrite E.
  - rewrite A. unfold accepted in *. rewrite E. simpl. rewrite A. apply orb_true_r.
Qed.

Lemma stands_skip : forall o h, counts o h = None -> stands (o :: h) = stands h.
Proof.
  intros o h H. pose proof (accepted_skip o h H) as A. unfold stands. rewrite A.
  destruct (accepted h) eqn:B; [reflexivity|].
  destruct (heard_skip o h H) as [E | [C _]]; [now rewrite E | congruence].
Qed.

Lemma count_heard : forall o h c, counts o h = Some c -> heard (o :: h) = c :: heard h.
Proof.
  intros o h c H. destruct (counts_inv _ _ _ H) as [-> [W _]]. simpl. now rewrite W.
Qed.

Lemma accepted_count : forall o h c, counts o h = Some c -> accepted (o :: h) = accepts c.
Proof.
  intros o h c H. pose proof (counts_inv _ _ _ H) as [_ [_ A]].
  unfold accepted in *. rewrite (count_heard _ _ _ H). simpl. rewrite A. apply orb_false_r.
Qed.

Lemma stands_count : forall o h c, counts o h = Some c ->
  stands (o :: h) = match bc_status c with RAccepted => Member | RPending => Waiting | RRejected => Refused end.
Proof.
  intros o h c H. unfold stands. rewrite (accepted_count _ _ _ H), (count_heard _ _ _ H).
  unfold accepts. destruct (bc_status c); reflexivity.
Qed.

(** ** Sending leaves everything but the held messages as it is *)

Definition frame (s s' : st) : Prop := s' = set_held s (q_held s').

Lemma frame_refl : forall s, frame s s.
Proof. now destruct s. Qed.

Lemma frame_set : forall s l, frame s (set_held s l).
Proof. reflexivity. Qed.

Lemma frame_trans : forall a b c, frame a b -> frame b c -> frame a c.
Proof. intros a b c H K. unfold frame in *. rewrite K, H. reflexivity. Qed.

Lemma push_frame : forall s m b, frame s (fst (push_call s m b)).
Proof.
  intros s m b. unfold push_call. destruct (q_running s); simpl; [|apply frame_refl].
  destruct (b && negb (q_accepted s)); simpl; [apply frame_set | apply frame_refl].
Qed.

Lemma dispatch_frame : forall c s m t, frame s (fst (dispatch_call c s m t)).
Proof.
  intros c s m t. unfold dispatch_call.
  destruct (get_message_transmission_priority _ _ _ _ _); [apply push_frame | apply push_frame | apply frame_refl].
Qed.

Lemma dispatch_async_frame : forall c s m t, frame s (fst (dispatch_call_async c s m t)).
Proof.
  intros c s m t. unfold dispatch_call_async.
  destruct (get_message_transmission_priority _ _ _ _ _); [apply push_frame | apply frame_refl | apply frame_refl].
Qed.

Lemma security_frame : forall c s n, frame s (fst (security_event c s n)).
Proof.
  intros c s n. unfold security_event. destruct (c_no_security_events c); [apply frame_refl | apply dispatch_frame].
Qed.

Lemma dispatch_all_frame : forall c l s, frame s (fst (dispatch_all c s l)).
Proof.
  intros c l. induction l as [|m r IH]; intros s; [apply frame_refl|]. simpl.
  destruct (dispatch_call c s m false) as [s1 e1] eqn:D.
  destruct (dispatch_all c s1 r) as [s2 e2] eqn:E. simpl.
  pose proof (dispatch_frame c s m false) as F. rewrite D in F.
  pose proof (IH s1) as G. rewrite E in G. eapply frame_trans; eauto.
Qed.

(** ** The members after any history *)

Record members (c : cfg) (hb : Z) (h : list op) (s : st) : Prop := {
  m_conn : conn_state s = match stands h with
                          | Member => Booted | Waiting => CPending | Refused => CRejected
                          | Unknown => if was_connected h then Connected else Disconnected
                          end;
  m_reg : reg_status s = match stands h with Member => RAccepted | Refused => RRejected | _ => RPending end;
  m_boot : boot_timer s = next_boot h;
  m_int : hb_interval s = interval_now hb h;
  m_hb : hb_timer s = beats hb h;
  m_cert : cert_timers s = checks (c_iso c) h;
  m_client : client_timer s = checks (c_profile3 c) h;
  m_stop : stopped s = negb (is_running h)
}.

Lemma members_frame : forall c hb h s s', frame s s' -> members c hb h s -> members c hb h s'.
Proof.
  intros c hb h s s' F [A B D E G H I J]. unfold frame in F. rewrite F.
  constructor; simpl; assumption.
Qed.

(** An operation that neither counts nor changes anything *)
Lemma members_same : forall c hb h s o,
  counts o h = None ->
  was_connected (o :: h) = was_connected h -> next_boot (o :: h) = next_boot h ->
  interval_now hb (o :: h) = interval_now hb h -> beats hb (o :: h) = beats hb h ->
  (forall d, checks d (o :: h) = checks d h) -> is_running (o :: h) = is_running h ->
  members c hb h s -> members c hb (o :: h) s.
Proof.
  intros c hb h s o H1 H2 H3 H4 H5 H6 H7 [A B D E G H I J].
  constructor; rewrite ?(stands_skip o h H1), ?H2, ?H3, ?H4, ?H5, ?H6, ?H7; assumption.
Qed.

Lemma started_members : forall c hb h s o,
  (exists l n, o = OStart l n) \/ ((exists l n, o = ORestart l n) /\ is_running h = false) ->
  members c hb h s -> members c hb (o :: h) (set_started s).
Proof.
  intros c hb h s o H [A B D E G HH I J].
  assert (S : stands (o :: h) = stands h).
  { apply stands_skip. destruct H as [(l & n & ->) | ((l & n & ->) & _)]; reflexivity. }
  destruct H as [(l & n & ->) | ((l & n & ->) & _)]; constructor; rewrite ?S; simpl; auto.
Qed.

Lemma start_members : forall c hb h s l n o,
  (exists l n, o = OStart l n) \/ ((exists l n, o = ORestart l n) /\ is_running h = false) ->
  members c hb h s -> members c hb (o :: h) (fst (start c s l n)).
Proof.
  intros c hb h s l n o H M. unfold start, boot_notification.
  destruct (if initialized s then (s, []) else _) as [s0 e0] eqn:E0.
  assert (M0 : members c hb h s0).
  { destruct (initialized s); [inversion E0; subst; exact M|].
    unfold load_messages in E0. destruct (q_accepted s); inversion E0; subst;
      destruct M as [A B D E G HH I J]; constructor; simpl; assumption. }
  destruct (dispatch_call c s0 _ false) as [s1 e1] eqn:E1.
  pose proof (dispatch_frame c s0 {| mty := MBoot; mid := n |} false) as F1. rewrite E1 in F1.
  destruct (security_event c s1 n) as [s2 e2] eqn:E2.
  pose proof (security_frame c s1 n) as F2. rewrite E2 in F2. simpl in *.
  apply started_members; [exact H|].
  eapply members_frame; [exact F2|]. eapply members_frame; [exact F1|]. exact M0.
Qed.

Lemma conf_members : forall c hb h s r,
  was_connected h = true -> accepted h = false -> members c hb h s ->
  members c hb (ORecv (GConf true (Some r)) :: h) (fst (handleBootNotificationResponse c s r)).
Proof.
  intros c hb h s r W N [A B D E G HH I J].
  assert (K : counts (ORecv (GConf true (Some r))) h = Some r) by (simpl; now rewrite W, N).
  pose proof (stands_count _ _ _ K) as S.
  unfold handleBootNotificationResponse, wait_of.
  destruct (bc_status r) eqn:R; simpl in S; constructor;
    rewrite ?S; cbn [next_boot interval_now beats checks]; rewrite ?K; unfold accepts, wait_of; rewrite ?R; simpl;
    rewrite ?E; auto.
  - rewrite I || idtac. destruct (c_iso c); simpl; auto.
  - destruct (c_profile3 c); simpl; auto.
Qed.

Lemma stands_cases : forall h,
  (stands h = Member /\ accepted h = true) \/
  (accepted h = false /\ (stands h = Waiting \/ stands h = Refused \/ stands h = Unknown)).
Proof.
  intros h. unfold stands. destruct (accepted h); [left; auto|]. right. split; [reflexivity|].
  destruct (heard h) as [|r x]; auto. destruct (bc_status r); auto.
Qed.

Lemma recv_members : forall c hb h s g,
  members c hb h s -> members c hb (ORecv g :: h) (fst (message_callback c s g)).
Proof.
  intros c hb h s g M.
  assert (SAME : counts (ORecv g) h = None -> members c hb (ORecv g :: h) s).
  { intros N. apply members_same; auto; cbn [next_boot interval_now beats checks]; intros; rewrite ?N; reflexivity. }
  destruct M as [A B D E G HH I J].
  destruct g as [b k id x | b r | b id |].
  - specialize (SAME eq_refl). simpl. destruct b; simpl; auto.
    destruct (conn_state s); simpl; auto; destruct (reg_status s); simpl; auto; destruct k; simpl; auto.
  - destruct b; [|apply SAME; reflexivity]. destruct r as [r|].
    + cbn [message_callback negb].
      destruct (was_connected h) eqn:W.
      * destruct (accepted h) eqn:N.
        -- assert (S : stands h = Member) by (unfold stands; now rewrite N).
           rewrite S in A. rewrite A. apply SAME. simpl. now rewrite W, N.
        -- pose proof (conf_members c hb h s r W N ltac:(constructor; rewrite ?W; assumption)) as R.
           destruct (stands_cases h) as [[_ X] | [_ [X | [X | X]]]]; [congruence | | |]; rewrite X in A, B;
             rewrite A, ?B; exact R.
      * rewrite (stands_connected h W) in A. rewrite A. apply SAME. simpl. now rewrite W.
    + specialize (SAME eq_refl). simpl. destruct (conn_state s); simpl; auto; destruct (reg_status s); simpl; auto.
  - specialize (SAME eq_refl). simpl. destruct b; simpl; auto.
    destruct (conn_state s); simpl; auto; destruct (reg_status s); simpl; auto.
  - apply SAME. reflexivity.
Qed.

Lemma step_members : forall c hb h s o, members c hb h s -> members c hb (o :: h) (fst (step c s o)).
Proof.
  intros c hb h s o M. destruct o as [l n|l n|l| | |g|n|n|m t|m t|z]; cbn [step].
  - apply start_members; [left; eauto | exact M].
  - unfold restart. pose proof (m_stop _ _ _ _ M) as ST. destruct (stopped s) eqn:SE.
    + apply start_members.
      * right. split; [eauto|]. now destruct (is_running h).
      * destruct M as [A B D E G H I J]. constructor; simpl; auto.
    + assert (R : is_running h = true) by now destruct (is_running h).
      cbn [fst]. destruct M as [A B D E G H I J]. constructor; rewrite ?(stands_skip (ORestart l n) h eq_refl); simpl; auto.
  - unfold stop. pose proof (m_stop _ _ _ _ M) as ST. destruct (stopped s) eqn:SE.
    + assert (R : is_running h = false) by now destruct (is_running h).
      cbn [fst]. destruct M as [A B D E G H I J].
      constructor; rewrite ?(stands_skip (OStop l) h eq_refl); simpl; rewrite ?R; auto.
    + assert (R : is_running h = true) by now destruct (is_running h).
      destruct (dispatch_all c (stop_timers s) l) as [s1 e1] eqn:E1.
      pose proof (dispatch_all_frame c l (stop_timers s)) as F. rewrite E1 in F. cbn [fst] in *.
      unfold frame in F. rewrite F. destruct M as [A B D E G H I J].
      constructor; rewrite ?(stands_skip (OStop l) h eq_refl); simpl; rewrite ?R; auto.
  - unfold connected_callback.
    pose proof (stands_skip OConnect h eq_refl) as S. destruct M as [A B D E G H I J].
    destruct (conn_state s) eqn:CS; cbn [fst]; constructor; rewrite ?S; simpl; auto;
      try (rewrite CS, A; destruct (stands h); auto; fail).
    + destruct (stands h); try discriminate A; auto.
    + rewrite CS. destruct (stands h); try exact A. now destruct (was_connected h).
    + rewrite CS. destruct (stands h); try exact A. now destruct (was_connected h).
    + rewrite CS. destruct (stands h); try exact A. now destruct (was_connected h).
  - pose proof (stands_skip ODisconnect h eq_refl) as S. destruct M as [A B D E G H I J].
    constructor; rewrite ?S; simpl; auto.
  - apply recv_members. exact M.
  - unfold boot_timer_fires, boot_notification.
    pose proof (stands_skip (OBootTimer n) h eq_refl) as S.
    pose proof (m_boot _ _ _ _ M) as BT. destruct (boot_timer s) as [z|] eqn:T.
    + eapply members_frame; [apply dispatch_frame|]. destruct M as [A B D E G H I J].
      constructor; rewrite ?S; simpl; auto.
    + cbn [fst]. destruct M as [A B D E G H I J]. constructor; rewrite ?S; simpl; auto.
  - unfold hb_timer_fires, heartbeat.
    assert (M' : members c hb (OHbTimer n :: h) s) by (apply members_same; auto).
    destruct (hb_timer s); [|exact M']. eapply members_frame; [apply dispatch_frame | exact M'].
  - eapply members_frame; [apply dispatch_frame|]. apply members_same; auto.
  - eapply members_frame; [apply dispatch_async_frame|]. apply members_same; auto.
  - pose proof (stands_skip (OHeartbeatInterval z) h eq_refl) as S. destruct M as [A B D E G H I J].
    constructor; rewrite ?S; simpl; auto.
Qed.

Lemma run_members : forall c hb h, members c hb h (fst (run c hb h)).
Proof.
  intros c hb h. induction h as [|o r IH].
  - constructor; reflexivity.
  - simpl. destruct (run c hb r) as [s e]. pose proof (step_members c hb r s o IH) as M.
    destruct (step c s o) as [s' e']. exact M.
Qed.
