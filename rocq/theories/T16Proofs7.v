From Coq Require Import ZArith NArith List Bool Lia Sorting.Sorted.
From Verif Require Import T16Model T16Spec T16Proofs T16Proofs2 T16Proofs3 T16Proofs4 T16Proofs5 T16Proofs6.
Import ListNotations.
Local Open Scope Z_scope.

(** ** Availability *)
Definition keeps (s s' : st) : Prop := n s' = n s /\ avq s' = avq s /\ avdb s' = avdb s /\ fw s' = fw s.
Lemma keeps_refl : forall s, keeps s s.
Proof. repeat split. Qed.
Lemma keeps_change : forall mid f s, keeps s (change_tx mid f s).
Proof. intros. unfold change_tx. destruct (active_with mid s); repeat split. Qed.
Lemma keeps_trans : forall a b c, keeps a b -> keeps b c -> keeps a c.
Proof. unfold keeps. intuition congruence. Qed.
Definition avail_ok (s : st) (w : Z -> bool) : Prop :=
  fw s = false /\ (forall c, 0 <= c <= n s -> avdb s c = w c) /\ (forall c u p, 0 <= c <= n s -> avq s c = Some (u, p) -> p = true /\ u = w c).
Lemma ok_keeps : forall s s' w, keeps s s' -> avail_ok s w -> avail_ok s' w.
Proof. unfold keeps, avail_ok. intros s s' w (-> & -> & -> & ->). auto. Qed.
Lemma ok_queued : forall c s w, avail_ok s w -> avail_ok (fst (execute_queued c s)) w.
Proof.
  intros c s w (A & B & C). unfold execute_queued. destruct (avq s c) as [[u p] | ] eqn:E; [ | split; auto ].
  unfold execute_changes. destruct p; cbn [fst]; (split; [ exact A | split; cbn [n avdb avq set_avdb set_avq fold_left] ]).
  - intros d X. unfold upd. destruct (Z.eqb_spec d c); auto. subst. now destruct (C c u true X E).
  - intros d v p X. unfold upd. destruct (Z.eqb_spec d c); [ discriminate | now apply C ].
  - exact B.
  - intros d v p X. unfold upd. destruct (Z.eqb_spec d c); [ discriminate | now apply C ].
Qed.
Lemma ok_stop_conf : forall mid id s w, avail_ok s w -> avail_ok (fst (stop_conf mid id s)) w.
Proof.
  intros mid id s w A. unfold stop_conf.
  assert (B : avail_ok (fst (match get_tx mid s with Some t => execute_queued (t_conn t) s | None => (s, []) end)) w) by (destruct (get_tx mid s); auto; now apply ok_queued).
  destruct (match get_tx mid s with Some t => execute_queued (t_conn t) s | None => (s, []) end) as [s1 o1]. cbn [fst] in B.
  set (s3 := set_stopped _ _). assert (C : avail_ok s3 w) by (eapply ok_keeps; [ | exact B ]; repeat split). clearbody s3.
  destruct C as (C & D). rewrite C. cbn [fst]. split; auto.
Qed.
Lemma start_conf_keeps : forall mid tid ok pa iv s, keeps s (fst (start_conf mid tid ok pa iv s)).
Proof.
  intros. unfold start_conf. destruct (get_tx mid s) as [t | ]; [ | apply keeps_refl ]. cbn [fst]. eapply keeps_trans.
  2: { eapply keeps_trans; [ apply keeps_change | repeat split ]. }
  destruct (t_fin t); [ destruct (t_emid t) | ]; repeat split.
Qed.
Lemma boot_keeps : forall R restore s, n (fst (boot R restore s)) = n s /\ avdb (fst (boot R restore s)) = avdb s /\ fw (fst (boot R restore s)) = false /\ avq (fst (boot R restore s)) = (fun _ => None).
Proof.
  intros R restore s. unfold boot. fold (loaded s).
  assert (G : forall l s0, keeps s0 (fst (resume_rows R l s0))).
  { induction l as [ | w l IH ]; intros s0; [ apply keeps_refl | ]. cbn [resume_rows].
    assert (K : keeps s0 (fst (resume_row R w s0))).
    { unfold resume_row. destruct (stop_queued _ _); [ repeat split | ]. destruct (existsb _ R); repeat split. }
    destruct (resume_row R w s0) as [s1 o1]. specialize (IH s1). destruct (resume_rows R l s1) as [s2 o2]. cbn [fst] in *. eapply keeps_trans; eauto. }
  specialize (G (filter (fun w => negb (w_ack w)) (rows s)) (loaded s)). destruct (resume_rows _ _ _) as [s1 o1]. cbn [fst] in *. destruct G as (A & B & C & D). auto.
Qed.
Lemma granted_iff : forall c up prep s, existsb (fun x => match x with OAvail AvAccepted | OAvail AvScheduled => true | _ => false end) (snd (change_availability c up prep s)) = (c <=? n s) && (0 <=? c).
Proof.
  intros c up prep s. unfold change_availability, preprocess. destruct ((c <=? n s) && (0 <=? c)); [ | reflexivity ].
  destruct (filter _ _); reflexivity.
Qed.
Lemma ok_step : forall o s w, avail_ok s w -> orderly1 o s -> avail_ok (fst (step o s)) (fun c => wanted1 c (o, snd (step o s)) (w c)).
Proof.
  intros o s w A O. unfold wanted1. unfold step.
  assert (BK : forall R r, avail_ok (fst (boot R r s)) w).
  { intros R r. destruct (boot_keeps R r s) as (B1 & B2 & B3 & B4). destruct A as (A1 & A2 & A3). unfold avail_ok. rewrite B1, B2, B3, B4. split; [ | split ]; auto; discriminate. }
  destruct (dead s); [ destruct o; cbn [fst snd existsb]; auto | ].
  destruct o; cbn [fst]; try exact A; auto.
  - eapply ok_keeps; [ | exact A ]. unfold started, push. destruct (in_range s c); [ | apply keeps_refl ]. unfold insert_row. destruct (existsb _ _); repeat split.
  - eapply ok_keeps; [ | exact A ]. unfold stop, stop_transaction, push. destruct (in_range s c); [ | apply keeps_refl ]. destruct (act s c); repeat split.
  - eapply ok_keeps; [ | exact A ]. unfold meter, push. destruct (in_range s c); [ | apply keeps_refl ]. destruct (act s c) as [t | ]; [ destruct (periodic && _) | destruct periodic ]; try (repeat split; fail).
    cbn [fst]. destruct last; [ destruct periodic | ]; destruct (0 <? c), (t_id t); repeat split.
  - unfold deliver. destruct (q s) as [ | p0 r ]; [ exact A | ]. destruct (send_head p0 (set_q s r)) as [s1 p] eqn:E. apply send_head_core in E as (_ & _ & _ & _ & _ & _ & E1 & E2 & E3 & E4).
    assert (A1 : avail_ok s1 w) by (eapply ok_keeps; [ | exact A ]; repeat split; auto).
    destruct (p_body p).
    + assert (K := start_conf_keeps (p_mid p) tid ok parent inv s1). destruct (start_conf _ _ _ _ _ _) as [s2 o]. eapply ok_keeps; eauto.
    + assert (K := ok_stop_conf (p_mid p) id s1 w A1). destruct (stop_conf _ _ _) as [s2 o]. exact K.
    + exact A1.
  - unfold sent. destruct (q s) as [ | p0 r ]; [ exact A | ]. destruct (send_head p0 s) as [s1 p] eqn:E. apply send_head_core in E as (_ & _ & _ & _ & _ & _ & E1 & E2 & E3 & E4).
    eapply ok_keeps; [ | exact A ]. repeat split; auto.
  - unfold retry. destruct (q s) as [ | p0 r ]; [ exact A | ]. destruct (send_head p0 s) as [s1 p] eqn:E. apply send_head_core in E as (_ & _ & _ & _ & _ & _ & E1 & E2 & E3 & E4).
    eapply ok_keeps; [ | exact A ]. cbn [fst]. destruct (p_body p); [ eapply keeps_trans; [ | apply keeps_change ] | .. ]; repeat split; auto.
  - unfold give_up. destruct (q s) as [ | p0 r ]; [ exact A | ]. destruct (send_head p0 (set_q s r)) as [s1 p] eqn:E. apply send_head_core in E as (_ & _ & _ & _ & _ & _ & E1 & E2 & E3 & E4).
    eapply ok_keeps; [ | exact A ]. repeat split; auto.
  - cbn [snd]. rewrite granted_iff. destruct ((c <=? n s) && (0 <=? c)) eqn:R.
    + assert (C : 0 <= c <= n s) by (apply andb_true_iff in R; rewrite !Z.leb_le in R; lia).
      destruct (change_eq c up prep s C) as (_ & _ & Q & D). destruct A as (A1 & A2 & A3).
      assert (N : n (fst (change_availability c up prep s)) = n s) by apply avail_core.
      assert (FW : fw (fst (change_availability c up prep s)) = fw s).
      { unfold change_availability, preprocess. rewrite R. destruct (filter _ _); reflexivity. }
      set (s' := fst (change_availability c up prep s)) in *. cbn [orderly1] in O. unfold avail_ok. rewrite N, FW. split; [ auto | ].
      assert (T : forall i, 0 <= i <= n s -> (c =? i) || (c =? 0) = true <-> target s c i).
      { intros i I. unfold target. rewrite orb_true_iff, !Z.eqb_eq. lia. }
      assert (SN : forall i, 0 <= i <= n s -> existsb (Z.eqb i) (sched_list s c prep) = true -> (c =? i) || (c =? 0) = true).
      { intros i I X. apply existsb_in in X. apply sched_spec in X as [X _]; auto. now apply T. }
      assert (NN : forall i, 0 <= i <= n s -> existsb (Z.eqb i) (now_list s c prep) = true -> (c =? i) || (c =? 0) = true).
      { intros i I X. apply existsb_in in X. apply now_spec in X as [X _]; auto. now apply T. }
      assert (TT : forall i, 0 <= i <= n s -> (c =? i) || (c =? 0) = true -> existsb (Z.eqb i) (sched_list s c prep) = true \/ existsb (Z.eqb i) (now_list s c prep) = true).
      { intros i I X. apply T in X; auto. rewrite !existsb_in, sched_spec, now_spec by auto.
        destruct (to_schedule s prep i) eqn:S; [ apply to_schedule_spec in S | assert (NS : ~ busy s prep i) by (rewrite <- to_schedule_spec; congruence) ].
        - destruct (Z.eq_dec i 0); [ right | left ]; auto. split; auto. split; auto. tauto.
        - right. auto. }
      assert (QQ : forall i u p, 0 <= i <= n s -> avq s' i = Some (u, p) -> p = true /\ u = (if (c =? i) || (c =? 0) then up else w i)).
      { intros i u p I X. rewrite Q in X. destruct (existsb (Z.eqb i) (sched_list s c prep)) eqn:S.
        - inversion X; subst. rewrite SN; auto.
        - destruct (A3 i u p I X) as [-> ->]. split; auto. destruct ((c =? i) || (c =? 0)) eqn:Y; auto. exfalso. apply T in Y; auto. destruct (O i Y) as [[O1 O2] | O1]; [ | congruence ].
          assert (In i (sched_list s c prep)) by (apply sched_spec; auto; tauto). apply existsb_in in H. congruence. }
      split; [ | exact QQ ]. intros i I. rewrite D. destruct (existsb (Z.eqb i) (now_list s c prep)) eqn:W; [ now rewrite NN | ].
      destruct (avq s' i) as [[u p] | ] eqn:X; [ now destruct (QQ i u p I X) | ]. rewrite A2 by auto.
      destruct ((c =? i) || (c =? 0)) eqn:Y; auto. exfalso. destruct (TT i I Y) as [S | S]; [ | congruence ]. rewrite Q, S in X. discriminate.
    + unfold change_availability, preprocess. rewrite R. exact A.
  - now apply ok_queued.
  - contradiction.
  - unfold change_interval. destruct (existsb _ _); [ | exact A ]. eapply ok_keeps; [ | exact A ]; repeat split.
Qed.
Lemma ok_run : forall h s w, avail_ok s w -> orderly h s -> avail_ok (fst (run h s)) (fun c => fold_left (fun x e => wanted1 c e x) (events h s) (w c)).
Proof.
  induction h as [ | o h IH ]; intros s w A O; auto. cbn [events orderly fold_left run] in *. destruct O as [O1 O2].
  assert (A1 := ok_step o s w A O1). destruct (step o s) as [s1 o1]. cbn [fst snd] in *. specialize (IH s1 _ A1 O2). destruct (run h s1) as [s2 o2]. exact IH.
Qed.

(** ** Remote control *)
Lemma act_cur : forall s b c, inv s b -> (act s c = None <-> cur b c = None).
Proof.
  intros s b c I. split; intros H.
  - destruct (cur b c) eqn:C; auto. apply (i_cur _ _ _ _ _ _ _ _ I) in C. contradiction.
  - destruct (act s c) as [t | ] eqn:A; auto. destruct (i_act _ _ _ _ _ _ _ _ I c t A) as [m (X & _)]. congruence.
Qed.
Lemma active_cur : forall s b c, inv s b -> timed s -> (active s c = true <-> exists m, cur b c = Some m).
Proof.
  intros s b c I [_ T]. unfold active. destruct (act s c) as [t | ] eqn:A.
  - destruct (T c t A) as (_ & -> & _). split; auto. intros _. destruct (i_act _ _ _ _ _ _ _ _ I c t A) as [m (X & _)]. eauto.
  - apply (act_cur s b c I) in A. split; [ discriminate | intros [m X]; congruence ].
Qed.
Lemma remote_stop_spec : forall s b tid, inv s b ->
  (exists c m, cur b c = Some m /\ In (m, tid) (ans b) /\ remote_stop tid s = [ORemote true; OStopTx c Remote])
  \/ (forall c m, cur b c = Some m -> ~ In (m, tid) (ans b)) /\ remote_stop tid s = [ORemote false].
Proof.
  intros s b tid I. unfold remote_stop, conn_of_id. destruct (find _ (slots s)) as [c | ] eqn:F.
  - apply find_some in F as [F1 F2]. destruct (act s c) as [t | ] eqn:A; [ | discriminate ]. destruct (t_id t) as [i | ] eqn:E; [ | discriminate ]. apply Z.eqb_eq in F2. subst i.
    destruct (i_act _ _ _ _ _ _ _ _ I c t A) as [m (A1 & A2 & _ & _ & _ & _ & A3)]. left. exists c, m. split; auto. split; [ now apply A3 | ].
    replace (0 <? c) with true by (symmetry; apply Z.ltb_lt; lia). reflexivity.
  - right. split; auto. intros c m C X. destruct (act s c) as [t | ] eqn:A. 2: { apply (i_cur _ _ _ _ _ _ _ _ I) in C. contradiction. }
    destruct (i_act _ _ _ _ _ _ _ _ I c t A) as [m' (A1 & A2 & _ & _ & _ & _ & A3)]. assert (m' = m) by congruence. subst m'. apply A3 in X.
    assert (S : In c (slots s)) by (right; apply in_conns; auto). apply (find_none _ _ F) in S. rewrite A, X, Z.eqb_refl in S. discriminate.
Qed.
Lemma obtainable_spec : forall s b status other c, inv s b -> (obtainable s status other c = true <-> startable b status other c).
Proof.
  intros s b status other c I. unfold obtainable, startable. rewrite <- (act_cur s b c I).
  destruct (status c), (act s c); cbn; (split; [ | intros (A & B); try discriminate; repeat destruct B as [B | B]; try discriminate; try (destruct B; discriminate) ]); try discriminate; auto.
  all: try (destruct other; auto; fail).
  all: try (intros _; split; auto; intuition congruence).
  - destruct other as [f | ]; [ rewrite negb_true_iff | ]; intros; split; auto; right; right; right; auto.
  - destruct B as [_ B]. destruct other; auto. now rewrite B.
Qed.
Lemma remote_start_spec : forall s b c tag profile status other authorize, inv s b -> 1 <= n s ->
  let l := match c with Some i => [i] | None => conns s end in
  let out := remote_start c tag profile status other authorize s in
  (exists i, meant (n s) c i /\ startable b status other i)
  /\ (match profile with None => out = [ORemote true; OToken tag l (negb authorize)]
                       | Some (valid, isx) => exists i, c = Some i /\ valid = true /\ isx = true /\ out = [OProfile i; ORemote true; OToken tag l (negb authorize)] end)
  \/ ~ ((exists i, meant (n s) c i /\ startable b status other i)
        /\ (match profile with None => True | Some (valid, isx) => (exists i, c = Some i) /\ valid = true /\ isx = true end))
     /\ out = [ORemote false].
Proof.
  intros s b c tag profile status other authorize I N l out. unfold out, remote_start. fold l.
  assert (AO : any_obtainable s status other l = true <-> exists i, In i l /\ startable b status other i).
  { unfold any_obtainable. destruct l eqn:L.
    - exfalso. assert (X : In 1 l) by (unfold l in *; destruct c; [ discriminate | apply in_conns; lia ]). rewrite L in X. destruct X.
    - rewrite existsb_exists. setoid_rewrite (obtainable_spec s b status other) ; auto. reflexivity. }
  destruct c as [j | ].
  - destruct ((j <=? 0) || (n s <? j)) eqn:R.
    + right. split; auto. intros [[i [[M1 M2] _]] _]. subst. apply orb_true_iff in R. rewrite Z.leb_le, Z.ltb_lt in R. lia.
    + apply orb_false_iff in R. rewrite Z.leb_gt, Z.ltb_ge in R.
      assert (EX : any_obtainable s status other l = true <-> exists i, meant (n s) (Some j) i /\ startable b status other i).
      { rewrite AO. unfold l, meant. split. intros [i [[<- | []] S]]. exists j. split; auto. split; auto. lia. intros [i [[_ ->] S]]. exists j. cbn; auto. }
      destruct (any_obtainable s status other l).
      * assert (X := proj1 EX eq_refl). destruct profile as [[valid isx] | ]; [ | left; auto ].
        destruct isx, valid; cbn [andb]; [ left; split; eauto 8 | right; split; auto; intros [_ (_ & Y & Z)]; discriminate .. ].
      * right. split; auto. intros [X _]. apply EX in X. discriminate.
  - assert (EX : any_obtainable s status other l = true <-> exists i, meant (n s) None i /\ startable b status other i).
    { rewrite AO. unfold l, meant. split; intros [i [X S]]; exists i; (split; [ | exact S ]); [ apply in_conns in X | apply in_conns ]; intuition lia. }
    destruct (any_obtainable s status other l).
    * assert (X := proj1 EX eq_refl). destruct profile as [[valid isx] | ]; [ | left; auto ].
      right. split; auto. intros [_ [[i Y] _]]. discriminate.
    * right. split; auto. intros [X _]. apply EX in X. discriminate.
Qed.
