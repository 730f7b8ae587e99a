From Coq Require Import ZArith NArith List Bool Lia Sorting.Sorted.
From Verif Require Import T16Model T16Spec T16Proofs.
Import ListNotations.
Local Open Scope Z_scope.

Definition same_core (s s' : st) : Prop :=
  n s' = n s /\ act s' = act s /\ stopped s' = stopped s /\ q s' = q s /\ txmap s' = txmap s /\ mvmap s' = mvmap s /\ nid s' = nid s.
Lemma core_refl : forall s, same_core s s.
Proof. repeat split. Qed.
Lemma core_trans : forall a b c, same_core a b -> same_core b c -> same_core a c.
Proof. unfold same_core. intuition congruence. Qed.
Lemma core_inv : forall s s' b, same_core s s' -> inv s b -> inv s' b.
Proof. unfold same_core, inv. intros s s' b (-> & -> & -> & -> & -> & -> & ->). auto. Qed.
Lemma insert_core : forall w s, same_core s (insert_row w s).
Proof. intros w s. unfold insert_row. destruct (existsb _ _); repeat split. Qed.
Lemma execute_core : forall l u p s, same_core s (fst (execute_changes l u p s)).
Proof. intros l u p s. unfold execute_changes. destruct p; repeat split. Qed.
Lemma queued_core : forall c s, same_core s (fst (execute_queued c s)).
Proof. intros c s. unfold execute_queued. destruct (avq s c) as [[u p] | ]; [ | apply core_refl ]. destruct p; repeat split. Qed.
Lemma all_core : forall s, same_core s (fst (all_unavailable s)).
Proof. repeat split. Qed.
Lemma avail_core : forall c u f s, same_core s (fst (change_availability c u f s)).
Proof.
  intros c u f s. unfold change_availability, preprocess. destruct (_ && _); cbn; [ | repeat split ].
  destruct (filter _ _); cbn; repeat split.
Qed.
Lemma firmware_core : forall g x s, same_core s (fst (firmware g x s)).
Proof. intros g x s. unfold firmware. destruct (fw_next g x (fw s)) as [[ | ] | ]; cbn; repeat split. Qed.

Lemma see_other : forall o l b, (match o with Started _ _ _ _ _ _ _ | Stopped _ _ _ _ _ _ | Meter _ _ _ _ | Deliver _ _ _ _ => False | _ => True end) -> see o l b = b.
Proof. intros o l b H. unfold see. induction l as [ | x l IH ]; cbn; auto. destruct o; try contradiction; apply IH. Qed.
Definition quiet (x : out) : Prop := match x with OPush _ | OSend _ => False | _ => True end.
Lemma see_quiet : forall o l b, Forall quiet l -> see o l b = b.
Proof.
  intros o l b F. unfold see. induction F; cbn; auto. replace (see1 o x b) with b; auto.
  destruct x; try contradiction; destruct o; reflexivity.
Qed.
Lemma see_app : forall o l1 l2 b, see o (l1 ++ l2) b = see o l2 (see o l1 b).
Proof. intros. apply fold_left_app. Qed.

Lemma send_head_eq : forall p s,
  let (s', p') := send_head p s in
  n s' = n s /\ act s' = act s /\ stopped s' = stopped s /\ q s' = q s /\ mvmap s' = mvmap s /\ nid s' = nid s /\ dead s' = dead s
  /\ (look (txmap s) (p_mid p) = None /\ p' = p /\ txmap s' = txmap s
      \/ exists i, look (txmap s) (p_mid p) = Some i /\ p' = P (p_mid p) (set_id i (p_body p)) (p_init p) (p_orig p)
                   /\ txmap s' = filter (fun e => negb (N.eqb (fst e) (p_mid p))) (txmap s)).
Proof.
  intros p s. unfold send_head, look. destruct (find _ (txmap s)) as [[k i] | ]; cbn; repeat split; auto.
  right. exists i. auto.
Qed.
(** What the CSMS is told by a StopTransaction.req. *)
Definition told (b : obs) (p : pend) : Prop :=
  is_stop p -> exists m, In (p_init p, m) (ostop b) /\ forall i, In (m, i) (ans b) -> stop_id p = Some i.
Lemma send_told : forall n act stp p r tm mv nid b, Inv n act stp (p :: r) tm mv nid b -> look tm (p_mid p) = None -> told b p.
Proof.
  intros n act stp p r tm mv nid b I L S. destruct (i_stop _ _ _ _ _ _ _ _ I p (or_introl eq_refl) S) as [m (A & _ & B)].
  exists m. split; auto. intros i X. destruct (B i X) as [Y | [_ Y]]; congruence.
Qed.

Lemma in_conns : forall s c, In c (conns s) <-> 0 < c <= n s.
Proof.
  intros s c. unfold conns. rewrite in_map_iff. setoid_rewrite in_seq. split.
  - intros [k [<- K]]. lia.
  - intros C. exists (Z.to_nat c). lia.
Qed.
Lemma in_slots : forall s c, In c (slots s) <-> c = 0 \/ 0 < c <= n s.
Proof. intros s c. unfold slots. cbn [In]. rewrite in_conns. intuition. Qed.
Lemma in_range_spec : forall s c, in_range s c = true <-> 0 <= c <= n s.
Proof. intros s c. unfold in_range. rewrite Bool.andb_true_iff, !Z.leb_le. tauto. Qed.

Lemma active_with_some : forall mid s c, active_with mid s = Some c -> exists t, act s c = Some t /\ has_mid mid t = true.
Proof. intros mid s c H. apply find_some in H as [_ H]. destruct (act s c) as [t | ]; try discriminate. eauto. Qed.
Lemma active_with_none : forall mid s c t, active_with mid s = None -> In c (slots s) -> act s c = Some t -> has_mid mid t = false.
Proof. intros mid s c t H I A. unfold active_with in H. eapply find_none in H; eauto. cbn in H. now rewrite A in H. Qed.
Lemma has_mid_spec : forall mid t, has_mid mid t = true <-> t_smid t = mid \/ t_emid t = Some mid.
Proof.
  intros mid t. unfold has_mid, opt_is. rewrite Bool.orb_true_iff, N.eqb_eq. destruct (t_emid t) as [e | ].
  - rewrite N.eqb_eq. split; intros [A | A]; auto; right; congruence.
  - split; intros [A | A]; auto; discriminate.
Qed.
Lemma map_first_emid : forall p f l, (forall t, t_emid (f t) = t_emid t) -> map t_emid (map_first p f l) = map t_emid l.
Proof. intros p f l F. induction l as [ | t l IH ]; cbn; auto. destruct (p t); cbn; rewrite ?F, ?IH; auto. Qed.
Lemma map_first_in : forall p f l t', In t' (map_first p f l) -> exists t, In t l /\ (t' = t \/ t' = f t /\ find p l = Some t).
Proof.
  induction l as [ | a l IH ]; cbn; intros t' X. contradiction. destruct (p a) eqn:A.
  - destruct X as [<- | X]; [ exists a; auto | exists t'; auto ].
  - destruct X as [<- | X]; [ exists a; auto | ]. destruct (IH t' X) as [t [B C]]. exists t. split; auto.
Qed.
Lemma map_first_out : forall p f l t, In t l -> exists t', In t' (map_first p f l) /\ (t' = t \/ t' = f t /\ find p l = Some t).
Proof.
  induction l as [ | a l IH ]; cbn; intros t X. contradiction. destruct (p a) eqn:A.
  - destruct X as [-> | X]; [ exists (f t); cbn; auto | exists t; cbn; auto ].
  - destruct X as [-> | X]; [ exists t; cbn; auto | ]. destruct (IH t X) as [t' [B C]]. exists t'. split; auto with datatypes.
Qed.
(** If the first one is not changed, no other is. *)
Lemma map_first_first : forall p f l t', NoDup (map t_emid l) -> In t' (map_first p f l) ->
  (exists t, In t l /\ t' = f t /\ find p l = Some t) \/ (In t' l /\ find p l <> Some t').
Proof.
  induction l as [ | a l IH ]; cbn; intros t' N X. contradiction. inversion N; subst. destruct (p a) eqn:A.
  - destruct X as [<- | X]; [ left; eauto | right ]. split; auto. intros E. inversion E; subst. apply H1. now apply in_map.
  - destruct X as [<- | X].
    + right. split; auto. intros E. apply find_some in E as [_ E]. congruence.
    + destruct (IH t' H2 X) as [[t (B & C & D)] | [B C]]; [ left; eauto | right; auto ].
Qed.

(** Who is found by the id of a StartTransaction. *)
Lemma find_start : forall s b p r, inv s b -> q s = p :: r -> is_start p ->
  match active_with (p_mid p) s with
  | Some c => exists t, act s c = Some t /\ t_smid t = p_mid p /\ cur b c = Some (p_init p) /\ (forall u, In u (stopped s) -> t_smid u <> p_mid p)
                        /\ (forall d u, act s d = Some u -> t_smid u = p_mid p -> d = c)
  | None => (forall d u, act s d = Some u -> t_smid u <> p_mid p) /\ (forall d, cur b d <> Some (p_init p))
            /\ match find (has_mid (p_mid p)) (stopped s) with
               | Some t => t_smid t = p_mid p /\ (exists e, t_emid t = Some e /\ (forall x, In x r -> is_stop x -> In (p_init x, p_init p) (ostop b) -> p_mid x = e)
                                                           /\ (forall x, In x r -> p_mid x = e -> is_stop x /\ In (p_init x, p_init p) (ostop b)) /\ (e < nid s)%N)
                           /\ t_fin t = true /\ (forall u, In u (stopped s) -> t_smid u = p_mid p -> t_emid u = t_emid t)
               | None => forall u, In u (stopped s) -> t_smid u <> p_mid p
               end
  end.
Proof.
  intros s b p r I Q PS. unfold inv in I. rewrite Q in I.
  assert (ACT : forall c t, act s c = Some t -> has_mid (p_mid p) t = true -> t_smid t = p_mid p /\ cur b c = Some (p_init p)).
  { intros c t A H. destruct (i_act _ _ _ _ _ _ _ _ I c t A) as [m (A1 & _ & _ & A4 & _ & A6 & _)].
    apply has_mid_spec in H as [H | H]; [ | congruence ]. split; auto. rewrite A1. f_equal. symmetry. apply (A6 p); cbn; auto. }
  assert (STP : forall t, In t (stopped s) -> has_mid (p_mid p) t = true -> t_smid t = p_mid p
             /\ exists e, t_emid t = Some e /\ (forall x, In x r -> is_stop x -> In (p_init x, p_init p) (ostop b) -> p_mid x = e)
                          /\ (forall x, In x r -> p_mid x = e -> is_stop x /\ In (p_init x, p_init p) (ostop b)) /\ (e < nid s)%N /\ t_fin t = true
                          /\ (forall c, cur b c <> Some (p_init p)) /\ exists y, In y r /\ is_stop y /\ In (p_init y, p_init p) (ostop b)).
  { intros t T H. destruct (i_stp _ _ _ _ _ _ _ _ I t T) as [m [e (A1 & A2 & A3 & A4 & A5 & A6 & A7 & A8 & A9)]].
    apply has_mid_spec in H as [H | H].
    2: { exfalso. rewrite A1 in H. inversion H; subst. apply (A7 p); cbn; auto. }
    assert (E : p_init p = m) by (apply A6; cbn; auto). subst m. split; auto. exists e. split; auto.
    destruct A9 as [y (B1 & B2 & B3 & B4)]. exists p; cbn; auto.
    destruct B1 as [<- | B1]; [ unfold is_stop, is_start in *; destruct (p_body p); contradiction | ].
    split; [ | split; [ | split; [ auto | split; [ auto | split; [ auto | eauto ] ] ] ] ].
    - intros x X S O. rewrite <- B3. f_equal. apply (init_inj (p :: r)); cbn; auto. apply (i_sorted _ _ _ _ _ _ _ _ I).
      eapply (i_ostop_inj _ _ _ _ _ _ _ _ I); eauto.
    - intros x X E. assert (x = y). { apply (mid_inj (p :: r)); cbn; auto. apply (i_nodup _ _ _ _ _ _ _ _ I). congruence. } subst; auto. }
  destruct (active_with (p_mid p) s) as [c | ] eqn:AW.
  - destruct (active_with_some _ _ _ AW) as [t [A H]]. destruct (ACT c t A H) as [B C]. exists t. split; [ auto | ]. split; [ auto | ]. split; [ auto | ]. split.
    + intros u U E. destruct (STP u U) as [_ [e (_ & _ & _ & _ & _ & D & _)]]. apply has_mid_spec; auto. now apply D in C.
    + intros d u D E. destruct (ACT d u D) as [_ F]. apply has_mid_spec; auto. eapply (i_cur_inj _ _ _ _ _ _ _ _ I); eauto.
  - assert (NA : forall d u, act s d = Some u -> t_smid u <> p_mid p).
    { intros d u A E. assert (H : has_mid (p_mid p) u = false).
      { eapply active_with_none; eauto. destruct (i_act _ _ _ _ _ _ _ _ I d u A) as [m (_ & R & _)]. apply in_slots. lia. }
      assert (H' : has_mid (p_mid p) u = true) by (apply has_mid_spec; auto). congruence. }
    split; [ auto | ]. split.
    + intros d C. destruct (act s d) as [u | ] eqn:A; [ | eapply (i_cur _ _ _ _ _ _ _ _ I); eauto ].
      apply (NA d u A). destruct (i_act _ _ _ _ _ _ _ _ I d u A) as [m (A1 & _ & _ & _ & _ & A6 & _)].
      symmetry. apply (A6 p); cbn; auto. congruence.
    + destruct (find _ (stopped s)) as [t | ] eqn:F.
      * apply find_some in F as [F H]. destruct (STP t F H) as [A [e (B & C & D & E & G & K & [y (Y1 & Y2 & Y3)])]]. split; [ auto | ]. split; [ eauto | ]. split; [ auto | ].
        intros u U V. destruct (STP u U) as [_ [e' (B' & C' & _)]]. apply has_mid_spec; auto. rewrite B, B'. f_equal. rewrite <- (C y), <- (C' y); auto.
      * intros u U E. eapply find_none in F; eauto. rewrite (proj2 (has_mid_spec _ _)) in F; auto. discriminate.
Qed.

Lemma active_with_ext : forall mid s s', n s' = n s -> act s' = act s -> active_with mid s' = active_with mid s.
Proof. intros mid s s' N A. unfold active_with, slots, conns. now rewrite N, A. Qed.
Definition renamed (tid : Z) (t : tx) : tx :=
  Tx (t_iid t) (t_conn t) (t_sess t) (t_tag t) (t_start t) (t_resv t) (t_active t) (t_fin t) (t_stop t) (Some tid) (t_smid t) (t_emid t) (t_timer t).
Lemma renamed_same : forall tid t, same_tx t (renamed tid t).
Proof. repeat split. Qed.
Lemma same_tx_refl : forall t, same_tx t t.
Proof. repeat split. Qed.

Lemma notify_fields : forall mid tid s, let s' := notify_handled mid tid s in
  n s' = n s /\ act s' = act s /\ stopped s' = stopped s /\ txmap s' = txmap s /\ nid s' = nid s /\ dead s' = dead s.
Proof. repeat split. Qed.
Lemma notify_inv : forall s b mid tid, inv s b -> inv (notify_handled mid tid s) b.
Proof.
  intros s b mid tid I. unfold inv, notify_handled. cbn [n act stopped q txmap mvmap nid set_mvmap set_q].
  apply map_inv with (mv := mvmap s); auto.
  - intros p P. destruct (existsb (N.eqb (p_mid p)) _) eqn:E; cbn [p_mid p_init]; auto. repeat split.
    destruct (find (fun e => N.eqb (fst e) mid) (mvmap s)) as [[k l] | ] eqn:F; [ | discriminate ].
    apply find_some in F as [F _]. apply existsb_exists in E as [x [X E]]. apply N.eqb_eq in E. cbn [snd] in X.
    destruct (i_mv _ _ _ _ _ _ _ _ I k l x F X) as [_ M]. specialize (M p P E). right. split; auto.
    unfold is_meter in *. cbn. destruct (p_body p); cbn; auto.
  - intros k l X. now apply filter_In in X as [X _].
Qed.

Lemma start_conf_inv : forall s b p r tid ok parent sinv, inv s b -> q s = p :: r -> is_start p ->
  inv (fst (start_conf (p_mid p) tid ok parent sinv (set_q s r))) (Obs (cur b) (ostop b) (ometer b) ((p_init p, tid) :: ans b)).
Proof.
  intros s b p r tid ok parent sinv I Q PS.
  assert (F := find_start s b p r I Q PS).
  assert (I' := I). unfold inv in I'. rewrite Q in I'.
  assert (AE : forall s', n s' = n s -> act s' = act s -> active_with (p_mid p) s' = active_with (p_mid p) s) by (intros; now apply active_with_ext).
  assert (ND : forall x, In x r -> p_mid x <> p_mid p).
  { intros x X E. pose proof (i_nodup _ _ _ _ _ _ _ _ I') as ND. cbn in ND. inversion ND; subst. apply H1. rewrite <- E. now apply in_map. }
  unfold start_conf, get_tx. rewrite (AE (set_q s r)) by reflexivity. cbn [act stopped set_q].
  destruct (active_with (p_mid p) s) as [c | ] eqn:AW.
  - destruct F as [t (A & B & C & D & E)]. rewrite A.
    destruct (i_act _ _ _ _ _ _ _ _ I' c t A) as [m (A1 & A2 & A3 & A4 & A5 & A6 & A7)]. rewrite A3. cbn [fst].
    apply core_inv with (s := change_tx (p_mid p) (renamed tid) (notify_handled (p_mid p) tid (set_q s r))); [ repeat split | ].
    assert (G : change_tx (p_mid p) (renamed tid) (notify_handled (p_mid p) tid (set_q s r))
                = notify_handled (p_mid p) tid (set_act (set_q s r) (upd (act s) c (Some (renamed tid t))))).
    { unfold change_tx. rewrite (AE (notify_handled _ _ _)) by reflexivity. cbn [act notify_handled set_mvmap set_q]. rewrite A. reflexivity. }
    rewrite G. apply notify_inv. unfold inv. cbn [n act stopped q txmap mvmap nid set_act set_q].
    apply answer_inv with (act := act s) (stp := stopped s) (tm := txmap s) (p := p); auto.
    + intros d u U. unfold upd in U. destruct (Z.eqb_spec d c); subst.
      * inversion U; subst. exists t. split; [ auto | ]. split; [ apply renamed_same | ]. split; [ auto | congruence ].
      * exists u. split; [ auto | ]. split; [ apply same_tx_refl | ]. split; [ | auto ]. intros X.
        exfalso. match goal with H : d <> c |- _ => apply H end. eapply (i_cur_inj _ _ _ _ _ _ _ _ I'); eauto.
    + intros d U. unfold upd. destruct (Z.eqb_spec d c); auto. discriminate.
    + intros u U. exists u. split; auto. apply same_tx_refl.
    + intros u U. exists u. split; auto. apply same_tx_refl.
    + apply (i_tm_small _ _ _ _ _ _ _ _ I').
    + intros x X S O. exfalso. apply (i_ostop _ _ _ _ _ _ _ _ I') in O as (_ & _ & O). now apply O in C.
  - destruct F as (NA & NC & F).
    assert (HA : forall d u, act s d = Some u -> exists t, act s d = Some t /\ same_tx t u
                  /\ (cur b d = Some (p_init p) -> t_id u = Some tid) /\ (cur b d <> Some (p_init p) -> t_id u = t_id t)).
    { intros d u U. exists u. split; [ auto | ]. split; [ apply same_tx_refl | ]. split; [ | auto ]. intros X. now apply NC in X. }
    destruct (find (has_mid (p_mid p)) (stopped s)) as [t | ] eqn:FS.
    + destruct F as (F1 & [e (F2 & F3 & F4 & F5)] & F6 & F7). rewrite F6. cbn [fst].
      apply core_inv with (s := change_tx (p_mid p) (renamed tid) (notify_handled (p_mid p) tid (add_stopped_id (t_emid t) tid (set_q s r)))); [ repeat split | ].
      rewrite F2. unfold add_stopped_id.
      assert (G : change_tx (p_mid p) (renamed tid) (notify_handled (p_mid p) tid (set_txmap (set_q s r) ((e, tid) :: filter (fun x => negb (N.eqb (fst x) e)) (txmap s))))
                = notify_handled (p_mid p) tid (set_stopped (set_txmap (set_q s r) ((e, tid) :: filter (fun x => negb (N.eqb (fst x) e)) (txmap s)))
                                                           (map_first (has_mid (p_mid p)) (renamed tid) (stopped s)))).
      { unfold change_tx. rewrite (AE (notify_handled _ _ _)) by reflexivity. reflexivity. }
      cbn [txmap set_q]. rewrite G. apply notify_inv. unfold inv. cbn [n act stopped q txmap mvmap nid set_stopped set_txmap set_q].
      apply answer_inv with (act := act s) (stp := stopped s) (tm := txmap s) (p := p); auto.
      * intros u U. destruct (map_first_in _ _ _ _ U) as [u' [V [-> | [-> _]]]]; exists u'; split; auto. apply same_tx_refl. apply renamed_same.
      * intros u U. destruct (map_first_out (has_mid (p_mid p)) (renamed tid) _ _ U) as [u' [V [-> | [-> _]]]]; [ exists u | exists (renamed tid u) ]; split; auto. apply same_tx_refl. apply renamed_same.
      * apply map_first_emid. reflexivity.
      * intros k i [X | X]; [ inversion X; subst; auto | ]. apply filter_In in X as [X _]. eapply (i_tm_small _ _ _ _ _ _ _ _ I'); eauto.
      * intros x X S O. rewrite look_cons. rewrite (F3 x X S O), N.eqb_refl. auto.
      * intros x X S. rewrite look_cons, look_filter. destruct (N.eqb_spec e (p_mid x)) as [E | E].
        -- exfalso. apply S. apply F4; auto.
        -- destruct (N.eqb_spec (p_mid x) e); congruence.
    + unfold inv. cbn [fst n act stopped q txmap mvmap nid set_q].
      apply answer_inv with (act := act s) (stp := stopped s) (tm := txmap s) (p := p); auto.
      * intros u U. exists u. split; auto. apply same_tx_refl.
      * intros u U. exists u. split; auto. apply same_tx_refl.
      * apply (i_tm_small _ _ _ _ _ _ _ _ I').
      * intros x X S O. exfalso.
        destruct (i_stop _ _ _ _ _ _ _ _ I' x (or_intror X) S) as [m (O' & W & _)].
        assert (m = p_init p) by (eapply (i_ostop_fun _ _ _ _ _ _ _ _ I'); eauto). subst m.
        destruct W as [u (U1 & U2 & _)]. exists p; cbn; auto. apply (F u U1). symmetry. apply U2; cbn; auto.
Qed.
Lemma stop_conf_inv : forall s b p r id, inv s b -> q s = p :: r -> inv (fst (stop_conf (p_mid p) id (set_q s r))) b.
Proof.
  intros s b p r id I Q. unfold stop_conf. set (s0 := set_q s r).
  assert (C1 : same_core s0 (fst (match get_tx (p_mid p) s0 with Some t => execute_queued (t_conn t) s0 | None => (s0, []) end))).
  { destruct (get_tx _ _); [ apply queued_core | apply core_refl ]. }
  destruct (match get_tx (p_mid p) s0 with Some t => execute_queued (t_conn t) s0 | None => (s0, []) end) as [s1 o1]. cbn [fst] in C1.
  assert (I1 : inv s1 b).
  { apply core_inv with (s := s0); auto. unfold inv, s0. cbn [n act stopped q txmap mvmap nid set_q]. unfold inv in I. rewrite Q in I. eapply drop_head_inv; eauto. }
  assert (I2 : inv (set_stopped (ack_rows id s1) (filter (fun t => negb (opt_is (t_emid t) (p_mid p))) (stopped s1))) b).
  { unfold inv. cbn [n act stopped q txmap mvmap nid set_stopped ack_rows set_rows]. apply stp_filter_inv; auto. intros t x T X E. rewrite E. cbn.
    destruct (N.eqb_spec (p_mid x) (p_mid p)) as [A | A]; auto. exfalso. destruct C1 as (_ & _ & _ & C & _). rewrite C in X. cbn in X.
    unfold inv in I. rewrite Q in I. pose proof (i_nodup _ _ _ _ _ _ _ _ I) as ND. cbn in ND. inversion ND; subst. apply H1. rewrite <- A. now apply in_map. }
  change (stopped (ack_rows id s1)) with (stopped s1).
  destruct (fw _); cbn [fst all_unavailable]; exact I2.
Qed.
Lemma start_conf_quiet : forall mid tid ok parent i s, Forall quiet (snd (start_conf mid tid ok parent i s)).
Proof.
  intros. unfold start_conf. destruct (get_tx mid s); cbn [snd]; [ | constructor ].
  constructor; [ exact Logic.I | ]. destruct ok, i; cbn; repeat constructor.
Qed.
Lemma execute_quiet : forall l u p s, Forall quiet (snd (execute_changes l u p s)).
Proof.
  intros. unfold execute_changes. cbn [snd]. induction l as [ | c l IH ]; cbn; auto.
  apply Forall_app. split; auto. destruct (c =? 0), u; repeat constructor.
Qed.
Lemma all_quiet : forall s, Forall quiet (snd (all_unavailable s)).
Proof.
  intros. unfold all_unavailable. cbn [snd]. apply Forall_app. split.
  - apply Forall_forall. intros x X. apply in_map_iff in X as [c [<- _]]. exact Logic.I.
  - destruct (filter _ _); repeat constructor.
Qed.
Lemma stop_conf_quiet : forall mid id s, Forall quiet (snd (stop_conf mid id s)).
Proof.
  intros. unfold stop_conf.
  assert (Q1 : Forall quiet (snd (match get_tx mid s with Some t => execute_queued (t_conn t) s | None => (s, []) end))).
  { destruct (get_tx mid s); [ | constructor ]. unfold execute_queued. destruct (avq s (t_conn t)) as [[u p] | ]; [ apply execute_quiet | constructor ]. }
  destruct (match get_tx mid s with Some t => execute_queued (t_conn t) s | None => (s, []) end) as [s1 o1]. cbn [snd] in Q1.
  destruct (fw _); [ pose proof (all_quiet (set_stopped (ack_rows id s1) (filter (fun t => negb (opt_is (t_emid t) mid)) (stopped (ack_rows id s1))))) as A;
    destruct (all_unavailable _) | ]; cbn [snd] in *; apply Forall_app; split; auto.
Qed.

(** ** Every step *)
Lemma deliver_inv : forall s b tid ok parent i, inv s b ->
  inv (fst (deliver tid ok parent i s)) (see (Deliver tid ok parent i) (snd (deliver tid ok parent i s)) b)
  /\ forall p, In (OSend p) (snd (deliver tid ok parent i s)) -> told b p.
Proof.
  intros s b tid ok parent i I. unfold deliver. destruct (q s) as [ | p0 r ] eqn:Q. split; auto. intros p [].
  assert (H := send_head_eq p0 (set_q s r)). destruct (send_head p0 (set_q s r)) as [s1 p].
  destruct H as (H1 & H2 & H3 & H4 & H5 & H6 & H7 & H8). cbn [n act stopped q txmap mvmap nid set_q] in *.
  assert (I' := I). unfold inv in I'. rewrite Q in I'.
  destruct (send_inv _ _ _ _ _ _ _ _ _ I' p (txmap s1) H8) as (J & JL & JM & JI & JS).
  assert (IA : inv (set_q s1 (p :: r)) b) by (unfold inv; cbn [n act stopped q txmap mvmap nid set_q]; rewrite H1, H2, H3, H5, H6; auto).
  assert (T : told b p) by (eapply send_told; eauto).
  assert (Q1 : s1 = set_q (set_q s1 (p :: r)) r) by (destruct s1; cbn in H4; subst; reflexivity).
  assert (ONE : forall o, Forall quiet o ->
     (forall p', In (OSend p') (OSend p :: o) -> told b p')).
  { intros o F p' [X | X]. inversion X; subst; auto. rewrite Forall_forall in F. now apply F in X. }
  destruct (p_body p) eqn:B.
  - assert (SP : is_start p) by (unfold is_start; now rewrite B).
    assert (K := start_conf_inv (set_q s1 (p :: r)) b p r tid ok parent i IA eq_refl SP). rewrite <- Q1 in K.
    assert (Z := start_conf_quiet (p_mid p) tid ok parent i s1).
    destruct (start_conf (p_mid p) tid ok parent i s1) as [s2 o]. cbn [fst snd] in *. split; [ | eauto ].
    change (see (Deliver tid ok parent i) (OSend p :: o) b) with (see (Deliver tid ok parent i) o (see1 (Deliver tid ok parent i) (OSend p) b)).
    rewrite see_quiet by auto. destruct p as [pm pb pi po]. cbn in B. subst pb. exact K.
  - assert (K := stop_conf_inv (set_q s1 (p :: r)) b p r id IA eq_refl). rewrite <- Q1 in K.
    assert (Z := stop_conf_quiet (p_mid p) id s1).
    destruct (stop_conf (p_mid p) id s1) as [s2 o]. cbn [fst snd] in *. split; [ | eauto ].
    change (see (Deliver tid ok parent i) (OSend p :: o) b) with (see (Deliver tid ok parent i) o (see1 (Deliver tid ok parent i) (OSend p) b)).
    rewrite see_quiet by auto. destruct p as [pm pb pi po]. cbn in B. subst pb. exact K.
  - cbn [fst snd]. split; [ | intros p' [X | []]; inversion X; subst; auto ].
    replace (see _ _ b) with b by (destruct p as [pm pb pi po]; cbn in B; subst pb; reflexivity).
    unfold inv. rewrite H1, H2, H3, H4, H5, H6. eapply drop_head_inv. exact J.
Qed.

Lemma started_inv : forall s b c sess tag wh resv time iid, inv s b -> 0 < c -> cur b c = None ->
  inv (fst (started c sess tag wh resv time iid s)) (see (Started c sess tag wh resv time iid) (snd (started c sess tag wh resv time iid s)) b).
Proof.
  intros s b c sess tag wh resv time iid I C F. unfold started. destruct (in_range s c) eqn:R; [ | exact I ].
  apply in_range_spec in R. set (w := Row _ _ _ _ _ _ _ _ _ _ _ _ _ _).
  destruct (insert_core w s) as (E1 & E2 & E3 & E4 & E5 & E6 & E7).
  unfold inv, push. cbn [fst snd app see fold_left see1 n act stopped q txmap mvmap nid set_act set_q set_nid].
  rewrite E1, E2, E3, E4, E5, E6, E7. apply push_start_inv; auto. lia.
Qed.
Lemma stop_inv : forall s b c why time wh tag u, inv s b ->
  inv (fst (stop c why time wh tag u s)) (see (Stopped c why time wh tag u) (snd (stop c why time wh tag u s)) b).
Proof.
  intros s b c why time wh tag u I. unfold stop. destruct (in_range s c) eqn:R; [ | exact I ].
  destruct (act s c) as [t | ] eqn:A; [ | exact I ].
  destruct (i_act _ _ _ _ _ _ _ _ I c t A) as [m (A1 & A2 & A3 & A4 & A5 & A6 & A7)].
  unfold stop_transaction, push. cbn [fst snd s_wh s_time].
  assert (Q : Forall quiet (match why with EVDisconnected => if u then [OUnlock c] else [] | _ => [] end)) by (destruct why, u; repeat constructor).
  rewrite see_app, (see_quiet _ _ _ Q). cbn [app see fold_left see1]. rewrite A1.
  unfold inv. cbn [n act stopped q txmap mvmap nid set_act set_q set_nid set_stopped at_row set_rows].
  eapply push_stop_inv; eauto. do 5 eexists. split; [ reflexivity | ]. intros j ->. reflexivity.
Qed.
Lemma meter_inv : forall s b c p v l, inv s b -> inv (fst (meter c p v l s)) (see (Meter c p v l) (snd (meter c p v l s)) b).
Proof.
  intros s b c p v l I. unfold meter. destruct (in_range s c); [ | exact I ].
  assert (SE : forall i bb bb' b', exists om, see (Meter c p v l) [OPush (P i (BMeter c bb bb') i (BMeter c bb b'))] b = Obs (cur b) (ostop b) om (ans b)).
  { intros i bb bb' b'. cbn. destruct (if 0 <? c then cur b c else None) as [m | ].
    exists ((i, m) :: ometer b). reflexivity. exists (ometer b). now destruct b. }
  destruct (act s c) as [t | ] eqn:A.
  - destruct (p && negb (t_active t && t_timer t)); [ exact I | ].
    set (s1 := if 0 <? c then _ else s).
    assert (M : n s1 = n s /\ act s1 = act s /\ stopped s1 = stopped s /\ q s1 = q s /\ txmap s1 = txmap s /\ nid s1 = nid s
       /\ forall k l0 x, In (k, l0) (mvmap s1) -> In x l0 -> x = nid s \/ exists k' l', In (k', l') (mvmap s) /\ In x l').
    { subst s1. destruct (0 <? c); [ destruct (t_id t) | ]; repeat split; cbn [mvmap set_mvmap]; eauto.
      intros k l0 x [X | X] Y.
      - inversion X; subst. destruct Y as [-> | Y]; auto. destruct (find _ (mvmap s)) as [[k' l'] | ] eqn:F; [ | contradiction ].
        right. exists k', l'. split; auto. now apply find_some in F.
      - apply filter_In in X as [X _]. eauto. }
    destruct M as (M1 & M2 & M3 & M4 & M5 & M6 & M7).
    unfold push. cbn [fst snd]. destruct (SE (nid s1) (if 0 <? c then t_id t else None) v v) as [om ->].
    match goal with |- inv ?x _ => assert (CC : same_core (set_nid (set_q s1 (q s1 ++ [P (nid s1) (BMeter c (if 0 <? c then t_id t else None) v) (nid s1) (BMeter c (if 0 <? c then t_id t else None) v)])) (N.succ (nid s1))) x) end.
    { destruct l; [ destruct p | ]; repeat split. }
    eapply core_inv; [ exact CC | ].
    unfold inv. cbn [n act stopped q txmap mvmap nid set_nid set_q]. rewrite M1, M2, M3, M4, M5, M6.
    eapply push_meter_inv; eauto.
  - destruct p; [ exact I | ]. unfold push. cbn [fst snd]. destruct (SE (nid s) None v v) as [om ->].
    unfold inv. cbn [n act stopped q txmap mvmap nid set_nid set_q]. eapply push_meter_inv; eauto.
Qed.
Lemma sent_inv : forall s b, inv s b -> inv (fst (sent s)) b /\ forall p, In (OSend p) (snd (sent s)) -> told b p.
Proof.
  intros s b I. unfold sent. destruct (q s) as [ | p0 r ] eqn:Q. split; auto. intros p [].
  assert (H := send_head_eq p0 s). destruct (send_head p0 s) as [s1 p].
  destruct H as (H1 & H2 & H3 & H4 & H5 & H6 & H7 & H8). assert (I' := I). unfold inv in I'. rewrite Q in I'.
  destruct (send_inv _ _ _ _ _ _ _ _ _ I' p (txmap s1) H8) as (J & JL & JM & JI & JS). cbn [fst snd]. split.
  - unfold inv. cbn [n act stopped q txmap mvmap nid set_q]. rewrite H1, H2, H3, H5, H6. auto.
  - intros p' [X | []]. inversion X; subst. eapply send_told; eauto.
Qed.
Lemma give_up_inv : forall s b, inv s b -> inv (fst (give_up s)) b /\ forall p, In (OSend p) (snd (give_up s)) -> told b p.
Proof.
  intros s b I. unfold give_up. destruct (q s) as [ | p0 r ] eqn:Q. split; auto. intros p [].
  assert (H := send_head_eq p0 (set_q s r)). destruct (send_head p0 (set_q s r)) as [s1 p].
  destruct H as (H1 & H2 & H3 & H4 & H5 & H6 & H7 & H8). cbn [n act stopped q txmap mvmap nid set_q] in *. assert (I' := I). unfold inv in I'. rewrite Q in I'.
  destruct (send_inv _ _ _ _ _ _ _ _ _ I' p (txmap s1) H8) as (J & JL & JM & JI & JS). cbn [fst snd]. split.
  - unfold inv. rewrite H1, H2, H3, H4, H5, H6. eapply drop_head_inv; eauto.
  - intros p' [X | []]. inversion X; subst. eapply send_told; eauto.
Qed.
Definition resmid (mid : N) (t : tx) : tx :=
  Tx (t_iid t) (t_conn t) (t_sess t) (t_tag t) (t_start t) (t_resv t) (t_active t) (t_fin t) (t_stop t) (t_id t) mid (t_emid t) (t_timer t).
Lemma retry_step_inv : forall s b, inv s b -> inv (fst (retry s)) b /\ forall p, In (OSend p) (snd (retry s)) -> told b p.
Proof.
  intros s b I. unfold retry. destruct (q s) as [ | p0 r ] eqn:Q. split; auto. intros p [].
  assert (H := send_head_eq p0 s). destruct (send_head p0 s) as [s1 p].
  destruct H as (H1 & H2 & H3 & H4 & H5 & H6 & H7 & H8). assert (I' := I). unfold inv in I'. rewrite Q in I'.
  destruct (send_inv _ _ _ _ _ _ _ _ _ I' p (txmap s1) H8) as (J & JL & JM & JI & JS). cbn [fst snd]. split.
  2: { intros p' [X | []]. inversion X; subst. eapply send_told; eauto. }
  set (p' := P (nid s1) (p_body p) (p_init p) (p_orig p)).
  assert (IA : inv (set_q s1 (p :: r)) b) by (unfold inv; cbn [n act stopped q txmap mvmap nid set_q]; rewrite H1, H2, H3, H5, H6; auto).
  assert (NR : ~ is_start p -> inv (set_nid (set_q s1 (p' :: r)) (N.succ (nid s1))) b).
  { intros NS. assert (RR : forall t, renewed p (nid s) t t) by (intros t; repeat split; right; split; auto; tauto).
    unfold inv. cbn [n act stopped q txmap mvmap nid set_nid set_q]. unfold p'. rewrite H1, H2, H3, H5, H6.
    apply retry_inv with (act := act s) (stp := stopped s); auto; intros; eexists; split; eauto. }
  destruct (p_body p) eqn:B; try (apply NR; unfold is_start; rewrite B; tauto).
  assert (SP : is_start p) by (unfold is_start; now rewrite B).
  assert (F := find_start _ b p r IA eq_refl SP). cbn [act stopped set_q nid] in F.
  assert (PE : p' = P (nid s1) (p_body p) (p_init p) (p_orig p)) by (unfold p'; now rewrite B).
  clear NR. clearbody p'. subst p'.
  set (s2 := set_nid (set_q s1 (P (nid s1) (p_body p) (p_init p) (p_orig p) :: r)) (N.succ (nid s1))).
  change (inv (change_tx (p_mid p) (resmid (nid s1)) s2) b).
  assert (AE : active_with (p_mid p) s2 = active_with (p_mid p) (set_q s1 (p :: r))) by (apply active_with_ext; reflexivity).
  unfold change_tx. rewrite AE.
  assert (RR : forall t, t_smid t <> p_mid p -> renewed p (nid s) t t) by (intros t T; repeat split; right; split; auto; tauto).
  assert (RC : forall t, t_smid t = p_mid p -> renewed p (nid s) t (resmid (nid s) t)) by (intros t T; repeat split; left; auto).
  destruct (active_with (p_mid p) (set_q s1 (p :: r))) as [c | ].
  - destruct F as [t (F1 & F2 & F3 & F4 & F5)]. unfold inv. cbn [n act stopped q txmap mvmap nid set_act set_nid set_q s2]. rewrite F1. cbn [option_map].
    rewrite H1, H2, H3, H5, H6 in *. apply retry_inv with (act := act s) (stp := stopped s); auto.
    + intros d u. unfold upd. destruct (Z.eqb_spec d c); subst; intros E.
      * inversion E; subst. exists t. auto.
      * exists u. split; auto. apply RR. intros X. eauto.
    + intros d U. unfold upd. destruct (Z.eqb_spec d c); auto. discriminate.
    + intros u U. exists u. auto.
    + intros u U. exists u. auto.
  - destruct F as (F1 & F2 & F3). unfold inv. cbn [n act stopped q txmap mvmap nid set_stopped set_nid set_q s2].
    rewrite H1, H2, H3, H5, H6 in *.
    assert (UN : forall u t, In u (stopped s) -> find (has_mid (p_mid p)) (stopped s) = Some t -> t_smid u = p_mid p -> u = t).
    { intros u t U F E. rewrite F in F3. destruct F3 as (_ & _ & _ & F3). specialize (F3 u U E). apply find_some in F as [F _].
      pose proof (i_emid _ _ _ _ _ _ _ _ I') as ND. revert ND U F F3. clear. induction (stopped s) as [ | a l IH ]; cbn; intros ND U F E. contradiction.
      inversion ND; subst. destruct U as [-> | U], F as [-> | F]; auto; exfalso; apply H1.
      - rewrite E. now apply in_map.
      - rewrite <- E. now apply in_map. }
    assert (FE : forall t, find (has_mid (p_mid p)) (stopped s) = Some t -> t_smid t = p_mid p).
    { intros t F. rewrite F in F3. tauto. }
    apply retry_inv with (act := act s) (stp := stopped s); auto.
    + intros d u U. exists u. split; auto. eauto.
    + intros u U. apply map_first_first in U as [[t (T1 & -> & T2)] | [U1 U2]]; [ | | apply (i_emid _ _ _ _ _ _ _ _ I') ].
      * exists t. eauto.
      * exists u. split; auto. apply RR. intros X. destruct (find (has_mid (p_mid p)) (stopped s)) as [t | ] eqn:F; [ | now apply (F3 u) ].
        apply U2. f_equal. symmetry. eauto.
    + intros u U. destruct (N.eq_dec (t_smid u) (p_mid p)) as [E | E].
      * destruct (find (has_mid (p_mid p)) (stopped s)) as [t | ] eqn:F; [ | exfalso; now apply (F3 u) ].
        assert (u = t) by eauto. subst. exists (resmid (nid s) t). split; auto.
        revert F. clear. induction (stopped s) as [ | a l IH ]; cbn; intros F. discriminate.
        destruct (has_mid (p_mid p) a); cbn. inversion F; auto. auto.
      * destruct (map_first_out (has_mid (p_mid p)) (resmid (nid s)) _ _ U) as [u' [V [-> | [-> W]]]]. eauto. apply FE in W. contradiction.
    + apply map_first_emid. reflexivity.
Qed.
Lemma discard_inv : forall s b mid, inv s b -> inv (fst (discard mid s)) b.
Proof.
  intros s b mid I. unfold inv, discard. cbn [fst n act stopped q txmap mvmap nid set_q].
  apply remove_inv with (q := q s); auto.
  - apply sorted_filter, I.
  - apply nodup_filter, I.
  - intros p X. apply (i_tail _ _ _ _ _ _ _ _ I). revert X. generalize (q s) as l. intros [ | a l ]; cbn; auto.
    destruct (negb _); cbn. intros X. now apply filter_In in X. intros X.
    assert (In p (filter (fun p => negb (N.eqb (p_mid p) mid && match p_body p with BMeter _ _ _ => true | _ => false end)) l)).
    { revert X. generalize (filter (fun p => negb (N.eqb (p_mid p) mid && match p_body p with BMeter _ _ _ => true | _ => false end)) l). intros [ | ? ? ]; cbn; auto. }
    now apply filter_In in H.
  - intros p X. now apply filter_In in X.
  - intros p m X S _ _. apply filter_In. split; auto. unfold is_stop in S. destruct (p_body p); try contradiction. now rewrite andb_false_r.
Qed.
Lemma step_inv : forall o s b, inv s b -> fine1 o b ->
  inv (fst (step o s)) (see o (snd (step o s)) b) /\ forall p, In (OSend p) (snd (step o s)) -> told b p.
Proof.
  intros o s b I F. unfold step. destruct (dead s).
  { destruct o; try contradiction; cbn [fst snd]; split; auto; intros p []. }
  assert (QF : forall (l : list out), Forall quiet l -> forall p, In (OSend p) l -> told b p).
  { intros l FQ p X. rewrite Forall_forall in FQ. now apply FQ in X. }
  destruct o.
  - destruct F as [F1 F2]. split. now apply started_inv. unfold started, push. destruct (in_range s c); cbn [snd]; intros p; cbn [app In]; intuition discriminate.
  - split. now apply stop_inv. unfold stop. destruct (in_range s c); [ | cbn; intuition discriminate ]. destruct (act s c); [ | intros p []; fail ].
    unfold stop_transaction, push. cbn [snd]. intros p. rewrite !in_app_iff. destruct why, unlock; cbn; intuition discriminate.
  - split. now apply meter_inv. unfold meter, push. destruct (in_range s c); [ | cbn; intuition discriminate ]. destruct (act s c).
    destruct (periodic && _). intros p []. cbn. intuition discriminate. destruct periodic; cbn; intuition discriminate.
  - now apply deliver_inv.
  - rewrite see_other by exact Logic.I. now apply sent_inv.
  - rewrite see_other by exact Logic.I. now apply retry_step_inv.
  - rewrite see_other by exact Logic.I. now apply give_up_inv.
  - rewrite see_other by exact Logic.I. split. now apply discard_inv. intros p [].
  - contradiction.
  - rewrite see_other by exact Logic.I. split. eapply core_inv; [ apply avail_core | auto ].
    apply QF. unfold change_availability, preprocess. destruct (_ && _); cbn; [ | repeat constructor ].
    destruct (filter _ _); cbn; constructor; try exact Logic.I; match goal with |- Forall quiet (flat_map _ ?l) => pose proof (execute_quiet l up true s) as X end; exact X.
  - rewrite see_other by exact Logic.I. split. eapply core_inv; [ apply queued_core | auto ].
    apply QF. unfold execute_queued. destruct (avq s c) as [[u p] | ]; [ apply execute_quiet | constructor ].
  - rewrite see_other by exact Logic.I. split. eapply core_inv; [ apply firmware_core | auto ].
    apply QF. unfold firmware.
    assert (QQ : forall s' : st, Forall quiet (if fw_ends x then flat_map (fun c => if avdb s' c then (if c =? 0 then [OZero true] else []) ++ [OEnable c] else []) (slots s') else [])).
    { intros s'. destruct (fw_ends x); [ | constructor ]. induction (slots s') as [ | c l IH ]; cbn; auto. apply Forall_app. split; auto.
      destruct (avdb s' c), (c =? 0); repeat constructor. }
    destruct (fw_next signed x (fw s)) as [[ | ] | ]; cbn [fst snd]; try (pose proof (all_quiet (set_fw s true)) as AQ; destruct (all_unavailable (set_fw s true)));
      cbn [fst snd] in *; apply Forall_app; split; auto; constructor.
  - rewrite see_other by exact Logic.I. split; auto. apply QF. unfold remote_stop. cbn [snd]. destruct (0 <? _); repeat constructor.
  - rewrite see_other by exact Logic.I. split; auto. apply QF. unfold remote_start. cbn [snd].
    destruct (match c with Some i => (i <=? 0) || (n s <? i) | None => false end); [ repeat constructor | ].
    destruct (any_obtainable _ _ _ _); [ | repeat constructor ]. destruct profile as [[v x] | ]; [ | repeat constructor ]. destruct c; [ | repeat constructor ].
    destruct (x && v); repeat constructor.
  - rewrite see_other by exact Logic.I. split; auto. apply QF. unfold unlock. cbn [snd].
    destruct (negb _); cbn; [ destruct answer | ]; repeat constructor; destruct (in_range s c); try destruct (active s c && stopif); repeat constructor.
  - rewrite see_other by exact Logic.I. split; auto. apply QF. unfold reset. cbn [snd]. constructor; [ exact Logic.I | ]. destruct allowed; [ | constructor ].
    apply Forall_forall. intros x X. apply in_map_iff in X as [c [<- _]]. exact Logic.I.
  - rewrite see_other by exact Logic.I. unfold change_interval. destruct (existsb _ _); cbn [fst snd]; split; auto; intros p; cbn; intuition discriminate.
Qed.
Lemma run_inv : forall h s b, inv s b -> fine (events h s) b -> inv (fst (run h s)) (watch (events h s) b).
Proof.
  induction h as [ | o h IH ]; intros s b I F; auto. cbn [events fine] in F. destruct F as [F1 F2].
  destruct (step_inv o s b I F1) as [I1 _]. cbn [events watch fold_left fst snd run] in *.
  specialize (IH _ _ I1 F2). destruct (step o s) as [s1 o1]. cbn [fst snd] in *. destruct (run h s1) as [s2 o2]. auto.
Qed.
