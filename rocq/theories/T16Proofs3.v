From Coq Require Import ZArith NArith List Bool Lia Sorting.Sorted.
From Verif Require Import T16Model T16Spec T16Proofs T16Proofs2.
Import ListNotations.
Local Open Scope Z_scope.

(** ** The transaction ids of MeterValues.req *)
Definition meter_id (p : pend) : option Z := match p_body p with BMeter _ i _ => i | _ => None end.
Definition mvl (mv : list (N * list N)) (k : N) : list N := match find (fun e => N.eqb (fst e) k) mv with Some e => snd e | None => [] end.
Definition knows (b : obs) (p : pend) : Prop :=
  is_meter p -> forall i, meter_id p = Some i <-> exists m, In (p_init p, m) (ometer b) /\ In (m, i) (ans b).
Record InvM (act : Z -> option tx) (q : list pend) (mv : list (N * list N)) (nid : N) (b : obs) : Prop := {
  m_start : forall p, In p q -> is_start p -> p_mid p = p_init p;
  m_id : forall p, In p q -> knows b p;
  m_wait : forall p m, In p q -> is_meter p -> In (p_init p, m) (ometer b) -> waits q m -> In (p_mid p) (mvl mv m);
  m_mv : forall k l x p, In (k, l) mv -> In x l -> In p q -> p_mid p = x -> In (p_init p, k) (ometer b);
  m_om : forall k m, In (k, m) (ometer b) -> (m < k)%N /\ (k < nid)%N;
  m_om_fun : forall k m m', In (k, m) (ometer b) -> In (k, m') (ometer b) -> m = m';
  m_smid : forall c t m, act c = Some t -> cur b c = Some m -> t_smid t = m;
  m_owner : forall m, waits q m -> (exists c, cur b c = Some m) \/ exists p, In p q /\ is_stop p /\ In (p_init p, m) (ostop b)
}.
Definition invm (s : st) (b : obs) : Prop := inv s b /\ InvM (act s) (q s) (mvmap s) (nid s) b.
Lemma invm_initial : forall n, invm (initial n) nothing.
Proof. intros n. split. apply inv_initial. constructor; cbn; try contradiction; try discriminate. intros m [p [[] _]]. Qed.
Lemma mvl_in : forall mv k x, In x (mvl mv k) -> exists l, In (k, l) mv /\ In x l.
Proof.
  intros mv k x. unfold mvl. destruct (find _ mv) as [[k' l] | ] eqn:F; [ | contradiction ].
  apply find_some in F as [F E]. cbn in E. apply N.eqb_eq in E. subst. eauto.
Qed.
Lemma mvl_filter : forall mv k k', k <> k' -> mvl (filter (fun e => negb (N.eqb (fst e) k)) mv) k' = mvl mv k'.
Proof.
  intros mv k k' H. unfold mvl. induction mv as [ | [a l] mv IH ]; cbn; auto.
  destruct (N.eqb_spec a k); subst; cbn.
  - destruct (N.eqb_spec k k'); subst; auto. congruence.
  - destruct (N.eqb_spec a k'); auto.
Qed.
Lemma start_not_meter : forall p, is_start p -> ~ is_meter p.
Proof. unfold is_start, is_meter. intros p. destruct (p_body p); tauto. Qed.
Lemma stop_not_meter : forall p, is_stop p -> ~ is_meter p.
Proof. unfold is_stop, is_meter. intros p. destruct (p_body p); tauto. Qed.
Lemma m_core : forall s s' b, same_core s s' -> invm s b -> invm s' b.
Proof.
  intros s s' b C [I J]. split. eapply core_inv; eauto. destruct C as (C1 & C2 & C3 & C4 & C5 & C6 & C7). now rewrite C2, C4, C6, C7.
Qed.

(** Nothing but a removal of messages. *)
Lemma m_remove : forall act q q' mv nid b, InvM act q mv nid b -> incl q' q ->
  (forall p m, In p q -> is_stop p -> In (p_init p, m) (ostop b) -> waits q' m -> In p q') -> InvM act q' mv nid b.
Proof.
  intros act q q' mv nid b I S H.
  assert (W : forall m, waits q' m -> waits q m) by (intros m [p (A & B & C)]; exists p; auto).
  destruct I. constructor; eauto.
  intros m X. destruct (m_owner0 m (W m X)) as [Y | [p (A & B & C)]]; auto. right. exists p. eauto.
Qed.
Lemma m_started : forall s b c sess tag wh resv time iid, invm s b -> 0 < c -> cur b c = None ->
  invm (fst (started c sess tag wh resv time iid s)) (see (Started c sess tag wh resv time iid) (snd (started c sess tag wh resv time iid s)) b).
Proof.
  intros s b c sess tag wh resv time iid [I J] C F. split. now apply started_inv. unfold started. destruct (in_range s c) eqn:R; [ | exact J ].
  set (w := Row _ _ _ _ _ _ _ _ _ _ _ _ _ _).
  destruct (insert_core w s) as (E1 & E2 & E3 & E4 & E5 & E6 & E7).
  unfold push. cbn [fst snd app see fold_left see1 n act stopped q txmap mvmap nid set_act set_q set_nid].
  rewrite E2, E4, E6, E7. clear E1 E2 E3 E4 E5 E6 E7. set (p := P (nid s) _ _ _).
  assert (NM : ~ is_meter p) by (intros X; exact X).
  assert (NS : ~ is_stop p) by (intros X; exact X).
  destruct J. constructor; cbn [cur ostop ometer ans].
  - intros x X S. apply in_q_app in X as [X | ->]; auto.
  - intros x X M. apply in_q_app in X as [X | ->]; [ | contradiction ]. now apply m_id0.
  - intros x m X M O W. apply in_q_app in X as [X | ->]; [ | contradiction ]. apply waits_app in W as [W | [_ W]]; eauto.
    cbn in W. subst m. destruct (m_om0 _ _ O). assert (p_init x < nid s)%N by (apply (i_small _ _ _ _ _ _ _ _ I x X)). lia.
  - intros k l x y K L X E. apply in_q_app in X as [X | ->]; eauto. cbn in E. destruct (i_mv _ _ _ _ _ _ _ _ I k l x K L). lia.
  - intros k m X. destruct (m_om0 k m X). lia.
  - auto.
  - intros d u m. unfold upd. destruct (Z.eqb_spec d c); intros A B. inversion A; inversion B; subst; auto. eauto.
  - intros m W. apply waits_app in W as [W | [_ W]].
    + destruct (m_owner0 m W) as [[d D] | [x (X1 & X2 & X3)]].
      * left. exists d. destruct (Z.eqb_spec d c); congruence.
      * right. exists x. rewrite in_q_app. auto.
    + left. exists c. rewrite Z.eqb_refl. now cbn in W; subst.
Qed.
Lemma m_stop : forall s b c why time wh tag u, invm s b ->
  invm (fst (stop c why time wh tag u s)) (see (Stopped c why time wh tag u) (snd (stop c why time wh tag u s)) b).
Proof.
  intros s b c why time wh tag u [I J]. split. now apply stop_inv. unfold stop. destruct (in_range s c) eqn:R; [ | exact J ].
  destruct (act s c) as [t | ] eqn:A; [ | exact J ].
  destruct (i_act _ _ _ _ _ _ _ _ I c t A) as [m (A1 & A2 & A3 & A4 & A5 & A6 & A7)].
  unfold stop_transaction, push. cbn [fst snd s_wh s_time].
  assert (Q : Forall quiet (match why with EVDisconnected => if u then [OUnlock c] else [] | _ => [] end)) by (destruct why, u; repeat constructor).
  rewrite see_app, (see_quiet _ _ _ Q). cbn [app see fold_left see1]. rewrite A1.
  cbn [n act stopped q txmap mvmap nid set_act set_q set_nid set_stopped at_row set_rows]. set (p := P (nid s) _ _ _).
  assert (NM : ~ is_meter p) by (intros X; exact X).
  assert (NS : ~ is_start p) by (intros X; exact X).
  assert (W' : forall k, waits (q s ++ [p]) k -> waits (q s) k) by (intros k W; apply waits_app in W as [W | [W _]]; auto; contradiction).
  destruct J. constructor; cbn [cur ostop ometer ans].
  - intros x X S. apply in_q_app in X as [X | ->]; auto.
  - intros x X M. apply in_q_app in X as [X | ->]; [ | contradiction ]. now apply m_id0.
  - intros x k X M O W. apply in_q_app in X as [X | ->]; [ | contradiction ]. eauto.
  - intros k l x y K L X E. apply in_q_app in X as [X | ->]; eauto. cbn in E. destruct (i_mv _ _ _ _ _ _ _ _ I k l x K L). lia.
  - intros k k' X. destruct (m_om0 k k' X). lia.
  - auto.
  - intros d v k. unfold upd. destruct (Z.eqb_spec d c); intros B D. discriminate. eauto.
  - intros k W. apply W' in W. destruct (m_owner0 k W) as [[d D] | [x (X1 & X2 & X3)]].
    + destruct (Z.eq_dec d c) as [-> | ND].
      * right. exists p. rewrite in_q_app. cbn [In p_init p]. replace k with m by congruence. repeat split; auto.
      * left. exists d. destruct (Z.eqb_spec d c); congruence.
    + right. exists x. rewrite in_q_app. cbn [In]. auto.
Qed.
Lemma m_meter : forall s b c p v l, invm s b -> invm (fst (meter c p v l s)) (see (Meter c p v l) (snd (meter c p v l s)) b).
Proof.
  intros s b c p v l [I J]. split. now apply meter_inv. unfold meter. destruct (in_range s c); [ | exact J ].
  destruct (act s c) as [t | ] eqn:A.
  - destruct (p && negb (t_active t && t_timer t)); [ exact J | ].
    destruct (i_act _ _ _ _ _ _ _ _ I c t A) as [m (A1 & A2 & A3 & A4 & A5 & A6 & A7)].
    assert (C : 0 <? c = true) by (apply Z.ltb_lt; lia). rewrite C.
    assert (SM := m_smid _ _ _ _ _ J c t m A A1). rewrite SM.
    unfold push. set (s1 := match t_id t with Some _ => s | None => _ end).
    assert (M : act s1 = act s /\ q s1 = q s /\ nid s1 = nid s
       /\ (forall k l0 x, In (k, l0) (mvmap s1) -> In x l0 -> k = m /\ x = nid s \/ (exists l', In (k, l') (mvmap s) /\ In x l'))
       /\ (forall k x, In x (mvl (mvmap s) k) -> In x (mvl (mvmap s1) k)) /\ (t_id t = None -> In (nid s) (mvl (mvmap s1) m))).
    { subst s1. destruct (t_id t). repeat split; eauto; discriminate.
      cbn [act q nid mvmap set_mvmap]. repeat split.
      - intros k l0 x [X | X] Y.
        + inversion X; subst. destruct Y as [-> | Y]; auto. apply mvl_in in Y. auto.
        + apply filter_In in X as [X _]. eauto.
      - intros k x X. destruct (N.eq_dec m k) as [-> | MK].
        + unfold mvl at 1. cbn. rewrite N.eqb_refl. cbn. auto.
        + rewrite <- (mvl_filter _ _ _ MK) in X. unfold mvl at 1. cbn. destruct (N.eqb_spec m k); [ congruence | ]. exact X.
      - intros _. unfold mvl. cbn. rewrite N.eqb_refl. cbn. auto. }
    destruct M as (M1 & M2 & M3 & M4 & M5 & M6). clearbody s1. cbn [fst snd].
    set (x0 := P (nid s1) _ _ _).
    match goal with |- InvM (act ?x) (q ?x) (mvmap ?x) (nid ?x) _ => assert (CC : same_core (set_nid (set_q s1 (q s1 ++ [x0])) (N.succ (nid s1))) x) by (destruct l; [ destruct p | ]; repeat split) end.
    destruct CC as (_ & -> & _ & -> & _ & -> & ->). cbn [act q mvmap nid set_nid set_q].
    replace (see _ _ b) with (Obs (cur b) (ostop b) ((nid s1, m) :: ometer b) (ans b)) by (cbn; rewrite C, A1; reflexivity).
    subst x0. rewrite M1, M2, M3. set (x0 := P (nid s) _ _ _).
    assert (NS : ~ is_start x0) by (intros X; exact X).
    assert (W' : forall k, waits (q s ++ [x0]) k -> waits (q s) k) by (intros k W; apply waits_app in W as [W | [W _]]; auto; contradiction).
    assert (IM := m_om _ _ _ _ _ J).
    destruct J. constructor; cbn [cur ostop ometer ans].
    + intros x X S. apply in_q_app in X as [X | ->]; auto.
    + intros x X M i. apply in_q_app in X as [X | ->].
      * rewrite (m_id0 x X M i). split; intros [k [K1 K2]]; exists k; split; cbn [In ometer ans] in *; auto.
        destruct K1 as [K1 | K1]; auto. inversion K1. assert (p_init x < nid s)%N by (apply (i_small _ _ _ _ _ _ _ _ I x X)). lia.
      * cbn [ometer ans x0 meter_id p_body p_init]. unfold meter_id. cbn [x0 p_body ometer ans In p_init]. rewrite <- A7. split.
        -- intros X. exists m. auto.
        -- intros [k [[K | K] X]]; [ inversion K; subst; auto | ]. apply IM in K. lia.
    + intros x k X M O W. apply W' in W. apply in_q_app in X as [X | ->].
      * destruct O as [O | O]. inversion O. assert (p_init x < nid s)%N by (apply (i_small _ _ _ _ _ _ _ _ I x X)). lia. apply M5. eauto.
      * cbn [x0 p_init p_mid] in *. destruct O as [O | O]; [ | apply IM in O; lia ]. inversion O; subst k. apply M6.
        destruct (t_id t) as [i | ] eqn:TI; auto. exfalso. assert (Y : In (m, i) (ans b)) by (now apply A7). apply (i_ans _ _ _ _ _ _ _ _ I) in Y as [_ Y]. auto.
    + intros k l0 x y K L X E. cbn [In]. apply in_q_app in X as [X | ->].
      * destruct (M4 k l0 x K L) as [[-> ->] | [l' [K' L']]]. assert (p_mid y < nid s)%N by (apply (i_small _ _ _ _ _ _ _ _ I y X)). lia. right. eauto.
      * cbn [x0 p_init p_mid] in *. destruct (M4 k l0 x K L) as [[-> ->] | [l' [K' L']]]; auto. destruct (i_mv _ _ _ _ _ _ _ _ I k l' x K' L'). lia.
    + intros k k' [X | X]. inversion X; subst. pose proof (i_cur_small _ _ _ _ _ _ _ _ I c _ A1). lia. apply IM in X. lia.
    + intros k k1 k2 [X | X] [Y | Y]; try (inversion X; subst); try (inversion Y; subst); auto; eauto.
      apply IM in Y. lia. apply IM in X. lia.
    + eauto.
    + intros k W. apply W' in W. destruct (m_owner0 k W) as [D | [x (X1 & X2 & X3)]]; auto. right. exists x. rewrite in_q_app. auto.
  - destruct p; [ exact J | ]. unfold push. cbn [fst snd act q mvmap nid set_nid set_q].
    assert (CN : cur b c = None). { destruct (cur b c) as [m | ] eqn:CB; auto. exfalso. eapply (i_cur _ _ _ _ _ _ _ _ I); eauto. }
    replace (see _ _ b) with b by (cbn; rewrite CN; now destruct (0 <? c)). set (x0 := P (nid s) _ _ _).
    assert (NS : ~ is_start x0) by (intros X; exact X).
    assert (W' : forall k, waits (q s ++ [x0]) k -> waits (q s) k) by (intros k W; apply waits_app in W as [W | [W _]]; auto; contradiction).
    assert (IM := m_om _ _ _ _ _ J).
    destruct J. constructor.
    + intros x X S. apply in_q_app in X as [X | ->]; auto.
    + intros x X M i. apply in_q_app in X as [X | ->]. now apply m_id0. unfold meter_id. cbn. split. discriminate.
      intros [k [K _]]. apply IM in K. lia.
    + intros x k X M O W. apply W' in W. apply in_q_app in X as [X | ->]; eauto. cbn in O. apply IM in O. lia.
    + intros k l0 x y K L X E. apply in_q_app in X as [X | ->]; eauto. cbn in E. destruct (i_mv _ _ _ _ _ _ _ _ I k l0 x K L). lia.
    + intros k k' X. apply IM in X. lia.
    + auto.
    + eauto.
    + intros k W. apply W' in W. destruct (m_owner0 k W) as [D | [x (X1 & X2 & X3)]]; auto. right. exists x. rewrite in_q_app. auto.
Qed.
(** The first message is sent. *)
Lemma m_send : forall act q0 p0 p r mv nid b tm, InvM act q0 mv nid b -> q0 = p0 :: r ->
  (forall i, look tm (p_mid p0) = Some i -> is_stop p0) ->
  forall tm', (look tm (p_mid p0) = None /\ p = p0 /\ tm' = tm
      \/ exists i, look tm (p_mid p0) = Some i /\ p = P (p_mid p0) (set_id i (p_body p0)) (p_init p0) (p_orig p0)
                   /\ tm' = filter (fun e => negb (N.eqb (fst e) (p_mid p0))) tm) ->
  InvM act (p :: r) mv nid b.
Proof.
  intros act q0 p0 p r mv nid b tm J Q HS tm' [(_ & -> & _) | (i & L & -> & _)]; [ now rewrite <- Q | ]. subst q0.
  specialize (HS i L). set (p := P _ _ _ _).
  assert (SP : is_stop p) by (unfold is_stop in *; cbn; destruct (p_body p0); auto).
  assert (NS : ~ is_start p) by (unfold is_stop, is_start in *; destruct (p_body p); tauto).
  assert (NS0 : ~ is_start p0) by (unfold is_stop, is_start in *; destruct (p_body p0); tauto).
  assert (NM := stop_not_meter p SP).
  assert (W : forall m, waits (p :: r) m -> waits (p0 :: r) m).
  { intros m [x ([<- | X] & S & E)]. contradiction. exists x. cbn; auto. }
  destruct J. constructor; auto.
  - intros x [<- | X] S. contradiction. apply m_start0; auto. now right.
  - intros x [<- | X]. intros M. contradiction. apply m_id0. now right.
  - intros x m [<- | X] M. contradiction. intros O Y. apply m_wait0; auto. now right.
  - intros k l x y K L' [<- | Y] E. apply (m_mv0 k l x p0); auto. now left. apply (m_mv0 k l x y); auto. now right.
  - intros m Y. destruct (m_owner0 m (W m Y)) as [D | [x ([<- | X1] & X2 & X3)]]; auto; right; [ exists p | exists x ]; cbn; auto.
Qed.
Lemma m_drop_head : forall s b p r, inv s b -> q s = p :: r -> InvM (act s) (p :: r) (mvmap s) (nid s) b -> InvM (act s) r (mvmap s) (nid s) b.
Proof.
  intros s b p r I Q J. apply m_remove with (q := p :: r); auto. intros x; cbn; auto.
  unfold inv in I. rewrite Q in I.
  intros x m [-> | X] S O [y (A & B & C)]; auto. exfalso.
  apply (i_ostop _ _ _ _ _ _ _ _ I) in O. assert (p_init x < p_init y)%N by (eapply head_first; eauto; apply I). lia.
Qed.
Lemma m_start_conf : forall s b p r tid ok parent sinv, invm s b -> q s = p :: r -> is_start p ->
  invm (fst (start_conf (p_mid p) tid ok parent sinv (set_q s r))) (Obs (cur b) (ostop b) (ometer b) ((p_init p, tid) :: ans b)).
Proof.
  intros s b p r tid ok parent sinv [I J] Q PS. split. now apply start_conf_inv.
  assert (F := find_start s b p r I Q PS).
  assert (I' := I). unfold inv in I'. rewrite Q in I'. rewrite Q in J.
  assert (AE : forall s', n s' = n s -> act s' = act s -> active_with (p_mid p) s' = active_with (p_mid p) s) by (intros; now apply active_with_ext).
  assert (MI : p_mid p = p_init p) by (apply (m_start _ _ _ _ _ J); cbn; auto).
  assert (G : exists act', (forall c t', act' c = Some t' -> exists t, act s c = Some t /\ t_smid t' = t_smid t)
      /\ let s' := fst (start_conf (p_mid p) tid ok parent sinv (set_q s r)) in
         act s' = act' /\ nid s' = nid s /\ q s' = q (notify_handled (p_mid p) tid (set_q s r)) /\ mvmap s' = mvmap (notify_handled (p_mid p) tid (set_q s r))).
  { unfold start_conf, get_tx. rewrite (AE (set_q s r)) by reflexivity. cbn [act stopped set_q].
    destruct (active_with (p_mid p) s) as [c | ] eqn:AW.
    - destruct F as [t (A & B & C & D & E)]. rewrite A. exists (upd (act s) c (Some (renamed tid t))). split.
      + intros d u. unfold upd. destruct (Z.eqb_spec d c); subst; intros X; eauto. inversion X; subst. exists t. auto.
      + destruct (i_act _ _ _ _ _ _ _ _ I' c t A) as [m (A1 & A2 & A3 & _)]. rewrite A3. cbn [fst]. unfold change_tx.
        rewrite (AE (notify_handled _ _ _)) by reflexivity. cbn. rewrite A. repeat split.
    - destruct F as (NA & NC & F). exists (act s). split; [ eauto | ].
      destruct (find (has_mid (p_mid p)) (stopped s)) as [t | ] eqn:FS.
      + destruct F as (F1 & [e (F2 & _)] & F6 & _). rewrite F6, F2. cbn [fst]. unfold change_tx.
        rewrite (AE (notify_handled _ _ _)) by reflexivity. repeat split.
      + exfalso. destruct (m_owner _ _ _ _ _ J (p_init p)) as [[d D] | [x ([<- | X] & S & O)]]. exists p; cbn; auto. now apply NC in D.
        unfold is_start, is_stop in *. destruct (p_body p); contradiction.
        destruct (i_stop _ _ _ _ _ _ _ _ I' x (or_intror X) S) as [m (O' & W & _)].
        assert (m = p_init p) by (eapply (i_ostop_fun _ _ _ _ _ _ _ _ I'); eauto). subst m.
        destruct W as [u (U1 & U2 & _)]. exists p; cbn; auto. apply (F u U1). symmetry. apply U2; cbn; auto. }
  destruct G as [act' [G1 (G2 & G3 & G4 & G5)]]. rewrite G2, G3, G4, G5. clear G2 G3 G4 G5.
  assert (D := m_drop_head s b p r I Q J).
  assert (NW : ~ waits r (p_init p)).
  { intros [x (A & B & C)]. assert (p_init p < p_init x)%N by (eapply head_first; eauto; apply I'). lia. }
  assert (WP : waits (p :: r) (p_init p)) by (exists p; cbn; auto).
  assert (NA : forall i, ~ In (p_init p, i) (ans b)) by (intros i X; apply (i_ans _ _ _ _ _ _ _ _ I') in X as [_ X]; auto).
  unfold notify_handled. cbn [q mvmap set_mvmap set_q]. change (match find (fun e => N.eqb (fst e) (p_mid p)) (mvmap s) with Some e => snd e | None => [] end) with (mvl (mvmap s) (p_mid p)).
  rewrite MI. set (f := fun p0 : pend => if existsb (N.eqb (p_mid p0)) (mvl (mvmap s) (p_init p)) then _ else p0).
  assert (FE : forall x, p_mid (f x) = p_mid x /\ p_init (f x) = p_init x /\ (is_meter (f x) <-> is_meter x) /\ (is_start (f x) <-> is_start x) /\ (is_stop (f x) <-> is_stop x)).
  { intros x. unfold f. destruct (existsb _ _); cbn; [ | tauto ]. unfold is_meter, is_start, is_stop. cbn. destruct (p_body x); cbn; tauto. }
  assert (W : forall m, waits (map f r) m <-> waits r m).
  { intros m. split; intros [x (A & B & C)].
    - apply in_map_iff in A as [y [<- A]]. exists y. destruct (FE y) as (E1 & E2 & E3 & E4 & E5). rewrite <- E2, <- E4. auto.
    - exists (f x). destruct (FE x) as (E1 & E2 & E3 & E4 & E5). rewrite E2, E4. split; auto. now apply in_map. }
  assert (JW := m_wait _ _ _ _ _ J). assert (JM := m_mv _ _ _ _ _ J). assert (JF := m_om_fun _ _ _ _ _ J).
  destruct D. constructor; cbn [cur ostop ometer ans].
  - intros x X S. apply in_map_iff in X as [y [<- X]]. destruct (FE y) as (E1 & E2 & E3 & E4 & E5). rewrite E1, E2. apply m_start0; auto. now apply E4.
  - intros x X M i. apply in_map_iff in X as [y [<- X]]. destruct (FE y) as (E1 & E2 & E3 & E4 & E5). rewrite E2. apply E3 in M.
    specialize (m_id0 y X M). unfold f. destruct (existsb (N.eqb (p_mid y)) (mvl (mvmap s) (p_init p))) eqn:EX.
    + apply existsb_exists in EX as [k [K E]]. apply N.eqb_eq in E. subst k. apply mvl_in in K as [l [K L]].
      assert (O : In (p_init y, p_init p) (ometer b)) by (eapply JM; eauto; now right).
      unfold meter_id at 1. cbn [p_body]. unfold is_meter in M. destruct (p_body y); try contradiction. cbn. split.
      * intros Z. inversion Z; subst. exists (p_init p). cbn; auto.
      * intros [m [O' [Z | Z]]]. now inversion Z. assert (m = p_init p) by (eapply JF; eauto). subst. now apply NA in Z.
    + rewrite m_id0. split; intros [m [O Z]]; exists m; split; auto. now right. destruct Z as [Z | Z]; auto. inversion Z; subst.
      exfalso. assert (In (p_mid y) (mvl (mvmap s) (p_init p))) by (apply JW; auto; now right).
      assert (existsb (N.eqb (p_mid y)) (mvl (mvmap s) (p_init p)) = true) by (apply existsb_exists; eexists; split; eauto; apply N.eqb_refl). congruence.
  - intros x m X M O Y. apply W in Y. apply in_map_iff in X as [y [<- X]]. destruct (FE y) as (E1 & E2 & E3 & E4 & E5). rewrite E1, E2 in *. apply E3 in M.
    rewrite mvl_filter by (intros E; subst m; contradiction). eauto.
  - intros k l x y K L X E. apply filter_In in K as [K _]. apply in_map_iff in X as [z [<- X]]. destruct (FE z) as (E1 & E2 & E3 & E4 & E5). rewrite E1, E2 in *. eauto.
  - auto.
  - auto.
  - intros c t m A C. destruct (G1 c t A) as [t' [A' ->]]. eauto.
  - intros m Y. apply W in Y. destruct (m_owner0 m Y) as [Z | [x (X1 & X2 & X3)]]; auto. right. exists (f x).
    destruct (FE x) as (E1 & E2 & E3 & E4 & E5). rewrite E2, E5. split; auto. now apply in_map.
Qed.
Lemma m_stop_conf : forall s b p r id, invm s b -> q s = p :: r -> invm (fst (stop_conf (p_mid p) id (set_q s r))) b.
Proof.
  intros s b p r id [I J] Q. split. eapply stop_conf_inv; eauto. rewrite Q in J. assert (D := m_drop_head s b p r I Q J).
  assert (H : forall s' : st, act s' = act s -> q s' = r -> mvmap s' = mvmap s -> nid s' = nid s -> InvM (act s') (q s') (mvmap s') (nid s') b).
  { intros s' -> -> -> ->. auto. }
  unfold stop_conf. set (s0 := set_q s r).
  assert (C1 : same_core s0 (fst (match get_tx (p_mid p) s0 with Some t => execute_queued (t_conn t) s0 | None => (s0, []) end))).
  { destruct (get_tx _ _); [ apply queued_core | apply core_refl ]. }
  destruct (match get_tx (p_mid p) s0 with Some t => execute_queued (t_conn t) s0 | None => (s0, []) end) as [s1 o1]. cbn [fst] in C1.
  destruct C1 as (C1 & C2 & C3 & C4 & C5 & C6 & C7).
  destruct (fw _); cbn [fst all_unavailable]; apply H; cbn [act q mvmap nid set_avq set_stopped ack_rows set_rows]; auto.
Qed.
Lemma m_knows : forall act p r mv nid b, InvM act (p :: r) mv nid b -> knows b p.
Proof. intros act p r mv nid b J. apply (m_id _ _ _ _ _ J). now left. Qed.
Lemma m_deliver : forall s b tid ok parent i, invm s b ->
  invm (fst (deliver tid ok parent i s)) (see (Deliver tid ok parent i) (snd (deliver tid ok parent i s)) b)
  /\ forall p, In (OSend p) (snd (deliver tid ok parent i s)) -> knows b p.
Proof.
  intros s b tid ok parent i [I M]. unfold deliver. destruct (q s) as [ | p0 r ] eqn:Q. split; [ split; auto; cbn [fst]; now rewrite Q | intros p [] ].
  assert (H := send_head_eq p0 (set_q s r)). destruct (send_head p0 (set_q s r)) as [s1 p].
  destruct H as (H1 & H2 & H3 & H4 & H5 & H6 & H7 & H8). cbn [n act stopped q txmap mvmap nid set_q] in *.
  assert (I' := I). unfold inv in I'. rewrite Q in I'.
  destruct (send_inv _ _ _ _ _ _ _ _ _ I' p (txmap s1) H8) as (J & JL & JM & JI & JS).
  assert (MA : InvM (act s) (p :: r) (mvmap s) (nid s) b).
  { eapply m_send; eauto. intros j L. eapply (i_tm _ _ _ _ _ _ _ _ I'); eauto. now left. }
  assert (IA : invm (set_q s1 (p :: r)) b) by (split; unfold inv; cbn [n act stopped q txmap mvmap nid set_q]; rewrite ?H1, ?H2, ?H3, ?H5, ?H6; auto).
  assert (T : knows b p) by (eapply m_knows; eauto).
  assert (Q1 : s1 = set_q (set_q s1 (p :: r)) r) by (destruct s1; cbn in H4; subst; reflexivity).
  assert (ONE : forall o, Forall quiet o -> (forall p', In (OSend p') (OSend p :: o) -> knows b p')).
  { intros o F p' [X | X]. inversion X; subst; auto. rewrite Forall_forall in F. now apply F in X. }
  destruct (p_body p) eqn:B.
  - assert (SP : is_start p) by (unfold is_start; now rewrite B).
    assert (K := m_start_conf (set_q s1 (p :: r)) b p r tid ok parent i IA eq_refl SP). rewrite <- Q1 in K.
    assert (Z := start_conf_quiet (p_mid p) tid ok parent i s1).
    destruct (start_conf (p_mid p) tid ok parent i s1) as [s2 o]. cbn [fst snd] in *. split; [ | eauto ].
    change (see (Deliver tid ok parent i) (OSend p :: o) b) with (see (Deliver tid ok parent i) o (see1 (Deliver tid ok parent i) (OSend p) b)).
    rewrite see_quiet by auto. destruct p as [pm pb pi po]. cbn in B. subst pb. exact K.
  - assert (K := m_stop_conf (set_q s1 (p :: r)) b p r id IA eq_refl). rewrite <- Q1 in K.
    assert (Z := stop_conf_quiet (p_mid p) id s1).
    destruct (stop_conf (p_mid p) id s1) as [s2 o]. cbn [fst snd] in *. split; [ | eauto ].
    change (see (Deliver tid ok parent i) (OSend p :: o) b) with (see (Deliver tid ok parent i) o (see1 (Deliver tid ok parent i) (OSend p) b)).
    rewrite see_quiet by auto. destruct p as [pm pb pi po]. cbn in B. subst pb. exact K.
  - cbn [fst snd]. split; [ | intros p' [X | []]; inversion X; subst; auto ].
    replace (see _ _ b) with b by (destruct p as [pm pb pi po]; cbn in B; subst pb; reflexivity).
    assert (MB := m_drop_head (set_q s1 (p :: r)) b p r (proj1 IA) eq_refl (proj2 IA)). split; [ | rewrite H4; exact MB ].
    unfold inv. rewrite H1, H2, H3, H4, H5, H6. eapply drop_head_inv. exact J.
Qed.
Lemma m_sent : forall s b, invm s b -> invm (fst (sent s)) b /\ forall p, In (OSend p) (snd (sent s)) -> knows b p.
Proof.
  intros s b [I M]. assert (SI := sent_inv s b I). destruct SI as [SI _]. unfold sent in *. destruct (q s) as [ | p0 r ] eqn:Q. split; [ split; auto; cbn [fst]; now rewrite Q | intros p [] ].
  assert (H := send_head_eq p0 s). destruct (send_head p0 s) as [s1 p].
  destruct H as (H1 & H2 & H3 & H4 & H5 & H6 & H7 & H8). assert (I' := I). unfold inv in I'. rewrite Q in I'.
  assert (MA : InvM (act s) (p :: r) (mvmap s) (nid s) b).
  { eapply m_send; eauto. intros j L. eapply (i_tm _ _ _ _ _ _ _ _ I'); eauto. now left. }
  cbn [fst snd]. split.
  - split; auto. cbn [act q mvmap nid set_q]. now rewrite H2, H5, H6.
  - intros p' [X | []]. inversion X; subst. eapply m_knows; eauto.
Qed.
Lemma m_give_up : forall s b, invm s b -> invm (fst (give_up s)) b /\ forall p, In (OSend p) (snd (give_up s)) -> knows b p.
Proof.
  intros s b [I M]. assert (SI := give_up_inv s b I). destruct SI as [SI _]. unfold give_up in *. destruct (q s) as [ | p0 r ] eqn:Q. split; [ split; auto; cbn [fst]; now rewrite Q | intros p [] ].
  assert (H := send_head_eq p0 (set_q s r)). destruct (send_head p0 (set_q s r)) as [s1 p].
  destruct H as (H1 & H2 & H3 & H4 & H5 & H6 & H7 & H8). cbn [n act stopped q txmap mvmap nid set_q] in *. assert (I' := I). unfold inv in I'. rewrite Q in I'.
  assert (MA : InvM (act s) (p :: r) (mvmap s) (nid s) b).
  { eapply m_send; eauto. intros j L. eapply (i_tm _ _ _ _ _ _ _ _ I'); eauto. now left. }
  cbn [fst snd]. split.
  - split; auto. rewrite H2, H4, H5, H6. apply m_remove with (q := p0 :: r); auto. intros x; cbn; auto.
    intros x m [-> | X] S O [y (A & B & C)]; auto. exfalso.
    apply (i_ostop _ _ _ _ _ _ _ _ I') in O. assert (p_init x < p_init y)%N by (eapply head_first; eauto; apply I'). lia.
  - intros p' [X | []]. inversion X; subst. eapply m_knows; eauto.
Qed.
Lemma m_retry : forall s b, invm s b -> (forall p, In (OSend p) (snd (retry s)) -> ~ is_start p) ->
  invm (fst (retry s)) b /\ forall p, In (OSend p) (snd (retry s)) -> knows b p.
Proof.
  intros s b [I M] NR. assert (SI := retry_step_inv s b I). destruct SI as [SI _]. unfold retry in *. destruct (q s) as [ | p0 r ] eqn:Q. split; [ split; auto; cbn [fst]; now rewrite Q | intros p [] ].
  assert (H := send_head_eq p0 s). destruct (send_head p0 s) as [s1 p].
  destruct H as (H1 & H2 & H3 & H4 & H5 & H6 & H7 & H8). assert (I' := I). unfold inv in I'. rewrite Q in I'.
  destruct (send_inv _ _ _ _ _ _ _ _ _ I' p (txmap s1) H8) as (J & JL & JM & JI & JS).
  assert (MA : InvM (act s) (p :: r) (mvmap s) (nid s) b).
  { eapply m_send; eauto. intros j L. eapply (i_tm _ _ _ _ _ _ _ _ I'); eauto. now left. }
  cbn [fst snd] in *. split.
  2: { intros p' [X | []]. inversion X; subst. eapply m_knows; eauto. }
  split; auto. clear SI. assert (NS : ~ is_start p) by (apply NR; now left).
  match goal with |- InvM (act ?x) _ _ _ _ => assert (EQ : x = set_nid (set_q s1 (P (nid s1) (p_body p) (p_init p) (p_orig p) :: r)) (N.succ (nid s1))) end.
  { unfold is_start in NS. destruct (p_body p); auto. tauto. }
  rewrite EQ. clear EQ. cbn [act q mvmap nid set_q set_nid]. rewrite H2, H5, H6. set (p' := P _ _ _ _).
  assert (W : forall m, waits (p' :: r) m -> waits (p :: r) m).
  { intros m [x ([<- | X] & S & E)]. contradiction. exists x. cbn; auto. }
  assert (HM : forall m, waits (p :: r) m -> (p_init p < m)%N).
  { intros m [x ([<- | X] & S & E)]. contradiction. subst m. eapply head_first; eauto. apply J. }
  destruct MA. constructor; auto.
  - intros x [<- | X] S. contradiction. apply m_start0; auto. now right.
  - intros x [<- | X]. apply (m_id0 p). now left. apply m_id0. now right.
  - intros x m [<- | X] Y O Z. apply W, HM in Z. apply m_om0 in O. cbn in *. lia. apply m_wait0; auto. now right.
  - intros k l x y K L [<- | Y] E. cbn in E. destruct (i_mv _ _ _ _ _ _ _ _ I' k l x K L). lia. eapply m_mv0; eauto. now right.
  - intros k m X. apply m_om0 in X. lia.
  - intros m Y. destruct (m_owner0 m (W m Y)) as [D | [x ([<- | X1] & X2 & X3)]]; auto; right; [ exists p' | exists x ]; cbn; auto.
Qed.
Lemma m_discard : forall s b mid, invm s b -> invm (fst (discard mid s)) b.
Proof.
  intros s b mid [I M]. split. now apply discard_inv. cbn [discard fst act q mvmap nid set_q]. apply m_remove with (q := q s); auto.
  - intros p X. now apply filter_In in X.
  - intros p m X S _ _. apply filter_In. split; auto. unfold is_stop in S. destruct (p_body p); try contradiction. now rewrite andb_false_r.
Qed.
Lemma m_step : forall o s b, invm s b -> fine1 o b ->
  (o = Retry -> forall p, In (OSend p) (snd (step o s)) -> ~ is_start p) ->
  invm (fst (step o s)) (see o (snd (step o s)) b) /\ forall p, In (OSend p) (snd (step o s)) -> knows b p.
Proof.
  intros o s b IM F NR. destruct (step_inv o s b (proj1 IM) F) as [SI ST]. revert SI ST NR. unfold step. destruct (dead s).
  { destruct o; try contradiction; cbn [fst snd]; intros _ _ _; split; auto; intros p []. }
  destruct o; intros SI ST NR; try (rewrite see_other by exact Logic.I); try contradiction.
  - destruct F as [F1 F2]. split. now apply m_started. unfold started, push. destruct (in_range s c); cbn [snd]; intros p; cbn [app In]; intuition discriminate.
  - split. now apply m_stop. unfold stop. destruct (in_range s c); [ | cbn; intuition discriminate ]. destruct (act s c); [ | intros p []; fail ].
    unfold stop_transaction, push. cbn [snd]. intros p. rewrite !in_app_iff. destruct why, unlock; cbn; intuition discriminate.
  - split. now apply m_meter. unfold meter, push. destruct (in_range s c); [ | cbn; intuition discriminate ]. destruct (act s c).
    destruct (periodic && _). intros p []. cbn. intuition discriminate. destruct periodic; cbn; intuition discriminate.
  - now apply m_deliver.
  - now apply m_sent.
  - apply m_retry; auto.
  - now apply m_give_up.
  - split. now apply m_discard. intros p [].
  - split. eapply m_core; [ apply avail_core | auto ]. intros p X. exfalso. revert X. generalize p.
    enough (Q : Forall quiet (snd (change_availability c up prep s))) by (intros p' X; rewrite Forall_forall in Q; now apply Q in X).
    unfold change_availability, preprocess. destruct (_ && _); cbn; [ | repeat constructor ].
    destruct (filter _ _); cbn; constructor; try exact Logic.I; match goal with |- Forall quiet (flat_map _ ?l) => pose proof (execute_quiet l up true s) as X end; exact X.
  - split. eapply m_core; [ apply queued_core | auto ]. intros p X. exfalso. revert X. unfold execute_queued. destruct (avq s c) as [[u v] | ]; [ | intros [] ].
    intros X. pose proof (execute_quiet [c] u v (set_avq s (upd (avq s) c None))) as Q. rewrite Forall_forall in Q. now apply Q in X.
  - split. eapply m_core; [ apply firmware_core | auto ]. intros p X. exfalso. revert X. unfold firmware.
    assert (QQ : forall s' : st, ~ In (OSend p) (if fw_ends x then flat_map (fun c => if avdb s' c then (if c =? 0 then [OZero true] else []) ++ [OEnable c] else []) (slots s') else [])).
    { intros s' X. destruct (fw_ends x); [ | contradiction ]. apply in_flat_map in X as [c [_ X]]. destruct (avdb s' c), (c =? 0); cbn in X; intuition discriminate. }
    destruct (fw_next signed x (fw s)) as [[ | ] | ]; cbn [fst snd]; try (pose proof (all_quiet (set_fw s true)) as AQ; destruct (all_unavailable (set_fw s true)));
      cbn [fst snd] in *; rewrite in_app_iff; intros [X | X]; try contradiction; try (now apply QQ in X); rewrite Forall_forall in AQ; now apply AQ in X.
  - split; auto. intros p. unfold remote_stop. cbn [snd]. destruct (0 <? _); cbn; intuition discriminate.
  - split; auto. intros p. unfold remote_start. cbn [snd].
    destruct (match c with Some i => (i <=? 0) || (n s <? i) | None => false end); [ cbn; intuition discriminate | ].
    destruct (any_obtainable _ _ _ _); [ | cbn; intuition discriminate ]. destruct profile as [[v x] | ]; [ | cbn; intuition discriminate ]. destruct c; [ | cbn; intuition discriminate ].
    destruct (x && v); cbn; intuition discriminate.
  - split; auto. intros p. unfold unlock. cbn [snd].
    destruct (negb _); cbn; [ destruct answer | ]; destruct (in_range s c); try destruct (active s c && stopif); cbn; intuition discriminate.
  - split; auto. intros p. unfold reset, stop_all. cbn [snd]. destruct allowed; cbn [In]; [ | intuition discriminate ]. rewrite in_map_iff. intros [X | [c [X _]]]; discriminate.
  - unfold change_interval in *. destruct (existsb _ _); cbn [fst snd]; split; auto; try (eapply m_core; [ | exact IM ]; repeat split); intros p; cbn; intuition discriminate.
Qed.
Lemma m_run : forall h s b, invm s b -> fine (events h s) b -> no_start_retry (events h s) -> invm (fst (run h s)) (watch (events h s) b).
Proof.
  induction h as [ | o h IH ]; intros s b I F NR; auto. cbn [events fine] in F. destruct F as [F1 F2].
  destruct (m_step o s b I F1) as [I1 _].
  { intros -> p X S. unfold is_start in S. destruct p as [pm pb pi po]. cbn in S. destruct pb; try contradiction. eapply NR; [ left; reflexivity | exact X ]. }
  assert (NR' : no_start_retry (events h (fst (step o s)))) by (intros x m c tag w t r i g X; apply (NR x m c tag w t r i g); now right).
  cbn [events watch fold_left fst snd run] in *. specialize (IH _ _ I1 F2 NR'). destruct (step o s) as [s1 o1]. cbn [fst snd] in *. destruct (run h s1) as [s2 o2]. auto.
Qed.
