From Coq Require Import ZArith NArith List Bool Lia Sorting.Sorted.
From Verif Require Import T16Model T16Spec T16Proofs T16Proofs2 T16Proofs3 T16Proofs4.
Import ListNotations.
Local Open Scope Z_scope.

(** ** Loss of power *)
Definition idof (t : tx) : Z := match t_id t with Some i => i | None => t_iid t end.
Definition orig_id (p : pend) : option Z := match p_orig p with BStop i _ _ _ _ => Some i | _ => None end.
Record InvR (s : st) (u : list Z) (se : list N) (g : Z -> stamp) : Prop := {
  r_sess : NoDup (map w_sess (rows s));
  r_seen : forall w, In w (rows s) -> In (w_sess w) se;
  r_tids : NoDup (map w_tid (rows s));
  r_tused : forall w, In w (rows s) -> In (w_tid w) u;
  r_row : forall c t, act s c = Some t -> exists w, In w (rows s) /\ w_sess w = t_sess t /\ w_ack w = false /\ w_tid w = idof t /\ w_end w = None /\ w_conn w = c /\ w_last w = g c;
  r_two : forall c d t v, act s c = Some t -> act s d = Some v -> c <> d -> t_sess t <> t_sess v;
  r_stp : forall c t v, act s c = Some t -> In v (stopped s) -> t_sess v <> t_sess t;
  r_sseen : forall v, In v (stopped s) -> In (t_sess v) se;
  r_q : forall p i, In p (q s) -> stop_id p = Some i \/ orig_id p = Some i -> In i u /\ forall c t, act s c = Some t -> i <> idof t;
  r_tm : forall k i, In (k, i) (txmap s) -> In i u /\ forall c t, act s c = Some t -> i <> idof t
}.
Lemma r_initial : forall n u se g, InvR (initial n) u se g.
Proof. intros. constructor; cbn; try constructor; try contradiction; try discriminate. Qed.
Lemma r_ids : forall s u se g, InvR s u se g -> forall c d t v, act s c = Some t -> act s d = Some v -> c <> d -> idof t <> idof v.
Proof.
  intros s u se g I c d t v A B N E. destruct (r_row _ _ _ _ I c t A) as [w (W1 & W2 & W3 & W4 & _)]. destruct (r_row _ _ _ _ I d v B) as [x (X1 & X2 & X3 & X4 & _)].
  apply (r_two _ _ _ _ I c d t v A B N). rewrite <- W2, <- X2. f_equal.
  pose proof (r_tids _ _ _ _ I) as ND. revert ND W1 X1. assert (F : w_tid w = w_tid x) by congruence. revert F. generalize (rows s). clear.
  induction l as [ | a l IH ]; cbn; intros F ND W X. contradiction. inversion ND; subst. destruct W as [-> | W], X as [-> | X]; auto; exfalso; apply H1.
  rewrite F. now apply in_map. rewrite <- F. now apply in_map.
Qed.
(** Changes outside of the tables, the queue and the transactions. *)
Lemma r_core : forall s s' u se g, act s' = act s -> stopped s' = stopped s -> rows s' = rows s -> q s' = q s -> txmap s' = txmap s -> InvR s u se g -> InvR s' u se g.
Proof.
  intros s s' u se g A B C D E I. destruct I. constructor; rewrite ?A, ?B, ?C, ?D, ?E; auto.
Qed.
Lemma r_grow : forall s u u' se se' g, InvR s u se g -> incl u u' -> incl se se' -> InvR s u' se' g.
Proof.
  intros s u u' se se' g I U S. destruct I. constructor; auto.
  - intros p i P X. destruct (r_q0 p i P X). auto.
  - intros k i X. destruct (r_tm0 k i X). auto.
Qed.
(** Fewer messages, or messages with the ids known. *)
Lemma r_queue : forall s s' u se g, act s' = act s -> stopped s' = stopped s -> rows s' = rows s ->
  (forall p i, In p (q s') -> stop_id p = Some i \/ orig_id p = Some i -> (exists p', In p' (q s) /\ (stop_id p' = Some i \/ orig_id p' = Some i)) \/ (exists k, In (k, i) (txmap s))) ->
  (forall k i, In (k, i) (txmap s') -> In (k, i) (txmap s)) -> InvR s u se g -> InvR s' u se g.
Proof.
  intros s s' u se g A B C D E I. destruct I. constructor; rewrite ?A, ?B, ?C; auto.
  - intros p i P X. destruct (D p i P X) as [[p' [P' X']] | [k K]]; eauto.
  - intros k i X. eauto.
Qed.
Lemma at_row_sess : forall sess f l, (forall w, w_sess (f w) = w_sess w) -> map w_sess (map (fun w => if N.eqb (w_sess w) sess then f w else w) l) = map w_sess l.
Proof. intros sess f l F. rewrite map_map. apply map_ext. intros w. destruct (N.eqb _ _); auto. Qed.

Lemma r_started : forall s u se g c sess tag wh resv time iid, InvR s u se g -> 0 < c -> act s c = None -> ~ In iid u -> ~ In sess se ->
  InvR (fst (started c sess tag wh resv time iid s)) (iid :: u) (sess :: se) (fun d => if d =? c then Stamp time (clamp32 wh) else g d).
Proof.
  intros s u se g c sess tag wh resv time iid I C A NI NS.
  assert (S1 : forall d v, act s d = Some v -> In (t_sess v) se).
  { intros d v D. destruct (r_row _ _ _ _ I d v D) as [w (W1 & W2 & _)]. rewrite <- W2. eapply r_seen; eauto. }
  assert (S2 := r_sseen _ _ _ _ I). unfold started. destruct (in_range s c).
  2: { cbn [fst]. destruct I. constructor; cbn [In]; auto.
       - intros d t D. destruct (r_row0 d t D) as [w W]. exists w. destruct (Z.eqb_spec d c); [ congruence | auto ].
       - intros p i P X. destruct (r_q0 p i P X); auto.
       - intros k i X. destruct (r_tm0 k i X); auto. }
  unfold push. cbn [fst].
  set (w := Row _ _ _ _ _ _ _ _ _ _ _ _ _ _).
  assert (E : insert_row w s = set_rows s (rows s ++ [w])).
  { unfold insert_row. destruct (existsb _ (rows s)) eqn:X; auto. exfalso. apply existsb_exists in X as [v [V E]]. apply N.eqb_eq in E. cbn in E. subst sess. apply NS. eapply r_seen; eauto. }
  rewrite E. clear E. destruct I. constructor; cbn [act stopped rows q txmap set_rows set_act set_q set_nid].
  - rewrite map_app. apply NoDup_app_one_any; auto. cbn. intros X. apply in_map_iff in X as [v [E V]]. subst sess. auto.
  - intros v V. apply in_app_iff in V as [V | [<- | []]]; cbn; auto.
  - rewrite map_app. apply NoDup_app_one_any; auto. cbn. intros X. apply in_map_iff in X as [v [E V]]. subst iid. auto.
  - intros v V. apply in_app_iff in V as [V | [<- | []]]; cbn; auto.
  - intros d t. unfold upd. destruct (Z.eqb_spec d c); intros D.
    + inversion D; subst. exists w. rewrite in_app_iff. cbn. repeat split; auto.
    + destruct (r_row0 d t D) as [v (V1 & V2)]. exists v. rewrite in_app_iff. auto.
  - intros d e t v. unfold upd. destruct (Z.eqb_spec d c), (Z.eqb_spec e c); intros D E N; try congruence.
    + inversion D; subst. cbn. intros X. apply NS. rewrite X. eauto.
    + inversion E; subst. cbn. intros X. apply NS. rewrite <- X. eauto.
    + eauto.
  - intros d t v. unfold upd. destruct (Z.eqb_spec d c); intros D V.
    + inversion D; subst. cbn. intros X. apply NS. rewrite <- X. eauto.
    + eauto.
  - intros v V. right. auto.
  - intros p i P X. apply in_q_app in P as [P | ->]; [ | cbn in X; destruct X; discriminate ].
    destruct (r_q0 p i P X) as [Y Z]. split; [ now right | ]. intros d t. unfold upd. destruct (Z.eqb_spec d c); intros D; [ | eauto ].
    inversion D; subst. cbn. intros ->. contradiction.
  - intros k i X. destruct (r_tm0 k i X) as [Y Z]. split; [ now right | ]. intros d t. unfold upd. destruct (Z.eqb_spec d c); intros D; [ | eauto ].
    inversion D; subst. cbn. intros ->. contradiction.
Qed.
Lemma r_stop : forall s u se g c why time wh tag ul, InvR s u se g -> InvR (fst (stop c why time wh tag ul s)) u se g.
Proof.
  intros s u se g c why time wh tag ul I. unfold stop. destruct (in_range s c); [ | exact I ]. destruct (act s c) as [t | ] eqn:A; [ | exact I ].
  assert (RI := r_ids _ _ _ _ I). assert (U : In (idof t) u).
  { destruct (r_row _ _ _ _ I c t A) as [w (W1 & W2 & W3 & W4 & _)]. rewrite <- W4. eapply r_tused; eauto. }
  unfold stop_transaction, push. cbn [fst]. destruct I. constructor; cbn [act stopped rows q txmap set_rows set_act set_q set_nid set_stopped at_row].
  - rewrite at_row_sess; auto.
  - intros w W. apply in_map_iff in W as [v [<- V]]. destruct (N.eqb _ _); cbn; auto.
  - rewrite map_map. erewrite map_ext; [ exact r_tids0 | ]. intros w. destruct (N.eqb _ _); auto.
  - intros w W. apply in_map_iff in W as [v [<- V]]. destruct (N.eqb _ _); cbn; auto.
  - intros d v. unfold upd. destruct (Z.eqb_spec d c); intros D; [ discriminate | ]. destruct (r_row0 d v D) as [w (W1 & W2 & W3)]. exists w. split; auto.
    apply in_map_iff. exists w. split; auto. destruct (N.eqb_spec (w_sess w) (t_sess t)) as [E | E]; auto. exfalso. apply (r_two0 d c v t); congruence.
  - intros d e v v'. unfold upd. destruct (Z.eqb_spec d c), (Z.eqb_spec e c); intros D E N; try discriminate. eauto.
  - intros d v v'. unfold upd. destruct (Z.eqb_spec d c); intros D X; [ discriminate | ]. apply in_app_iff in X as [X | [<- | []]]; [ eauto | ].
    cbn. intros E. apply (r_two0 d c v t); congruence.
  - intros v V. apply in_app_iff in V as [V | [<- | []]]; auto. cbn. destruct (r_row0 c t A) as [w (W1 & W2 & _)]. rewrite <- W2. auto.
  - intros p i P X. apply in_q_app in P as [P | ->].
    + destruct (r_q0 p i P X) as [Y Z]. split; auto. intros d v. unfold upd. destruct (Z.eqb_spec d c); intros D; [ discriminate | eauto ].
    + assert (i = idof t) by (cbn in X; destruct X as [X | X]; inversion X; reflexivity). subst i. split; auto.
      intros d v. unfold upd. destruct (Z.eqb_spec d c); intros D; [ discriminate | ]. eapply RI; eauto.
  - intros k i X. destruct (r_tm0 k i X) as [Y Z]. split; auto. intros d v. unfold upd. destruct (Z.eqb_spec d c); intros D; [ discriminate | eauto ].
Qed.
Lemma meter_not_stop : forall s v p i, In p (q s ++ [P (nid s) v (nid s) v]) -> (match v with BMeter _ _ _ => True | _ => False end) ->
  stop_id p = Some i \/ orig_id p = Some i -> (exists p', In p' (q s) /\ (stop_id p' = Some i \/ orig_id p' = Some i)) \/ (exists k, In (k, i) (txmap s)).
Proof. intros s v p i P M X. apply in_q_app in P as [P | ->]; [ eauto | ]. destruct v; try contradiction. cbn in X. destruct X; discriminate. Qed.
Lemma r_meter : forall s u se g c p v l, InvR s u se g ->
  InvR (fst (meter c p v l s)) u se (reading1 (Meter c p v l, snd (meter c p v l s)) g).
Proof.
  intros s u se g c p v l I. unfold meter. destruct (in_range s c); [ | destruct p, l; exact I ].
  destruct (act s c) as [t | ] eqn:A.
  - destruct (p && negb (t_active t && t_timer t)) eqn:EP. { destruct p; destruct l; exact I. }
    set (s1 := if 0 <? c then _ else s).
    assert (M : act s1 = act s /\ stopped s1 = stopped s /\ rows s1 = rows s /\ q s1 = q s /\ txmap s1 = txmap s /\ nid s1 = nid s).
    { subst s1. destruct (0 <? c); [ destruct (t_id t) | ]; repeat split. }
    destruct M as (M1 & M2 & M3 & M4 & M5 & M6). clearbody s1. unfold push. cbn [fst snd]. set (s2 := set_nid _ _).
    assert (I2 : InvR s2 u se g).
    { apply r_queue with (s := s); auto; subst s2; cbn [act stopped rows q txmap nid set_nid set_q]; auto.
      - rewrite M4, M6. intros x i X Y. eapply meter_not_stop; eauto. exact Logic.I.
      - rewrite M5. auto. }
    assert (A2 : act s2 = act s) by exact M1. clearbody s2.
    destruct l as [l | ]; [ | destruct p; exact I2 ]. destruct p; [ | exact I2 ]. cbn [reading1].
    destruct I2. constructor; cbn [act stopped rows q txmap set_rows at_row]; auto.
    + rewrite at_row_sess; auto.
    + intros w W. apply in_map_iff in W as [x [<- X]]. destruct (N.eqb _ _); cbn; auto.
    + rewrite map_map. erewrite map_ext; [ exact r_tids0 | ]. intros w. destruct (N.eqb _ _); auto.
    + intros w W. apply in_map_iff in W as [x [<- X]]. destruct (N.eqb _ _); cbn; auto.
    + intros d x D. destruct (r_row0 d x D) as [w (W1 & W2 & W3 & W4 & W5 & W6 & W7)]. rewrite A2 in D.
      exists (if N.eqb (w_sess w) (t_sess t) then row_meter l w else w). split; [ apply in_map_iff; exists w; auto | ].
      destruct (N.eqb_spec (w_sess w) (t_sess t)) as [E | E].
      * assert (DC : d = c). { destruct (Z.eq_dec d c); auto. exfalso. apply (r_two0 d c x t); congruence. } cbv beta. rewrite (proj2 (Z.eqb_eq d c) DC). cbn. auto 10.
      * cbv beta. destruct (Z.eqb_spec d c); [ congruence | auto 10 ].
  - destruct p; [ destruct l; exact I | ]. unfold push. cbn [fst snd reading1]. apply r_queue with (s := s); auto; cbn [q txmap set_nid set_q]; auto.
    intros x i X Y. eapply meter_not_stop; eauto. exact Logic.I.
Qed.
(** The first message is sent. *)
Lemma r_send : forall s p0 r s1 p u se g, InvR s u se g -> q s = p0 :: r -> send_head p0 (set_q s r) = (s1, p) ->
  InvR s1 u se g /\ (forall i, stop_id p = Some i \/ orig_id p = Some i -> In i u /\ forall c t, act s1 c = Some t -> i <> idof t).
Proof.
  intros s p0 r s1 p u se g I Q H. unfold send_head in H. cbn [txmap set_q] in H.
  assert (IR : InvR (set_q s r) u se g).
  { apply r_queue with (s := s); auto. cbn [q set_q]. intros x i X Y. left. exists x. rewrite Q. cbn; auto. }
  destruct (find _ (txmap s)) as [[k j] | ] eqn:F; inversion H; subst; cbn [act set_txmap set_q].
  - split.
    + apply r_queue with (s := set_q s r); auto. cbn [q set_q set_txmap]. intros x i X Y. eauto. cbn. intros x i X. now apply filter_In in X.
    + apply find_some in F as [F _]. intros i [X | X].
      * assert (i = j) by (unfold stop_id in X; cbn in X; destruct (p_body p0); cbn in X; inversion X; auto). subst. eapply r_tm; eauto.
      * apply (r_q _ _ _ _ I p0 i); auto. rewrite Q. now left.
  - split; auto. intros i X. apply (r_q _ _ _ _ I p i); auto. rewrite Q. now left.
Qed.
Lemma r_ack : forall s id u se g, InvR s u se g -> (forall c t, act s c = Some t -> id <> idof t) -> InvR (ack_rows id s) u se g.
Proof.
  intros s id u se g I N. destruct I. constructor; cbn [act stopped rows q txmap set_rows ack_rows]; auto.
  - rewrite map_map. erewrite map_ext; [ exact r_sess0 | ]. intros w. destruct (_ =? _); auto.
  - intros w W. apply in_map_iff in W as [x [<- X]]. destruct (_ =? _); cbn; auto.
  - rewrite map_map. erewrite map_ext; [ exact r_tids0 | ]. intros w. destruct (_ =? _); auto.
  - intros w W. apply in_map_iff in W as [x [<- X]]. destruct (_ =? _); cbn; auto.
  - intros c t A. destruct (r_row0 c t A) as [w (W1 & W2 & W3 & W4 & W5)]. exists w. split; auto. apply in_map_iff. exists w. split; auto.
    destruct (Z.eqb_spec (w_tid w) id) as [E | E]; auto. exfalso. apply (N c t A). congruence.
Qed.
Lemma r_stop_conf : forall s mid id u se g, InvR s u se g -> (forall c t, act s c = Some t -> id <> idof t) -> InvR (fst (stop_conf mid id s)) u se g.
Proof.
  intros s mid id u se g I N. unfold stop_conf.
  assert (C1 : let s' := fst (match get_tx mid s with Some t => execute_queued (t_conn t) s | None => (s, []) end) in
     act s' = act s /\ stopped s' = stopped s /\ rows s' = rows s /\ q s' = q s /\ txmap s' = txmap s).
  { destruct (get_tx mid s) as [t | ]; [ | repeat split ]. unfold execute_queued. destruct (avq s (t_conn t)) as [[x y] | ]; [ destruct y | ]; repeat split. }
  destruct (match get_tx mid s with Some t => execute_queued (t_conn t) s | None => (s, []) end) as [s1 o1]. cbn in C1. destruct C1 as (C1 & C2 & C3 & C4 & C5).
  assert (I1 : InvR (ack_rows id s1) u se g) by (apply r_ack; [ eapply r_core; eauto | now rewrite C1 ]).
  assert (I2 : InvR (set_stopped (ack_rows id s1) (filter (fun t => negb (opt_is (t_emid t) mid)) (stopped (ack_rows id s1)))) u se g).
  { destruct I1. constructor; auto. intros c t v A V. cbn [stopped set_stopped] in V. apply filter_In in V as [V _]. eauto.
    intros v V. cbn [stopped set_stopped] in V. apply filter_In in V as [V _]. auto. }
  destruct (fw _); cbn [fst all_unavailable]; [ | exact I2 ]. eapply r_core; [ .. | exact I2 ]; reflexivity.
Qed.
Lemma r_notify : forall s mid tid u se g b, inv s b -> InvR s u se g -> InvR (notify_handled mid tid s) u se g.
Proof.
  intros s mid tid u se g b J I. apply r_queue with (s := s); auto. unfold notify_handled. cbn [q set_mvmap set_q]. intros p i P X.
  apply in_map_iff in P as [x [<- Y]]. left. exists x. split; auto. destruct (existsb (N.eqb (p_mid x)) _) eqn:E; auto.
  destruct (find (fun e => N.eqb (fst e) mid) (mvmap s)) as [[k l] | ] eqn:F; [ | discriminate ].
  apply find_some in F as [F _]. apply existsb_exists in E as [y [L E]]. apply N.eqb_eq in E. cbn [snd] in L.
  destruct (i_mv _ _ _ _ _ _ _ _ J k l y F L) as [_ M]. specialize (M x Y E). unfold is_meter, stop_id, orig_id in *. cbn in X.
  destruct (p_body x); try contradiction. cbn in X. destruct X as [X | X]; [ discriminate | ]. auto.
Qed.
(** The row of a session gets a new id. *)
Lemma r_tid_nodup : forall sess f l i, NoDup (map w_sess l) -> NoDup (map w_tid l) -> (forall w, w_tid (f w) = i) -> ~ In i (map w_tid l) ->
  NoDup (map w_tid (map (fun w => if N.eqb (w_sess w) sess then f w else w) l)).
Proof.
  intros sess f l i N1 N2 F N. induction l as [ | a l IH ]; cbn; auto. inversion N1; inversion N2; subst. cbn [map In] in N.
  assert (ID : N.eqb (w_sess a) sess = true -> map (fun w => if N.eqb (w_sess w) sess then f w else w) l = l).
  { intros E. apply N.eqb_eq in E. rewrite <- (map_id l) at 2. apply map_ext_in. intros w W. destruct (N.eqb_spec (w_sess w) sess); auto.
    exfalso. apply H1. rewrite E. subst sess. rewrite <- e. now apply in_map. }
  destruct (N.eqb (w_sess a) sess) eqn:E.
  - rewrite ID by auto. constructor; auto. rewrite F. tauto.
  - constructor; [ | apply IH; auto ]. intros X. apply in_map_iff in X as [w [EW W]]. apply in_map_iff in W as [v [EV V]]. subst w.
    destruct (N.eqb (w_sess v) sess); [ rewrite F in EW; subst; tauto | ]. apply H5. rewrite <- EW. now apply in_map.
Qed.
Lemma r_start_conf : forall s b p r tid ok parent sinv u se g, inv s b -> q s = p :: r -> is_start p -> InvR (set_q s r) u se g -> ~ In tid u ->
  InvR (fst (start_conf (p_mid p) tid ok parent sinv (set_q s r))) (tid :: u) se g.
Proof.
  intros s b p r tid ok parent sinv u se g I Q PS IR NT.
  assert (F := find_start s b p r I Q PS). assert (I' := I). unfold inv in I'. rewrite Q in I'.
  assert (AE : forall s', n s' = n s -> act s' = act s -> active_with (p_mid p) s' = active_with (p_mid p) s) by (intros; now apply active_with_ext).
  assert (ID : inv (set_q s r) b) by (unfold inv; cbn [n act stopped q txmap mvmap nid set_q]; eapply drop_head_inv; eauto).
  unfold start_conf, get_tx. rewrite (AE (set_q s r)) by reflexivity. cbn [act stopped set_q].
  destruct (active_with (p_mid p) s) as [c | ] eqn:AW.
  - destruct F as [t (A & B & C & D & E)]. rewrite A.
    destruct (i_act _ _ _ _ _ _ _ _ I' c t A) as [m (A1 & A2 & A3 & _)]. rewrite A3. cbn [fst].
    assert (IN := r_notify (set_q s r) (p_mid p) tid u se g b ID IR).
    unfold change_tx. rewrite (AE (notify_handled _ _ _)) by reflexivity.
    set (s2 := notify_handled (p_mid p) tid (set_q s r)) in *. assert (A2' : act s2 = act s) by reflexivity. clearbody s2. rewrite A2', A. cbn [option_map].
    change (Tx _ _ _ _ _ _ _ _ _ _ _ _ _) with (renamed tid t).
    assert (AS : act s2 c = Some t) by congruence.
    destruct IN. constructor; cbn [act stopped rows q txmap set_rows set_act at_row].
    + rewrite at_row_sess; auto.
    + intros w W. apply in_map_iff in W as [x [<- X]]. destruct (N.eqb _ _); cbn; auto.
    + apply r_tid_nodup with (i := tid); auto. intros X. apply in_map_iff in X as [w [<- W]]. auto.
    + intros w W. apply in_map_iff in W as [x [<- X]]. destruct (N.eqb _ _); cbn; auto.
    + intros d v V. unfold upd in V. destruct (Z.eqb_spec d c).
      * inversion V; subst. destruct (r_row0 c t AS) as [w (W1 & W2 & W3 & W4 & W5 & W6 & W7)]. exists (row_started tid parent w). split.
        -- apply in_map_iff. exists w. split; auto. rewrite W2, N.eqb_refl. reflexivity.
        -- cbn. auto 10.
      * rewrite <- A2' in V. destruct (r_row0 d v V) as [w (W1 & W2 & W3)]. exists w. split; auto. apply in_map_iff. exists w. split; auto.
        destruct (N.eqb_spec (w_sess w) (t_sess t)) as [Y | Y]; auto. exfalso. apply (r_two0 d c v t); congruence.
    + intros d e v v'. unfold upd. destruct (Z.eqb_spec d c), (Z.eqb_spec e c); intros V V' NE; try congruence; rewrite <- ?A2' in *.
      * inversion V; subst. cbn. apply (r_two0 c e t v'); auto.
      * inversion V'; subst. cbn. apply (r_two0 d c v t); auto.
      * eauto.
    + intros d v v'. unfold upd. destruct (Z.eqb_spec d c); intros V V'; rewrite <- ?A2' in *; [ | eauto ]. inversion V; subst. cbn. eauto.
    + auto.
    + intros x i X Y. destruct (r_q0 x i X Y) as [Z1 Z2]. split; [ now right | ]. intros d v. unfold upd. destruct (Z.eqb_spec d c); intros V; rewrite <- ?A2' in *; [ | eauto ].
      inversion V; subst. cbn. intros ->. contradiction.
    + intros k i X. destruct (r_tm0 k i X) as [Z1 Z2]. split; [ now right | ]. intros d v. unfold upd. destruct (Z.eqb_spec d c); intros V; rewrite <- ?A2' in *; [ | eauto ].
      inversion V; subst. cbn. intros ->. contradiction.
  - destruct F as (NA & NC & F). destruct (find (has_mid (p_mid p)) (stopped s)) as [t | ] eqn:FS.
    2: { cbn [fst]. eapply r_grow; eauto. intros x; cbn; auto. intros x; auto. }
    destruct F as (F1 & [e (F2 & _ & _ & F5)] & F6 & _). rewrite F6, F2. cbn [fst]. apply find_some in FS as [FS _].
    assert (TU : forall d v, act s d = Some v -> tid <> idof v).
    { intros d v V X. destruct (r_row _ _ _ _ IR d v V) as [w (W1 & _ & _ & W4 & _)]. apply NT. rewrite X, <- W4. eapply r_tused; eauto. }
    assert (IT : InvR (add_stopped_id (Some e) tid (set_q s r)) (tid :: u) se g).
    { destruct IR. constructor; cbn [act stopped rows q txmap set_q set_txmap add_stopped_id] in *; auto.
      - intros w W. right; auto.
      - intros x i X Y. destruct (r_q0 x i X Y). split; auto. now right.
      - intros k i [X | X]. inversion X; subst. split; [ now left | auto ]. apply filter_In in X as [X _]. destruct (r_tm0 k i X). split; auto. now right. }
    assert (IB : inv (add_stopped_id (Some e) tid (set_q s r)) b \/ True) by auto. clear IB.
    set (s1 := add_stopped_id (Some e) tid (set_q s r)) in *.
    assert (IN : InvR (notify_handled (p_mid p) tid s1) (tid :: u) se g).
    { apply r_queue with (s := s1); auto. unfold notify_handled. cbn [q set_mvmap set_q]. intros y i P X.
      apply in_map_iff in P as [x [<- Y]]. left. exists x. split; auto. destruct (existsb (N.eqb (p_mid x)) _) eqn:E; auto.
      change (mvmap s1) with (mvmap (set_q s r)) in E.
      destruct (find (fun e => N.eqb (fst e) (p_mid p)) (mvmap (set_q s r))) as [[k l] | ] eqn:FF; [ | discriminate ].
      apply find_some in FF as [FF _]. apply existsb_exists in E as [z [L E]]. apply N.eqb_eq in E. cbn [snd] in L.
      destruct (i_mv _ _ _ _ _ _ _ _ ID k l z FF L) as [_ M]. specialize (M x Y E). unfold is_meter, stop_id, orig_id in *. cbn in X.
      destruct (p_body x); try contradiction. cbn in X. destruct X as [X | X]; [ discriminate | ]. auto. }
    assert (NR : forall w, In w (rows s1) -> w_tid w <> tid).
    { intros w W E. apply NT. rewrite <- E. apply (r_tused _ _ _ _ IR w W). }
    unfold change_tx. rewrite (AE (notify_handled _ _ _)) by reflexivity.
    set (s2 := notify_handled (p_mid p) tid s1) in *. assert (A2' : act s2 = act s) by reflexivity. assert (S2' : stopped s2 = stopped s) by reflexivity. assert (R2' : rows s2 = rows s1) by reflexivity. clearbody s2.
    assert (TS : forall d v, act s2 d = Some v -> t_sess t <> t_sess v) by (intros d v V; apply (r_stp _ _ _ _ IN d v t V); now rewrite S2').
    destruct IN. constructor; cbn [act stopped rows q txmap set_rows set_stopped at_row]; auto.
    + rewrite at_row_sess; auto.
    + intros w W. apply in_map_iff in W as [x [<- X]]. destruct (N.eqb _ _); cbn; auto.
    + apply r_tid_nodup with (i := tid); auto. intros X. apply in_map_iff in X as [w [E W]]. rewrite R2' in W. now apply NR in W.
    + intros w W. apply in_map_iff in W as [x [<- X]]. destruct (N.eqb _ _); cbn; auto. apply r_tused0 in X. exact X.
    + intros d v V. destruct (r_row0 d v V) as [w (W1 & W2 & W3)]. exists w. split; auto. apply in_map_iff. exists w. split; auto.
      destruct (N.eqb_spec (w_sess w) (t_sess t)) as [Y | Y]; auto. exfalso. apply (TS d v V). congruence.
    + intros d v v' V V'. destruct (map_first_in _ _ _ _ V') as [x [X [-> | [-> _]]]]; cbn [t_sess]; apply (r_stp0 d v x V X).
    + intros v' V'. destruct (map_first_in _ _ _ _ V') as [x [X [-> | [-> _]]]]; cbn [t_sess]; auto.
Qed.

(** Without a restart every transaction has its timer. *)
Definition timed (s : st) : Prop := dead s = false /\ forall c t, act s c = Some t -> t_timer t = true /\ t_active t = true /\ t_conn t = c.
Lemma timed_change : forall mid f s, (forall t, t_timer (f t) = t_timer t /\ t_active (f t) = t_active t /\ t_conn (f t) = t_conn t) -> timed s -> timed (change_tx mid f s).
Proof.
  intros mid f s F [D T]. unfold change_tx. destruct (active_with mid s) as [c | ]; split; auto. cbn [act set_act]. intros d t. unfold upd.
  destruct (Z.eqb_spec d c) as [-> | ]; [ | eauto ]. destruct (act s c) eqn:E; cbn; intros X; inversion X; subst. destruct (F t0) as (-> & -> & ->). eauto.
Qed.
Lemma timed_core : forall s s', dead s' = dead s -> act s' = act s -> timed s -> timed s'.
Proof. intros s s' A B [C D]. split; congruence || rewrite B; auto. Qed.
Lemma send_head_core : forall p s s1 p', send_head p s = (s1, p') -> dead s1 = dead s /\ act s1 = act s /\ stopped s1 = stopped s /\ rows s1 = rows s /\ q s1 = q s /\ nid s1 = nid s /\ avq s1 = avq s /\ avdb s1 = avdb s /\ fw s1 = fw s /\ n s1 = n s.
Proof. intros p s s1 p' H. unfold send_head in H. destruct (find _ _) as [[k i] | ]; inversion H; subst; repeat split. Qed.
Lemma execute_core : forall l up b s, let s' := fst (execute_changes l up b s) in dead s' = dead s /\ act s' = act s /\ stopped s' = stopped s /\ rows s' = rows s /\ q s' = q s /\ nid s' = nid s /\ txmap s' = txmap s /\ fw s' = fw s /\ n s' = n s /\ avq s' = avq s.
Proof. intros. unfold execute_changes in s'. subst s'. cbn [fst]. destruct b; repeat split. Qed.
Lemma queued_all : forall c s, let s' := fst (execute_queued c s) in dead s' = dead s /\ act s' = act s /\ stopped s' = stopped s /\ rows s' = rows s /\ q s' = q s /\ nid s' = nid s /\ txmap s' = txmap s /\ fw s' = fw s /\ n s' = n s.
Proof. intros c s. unfold execute_queued. destruct (avq s c) as [[x y] | ]; [ destruct y | ]; cbn; repeat split. Qed.
Lemma stop_conf_core : forall mid id s, let s' := fst (stop_conf mid id s) in dead s' = dead s /\ act s' = act s /\ n s' = n s.
Proof.
  intros mid id s. unfold stop_conf. 
  assert (C := fun c => queued_all c s). 
  assert (C' : let s' := fst (match get_tx mid s with Some t => execute_queued (t_conn t) s | None => (s, []) end) in dead s' = dead s /\ act s' = act s /\ n s' = n s).
  { destruct (get_tx mid s) as [t | ]; [ | repeat split ]. destruct (C (t_conn t)) as (A & B & _ & _ & _ & _ & _ & _ & D). auto. }
  destruct (match get_tx mid s with Some t => execute_queued (t_conn t) s | None => (s, []) end) as [s1 o1]. cbn in C'.
  clear C. destruct (fw _); cbn [fst all_unavailable]; exact C'.
Qed.

Lemma start_conf_timed : forall mid tid ok pa iv s, timed s -> timed (fst (start_conf mid tid ok pa iv s)).
Proof.
  intros mid tid ok pa iv s T. unfold start_conf. destruct (get_tx mid s) as [t | ]; auto. cbn [fst].
  apply timed_core with (s := change_tx mid (fun t => Tx (t_iid t) (t_conn t) (t_sess t) (t_tag t) (t_start t) (t_resv t) (t_active t) (t_fin t) (t_stop t)
                                           (Some tid) (t_smid t) (t_emid t) (t_timer t)) (notify_handled mid tid (if t_fin t then add_stopped_id (t_emid t) tid s else s))); auto.
  apply timed_change; auto. eapply timed_core; [ | | exact T ]; destruct (t_fin t); auto; destruct (t_emid t); auto.
Qed.
Lemma timed_step : forall o s, timed s -> (forall r x, o <> Boot r x) -> timed (fst (step o s)) /\ ~ In OUB (snd (step o s)).
Proof.
  intros o s T NB. assert (T' := T). destruct T' as [D TT]. unfold step. rewrite D. destruct o.
  - unfold started, push. destruct (in_range s c); cbn [fst snd]; split; auto; try (cbn; intuition discriminate).
    split; cbn [dead act set_nid set_q set_act].
    + unfold insert_row. destruct (existsb _ _); auto.
    + unfold insert_row. destruct (existsb _ _); cbn [act set_rows]; intros d t; unfold upd; destruct (Z.eqb_spec d c) as [-> | ]; intros X; eauto; inversion X; auto.
  - unfold stop. destruct (in_range s c); [ | split; auto; cbn; intuition discriminate ]. destruct (act s c) as [t | ] eqn:A; [ | split; auto ].
    unfold stop_transaction, push. cbn [fst snd]. split.
    + split; cbn [dead act set_nid set_q set_act at_row set_rows set_stopped]; auto. intros d v. unfold upd. destruct (d =? c); [ discriminate | eauto ].
    + rewrite !in_app_iff. destruct why, unlock; cbn; intuition discriminate.
  - unfold meter, push. destruct (in_range s c); [ | split; auto; cbn; intuition discriminate ]. destruct (act s c) as [t | ].
    + destruct (periodic && _); [ split; auto | ]. cbn [fst snd]. split; [ | cbn; intuition discriminate ].
      eapply timed_core; [ | | exact T ]; destruct last; auto; destruct periodic, (0 <? c), (t_id t); auto.
    + destruct periodic; split; auto. cbn. intuition discriminate.
  - unfold deliver. destruct (q s) as [ | p0 r ]; [ split; auto | ]. destruct (send_head p0 (set_q s r)) as [s1 p] eqn:E. apply send_head_core in E as (E1 & E2 & _).
    assert (T1 : timed s1) by (eapply timed_core; [ | | exact T ]; auto).
    destruct (p_body p).
    + assert (T2 := start_conf_timed (p_mid p) tid ok parent inv s1 T1).
      assert (NU : ~ In OUB (snd (start_conf (p_mid p) tid ok parent inv s1))).
      { unfold start_conf. destruct (get_tx _ _); cbn [snd]; auto. destruct ok, inv; cbn; intuition discriminate. }
      destruct (start_conf _ _ _ _ _ _) as [s2 o]. cbn [fst snd In] in *. split; auto. intuition discriminate.
    + destruct (stop_conf_core (p_mid p) id s1) as (A & B & _).
      assert (NU : ~ In OUB (snd (stop_conf (p_mid p) id s1))).
      { assert (Q : forall c, ~ In OUB (snd (execute_queued c s1))).
        { intros c. unfold execute_queued. destruct (avq s1 c) as [[x y] | ]; cbn; auto. destruct (c =? 0), x; cbn; intuition discriminate. }
        unfold stop_conf. assert (Q' : ~ In OUB (snd (match get_tx (p_mid p) s1 with Some t => execute_queued (t_conn t) s1 | None => (s1, []) end))) by (destruct (get_tx _ _); auto).
        destruct (match get_tx (p_mid p) s1 with Some t => execute_queued (t_conn t) s1 | None => (s1, []) end) as [s2 o2]. cbn [snd] in Q'.
        set (s3 := set_stopped _ _). clearbody s3. destruct (fw s3); cbn [snd all_unavailable]; rewrite ?app_nil_r; auto.
        rewrite !in_app_iff, in_map_iff. intros [X | [[x [X _]] | X]]; auto. discriminate. destruct (filter _ _); cbn in X; intuition discriminate. }
      destruct (stop_conf (p_mid p) id s1) as [s2 o]. cbn [fst snd In] in *. split; [ | intuition discriminate ]. eapply timed_core; [ | | exact T1 ]; auto.
    + cbn [fst snd In]. split; auto. intuition discriminate.
  - unfold sent. destruct (q s) as [ | p0 r ]; [ split; auto | ]. destruct (send_head p0 s) as [s1 p] eqn:E. apply send_head_core in E as (E1 & E2 & _). cbn [fst snd In].
    split; [ | intuition discriminate ]. eapply timed_core; [ | | exact T ]; auto.
  - unfold retry. destruct (q s) as [ | p0 r ]; [ split; auto | ]. destruct (send_head p0 s) as [s1 p] eqn:E. apply send_head_core in E as (E1 & E2 & _). cbn [fst snd In].
    split; [ | intuition discriminate ]. destruct (p_body p); [ apply timed_change; auto | .. ]; (eapply timed_core; [ | | exact T ]; auto).
  - unfold give_up. destruct (q s) as [ | p0 r ]; [ split; auto | ]. destruct (send_head p0 _) as [s1 p] eqn:E. apply send_head_core in E as (E1 & E2 & _). cbn [fst snd In].
    split; [ | intuition discriminate ]. eapply timed_core; [ | | exact T ]; auto.
  - split; auto.
  - exfalso. eapply NB; reflexivity.
  - unfold change_availability, preprocess. destruct (_ && _); cbn [fst snd]; [ | split; auto; cbn; intuition discriminate ].
    set (sch := filter (to_schedule s prep) _). destruct sch; unfold execute_changes; cbn [fst snd]; (split; [ eapply timed_core; [ | | exact T ]; auto | ]);
      (intros [X | X]; [ discriminate | apply in_flat_map in X as [i [_ X]]; apply in_app_iff in X as [X | X]; destruct (i =? 0), up; cbn in X; intuition discriminate ]).
  - destruct (queued_all c s) as (A & B & _). split. eapply timed_core; [ | | exact T ]; auto.
    unfold execute_queued. destruct (avq s c) as [[x y] | ]; cbn; auto. destruct (c =? 0), x; cbn; intuition discriminate.
  - unfold firmware. destruct (fw_next signed x (fw s)) as [[ | ] | ]; cbn [fst snd all_unavailable]; (split; [ eapply timed_core; [ | | exact T ]; auto | ]);
      rewrite ?in_app_iff, ?in_map_iff; intros X.
    1: destruct X as [[[y [X _]] | X] | X]; [ discriminate | destruct (filter _ _); cbn in X; intuition discriminate | ].
    2,3: destruct X as [[] | X].
    all: destruct (fw_ends x); auto; apply in_flat_map in X as [i [_ X]]; match type of X with context [if ?b then _ else _] => destruct b end; auto;
      apply in_app_iff in X as [X | X]; destruct (i =? 0); cbn in X; intuition discriminate.
  - cbn [fst snd]. split; auto. unfold remote_stop. destruct (0 <? _); cbn; intuition discriminate.
  - cbn [fst snd]. split; auto. unfold remote_start. repeat (match goal with |- context [if ?b then _ else _] => destruct b | |- context [match ?x with Some _ => _ | None => _ end] => destruct x as [[? ?] | ] || destruct x end; cbn; try (intuition discriminate)).
  - cbn [fst snd]. split; auto. unfold unlock. rewrite in_app_iff. destruct (negb _); cbn; destruct answer; cbn; try (intuition discriminate);
      destruct (in_range s c); cbn; try (intuition discriminate); destruct (_ && _); cbn; intuition discriminate.
  - cbn [fst snd]. split; auto. unfold reset, stop_all. destruct allowed; cbn; [ | intuition discriminate ]. intros [X | X]; [ discriminate | ]. apply in_map_iff in X as [y [X _]]. discriminate.
  - unfold change_interval. destruct (existsb _ _) eqn:E; cbn; auto. exfalso. apply existsb_exists in E as [c [_ E]]. destruct (act s c) as [t | ] eqn:A; [ | discriminate ].
    destruct (TT c t A) as [T1 _]. rewrite T1, andb_false_r in E. discriminate.
Qed.

Lemma inv_act_cur : forall s b c t, inv s b -> act s c = Some t -> exists m, cur b c = Some m.
Proof. intros s b c t I A. destruct (i_act _ _ _ _ _ _ _ _ I c t A) as [m (X & _)]. eauto. Qed.
Lemma r_g_idle : forall s u se g c x, InvR s u se g -> act s c = None -> InvR s u se (fun d => if d =? c then x else g d).
Proof.
  intros s u se g c x I A. destruct I. constructor; auto. intros d t D. destruct (r_row0 d t D) as [w W]. exists w. destruct (Z.eqb_spec d c); [ congruence | auto ].
Qed.
Lemma r_step : forall o s b u se g, inv s b -> timed s -> fine1 o b -> InvR s u se g ->
  (forall i, In i (new_ids (o, snd (step o s))) -> ~ In i u) -> (forall x, In x (sessions (o, snd (step o s))) -> ~ In x se) ->
  InvR (fst (step o s)) (new_ids (o, snd (step o s)) ++ u) (sessions (o, snd (step o s)) ++ se) (reading1 (o, snd (step o s)) g).
Proof.
  intros o s b u se g I [D _] F R NI NS. assert (I0 := I). unfold inv in I0. unfold step in *. rewrite D in *. destruct o; cbn [new_ids sessions fst] in *; cbn [app]; try contradiction;
    match goal with |- context [Meter] => idtac | _ => cbn [reading1] end.
  - destruct F as [FC F]. apply r_started; auto; try (apply NI; now left); try (apply NS; now left).
    destruct (act s c) as [t | ] eqn:A; auto. destruct (inv_act_cur _ _ _ _ I A). congruence.
  - apply r_stop; auto.
  - apply r_meter; auto.
  - unfold deliver in *. destruct (q s) as [ | p0 r ] eqn:Q; [ exact R | ].
    destruct (send_head p0 (set_q s r)) as [s1 p] eqn:E. assert (H := E). apply (r_send _ _ _ _ _ _ _ _ R Q) in E as [R1 R2].
    destruct (p_body p) eqn:PB.
    + assert (p = p0 /\ s1 = set_q s r) as [-> ->].
      { unfold send_head in H. cbn [txmap set_q] in H. destruct (find _ (txmap s)) as [[k j] | ] eqn:FF; inversion H; subst; auto. exfalso.
        destruct (i_tm _ _ _ _ _ _ _ _ I0 p0 j) as [X _]; [ now left | unfold look; now rewrite FF | ].
        unfold is_stop in X. destruct (p_body p0); cbn in *; try discriminate; contradiction. }
      assert (PS : is_start p0) by (unfold is_start; now rewrite PB).
      assert (NT : ~ In tid u).
      { apply NI. destruct (start_conf _ _ _ _ _ _) as [s2 o]. destruct p0 as [x y z v]. cbn in PB. subst y. cbn. now left. }
      assert (SC := r_start_conf s b p0 r tid ok parent inv u se g I Q PS R1 NT).
      destruct (start_conf _ _ _ _ _ _) as [s2 o]. cbn [fst snd] in *. destruct p0 as [x y z v]. cbn in PB. subst y. cbn. exact SC.
    + assert (SC := r_stop_conf s1 (p_mid p) id u se g R1). destruct (stop_conf (p_mid p) id s1) as [s2 o] eqn:SE. cbn [fst snd] in *.
      assert (NO : existsb (fun x => match x with OSend (P _ (BStart _ _ _ _ _) _ _) => true | _ => false end) (OSend p :: o) = false).
      { cbn. destruct p as [x y z v]. cbn in PB. subst y. cbn. revert SE. clear. unfold stop_conf, execute_queued, execute_changes, all_unavailable.
        destruct (get_tx _ _) as [t | ]; [ destruct (avq s1 (t_conn t)) as [[a e] | ] | ]; match goal with |- context [if fw ?a then _ else _] => destruct (fw a) end; intros X; inversion X; subst; clear;
          rewrite ?app_nil_r; apply not_true_is_false; intros X; apply existsb_exists in X as [y [Y Z]]; rewrite ?in_app_iff in Y; cbn in Y; rewrite ?in_app_iff, ?in_map_iff in Y;
          repeat (destruct Y as [Y | Y]); subst; try discriminate; try contradiction;
          try (destruct Y as [k [Y _]]; subst; discriminate); try (destruct (t_conn t =? 0); cbn in Y; repeat (destruct Y as [Y | Y]); subst; try discriminate; try contradiction);
          try (destruct (filter _ _); cbn in Y; repeat (destruct Y as [Y | Y]); subst; try discriminate; try contradiction); destruct a; discriminate. }
      rewrite NO. apply SC. apply (R2 id). left. unfold stop_id. now rewrite PB.
    + cbn [fst snd]. destruct p as [x y z v]. cbn in PB. subst y. cbn. exact R1.
  - unfold sent. destruct (q s) as [ | p0 r ] eqn:Q; [ exact R | ]. destruct (send_head p0 s) as [s1 p] eqn:E. cbn [fst].
    assert (E' : send_head p0 (set_q s r) = (set_q s1 r, p)) by (revert E; unfold send_head; cbn [txmap set_q]; destruct (find _ _) as [[k i] | ]; intros X; inversion X; subst; reflexivity).
    apply (r_send _ _ _ _ _ _ _ _ R Q) in E' as [R1 R2]. destruct R1. constructor; auto. cbn [q act set_q] in *. intros x i [<- | X] Y; eauto.
  - unfold retry. destruct (q s) as [ | p0 r ] eqn:Q; [ exact R | ]. destruct (send_head p0 s) as [s1 p] eqn:E. cbn [fst].
    assert (E' : send_head p0 (set_q s r) = (set_q s1 r, p)) by (revert E; unfold send_head; cbn [txmap set_q]; destruct (find _ _) as [[k i] | ]; intros X; inversion X; subst; reflexivity).
    apply (r_send _ _ _ _ _ _ _ _ R Q) in E' as [R1 R2].
    assert (RS : InvR (set_nid (set_q s1 (P (nid s1) (p_body p) (p_init p) (p_orig p) :: r)) (N.succ (nid s1))) u se g).
    { destruct R1. constructor; auto. cbn [q act set_q set_nid] in *. intros x i [<- | X] Y; eauto. }
    destruct (p_body p); auto. set (s2 := set_nid _ _) in *. set (m := nid s1). clearbody s2 m. unfold change_tx. clear - RS.
    set (f := fun t => Tx _ _ _ _ _ _ _ _ _ _ _ _ _).
    assert (F1 : forall t, t_sess (f t) = t_sess t) by reflexivity. assert (F2 : forall t, idof (f t) = idof t) by reflexivity. clearbody f.
    assert (AC : forall c' d t, upd (act s2) c' (option_map f (act s2 c')) d = Some t -> exists t', act s2 d = Some t' /\ t_sess t = t_sess t' /\ idof t = idof t').
    { intros c' d t. unfold upd. destruct (Z.eqb_spec d c') as [-> | ]; [ | eauto ]. destruct (act s2 c') as [t' | ]; cbn; intros X; inversion X; subst. exists t'. auto. }
    destruct RS, (active_with (p_mid p) s2) as [c' | ]; constructor; cbn [act stopped rows q txmap set_act set_stopped]; auto.
    + intros d t X. apply AC in X as [t' (X & -> & ->)]. auto.
    + intros d e t v X Y. apply AC in X as [t' (X & -> & _)]. apply AC in Y as [v' (Y & -> & _)]. eauto.
    + intros d t v X Y. apply AC in X as [t' (X & -> & _)]. eauto.
    + intros x i X Y. destruct (r_q0 x i X Y) as [A B]. split; auto. intros d t Z. apply AC in Z as [t' (Z & _ & ->)]. eauto.
    + intros k i X. destruct (r_tm0 k i X) as [A B]. split; auto. intros d t Z. apply AC in Z as [t' (Z & _ & ->)]. eauto.
    + intros d t v X V. destruct (map_first_in _ _ _ _ V) as [y [Y [-> | [-> _]]]]; rewrite ?F1; eauto.
    + intros v V. destruct (map_first_in _ _ _ _ V) as [y [Y [-> | [-> _]]]]; rewrite ?F1; eauto.
  - unfold give_up. destruct (q s) as [ | p0 r ] eqn:Q; [ exact R | ]. destruct (send_head p0 (set_q s r)) as [s1 p] eqn:E. cbn [fst]. now apply (r_send _ _ _ _ _ _ _ _ R Q) in E as [R1 _].
  - unfold discard. cbn [fst]. apply r_queue with (s := s); auto. cbn [q set_q]. intros x i X Y. apply filter_In in X as [X _]. eauto.
  - unfold change_availability, preprocess. destruct (_ && _); [ | exact R ]. destruct (filter _ _); cbn [fst execute_changes]; (eapply r_core; [ .. | exact R ]; reflexivity).
  - destruct (queued_all c s) as (A1 & A2 & A3 & A4 & A5 & A6 & A7 & _). apply r_core with (s := s); auto.
  - unfold firmware. destruct (fw_next _ _ _) as [[ | ] | ]; cbn [fst all_unavailable]; auto; (eapply r_core; [ .. | exact R ]; reflexivity).
  - exact R.
  - exact R.
  - exact R.
  - exact R.
  - unfold change_interval. destruct (existsb _ _); [ | exact R ]. eapply r_core; [ .. | exact R ]; reflexivity.
Qed.
Lemma timed_initial : forall n, timed (initial n).
Proof. split; auto. discriminate. Qed.
Lemma fine1_no_boot : forall o b, fine1 o b -> forall r x, o <> Boot r x.
Proof. intros o b F r x ->. exact F. Qed.
Lemma run_timed : forall h s b, timed s -> fine (events h s) b -> timed (fst (run h s)) /\ ~ In OUB (snd (run h s)).
Proof.
  induction h as [ | o h IH ]; intros s b T F; [ split; auto | ]. cbn [events fine] in F. destruct F as [F1 F2].
  destruct (timed_step o s T (fine1_no_boot o b F1)) as [T1 U1]. cbn [run]. destruct (step o s) as [s1 o1]. cbn [fst snd] in *.
  destruct (IH s1 _ T1 F2) as [T2 U2]. destruct (run h s1) as [s2 o2]. cbn [fst snd] in *. split; auto. rewrite in_app_iff. tauto.
Qed.
Lemma nodup_app_disjoint : forall (A : Type) (a b : list A), NoDup (a ++ b) -> NoDup b /\ forall x, In x a -> ~ In x b.
Proof.
  induction a as [ | x a IH ]; cbn; intros b N. split; auto. inversion N; subst. destruct (IH b H2) as [N1 N2]. split; auto.
  intros y [<- | Y] B; [ | now apply (N2 y) ]. apply H1. apply in_app_iff. auto.
Qed.
Lemma r_run : forall h s b u se g, inv s b -> timed s -> fine (events h s) b -> InvR s u se g ->
  NoDup (flat_map new_ids (events h s)) -> (forall i, In i (flat_map new_ids (events h s)) -> ~ In i u) ->
  NoDup (flat_map sessions (events h s)) -> (forall i, In i (flat_map sessions (events h s)) -> ~ In i se) ->
  exists u' se', InvR (fst (run h s)) u' se' (fold_left (fun g e => reading1 e g) (events h s) g).
Proof.
  induction h as [ | o h IH ]; intros s b u se g I T F R N1 D1 N2 D2; [ eauto | ]. cbn [events fine flat_map fold_left run] in *. destruct F as [F1 F2].
  assert (RS := r_step o s b u se g I T F1 R). destruct (step_inv o s b I F1) as [I1 _]. destruct (timed_step o s T (fine1_no_boot o b F1)) as [T1 _].
  destruct (step o s) as [s1 o1]. cbn [fst snd] in *.
  apply nodup_app_disjoint in N1 as [N1 X1]. apply nodup_app_disjoint in N2 as [N2 X2].
  destruct (run h s1) as [s2 o2] eqn:E.
  destruct (IH s1 (see o o1 b) (new_ids (o, o1) ++ u) (sessions (o, o1) ++ se) (reading1 (o, o1) g)) as [u' [se' H]]; auto.
  - apply RS; intros i X; [ apply D1 | apply D2 ]; apply in_app_iff; auto.
  - intros i X. rewrite in_app_iff. intros [Y | Y]. now apply (X1 i). apply (D1 i); auto. apply in_app_iff; auto.
  - intros i X. rewrite in_app_iff. intros [Y | Y]. now apply (X2 i). apply (D2 i); auto. apply in_app_iff; auto.
  - rewrite E in H. cbn [fst] in H. eauto.
Qed.
