From Coq Require Import ZArith NArith List Bool Lia Sorting.Sorted.
From Verif Require Import T16Model T16Spec T16Proofs T16Proofs2 T16Proofs3 T16Proofs4 T16Proofs5 T16Proofs6 T16Proofs7.
Import ListNotations.
Local Open Scope Z_scope.

(** ** Messages keep their data *)
Lemma same_refl : forall b, same_but_id b b.
Proof. intros []; reflexivity. Qed.
Lemma same_set : forall i a b, same_but_id a b -> same_but_id a (set_id i b).
Proof. intros i [] []; cbn; auto. Qed.
Definition came (l : list (op * list out)) (p : pend) : Prop :=
  same_but_id (p_orig p) (p_body p) /\ exists e, In e l /\ In (OPush (P (p_init p) (p_orig p) (p_init p) (p_orig p))) (snd e).
Definition from (s : st) (o : list out) (p : pend) : Prop :=
  (exists x, In x (q s) /\ p_init p = p_init x /\ p_orig p = p_orig x /\ (p_body p = p_body x \/ (exists i, p_body p = set_id i (p_body x)) \/ p_body p = p_orig p))
  \/ In (OPush p) o /\ exists k b, p = P k b k b.
Lemma from_same : forall s o p, In p (q s) -> from s o p.
Proof. intros s o p X. left. exists p. auto 6. Qed.
Lemma came_from : forall l o s out, (forall p, In p (q s) -> came l p) -> forall p, from s out p -> came (l ++ [(o, out)]) p.
Proof.
  intros l o s out A p [[x (X & E1 & E2 & E3)] | [X [k [b ->]]]].
  - destruct (A x X) as [B [e [C D]]]. split.
    + destruct E3 as [E3 | [[i E3] | E3]]; rewrite E3; [ congruence | rewrite E2; now apply same_set | apply same_refl ].
    + exists e. split. apply in_app_iff. auto. now rewrite E1, E2.
  - split. apply same_refl. exists (o, out). split. apply in_app_iff. cbn; auto. exact X.
Qed.
Lemma from_q : forall s s' o p, (forall x, In x (q s') -> In x (q s)) -> from s' o p -> from s o p.
Proof. intros s s' o p A [[x (X & Y)] | X]; [ left; exists x; auto | right; auto ]. Qed.
Lemma start_conf_q : forall mid tid ok pa iv s, exists f, q (fst (start_conf mid tid ok pa iv s)) = map f (q s)
  /\ forall x, p_init (f x) = p_init x /\ p_orig (f x) = p_orig x /\ (p_body (f x) = p_body x \/ exists i, p_body (f x) = set_id i (p_body x)).
Proof.
  intros. unfold start_conf. destruct (get_tx mid s) as [t | ]; cbn [fst]; [ | exists (fun x => x); rewrite map_id; auto ].
  set (s2 := if t_fin t then _ else _). assert (E2 : q s2 = q s) by (unfold s2, add_stopped_id; destruct (t_fin t), (t_emid t); auto). clearbody s2.
  set (l := match find (fun e => N.eqb (fst e) mid) (mvmap s2) with Some e => snd e | None => [] end).
  exists (fun p => if existsb (N.eqb (p_mid p)) l then P (p_mid p) (set_id tid (p_body p)) (p_init p) (p_orig p) else p). split.
  - cbn [q at_row set_rows]. rewrite <- E2. unfold change_tx. destruct (active_with _ _); reflexivity.
  - intros x. destruct (existsb _ _); cbn; eauto.
Qed.
Lemma stop_conf_q : forall mid id s, q (fst (stop_conf mid id s)) = q s.
Proof.
  intros mid id s. unfold stop_conf. assert (C : q (fst (match get_tx mid s with Some t => execute_queued (t_conn t) s | None => (s, []) end)) = q s).
  { destruct (get_tx _ _) as [t | ]; auto. now destruct (queued_all (t_conn t) s) as (_ & _ & _ & _ & X & _). }
  destruct (match get_tx mid s with Some t => execute_queued (t_conn t) s | None => (s, []) end) as [s2 o2]. cbn [fst] in C.
  set (s3 := set_stopped _ _). assert (q s3 = q s) by exact C. clearbody s3. destruct (fw s3); cbn; auto.
Qed.
Lemma boot_from : forall R r s, (forall p, In p (q (fst (boot R r s))) -> from s (snd (boot R r s)) p) /\ forall p, ~ In (OSend p) (snd (boot R r s)).
Proof.
  intros R r s. unfold boot. fold (loaded s).
  assert (G : forall l s0 s1 o, resume_rows R l s0 = (s1, o) -> (forall p, In p (q s1) -> In p (q s0) \/ In (OPush p) o /\ exists k b, p = P k b k b) /\ forall p, ~ In (OSend p) o).
  { induction l as [ | w l IH ]; intros s0 s1 o H; cbn [resume_rows] in H; [ inversion H; subst; split; auto | ].
    destruct (resume_row R w s0) as [s2 o2] eqn:E. destruct (resume_rows R l s2) as [s3 o3] eqn:E3. inversion H; subst. apply IH in E3 as [A B].
    assert (K : (forall p, In p (q s2) -> In p (q s0) \/ In (OPush p) o2 /\ exists k b, p = P k b k b) /\ forall p, ~ In (OSend p) o2).
    { unfold resume_row in E. destruct (stop_queued _ _); [ inversion E; subst; split; auto | ]. destruct (existsb _ R); [ inversion E; subst; split; auto | ].
      unfold stop_transaction, push in E. inversion E; subst. cbn [q set_act set_q set_nid at_row set_rows set_stopped app]. split.
      - intros p X. apply in_app_iff in X as [X | [<- | []]]; auto. right. split; eauto. now left.
      - intros p. cbn. intuition discriminate. }
    destruct K as [K1 K2]. split.
    - intros p X. rewrite in_app_iff. destruct (A p X) as [Y | [Y Z]]; auto. destruct (K1 p Y) as [U | [U V]]; auto.
    - intros p X. apply in_app_iff in X as [X | X]; [ eapply K2 | eapply B ]; eauto. }
  destruct (resume_rows _ _ _) as [s1 o1] eqn:E. apply G in E as [A B]. cbn [fst snd]. split.
  - intros p X. destruct (A p X) as [Y | [Y Z]].
    + cbn [loaded q] in Y. apply in_map_iff in Y as [x [<- Y]]. left. exists x. cbn. auto 6.
    + right. rewrite in_app_iff. auto.
  - intros p X. apply in_app_iff in X as [X | X]; [ eapply B; eauto | ]. destruct r; [ | destruct X ]. apply in_map_iff in X as [c [X _]]. destruct (avdb s1 c); discriminate.
Qed.
Lemma head_from : forall p0 s s1 p, send_head p0 s = (s1, p) -> q s1 = q s /\ p_init p = p_init p0 /\ p_orig p = p_orig p0 /\ (p_body p = p_body p0 \/ exists i, p_body p = set_id i (p_body p0)).
Proof. intros p0 s s1 p. unfold send_head. destruct (find _ _); intros H; inversion H; subst; cbn; eauto 8. Qed.
Lemma step_from : forall o s p, In p (q (fst (step o s))) \/ In (OSend p) (snd (step o s)) -> from s (snd (step o s)) p.
Proof.
  intros o s p H. assert (OB : (exists r x, o = Boot r x) \/ (forall r x, o <> Boot r x)) by (destruct o; eauto; right; intros; discriminate).
  destruct OB as [[r [x ->]] | NB].
  { unfold step in *. destruct (boot_from r x s) as [A B]. destruct (dead s); destruct H as [H | H]; auto; now apply B in H. }
  destruct H as [H | H].
  2: { destruct (sent_head o s p H NB) as [p0 [r (Q & E1 & _ & E2 & E3)]]. left. exists p0. rewrite Q. split; [ now left | ]. split; auto. split; auto. tauto. }
  revert H. unfold step. destruct (dead s). { destruct o; try (apply from_same). exfalso. eapply NB; reflexivity. }
  destruct o; try (apply from_same).
  - unfold started, push. destruct (in_range s c); [ | apply from_same ]. cbn [fst snd]. set (s1 := insert_row _ _).
    assert (E : q s1 = q s) by (unfold s1, insert_row; destruct (existsb _ _); auto). clearbody s1. cbn [q set_nid set_q set_act]. rewrite E. intros X. apply in_app_iff in X as [X | [<- | []]].
    now apply from_same. right. cbn. eauto.
  - unfold stop. destruct (in_range s c); [ | apply from_same ]. destruct (act s c); [ | apply from_same ]. unfold stop_transaction, push. cbn [fst snd q set_nid set_q set_act at_row set_rows set_stopped].
    intros X. apply in_app_iff in X as [X | [<- | []]]. now apply from_same. right. split; eauto. rewrite !in_app_iff. cbn. auto.
  - unfold meter, push. destruct (in_range s c); [ | apply from_same ]. destruct (act s c) as [t | ].
    + destruct (periodic && _); [ apply from_same | ]. cbn [fst snd]. set (s1 := if 0 <? c then _ else s). assert (E : q s1 = q s) by (unfold s1; destruct (0 <? c), (t_id t); auto). clearbody s1.
      intros X. assert (Y : In p (q s1 ++ [P (nid s1) (BMeter c (if 0 <? c then t_id t else None) value) (nid s1) (BMeter c (if 0 <? c then t_id t else None) value)])) by (destruct last; [ destruct periodic | ]; exact X).
      rewrite E in Y. apply in_app_iff in Y as [Y | [<- | []]]. now apply from_same. right. cbn. eauto.
    + destruct periodic; [ apply from_same | ]. cbn [fst snd q set_nid set_q]. intros X. apply in_app_iff in X as [X | [<- | []]]. now apply from_same. right. cbn. eauto.
  - unfold deliver. destruct (q s) as [ | p0 r ] eqn:Q; [ cbn [fst]; now rewrite Q | ]. destruct (send_head p0 (set_q s r)) as [s1 p1] eqn:E. apply head_from in E as (E1 & _). cbn [q set_q] in E1.
    destruct (p_body p1).
    + destruct (start_conf_q (p_mid p1) tid ok parent inv s1) as [f [F1 F2]]. destruct (start_conf _ _ _ _ _ _) as [s2 o]. cbn [fst snd] in *. rewrite F1, E1. intros X. apply in_map_iff in X as [x [<- X]].
      destruct (F2 x) as (F3 & F4 & F5). left. exists x. rewrite Q. split; [ now right | ]. split; auto. split; auto. tauto.
    + assert (F1 := stop_conf_q (p_mid p1) id s1). destruct (stop_conf _ _ _) as [s2 o]. cbn [fst snd] in *. rewrite F1, E1. intros X. apply from_same. rewrite Q. now right.
    + cbn [fst snd]. rewrite E1. intros X. apply from_same. rewrite Q. now right.
  - unfold sent. destruct (q s) as [ | p0 r ] eqn:Q; [ cbn [fst]; now rewrite Q | ]. destruct (send_head p0 s) as [s1 p1] eqn:E. apply head_from in E as (E1 & E2 & E3 & E4). cbn [fst snd q set_q].
    intros [<- | X]; [ | apply from_same; rewrite Q; now right ]. left. exists p0. rewrite Q. split; [ now left | ]. tauto.
  - unfold retry. destruct (q s) as [ | p0 r ] eqn:Q; [ cbn [fst]; now rewrite Q | ]. destruct (send_head p0 s) as [s1 p1] eqn:E. apply head_from in E as (E1 & E2 & E3 & E4). cbn [fst snd].
    match goal with |- In p (q ?a) -> _ => replace (q a) with (P (nid s1) (p_body p1) (p_init p1) (p_orig p1) :: r) by (destruct (p_body p1); auto; unfold change_tx; destruct (active_with _ _); reflexivity) end.
    intros [<- | X]; [ | apply from_same; rewrite Q; now right ]. left. exists p0. rewrite Q. split; [ now left | ]. cbn. tauto.
  - unfold give_up. destruct (q s) as [ | p0 r ] eqn:Q; [ cbn [fst]; now rewrite Q | ]. destruct (send_head p0 (set_q s r)) as [s1 p1] eqn:E. apply head_from in E as (E1 & _). cbn [fst snd q set_q] in *. rewrite E1.
    intros X. apply from_same. rewrite Q. now right.
  - unfold discard. cbn [fst q set_q]. intros X. apply filter_In in X as [X _]. now apply from_same.
  - exfalso. eapply NB; reflexivity.
  - intros X. apply from_same. destruct (avail_core c up prep s) as (_ & _ & _ & E & _). now rewrite <- E.
  - intros X. apply from_same. destruct (T16Proofs2.queued_core c s) as (_ & _ & _ & E & _). now rewrite <- E.
  - intros X. apply from_same. destruct (firmware_core signed x s) as (_ & _ & _ & E & _). now rewrite <- E.
  - unfold change_interval. destruct (existsb _ _); [ intros X; exact (from_same s _ p X) | apply from_same ].
Qed.
Lemma came_run : forall h s l, (forall p, In p (q s) -> came l p) -> forall p, In p (q (fst (run h s))) -> came (l ++ events h s) p.
Proof.
  induction h as [ | o h IH ]; intros s l A p X; cbn [run events] in *. rewrite app_nil_r. auto.
  assert (B := fun p H => came_from l o s _ A p (step_from o s p (or_introl H))). destruct (step o s) as [s1 o1]. cbn [fst snd] in *.
  assert (C := IH s1 _ B p). destruct (run h s1) as [s2 o2]. cbn [fst] in *. change ((o, o1) :: events h s1) with ([(o, o1)] ++ events h s1). rewrite app_assoc. auto.
Qed.

(** ** Firmware *)
Lemma stop_conf_fw : forall mid id s, fw (fst (stop_conf mid id s)) = fw s.
Proof.
  intros mid id s. unfold stop_conf. assert (C : fw (fst (match get_tx mid s with Some t => execute_queued (t_conn t) s | None => (s, []) end)) = fw s).
  { destruct (get_tx _ _) as [t | ]; auto. now destruct (queued_all (t_conn t) s) as (_ & _ & _ & _ & _ & _ & _ & X & _). }
  destruct (match get_tx mid s with Some t => execute_queued (t_conn t) s | None => (s, []) end) as [s2 o2]. cbn [fst] in C.
  set (s3 := set_stopped _ _). assert (fw s3 = fw s) by exact C. clearbody s3. destruct (fw s3) eqn:E; cbn [fst all_unavailable]; [ exact (eq_trans E H) | exact (eq_trans E H) ].
Qed.
Lemma fw_step : forall o s, dead s = false -> (forall r x, o <> Boot r x) -> fw (fst (step o s)) = updating1 o (fw s).
Proof.
  intros o s D NB. unfold step. rewrite D. destruct o; cbn [updating1]; auto.
  - unfold started, push. destruct (in_range s c); auto. unfold insert_row. destruct (existsb _ _); auto.
  - unfold stop, stop_transaction, push. destruct (in_range s c); auto. destruct (act s c); auto.
  - unfold meter, push. destruct (in_range s c); auto. destruct (act s c) as [t | ]; [ destruct (periodic && _) | destruct periodic ]; auto. cbn [fst]. destruct last; [ destruct periodic | ]; destruct (0 <? c), (t_id t); auto.
  - unfold deliver. destruct (q s) as [ | p0 r ]; auto. destruct (send_head p0 (set_q s r)) as [s1 p] eqn:E. apply send_head_core in E as (_ & _ & _ & _ & _ & _ & _ & _ & E4 & _). change (fw (set_q s r)) with (fw s) in E4. destruct (p_body p).
    + destruct (start_conf_keeps (p_mid p) tid ok parent inv s1) as (_ & _ & _ & E). destruct (start_conf _ _ _ _ _ _). cbn [fst] in *. congruence.
    + assert (E := stop_conf_fw (p_mid p) id s1). destruct (stop_conf _ _ _). cbn [fst] in *. congruence.
    + exact E4.
  - unfold sent. destruct (q s) as [ | p0 r ]; auto. destruct (send_head p0 s) as [s1 p] eqn:E. now apply send_head_core in E as (_ & _ & _ & _ & _ & _ & _ & _ & E4 & _).
  - unfold retry. destruct (q s) as [ | p0 r ]; auto. destruct (send_head p0 s) as [s1 p] eqn:E. apply send_head_core in E as (_ & _ & _ & _ & _ & _ & _ & _ & E4 & _). cbn [fst].
    destruct (p_body p); auto. match goal with |- context [change_tx ?a ?f ?x] => destruct (keeps_change a f x) as (_ & _ & _ & K) end. rewrite K. auto.
  - unfold give_up. destruct (q s) as [ | p0 r ]; auto. destruct (send_head p0 (set_q s r)) as [s1 p] eqn:E. now apply send_head_core in E as (_ & _ & _ & _ & _ & _ & _ & _ & E4 & _).
  - exfalso. eapply NB; reflexivity.
  - unfold change_availability, preprocess. destruct (_ && _); auto. destruct (filter _ _); auto.
  - now destruct (queued_all c s) as (_ & _ & _ & _ & _ & _ & _ & X & _).
  - unfold firmware. destruct signed, x; cbn; auto; destruct (fw s) eqn:E; auto.
  - unfold change_interval. destruct (existsb _ _); auto.
Qed.
Lemma fw_run : forall h s b, timed s -> fine (events h s) b -> fw (fst (run h s)) = fold_left (fun w o => updating1 o w) h (fw s).
Proof.
  induction h as [ | o h IH ]; intros s b T F; auto. cbn [events fine run fold_left] in *. destruct F as [F1 F2].
  assert (E := fw_step o s (proj1 T) (fine1_no_boot o b F1)). destruct (timed_step o s T (fine1_no_boot o b F1)) as [T1 _]. rewrite <- E.
  destruct (step o s) as [s1 o1]. cbn [fst snd] in *. rewrite <- (IH s1 _ T1 F2). destruct (run h s1). reflexivity.
Qed.
Lemma switched_disable : forall l, switched (map ODisable l) = map (fun c => (c, false)) l.
Proof. induction l as [ | c l IH ]; auto. cbn. f_equal. exact IH. Qed.
Lemma all_unavailable_spec : forall s b, inv s b -> timed s -> let s' := fst (all_unavailable s) in let o := snd (all_unavailable s) in
  (forall c u, In (c, u) (switched o) <-> u = false /\ 1 <= c <= n s /\ cur b c = None)
  /\ (In OAllUnavailable o <-> forall c, cur b c = None)
  /\ (forall c, avq s' c = if match cur b c with Some _ => true | None => false end then Some (false, false) else avq s c)
  /\ avdb s' = avdb s.
Proof.
  intros s b I T s' o. unfold all_unavailable in *. subst s' o. cbn [fst snd].
  assert (AC : forall c, active s c = match cur b c with Some _ => true | None => false end).
  { intros c. assert (X := active_cur _ _ c I T). destruct (cur b c) as [m | ]; [ apply X; eauto | ]. destruct (active s c); auto. destruct (proj1 X eq_refl). discriminate. }
  assert (BL : forall c, In c (filter (active s) (conns s)) <-> cur b c <> None).
  { intros c. rewrite filter_In, in_conns, AC. destruct (cur b c) as [m | ] eqn:C; [ | intuition congruence ]. assert (A := i_cur _ _ _ _ _ _ _ _ I c m C). destruct (act s c) as [t | ] eqn:X; [ | contradiction ].
    destruct (i_act _ _ _ _ _ _ _ _ I c t X) as [m' (_ & Y & _)]. intuition congruence. }
  split; [ | split; [ | split ] ].
  - intros c u. rewrite switched_app, switched_disable, in_app_iff, in_map_iff.
    replace (switched (match filter (active s) (conns s) with [] => [OAllUnavailable] | _ => [] end)) with (@nil (Z * bool)) by (destruct (filter (active s) (conns s)); reflexivity).
    split.
    + intros [[x [E X]] | []]. inversion E; subst. rewrite filter_In, in_conns, AC in X. destruct (cur b c); cbn in X; intuition (try discriminate; try lia).
    + intros (-> & C & N). left. exists c. split; auto. rewrite filter_In, in_conns, AC, N. cbn. intuition lia.
  - rewrite in_app_iff, in_map_iff. split.
    + intros [[x [E _]] | X]; [ discriminate | ]. destruct (filter (active s) (conns s)) as [ | z l ] eqn:F; [ | destruct X ]. intros c. destruct (cur b c) eqn:C; auto. exfalso. apply (BL c). congruence.
    + intros N. right. destruct (filter (active s) (conns s)) as [ | z l ] eqn:F; [ now left | ]. exfalso. apply (BL z). now left. apply N.
  - intros c. cbn [avq set_avq]. rewrite fold_upd. destruct (existsb (Z.eqb c) (filter (active s) (conns s))) eqn:E.
    + apply existsb_in, BL in E. destruct (cur b c); congruence.
    + destruct (cur b c) eqn:C; auto. exfalso. assert (X : In c (filter (active s) (conns s))) by (apply BL; congruence). apply existsb_in in X. congruence.
  - reflexivity.
Qed.
