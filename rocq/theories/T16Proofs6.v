From Coq Require Import ZArith NArith List Bool Lia Sorting.Sorted.
From Verif Require Import T16Model T16Spec T16Proofs T16Proofs2 T16Proofs3 T16Proofs4 T16Proofs5.
Import ListNotations.
Local Open Scope Z_scope.

(** ** Loss of power *)
Lemma power_loss : forall n h c m restore, let b := watch (events h (initial n)) nothing in
  fine (events h (initial n)) nothing -> NoDup (flat_map new_ids (events h (initial n))) -> NoDup (flat_map sessions (events h (initial n))) ->
  cur b c = Some m ->
  exists id, In (BStop id (clamp32 (s_wh (reading (events h (initial n)) c))) (s_time (reading (events h (initial n)) c)) PowerLoss None)
                (pushed (snd (boot [] restore (fst (run h (initial n))))))
    /\ (forall i, In (m, i) (ans b) -> id = i)
    /\ NoDup (pushed (snd (boot [] restore (fst (run h (initial n)))))).
Proof.
  intros n h c m restore b F N1 N2 C.
  assert (I := run_inv h (initial n) nothing (inv_initial n) F).
  destruct (r_run h (initial n) nothing [] [] (fun _ => Stamp 0 0) (inv_initial n) (timed_initial n) F (r_initial _ _ _ _) N1 (fun i X => in_nil (a := i)) N2 (fun i X => in_nil (a := i))) as [u [se R]].
  change (fold_left _ _ _) with (reading (events h (initial n))) in R. fold b in I. set (s := fst (run h (initial n))) in *. set (g := reading _) in *. clearbody s g b.
  assert (A := i_cur _ _ _ _ _ _ _ _ I c m C). destruct (act s c) as [t | ] eqn:AC; [ | contradiction ]. clear A.
  destruct (i_act _ _ _ _ _ _ _ _ I c t AC) as [m' (A1 & _ & _ & _ & _ & _ & A2)]. assert (m' = m) by congruence. subst m'.
  destruct (r_row _ _ _ _ R c t AC) as [w (W1 & W2 & W3 & W4 & W5 & W6 & W7)].
  assert (ND : NoDup (map w_tid (filter (fun w => negb (w_ack w)) (rows s)))).
  { generalize (r_tids _ _ _ _ R). generalize (rows s). clear. induction l as [ | a l IH ]; cbn; intros N; [ constructor | ]. inversion N; subst. destruct (negb (w_ack a)); auto.
    cbn. constructor; auto. intros X. apply H1. apply in_map_iff in X as [y [<- Y]]. apply filter_In in Y as [Y _]. now apply in_map. }
  destruct (boot_eq [] restore s ND) as [BE _]. exists (w_tid w). rewrite BE. split; [ | split ].
  - apply in_map_iff. exists w. split. rewrite closing_eq, W5, W7. reflexivity. apply filter_In. split. apply filter_In. now rewrite W3.
    unfold closes. cbn [existsb negb]. rewrite andb_true_r, negb_true_iff. destruct (stop_queued (w_tid w) (loaded s)) eqn:E; auto. exfalso.
    apply loaded_queued in E as [p (x & y & z & k & P1 & P2)]. destruct (r_q _ _ _ _ R p (w_tid w) P1) as [_ X].
    right. unfold orig_id. now rewrite P2. apply (X c t AC). congruence.
  - intros i X. apply A2 in X. rewrite W4. unfold idof. now rewrite X.
  - revert ND. clear. generalize (filter (fun w => negb (w_ack w)) (rows s)). induction l as [ | a l IH ]; cbn; intros N; [ constructor | ]. inversion N; subst. destruct (closes [] (loaded s) a); auto.
    cbn. constructor; auto. intros X. apply H1. apply in_map_iff in X as [y [E Y]]. apply filter_In in Y as [Y _]. apply (f_equal (fun x => match x with BStop i _ _ _ _ => i | _ => 0 end)) in E. cbn in E. rewrite <- E. now apply in_map.
Qed.

(** ** Every StartTransaction.req is answered before the StopTransaction.req is sent, unless it is given up *)
Definition asked (b : obs) (m : N) : Prop := (exists c, cur b c = Some m) \/ (exists k, In (k, m) (ostop b)).
Definition waiting (s : st) (b : obs) : Prop := forall m, asked b m -> waits (q s) m \/ exists i, In (m, i) (ans b).
Lemma waits_map : forall q f m, (forall p, is_start p -> is_start (f p) /\ p_init (f p) = p_init p) -> waits q m -> waits (map f q) m.
Proof. intros q f m F [p (A & B & C)]. destruct (F p B). exists (f p). split; [ now apply in_map | split; congruence || auto ]. Qed.
Lemma set_id_start : forall i p m k g, is_start p -> is_start (P m (set_id i (p_body p)) k g).
Proof. intros i p m k g. unfold is_start. cbn. destruct (p_body p); auto. Qed.
Lemma send_head_waits : forall p0 r s s1 p m, q s = p0 :: r -> send_head p0 s = (s1, p) -> q s1 = q s /\ (waits (q s) m -> waits (p :: r) m) /\ (is_start p -> is_start p0) /\ p_init p = p_init p0.
Proof.
  intros p0 r s s1 p m Q H. unfold send_head in H. destruct (find _ _) as [[k i] | ]; inversion H; subst; cbn [q set_txmap]; (split; [ auto | split; [ | split; auto ] ]).
  - rewrite Q. intros [x ([<- | X] & B & C)]. exists (P (p_mid p0) (set_id i (p_body p0)) (p_init p0) (p_orig p0)). cbn. split; auto. split; auto. now apply set_id_start. exists x. cbn; auto.
  - unfold is_start. cbn. destruct (p_body p0); auto.
  - rewrite Q. auto.
Qed.
Lemma wait_core : forall s s' b, q s' = q s -> waiting s b -> waiting s' b.
Proof. intros s s' b E W m A. rewrite E. auto. Qed.
Lemma wait_step : forall o s b, waiting s b -> inv s b -> fine1 o b -> o <> GiveUp -> waiting (fst (step o s)) (see o (snd (step o s)) b).
Proof.
  intros o s b W I F G. assert (I0 := I). unfold inv in I0. unfold step. destruct (dead s); [ destruct o; try contradiction; exact W | ].
  destruct o; try contradiction; try (rewrite see_other by exact Logic.I); try congruence.
  - unfold started, push. destruct (in_range s c); cbn [fst snd]; [ | exact W ]. set (s1 := insert_row _ _).
    assert (E : q s1 = q s /\ nid s1 = nid s) by (unfold s1, insert_row; destruct (existsb _ _); auto). destruct E as [E1 E2]. clearbody s1.
    intros m A. cbn [q set_nid set_q set_act app] in *. unfold see in *. cbn in *. rewrite E1, E2 in *.
    assert (K : m = nid s \/ asked b m).
    { destruct A as [[d A] | [k A]]; cbn in A. destruct (d =? c). inversion A; auto. right. left. eauto. right. right. eauto. }
    destruct K as [-> | K].
    + left. eexists. rewrite in_app_iff. cbn. split; [ right; left; reflexivity | split; [ exact Logic.I | reflexivity ] ].
    + destruct (W m K) as [[p (P1 & P2)] | X]; auto. left. exists p. rewrite in_app_iff. auto.
  - unfold stop. destruct (in_range s c); cbn [fst snd]; [ | exact W ]. destruct (act s c) as [t | ] eqn:A; [ | exact W ].
    destruct (i_act _ _ _ _ _ _ _ _ I0 c t A) as [m0 (A1 & _)].
    unfold stop_transaction, push. cbn [fst snd]. match goal with |- waiting _ (see ?o (?l1 ++ ?l2) b) => assert (E : see o (l1 ++ l2) b = see o l2 b) end.
    { unfold see. rewrite fold_left_app. f_equal. destruct why, unlock; reflexivity. }
    rewrite E. unfold see. cbn. rewrite A1. intros m K. cbn [q at_row set_rows set_stopped set_act set_nid set_q].
    assert (K' : asked b m).
    { destruct K as [[d K] | [k K]]; cbn in K. destruct (d =? c); [ discriminate | left; eauto ]. destruct K as [K | K]; [ inversion K; subst; left; eauto | right; eauto ]. }
    cbn [ans]. destruct (W m K') as [[p (P1 & P2)] | X]; auto. left. exists p. rewrite in_app_iff. auto.
  - unfold meter, push. destruct (in_range s c); cbn [fst snd]; [ | exact W ].
    assert (SE : forall p, see (Meter c periodic value last) [OPush p] b = b \/ exists m, see (Meter c periodic value last) [OPush p] b = Obs (cur b) (ostop b) m (ans b)).
    { intros [x y z v]. unfold see. cbn. destruct y; auto. destruct (if 0 <? c then cur b c else None); eauto. }
    assert (WM : forall s' p, (forall x, In x (q s) -> In x (q s')) -> waiting s' (see (Meter c periodic value last) [OPush p] b)).
    { intros s' p QQ m K. assert (K' : asked b m) by (destruct (SE p) as [E | [m' E]]; rewrite E in K; exact K).
      replace (ans (see (Meter c periodic value last) [OPush p] b)) with (ans b) by (destruct (SE p) as [E | [m' E]]; rewrite E; reflexivity).
      destruct (W m K') as [[x (P1 & P2)] | X]; auto. left. exists x. auto. }
    destruct (act s c) as [t | ].
    + destruct (periodic && _); [ exact W | ]. cbn [fst snd]. apply WM. intros x X. destruct last; [ destruct periodic | ]; destruct (0 <? c), (t_id t); cbn; apply in_app_iff; auto.
    + destruct periodic; [ exact W | ]. apply WM. intros x X. cbn. apply in_app_iff; auto.
  - unfold deliver. destruct (q s) as [ | p0 r ] eqn:Q; [ exact W | ]. destruct (send_head p0 (set_q s r)) as [s1 p] eqn:E.
    assert (H : q s1 = r /\ (is_start p -> p = p0) /\ (is_start p0 -> is_start p)).
    { unfold send_head in E. destruct (find _ _) as [[k i] | ] eqn:FF; inversion E; subst; cbn [q set_q set_txmap]; auto. split; auto.
      cbn [txmap set_q] in FF. destruct (i_tm _ _ _ _ _ _ _ _ I0 p0 i) as [X _]; [ now left | unfold look; now rewrite FF | ].
      unfold is_start, is_stop in *. cbn. destruct (p_body p0); cbn; tauto. }
    destruct H as (H1 & H2 & H3).
    assert (WR : forall m, waits (p0 :: r) m -> ~ (is_start p0 /\ p_init p0 = m) -> waits r m).
    { intros m [x ([<- | X] & B & C)] N. tauto. exists x; auto. }
    destruct (p_body p) eqn:PB.
    + assert (p = p0) as -> by (apply H2; unfold is_start; now rewrite PB).
      assert (QM : exists f, q (fst (start_conf (p_mid p0) tid ok parent inv s1)) = map f r /\ forall x, is_start x -> is_start (f x) /\ p_init (f x) = p_init x).
      { unfold start_conf. destruct (get_tx _ _) as [t | ]; cbn [fst]; [ | exists (fun x => x); rewrite H1, map_id; auto ].
        set (s2 := if t_fin t then _ else _). assert (E2 : q s2 = r) by (unfold s2, add_stopped_id; destruct (t_fin t), (t_emid t); auto). clearbody s2.
        set (l := match find (fun e => N.eqb (fst e) (p_mid p0)) (mvmap s2) with Some e => snd e | None => [] end).
        exists (fun p => if existsb (N.eqb (p_mid p)) l then P (p_mid p) (set_id tid (p_body p)) (p_init p) (p_orig p) else p). split.
        - cbn [q at_row set_rows]. rewrite <- E2. unfold change_tx. destruct (active_with _ _); reflexivity.
        - intros x X. destruct (existsb _ _); auto. split; auto. now apply set_id_start. }
      assert (SQ := start_conf_quiet (p_mid p0) tid ok parent inv s1). destruct (start_conf _ _ _ _ _ _) as [s2 o]. cbn [fst snd] in *.
      destruct QM as [f [QM FI]]. unfold see. cbn [fold_left]. change (fold_left _ o ?b) with (see (Deliver tid ok parent inv) o b). rewrite see_quiet by auto.
      destruct p0 as [x y z v]. cbn in PB. subst y. cbn [see1]. intros m K. rewrite QM. cbn [ans].
      assert (K' : asked b m) by exact K. destruct (W m K') as [X | [i X]]; [ | right; exists i; now right ]. rewrite Q in X.
      destruct (N.eq_dec z m) as [<- | NE]. right. exists tid. now left.
      left. apply waits_map; auto. apply WR; auto. cbn. tauto.
    + assert (NS : ~ is_start p0) by (intros X; apply H3 in X; unfold is_start in X; now rewrite PB in X).
      assert (QM : q (fst (stop_conf (p_mid p) id s1)) = r).
      { unfold stop_conf. assert (C : q (fst (match get_tx (p_mid p) s1 with Some t => execute_queued (t_conn t) s1 | None => (s1, []) end)) = r).
        { destruct (get_tx _ _) as [t | ]; auto. destruct (queued_all (t_conn t) s1) as (_ & _ & _ & _ & X & _). congruence. }
        destruct (match get_tx (p_mid p) s1 with Some t => execute_queued (t_conn t) s1 | None => (s1, []) end) as [s2 o2]. cbn [fst] in C.
        set (s3 := set_stopped _ _). assert (q s3 = r) by exact C. clearbody s3. destruct (fw s3); cbn; auto. }
      assert (SQ := stop_conf_quiet (p_mid p) id s1). destruct (stop_conf _ _ _) as [s2 o]. cbn [fst snd] in *.
      unfold see. cbn [fold_left]. change (fold_left _ o ?b) with (see (Deliver tid ok parent inv) o b). rewrite see_quiet by auto.
      destruct p as [x y z v]. cbn in PB. subst y. cbn [see1]. intros m K. rewrite QM. destruct (W m K) as [X | X]; auto. rewrite Q in X. left. apply WR; auto. tauto.
    + assert (NS : ~ is_start p0) by (intros X; apply H3 in X; unfold is_start in X; now rewrite PB in X).
      unfold see. cbn. destruct p as [x y z v]. cbn in PB. subst y. cbn [see1]. intros m K. rewrite H1. destruct (W m K) as [X | X]; auto. rewrite Q in X. left. apply WR; auto. tauto.
  - unfold sent. destruct (q s) as [ | p0 r ] eqn:Q; [ intros m K; cbn [fst]; rewrite Q; destruct (W m K) as [X | X]; auto; rewrite Q in X; auto | ]. destruct (send_head p0 s) as [s1 p] eqn:E. cbn [fst]. intros m K.
    destruct (send_head_waits _ _ _ _ _ m Q E) as (_ & X & _). cbn [q set_q]. destruct (W m K); auto.
  - unfold retry. destruct (q s) as [ | p0 r ] eqn:Q; [ intros m K; cbn [fst]; rewrite Q; destruct (W m K) as [X | X]; auto; rewrite Q in X; auto | ]. destruct (send_head p0 s) as [s1 p] eqn:E. cbn [fst]. intros m K.
    destruct (send_head_waits _ _ _ _ _ m Q E) as (_ & X & _). set (s2 := set_nid _ _).
    replace (q (match p_body p with BStart _ _ _ _ _ => change_tx (p_mid p) _ s2 | _ => s2 end)) with (P (nid s1) (p_body p) (p_init p) (p_orig p) :: r)
      by (destruct (p_body p); auto; unfold change_tx; destruct (active_with _ _); reflexivity).
    destruct (W m K) as [Y | Y]; auto. left. destruct (X Y) as [x ([<- | Z] & B & C)]. exists (P (nid s1) (p_body p) (p_init p) (p_orig p)). cbn. split; auto. exists x. cbn; auto.
  - intros m K. cbn [fst discard q set_q]. destruct (W m K) as [[x (A & B & C)] | Y]; auto. left. exists x. split; auto. apply filter_In. split; auto.
    unfold is_start in B. destruct (p_body x); try contradiction. now rewrite andb_false_r.
  - apply wait_core with (s := s); auto. apply avail_core.
  - apply wait_core with (s := s); auto. apply T16Proofs2.queued_core.
  - apply wait_core with (s := s); auto. apply firmware_core.
  - exact W.
  - exact W.
  - exact W.
  - exact W.
  - unfold change_interval. destruct (existsb _ _); exact W.
Qed.
Lemma wait_run : forall h s b, waiting s b -> inv s b -> fine (events h s) b -> ~ In GiveUp h -> waiting (fst (run h s)) (watch (events h s) b).
Proof.
  induction h as [ | o h IH ]; intros s b W I F G; auto. cbn [events fine] in F. destruct F as [F1 F2].
  assert (W1 := wait_step o s b W I F1). destruct (step_inv o s b I F1) as [I1 _]. cbn [events watch fold_left fst snd run In] in *.
  destruct (step o s) as [s1 o1]. cbn [fst snd] in *. specialize (IH s1 _ (W1 (fun E => G (or_introl E))) I1 F2 (fun E => G (or_intror E))). destruct (run h s1) as [s2 o2]. auto.
Qed.
Lemma sent_head : forall o s p, In (OSend p) (snd (step o s)) -> (forall r x, o <> Boot r x) -> exists p0 r, q s = p0 :: r /\ p_init p = p_init p0 /\ p_mid p = p_mid p0 /\ p_orig p = p_orig p0 /\ (p_body p = p_body p0 \/ exists i, p_body p = set_id i (p_body p0)).
Proof.
  intros o s p X NB.
  assert (SH : forall s0 p0 s1 p1, send_head p0 s0 = (s1, p1) -> p_init p1 = p_init p0 /\ p_mid p1 = p_mid p0 /\ p_orig p1 = p_orig p0 /\ (p_body p1 = p_body p0 \/ exists i, p_body p1 = set_id i (p_body p0))).
  { intros s0 p0 s1 p1. unfold send_head. destruct (find _ _); intros H; inversion H; subst; cbn; eauto 8. }
  assert (QN : forall l, Forall quiet l -> ~ In (OSend p) l) by (intros l FQ Y; rewrite Forall_forall in FQ; now apply FQ in Y).
  revert X. unfold step. destruct (dead s). destruct o; cbn; try contradiction. intros _; exfalso; eapply NB; reflexivity.
  destruct o; intros X; try (exfalso; eapply NB; reflexivity).
  - unfold started, push in X. destruct (in_range s c); cbn in X; intuition discriminate.
  - unfold stop, stop_transaction, push in X. destruct (in_range s c), (act s c); cbn [snd] in X; rewrite ?in_app_iff in X; destruct why, unlock; cbn in X; intuition discriminate.
  - unfold meter, push in X. destruct (in_range s c), (act s c); cbn in X; try (intuition discriminate); [ destruct (periodic && _) | destruct periodic ]; cbn in X; intuition discriminate.
  - unfold deliver in X. destruct (q s) as [ | p0 r ]; [ destruct X | ]. destruct (send_head p0 _) as [s1 p1] eqn:E. apply SH in E. exists p0, r. split; auto.
    destruct (p_body p1) eqn:PB; rewrite <- PB in E.
    + assert (Q := start_conf_quiet (p_mid p1) tid ok parent inv s1). destruct (start_conf _ _ _ _ _ _). cbn in X, Q. destruct X as [X | X]. inversion X; subst; exact E. now apply QN in X.
    + assert (Q := stop_conf_quiet (p_mid p1) id s1). destruct (stop_conf _ _ _). cbn in X, Q. destruct X as [X | X]. inversion X; subst; exact E. now apply QN in X.
    + cbn in X. destruct X as [X | []]. inversion X; subst; exact E.
  - unfold sent in X. destruct (q s) as [ | p0 r ]; [ destruct X | ]. destruct (send_head p0 _) as [s1 p1] eqn:E. apply SH in E. exists p0, r. split; auto. destruct X as [X | []]. inversion X; subst; exact E.
  - unfold retry in X. destruct (q s) as [ | p0 r ]; [ destruct X | ]. destruct (send_head p0 _) as [s1 p1] eqn:E. apply SH in E. exists p0, r. split; auto. destruct X as [X | []]. inversion X; subst; exact E.
  - unfold give_up in X. destruct (q s) as [ | p0 r ]; [ destruct X | ]. destruct (send_head p0 _) as [s1 p1] eqn:E. apply SH in E. exists p0, r. split; auto. destruct X as [X | []]. inversion X; subst; exact E.
  - destruct X.
  - exfalso. revert X. apply QN. unfold change_availability, preprocess. destruct (_ && _); cbn; [ | repeat constructor ].
    destruct (filter _ _); cbn; constructor; try exact Logic.I; match goal with |- Forall quiet (flat_map _ ?l) => pose proof (execute_quiet l up true s) as Y end; exact Y.
  - exfalso. revert X. apply QN. unfold execute_queued. destruct (avq s c) as [[u x] | ]; [ apply execute_quiet | constructor ].
  - exfalso. unfold firmware in X.
    assert (Q : forall b : bool, Forall quiet (snd (if b then all_unavailable (set_fw s b) else (set_fw s b, [])))) by (intros []; [ apply all_quiet | constructor ]).
    assert (FE : forall s1, ~ In (OSend p) (if fw_ends x then flat_map (fun c => if avdb s1 c then (if c =? 0 then [OZero true] else []) ++ [OEnable c] else []) (slots s1) else [])).
    { intros s1 Y. destruct (fw_ends x); try contradiction. apply in_flat_map in Y as [i [_ Y]]. destruct (avdb s1 i); try contradiction. apply in_app_iff in Y as [Y | Y]; destruct (i =? 0); cbn in Y; intuition discriminate. }
    destruct (fw_next _ _ _) as [b | ].
    + specialize (Q b). destruct (if b then _ else _) as [s2 o2]. cbn [snd] in X. apply in_app_iff in X as [X | X]. now apply QN in X. now apply FE in X.
    + cbn [snd app] in X. now apply FE in X.
  - cbn in X. unfold remote_stop in X. destruct X as [X | X]; [ discriminate | ]. destruct (0 <? _); cbn in X; intuition discriminate.
  - cbn in X. unfold remote_start in X. repeat (match type of X with context [if ?b then _ else _] => destruct b | context [match ?x with Some _ => _ | None => _ end] => destruct x as [[? ?] | ] || destruct x end; cbn in X; try (intuition discriminate)).
  - cbn in X. unfold unlock in X. rewrite in_app_iff in X. destruct X as [X | [X | X]]; try discriminate. destruct (negb _); cbn in X; intuition discriminate.
    destruct (if negb _ then answer else NotSupported); try contradiction. destruct (in_range s c); [ destruct (_ && _) | ]; cbn in X; intuition discriminate.
  - cbn in X. destruct X as [X | X]; try discriminate. destruct allowed; try contradiction. unfold stop_all in X. apply in_map_iff in X as [y [X _]]. discriminate.
  - unfold change_interval in X. destruct (existsb _ _); cbn in X; intuition discriminate.
Qed.
Lemma answered_before_stop : forall o s b p, inv s b -> waiting s b -> fine1 o b -> In (OSend p) (snd (step o s)) -> is_stop p ->
  exists m i, In (p_init p, m) (ostop b) /\ In (m, i) (ans b) /\ stop_id p = Some i.
Proof.
  intros o s b p I W F X S. destruct (step_inv o s b I F) as [_ T]. destruct (T p X S) as [m [A B]].
  destruct (sent_head o s p X (fine1_no_boot o b F)) as [p0 [r (Q & E & _)]]. exists m.
  destruct (W m) as [[x (X1 & X2 & X3)] | [i Y]]; [ right; eauto | | exists i; auto ]. exfalso.
  destruct (i_ostop _ _ _ _ _ _ _ _ I _ _ A) as (_ & L & _). assert (SS := i_sorted _ _ _ _ _ _ _ _ I). rewrite Q in SS, X1. cbn [map] in SS. inversion SS; subst.
  destruct X1 as [<- | X1]. rewrite E in L. lia. rewrite Forall_forall in H2. assert (L2 : (p_init p0 < p_init x)%N) by (apply H2; now apply in_map). lia.
Qed.
