(** Proofs about the message queue, fourth part: restart, queue size, pause, promises, dispatcher, refutations. *)
From Coq Require Import List ZArith NArith Bool Lia Permutation.
From Verif Require Import MQModel MQSpec MQProofs MQProofs2 MQProofs3.
Import ListNotations.
Open Scope Z_scope.

(** ** C04: the database mirrors what is owed; a restart recovers it *)

Lemma db_mirror c os :
  let v := c_ver c in
  same_version v os -> NoDup (pushes v os) ->
  let s := final (fresh c) os in
  map row_data (s_dbt s) = map msg_data (owed v s).
Proof.
  cbn zeta. intros Hv Hn. destruct (run_inv (c_ver c) os (fresh c) (Inv_fresh c) Hv Hn) as [(_ & H & _) _]. exact H.
Qed.

Lemma filter_map_comm {A B} (f : A -> B) (p : B -> bool) (q : A -> bool) l :
  (forall x, q x = p (f x)) -> map f (filter q l) = filter p (map f l).
Proof.
  intros H. induction l as [|x l IH]; cbn; [reflexivity|]. rewrite H. destruct (p (f x)); cbn; rewrite IH; reflexivity.
Qed.

Lemma restart_recovers c os c' ig :
  let v := c_ver c in
  same_version v os -> NoDup (pushes v os) -> c_ver c' = v ->
  let s := final (fresh c) os in
  let s' := fst (step s (Restart c' ig)) in
  map msg_data (owed v s') =
    filter (fun d => negb (ig && match snd (fst (fst d)) with TSecurity => true | _ => false end)) (map msg_data (owed v s)) /\
  s_fl s' = None /\ s_acc s' = false /\ s_paused s' = true /\ s_running s' = true /\ s_dead s' = false /\
  Forall (fun m => m_stall m = true /\ m_id m = m_init m) (s_nq s' ++ s_tq s') /\
  (s_tq s' <> [] -> s_new s' = true).
Proof.
  cbn zeta. intros Hv Hn Hc. destruct (run_inv (c_ver c) os (fresh c) (Inv_fresh c) Hv Hn) as [HI _].
  set (s := final (fresh c) os) in *. clearbody s. pose proof HI as (H1 & H2 & _ & _ & H5 & _).
  set (v := c_ver c) in *. clearbody v. cbn [step fst].
  pose proof (load_persisted_fields ig (init c' (s_dbn s) (s_dbt s) (s_gh s) (s_done s))) as
    (E1 & E2 & E3 & E4 & E5 & h1 & h2 & E6 & E7 & E8 & E9).
  assert (En : s_dbt s <> [] -> s_new (load_persisted ig (init c' (s_dbn s) (s_dbt s) (s_gh s) (s_done s))) = true).
  { intros Hne. unfold load_persisted. cbn. destruct (s_dbn s); [destruct (s_dbt s); [congruence|]|]; reflexivity. }
  assert (Ed : s_dead (load_persisted ig (init c' (s_dbn s) (s_dbt s) (s_gh s) (s_done s))) = false).
  { unfold load_persisted. cbn. destruct (s_dbn s); [destruct (s_dbt s)|]; reflexivity. }
  set (s' := load_persisted ig _) in *. clearbody s'. cbn in E1, E2, E3, E4, E5, E6, E7, E8.
  assert (St : forall h l, Forall (fun m => m_stall m = true /\ m_id m = m_init m) (number_rows h l)).
  { intros h l; revert h; induction l as [|r l IH]; intros h; cbn; constructor; auto. }
  repeat split; auto.
  - rewrite owed_idle by assumption. rewrite E7, number_rows_data by (apply Forall_filter; assumption). rewrite <- H2.
    apply filter_map_comm. intros r. cbn. destruct (r_type r); reflexivity.
  - rewrite E6, E7. apply Forall_app; split; apply St.
  - intros Hne. apply En. intros E. apply Hne. rewrite E7, E. reflexivity.
Qed.

(** ** C06: nothing but boot traffic before acceptance *)

Definition early_ok (l : list N) (m : msg) : Prop := m_stall m = true \/ m_type m = TBoot \/ In (m_init m) l.

Definition early_inv (l : list N) (d : station) : Prop :=
  d_reg d = false /\ s_acc (d_q d) = false /\
  (s_dead (d_q d) = true \/ (Forall (early_ok l) (held (d_q d)) /\ forall m, s_fl (d_q d) = Some m -> early_ok l m)).

Lemma early_ok_core l m : early_ok l (core m) <-> early_ok l m.
Proof. reflexivity. Qed.

Lemma early_mono l l' m : incl l l' -> early_ok l m -> early_ok l' m.
Proof. intros H [?|[?|?]]; [left|right; left|right; right]; auto. Qed.

Lemma early_vstep l s o : (forall c i, o <> Restart c i) ->
  (s_dead s = true \/ (Forall (early_ok l) (held s) /\ forall m, s_fl s = Some m -> early_ok l m)) ->
  Forall (early_ok l) (pushed s o) ->
  s_dead (fst (step s o)) = true \/
  (Forall (early_ok l) (held (fst (step s o))) /\ forall m, s_fl (fst (step s o)) = Some m -> early_ok l m).
Proof.
  intros Hr H Hp.
  assert (Hdead : s_dead s = true -> s_dead (fst (step s o)) = true).
  { intros Hd. destruct o; cbn [step]; rewrite ?Hd; auto. exfalso; eapply Hr; reflexivity. }
  destruct H as [H|[H1 H2]]; [left; auto|].
  assert (Hcy : forall y x, core y = bump (core x) -> early_ok l x -> early_ok l y).
  { intros y x E Hx. change (early_ok l (core y)). rewrite E. exact Hx. }
  destruct (step_vstep s o Hr) as
    [D|Q F H|y0 y rest now E1 E2 E3 E4 E5 E6 E7|y0 y rest now l' E1 E2 E3 E4 E5 E6 E7 E8|m E1 E2 E3 E4|m E1 E2 E3 E4 E5].
  - left; assumption.
  - right. split; [|rewrite F; assumption]. eapply sub_forall; [exact H|]. apply Forall_app; split; assumption.
  - right. assert (A : Forall (early_ok l) (core y0 :: rest)).
    { eapply Permutation_Forall; [exact E3|assumption]. }
    inversion A; subst. split.
    + eapply Permutation_Forall; [symmetry; exact E6|assumption].
    + intros m Hm. rewrite E4 in Hm. inversion Hm; subst. eapply Hcy; [exact E5|]. apply early_ok_core; assumption.
  - right. assert (A : Forall (early_ok l) (core y0 :: rest)).
    { eapply Permutation_Forall; [exact E3|assumption]. }
    inversion A; subst. split.
    + eapply sub_forall; [exact E6|]. constructor; [|assumption]. apply early_ok_core. eapply Hcy; [exact E5|].
      apply early_ok_core; assumption.
    + rewrite E4. discriminate.
  - right. rewrite E2, E3. split; [assumption|discriminate].
  - right. rewrite E2. split; [|discriminate]. eapply Permutation_Forall; [symmetry; exact E3|]. constructor; auto.
    apply early_ok_core; auto.
Qed.

Lemma acc_step s o : o <> Accept -> s_acc s = false -> s_acc (fst (step s o)) = false.
Proof.
  intros Hn Ha.
  assert (Hcs : forall s, s_acc (fst (check_sizes s)) = s_acc s).
  { intros s0. unfold check_sizes. destruct (over _ _ _); [|reflexivity].
    destruct (drop_normal _ _ _ _), (drop_tx _ _ _ _ _). reflexivity. }
  assert (Hfi : forall s, s_acc (finish_iteration s) = s_acc s).
  { intros s0. unfold finish_iteration. destruct (no_messages s0); reflexivity. }
  assert (Hhf : forall e i t z, s_acc (fst (handle_failure e i t z)) = s_acc z).
  { intros e i t z. unfold handle_failure. destruct (s_fl z); [|reflexivity].
    destruct (is_tx _ _); cbn [orb]; [|destruct (check_queue _ _)].
    - destruct (_ <? _); [reflexivity|]. destruct (resolvable _ _); reflexivity.
    - destruct (_ <? _); [reflexivity|]. destruct (resolvable _ _); reflexivity.
    - destruct (mtype_eqb _ _); [reflexivity|]. destruct (resolvable _ _); reflexivity. }
  destruct (s_dead s) eqn:Ed; [destruct o; cbn [step]; rewrite ?Ed; auto|].
  1: { cbn [fst]. match goal with |- context [load_persisted ?a ?b] => destruct (load_persisted_fields a b) as (_ & _ & -> & _) end. reflexivity. }
  destruct o; cbn [step]; rewrite ?Ed; try assumption.
  - unfold push_call. destruct (negb _); [assumption|]. destruct (is_tx _ _).
    + unfold add_tx. rewrite Hcs. assumption.
    + destruct (_ || _); [|assumption]. unfold add_normal. rewrite Hcs. assumption.
  - unfold push_call_async. destruct (negb _); [assumption|]. destruct (is_tx _ _).
    + unfold add_tx. rewrite Hcs. assumption.
    + destruct (_ && _); [assumption|]. unfold add_normal. rewrite Hcs. assumption.
  - unfold push_reply. destruct (negb _); [assumption|]. destruct (s_next s); [destruct (N.eqb _ _)|]; assumption.
  - assert (T : forall sel x, s_acc (fst (transmit sel x now ok s)) = s_acc s).
    { intros sel x. unfold transmit. destruct ok; [cbn; rewrite Hfi; destruct sel; reflexivity|].
      destruct (is_tx _ _); [cbn; rewrite Hfi; destruct sel; reflexivity|].
      destruct (check_queue _ _); [cbn; rewrite Hfi; destruct sel; reflexivity|].
      destruct sel; try (destruct (resolvable _ _)); cbn; rewrite ?Hfi; reflexivity. }
    unfold work. destruct (negb _); [assumption|]. destruct (negb _); [assumption|].
    unfold iterate. destruct (no_messages s); [assumption|]. destruct (s_paused s); [assumption|].
    destruct (s_fl s); [assumption|]. destruct (select s now) as [|a b d|b d]; [assumption| |];
    (destruct (held_back s b); [assumption|]);
    [specialize (T (SelNormal a b d) b); destruct (transmit (SelNormal a b d) b now ok s)|
     specialize (T (SelTx b d) b); destruct (transmit (SelTx b d) b now ok s)]; cbn in *; congruence.
  - unfold recv_result. destruct (s_fl s); [|assumption]. destruct (N.eqb _ _); [|assumption].
    unfold handle_call_result. destruct (resolvable _ _); [|assumption]. cbn.
    destruct (is_tx _ _); [|destruct (check_queue _ _)]; assumption.
  - unfold recv_error_begin. destruct (s_fl s); [|assumption]. destruct (N.eqb _ _); assumption.
  - unfold recv_error_end. destruct (s_errs s); [assumption|]. rewrite Hhf. assumption.
  - unfold recv_error. destruct (s_fl s); [|assumption]. destruct (N.eqb _ _); [|assumption]. rewrite Hhf. assumption.
  - unfold timer_expire. destruct (s_armed s) as [t|]; [destruct (t <=? now)|]; assumption.
  - unfold timer_run. destruct (s_fired s); [|assumption]. rewrite Hhf. assumption.
  - destruct (s_armed s) as [t|]; [destruct (t <=? now)|]; try assumption. rewrite Hhf. assumption.
  - destruct (s_nt s) as [t|]; [destruct (t <=? now)|]; assumption.
  - cbn [fst]. unfold resume. destruct (negb _); [assumption|]. destruct (_ && _); [assumption|].
    unfold resume_now. destruct (N.eqb _ _); assumption.
  - cbn [fst]. unfold resume_timer. destruct (existsb _ _); [|assumption]. unfold resume_now. destruct (N.eqb _ _); assumption.
  - congruence.
  - cbn [fst]. unfold add_meter_id. destruct (lookup _ _); assumption.
  - cbn [fst]. unfold start_handled. destruct (lookup _ _); assumption.
  - cbn [fst]. match goal with |- context [load_persisted ?a ?b] => destruct (load_persisted_fields a b) as (_ & _ & -> & _) end. reflexivity.
Qed.

Definition early_send (l : list N) (x : out) : Prop :=
  match x with OSend m _ => m_type m = TBoot \/ In (m_init m) l | _ => True end.

Lemma early_step l s o : o <> Accept -> s_acc s = false ->
  (s_dead s = true \/ (Forall (early_ok l) (held s) /\ forall m, s_fl s = Some m -> early_ok l m)) ->
  Forall (early_ok l) (pushed s o) ->
  s_acc (fst (step s o)) = false /\
  (s_dead (fst (step s o)) = true \/
   (Forall (early_ok l) (held (fst (step s o))) /\ forall m, s_fl (fst (step s o)) = Some m -> early_ok l m)) /\
  Forall (early_send l) (snd (step s o)).
Proof.
  intros Hn Ha H Hp. split; [apply acc_step; assumption|]. split.
  - destruct o as [| | | | | | | | | | | | | | | | | | | | | | | | |c ig]; try (apply early_vstep; auto; discriminate).
    right. cbn [step fst]. match goal with |- context [load_persisted ?a ?b] =>
      destruct (load_persisted_fields a b) as (_ & E2 & _ & _ & _ & h1 & h2 & E3 & E4 & _) end.
    set (s' := load_persisted _ _) in *. clearbody s'. cbn in E2, E3, E4.
    assert (St : forall h q, Forall (early_ok l) (map core (number_rows h q))).
    { intros h q; revert h; induction q as [|r q IH]; intros h; cbn; constructor; auto. left; reflexivity. }
    split; [|rewrite E2; discriminate]. unfold held. rewrite E3, E4, map_app. apply Forall_app; split; apply St.
  - apply Forall_forall. intros x Hx. destruct x; cbn; auto.
    apply transmits_only_due in Hx as (now & m' & -> & Hd & (Hc1 & _) & Hs & _).
    destruct Hs as (_ & Ht & _ & Hi & _ & _ & _ & _ & Hst).
    destruct H as [H|[H _]]; [congruence|].
    assert (Hin : In (core m') (held s)).
    { unfold held. apply in_map. apply in_or_app. destruct Hd as [m' rest E _ _|m' (pre & post & E & _) _].
      - right. rewrite E. left; reflexivity.
      - left. rewrite E. apply in_or_app; right; left; reflexivity. }
    rewrite Forall_forall in H. specialize (H _ Hin). apply (proj1 (early_ok_core l m')) in H.
    destruct H as [H|[H|H]]; [|left; congruence|right; congruence].
    exfalso. assert (Hr : ready s now m') by (destruct Hd as [m' rest E R _|m' (pre & post & E & R & _) _]; exact R).
    destruct Hr as [Hr _]. apply Hr in H. congruence.
Qed.

Lemma drun_cons d o ds : drun d (o :: ds) = (fst (drun (fst (dstep d o)) ds), snd (dstep d o) ++ snd (drun (fst (dstep d o)) ds)).
Proof. cbn. destruct (dstep d o) as [d1 t1]. cbn. destruct (drun d1 ds). reflexivity. Qed.

Lemma early_dstep l d o : not_accepted [o] -> incl (triggered_ids [o]) l -> early_inv l d ->
  early_inv l (fst (dstep d o)) /\ Forall (early_send l) (snd (dstep d o)).
Proof.
  intros Hn Hl (I1 & I2 & I3). inversion Hn as [|? ? Hno _]; subst.
  assert (Go : forall p, p <> Accept -> Forall (early_ok l) (pushed (d_q d) p) ->
     early_inv l (fst (let '(q, t) := step (d_q d) p in (Station (d_reg d) q, t))) /\
     Forall (early_send l) (snd (let '(q, t) := step (d_q d) p in (Station (d_reg d) q, t)))).
  { intros p Hp1 Hp2. destruct (early_step l (d_q d) p Hp1 I2 I3 Hp2) as (A & B & C).
    destruct (step (d_q d) p) as [q t]. cbn in *. split; [|assumption]. split; [assumption|]. split; assumption. }
  assert (Same : early_inv l d /\ Forall (early_send l) []) by (split; [split; [|split]; assumption|constructor]).
  destruct o as [k tr qa now|k tr qa now|b|o]; cbn [dstep].
  - unfold dispatch_call, transmission_priority. rewrite I1 in *. cbn [orb].
    destruct (mtype_eqb (k_type k) TBoot) eqn:Eb; cbn [orb].
    + apply Go; [discriminate|]. constructor; [|constructor]. right; left. apply mtype_eqb_eq; assumption.
    + destruct tr.
      * apply Go; [discriminate|]. constructor; [|constructor]. right; right. apply Hl. left; reflexivity.
      * destruct (_ || _); [|exact Same]. apply Go; [discriminate|]. constructor; [|constructor]. left; reflexivity.
  - unfold dispatch_call_async, transmission_priority. rewrite I1 in *. cbn [orb].
    destruct (mtype_eqb (k_type k) TBoot) eqn:Eb; cbn [orb].
    + apply Go; [discriminate|]. constructor; [|constructor]. right; left. apply mtype_eqb_eq; assumption.
    + destruct (match c_ver (s_cfg (d_q d)) with V16 => tr | V2 => false end) eqn:Et.
      * apply Go; [discriminate|]. constructor; [|constructor]. right; right. apply Hl.
        destruct (c_ver _); [|discriminate]. subst tr. left; reflexivity.
      * destruct (_ || _); exact Same.
  - cbn in *. subst b. split; [|constructor]. split; [reflexivity|]. split; assumption.
  - apply Go; [destruct o; discriminate || contradiction|].
    destruct o; cbn; try constructor; contradiction.
Qed.

Lemma early_drun l ds : forall d, not_accepted ds -> incl (triggered_ids ds) l -> early_inv l d ->
  Forall (early_send l) (snd (drun d ds)).
Proof.
  induction ds as [|o ds IH]; intros d Hn Hl Hi; [constructor|].
  rewrite drun_cons. cbn [snd]. inversion Hn as [|? ? Hn1 Hn2]; subst.
  assert (Hl' : incl (triggered_ids [o]) l /\ incl (triggered_ids ds) l).
  { unfold triggered_ids in *. cbn [flat_map] in *. rewrite app_nil_r. split; intros x Hx; apply Hl, in_or_app; auto. }
  destruct (early_dstep l d o) as [A B]; try tauto; [constructor; auto|].
  apply Forall_app; split; [assumption|]. apply IH; tauto.
Qed.

Lemma nothing_before_acceptance c ds m b :
  not_accepted ds -> In (OSend m b) (snd (drun (Station false (fresh c)) ds)) ->
  m_type m = TBoot \/ In (m_init m) (triggered_ids ds).
Proof.
  intros Hn H. assert (A : Forall (early_send (triggered_ids ds)) (snd (drun (Station false (fresh c)) ds))).
  { apply early_drun; [assumption|apply incl_refl|]. split; [reflexivity|]. split; [reflexivity|]. right. split; [constructor|discriminate]. }
  rewrite Forall_forall in A. apply A in H. exact H.
Qed.

(** ** C07: the size policy *)

Lemma drop_updates_none v q : snd (drop_updates v true q) = [] ->
  forall a m b, q = a ++ m :: b -> update_msg v m -> (length b <= 1)%nat.
Proof.
  intros H a m b -> Hu. apply is_update_spec in Hu. induction a as [|x a IH]; cbn [app drop_updates] in H.
  - rewrite Hu in H. cbn [andb] in H. destruct (1 <? qlen b) eqn:E; [destruct (drop_updates v false b); discriminate|].
    unfold qlen in E. lia.
  - destruct (_ && _); [destruct (drop_updates v false _); discriminate|].
    destruct (drop_updates v true (a ++ m :: b)); auto.
Qed.

Lemma drop_updates_tail v f q k d : drop_updates v f q = (k, d) ->
  forall a b, q = a ++ b -> (length b <= 2)%nat -> exists a', k = a' ++ b.
Proof.
  revert f k d; induction q as [|m q IH]; intros f k d; cbn [drop_updates]; intros H a b E L.
  - inversion H; subst. destruct a; [|discriminate]. cbn in E. subst. exists []. reflexivity.
  - destruct a as [|x a]; cbn in E.
    + destruct b as [|y b]; [discriminate|]. inversion E; subst.
      assert ((f && is_update v y && (1 <? qlen b)) = false) as E0.
      { assert (1 <? qlen b = false) as -> by (unfold qlen; cbn in L; lia). apply andb_false_r. }
      rewrite E0 in H. destruct (drop_updates v true b) as [k' d'] eqn:E'. inversion H; subst.
      destruct (IH _ _ _ E' [] b eq_refl) as (a' & ->); [cbn in L; lia|].
      destruct (drop_updates_length _ _ _ _ _ E'). destruct a' as [|z a']; [exists []; reflexivity|].
      exfalso. apply drop_updates_length in E'. cbn in E'. rewrite app_length in E'. lia.
    + inversion E; subst. destruct (f && is_update v x && _).
      * destruct (drop_updates v false (a ++ b)) as [k' d'] eqn:E'. inversion H; subst.
        eapply IH; eauto.
      * destruct (drop_updates v true (a ++ b)) as [k' d'] eqn:E'. inversion H; subst.
        destruct (IH _ _ _ E' a b eq_refl L) as (a' & ->). exists (x :: a'). reflexivity.
Qed.

Lemma drop_tx_tail fuel v thr nq : forall tq k d, drop_tx fuel v thr nq tq = (k, d) ->
  forall a b, tq = a ++ b -> (length b <= 2)%nat -> exists a', k = a' ++ b.
Proof.
  induction fuel as [|n IH]; intros tq k d; cbn [drop_tx]; intros H a b E L.
  - inversion H; subst. eauto.
  - destruct (over thr nq tq); [|inversion H; subst; eauto].
    destruct (drop_updates v true tq) as [tq' d1] eqn:E1.
    destruct (drop_updates_tail _ _ _ _ _ E1 a b E L) as (a1 & Ea1).
    destruct d1; [inversion H; subst; eauto|].
    destruct (drop_tx n v thr nq tq') as [tq'' d'] eqn:E2. inversion H; subst k d.
    eapply IH; eauto.
Qed.

Lemma drop_normal_bound fuel thr nq tq nq' d : 0 <= thr ->
  drop_normal fuel thr nq tq = (nq', d) -> d <> [] ->
  thr < qlen nq' + qlen tq + Z.max (thr / 10) 1.
Proof.
  intros Ht. revert nq nq' d; induction fuel as [|n IH]; intros nq nq' d; cbn [drop_normal]; intros H Hd;
    [inversion H; subst; congruence|].
  destruct (over thr nq tq && _) eqn:E; [|inversion H; subst; congruence].
  destruct (drop_normal n thr (skipn (drop_count thr nq) nq) tq) as [a b] eqn:E1. inversion H; subst.
  destruct b as [|z b].
  - apply andb_prop in E as [E E0]. unfold over, thr_size in E. assert (thr <? 0 = false) as Et by lia. rewrite Et in E.
    assert (nq' = skipn (drop_count thr nq) nq).
    { destruct n; cbn in E1; [inversion E1; reflexivity|]. destruct (over thr _ tq && _) eqn:E2; [|inversion E1; reflexivity].
      destruct (drop_normal n thr _ tq) eqn:E3 in E1. exfalso. inversion E1 as [[H1 H2]].
      apply app_eq_nil in H2 as [H2 _]. apply andb_prop in E2 as [_ E2].
      destruct (skipn (drop_count thr nq) nq) as [|m0 q0] eqn:Es; [discriminate|].
      assert (Hc : (1 <= drop_count thr (m0 :: q0))%nat) by (unfold drop_count, qlen; cbn [length]; lia).
      destruct (drop_count thr (m0 :: q0)); [lia|discriminate]. }
    subst. unfold qlen in *. rewrite skipn_length. unfold drop_count, qlen.
    rewrite Z.quot_div_nonneg by lia. lia.
  - eapply IH; [exact E1|discriminate].
Qed.

Lemma size_policy s : 0 <= c_thr (s_cfg s) ->
  let s' := fst (check_sizes s) in
  let thr := c_thr (s_cfg s) in
  let v := c_ver (s_cfg s) in
  exists dn dt,
    snd (check_sizes s) = map (fun m => ODrop m DropOverflow) (dn ++ dt) /\
    s_nq s = dn ++ s_nq s' /\
    subseq (s_tq s') (s_tq s) /\ Permutation (s_tq s' ++ dt) (s_tq s) /\ Forall (update_msg v) dt /\
    (total s <= thr -> dn = [] /\ dt = []) /\
    (dt <> [] -> s_nq s' = []) /\
    (total s' <= thr \/
     (s_nq s' = [] /\ forall a m b, s_tq s' = a ++ m :: b -> update_msg v m -> (length b <= 1)%nat)) /\
    (dn <> [] -> thr < Z.of_nat (length (s_nq s')) + Z.of_nat (length (s_tq s)) + Z.max (thr / 10) 1) /\
    (forall a b, s_tq s = a ++ b -> (length b <= 2)%nat -> exists a', s_tq s' = a' ++ b) /\
    s_fl s' = s_fl s.
Proof.
  intros Ht. cbn zeta. unfold check_sizes.
  assert (Ov : forall a b, over (c_thr (s_cfg s)) a b = (c_thr (s_cfg s) <? qlen b + qlen a)).
  { intros a b. unfold over, thr_size. assert (c_thr (s_cfg s) <? 0 = false) as -> by lia. reflexivity. }
  destruct (over _ (s_nq s) (s_tq s)) eqn:E.
  - destruct (drop_normal _ _ _ _) as [nq' dn] eqn:En. destruct (drop_tx _ _ _ _ _) as [tq' dt] eqn:Et.
    destruct (drop_normal_spec _ _ _ _ _ _ (le_n _) En) as [N1 N2].
    destruct (drop_tx_split _ _ _ _ _ _ _ Et) as (T1 & T2 & T3).
    pose proof (drop_tx_exit _ _ _ _ _ _ _ (Nat.lt_succ_diag_r _) Et) as T4.
    exists dn, dt. cbn [fst snd]. cbn.
    split; [reflexivity|]. split; [exact N1|]. split; [exact T1|]. split; [exact T3|].
    split. { eapply Forall_impl; [|exact T2]. intros m Hm. apply is_update_spec. exact Hm. }
    split. { intros Hle. exfalso. rewrite Ov in E. unfold total, qlen in *. lia. }
    assert (Hex : dt <> [] -> nq' = []).
    { intros Hd. destruct N2 as [N2|N2]; [assumption|]. exfalso. cbn [drop_tx] in Et. rewrite N2 in Et. inversion Et. congruence. }
    split; [exact Hex|].
    split.
    { destruct T4 as [T4|T4].
      - left. rewrite Ov in T4. unfold total, qlen in *. cbn. lia.
      - destruct N2 as [N2|N2].
        + right. split; [exact N2|]. apply drop_updates_none. exact T4.
        + left. cbn [drop_tx] in Et. rewrite N2 in Et. inversion Et; subst. rewrite Ov in N2. unfold total, qlen in *. cbn. lia. }
    split. { intros Hd. apply (drop_normal_bound _ _ _ _ _ _ Ht En Hd). }
    split; [|reflexivity]. eapply drop_tx_tail; exact Et.
  - exists [], []. cbn. split; [reflexivity|]. split; [reflexivity|]. split; [apply subseq_refl|].
    split; [rewrite app_nil_r; apply Permutation_refl|]. split; [constructor|]. split; [auto|]. split; [congruence|].
    split. { left. rewrite Ov in E. unfold total, qlen in *. lia. }
    split; [congruence|]. split; [|reflexivity]. intros a b -> _. eauto.
Qed.

(** What a push adds before the size policy is applied. *)
Lemma push_then_policy s k now stall : s_dead s = false -> s_running s = true ->
  (transactional (c_ver (s_cfg s)) (k_type k) = true \/ s_paused s = false \/ s_resuming s = true \/ k_type k = TBoot \/
   (c_qall (s_cfg s) = true /\ ~ In (k_type k) (c_discard (s_cfg s)))) ->
  exists s1 m, step s (Push k now stall) = check_sizes s1 /\ s_cfg s1 = s_cfg s /\ s_fl s1 = s_fl s /\ s_new s1 = true /\
    m_type m = k_type k /\ m_id m = k_id k /\ m_init m = k_id k /\ m_att m = 0 /\ m_ts m = now /\ m_stall m = stall /\
    m_upd m = k_upd k /\ m_tx m = k_tx k /\ m_body m = k_body k /\ m_h m = s_gh s /\ s_gh s1 = (s_gh s + 1)%N /\
    (if transactional (c_ver (s_cfg s)) (k_type k) then s_tq s1 = s_tq s ++ [m] /\ s_nq s1 = s_nq s
     else s_tq s1 = s_tq s /\ s_nq s1 = match k_type k with TBoot => m :: s_nq s | _ => s_nq s ++ [m] end).
Proof.
  intros Hd Hr Hc. cbn [step]. rewrite Hd. unfold push_call. rewrite Hr. cbn [negb]. rewrite is_tx_spec.
  destruct (transactional _ _) eqn:Et.
  - eexists _, (mk_msg (s_gh s) k now stall). split; [reflexivity|]. cbn. repeat split.
  - assert (negb (s_paused s) || s_resuming s || check_queue (s_cfg s) (k_type k) || mtype_eqb (k_type k) TBoot = true) as ->.
    { destruct Hc as [Hc|[Hc|[Hc|[Hc|Hc]]]].
      - congruence.
      - rewrite Hc. reflexivity.
      - rewrite Hc, orb_true_r. reflexivity.
      - rewrite Hc, orb_true_r. reflexivity.
      - assert (check_queue (s_cfg s) (k_type k) = true) as ->; [|rewrite orb_true_r; reflexivity].
        pose proof (proj2 (retryable_spec (s_cfg s) (k_type k)) (or_intror Hc)) as R. rewrite is_tx_spec, Et in R. exact R. }
    eexists _, (mk_msg (s_gh s) k now stall). split; [reflexivity|]. cbn. destruct (k_type k); repeat split.
Qed.

(** A non-transactional message pushed while paused (and not resuming) is not stored unless it is queueable. *)
Lemma push_ignored s k now stall : s_dead s = false ->
  (s_running s = false \/
   (transactional (c_ver (s_cfg s)) (k_type k) = false /\ s_paused s = true /\ s_resuming s = false /\ k_type k <> TBoot /\
    ~ (c_qall (s_cfg s) = true /\ ~ In (k_type k) (c_discard (s_cfg s))))) ->
  let s' := fst (step s (Push k now stall)) in
  snd (step s (Push k now stall)) = [] /\ s_nq s' = s_nq s /\ s_tq s' = s_tq s /\ s_dbn s' = s_dbn s /\ s_dbt s' = s_dbt s.
Proof.
  intros Hd Hc. cbn zeta. cbn [step]. rewrite Hd. unfold push_call.
  destruct (s_running s) eqn:Er; cbn [negb]; [|repeat split].
  destruct Hc as [Hc|(H1 & H2 & H3 & H4 & H5)]; [discriminate|].
  rewrite is_tx_spec, H1, H2, H3. cbn [negb orb].
  assert (check_queue (s_cfg s) (k_type k) = false) as ->.
  { apply not_true_is_false. intros E. apply H5.
    destruct (proj1 (retryable_spec (s_cfg s) (k_type k))) as [A|A]; [rewrite E, orb_true_r; reflexivity|congruence|assumption]. }
  assert (mtype_eqb (k_type k) TBoot = false) as ->.
  { apply not_true_is_false. intros E. apply mtype_eqb_eq in E. contradiction. }
  repeat split.
Qed.
