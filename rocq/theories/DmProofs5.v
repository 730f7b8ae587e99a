(** Lemmas for the device model: histories, monitoring reports, restart. *)
From Coq Require Import ZArith List Bool String Ascii QArith Lia.
From Verif Require Import StrModel StrSpec StrProofs DmModel DmSpec DmProofs DmProofs2 DmProofs3 DmProofs4.
Import ListNotations.
Local Open Scope string_scope.
Local Open Scope Z_scope.

Definition frame (d d' : dm) : Prop := d_map d' = d_map d /\ d_mons d' = d_mons d /\ d_seq d' = d_seq d.

Lemma set_value_frame d c v a value src aro ok lst : frame d (fst (fst (set_value d c v a value src aro ok lst))).
Proof.
  unfold set_value. destruct (negb (has_component c d)); [repeat split|]. destruct (find_meta (c, v) (d_map d)); [|repeat split].
  destruct (negb (value_ok _ _ _)); [repeat split|]. destruct (get_variable_attribute d (c, v) a); [|repeat split].
  destruct (mut_eqb _ _ && negb aro); [repeat split|]. destruct ok; cbn [set_variable_attribute_value];
    repeat match goal with |- context [if ?b then _ else _] => match b with context [fun _ => _] => fail 1 | _ => destruct b end end; repeat split.
Qed.

Lemma set_seq_frame l : forall d src aro valid oks, frame d (fst (set_seq d l src aro valid oks)).
Proof.
  induction l as [|s l IH]; intros; cbn [set_seq]; [repeat split|]. destruct (valid s).
  - assert (F := set_value_frame d (s_comp s) (s_var s) (attr_or_actual (s_attr s)) (s_value s) src aro (hd true oks) false).
    destruct (set_value d (s_comp s) (s_var s) (attr_or_actual (s_attr s)) (s_value s) src aro (hd true oks) false) as [[d1 st] ev].
    cbn [fst] in F. specialize (IH d1 src aro valid (tl oks)). destruct (set_seq d1 l src aro valid (tl oks)). cbn [fst] in *.
    unfold frame in *. intuition congruence.
  - specialize (IH d src aro valid (tl oks)). destruct (set_seq d l src aro valid (tl oks)). auto.
Qed.

Lemma handle_set_state d l valid oks :
  fst (fst (handle_set_variables_req d l valid oks)) = fst (set_seq d l "csms" false valid oks).
Proof.
  unfold handle_set_variables_req, set_variables_internal. rewrite <- (loop_state l d "csms" false valid oks []).
  destruct (set_variables_loop d l "csms" false valid oks []). reflexivity.
Qed.

Lemma frame_monitors d d' : frame d d' -> monitors_ok d -> monitors_ok d'.
Proof. intros (A & B & C) M. unfold monitors_ok, in_memory, known in *. rewrite A, B, C. auto. Qed.

(** One step of a history, as far as monitors go. *)
Definition evolves (d d' : dm) : Prop :=
  monitors_ok d' /\ d_seq d <= d_seq d' /\
  (forall k mo, In (k, mo) (d_mons d) -> mo_config mo <> Custom -> exists mo', In (k, mo') (d_mons d') /\ same_setting mo mo') /\
  (forall k mo', In (k, mo') (d_mons d') -> mo_config mo' <> Custom -> exists mo, In (k, mo) (d_mons d) /\ same_setting mo mo') /\
  (forall k mo', In (k, mo') (d_mons d') -> d_seq d < mo_id mo' \/ exists mo, In (k, mo) (d_mons d) /\ mo_id mo = mo_id mo').

Lemma same_setting_refl a : same_setting a a.
Proof. unfold same_setting. auto 10. Qed.
Lemma same_setting_trans a b c : same_setting a b -> same_setting b c -> same_setting a c.
Proof. unfold same_setting. intuition congruence. Qed.

Lemma evolves_trans a b c : evolves a b -> evolves b c -> evolves a c.
Proof.
  intros (_ & S1 & P1 & Q1 & R1) (M & S2 & P2 & Q2 & R2). split; auto. split; [lia|]. split; [|split].
  - intros k mo I C. destruct (P1 k mo I C) as (m1 & I1 & E1). destruct (P2 k m1 I1) as (m2 & I2 & E2).
    { destruct E1 as (_ & _ & _ & _ & _ & E1). congruence. }
    exists m2. split; auto. eapply same_setting_trans; eauto.
  - intros k mo I C. destruct (Q2 k mo I C) as (m1 & I1 & E1). destruct (Q1 k m1 I1) as (m2 & I2 & E2).
    { destruct E1 as (_ & _ & _ & _ & _ & E1). congruence. }
    exists m2. split; auto. eapply same_setting_trans; eauto.
  - intros k mo I. destruct (R2 k mo I) as [L|(m1 & I1 & E1)]; [left; lia|]. destruct (R1 k m1 I1) as [L|(m2 & I2 & E2)]; [left; lia|].
    right. exists m2. split; auto. congruence.
Qed.

Lemma evolves_frame d d' : monitors_ok d -> frame d d' -> evolves d d'.
Proof.
  intros M F. split; [eapply frame_monitors; eauto|]. destruct F as (A & B & C). rewrite B, C. split; [lia|]. split; [|split].
  - intros k mo I _. exists mo. split; auto. apply same_setting_refl.
  - intros k mo I _. exists mo. split; auto. apply same_setting_refl.
  - intros k mo I. right. exists mo. auto.
Qed.
Lemma evolves_refl d : monitors_ok d -> evolves d d.
Proof. intros. apply evolves_frame; auto. repeat split. Qed.

Lemma evolves_removed d d' gone : monitors_ok d' -> monitors_removed d d' gone -> (forall k mo, In (k, mo) (d_mons d) -> gone mo -> mo_config mo = Custom) -> evolves d d'.
Proof.
  intros M (A & B & C) G. split; auto. rewrite B. split; [lia|]. split; [|split].
  - intros k mo I N. exists mo. split; [|apply same_setting_refl]. apply C. split; auto. intros X. apply N. eapply G; eauto.
  - intros k mo I N. apply C in I. exists mo. split; [tauto|apply same_setting_refl].
  - intros k mo I. apply C in I. right. exists mo. tauto.
Qed.

Lemma monitors_tables d d' : monitors_ok d' -> d_attrs d' = d_attrs d -> tables_ok d -> tables_ok d'.
Proof. intros M E [_ NA]. destruct M as (_ & M & _). split; auto. rewrite E. auto. Qed.

Lemma set_monitor_evolves d q ok : tables_ok d -> monitors_ok d -> own_id d q ->
  d_seq (fst (fst (set_monitor d q Custom ok))) <= 2147483647 ->
  evolves d (fst (fst (set_monitor d q Custom ok))) /\ d_attrs (fst (fst (set_monitor d q Custom ok))) = d_attrs d.
Proof.
  intros T M O. assert (C := set_monitor_cases d q Custom ok T M O). destruct (set_monitor d q Custom ok) as [[d' st] i].
  cbn [fst]. intros SB. destruct (C SB) as [(_ & m & mo & K & V & OK & EI & ID & RQ & RF & (PA & PS & PM) & MO & PREV)|(_ & -> & _)];
    [|split; [apply evolves_refl; auto|auto]].
  split; auto. destruct RQ as (_ & _ & _ & _ & CFG). split; auto. split; [lia|]. split; [|split].
  - intros k mo' I N. exists mo'. split; [|apply same_setting_refl]. apply PM. right. split; auto. intros E.
    unfold row_id in ID. destruct (q_id q) as [j|] eqn:Q.
    + destruct (O j k mo' Q I) as [_ X]; [congruence|contradiction].
    + destruct M as (_ & _ & _ & M3 & _). apply M3 in I. lia.
  - intros k mo' I N. apply PM in I. destruct I as [E|[I _]]; [inversion E; subst; contradiction|]. exists mo'. split; auto. apply same_setting_refl.
  - intros k mo' I. apply PM in I. destruct I as [E|[I _]]; [|right; exists mo'; auto]. inversion E. subst.
    unfold row_id in ID. destruct (q_id q) as [j|] eqn:Q; [|left; lia]. right. destruct (PREV j eq_refl) as (mo0 & I0 & E0). exists mo0. split; auto. congruence.
Qed.

Lemma set_monitor_seq d q cfg ok : d_seq d <= d_seq (fst (fst (set_monitor d q cfg ok))).
Proof.
  unfold set_monitor, set_monitoring_data.
  repeat match goal with
         | |- context [if ?b then (d, _, _) else _] => destruct b
         | |- context [match find_meta ?k ?l with _ => _ end] => destruct (find_meta k l)
         end; cbn [fst]; try lia.
  destruct (if mt_eqb (q_type q) Delta then _ else _); [|cbn [fst]; lia]. destruct (negb ok); cbn [fst d_seq set_map set_mons]; lia.
Qed.

Lemma set_monitors_seq l : forall d cfg oks, d_seq d <= d_seq (fst (set_monitors d l cfg oks)).
Proof.
  induction l as [|q l IH]; intros; cbn [set_monitors]; [cbn; lia|].
  assert (S := set_monitor_seq d q cfg (hd true oks)). destruct (set_monitor d q cfg (hd true oks)) as [[d1 st] i]. cbn [fst] in S.
  specialize (IH d1 cfg (tl oks)). destruct (set_monitors d1 l cfg (tl oks)). cbn [fst] in *. lia.
Qed.

Lemma set_monitors_evolves l : forall d oks, tables_ok d -> monitors_ok d -> own_ids d l oks ->
  d_seq (fst (set_monitors d l Custom oks)) <= 2147483647 ->
  evolves d (fst (set_monitors d l Custom oks)) /\ d_attrs (fst (set_monitors d l Custom oks)) = d_attrs d.
Proof.
  induction l as [|q l IH]; intros d oks T M O S; cbn [set_monitors]; [split; [apply evolves_refl; auto|auto]|].
  cbn [own_ids] in O. destruct O as [O1 O2].
  assert (S1 : d_seq (fst (fst (set_monitor d q Custom (hd true oks)))) <= 2147483647).
  { cbn [set_monitors] in S. destruct (set_monitor d q Custom (hd true oks)) as [[d1 st] i].
    assert (X := set_monitors_seq l d1 Custom (tl oks)). destruct (set_monitors d1 l Custom (tl oks)). cbn [fst] in *. lia. }
  destruct (set_monitor_evolves d q (hd true oks) T M O1 S1) as [E1 A1].
  cbn [set_monitors] in S.
  destruct (set_monitor d q Custom (hd true oks)) as [[d1 st] i]. cbn [fst] in *.
  specialize (IH d1 (tl oks)). destruct (set_monitors d1 l Custom (tl oks)) as [d2 r]. cbn [fst] in *.
  destruct IH as [E2 A2]; auto; [eapply monitors_tables; eauto; apply E1|apply E1|].
  split; [eapply evolves_trans; eauto|congruence].
Qed.

Lemma clear_monitors_evolves l : forall d oks, monitors_ok d ->
  evolves d (fst (clear_monitors d l false oks)) /\ d_attrs (fst (clear_monitors d l false oks)) = d_attrs d.
Proof.
  induction l as [|i l IH]; intros d oks M; cbn [clear_monitors]; [split; [apply evolves_refl; auto|auto]|].
  assert (C := clear_monitor_cases d i false (hd true oks) M). destruct (clear_monitor d i false (hd true oks)) as [d1 st].
  assert (E : evolves d d1 /\ d_attrs d1 = d_attrs d).
  { destruct st.
    - destruct C as (_ & M1 & R & k & mo & I & ID & [X|X]); [discriminate|]. split; [|apply R].
      eapply evolves_removed; eauto. intros k' mo' I' E'. cbn in E'. destruct (mon_same d k' k mo' mo M I' I) as [_ ->]; [congruence|auto].
    - destruct C as [-> _]. split; [apply evolves_refl; auto|auto].
    - destruct C as [-> _]. split; [apply evolves_refl; auto|auto]. }
  destruct E as [E A]. specialize (IH d1 (tl oks) ltac:(apply E)). destruct (clear_monitors d1 l false (tl oks)). cbn [fst] in *.
  destruct IH as [E2 A2]. split; [eapply evolves_trans; eauto|congruence].
Qed.

Lemma clear_custom_evolves d : monitors_ok d ->
  evolves d (fst (clear_custom_monitors d true)) /\ d_attrs (fst (clear_custom_monitors d true)) = d_attrs d.
Proof.
  intros M. assert (C := clear_custom_ok d M). destruct (clear_custom_monitors d true) as [d' n]. destruct C as (M' & R & _). cbn [fst].
  split; [|apply R]. eapply evolves_removed; eauto.
Qed.

(** The variable that a SetMonitoringBase request writes. *)
Definition base_key : key := (mkC "MonitoringCtrlr" None None, mkV "ActiveMonitoringBase" None).

Definition keeps_read_only (d d' : dm) : Prop :=
  forall k a r, a_mut r = ReadOnly -> (k, a) <> (base_key, Actual) -> (stored d' k a r <-> stored d k a r).

Lemma attrs_keep d d' : d_attrs d' = d_attrs d -> keeps_read_only d d'.
Proof. intros E k a r _ _. unfold stored. rewrite E. tauto. Qed.
Lemma keep_trans a b c : keeps_read_only a b -> keeps_read_only b c -> keeps_read_only a c.
Proof. intros H1 H2 k x r R N. rewrite (H2 k x r R N). apply H1; auto. Qed.

Lemma run_op_ok d o : tables_ok d -> monitors_ok d -> op_guard d o -> d_seq (run_op d o) <= 2147483647 ->
  evolves d (run_op d o) /\ tables_ok (run_op d o) /\ keeps_read_only d (run_op d o).
Proof.
  intros T M G S. destruct o as [l valid oks|l oks|l oks|b ok1 ok2|i r ok]; cbn [run_op op_guard] in *.
  - rewrite handle_set_state. destruct (seq_read_only l d "csms" valid oks T) as [T' R].
    split; [apply evolves_frame; auto; apply set_seq_frame|]. split; auto. intros k a r RO _. apply R. auto.
  - destruct (set_monitors_evolves l d oks T M G S) as [E A]. split; auto. split; [eapply monitors_tables; eauto; apply E|apply attrs_keep; auto].
  - destruct (clear_monitors_evolves l d oks M) as [E A]. split; auto. split; [eapply monitors_tables; eauto; apply E|apply attrs_keep; auto].
  - subst ok2. unfold handle_set_monitoring_base_req in *.
    fold base_key in *. change (ctrl "MonitoringCtrlr") with (fst base_key) in *. change (plain "ActiveMonitoringBase") with (snd base_key) in *.
    assert (C := set_value_cases d (fst base_key) (snd base_key) Actual (base_name b) "csms" true ok1 true T).
    assert (T1 := set_value_tables d (fst base_key) (snd base_key) Actual (base_name b) "csms" true ok1 true T).
    assert (F := set_value_frame d (fst base_key) (snd base_key) Actual (base_name b) "csms" true ok1 true).
    destruct (set_value d (fst base_key) (snd base_key) Actual (base_name b) "csms" true ok1 true) as [[d1 st] ev]. cbn [fst] in T1, F.
    assert (E1 := evolves_frame d d1 M F).
    assert (K1 : keeps_read_only d d1).
    { intros k a r RO N. destruct C as [(_ & m & r0 & _ & _ & (_ & _ & _ & AO & _) & _)|(_ & -> & _)]; [|tauto].
      apply AO. rewrite <- surjective_pairing. auto. }
    destruct st; cbn [fst]; auto. destruct b; cbn [fst]; auto.
    + destruct (clear_custom_evolves d1 ltac:(apply E1)) as [E2 A2]. split; [eapply evolves_trans; eauto|].
      split; [eapply monitors_tables; eauto; apply E2|]. eapply keep_trans; eauto. apply attrs_keep; auto.
    + destruct (clear_custom_evolves d1 ltac:(apply E1)) as [E2 A2]. split; [eapply evolves_trans; eauto|].
      split; [eapply monitors_tables; eauto; apply E2|]. eapply keep_trans; eauto. apply attrs_keep; auto.
  - assert (C := reference_cases d i r ok M). destruct (update_monitor_reference d i r ok) as [d' done]. cbn [fst] in *.
    destruct C as [(_ & _ & M' & (A & B & REF) & _)|(_ & -> & _)].
    + split; [|split; [eapply monitors_tables; eauto|apply attrs_keep; auto]]. split; auto. rewrite B. split; [lia|]. split; [|split].
      * intros k mo I N. destruct (Z.eq_dec (mo_id mo) i) as [E|E].
        -- exists (with_ref mo r). split; [apply REF; exists mo; auto|]. unfold same_setting. cbn. auto 10.
        -- exists mo. split; [apply REF; exists mo; auto|apply same_setting_refl].
      * intros k mo I N. apply REF in I. destruct I as (mo0 & I & [[_ ->]|[_ ->]]); exists mo0; (split; [auto|unfold same_setting; cbn; auto 10]).
      * intros k mo I. apply REF in I. right. destruct I as (mo0 & I & [[_ ->]|[_ ->]]); exists mo0; auto.
    + split; [apply evolves_refl; auto|split; auto]. apply attrs_keep; auto.
Qed.

Lemma run_op_seq d o : d_seq d <= d_seq (run_op d o).
Proof.
  destruct o as [l valid oks|l oks|l oks|b ok1 ok2|i r ok]; cbn [run_op].
  - rewrite handle_set_state. destruct (set_seq_frame l d "csms" false valid oks) as (_ & _ & ->). lia.
  - apply set_monitors_seq.
  - assert (X : d_seq (fst (clear_monitors d l false oks)) = d_seq d); [|lia]. revert d oks.
    induction l as [|i l IH]; intros; cbn [clear_monitors]; [auto|]. unfold clear_monitor, clear_variable_monitor.
    destruct (negb _); [specialize (IH d (tl oks)); destruct (clear_monitors d l false (tl oks)); auto|].
    destruct (negb _); [specialize (IH d (tl oks)); destruct (clear_monitors d l false (tl oks)); auto|].
    destruct (Nat.eqb _ 1);
      match goal with |- context [clear_monitors ?u l false (tl oks)] => specialize (IH u (tl oks)); destruct (clear_monitors u l false (tl oks)) end;
      cbn [fst] in *; rewrite IH; reflexivity.
  - unfold handle_set_monitoring_base_req.
    assert (F := set_value_frame d (ctrl "MonitoringCtrlr") (plain "ActiveMonitoringBase") Actual (base_name b) "csms" true ok1 true).
    destruct (set_value d (ctrl "MonitoringCtrlr") (plain "ActiveMonitoringBase") Actual (base_name b) "csms" true ok1 true) as [[d1 st] ev].
    destruct F as (_ & _ & F). cbn [fst] in F. destruct st, b, ok2; cbn; lia.
  - unfold update_monitor_reference. destruct (find_holder i (d_map d)) as [[[k m] mo]|]; [|cbn; lia].
    repeat match goal with |- context [if ?b then (_, _) else _] => destruct b end; cbn; lia.
Qed.

Lemma run_ops_seq l : forall d, d_seq d <= d_seq (run_ops d l).
Proof.
  unfold run_ops. induction l as [|o l IH]; intros d; cbn [fold_left]; [lia|]. specialize (IH (run_op d o)). pose proof (run_op_seq d o). lia.
Qed.

Lemma run_ops_ok l : forall d, tables_ok d -> monitors_ok d -> ops_guard d l -> d_seq (run_ops d l) <= 2147483647 ->
  evolves d (run_ops d l) /\ tables_ok (run_ops d l) /\ keeps_read_only d (run_ops d l).
Proof.
  unfold run_ops. induction l as [|o l IH]; intros d T M G S; cbn [fold_left ops_guard] in *.
  - split; [apply evolves_refl; auto|split; auto]. apply attrs_keep. auto.
  - destruct G as [G1 G2]. assert (L := run_ops_seq l (run_op d o)). unfold run_ops in L.
    destruct (run_op_ok d o T M G1) as (E & T' & K); [lia|]. destruct (IH (run_op d o)) as (E2 & T2 & K2); auto; [apply E|].
    split; [eapply evolves_trans; eauto|]. split; auto. eapply keep_trans; eauto.
Qed.

(** Read-only attributes over any history, without the assumptions about monitors. *)
Lemma attrs_of_monitors d l cfg oks : d_attrs (fst (set_monitors d l cfg oks)) = d_attrs d /\
  (NoDup (map fst (d_map d)) -> NoDup (map fst (d_map (fst (set_monitors d l cfg oks))))).
Proof.
  revert d oks. induction l as [|q l IH]; intros d oks; cbn [set_monitors]; [auto|].
  assert (S : d_attrs (fst (fst (set_monitor d q cfg (hd true oks)))) = d_attrs d /\
             map fst (d_map (fst (fst (set_monitor d q cfg (hd true oks))))) = map fst (d_map d)).
  { unfold set_monitor, set_monitoring_data.
    repeat match goal with
         | |- context [if ?b then (d, _, _) else _] => destruct b; [split; reflexivity|]
         | |- context [match find_meta ?k ?l with _ => _ end] => destruct (find_meta k l); [|split; reflexivity]
         end.
    destruct (if mt_eqb (q_type q) Delta then _ else _); [|split; reflexivity].
    destruct (negb (hd true oks)); cbn [fst d_attrs d_map set_map set_mons]; split; auto. apply upd_keys. }
  destruct (set_monitor d q cfg (hd true oks)) as [[d1 st] i]. cbn [fst] in S. destruct S as [S1 S2].
  specialize (IH d1 (tl oks)). destruct (set_monitors d1 l cfg (tl oks)). cbn [fst] in *. destruct IH as [I1 I2]. split; [congruence|].
  intros N. apply I2. rewrite S2. auto.
Qed.

Lemma clear_keeps d l ap oks : d_attrs (fst (clear_monitors d l ap oks)) = d_attrs d /\
  map fst (d_map (fst (clear_monitors d l ap oks))) = map fst (d_map d).
Proof.
  revert d oks. induction l as [|i l IH]; intros d oks; cbn [clear_monitors]; [auto|].
  assert (S : d_attrs (fst (clear_monitor d i ap (hd true oks))) = d_attrs d /\ map fst (d_map (fst (clear_monitor d i ap (hd true oks)))) = map fst (d_map d)).
  { unfold clear_monitor, clear_variable_monitor. destruct (negb _); [auto|]. destruct (negb _); [auto|].
    destruct (Nat.eqb _ 1); cbn [fst d_attrs d_map set_map set_mons]; split; auto. rewrite map_map. reflexivity. }
  destruct (clear_monitor d i ap (hd true oks)) as [d1 st]. cbn [fst] in S. destruct S as [S1 S2].
  specialize (IH d1 (tl oks)). destruct (clear_monitors d1 l ap (tl oks)). cbn [fst] in *. destruct IH as [I1 I2]. split; congruence.
Qed.

Lemma run_op_read_only d o : tables_ok d -> tables_ok (run_op d o) /\ keeps_read_only d (run_op d o).
Proof.
  intros T. destruct o as [l valid oks|l oks|l oks|b ok1 ok2|i r ok]; cbn [run_op].
  - rewrite handle_set_state. destruct (seq_read_only l d "csms" valid oks T) as [T' R]. split; auto. intros k a r RO _. apply R. auto.
  - destruct (attrs_of_monitors d l Custom oks) as [A N]. split; [|apply attrs_keep; auto]. destruct T as [T1 T2]. split; auto. rewrite A. auto.
  - destruct (clear_keeps d l false oks) as [A N]. split; [|apply attrs_keep; auto]. destruct T as [T1 T2]. split; [rewrite N; auto|rewrite A; auto].
  - unfold handle_set_monitoring_base_req.
    change (ctrl "MonitoringCtrlr") with (fst base_key). change (plain "ActiveMonitoringBase") with (snd base_key).
    assert (C := set_value_cases d (fst base_key) (snd base_key) Actual (base_name b) "csms" true ok1 true T).
    assert (T1 := set_value_tables d (fst base_key) (snd base_key) Actual (base_name b) "csms" true ok1 true T).
    destruct (set_value d (fst base_key) (snd base_key) Actual (base_name b) "csms" true ok1 true) as [[d1 st] ev]. cbn [fst] in T1.
    assert (K1 : keeps_read_only d d1).
    { intros k a r RO N. destruct C as [(_ & m & r0 & _ & _ & (_ & _ & _ & AO & _) & _)|(_ & -> & _)]; [|tauto].
      apply AO. rewrite <- surjective_pairing. auto. }
    assert (CC : tables_ok (fst (clear_custom_monitors d1 ok2)) /\ keeps_read_only d (fst (clear_custom_monitors d1 ok2))).
    { unfold clear_custom_monitors. destruct T1 as [TA TB].
      split; [|eapply keep_trans; [exact K1|apply attrs_keep; destruct ok2; reflexivity]].
      split; [|destruct ok2; exact TB]. destruct ok2; cbn [fst d_map set_map set_mons]; rewrite map_map; exact TA. }
    destruct st; cbn [fst]; auto. destruct b; cbn [fst]; auto.
  - unfold update_monitor_reference. destruct (find_holder i (d_map d)) as [[[k m] mo]|]; [|split; auto; apply attrs_keep; auto].
    destruct T as [TA TB].
    repeat match goal with |- context [if ?b then (_, _) else _] => destruct b end; cbn [fst]; (split; [|apply attrs_keep; reflexivity]); split; auto.
    cbn [d_map set_map set_mons]. rewrite upd_keys. auto.
Qed.

Lemma run_ops_read_only l : forall d, tables_ok d -> tables_ok (run_ops d l) /\ keeps_read_only d (run_ops d l).
Proof.
  unfold run_ops. induction l as [|o l IH]; intros d T; cbn [fold_left].
  - split; auto. apply attrs_keep. auto.
  - destruct (run_op_read_only d o T) as [T1 K1]. destruct (IH _ T1) as [T2 K2]. split; auto. eapply keep_trans; eauto.
Qed.

(** ** Monitoring reports *)

Lemma filter_monitor_ok l mo : filter_criteria_monitor l mo = true <-> crits_select l (mo_type mo).
Proof.
  unfold crits_select. destruct l as [|c l]; [cbn; tauto|]. unfold filter_criteria_monitor. rewrite existsb_exists. split.
  - intros (x & I & H). right. exists x. split; auto. destruct x; cbn; rewrite ?orb_true_iff, ?mt_eqb_ok in H; tauto.
  - intros [X|(x & I & H)]; [discriminate|]. exists x. split; auto. destruct x; cbn in H; rewrite ?orb_true_iff, ?mt_eqb_ok; tauto.
Qed.

Lemma held d k m : monitors_ok d -> known d k m -> NoDup (map snd (m_mons m)) /\ (forall mo, In mo (map snd (m_mons m)) <-> In (k, mo) (d_mons d)).
Proof.
  intros (M0 & M1 & M2 & M3 & M4 & M5) K.
  assert (E : map mo_id (map snd (m_mons m)) = map fst (m_mons m)).
  { rewrite map_map. apply map_ext_in. intros [i mo] I. cbn. assert (IM : in_memory d k i mo) by (exists m; auto). apply M5 in IM. tauto. }
  split.
  - eapply NoDup_map_inv. rewrite E. eapply M4; eauto.
  - intros mo. rewrite in_map_iff. split.
    + intros ([i x] & <- & I). assert (IM : in_memory d k i x) by (exists m; auto). apply M5 in IM. tauto.
    + intros I. assert (IM : in_memory d k (mo_id mo) mo) by (apply M5; auto). destruct IM as (m' & K' & I').
      rewrite (known_fun d _ _ _ M1 K' K) in I'. exists (mo_id mo, mo). auto.
Qed.

Lemma some_ok d (p : monitor -> bool) (t : monitor_type -> Prop) k m : monitors_ok d -> known d k m -> (forall mo, p mo = true <-> t (mo_type mo)) ->
  let l := match filter p (map snd (m_mons m)) with [] => [] | r => [(k, r)] end in
  (forall k', In k' (map fst l) <-> k' = k /\ exists mo, In (k, mo) (d_mons d) /\ t (mo_type mo)) /\
  (forall k' ms, In (k', ms) l -> k' = k /\ NoDup ms /\ forall mo, In mo ms <-> In (k, mo) (d_mons d) /\ t (mo_type mo)).
Proof.
  intros M K P. destruct (held d k m M K) as [N I].
  assert (F : forall mo, In mo (filter p (map snd (m_mons m))) <-> In (k, mo) (d_mons d) /\ t (mo_type mo)) by (intros; rewrite filter_In, I, P; tauto).
  assert (NF := NoDup_filter p N).
  destruct (filter p (map snd (m_mons m))) as [|x r] eqn:E; cbv zeta; split.
  - intros k'. cbn. split; [tauto|]. intros (_ & mo & H). apply F in H. contradiction.
  - intros k' ms [].
  - intros k'. cbn [map fst In]. split.
    + intros [<- | []]. split; auto. exists x. apply F. left. auto.
    + intros [-> _]. auto.
  - intros k' ms [H|[]]. inversion H. subst. auto.
Qed.

Lemma get_monitors_ok d l cvs : monitors_ok d ->
  monitors_reported d (fun k => cvs = [] \/ exists cv, In cv cvs /\ fst cv = fst k /\ (forall v, snd cv = Some v -> v = snd k))
                    (crits_select l) (get_monitors d l cvs).
Proof.
  intros M. unfold get_monitors. assert (M1 : NoDup (map fst (d_map d))) by apply M.
  assert (KN : forall k mo, In (k, mo) (d_mons d) -> exists m, known d k m).
  { intros k mo I. assert (IM : in_memory d k (mo_id mo) mo) by (apply M; auto). destruct IM as (m & K & _). eauto. }
  assert (SO : forall k m, known d k m -> (forall k', In k' (map fst (some_mons l k m)) <-> k' = k /\ exists mo, In (k, mo) (d_mons d) /\ crits_select l (mo_type mo)) /\
      (forall k' ms, In (k', ms) (some_mons l k m) -> k' = k /\ NoDup ms /\ forall mo, In mo ms <-> In (k, mo) (d_mons d) /\ crits_select l (mo_type mo))).
  { intros k m K. apply (some_ok d (filter_criteria_monitor l) (crits_select l) k m M K). intros mo. apply filter_monitor_ok. }
  assert (FK : forall A (f : A -> list (key * list monitor)) (xs : list A) k, In k (map fst (flat_map f xs)) <-> exists x, In x xs /\ In k (map fst (f x))).
  { intros A f xs k. rewrite in_map_iff. split.
    - intros (e & E & I). apply in_flat_map in I. destruct I as (x & Ix & If). exists x. split; auto. apply in_map_iff. eauto.
    - intros (x & Ix & I). apply in_map_iff in I. destruct I as (e & E & I). exists e. split; auto. apply in_flat_map. eauto. }
  destruct cvs as [|cv0 cvs0].
  - split.
    + intros k. rewrite FK. split.
      * intros ([k0 m0] & I & H). cbn [fst snd] in H. apply (proj1 (SO k0 m0 I)) in H. destruct H as [-> H]. auto.
      * intros (_ & mo & I & H). destruct (KN k mo I) as (m & K). exists (k, m). split; auto. cbn [fst snd]. apply (proj1 (SO k m K)). eauto.
    + intros k ms H. apply in_flat_map in H. destruct H as ([k0 m0] & I & H). cbn [fst snd] in H. apply (proj2 (SO k0 m0 I)) in H.
      destruct H as (-> & N & H). auto.
  - set (cvs := cv0 :: cvs0).
    set (f := fun cv : comp_var => let '(c, ov) := cv in match ov with
        | None => flat_map (fun e => if comp_same c (fst (fst e)) then some_mons l (fst e) (snd e) else []) (d_map d)
        | Some v => match find_meta (c, v) (d_map d) with None => [] | Some m => some_mons l (c, v) m end end).
    change (monitors_reported d (fun k => cvs = [] \/ exists cv, In cv cvs /\ fst cv = fst k /\ (forall v, snd cv = Some v -> v = snd k))
                    (crits_select l) (flat_map f cvs)).
    assert (FI : forall cv k ms, In (k, ms) (f cv) -> (fst cv = fst k /\ (forall v, snd cv = Some v -> v = snd k)) /\ exists m, known d k m /\ In (k, ms) (some_mons l k m)).
    { intros [c [v|]] k ms H; unfold f in H.
      - destruct (find_meta (c, v) (d_map d)) as [m|] eqn:FM; [|contradiction]. apply find_meta_some in FM.
        assert (EK := proj2 (SO _ _ FM) _ _ H). destruct EK as [-> _]. cbn. split; [split; [auto|intros v' E; congruence]|]. exists m. auto.
      - apply in_flat_map in H. destruct H as ([k0 m0] & I & H). cbn [fst snd] in H. destruct (comp_same c (fst k0)) eqn:CS; [|contradiction].
        apply comp_same_ok in CS. assert (EK := proj2 (SO _ _ I) _ _ H). destruct EK as [-> _]. cbn. split; [split; [auto|discriminate]|]. exists m0. auto. }
    split.
    + intros k. rewrite FK. split.
      * intros (cv & I & H). apply in_map_iff in H. destruct H as ([k0 ms] & E & H). cbn in E. subst k0. apply FI in H.
        destruct H as (SEL & m & K & H). split; [right; exists cv; auto|].
        assert (X : In k (map fst (some_mons l k m))) by (apply in_map_iff; exists (k, ms); auto). apply (proj1 (SO k m K)) in X. tauto.
      * intros ([X|(cv & I & E1 & E2)] & mo & IM & H); [discriminate|]. destruct (KN k mo IM) as (m & K). exists cv. split; auto.
        destruct cv as [c [v|]]; cbn in E1, E2; unfold f.
        -- rewrite (E2 v eq_refl), E1. rewrite <- surjective_pairing. rewrite (find_meta_in _ _ _ M1 K). apply (proj1 (SO k m K)). eauto.
        -- apply FK. exists (k, m). split; auto. cbn [fst snd]. assert (CS : comp_same c (fst k) = true) by (apply comp_same_ok; auto). rewrite CS.
           apply (proj1 (SO k m K)). eauto.
    + intros k ms H. apply in_flat_map in H. destruct H as (cv & I & H). apply FI in H. destruct H as (_ & m & K & H).
      apply (proj2 (SO k m K)) in H. tauto.
Qed.

Lemma get_periodic_ok d : monitors_ok d ->
  monitors_reported d (fun _ => True) (fun t => t = Periodic \/ t = PeriodicClockAligned) (get_periodic_monitors d).
Proof.
  intros M. assert (H := get_monitors_ok d [McPeriodic] [] M).
  assert (E : get_periodic_monitors d = get_monitors d [McPeriodic] []).
  { unfold get_periodic_monitors, get_monitors, some_mons. apply flat_map_ext. intros e.
    rewrite (filter_ext _ (filter_criteria_monitor [McPeriodic])); [reflexivity|]. intros mo. cbn. rewrite orb_false_r. reflexivity. }
  rewrite E. destruct H as [H1 H2].
  assert (C : forall t, crits_select [McPeriodic] t <-> t = Periodic \/ t = PeriodicClockAligned).
  { intros t. unfold crits_select. split; [intros [X|(c & [<- | []] & X)]; [discriminate|exact X]|intros X; right; exists McPeriodic; split; [left; auto|exact X]]. }
  split.
  - intros k. rewrite H1. split; [intros (_ & mo & I & X)|intros (_ & mo & I & X)]; (split; [auto|exists mo; split; auto; apply C; auto]).
  - intros k ms I. destruct (H2 k ms I) as [N X]. split; auto. intros mo. rewrite X, C. tauto.
Qed.

(** ** Restart *)

Lemma load_ok d : 0 <= d_seq d -> NoDup (map fst (d_map d)) -> NoDup (ids (d_mons d)) ->
  (forall k mo, In (k, mo) (d_mons d) -> 0 <= mo_id mo <= d_seq d) ->
  (forall k mo, In (k, mo) (d_mons d) -> exists m, known d k m) ->
  monitors_ok (load_monitors d).
Proof.
  intros M0 M1 M2 M3 KN.
  assert (LK : forall k m, known (load_monitors d) k m -> exists m0, known d k m0 /\ m_char m = m_char m0 /\
     m_mons m = map (fun x : key * monitor => (mo_id (snd x), snd x)) (filter (fun x : key * monitor => key_same k (fst x)) (d_mons d))).
  { intros k m K. unfold known, load_monitors in K. cbn [d_map set_map] in K. apply in_map_iff in K. destruct K as ([k0 m0] & E & I).
    cbn [fst snd] in E. inversion E. subst. exists m0. auto. }
  unfold monitors_ok. repeat match goal with |- _ /\ _ => split end; auto.
  - unfold load_monitors. cbn [d_map set_map]. rewrite map_map. auto.
  - intros k m K. destruct (LK k m K) as (m0 & _ & _ & ->). rewrite map_map. cbn [fst]. apply NoDup_map_filter. auto.
  - intros k i mo. split.
    + intros (m & K & I). destruct (LK k m K) as (m0 & _ & _ & E). rewrite E in I. apply in_map_iff in I. destruct I as ([k1 mo1] & E1 & I).
      cbn [snd] in E1. inversion E1. subst. apply filter_In in I. destruct I as [I KS]. cbn [fst] in KS. apply key_same_ok in KS. subst. auto.
    + intros [I <-]. destruct (KN k mo I) as (m & K).
      exists (mkMeta (m_char m) (map (fun x : key * monitor => (mo_id (snd x), snd x)) (filter (fun x : key * monitor => key_same k (fst x)) (d_mons d)))).
      split.
      * unfold known, load_monitors. cbn [d_map set_map]. apply in_map_iff. exists (k, m). auto.
      * cbn [m_mons]. apply in_map_iff. exists (k, mo). split; auto. apply filter_In. split; auto. cbn [fst]. apply key_same_refl.
Qed.

(** ** Stored values stay valid *)

Definition all_valid (d : dm) : Prop :=
  forall k a r m s, stored d k a r -> a_mut r <> ReadOnly -> known d k m -> a_value r = Some s ->
    value_ok (m_char m) s (allow_zero (fst k) (snd k)) = true.

(** The characteristics of the variables are those of [d]. *)
Definition same_chars (d d' : dm) : Prop := forall k m', known d' k m' -> exists m, known d k m /\ m_char m' = m_char m.

Lemma chars_refl d d' : d_map d' = d_map d -> same_chars d d'.
Proof. intros E k m K. unfold known in *. rewrite E in K. eauto. Qed.
Lemma chars_trans a b c : same_chars a b -> same_chars b c -> same_chars a c.
Proof. intros H1 H2 k m K. destruct (H2 k m K) as (m1 & K1 & E1). destruct (H1 k m1 K1) as (m2 & K2 & E2). exists m2. split; auto. congruence. Qed.

Lemma valid_attrs d d' : all_valid d -> d_attrs d' = d_attrs d -> same_chars d d' -> all_valid d'.
Proof.
  intros V A C k a r m s S N K E. destruct (C k m K) as (m0 & K0 & EC). rewrite EC. unfold stored in S. rewrite A in S. apply (V k a r m0 s S N K0 E).
Qed.

Lemma valid_set d d' c v a value src : all_valid d -> attribute_set d d' (c, v) a value src ->
  (forall m, known d (c, v) m -> value_ok (m_char m) value (allow_zero c v) = true) -> all_valid d'.
Proof.
  intros V (AM & _ & _ & AO & AS) VO k a' r m s S N K E. unfold known in K. rewrite AM in K.
  destruct (ka_dec k (c, v) a' a) as [X|X].
  - inversion X. subst. apply AS in S. destruct S as (r0 & S & ->). cbn in E. injection E as <-. cbn [fst snd]. apply VO. auto.
  - apply AO in S; auto. eapply V; eauto.
Qed.

Lemma set_value_valid d c v a value src aro ok lst : tables_ok d -> all_valid d -> all_valid (fst (fst (set_value d c v a value src aro ok lst))).
Proof.
  intros T V. assert (C := set_value_cases d c v a value src aro ok lst T). destruct (set_value d c v a value src aro ok lst) as [[d' st] ev].
  cbn [fst]. destruct C as [(_ & m & r & (K & S & VO & R) & _ & A & _)|(_ & -> & _)]; auto.
  eapply valid_set; eauto. intros m' K'. rewrite (known_fun d _ _ _ (proj1 T) K' K). auto.
Qed.

Lemma set_seq_valid l : forall d src aro valid oks, tables_ok d -> all_valid d -> all_valid (fst (set_seq d l src aro valid oks)).
Proof.
  induction l as [|s l IH]; intros d src aro valid oks T V; cbn [set_seq]; auto. destruct (valid s).
  - assert (V1 := set_value_valid d (s_comp s) (s_var s) (attr_or_actual (s_attr s)) (s_value s) src aro (hd true oks) false T V).
    assert (T1 := set_value_tables d (s_comp s) (s_var s) (attr_or_actual (s_attr s)) (s_value s) src aro (hd true oks) false T).
    destruct (set_value d (s_comp s) (s_var s) (attr_or_actual (s_attr s)) (s_value s) src aro (hd true oks) false) as [[d1 st] ev].
    specialize (IH d1 src aro valid (tl oks) T1 V1). destruct (set_seq d1 l src aro valid (tl oks)). auto.
  - specialize (IH d src aro valid (tl oks) T V). destruct (set_seq d l src aro valid (tl oks)). auto.
Qed.

Lemma upd_chars k f l k' m' : (forall m, m_char (f m) = m_char m) -> In (k', m') (upd_meta k f l) -> exists m, In (k', m) l /\ m_char m' = m_char m.
Proof.
  intros F. induction l as [|[k0 m0] l IH]; cbn; [contradiction|]. destruct (key_same k k0) eqn:K; cbn.
  - intros [E|I]; [inversion E; subst; exists m0; auto|exists m'; auto].
  - intros [E|I]; [inversion E; subst; exists m'; auto|]. destruct (IH I) as (m & I' & E). exists m. auto.
Qed.

Lemma set_monitors_chars l : forall d cfg oks, same_chars d (fst (set_monitors d l cfg oks)).
Proof.
  induction l as [|q l IH]; intros d cfg oks; cbn [set_monitors]; [apply chars_refl; auto|].
  assert (S : same_chars d (fst (fst (set_monitor d q cfg (hd true oks))))).
  { unfold set_monitor, set_monitoring_data.
    repeat match goal with
         | |- context [if ?b then (d, _, _) else _] => destruct b; [apply chars_refl; reflexivity|]
         | |- context [match find_meta ?k ?l with _ => _ end] => destruct (find_meta k l); [|apply chars_refl; reflexivity]
         end.
    destruct (if mt_eqb (q_type q) Delta then _ else _); [|apply chars_refl; reflexivity].
    destruct (negb (hd true oks)); [apply chars_refl; reflexivity|]. intros k0 m0 K. unfold known in K. cbn [fst d_map set_map set_mons] in K.
    apply upd_chars in K; [exact K|reflexivity]. }
  destruct (set_monitor d q cfg (hd true oks)) as [[d1 st] i]. specialize (IH d1 cfg (tl oks)). destruct (set_monitors d1 l cfg (tl oks)).
  eapply chars_trans; eauto.
Qed.

Lemma chars_map d f (d' : dm) : d_map d' = map (fun e => (fst e, mkMeta (m_char (snd e)) (f e))) (d_map d) -> same_chars d d'.
Proof.
  intros E k m K. unfold known in *. rewrite E in K. apply in_map_iff in K. destruct K as ([k0 m0] & X & I). inversion X. subst. exists m0. auto.
Qed.

Lemma clear_chars l : forall d ap oks, same_chars d (fst (clear_monitors d l ap oks)).
Proof.
  induction l as [|i l IH]; intros d ap oks; cbn [clear_monitors]; [apply chars_refl; auto|].
  assert (S : same_chars d (fst (clear_monitor d i ap (hd true oks)))).
  { unfold clear_monitor, clear_variable_monitor. destruct (negb _); [apply chars_refl; auto|]. destruct (negb _); [apply chars_refl; auto|].
    destruct (Nat.eqb _ 1); [|apply chars_refl; auto]. eapply chars_map. cbn [fst d_map set_map set_mons]. reflexivity. }
  destruct (clear_monitor d i ap (hd true oks)) as [d1 st]. specialize (IH d1 ap (tl oks)). destruct (clear_monitors d1 l ap (tl oks)).
  eapply chars_trans; eauto.
Qed.

Lemma run_op_valid d o : tables_ok d -> all_valid d -> all_valid (run_op d o).
Proof.
  intros T V. destruct o as [l valid oks|l oks|l oks|b ok1 ok2|i r ok]; cbn [run_op].
  - rewrite handle_set_state. apply set_seq_valid; auto.
  - eapply valid_attrs; eauto; [apply attrs_of_monitors|apply set_monitors_chars].
  - eapply valid_attrs; eauto; [apply clear_keeps|apply clear_chars].
  - unfold handle_set_monitoring_base_req.
    assert (V1 := set_value_valid d (ctrl "MonitoringCtrlr") (plain "ActiveMonitoringBase") Actual (base_name b) "csms" true ok1 true T V).
    destruct (set_value d (ctrl "MonitoringCtrlr") (plain "ActiveMonitoringBase") Actual (base_name b) "csms" true ok1 true) as [[d1 st] ev].
    cbn [fst] in V1. assert (CC : all_valid (fst (clear_custom_monitors d1 ok2))).
    { eapply valid_attrs; [exact V1|destruct ok2; reflexivity|].
      unfold clear_custom_monitors. destruct ok2; eapply chars_map; cbn [fst d_map set_map set_mons]; reflexivity. }
    destruct st; cbn [fst]; auto. destruct b; cbn [fst]; auto.
  - unfold update_monitor_reference. destruct (find_holder i (d_map d)) as [[[k m] mo]|]; [|auto].
    repeat match goal with |- context [if ?b then (_, _) else _] => destruct b end; cbn [fst]; auto.
    + eapply valid_attrs; [exact V|reflexivity|]. intros k' m' K. unfold known in K. cbn [d_map set_map set_mons] in K.
      apply upd_chars in K; [exact K|reflexivity].
Qed.

Lemma run_ops_valid l : forall d, tables_ok d -> all_valid d -> all_valid (run_ops d l).
Proof.
  unfold run_ops. induction l as [|o l IH]; intros d T V; cbn [fold_left]; auto.
  apply IH; [apply run_op_read_only; auto|apply run_op_valid; auto].
Qed.
