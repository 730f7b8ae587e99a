(** Transactions do not disturb each other; pausing and pricing triggers. *)
From Coq Require Import String Ascii ZArith QArith Qabs Qround List Bool Lia Lqa Permutation Sorted.
From Verif Require Import MvModel MvEvse MvSpec MvSpec2 MvProofs MvProofs2 MvProofs3 MvProofs4.
Import ListNotations.
Local Open Scope string_scope.
Local Open Scope list_scope.
Local Open Scope Z_scope.

(** ** Isolation, for any values *)
Definition ids_ok (d : db) : Prop := NoDup (map r_id (d_rows d)) /\ forall x, In x (d_items d) -> In (fst x) (map r_id (d_rows d)).
Lemma insert_shape : forall fk tx m d, after (db_insert fk tx m d) d = d \/
  exists t c is, after (db_insert fk tx m d) d = Db (d_rows d ++ [Row (new_id d) tx t c]) (d_items d ++ map (fun i => (new_id d, i)) is).
Proof.
  intros fk tx m d. unfold db_insert. destruct (m_samples m) as [|s0 q]; [left; reflexivity|]. destruct (s_context s0) as [c|]; [|left; reflexivity].
  destruct (existsb _ (s0 :: q)); [left; reflexivity|]. destruct (existsb _ (d_rows d)); [left; reflexivity|]. right. exists (to_ms (m_time m)), c.
  destruct (insert_items _ _ _) as [is| |]; [exists is; reflexivity| |]; (exists []; cbn [map after]; rewrite app_nil_r; reflexivity).
Qed.
Lemma ids_insert : forall fk tx m d, ids_ok d -> ids_ok (after (db_insert fk tx m d) d).
Proof.
  intros fk tx m d [N I]. destruct (insert_shape fk tx m d) as [->|(t&c&is&->)]; [split; assumption|]. split; cbn [d_rows d_items].
  - rewrite map_app. cbn [map r_id]. apply NoDup_snoc; [exact N|apply new_id_fresh].
  - intros x J. rewrite map_app, in_app_iff. apply in_app_iff in J. destruct J as [J|J]; [left; exact (I x J)|]. apply in_map_iff in J. destruct J as (i&<-&_). right. left. reflexivity.
Qed.
Lemma clear_ids : forall tx d r, NoDup (map r_id (d_rows d)) -> In r (d_rows d) ->
  existsb (Z.eqb (r_id r)) (map r_id (filter (fun r => String.eqb (r_tx r) tx) (d_rows d))) = String.eqb (r_tx r) tx.
Proof.
  intros tx d r N I. destruct (String.eqb (r_tx r) tx) eqn:E.
  - apply existsb_exists. exists (r_id r). split; [|apply Z.eqb_refl]. apply in_map. apply filter_In. auto.
  - apply not_true_is_false. intros X. apply existsb_exists in X. destruct X as (y&J&Y). apply Z.eqb_eq in Y. subst y.
    apply in_map_iff in J. destruct J as (r'&E'&J). apply filter_In in J. destruct J as [J1 J2]. rewrite (one_row _ r' r N J1 I E') in J2. congruence.
Qed.
Lemma ids_clear : forall tx d, ids_ok d -> ids_ok (db_clear tx d).
Proof.
  intros tx d [N I]. unfold db_clear. split; cbn [d_rows d_items].
  - apply NoDup_filtered. exact N.
  - intros x J. apply filter_In in J. destruct J as [J X]. pose proof (I x J) as Y. apply in_map_iff in Y. destruct Y as (r&E&Y). apply in_map_iff. exists r. split; [exact E|].
    apply filter_In. split; [exact Y|]. rewrite <- (clear_ids tx d r N Y), E. exact X.
Qed.
Lemma ids_tables : forall l, ids_ok (tables l).
Proof.
  induction l as [|[fk tx m|tx] q IH]; cbn [tables]; [|apply ids_insert; exact IH|apply ids_clear; exact IH]. split; [constructor|intros x []].
Qed.
Lemma read_rows_ext : forall d d' l, (forall r, In r l -> items_of (r_id r) d = items_of (r_id r) d') -> read_rows d l = read_rows d' l.
Proof.
  intros d d' l. induction l as [|r q IH]; intros H; [reflexivity|]. cbn [read_rows]. rewrite (H r) by (left; reflexivity).
  rewrite IH by (intros r' I; apply H; right; exact I). reflexivity.
Qed.
Lemma in_rows_of : forall tx d r, In r (rows_of tx d) -> In r (d_rows d) /\ r_tx r = tx.
Proof.
  intros tx d r I. unfold rows_of in I. apply (Permutation_in _ (Permutation_sym (sorted_perm _))) in I. apply filter_In in I. rewrite String.eqb_eq in I. exact I.
Qed.
Lemma insert_other : forall fk tx m d tx', ids_ok d -> tx' <> tx -> db_get_all tx' (after (db_insert fk tx m d) d) = db_get_all tx' d.
Proof.
  intros fk tx m d tx' [N I] NE. destruct (insert_shape fk tx m d) as [->|(t&c&is&->)]; [reflexivity|]. unfold db_get_all.
  assert (R : rows_of tx' (Db (d_rows d ++ [Row (new_id d) tx t c]) (d_items d ++ map (fun i => (new_id d, i)) is)) = rows_of tx' d).
  { unfold rows_of. cbn [d_rows]. rewrite filter_app. cbn [filter r_tx]. replace (String.eqb tx tx') with false by (symmetry; apply String.eqb_neq; congruence).
    rewrite app_nil_r. reflexivity. }
  rewrite R. apply read_rows_ext. intros r J. apply in_rows_of in J. destruct J as [J _]. unfold items_of. cbn [d_items]. rewrite filter_app, filter_other, app_nil_r; [reflexivity|].
  intros E. apply (new_id_fresh d). rewrite E. apply in_map. exact J.
Qed.
Lemma clear_other : forall tx d tx', ids_ok d -> tx' <> tx -> db_get_all tx' (db_clear tx d) = db_get_all tx' d.
Proof.
  intros tx d tx' [N I] NE. unfold db_get_all.
  assert (R : rows_of tx' (db_clear tx d) = rows_of tx' d).
  { unfold rows_of, db_clear. cbn [d_rows]. f_equal. clear N I. induction (d_rows d) as [|r q IH]; [reflexivity|]. cbn [filter].
    destruct (String.eqb (r_tx r) tx) eqn:E.
    - cbn [negb]. apply String.eqb_eq in E. replace (String.eqb (r_tx r) tx') with false by (symmetry; apply String.eqb_neq; congruence). exact IH.
    - cbn [negb filter]. destruct (String.eqb (r_tx r) tx'); [rewrite IH|]; auto. }
  rewrite R. apply read_rows_ext. intros r J. apply in_rows_of in J. destruct J as [J T]. unfold items_of, db_clear. cbn [d_items]. apply (f_equal (map snd)).
  pose proof (clear_ids tx d r N J) as C. replace (String.eqb (r_tx r) tx) with false in C by (symmetry; apply String.eqb_neq; congruence).
  set (ids := map r_id (filter (fun r => String.eqb (r_tx r) tx) (d_rows d))) in *. clearbody ids. clear I. induction (d_items d) as [|x q IH]; [reflexivity|]. cbn [filter]. destruct (fst x =? r_id r) eqn:E.
  - apply Z.eqb_eq in E. rewrite E, C. cbn [negb filter]. rewrite E, Z.eqb_refl, IH. reflexivity.
  - destruct (negb (existsb (Z.eqb (fst x)) ids)); [cbn [filter]; rewrite E|]; exact IH.
Qed.
Lemma clear_own : forall tx d, db_get_all tx (db_clear tx d) = Some [].
Proof.
  intros tx d. unfold db_get_all, rows_of, db_clear. cbn [d_rows]. assert (E : forall l, filter (fun r => String.eqb (r_tx r) tx) (filter (fun r => negb (String.eqb (r_tx r) tx)) l) = []).
  { induction l as [|r q IH]; [reflexivity|]. cbn [filter]. destruct (String.eqb (r_tx r) tx) eqn:E; [exact IH|]. cbn [negb filter]. rewrite E. exact IH. }
  rewrite E. reflexivity.
Qed.
Lemma clear_items : forall tx d, ids_ok d -> (forall r, In r (d_rows d) -> r_tx r = tx) -> db_clear tx d = Db [] [].
Proof.
  intros tx d [N I] A. unfold db_clear. f_equal.
  - clear I N. induction (d_rows d) as [|r q IH]; [reflexivity|]. cbn [filter]. rewrite (proj2 (String.eqb_eq _ _) (A r (or_introl eq_refl))). cbn [negb]. apply IH. intros x J. apply A. right. exact J.
  - assert (E : filter (fun r => String.eqb (r_tx r) tx) (d_rows d) = d_rows d).
    { clear I N. induction (d_rows d) as [|r q IH]; [reflexivity|]. cbn [filter]. rewrite (proj2 (String.eqb_eq _ _) (A r (or_introl eq_refl))). f_equal. apply IH. intros x J. apply A. right. exact J. }
    rewrite E. set (ids := map r_id (d_rows d)) in *. clearbody ids. clear E A N. induction (d_items d) as [|x q IH]; [reflexivity|]. cbn [filter].
    assert (X : existsb (Z.eqb (fst x)) ids = true). { apply existsb_exists. exists (fst x). split; [apply I; left; reflexivity|apply Z.eqb_refl]. }
    rewrite X. cbn [negb]. apply IH. intros y J. apply I. right. exact J.
Qed.

(** ** Pausing *)
Lemma half_limit : forall q n limit, nearest q n -> 1 <= limit -> (limit <= n <-> (inject_Z limit - (1 # 2) <= q)%Q).
Proof.
  intros q n limit [A B] L. apply Qabs_Qle_condition in A. assert (L' : (1 <= inject_Z limit)%Q) by (change 1%Q with (inject_Z 1); rewrite <- Zle_Qle; exact L). split.
  - intros H. rewrite Zle_Qle in H. lra.
  - intros H. destruct (Z.le_gt_cases limit n) as [G|G]; [exact G|]. exfalso.
    assert (G' : (inject_Z n + 1 <= inject_Z limit)%Q). { change 1%Q with (inject_Z 1). rewrite <- inject_Z_plus, <- Zle_Qle. lia. }
    assert (E : (q - inject_Z n == 1 # 2)%Q) by lra. rewrite E in B. specialize (B (Qeq_refl _)).
    assert (Q1 : (q == inject_Z n + (1 # 2))%Q) by lra. rewrite Q1 in B.
    assert (N0 : (0 <= inject_Z n)%Q). { change 0%Q with (inject_Z 0). rewrite <- Zle_Qle. assert (X : (- (1) < inject_Z n)%Q) by lra. change (- (1))%Q with (inject_Z (-1)) in X. rewrite <- Zlt_Qlt in X. lia. }
    rewrite !Qabs_pos in B by lra. lra.
Qed.
Definition checks (s : state) : bool := match e_tx (s_evse s) with Some t => t_check t | None => false end.
Lemma check_max_off : forall c e, match e_tx e with Some t => t_check t | None => false end = false -> check_max c e = (e, [], false).
Proof.
  intros c e H. unfold check_max. destruct (e_tx e) as [t|]; [|reflexivity]. rewrite H. destruct (c_max c); reflexivity.
Qed.
Lemma callback_quiet : forall c m id, ~ In Pause (meter_callback c m id).
Proof.
  intros c m id. unfold meter_callback. destruct (m_samples m) as [|s q]; [intros []|]. destruct (s_context s); [|intros []]. destruct (_ || _); [|intros []]. cbv zeta.
  destruct (m_samples _); cbn; intuition discriminate.
Qed.
Lemma time_trigger_quiet : forall e, let '(e', x) := time_trigger e in ~ In Pause x /\ e_tx e' = e_tx e.
Proof.
  intros e. unfold time_trigger. destruct (e_timer e); [|split; [intros []|reflexivity]]. cbv zeta. split; [|reflexivity].
  destruct (m_samples (measurands_applied _ _ _)); [intros []|]. destruct (e_send e); cbn [In]; intros [X|[]]; discriminate X.
Qed.
Lemma quiet_step : forall c o s s' x, checks s = false -> o <> Invalid -> step c o s = (s', x) -> ~ In Pause x /\ checks s' = false.
Proof.
  intros c o s s' x H N E. destruct o; cbn [step] in E.
  - unfold on_meter in E. set (e1 := set_end _ _) in E. rewrite (check_max_off c e1) in E by exact H. pose proof (pricing_ok m e1) as P. destruct (pricing m e1) as [e3 l].
    injection E as <- <-. destruct P as ((_&_&_&P)&Q). split; [exact Q|]. unfold checks in *. cbn [s_evse]. rewrite P. exact H.
  - injection E as <- <-. split; [intros []|exact H].
  - unfold on_started in E. destruct (active_import _) as [|q|].
    + destruct (try_insert _ _ _ _) as [d1 [|]]; [injection E as <- <-; split; [cbn; intuition discriminate|reflexivity]|].
      unfold start_timers, store_aligned in E. destruct (0 <? _); [destruct (_ <=? _)|]; try (injection E as <- <-; split; [cbn; intuition discriminate|reflexivity]).
      destruct (try_insert _ _ _ _) as [d2 [|]]; injection E as <- <-; (split; [cbn; intuition discriminate|reflexivity]).
    + destruct (try_insert _ _ _ _) as [d1 [|]]; [injection E as <- <-; split; [cbn; intuition discriminate|reflexivity]|].
      unfold start_timers, store_aligned in E. destruct (0 <? _); [destruct (_ <=? _)|]; try (injection E as <- <-; split; [cbn; intuition discriminate|reflexivity]).
      destruct (try_insert _ _ _ _) as [d2 [|]]; injection E as <- <-; (split; [cbn; intuition discriminate|reflexivity]).
    + injection E as <- <-. split; [cbn; intuition discriminate|reflexivity].
  - unfold on_finished in E. unfold checks in H. destruct (e_tx (s_evse s)) as [t|] eqn:T; [|injection E as <- <-; split; [intros []|unfold checks; rewrite T; reflexivity]].
    destruct (try_insert _ _ _ _) as [d1 [|]]; [injection E as <- <-; split; [cbn; intuition discriminate|unfold checks; cbn [s_evse]; rewrite T; exact H]|].
    destruct (db_get_all _ _); injection E as <- <-; (split; [cbn; intuition discriminate|]); [reflexivity|]. unfold checks. cbn. rewrite T. exact H.
  - unfold tick_updated in E. destruct (e_tx (s_evse s)); injection E as <- <-; (split; [|exact H]); [apply callback_quiet|intros []].
  - unfold tick_ended in E. destruct (e_tx (s_evse s)) eqn:T; [|injection E as <- <-; split; [intros []|exact H]]. destruct (try_insert _ _ _ _) as [d1 th]. injection E as <- <-.
    split; [destruct th; cbn; intuition discriminate|exact H].
  - unfold tick_aligned in E. destruct (e_tx (s_evse s)) eqn:T; [|injection E as <- <-; split; [intros []|exact H]]. destruct (c_idle c); injection E as <- <-; (split; [|exact H]); [intros []|apply callback_quiet].
  - unfold tick_aligned_ended, store_aligned in E. destruct (e_tx (s_evse s)) eqn:T; [|injection E as <- <-; split; [intros []|exact H]].
    destruct (try_insert _ _ _ _) as [d1 th]. injection E as <- <-. split; [destruct th; cbn; intuition discriminate|exact H].
  - unfold tick_idle in E. assert (SV : forall z m, ~ In Pause (send_values z m)) by (intros z m; unfold send_values; destruct (m_samples m); cbn; intuition discriminate).
    destruct (_ && _); [injection E as <- <-; split; [intros []|exact H]|]. destruct (is_some _); injection E as <- <-; (split; [|exact H]); [apply SV|].
    rewrite in_app_iff. intros [X|X]; exact (SV _ _ X).
  - elim N. reflexivity.
  - injection E as <- <-. split; [intros []|exact H].
  - pose proof (time_trigger_quiet (s_evse s)) as T. destruct (time_trigger (s_evse s)) as [e l]. injection E as <- <-. destruct T as [T1 T2]. split; [exact T1|].
    unfold checks. cbn [s_evse]. rewrite T2. exact H.
  - injection E as <- <-. split; [intros []|exact H].
  - injection E as <- <-. split; [intros []|exact H].
Qed.
Lemma quiet_trace : forall l s, checks s = false -> ~ In Invalid (map snd l) -> Forall (fun e => ~ In Pause (snd e)) (fst (trace l s)) /\ checks (snd (trace l s)) = false.
Proof.
  induction l as [|[c o] q IH]; intros s H N; [split; [constructor|exact H]|]. cbn [map snd In] in N.
  destruct (IH s H ltac:(tauto)) as [F C]. cbn [trace]. destruct (trace q s) as [r s1]. cbn [fst snd] in *. destruct (step c o s1) as [s2 x] eqn:E.
  destruct (quiet_step c o s1 s2 x C ltac:(intros ->; apply N; left; reflexivity) E) as [A B]. split; [constructor; assumption|exact B].
Qed.

(** ** Pricing triggers *)
Definition othered (s : sample) : sample :=
  Sample (s_value s) (s_measurand s) (Some Other) (s_phase s) (s_location s) (s_signed s) (s_unit s) (s_custom s).
Definition is_power (s : sample) : Prop := s_measurand s = Some Power_Active_Import /\ s_phase s = None.
(** The power of a meter value in W. *)
Definition power (m : mvalue) (q : Q) : Prop := exists a s b, m_samples m = a ++ s :: b /\ Forall (fun x => ~ is_power x) a /\ is_power s /\ q = s_value s.
Lemma powerb : forall s, oeqb (s_measurand s) (Some Power_Active_Import) && match s_phase s with None => true | _ => false end = true <-> is_power s.
Proof. intros s. rewrite andb_true_iff, oeqb_spec. unfold is_power. destruct (s_phase s); intuition congruence. Qed.
Lemma total_power_spec : forall m, match total_power m with Some q => power m q | None => forall q, ~ power m q end.
Proof.
  intros m. unfold total_power. destruct (find _ (m_samples m)) as [s|] eqn:E; cbn [option_map].
  - apply find_first in E. destruct E as (a&b&E&F&T). apply powerb in T. exists a, s, b. split; [exact E|]. split; [|auto].
    revert F. apply Forall_impl. intros x X Y. apply powerb in Y. congruence.
  - intros q (a&s&b&E'&F&S&_). apply powerb in S. pose proof (find_none _ _ E s) as X. cbv beta in X. rewrite S in X. discriminate X. rewrite E'. apply in_app_iff. right. left. reflexivity.
Qed.
Lemma power_unique : forall m q q', power m q -> power m q' -> q = q'.
Proof. intros m q q' (a&s&b&E&F&S&->) (a'&s'&b'&E'&F'&S'&->). rewrite E in E'. rewrite (first_unique is_power _ _ _ _ _ _ E' F F' S S'). reflexivity. Qed.
Definition billed (m : mvalue) : mvalue := MV (map othered (filtered [Energy_Active_Import_Register; Power_Active_Import] true (m_samples m))) (m_time m) (m_custom m).
Definition due (m : mvalue) (k : Q) : Prop := exists q, register m q /\ (k * 1000 <= q)%Q.
Lemma register_billed : forall m q, register m q -> m_samples (measurands_applied m [Energy_Active_Import_Register; Power_Active_Import] true) <> [].
Proof.
  intros m q (a&s&b&k&E&F&S&_). unfold measurands_applied, with_samples. cbn [m_samples]. rewrite applied_filtered. unfold filtered. intros N. apply map_eq_nil in N.
  assert (X : In s (filter (wanted [Energy_Active_Import_Register; Power_Active_Import]) (m_samples m))).
  { apply filter_In. split; [rewrite E; apply in_app_iff; right; left; reflexivity|]. unfold wanted. destruct S as [-> _]. reflexivity. }
  rewrite N in X. exact X.
Qed.
Lemma energy_trigger_ok : forall m e k, e_meter e = m -> e_energy e = Some k -> e_send e = true ->
  match energy_trigger m e with
  | None => forall q, ~ register m q
  | Some (e1, o1, sent) => e_power e1 = e_power e /\ e_last e1 = e_last e /\ e_send e1 = true /\ e_timer e1 = e_timer e /\ ~ In Threw o1 /\
      ((due m k /\ o1 = [Values false [billed m]] /\ sent = true /\ e_energy e1 = None) \/ (~ due m k /\ o1 = [] /\ sent = false /\ e_energy e1 = Some k))
  end.
Proof.
  intros m e k M K S. unfold energy_trigger. rewrite K, S, M. cbn [negb]. pose proof (active_import_spec m) as A. destruct (active_import m) as [|q|].
  - repeat (split; [assumption || reflexivity || intros []|]). right. split; [|auto]. intros (q&R&_). exact (A (register_has _ _ R)).
  - destruct (Qle_bool (k * 1000) q) eqn:L.
    + pose proof (register_billed m q A) as B. cbv zeta. destruct (m_samples _) eqn:MS; [elim B; reflexivity|]. cbn [set_energy e_power e_last e_send e_timer e_energy].
      repeat (split; [assumption || reflexivity || (cbn; intuition discriminate)|]). left. split; [exists q; split; [exact A|apply Qle_bool_iff; exact L]|].
      split; [|auto]. unfold billed, set_context, measurands_applied, with_samples. cbn [m_samples m_time m_custom]. rewrite applied_filtered. reflexivity.
    + repeat (split; [assumption || reflexivity || intros []|]). right. split; [|auto]. intros (q'&R&X). rewrite (register_unique _ _ _ R A) in X. apply Qle_bool_iff in X. congruence.
  - exact (proj2 A).
Qed.
Lemma energy_trigger_none : forall m e, e_energy e = None -> energy_trigger m e = Some (e, [], false).
Proof. intros m e K. unfold energy_trigger. rewrite K. reflexivity. Qed.
Definition fires (last : option Q) (trigger kw : Q) : Prop :=
  match last with
  | None => True
  | Some l => ((l < trigger)%Q /\ (trigger * (21 # 20) <= kw)%Q) \/ ((trigger < l)%Q /\ (kw <= trigger * (19 # 20))%Q)
  end.
Lemma Qlt_bool_iff : forall a b, Qlt_bool a b = true <-> (a < b)%Q.
Proof. intros a b. unfold Qlt_bool. rewrite negb_true_iff. split; intros H; [apply Qnot_le_lt; intros X; apply Qle_bool_iff in X; congruence|apply not_true_is_false; intros X; apply Qle_bool_iff in X; lra]. Qed.
Lemma power_trigger_ok : forall m sent e trigger, e_power e = Some trigger -> e_send e = true ->
  let '(e2, o2) := power_trigger m sent e in
  e_power e2 = e_power e /\ e_send e2 = true /\ e_energy e2 = e_energy e /\ e_timer e2 = e_timer e /\ ~ In Threw o2 /\
  ((exists w, power m w /\ fires (e_last e) trigger (w / 1000) /\ e_last e2 = Some (w / 1000)%Q /\ o2 = (if sent then [] else [Values false [MV (map othered (m_samples m)) (m_time m) (m_custom m)]])) \/
   ((forall w, power m w -> ~ fires (e_last e) trigger (w / 1000)) /\ e_last e2 = e_last e /\ o2 = [])).
Proof.
  intros m sent e trigger P S. unfold power_trigger. rewrite P. pose proof (total_power_spec m) as T. destruct (total_power m) as [w|].
  2:{ repeat (split; [assumption || reflexivity || intros []|]). right. split; [|auto]. intros w X. elim (T w X). }
  rewrite S. cbn [negb]. cbv zeta. destruct (e_last e) as [l|] eqn:L.
  - destruct (_ || _) eqn:F.
    + cbn [set_last e_power e_send e_energy e_timer e_last]. repeat (split; [assumption || reflexivity || (destruct sent; cbn; intuition discriminate)|]). left. exists w. split; [exact T|]. split; [|split; [reflexivity|destruct sent; reflexivity]].
      apply orb_true_iff in F. rewrite !andb_true_iff, !Qlt_bool_iff, !Qle_bool_iff in F. unfold fires. destruct F as [[F1 F2]|[F1 F2]]; [left|right]; (split; [exact F1|]); lra.
    + repeat (split; [assumption || reflexivity || intros []|]). right. split; [|auto]. intros w' X. rewrite (power_unique _ _ _ X T). unfold fires.
      intros Y. apply not_true_iff_false in F. apply F. apply orb_true_iff. rewrite !andb_true_iff, !Qlt_bool_iff, !Qle_bool_iff. destruct Y as [[Y1 Y2]|[Y1 Y2]]; [left|right]; (split; [exact Y1|]); lra.
  - cbn [set_last e_power e_send e_energy e_timer e_last]. repeat (split; [assumption || reflexivity || (destruct sent; cbn; intuition discriminate)|]). left. exists w. split; [exact T|]. split; [exact Logic.I|]. split; [reflexivity|destruct sent; reflexivity].
Qed.
Lemma power_trigger_none : forall m sent e, e_power e = None -> power_trigger m sent e = (e, []).
Proof. intros m sent e P. unfold power_trigger. rewrite P. reflexivity. Qed.
(** What the check of the energy leaves alone. *)
Lemma check_max_rest : forall c e, let '(e', x, threw) := check_max c e in
  e_meter e' = e_meter e /\ e_power e' = e_power e /\ e_energy e' = e_energy e /\ e_last e' = e_last e /\ e_send e' = e_send e /\ e_timer e' = e_timer e /\
  (threw = true <-> In Threw x) /\ (forall z l, ~ In (Values z l) x).
Proof.
  intros c e. unfold check_max. destruct (e_tx e) as [t|]; [|cbn; intuition discriminate]. destruct (c_max c) as [li|]; [|cbn; intuition discriminate].
  destruct (t_check t); [|cbn; intuition discriminate]. destruct (active_import (e_meter e)) as [|q|]; [cbn; intuition discriminate| |cbn; intuition discriminate].
  destruct (t_start t) as [q0|]; [|cbn; intuition discriminate]. destruct (li <=? _); cbn; intuition discriminate.
Qed.
Lemma energy_ok : forall c m s s' x k, step c (Meter m) s = (s', x) -> e_energy (s_evse s) = Some k -> e_send (s_evse s) = true -> ~ In Threw x ->
  (due m k -> In (Values false [billed m]) x /\ e_energy (s_evse s') = None) /\ (~ due m k -> e_energy (s_evse s') = Some k).
Proof.
  intros c m s s' x k E K S N. cbn [step] in E. unfold on_meter in E. set (e1 := set_end _ _) in E. pose proof (check_max_rest c e1) as C. destruct (check_max c e1) as [[e2 o] threw].
  destruct C as (C1&C2&C3&C4&C5&C6&C7&C8). destruct threw; [injection E as <- <-; elim N; apply C7; reflexivity|].
  pose proof (energy_trigger_ok m e2 k C1 (eq_trans C3 K) (eq_trans C5 S)) as T. unfold pricing in E. destruct (energy_trigger m e2) as [[[e3 o1] sent]|].
  2:{ injection E as <- <-. elim N. apply in_app_iff. right. left. reflexivity. }
  destruct T as (T1&T2&T3&T4&T5&T6).
  assert (P : let '(e4, o2) := power_trigger m sent e3 in e_energy e4 = e_energy e3).
  { destruct (e_power e3) as [tr|] eqn:PW; [|rewrite power_trigger_none by exact PW; reflexivity]. pose proof (power_trigger_ok m sent e3 tr PW T3) as Q. destruct (power_trigger m sent e3). apply Q. }
  destruct (power_trigger m sent e3) as [e4 o2]. injection E as <- <-. cbn [s_evse]. rewrite P. split; intros D.
  - destruct T6 as [(_&->&_&Y)|(ND&_)]; [|contradiction]. split; [|exact Y]. apply in_app_iff. right. apply in_app_iff. left. left. reflexivity.
  - destruct T6 as [(Y&_)|(_&_&_&Y)]; [contradiction|exact Y].
Qed.
Lemma power_ok : forall c m s s' x trigger, step c (Meter m) s = (s', x) -> e_power (s_evse s) = Some trigger -> e_send (s_evse s) = true -> ~ In Threw x ->
  e_power (s_evse s') = Some trigger /\
  ((exists w, power m w /\ fires (e_last (s_evse s)) trigger (w / 1000) /\ e_last (s_evse s') = Some (w / 1000)%Q /\
     (In (Values false [MV (map othered (m_samples m)) (m_time m) (m_custom m)]) x \/ In (Values false [billed m]) x)) \/
   ((forall w, power m w -> ~ fires (e_last (s_evse s)) trigger (w / 1000)) /\ e_last (s_evse s') = e_last (s_evse s) /\
     (e_energy (s_evse s) = None -> forall z l, ~ In (Values z l) x))).
Proof.
  intros c m s s' x trigger E P S N. cbn [step] in E. unfold on_meter in E. set (e1 := set_end _ _) in E. pose proof (check_max_rest c e1) as C. destruct (check_max c e1) as [[e2 o] threw].
  destruct C as (C1&C2&C3&C4&C5&C6&C7&C8). destruct threw; [injection E as <- <-; elim N; apply C7; reflexivity|].
  assert (P2 : e_power e2 = Some trigger) by (rewrite C2; exact P). assert (S2 : e_send e2 = true) by (rewrite C5; exact S).
  assert (T : match energy_trigger m e2 with None => True | Some (e3, o1, sent) => e_power e3 = Some trigger /\ e_last e3 = e_last (s_evse s) /\ e_send e3 = true /\
     (sent = true -> In (Values false [billed m]) o1) /\ (e_energy (s_evse s) = None -> o1 = []) end).
  { destruct (e_energy e2) as [k|] eqn:K.
    - pose proof (energy_trigger_ok m e2 k C1 K S2) as T. destruct (energy_trigger m e2) as [[[e3 o1] sent]|]; [|exact Logic.I]. destruct T as (T1&T2&T3&T4&T5&T6).
      split; [congruence|]. split; [rewrite T2; exact C4|]. split; [exact T3|]. split; [|intros X; assert (Y : e_energy e1 = e_energy (s_evse s)) by reflexivity; congruence].
      intros ->. destruct T6 as [(_&->&_)|(_&_&X&_)]; [left; reflexivity|discriminate X].
    - rewrite energy_trigger_none by exact K. split; [exact P2|]. split; [exact C4|]. split; [exact S2|]. split; [discriminate|reflexivity]. }
  unfold pricing in E. destruct (energy_trigger m e2) as [[[e3 o1] sent]|].
  2:{ injection E as <- <-. elim N. apply in_app_iff. right. left. reflexivity. }
  destruct T as (T1&T2&T3&T4&T5). pose proof (power_trigger_ok m sent e3 trigger T1 T3) as Q. destruct (power_trigger m sent e3) as [e4 o2].
  injection E as <- <-. destruct Q as (Q1&Q2&Q3&Q4&Q5&Q6). cbn [s_evse]. split; [congruence|]. rewrite T2 in Q6. destruct Q6 as [(w&W1&W2&W3&->)|(W1&W2&->)].
  - left. exists w. split; [exact W1|]. split; [exact W2|]. split; [exact W3|]. rewrite !in_app_iff. destruct sent; [right; right; left; apply T4; reflexivity|left; right; right; left; reflexivity].
  - right. split; [exact W1|]. split; [exact W2|]. intros K z l. rewrite (T5 K). cbn [app]. rewrite app_nil_r. exact (C8 z l).
Qed.
(** An energy that was reported is not reported again before new triggers are set. *)
Lemma energy_off_step : forall c o s s' x, e_energy (s_evse s) = None -> (forall p k t n, o <> Triggers p k t n) -> step c o s = (s', x) -> e_energy (s_evse s') = None.
Proof.
  intros c o s s' x K N E. destruct o; cbn [step] in E.
  - unfold on_meter in E. set (e1 := set_end _ _) in E. pose proof (check_max_rest c e1) as C. destruct (check_max c e1) as [[e2 o] threw].
    destruct C as (C1&C2&C3&_). assert (K2 : e_energy e2 = None) by (rewrite C3; exact K). destruct threw; [injection E as <- <-; exact K2|].
    unfold pricing in E. rewrite energy_trigger_none in E by exact K2. assert (P : let '(e4, o2) := power_trigger m false e2 in e_energy e4 = None).
    { unfold power_trigger. destruct (e_power e2), (total_power m); try exact K2. destruct (negb (e_send e2)); [reflexivity|]. cbv zeta. destruct (e_last e2); [destruct (_ || _)|]; exact K2. }
    destruct (power_trigger m false e2). injection E as <- <-. exact P.
  - injection E as <- <-. exact K.
  - unfold on_started in E. destruct (active_import _) as [|q|]; [| |injection E as <- <-; exact K];
      (destruct (try_insert _ _ _ _) as [d1 [|]]; [injection E as <- <-; exact K|]);
      unfold start_timers, store_aligned in E; (destruct (0 <? _); [destruct (_ <=? _)|]); try (injection E as <- <-; exact K);
      destruct (try_insert _ _ _ _) as [d2 [|]]; injection E as <- <-; exact K.
  - unfold on_finished in E. destruct (e_tx (s_evse s)) as [t|]; [|injection E as <- <-; exact K]. destruct (try_insert _ _ _ _) as [d1 [|]]; [injection E as <- <-; exact K|].
    destruct (db_get_all _ _); injection E as <- <-; [reflexivity|exact K].
  - unfold tick_updated in E. destruct (e_tx (s_evse s)); injection E as <- <-; exact K.
  - unfold tick_ended in E. destruct (e_tx (s_evse s)); [|injection E as <- <-; exact K]. destruct (try_insert _ _ _ _). injection E as <- <-. exact K.
  - unfold tick_aligned in E. destruct (e_tx (s_evse s)); [|injection E as <- <-; exact K]. destruct (c_idle c); injection E as <- <-; exact K.
  - unfold tick_aligned_ended, store_aligned in E. destruct (e_tx (s_evse s)); [|injection E as <- <-; exact K]. destruct (try_insert _ _ _ _). injection E as <- <-. exact K.
  - unfold tick_idle in E. destruct (_ && _); [injection E as <- <-; exact K|]. destruct (is_some _); injection E as <- <-; exact K.
  - unfold on_invalid in E. destruct (e_tx (s_evse s)) as [t|]; [|injection E as <- <-; exact K]. set (e1 := set_tx _ _) in E. pose proof (check_max_rest c e1) as C.
    destruct (check_max c e1) as [[e2 o] threw]. injection E as <- <-. destruct C as (_&_&C&_). cbn [s_evse]. rewrite C. exact K.
  - elim (N p k t now). reflexivity.
  - unfold time_trigger in E. destruct (e_timer (s_evse s)); injection E as <- <-; exact K.
  - injection E as <- <-. exact K.
  - injection E as <- <-. exact K.
Qed.
Lemma energy_off : forall l s, e_energy (s_evse s) = None -> (forall c p k t n, ~ In (c, Triggers p k t n) l) -> e_energy (s_evse (snd (trace l s))) = None.
Proof.
  induction l as [|[c o] q IH]; intros s K N; [exact K|]. assert (N' : forall c p k t n, ~ In (c, Triggers p k t n) q) by (intros c' p k t n X; apply (N c' p k t n); right; exact X).
  specialize (IH s K N'). cbn [trace]. destruct (trace q s) as [r s1]. cbn [snd] in *. destruct (step c o s1) as [s2 x] eqn:E.
  apply (energy_off_step c o s1 s2 x IH); [|exact E]. intros p k t n ->. apply (N c p k t n). left. reflexivity.
Qed.
(** No power is reported while it stays on its side of the trigger. *)
Lemma power_silent : forall c m s s' x trigger l, step c (Meter m) s = (s', x) -> e_power (s_evse s) = Some trigger -> e_send (s_evse s) = true -> e_energy (s_evse s) = None ->
  e_last (s_evse s) = Some l -> ~ In Threw x -> (forall w, power m w -> ~ fires (Some l) trigger (w / 1000)) -> forall z v, ~ In (Values z v) x.
Proof.
  intros c m s s' x trigger l E P S K L N H. destruct (power_ok c m s s' x trigger E P S N) as [_ [(w&W1&W2&_)|(_&_&W)]]; [rewrite L in W2; elim (H w W1 W2)|exact (W K)].
Qed.
(** ** Where effects come from *)
Definition tame (o : out) : Prop := o <> Pause /\ o <> Undefined.
Lemma send_values_tame : forall z m, Forall tame (send_values z m).
Proof. intros z m. unfold send_values. destruct (m_samples m); repeat constructor; discriminate. Qed.
Lemma callback_tame : forall c m id, Forall tame (meter_callback c m id).
Proof.
  intros c m id. unfold meter_callback. destruct (m_samples m) as [|s q]; [constructor|]. destruct (s_context s); [|constructor]. destruct (_ || _); [|constructor]. cbv zeta.
  destruct (m_samples _); repeat constructor; discriminate.
Qed.
Lemma threw_tame : forall b : bool, Forall tame (if b then [Threw] else []).
Proof. intros [|]; repeat constructor; discriminate. Qed.
Lemma time_trigger_tame : forall e, Forall tame (snd (time_trigger e)).
Proof.
  intros e. unfold time_trigger. destruct (e_timer e); [|constructor]. cbv zeta. cbn [snd].
  destruct (m_samples (measurands_applied _ _ _)); [constructor|]. destruct (e_send e); repeat constructor; discriminate.
Qed.
Lemma start_tame : forall c id t0 now m s, Forall tame (snd (on_started c id t0 now m s)).
Proof.
  intros c id t0 now m s. unfold on_started. destruct (active_import _) as [|q|]; [| |repeat constructor; discriminate];
    (destruct (try_insert _ _ _ _) as [d1 [|]]; [repeat constructor; discriminate|]);
    (destruct (start_timers _ _ _ _ _ _) as [[e2 d2] [|]]; repeat constructor; discriminate).
Qed.
Lemma other_tame : forall c o s, (forall m, o <> Meter m) -> o <> Invalid -> (forall t m, o <> Finish t m) -> Forall tame (snd (step c o s)).
Proof.
  intros c o s N1 N2 N3. destruct o; cbn [step].
  - elim (N1 m). reflexivity.
  - constructor.
  - apply start_tame.
  - elim (N3 t1 m). reflexivity.
  - unfold tick_updated. destruct (e_tx _); [apply callback_tame|constructor].
  - unfold tick_ended. destruct (e_tx _); [|constructor]. destruct (try_insert _ _ _ _) as [d b]. apply threw_tame.
  - unfold tick_aligned. destruct (e_tx _); [|constructor]. destruct (c_idle c); [constructor|apply callback_tame].
  - unfold tick_aligned_ended. destruct (e_tx _); [|constructor]. destruct (store_aligned _ _ _ _ _) as [[e d] b]. apply threw_tame.
  - unfold tick_idle. destruct (_ && _); [constructor|]. cbv zeta. destruct (is_some _); cbn [snd]; [apply send_values_tame|].
    apply Forall_app. split; apply send_values_tame.
  - elim N2. reflexivity.
  - constructor.
  - pose proof (time_trigger_tame (s_evse s)) as T. destruct (time_trigger _). exact T.
  - constructor.
  - constructor.
Qed.
Lemma energy_trigger_defined : forall m e, match energy_trigger m e with Some (_, o, _) => ~ In Undefined o | None => True end.
Proof.
  intros m e. unfold energy_trigger. destruct (e_energy e); [|intros []]. destruct (negb _); [intros []|]. destruct (active_import _); [intros []| |exact Logic.I].
  destruct (Qle_bool _ _); [|intros []]. cbv zeta. destruct (m_samples _); cbn; intuition discriminate.
Qed.
Lemma power_trigger_defined : forall m sent e, ~ In Undefined (snd (power_trigger m sent e)).
Proof.
  intros m sent e. unfold power_trigger. destruct (e_power e), (total_power m); try (intros []). destruct (negb _); [intros []|]. cbv zeta.
  destruct (e_last e); [destruct (_ || _)|]; destruct sent; cbn; intuition discriminate.
Qed.
Lemma check_max_defined : forall c e, ~ In Undefined (snd (fst (check_max c e))).
Proof.
  intros c e. unfold check_max. destruct (e_tx e) as [t|]; [|intros []]. destruct (c_max c); [|intros []]. destruct (t_check t); [|intros []].
  destruct (active_import _); [intros []| |cbn; intuition discriminate]. destruct (t_start t); [|intros []]. destruct (_ <=? _); cbn; intuition discriminate.
Qed.
Lemma meter_defined : forall c m s, ~ In Undefined (snd (step c (Meter m) s)).
Proof.
  intros c m s. cbn [step]. unfold on_meter. cbv zeta. set (e1 := set_end _ _). pose proof (check_max_defined c e1) as C. destruct (check_max c e1) as [[e2 x] [|]]; cbn [fst snd] in *; [exact C|].
  unfold pricing. pose proof (energy_trigger_defined m e2) as E. destruct (energy_trigger m e2) as [[[e3 o1] sent]|].
  - pose proof (power_trigger_defined m sent e3) as P. destruct (power_trigger m sent e3) as [e4 o2]. cbn [snd] in *. rewrite !in_app_iff. tauto.
  - cbn [snd]. rewrite in_app_iff. cbn. intuition discriminate.
Qed.
Lemma invalid_defined : forall c s, ~ In Undefined (snd (step c Invalid s)).
Proof.
  intros c s. cbn [step]. unfold on_invalid. destruct (e_tx (s_evse s)) as [t|]; [|intros []]. set (e1 := set_tx _ _). pose proof (check_max_defined c e1) as C.
  destruct (check_max c e1) as [[e2 x] b]. exact C.
Qed.
Lemma tame_not : forall x, Forall tame x -> ~ In Pause x /\ ~ In Undefined x.
Proof. intros x F. rewrite Forall_forall in F. split; intros I; apply F in I; destruct I; congruence. Qed.
Lemma finish_quiet : forall c t1 m s, ~ In Pause (snd (step c (Finish t1 m) s)).
Proof.
  intros c t1 m s. cbn [step]. unfold on_finished. destruct (e_tx _); [|intros []]. destruct (try_insert _ _ _ _) as [d [|]]; [cbn; intuition discriminate|].
  destruct (db_get_all _ _); cbn; intuition discriminate.
Qed.
Lemma undefined_ok : forall t l c o, Forall (fun e => ~ In Undefined (snd e)) (fst (trace l (boot t))) ->
  In Undefined (snd (step c o (snd (trace l (boot t))))) ->
  exists t1 m p, o = Finish t1 m /\ history t (fst (trace l (boot t))) p /\ p_tx p <> None /\ ~ (Forall plain_op (p_ops p) /\ plain (c_fk c) m).
Proof.
  intros t l c o F U. destruct (trace_history t l F) as (p&H&K). set (s := snd (trace l (boot t))) in *.
  destruct o as [m|m|id t0 now m|t1 m| | |now|now|now others| |p0 k0 t0 now| |id m|id];
    try (match type of U with In _ (snd (step c ?o s)) => elim (proj2 (tame_not _ (other_tame c o s ltac:(intros; discriminate) ltac:(intros; discriminate) ltac:(intros; discriminate))) U) end).
  - elim (meter_defined c m s U).
  - exists t1, m, p. split; [reflexivity|]. split; [exact H|]. destruct K as (K1&K2&K3&K4&K5&K6&K7&K8&K9). cbn [step] in U. unfold on_finished in U. rewrite K5 in U.
    destruct (p_tx p) as [[id r]|]; [|elim U]. split; [discriminate|]. intros [P PM]. cbn [t_id] in U.
    pose proof (try_insert_tables c id m (s_db s) (p_ops p) K9) as T. destruct (try_insert c id m (s_db s)) as [d1 [|]]; [cbn in U; intuition discriminate|]. cbn [fst] in T.
    destruct (tables_ok (Ins (c_fk c) id m :: p_ops p)) as (st&KE&OK); [constructor; [exact PM|exact P]|].
    destruct (get_all_ok _ st id OK) as (v&V&_). rewrite <- T in V. rewrite V in U. cbn in U. intuition discriminate.
  - elim (invalid_defined c s U).
Qed.
Lemma pause_ok : forall t l c o, Forall (fun e => ~ In Undefined (snd e)) (fst (trace ((c, o) :: l) (boot t))) ->
  exists p, history t (fst (trace l (boot t))) p /\
    let x := snd (step c o (snd (trace l (boot t)))) in
    match o with
    | Meter m => In Pause x <-> p_watch p = true /\ watched c p m
    | Invalid => In Pause x <-> watched c p (p_last p)
    | _ => ~ In Pause x
    end.
Proof.
  intros t l c o F. pose proof (trace_history t l) as H. cbn [trace] in F. destruct (trace l (boot t)) as [r s1]. destruct (step c o s1) as [s2 x] eqn:E. cbn [fst snd] in *.
  inversion F; subst. destruct (H H3) as (p&HI&K). exists p. split; [exact HI|]. cbv zeta. rewrite E. destruct (go_step c o p s1 s2 x K E H2) as (p'&_&S&_). cbn [snd] in *.
  assert (X : snd (step c o s1) = x) by (rewrite E; reflexivity).
  destruct o; try exact (proj1 S); rewrite <- X; try (match goal with |- ~ In _ (snd (step c ?o s1)) => apply (tame_not _ (other_tame c o s1 ltac:(intros; discriminate) ltac:(intros; discriminate) ltac:(intros; discriminate))) end). apply finish_quiet.
Qed.
Lemma pause_disarms_ok : forall c o s, In Pause (snd (step c o s)) -> checks (fst (step c o s)) = false.
Proof.
  assert (C : forall c e t, e_tx e = Some t -> let '(e', x, _) := check_max c e in In Pause x -> match e_tx e' with Some t' => t_check t' | None => false end = false).
  { intros c e t T. pose proof (check_max_ok c e (t_id t) (t_start t) (t_check t)) as C. rewrite T in C. specialize (C ltac:(destruct t; reflexivity)).
    destruct (check_max c e) as [[e' x] b]. intros I. destruct C as (_&_&(w'&C3&C4)&_). rewrite C3. cbn. destruct w'; [elim (proj2 (proj1 C4 eq_refl) I)|reflexivity]. }
  intros c o s I. destruct o; try (match type of I with In _ (snd (step c ?o s)) => elim (proj1 (tame_not _ (other_tame c o s ltac:(intros; discriminate) ltac:(intros; discriminate) ltac:(intros; discriminate))) I) end).
  - cbn [step] in *. unfold on_meter in *. cbv zeta in *. set (e1 := set_end _ _) in *. destruct (e_tx e1) as [t|] eqn:T.
    + specialize (C c e1 t T). destruct (check_max c e1) as [[e2 x] [|]]; [exact (C I)|]. pose proof (pricing_ok m e2) as P. destruct (pricing m e2) as [e3 x']. destruct P as ((_&_&_&P4)&P5).
      cbn [fst snd] in *. apply in_app_iff in I. destruct I as [I|I]; [|contradiction]. unfold checks. cbn [s_evse]. rewrite P4. exact (C I).
    + rewrite (check_max_off c e1) in * by (rewrite T; reflexivity). pose proof (pricing_ok m e1) as P. destruct (pricing m e1) as [e3 x']. elim (proj2 P I).
  - elim (finish_quiet c t1 m s I).
  - cbn [step] in *. unfold on_invalid in *. destruct (e_tx (s_evse s)) as [t|]; [|elim I]. set (e1 := set_tx _ _) in *. specialize (C c e1 _ eq_refl). destruct (check_max c e1) as [[e2 x] b]. exact (C I).
Qed.
(** ** Triggers have somewhere to go *)
Definition can_send (s : state) : Prop := let e := s_evse s in (e_power e <> None \/ e_energy e <> None \/ e_timer e <> None) -> e_send e = true.
Lemma can_send_step : forall c o s, can_send s -> can_send (fst (step c o s)).
Proof.
  intros c o s H. assert (KEEP : forall e z d, e_power e = e_power (s_evse s) -> e_energy e = e_energy (s_evse s) -> e_timer e = e_timer (s_evse s) -> e_send e = e_send (s_evse s) -> can_send (St e z d)).
  { intros e z d E1 E2 E3 E4. unfold can_send in *. cbn [s_evse]. rewrite E1, E2, E3, E4. exact H. }
  destruct o; cbn [step].
  - unfold on_meter. cbv zeta. set (e1 := set_end _ _). pose proof (check_max_rest c e1) as C. destruct (check_max c e1) as [[e2 x] threw]. destruct C as (C1&C2&C3&C4&C5&C6&_).
    destruct threw; [apply KEEP; [exact C2|exact C3|exact C6|exact C5]|]. unfold pricing.
    assert (E : match energy_trigger m e2 with None => True | Some (e3, _, _) => e_power e3 = e_power e2 /\ (e_energy e3 = e_energy e2 \/ e_energy e3 = None) /\ e_timer e3 = e_timer e2 /\ e_send e3 = e_send e2 end).
    { unfold energy_trigger. destruct (e_energy e2) eqn:K; [|auto]. destruct (negb _); [cbn; auto|]. destruct (active_import _); [auto| |exact Logic.I].
      destruct (Qle_bool _ _); [|auto]. cbv zeta. destruct (m_samples _); cbn; auto. }
    destruct (energy_trigger m e2) as [[[e3 o1] sent]|].
    + destruct E as (E1&E2&E3&E4). assert (P : let '(e4, _) := power_trigger m sent e3 in e_power e4 = e_power e3 /\ (e_energy e4 = e_energy e3 \/ e_energy e4 = None) /\ e_timer e4 = e_timer e3 /\ e_send e4 = e_send e3).
      { unfold power_trigger. destruct (e_power e3) eqn:PW, (total_power m); auto. destruct (negb _); [cbn; auto|]. cbv zeta. destruct (e_last e3); [destruct (_ || _)|]; cbn; auto. }
      destruct (power_trigger m sent e3) as [e4 o2]. destruct P as (P1&P2&P3&P4). unfold can_send in *. cbn [fst s_evse]. cbv zeta in *.
      rewrite P1, P3, P4, E1, E3, E4, C2, C6, C5. intros X. apply H. destruct X as [X|[X|X]]; [left; exact X| |right; right; exact X]. right. left.
      intros N. apply X. destruct P2 as [-> | ->]; [|reflexivity]. destruct E2 as [-> | ->]; [|reflexivity]. rewrite C3. exact N.
    + apply KEEP; [exact C2|exact C3|exact C6|exact C5].
  - apply KEEP; reflexivity.
  - unfold on_started. destruct (active_import _) as [|q|]; [| |apply KEEP; reflexivity];
      (destruct (try_insert _ _ _ _) as [d1 [|]]; [apply KEEP; reflexivity|]);
      unfold start_timers, store_aligned; (destruct (0 <? _); [destruct (_ <=? _)|]); try (apply KEEP; reflexivity);
      destruct (try_insert _ _ _ _) as [d2 [|]]; apply KEEP; reflexivity.
  - unfold on_finished. destruct (e_tx (s_evse s)); [|exact H]. destruct (try_insert _ _ _ _) as [d1 [|]]; [apply KEEP; reflexivity|].
    destruct (db_get_all _ _); [|apply KEEP; reflexivity]. unfold can_send. cbn. intros [X|[X|X]]; elim X; reflexivity.
  - unfold tick_updated. destruct (e_tx (s_evse s)); exact H.
  - unfold tick_ended. destruct (e_tx (s_evse s)); [|exact H]. destruct (try_insert _ _ _ _). apply KEEP; reflexivity.
  - unfold tick_aligned. destruct (e_tx (s_evse s)); [|exact H]. destruct (c_idle c); [exact H|apply KEEP; reflexivity].
  - unfold tick_aligned_ended, store_aligned. destruct (e_tx (s_evse s)); [|exact H]. destruct (try_insert _ _ _ _). apply KEEP; reflexivity.
  - unfold tick_idle. destruct (_ && _); [exact H|]. cbv zeta. destruct (is_some _); apply KEEP; reflexivity.
  - unfold on_invalid. destruct (e_tx (s_evse s)); [|exact H]. set (e1 := set_tx _ _). pose proof (check_max_rest c e1) as C. destruct (check_max c e1) as [[e2 x] threw]. destruct C as (C1&C2&C3&C4&C5&C6&_).
    apply KEEP; [exact C2|exact C3|exact C6|exact C5].
  - unfold can_send. cbn. auto.
  - unfold time_trigger. destruct (e_timer (s_evse s)) eqn:T; [|exact H]. cbv zeta. unfold can_send in *. cbn [fst s_evse set_timer e_power e_energy e_timer e_send]. rewrite T in H. intros X. apply H.
    destruct X as [X|[X|X]]; [left; exact X|right; left; exact X|right; right; discriminate].
  - apply KEEP; reflexivity.
  - apply KEEP; reflexivity.
Qed.
Lemma can_send_trace : forall t l, can_send (snd (trace l (boot t))).
Proof.
  intros t. induction l as [|[c o] q IH]; [unfold can_send; cbn; intros [X|[X|X]]; elim X; reflexivity|]. cbn [trace]. destruct (trace q (boot t)) as [r s1]. cbn [snd] in IH.
  pose proof (can_send_step c o s1 IH) as S. destruct (step c o s1). exact S.
Qed.
(** ** The time trigger *)
Lemma time_trigger_ok : forall t l c, let s := snd (trace l (boot t)) in let '(s', x) := step c TimeTrigger s in
  e_timer (s_evse s') = None /\
  match e_timer (s_evse s) with
  | None => x = []
  | Some _ => let f := filtered [Energy_Active_Import_Register] true (m_samples (e_meter (s_evse s))) in
      (f = [] /\ x = []) \/ (f <> [] /\ x = [Values false [MV (map othered f) (m_time (e_meter (s_evse s))) (m_custom (e_meter (s_evse s)))]])
  end.
Proof.
  intros t l c. cbv zeta. pose proof (can_send_trace t l) as CS. set (s := snd (trace l (boot t))) in *. cbn [step]. unfold time_trigger. destruct (e_timer (s_evse s)) as [z|] eqn:T; [|auto].
  cbv zeta. split; [reflexivity|]. assert (S : e_send (s_evse s) = true) by (apply CS; right; right; rewrite T; discriminate). rewrite S.
  unfold measurands_applied, set_context, with_samples. cbn [m_samples m_time m_custom]. rewrite applied_filtered. destruct (filtered _ _ _); [left; auto|right]. split; [discriminate|reflexivity].
Qed.

(** ** Triggers *)
Lemma check_max_keeps : forall c e, let '(e', _, _) := check_max c e in e_power e' = e_power e /\ e_energy e' = e_energy e /\ e_last e' = e_last e /\ e_timer e' = e_timer e.
Proof. intros c e. unfold check_max. destruct (e_tx e) as [t|], (c_max c) as [limit|]; try (cbn; auto; fail). destruct (t_check t); [|cbn; auto].
  destruct (active_import (e_meter e)) as [|q|]; try (cbn; auto; fail). destruct (t_start t) as [q0|]; [|cbn; auto]. destruct (limit <=? _); cbn; auto.
Qed.
Lemma pricing_keeps : forall m e, let '(e', _) := pricing m e in e_power e' = e_power e /\ e_timer e' = e_timer e.
Proof.
  intros m e. unfold pricing. assert (P : forall sent e, let '(e', _) := power_trigger m sent e in e_power e' = e_power e /\ e_timer e' = e_timer e).
  { intros sent e0. unfold power_trigger. destruct (e_power e0) as [tr|] eqn:Tr; [|cbn; auto]. destruct (total_power m) as [w|]; [|cbn; auto].
    destruct (negb (e_send e0)); [cbn; auto|]. destruct (e_last e0) as [x|]; [|cbn; auto]. destruct (_ || _); cbn; auto. }
  assert (E : match energy_trigger m e with None => True | Some (e', _, _) => e_power e' = e_power e /\ e_timer e' = e_timer e end).
  { unfold energy_trigger. destruct (e_energy e) as [k|]; [|cbn; auto]. destruct (negb (e_send e)); [cbn; auto|]. destruct (active_import (e_meter e)) as [|q|]; try (cbn; auto; fail).
    destruct (Qle_bool (k * 1000) q); [|cbn; auto]. cbv zeta. destruct (m_samples _); cbn; auto. }
  destruct (energy_trigger m e) as [[[e1 o1] sent]|]; [|cbn; auto]. pose proof (P sent e1) as P1. destruct (power_trigger m sent e1) as [e2 o2].
  destruct E as [<- <-]. exact P1.
Qed.
Lemma store_aligned_keeps : forall c now t e d, let '(e', _, _) := store_aligned c now t e d in e_power e' = e_power e /\ e_energy e' = e_energy e /\ e_last e' = e_last e /\ e_timer e' = e_timer e.
Proof. intros c now t e d. unfold store_aligned. destruct (try_insert c _ _ d) as [d1 threw]. cbn [e_power e_energy e_last e_timer set_end]. auto. Qed.
Lemma start_timers_keeps : forall c t0 now t e d, let '(e', _, _) := start_timers c t0 now t e d in e_power e' = e_power e /\ e_energy e' = e_energy e /\ e_last e' = e_last e /\ e_timer e' = e_timer e.
Proof.
  intros c t0 now t e d. unfold start_timers. destruct (0 <? c_interval_ended c); [|cbn; auto]. destruct (t0 <=? _); [|cbn; auto].
  pose proof (store_aligned_keeps c now t (set_end (clear_values (e_end e)) (set_upd (clear_values (e_upd e)) e)) d) as K.
  destruct (store_aligned c now t _ d) as [[e' d'] w]. exact K.
Qed.
Lemma triggers_kept_ok : forall c o s, let '(s', x) := step c o s in
  let e := s_evse s in let e' := s_evse s' in
  match o with
  | Triggers p k t now => e_power e' = p /\ e_energy e' = k /\ e_last e' = e_last e /\
      (forall x, t = Some x -> (now <= x -> e_timer e' = Some x) /\ (x < now -> e_timer e' = None))
  | Finish _ _ =>
      ((exists id v, In (Event Ended id v) x) -> e_power e' = None /\ e_energy e' = None /\ e_last e' = None /\ e_timer e' = None) /\
      ((forall id v, ~ In (Event Ended id v) x) -> e_power e' = e_power e /\ e_energy e' = e_energy e /\ e_last e' = e_last e /\ e_timer e' = e_timer e)
  | Meter _ => e_power e' = e_power e /\ e_timer e' = e_timer e
  | TimeTrigger => e_power e' = e_power e /\ e_energy e' = e_energy e /\ e_last e' = e_last e
  | _ => e_power e' = e_power e /\ e_energy e' = e_energy e /\ e_last e' = e_last e /\ e_timer e' = e_timer e
  end.
Proof.
  intros c o s. destruct o as [m|m|id t0 now m|t1 m| | |now|now|now others| |p k t now| |id m|id]; cbn [step].
  - unfold on_meter. pose proof (check_max_keeps c (set_end (set_values m (e_end (s_evse s))) (set_upd (set_values m (e_upd (s_evse s))) (set_meter m (s_evse s))))) as K.
    destruct (check_max c _) as [[e2 o] w]. cbn [e_power e_timer set_end set_upd set_meter] in K. destruct K as (K1&_&_&K2). destruct w; [cbn; auto|].
    pose proof (pricing_keeps m e2) as K. destruct (pricing m e2) as [e3 o']. destruct K as (K3&K4). cbn [s_evse]. rewrite K3, K4. auto.
  - cbn. auto.
  - unfold on_started. set (e := s_evse s). assert (H : forall r, let '(s', _) := (let t := Tx id r false in let e1 := set_tx (Some t) e in
      let '(d1, threw) := try_insert c id m (s_db s) in if threw then (St e1 (s_zero s) d1, [Threw]) else let '(e2, d2, threw2) := start_timers c t0 now t e1 d1 in
      if threw2 then (St e2 (s_zero s) d2, [Threw]) else let v := measurands_applied m (c_started c) true in
      (St e2 (s_zero s) d2, [Event Started id (match m_samples v with [] => [] | _ => [v] end)])) in
      e_power (s_evse s') = e_power e /\ e_energy (s_evse s') = e_energy e /\ e_last (s_evse s') = e_last e /\ e_timer (s_evse s') = e_timer e).
    { intros r. cbv zeta. destruct (try_insert c id m (s_db s)) as [d1 threw]. destruct threw; [cbn; auto|].
      pose proof (start_timers_keeps c t0 now (Tx id r false) (set_tx (Some (Tx id r false)) e) d1) as K. destruct (start_timers c t0 now _ _ d1) as [[e2 d2] w].
      destruct w; exact K. }
    destruct (active_import (e_meter e)); [apply (H None)|apply (H (Some q))|cbn; auto].
  - unfold on_finished. destruct (e_tx (s_evse s)) as [t|]; [|cbn; split; [intros (?&?&[])|auto]]. destruct (try_insert c _ m _) as [d1 threw].
    destruct threw; [cbn; split; [intros (?&?&[H|[]]); discriminate H|auto]|]. destruct (db_get_all (t_id t) d1); cbn.
    + split; [auto|]. intros H. exfalso. eapply H. left. reflexivity.
    + split; [intros (?&?&[H|[]]); discriminate H|auto].
  - unfold tick_updated. destruct (e_tx (s_evse s)); cbn; auto.
  - unfold tick_ended. destruct (e_tx (s_evse s)); [destruct (try_insert c _ _ _)|]; cbn; auto.
  - unfold tick_aligned. destruct (e_tx (s_evse s)); [destruct (c_idle c)|]; cbn; auto.
  - unfold tick_aligned_ended. destruct (e_tx (s_evse s)) as [t|]; [|cbn; auto]. pose proof (store_aligned_keeps c now t (s_evse s) (s_db s)) as K.
    destruct (store_aligned c now t _ _) as [[e d] w]. exact K.
  - unfold tick_idle. destruct (c_idle c && _); [cbn; auto|]. destruct (is_some _); cbn; auto.
  - unfold on_invalid. destruct (e_tx (s_evse s)) as [t|]; [|cbn; auto]. pose proof (check_max_keeps c (set_tx (Some (Tx (t_id t) (t_start t) true)) (s_evse s))) as K.
    destruct (check_max c _) as [[e o] w]. exact K.
  - cbn. repeat (split; [reflexivity|]). intros x ->. split; intros H.
    + destruct (Z.ltb_spec x now); [lia|reflexivity].
    + destruct (Z.ltb_spec x now); [reflexivity|lia].
  - unfold time_trigger. destruct (e_timer (s_evse s)); cbn; auto.
  - cbn. auto.
  - cbn. auto.
Qed.
