(** Histories of the database. *)
From Coq Require Import ZArith String List Bool Lia.
From Verif Require Import StrModel StrProofs IdbModel IdbSpec IdbProofs IdbProofs2 IdbProofs3 IdbProofs4 IdbProofs5 IdbProofs6 IdbProofs7.
From Verif Require DmModel.
Import ListNotations.
Local Open Scope string_scope.
Local Open Scope list_scope.
Local Open Scope Z_scope.

Lemma good_empty : good empty_db.
Proof. constructor; cbn; try constructor; cbn; try constructor; intros; contradiction. Qed.
(** Changing rows in place. *)
Lemma good_map : forall (f : vrow -> vrow) x nm' d, good d -> d_nm d <= nm' ->
  (forall v, In v (d_vars d) -> v_id (f v) = v_id v /\ v_cid (f v) = v_cid v /\ v_key (f v) = v_key v /\ akeys (f v) = akeys v
                                /\ NoDup (mkeys (f v)) /\ good_row (f v)
                                /\ forall i, In i (mkeys (f v)) -> In i (mkeys v) \/ (v_id v = x /\ d_nm d < i <= nm')) ->
  good (Db (d_comps d) (map f (d_vars d)) (d_nc d) (d_nv d) (d_na d) nm').
Proof.
  intros f x nm' d G L H. pose proof (g_ids _ G) as I.
  assert (E : forall {B} (p : vrow -> B), (forall v, In v (d_vars d) -> p (f v) = p v) -> map p (map f (d_vars d)) = map p (d_vars d)).
  { intros B p P. rewrite map_map. apply map_ext_in. exact P. }
  constructor; cbn [d_comps d_vars d_nc d_nv d_na d_nm].
  - constructor.
    + rewrite E; [exact (id_v _ _ _ _ I) | intros v V; apply (H v V)].
    + intros v w V W N i. apply in_map_iff in V. destruct V as (a & <- & A). apply in_map_iff in W. destruct W as (b & <- & B).
      destruct (H a A) as (HA1 & _ & _ & HA4 & _). destruct (H b B) as (HB1 & _ & _ & HB4 & _). rewrite HA4, HB4.
      apply (id_a _ _ _ _ I a b A B). congruence.
    + intros v w V W N i. apply in_map_iff in V. destruct V as (a & <- & A). apply in_map_iff in W. destruct W as (b & <- & B).
      destruct (H a A) as (HA1 & _ & _ & _ & _ & _ & HA). destruct (H b B) as (HB1 & _ & _ & _ & _ & _ & HB).
      assert (NE : v_id a <> v_id b) by congruence. intros P Q. destruct (HA i P) as [P1 | [P1 P2]], (HB i Q) as [Q1 | [Q1 Q2]].
      * exact (id_m _ _ _ _ I a b A B NE i P1 Q1).
      * pose proof (id_bm _ _ _ _ I a i A P1). lia.
      * pose proof (id_bm _ _ _ _ I b i B Q1). lia.
      * congruence.
    + intros v V. apply in_map_iff in V. destruct V as (a & <- & A). destruct (H a A) as (_ & _ & _ & HA & _). rewrite HA. apply (id_na _ _ _ _ I a A).
    + intros v V. apply in_map_iff in V. destruct V as (a & <- & A). apply (H a A).
    + intros v V. apply in_map_iff in V. destruct V as (a & <- & A). destruct (H a A) as (HA & _). rewrite HA. apply (id_bv _ _ _ _ I a A).
    + intros v i V. apply in_map_iff in V. destruct V as (a & <- & A). destruct (H a A) as (_ & _ & _ & HA & _). rewrite HA. apply (id_ba _ _ _ _ I a i A).
    + intros v i V J. apply in_map_iff in V. destruct V as (a & <- & A). destruct (H a A) as (_ & _ & _ & _ & _ & _ & HA).
      destruct (HA i J) as [P | [_ P]]; [pose proof (id_bm _ _ _ _ I a i A P); lia | lia].
  - exact (g_cids _ G).
  - exact (g_cb _ G).
  - exact (g_ckeys _ G).
  - intros v V. apply in_map_iff in V. destruct V as (a & <- & A). destruct (H a A) as (_ & HA & _). rewrite HA. apply (g_home _ G a A).
  - intros c C. destruct (g_full _ G c C) as (v & V & Q). exists (f v). split; [apply in_map, V|]. destruct (H v V) as (_ & HA & _). congruence.
  - rewrite (E _ (fun v => (v_cid v, v_key v))); [exact (g_vkeys _ G)|]. intros v V. destruct (H v V) as (_ & A & B & _). congruence.
  - intros v V. apply in_map_iff in V. destruct V as (a & <- & A). apply (H a A).
Qed.
Lemma own_map : forall (g : Z * mon -> Z * mon) l, (forall e, m_cfg (snd (g e)) = m_cfg (snd e)) -> own_mons (map g l) = map g (own_mons l).
Proof.
  intros g l H. unfold own_mons. induction l as [|e l IH]; [reflexivity|]. cbn [map filter]. rewrite H. destruct (m_cfg (snd e)); cbn [map]; rewrite IH; reflexivity.
Qed.
Lemma own_filter : forall (p : Z * mon -> bool) m, own_mons (filter p m) = filter p (own_mons m).
Proof.
  intros p. unfold own_mons. induction m as [|x m IHm]; [reflexivity|]. cbn [filter].
  destruct (p x) eqn:P, (m_cfg (snd x)) eqn:C; cbn [filter]; rewrite ?P, ?C, ?IHm; reflexivity.
Qed.
(** What the operations between two starts do to a row. *)
Definition write_row (vid : Z) (t : attr_type) (x src : string) (r : vrow) : vrow :=
  if v_id r =? vid
  then set_attrs r (map (fun a => if same_atype (a_type a) (Some t)
                                  then AR (a_id a) (a_type a) (a_mut a) (a_pers a) (a_const a) (Some x) (Some src) else a) (v_attrs r))
  else r.
Lemma write_value_eq : forall k v t x src d, write_value k v t x src d =
  match find_variable k v d with Some vid => set_vars d (map (write_row vid t x src) (d_vars d)) | None => d end.
Proof. intros. unfold write_value. destruct (find_variable k v d); reflexivity. Qed.
Lemma same_nm : forall d l, set_vars d l = Db (d_comps d) l (d_nc d) (d_nv d) (d_na d) (d_nm d).
Proof. reflexivity. Qed.
Lemma good_write : forall k v t x src d, good d -> Z.of_nat (String.length x) <= 2500 -> good (write_value k v t x src d).
Proof.
  intros k v t x src d G L. rewrite write_value_eq. destruct (find_variable k v d) as [vid|]; [|exact G]. rewrite same_nm.
  apply (good_map _ 0); [exact G | lia|]. intros r R. pose proof (g_ids _ G) as I. pose proof (g_rows _ G r R) as GR.
  unfold write_row. destruct (v_id r =? vid).
  - split; [reflexivity|]. split; [reflexivity|]. split; [reflexivity|].
    split.
    { unfold akeys. cbn [set_attrs v_attrs]. rewrite map_map. apply map_ext. intros a. destruct (same_atype (a_type a) (Some t)); reflexivity. }
    split; [exact (id_nm _ _ _ _ I r R)|]. split; [|auto]. constructor; cbn [set_attrs v_attrs v_mons].
    + intros E. apply map_eq_nil in E. exact (gr_some _ GR E).
    + rewrite map_map. replace (map _ (v_attrs r)) with (map a_type (v_attrs r)); [exact (gr_types _ GR)|].
      apply map_ext. intros a. destruct (same_atype (a_type a) (Some t)); reflexivity.
    + intros a A. apply in_map_iff in A. destruct A as (b & <- & B). destruct (same_atype (a_type b) (Some t)); [exact L | exact (gr_short _ GR b B)].
    + exact (gr_mons _ GR).
  - split; [reflexivity|]. split; [reflexivity|]. split; [reflexivity|]. split; [reflexivity|]. split; [exact (id_nm _ _ _ _ I r R)|]. auto.
Qed.
Lemma good_add_monitor : forall k v m d, good d -> m_cfg m = DmModel.Custom -> good (add_monitor k v m d).
Proof.
  intros k v m d G C. unfold add_monitor. destruct (find_variable k v d) as [vid|]; [|exact G].
  unfold at_var, set_vars; cbn [d_comps d_vars d_nc d_nv d_na].
  apply (good_map _ vid); [exact G | lia|]. intros r R. pose proof (g_ids _ G) as I. pose proof (g_rows _ G r R) as GR.
  destruct (v_id r =? vid) eqn:E.
  - split; [reflexivity|]. split; [reflexivity|]. split; [reflexivity|]. split; [reflexivity|].
    assert (F : ~ In (d_nm d + 1) (mkeys r)) by (intros K; pose proof (id_bm _ _ _ _ I r _ R K); lia).
    split.
    { unfold mkeys. cbn [set_mons v_mons]. rewrite map_app. cbn [map fst]. apply NoDup_Add with (a := d_nm d + 1) (l := mkeys r).
      - unfold mkeys. replace (map fst (v_mons r)) with (map fst (v_mons r) ++ []) at 1 by apply app_nil_r. apply Add_app.
      - split; [exact (id_nm _ _ _ _ I r R) | exact F]. }
    split.
    { constructor; cbn [set_mons v_attrs v_mons]; [exact (gr_some _ GR) | exact (gr_types _ GR) | exact (gr_short _ GR)|].
      unfold own_mons. rewrite filter_app. cbn [filter snd]. rewrite C, app_nil_r. exact (gr_mons _ GR). }
    intros i J. unfold mkeys in J. cbn [set_mons v_mons] in J. rewrite map_app in J. apply in_app_or in J. destruct J as [J | [J | []]]; [left; exact J|].
    right. cbn [fst] in J. lia.
  - split; [reflexivity|]. split; [reflexivity|]. split; [reflexivity|]. split; [reflexivity|]. split; [exact (id_nm _ _ _ _ I r R)|]. auto.
Qed.
Lemma good_set_reference : forall mid r d, good d -> good (set_reference mid r d).
Proof.
  intros mid x d G. unfold set_reference, at_mon. rewrite same_nm. apply (good_map _ 0); [exact G | lia|]. intros r R.
  pose proof (g_ids _ G) as I. pose proof (g_rows _ G r R) as GR.
  set (g := fun e : Z * mon => if fst e =? mid
    then (fst e, Mon (m_sev (snd e)) (m_tx (snd e)) (m_type (snd e)) (m_cfg (snd e)) (m_val (snd e)) (Some x)) else e).
  assert (F : map fst (map g (v_mons r)) = mkeys r) by (rewrite map_map; apply map_ext; intros e; unfold g; destruct (fst e =? mid); reflexivity).
  split; [reflexivity|]. split; [reflexivity|]. split; [reflexivity|]. split; [reflexivity|]. unfold mkeys at 1 2. cbn [set_mons v_mons]. rewrite F.
  split; [exact (id_nm _ _ _ _ I r R)|]. split; [|auto].
  constructor; cbn [set_mons v_attrs v_mons]; [exact (gr_some _ GR) | exact (gr_types _ GR) | exact (gr_short _ GR)|].
  rewrite own_map by (intros e; unfold g; destruct (fst e =? mid); reflexivity). rewrite map_map.
  replace (map _ (own_mons (v_mons r))) with (map mon_key (own_mons (v_mons r))); [exact (gr_mons _ GR)|].
  apply map_ext. intros e. unfold g, mon_key. destruct (fst e =? mid); reflexivity.
Qed.
Lemma good_clear : forall mid p d, good d -> good (clear_monitor mid p d).
Proof.
  intros mid p d G. unfold clear_monitor. rewrite same_nm. apply (good_map _ 0); [exact G | lia|]. intros r R.
  pose proof (g_ids _ G) as I. pose proof (g_rows _ G r R) as GR.
  split; [reflexivity|]. split; [reflexivity|]. split; [reflexivity|]. split; [reflexivity|]. unfold mkeys at 1 2. cbn [set_mons v_mons].
  split; [apply NoDup_map_filter, (id_nm _ _ _ _ I r R)|]. split.
  - constructor; cbn [set_mons v_attrs v_mons]; [exact (gr_some _ GR) | exact (gr_types _ GR) | exact (gr_short _ GR)|].
    rewrite own_filter. apply NoDup_map_filter, (gr_mons _ GR).
  - intros i J. left. apply in_map_iff in J. destruct J as (e & <- & J). apply filter_In in J. apply (in_map fst), J.
Qed.
Lemma crash_eq : forall cfg n d, good d -> good_config cfg ->
  initialize cfg (Some n) d = Died (remove_components (firstn n (to_remove cfg (as_read d))) d).
Proof.
  intros cfg n d G GC. unfold initialize. rewrite (read_all_good d G).
  assert (CI : check_integrity cfg = true) by (apply check_integrity_iff; exact (gc_typed _ GC)). rewrite CI. reflexivity.
Qed.
Lemma good_step : forall d o, good d -> good_op o -> good (step d o).
Proof.
  intros d o G O. destruct o as [cfg [n|] | k v t x src | k v m | mid r | mid p]; cbn [step good_op] in *.
  - rewrite (crash_eq cfg n d G O). cbn [after]. apply good_removed, G.
  - destruct (initialize_upto cfg d G O) as (d' & E & G' & _). rewrite E. exact G'.
  - apply good_write; assumption.
  - apply good_add_monitor; assumption.
  - apply good_set_reference; assumption.
  - apply good_clear; assumption.
Qed.
Lemma good_run : forall h d, good d -> Forall good_op h -> good (run d h).
Proof.
  induction h as [|o h IH]; intros d G H; [exact G|]. inversion H; subst. unfold run. cbn [fold_left]. apply IH; [apply good_step; assumption | assumption].
Qed.
Lemma reachable_good : forall h, Forall good_op h -> good (run empty_db h).
Proof. intros h H. apply good_run; [exact good_empty | exact H]. Qed.

(** ** A value *)
Lemma vars_at_unique : forall d k key, good d -> vars_at d k key = [] \/ exists w, vars_at d k key = [w].
Proof.
  intros d k key G. destruct (in_dec ckey_dec k (map snd (d_comps d))) as [K|K]; [|left; apply vars_at_none, K].
  apply in_map_iff in K. destruct K as ([cid k'] & K1 & K2). cbn [snd] in K1. subst k'.
  rewrite (vars_at_mine d k key cid (g_cids _ G) (g_ckeys _ G) K2).
  destruct (filter _ _) as [|w q] eqn:F; [left; reflexivity | right]. exists w. rewrite <- F.
  assert (W : In w (w :: q)) by (left; reflexivity). rewrite <- F in W. apply filter_In in W. destruct W as [W1 W2]. apply same_vkey_true in W2.
  apply (filter_one v_key); [apply mine_keys, (g_vkeys _ G) | exact W1|]. intros y _. rewrite W2. apply same_vkey_true.
Qed.
Lemma vars_at_map : forall (f : vrow -> vrow) d nm' k key, (forall v, v_cid (f v) = v_cid v /\ v_key (f v) = v_key v) ->
  vars_at (Db (d_comps d) (map f (d_vars d)) (d_nc d) (d_nv d) (d_na d) nm') k key = map f (vars_at d k key).
Proof.
  intros f d nm' k key H. unfold vars_at. cbn [d_comps d_vars]. induction (d_vars d) as [|v l IH]; [reflexivity|]. cbn [map filter].
  destruct (H v) as [A B]. rewrite A, B. destruct (_ && _); cbn [map]; rewrite IH; reflexivity.
Qed.
Lemma attr_at_map : forall (f : vrow -> vrow) d nm' k key t, (forall v, v_cid (f v) = v_cid v /\ v_key (f v) = v_key v) ->
  attr_at (Db (d_comps d) (map f (d_vars d)) (d_nc d) (d_nv d) (d_na d) nm') k key t = flat_map (fun r => attrs_of t (v_attrs (f r))) (vars_at d k key).
Proof.
  intros f d nm' k key t H. unfold attr_at. rewrite vars_at_map by exact H. induction (vars_at d k key) as [|v l IH]; [reflexivity|].
  cbn [map flat_map]. rewrite IH. reflexivity.
Qed.
Lemma vars_at_in : forall d k key v, In v (vars_at d k key) <-> In v (d_vars d) /\ v_key v = key /\ In (v_cid v, k) (d_comps d).
Proof.
  intros d k key v. unfold vars_at. rewrite filter_In, andb_true_iff, is_true. destruct (in_dec pair_dec (v_cid v, k) (d_comps d)); [tauto|].
  split; [intros (_ & _ & X); discriminate X | tauto].
Qed.
Lemma find_variable_in : forall d k key vid, find_variable k key d = Some vid ->
  exists r, In r (vars_at d k key) /\ v_id r = vid.
Proof.
  intros d k key vid F. unfold find_variable, find_component in F. destruct (find (fun c => same_ckey (snd c) k) (d_comps d)) as [[cid k']|] eqn:C; [|discriminate F].
  cbn [option_map fst] in F. apply find_some in C. destruct C as [C1 C2]. apply same_ckey_true in C2. cbn [snd] in C2. subst k'.
  destruct (find _ (d_vars d)) as [r|] eqn:R; [|discriminate F]. cbn [option_map] in F. apply find_some in R. destruct R as [R1 R2].
  apply andb_true_iff in R2. destruct R2 as [R2 R3]. apply same_vkey_true in R3. exists r. split; [|congruence]. apply vars_at_in.
  split; [exact R1|]. split; [exact R3|]. replace (v_cid r) with cid by lia. exact C1.
Qed.
Lemma find_variable_some : forall d k key r, good d -> vars_at d k key = [r] -> find_variable k key d = Some (v_id r).
Proof.
  intros d k key r G V. assert (R : In r (vars_at d k key)) by (rewrite V; left; reflexivity). apply vars_at_in in R. destruct R as (R1 & R2 & R3).
  unfold find_variable, find_component. pose proof (find_comp (d_comps d) (v_cid r, k) (g_ckeys _ G) R3) as F. cbn [snd] in F. rewrite F.
  cbn [option_map fst]. destruct (find _ (d_vars d)) as [w|] eqn:W.
  - apply find_some in W. destruct W as [W1 W2]. apply andb_true_iff in W2. destruct W2 as [W2 W3]. apply same_vkey_true in W3.
    cbn [option_map]. f_equal. f_equal. apply (NoDup_map_in (fun v => (v_cid v, v_key v)) (d_vars d)); auto; [exact (g_vkeys _ G)|]. cbv beta. f_equal; [lia | congruence].
  - pose proof (find_none _ _ W r R1) as Q. cbv beta in Q. rewrite Z.eqb_refl in Q. assert (same_vkey (v_key r) key = true) by (apply same_vkey_true, R2).
    rewrite H in Q. discriminate Q.
Qed.
Lemma flat_map_ext_in' : forall {A B} (f g : A -> list B) l, (forall x, In x l -> f x = g x) -> flat_map f l = flat_map g l.
Proof.
  intros A B f g l. induction l as [|a l IH]; intros H; [reflexivity|]. cbn [flat_map]. rewrite (H a (or_introl eq_refl)), IH; [reflexivity|].
  intros x X. apply H. right; exact X.
Qed.
Lemma attr_at_write_other : forall d k' v' t' x src k v t, good d -> (k', v', t') <> (k, v, t) ->
  attr_at (write_value k' v' t' x src d) k v (Some t) = attr_at d k v (Some t).
Proof.
  intros d k' v' t' x src k v t G N. rewrite write_value_eq. destruct (find_variable k' v' d) as [vid|] eqn:F; [|reflexivity].
  rewrite same_nm. rewrite attr_at_map by (intros r; unfold write_row; destruct (v_id r =? vid); split; reflexivity).
  unfold attr_at. apply flat_map_ext_in'. intros r R. unfold write_row. destruct (v_id r =? vid) eqn:E; [|reflexivity].
  apply find_variable_in in F. destruct F as (w & W1 & W2). apply vars_at_in in W1. apply vars_at_in in R. destruct W1 as (W1 & W3 & W4), R as (R1 & R2 & R3).
  assert (w = r) by (apply (NoDup_map_in v_id (d_vars d)); auto; [exact (id_v _ _ _ _ (g_ids _ G)) | lia]). subst w.
  assert (Q : (v_cid r, k) = (v_cid r, k')) by (apply (NoDup_map_in fst (d_comps d)); auto; exact (g_cids _ G)).
  assert (KK : k' = k) by congruence. assert (VV : v' = v) by congruence.
  assert (T : t' <> t) by (intros T; apply N; congruence). cbn [set_attrs v_attrs]. unfold attrs_of.
  induction (v_attrs r) as [|a l IH]; [reflexivity|]. cbn [map filter].
  destruct (same_atype (a_type a) (Some t')) eqn:S.
  - cbn [a_type]. assert (X : is atype_dec (a_type a) (Some t) = false).
    { apply not_true_iff_false. rewrite is_true. apply same_atype_true in S. congruence. }
    rewrite X. exact IH.
  - destruct (is atype_dec (a_type a) (Some t)); rewrite IH; reflexivity.
Qed.
Lemma attr_at_write : forall d k v t x src a, good d -> attr_at d k v (Some t) = [a] ->
  exists b, attr_at (write_value k v t x src d) k v (Some t) = [b] /\ a_value b = Some x /\ a_src b = Some src.
Proof.
  intros d k v t x src a G A. destruct (vars_at_unique d k v G) as [V | (w & V)]; [unfold attr_at in A; rewrite V in A; discriminate A|].
  rewrite write_value_eq, (find_variable_some d k v w G V). rewrite same_nm.
  rewrite attr_at_map by (intros r; unfold write_row; destruct (v_id r =? v_id w); split; reflexivity).
  unfold attr_at in A. rewrite V in A |- *. cbn [flat_map] in A |- *. rewrite app_nil_r in A |- *. unfold write_row. rewrite Z.eqb_refl. cbn [set_attrs v_attrs].
  exists (AR (a_id a) (a_type a) (a_mut a) (a_pers a) (a_const a) (Some x) (Some src)). split; [|split; reflexivity].
  revert A. unfold attrs_of.
  assert (H : forall l, filter (fun a0 => is atype_dec (a_type a0) (Some t))
      (map (fun a0 => if same_atype (a_type a0) (Some t) then AR (a_id a0) (a_type a0) (a_mut a0) (a_pers a0) (a_const a0) (Some x) (Some src) else a0) l)
    = map (fun a0 => AR (a_id a0) (a_type a0) (a_mut a0) (a_pers a0) (a_const a0) (Some x) (Some src)) (filter (fun a0 => is atype_dec (a_type a0) (Some t)) l)).
  { induction l as [|b l IH]; [reflexivity|]. cbn [map filter]. destruct (is atype_dec (a_type b) (Some t)) eqn:E.
    - apply is_true in E. assert (S : same_atype (a_type b) (Some t) = true) by (apply same_atype_true, E). rewrite S. cbn [a_type].
      assert (E2 : is atype_dec (a_type b) (Some t) = true) by (apply is_true, E). rewrite E2. cbn [map]. rewrite IH. reflexivity.
    - destruct (same_atype (a_type b) (Some t)) eqn:S; [apply same_atype_true in S; assert (is atype_dec (a_type b) (Some t) = true) by (apply is_true, S); congruence|].
      rewrite E. exact IH. }
  intros A. rewrite H, A. reflexivity.
Qed.
Lemma vars_at_removed : forall d r k key, good d -> (forall i, In (i, k) (d_comps d) -> ~ In i r) ->
  vars_at (remove_components r d) k key = vars_at d k key.
Proof.
  intros d r k key G H. destruct (in_dec ckey_dec k (map snd (d_comps d))) as [K|K].
  - apply in_map_iff in K. destruct K as ([cid k'] & K1 & K2). cbn [snd] in K1. subst k'. pose proof (good_removed r d G) as G1.
    assert (K3 : In (cid, k) (d_comps (remove_components r d))).
    { rewrite remove_components_eq. cbn [d_comps]. apply filter_In. split; [exact K2|]. apply keep_ids_in, (H cid K2). }
    rewrite (vars_at_mine _ k key cid (g_cids _ G1) (g_ckeys _ G1) K3), (vars_at_mine _ k key cid (g_cids _ G) (g_ckeys _ G) K2).
    rewrite remove_components_eq. cbn [d_vars]. rewrite (mine_removed r cid _ (H cid K2)). reflexivity.
  - rewrite (vars_at_none d k key K). apply vars_at_none. rewrite remove_components_eq. cbn [d_comps]. intros X. apply K.
    apply in_map_iff in X. destruct X as (c & <- & C). apply filter_In in C. apply in_map, C.
Qed.
Lemma kept_id : forall cfg d k n, good d -> In k (map fst cfg) -> forall i, In (i, k) (d_comps d) -> ~ In i (firstn n (to_remove cfg (as_read d))).
Proof.
  intros cfg d k n G K i I J. assert (J2 : In i (to_remove cfg (as_read d))).
  { rewrite <- (firstn_skipn n (to_remove cfg (as_read d))). apply in_or_app. left; exact J. }
  apply to_remove_in in J2. destruct J2 as (k' & A & B).
  assert (Q : (i, k') = (i, k)) by (apply (NoDup_map_in fst (d_comps d)); auto; exact (g_cids _ G)). apply B. congruence.
Qed.
Lemma holds_start : forall cfg crash d k v t x s c a, good d -> good_config cfg -> configures cfg k c -> cv_key c = v -> In a (cv_attrs c) ->
  ca_type a = Some t -> set_by s -> holds d k v t x s -> holds (after (initialize cfg crash d)) k v t x s.
Proof.
  intros cfg crash d k v t x s c a G GC CF KV AI AT SB (o & O & OV & OS). destruct CF as (vs & V & C). destruct crash as [n|].
  - rewrite (crash_eq cfg n d G GC). cbn [after]. exists o. split; [|auto]. unfold attr_at. rewrite (vars_at_removed d _ k v G).
    + exact O.
    + apply (kept_id cfg d k n G). apply (in_map fst) in V. exact V.
  - destruct (initialize_reflects cfg d G GC) as (d' & E & G' & R). rewrite E. cbn [after].
    destruct (rf_vars _ _ _ R k c) as (w & W & OK); [exists vs; auto|]. rewrite KV in W, OK.
    destruct (vars_at_unique d k v G) as [V0 | (w0 & V0)]; [unfold attr_at in O; rewrite V0 in O; discriminate O|].
    unfold attr_at in O. rewrite V0 in O, OK. cbn [flat_map hd_error] in O, OK. rewrite app_nil_r in O.
    destruct (vo_attrs _ _ _ OK (Some t)) as [H _]. destruct (H a AI AT) as (r & R1 & R2). rewrite O in R2. cbn [hd_error] in R2.
    exists r. unfold attr_at. rewrite W. cbn [flat_map]. rewrite app_nil_r. split; [exact R1|].
    rewrite <- OS in SB. destruct (ao_set _ _ _ _ R2 o eq_refl SB) as [X Y]. split; congruence.
Qed.
Lemma holds_step : forall d o k v t x s, good d -> good_op o -> spares k v t o -> set_by s -> holds d k v t x s -> holds (step d o) k v t x s.
Proof.
  intros d o k v t x s G GO SP SB H. destruct o as [cfg crash | k' v' t' x' src | k' v' m | mid r | mid p]; cbn [step good_op spares] in *.
  - destruct SP as (c & a & S1 & S2 & S3 & S4). exact (holds_start cfg crash d k v t x s c a G GO S1 S2 S3 S4 SB H).
  - destruct H as (a & A & B). exists a. split; [|exact B]. rewrite (attr_at_write_other d k' v' t' x' src k v t G SP). exact A.
  - unfold add_monitor. destruct (find_variable k' v' d) as [vid|]; [|exact H]. destruct H as (a & A & B). exists a. split; [|exact B].
    unfold at_var, set_vars; cbn [d_comps d_vars d_nc d_nv d_na]. rewrite attr_at_map by (intros r; destruct (v_id r =? vid); split; reflexivity).
    rewrite <- A. apply flat_map_ext_in'. intros r _. destruct (v_id r =? vid); reflexivity.
  - destruct H as (a & A & B). exists a. split; [|exact B]. unfold set_reference, at_mon. rewrite same_nm.
    rewrite attr_at_map by (intros; split; reflexivity). rewrite <- A. reflexivity.
  - destruct H as (a & A & B). exists a. split; [|exact B]. unfold clear_monitor. rewrite same_nm.
    rewrite attr_at_map by (intros; split; reflexivity). rewrite <- A. reflexivity.
Qed.
Lemma holds_run : forall h d k v t x s, good d -> Forall good_op h -> Forall (spares k v t) h -> set_by s -> holds d k v t x s -> holds (run d h) k v t x s.
Proof.
  induction h as [|o h IH]; intros d k v t x s G GO SP SB H; [exact H|]. inversion GO; inversion SP; subst. unfold run. cbn [fold_left].
  apply IH; auto; [apply good_step; assumption | apply holds_step; assumption].
Qed.

Lemma attr_at_unique : forall d k v t, good d -> attr_at d k v t <> [] -> exists a, attr_at d k v t = [a].
Proof.
  intros d k v t G N. destruct (vars_at_unique d k v G) as [V | (w & V)]; unfold attr_at in *; rewrite V in *; [exfalso; apply N; reflexivity|].
  cbn [flat_map] in *. rewrite app_nil_r in *. destruct (attrs_of t (v_attrs w)) as [|a q] eqn:A; [congruence|]. exists a. rewrite <- A.
  assert (X : In a (a :: q)) by (left; reflexivity). rewrite <- A in X. unfold attrs_of in X. apply filter_In in X. destruct X as [X T]. apply is_true in T. subst t.
  apply attrs_of_one; [|exact X]. apply gr_types, (g_rows _ G). assert (W : In w (vars_at d k v)) by (rewrite V; left; reflexivity). apply vars_at_in in W. apply W.
Qed.
Lemma run_app : forall h1 h2 d, run d (h1 ++ h2) = run (run d h1) h2.
Proof. intros. unfold run. apply fold_left_app. Qed.

(** ** Custom monitors *)
Lemma custom_in : forall l e, In e (custom_mons l) <-> In e l /\ m_cfg (snd e) = DmModel.Custom.
Proof.
  intros l e. unfold custom_mons. rewrite filter_In. destruct (m_cfg (snd e)); split; intros [A B]; try discriminate B; auto.
Qed.
Lemma customs_map : forall (f : vrow -> vrow) d nm' k key, (forall v, v_cid (f v) = v_cid v /\ v_key (f v) = v_key v) ->
  customs_at (Db (d_comps d) (map f (d_vars d)) (d_nc d) (d_nv d) (d_na d) nm') k key
  = flat_map (fun r => custom_mons (v_mons (f r))) (vars_at d k key).
Proof.
  intros f d nm' k key H. unfold customs_at. rewrite vars_at_map by exact H. induction (vars_at d k key) as [|v l IH]; [reflexivity|].
  cbn [map flat_map]. rewrite IH. reflexivity.
Qed.
Lemma customs_step : forall d o k v e, good d -> good_op o -> leaves k v (fst e) o -> In e (customs_at d k v) -> In e (customs_at (step d o) k v).
Proof.
  intros d o k v e G GO SP H.
  assert (SUB : forall (f : vrow -> vrow) nm', (forall r, v_cid (f r) = v_cid r /\ v_key (f r) = v_key r) ->
    (forall r, In e (custom_mons (v_mons r)) -> In e (custom_mons (v_mons (f r)))) ->
    In e (customs_at (Db (d_comps d) (map f (d_vars d)) (d_nc d) (d_nv d) (d_na d) nm') k v)).
  { intros f nm' F K. rewrite customs_map by exact F. unfold customs_at in H. apply in_flat_map in H. destruct H as (r & R & E).
    apply in_flat_map. exists r. auto. }
  destruct o as [cfg crash | k' v' t' x' src | k' v' m | mid r | mid p]; cbn [step good_op leaves] in *.
  - destruct SP as (c & (vs & V & C) & KV). destruct crash as [n|].
    + rewrite (crash_eq cfg n d G GO). cbn [after]. unfold customs_at. rewrite (vars_at_removed d _ k v G); [exact H|].
      apply (kept_id cfg d k n G). apply (in_map fst) in V. exact V.
    + destruct (initialize_reflects cfg d G GO) as (d' & E & G' & R). rewrite E. cbn [after].
      destruct (rf_vars _ _ _ R k c) as (w & W & OK); [exists vs; auto|]. rewrite KV in W, OK.
      destruct (vars_at_unique d k v G) as [V0 | (w0 & V0)]; unfold customs_at in *; rewrite V0 in *; [destruct H|].
      rewrite W. cbn [flat_map hd_error] in *. rewrite app_nil_r in *. pose proof (vo_custom _ _ _ OK) as Q. cbv iota in Q. rewrite Q. exact H.
  - rewrite write_value_eq. destruct (find_variable k' v' d) as [vid|]; [|exact H]. rewrite same_nm. apply SUB.
    + intros r. unfold write_row. destruct (v_id r =? vid); split; reflexivity.
    + intros r. unfold write_row. destruct (v_id r =? vid); auto.
  - unfold add_monitor. destruct (find_variable k' v' d) as [vid|]; [|exact H]. unfold at_var, set_vars; cbn [d_comps d_vars d_nc d_nv d_na]. apply SUB.
    + intros r. destruct (v_id r =? vid); split; reflexivity.
    + intros r. destruct (v_id r =? vid); auto. cbn [set_mons v_mons]. rewrite !custom_in. intros [A B]. split; [apply in_or_app; left; exact A | exact B].
  - unfold set_reference, at_mon. rewrite same_nm. apply SUB; [intros; split; reflexivity|]. intros w. cbn [set_mons v_mons]. rewrite !custom_in. intros [A B].
    split; [|exact B]. apply in_map_iff. exists e. split; [|exact A]. destruct (fst e =? mid) eqn:Q; [exfalso; lia | reflexivity].
  - unfold clear_monitor. rewrite same_nm. apply SUB; [intros; split; reflexivity|]. intros w. cbn [set_mons v_mons]. rewrite !custom_in. intros [A B].
    split; [|exact B]. apply filter_In. split; [exact A|]. destruct (fst e =? mid) eqn:Q; [exfalso; lia | reflexivity].
Qed.
Lemma customs_run : forall h d k v e, good d -> Forall good_op h -> Forall (leaves k v (fst e)) h -> In e (customs_at d k v) -> In e (customs_at (run d h) k v).
Proof.
  induction h as [|o h IH]; intros d k v e G GO SP H; [exact H|]. inversion GO; inversion SP; subst. unfold run. cbn [fold_left].
  apply IH; auto; [apply good_step; assumption | apply customs_step; assumption].
Qed.
Lemma add_monitor_there : forall d k v m, good d -> m_cfg m = DmModel.Custom -> vars_at d k v <> [] ->
  exists i, In (i, m) (customs_at (add_monitor k v m d) k v).
Proof.
  intros d k v m G C N. destruct (vars_at_unique d k v G) as [V | (w & V)]; [congruence|]. exists (d_nm d + 1).
  unfold add_monitor. rewrite (find_variable_some d k v w G V). unfold at_var, set_vars; cbn [d_comps d_vars d_nc d_nv d_na].
  rewrite customs_map by (intros r; destruct (v_id r =? v_id w); split; reflexivity). rewrite V. cbn [flat_map]. rewrite app_nil_r, Z.eqb_refl. cbn [set_mons v_mons].
  apply custom_in. split; [apply in_or_app; right; left; reflexivity | exact C].
Qed.
