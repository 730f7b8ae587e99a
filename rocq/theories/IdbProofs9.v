(** A second start with the same configuration changes nothing. *)
From Coq Require Import ZArith String List Bool Lia.
From Verif Require Import StrModel StrProofs IdbModel IdbSpec IdbProofs IdbProofs2 IdbProofs3 IdbProofs4 IdbProofs5 IdbProofs6 IdbProofs7.
From Verif Require DmModel.
Import ListNotations.
Local Open Scope string_scope.
Local Open Scope list_scope.
Local Open Scope Z_scope.

Lemma ci_refl : forall a, opt_eqb ci_eq a a = true.
Proof. intros [a|]; [unfold ci_eq; cbn; apply iequals_refl | reflexivity]. Qed.
Lemma step_again : forall c def o, ca_pers c = None -> ca_const c = None -> a_type o = ca_type c ->
  step_arow c def (step_arow c def o) = step_arow c def o.
Proof.
  intros c def o P Q T. unfold step_arow at 2 3. destruct (attribute_different c o) eqn:D; [|unfold step_arow; rewrite D; reflexivity].
  unfold step_arow. destruct (attribute_different c (upd_arow c def o)); [|reflexivity].
  unfold upd_arow. cbn [a_id a_type a_mut a_pers a_const a_value a_src]. rewrite P, Q.
  destruct (config_value c def) as [x|]; [|reflexivity]. destruct (overwritable (a_src o)) eqn:O; [reflexivity|]. rewrite O. reflexivity.
Qed.
Lemma step_new : forall c def i, ca_pers c = None -> ca_const c = None -> step_arow c def (new_arow i c def) = new_arow i c def.
Proof.
  intros c def i P Q. unfold step_arow. destruct (attribute_different c (new_arow i c def)); [|reflexivity].
  unfold upd_arow, new_arow. cbn [a_id a_type a_mut a_pers a_const a_value a_src]. rewrite P, Q. destruct (config_value c def) as [x|]; reflexivity.
Qed.
Definition plain (c : cvar) : Prop := forall a, In a (cv_attrs c) -> ca_pers a = None /\ ca_const a = None.
(** A row with which a start has nothing more to do. *)
Definition settled (c : cvar) (v : vrow) : Prop :=
  v_key v = cv_key c /\ (variable_different (strip v) c = false \/
    (v_source v = cv_source c /\ chars_different (cv_chars c) (v_chars v) = false
     /\ same_monitors (cv_mons c) (map snd (own_mons (v_mons v))) = true
     /\ (forall a, In a (cv_attrs c) -> exists o, In o (v_attrs v) /\ a_type o = ca_type a /\ step_arow a (cv_default c) o = o)
     /\ (forall o, In o (v_attrs v) -> exists a, In a (cv_attrs c) /\ ca_type a = a_type o))).
Lemma mons_settled : forall cs l, NoDup (map mkey cs) -> NoDup (map mon_key (own_mons l)) -> mons_ok cs l ->
  same_monitors cs (map snd (own_mons l)) = true.
Proof.
  intros cs l N1 N2 [A B].
  assert (EACH : forall m, In m cs -> exists e, In e (own_mons l) /\ mon_alike m (snd e)).
  { intros m M. destruct (A m M) as (e & E & K). exists e. split; [|exact K].
    assert (X : In e [e]) by (left; reflexivity). rewrite <- E in X. apply filter_In in X. apply X. }
  unfold same_monitors. apply andb_true_iff. split.
  - apply Nat.eqb_eq. rewrite map_length. rewrite <- (map_length mkey cs), <- (map_length mon_key (own_mons l)). apply Nat.le_antisymm.
    + apply NoDup_incl_length; [exact N1|]. intros k K. apply in_map_iff in K. destruct K as (m & <- & M). destruct (EACH m M) as (e & E & AL).
      rewrite (alike_key _ _ AL). change (mkey (snd e)) with (mon_key e). apply in_map, E.
    + apply NoDup_incl_length; [exact N2|]. intros k K. apply in_map_iff in K. destruct K as (e & <- & E). destruct (B e E) as (m & M & AL).
      change (mon_key e) with (mkey (snd e)). rewrite <- (alike_key _ _ AL). apply in_map, M.
  - apply forallb_forall. intros m M. destruct (EACH m M) as (e & E & AL). apply existsb_exists. exists (snd e). split; [apply in_map, E|].
    apply negb_true_iff, different_false, AL.
Qed.
Lemma rel_settled : forall c o v, good_var c -> plain c -> (forall w, o = Some w -> good_row w) -> row_rel c o v -> settled c v.
Proof.
  intros c o v GC PL GO R. split; [exact (rr_key _ _ _ R)|]. destruct (rr_source _ _ _ R) as [S | [S D]].
  - right. pose proof (row_rel_ok c o v GC R) as OK. pose proof (rr_attrs _ _ _ R) as RA. split; [exact S|].
    split; [apply chars_alike_iff, (vo_chars _ _ _ OK)|].
    split; [apply mons_settled; [exact (gv_mons _ GC) | exact (gr_mons _ (good_row_rel c o v GC GO R)) | exact (vo_mons _ _ _ OK)]|].
    split.
    + intros a A. destruct (PL a A) as [P Q]. pose proof (ar_each _ _ _ _ RA a A) as E. revert E. destruct (find _ _) as [b|] eqn:F; intros E.
      * apply find_some in F. destruct F as [_ F]. apply same_atype_true in F. exists (step_arow a (cv_default c) b). split; [exact E|].
        split; [apply step_mut; congruence|]. apply step_again; auto.
      * destruct E as (i & E). exists (new_arow i a (cv_default c)). split; [exact E|]. split; [reflexivity | apply step_new; assumption].
    + intros x X. exact (ar_only _ _ _ _ RA x X).
  - left. exact D.
Qed.
Lemma update_settled : forall c v comps pre post nc nv na nm, good_var c -> good_row v -> apart (pre ++ post) v na nm -> own_ids v na nm ->
  settled c v -> variable_different (strip v) c = true ->
  update_variable (v_cid v) c (strip v) (Db comps (pre ++ v :: post) nc nv na nm) = Some (Db comps (pre ++ v :: post) nc nv na nm).
Proof.
  intros c v comps pre post nc nv na nm GC GR AP OI [K [D | (S & CH & SM & EA & EO)]] V; [congruence|].
  unfold update_variable. change (v_id (strip v)) with (v_id v). change (v_chars (strip v)) with (v_chars v). change (v_attrs (strip v)) with (v_attrs v).
  change (v_mons (strip v)) with (own_mons (v_mons v)). rewrite (stored_key c GC), CH, SM.
  rewrite at_var_focus by (intros w W; apply AP, W).
  replace (VR (v_id v) (v_cid v) (cv_key c) (cv_source c) (v_chars v) (v_attrs v) (v_mons v)) with v by (rewrite <- K, <- S; destruct v; reflexivity).
  destruct (same_attributes (cv_attrs c) (v_attrs v)); [reflexivity|]. f_equal. unfold update_attributes.
  set (d := Db comps (pre ++ v :: post) nc nv na nm).
  assert (DEL : forall l, incl l (v_attrs v) ->
    fold_left (fun d a => if existsb (fun c => same_atype (a_type a) (ca_type c)) (cv_attrs c) then d else delete_attribute (a_id a) d) l d = d).
  { induction l as [|a l IH]; intros IN; [reflexivity|]. cbn [fold_left].
    assert (X : existsb (fun c => same_atype (a_type a) (ca_type c)) (cv_attrs c) = true).
    { destruct (EO a (IN a (or_introl eq_refl))) as (b & B & T). apply existsb_exists. exists b. split; [exact B | apply same_atype_true; congruence]. }
    rewrite X. apply IH. intros x Y. apply IN. right; exact Y. }
  rewrite (DEL (v_attrs v) (incl_refl _)).
  assert (UPD : forall l, incl l (cv_attrs c) ->
    fold_left (fun d c0 => match find (fun a => same_atype (ca_type c0) (a_type a)) (v_attrs v) with
                           | None => insert_attribute c0 (v_id v) (cv_default c) d
                           | Some a => if attribute_different c0 a then update_attribute c0 a (cv_default c) d else d
                           end) l d = d).
  { induction l as [|a l IH]; intros IN; [reflexivity|]. cbn [fold_left].
    destruct (EA a (IN a (or_introl eq_refl))) as (o & O & T & ST).
    assert (F : find (fun x => same_atype (ca_type a) (a_type x)) (v_attrs v) = Some o).
    { destruct (find _ (v_attrs v)) as [x|] eqn:F.
      - apply find_some in F. destruct F as [F1 F2]. apply same_atype_true in F2. f_equal. apply (NoDup_map_in a_type (v_attrs v)); auto; [exact (gr_types _ GR) | congruence].
      - pose proof (find_none _ _ F o O) as Q. cbv beta in Q. assert (same_atype (ca_type a) (a_type o) = true) by (apply same_atype_true; auto). congruence. }
    rewrite F. assert (U : (if attribute_different a o then update_attribute a o (cv_default c) d else d) = d).
    { destruct (attribute_different a o) eqn:Q; [|reflexivity]. unfold step_arow in ST. rewrite Q in ST. unfold d.
      rewrite update_attribute_focus.
      - f_equal. f_equal. f_equal. rewrite ST. destruct v as [i1 i2 i3 i4 i5 i6 i7]. unfold set_attrs. cbn [v_id v_cid v_key v_source v_chars v_attrs v_mons] in *. f_equal.
        rewrite <- (map_id i6) at 2. apply map_ext_in. intros x X. destruct (a_id x =? a_id o) eqn:E; [|reflexivity].
        apply (NoDup_map_in a_id i6); auto; [exact (oi_a _ _ _ OI) | lia].
      - intros w W J. destruct (AP w W) as (_ & H & _). destruct (H _ J) as [_ N]. apply N. apply in_map, O.
      - exact (oi_a _ _ _ OI).
      - exact O. }
    rewrite U. apply IH. intros x Y. apply IN. right; exact Y. }
  apply UPD, incl_refl.
Qed.
Lemma component_settled : forall cid k vs d, good d -> (forall c, In c vs -> good_var c) ->
  (forall c, In c vs -> exists v, In v (mine cid (d_vars d)) /\ settled c v) ->
  (forall v, In v (mine cid (d_vars d)) -> In (v_key v) (map cv_key vs)) ->
  update_component ((cid, k), map strip (mine cid (d_vars d))) vs d = Some d.
Proof.
  intros cid k vs d G GV EA ON. unfold update_component. cbn [fst snd].
  assert (DEL : forall l, incl l (mine cid (d_vars d)) ->
    fold_left (fun d v => if existsb (fun w => same_vkey (cv_key w) (v_key v)) vs then d else delete_variable (v_id v) d) (map strip l) d = d).
  { induction l as [|a l IH]; intros IN; [reflexivity|]. cbn [map fold_left]. change (v_key (strip a)) with (v_key a).
    assert (X : existsb (fun w => same_vkey (cv_key w) (v_key a)) vs = true).
    { specialize (ON a (IN a (or_introl eq_refl))). apply in_map_iff in ON. destruct ON as (c & E & C). apply existsb_exists. exists c.
      split; [exact C | apply same_vkey_true, E]. }
    rewrite X. apply IH. intros x Y. apply IN. right; exact Y. }
  rewrite (DEL _ (incl_refl _)).
  assert (ONE : forall c, In c vs -> match find (fun v => same_vkey (v_key v) (cv_key c)) (map strip (mine cid (d_vars d))) with
                     | None => insert_variable cid c d
                     | Some v => if variable_different v c then update_variable cid c v d else Some d
                     end = Some d).
  { intros c C. destruct (EA c C) as (v & V & ST). rewrite find_strip.
    assert (OR : old_row (mine cid (d_vars d)) (cv_key c) = Some v).
    { rewrite <- (proj1 ST). apply old_row_some; [apply mine_keys, (g_vkeys _ G) | exact V]. }
    rewrite OR. cbn [option_map]. destruct (variable_different (strip v) c) eqn:D; [|reflexivity].
    apply in_mine in V. destruct V as [V VC]. pose proof (g_rows _ G v V) as GR. pose proof (g_ids _ G) as I. subst cid. destruct d as [comps l nc nv na nm]. cbn [d_vars d_nv d_na d_nm] in *.
    apply in_split in V. destruct V as (pre & post & ->). destruct (ids_apart _ _ _ _ _ _ I) as [AP OI].
    apply update_settled; auto. }
  assert (ALL : forall l, incl l vs ->
    loop (fun w d0 => match find (fun v => same_vkey (v_key v) (cv_key w)) (map strip (mine cid (d_vars d))) with
                      | None => insert_variable cid w d0
                      | Some v => if variable_different v w then update_variable cid w v d0 else Some d0
                      end) l d = Some d).
  { induction l as [|c l IH]; intros IN; [reflexivity|]. cbn [loop]. rewrite (ONE c (IN c (or_introl eq_refl))).
    apply IH. intros x X. apply IN. right; exact X. }
  apply ALL, incl_refl.
Qed.
Theorem initialize_settled : forall cfg d d', good d -> good_config cfg ->
  (forall e c, In e cfg -> In c (snd e) -> plain c) -> initialize cfg None d = Done d' -> initialize cfg None d' = Done d'.
Proof.
  intros cfg d d' G GC PL E. destruct (initialize_upto cfg d G GC) as (d2 & E2 & G' & U). rewrite E in E2. inversion E2; subst d2. clear E2.
  unfold initialize. rewrite (read_all_good d' G').
  assert (CI : check_integrity cfg = true) by (apply check_integrity_iff; exact (gc_typed _ GC)). rewrite CI.
  assert (TR : to_remove cfg (as_read d') = []).
  { destruct (to_remove cfg (as_read d')) as [|i r] eqn:T; [reflexivity|]. exfalso.
    assert (X : In i (to_remove cfg (as_read d'))) by (rewrite T; left; reflexivity). apply to_remove_in in X. destruct X as (k & A & B). apply B.
    destruct (proj1 (ut_keys _ _ _ _ U k) (in_map snd _ _ A)) as [K | [[] _]]. exact K. }
  rewrite TR. cbn [remove_components fold_left].
  assert (ALL : forall l, incl l cfg -> insert_components l (as_read d') d' = Some d').
  { induction l as [|[k vs] l IH]; intros IN; [reflexivity|]. unfold insert_components. cbn [loop fst snd]. rewrite find_as_read.
    pose proof (IN _ (or_introl eq_refl)) as V. destruct (ut_done _ _ _ _ U k vs V) as (cid & C & R).
    pose proof (find_comp (d_comps d') (cid, k) (g_ckeys _ G') C) as F. cbn [snd] in F. rewrite F. cbn [option_map fst].
    rewrite component_settled; auto.
    - apply IH. intros x X. apply IN. right; exact X.
    - intros c X. exact (gc_vars _ GC _ c V X).
    - intros c X. destruct (rw_each _ _ _ _ R c X) as (v & VI & RR). exists v. split; [exact VI|].
      apply (rel_settled c (old_row (mine cid (d_vars d)) (cv_key c))); auto; [exact (gc_vars _ GC _ c V X) | exact (PL _ c V X)|].
      intros w W. unfold old_row in W. apply find_some in W. destruct W as [W _]. apply in_mine in W. apply (g_rows _ G w), W.
    - exact (rw_only _ _ _ _ R). }
  rewrite (ALL cfg (incl_refl _)). reflexivity.
Qed.
