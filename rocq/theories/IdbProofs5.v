(** What the statements do to one component. *)
From Coq Require Import ZArith String List Bool Lia.
From Verif Require Import StrModel StrProofs IdbModel IdbSpec IdbProofs IdbProofs2 IdbProofs3 IdbProofs4.
From Verif Require DmModel.
Import ListNotations.
Local Open Scope string_scope.
Local Open Scope list_scope.
Local Open Scope Z_scope.

Lemma opt_ci_sym : forall a b, opt_eqb ci_eq a b = opt_eqb ci_eq b a.
Proof. intros [a|] [b|]; try reflexivity. unfold ci_eq; cbn. apply iequals_sym. Qed.
Lemma opt_z_sym : forall a b, opt_eqb Z.eqb a b = opt_eqb Z.eqb b a.
Proof. intros [a|] [b|]; try reflexivity. cbn. apply Z.eqb_sym. Qed.
Lemma chars_different_sym : forall a b, chars_different a b = chars_different b a.
Proof.
  intros a b. unfold chars_different. rewrite (opt_ci_sym (ch_unit a)), (opt_ci_sym (ch_values a)), (opt_z_sym (ch_max a)), (opt_z_sym (ch_min a)).
  assert (E : Bool.eqb (ch_mon a) (ch_mon b) = Bool.eqb (ch_mon b) (ch_mon a)) by (destruct (ch_mon a), (ch_mon b); reflexivity).
  assert (F : dt_eqb (ch_type a) (ch_type b) = dt_eqb (ch_type b) (ch_type a)) by (destruct (ch_type a), (ch_type b); reflexivity).
  rewrite E, F. reflexivity.
Qed.
Lemma unchanged_rel : forall c v, good_var c -> good_row v -> variable_different (strip v) c = false -> row_rel c (Some v) v.
Proof.
  intros c v GC GR D. pose proof D as D0. unfold variable_different in D. apply negb_false_iff in D. rewrite !andb_true_iff in D. destruct D as (((K & C) & M) & A).
  cbn [strip set_mons v_key v_chars v_attrs v_mons] in K, C, M, A. constructor.
  - apply same_vkey_true, K.
  - apply same_attributes_rel'; [exact (gr_types _ GR) | exact (gv_types _ GC) | exact A].
  - apply same_monitors_rel'; [exact (gr_mons _ GR) | exact (gv_mons _ GC) | exact M].
  - reflexivity.
  - apply negb_true_iff in C. rewrite chars_different_sym, C. reflexivity.
  - right. split; [reflexivity | exact D0].
  - intros w W. congruence.
Qed.

(** ** The variables of a component *)
Definition ckv (v : vrow) : Z * vkey := (v_cid v, v_key v).
Definition old_row (l : list vrow) (k : vkey) : option vrow := find (fun w => same_vkey (v_key w) k) l.
Definition others (cid : Z) (l : list vrow) : list vrow := filter (fun v => negb (v_cid v =? cid)) l.
(** The state of the variables of a component: [done] are treated, [todo] not yet. *)
Record part (cid : Z) (l0 : list vrow) (done todo : list cvar) (l : list vrow) : Prop := {
  pt_others : others cid l = others cid l0;
  pt_done : forall c, In c done -> exists v, In v (mine cid l) /\ row_rel c (old_row (mine cid l0) (cv_key c)) v;
  pt_todo : forall v, In v (mine cid l0) -> In (v_key v) (map cv_key todo) -> In v l;
  pt_only : forall v, In v (mine cid l) -> In (v_key v) (map cv_key done) \/ (In v (mine cid l0) /\ In (v_key v) (map cv_key todo));
  pt_keys : NoDup (map ckv l);
  pt_rows : forall v, In v l -> good_row v }.
Lemma in_mine : forall cid l v, In v (mine cid l) <-> In v l /\ v_cid v = cid.
Proof. intros. unfold mine. rewrite filter_In. split; intros [A B]; (split; [exact A | lia]). Qed.
Lemma old_row_some : forall l v, NoDup (map v_key l) -> In v l -> old_row l (v_key v) = Some v.
Proof.
  intros l v N I. unfold old_row. destruct (find _ l) as [w|] eqn:F.
  - apply find_some in F. destruct F as [F1 F2]. apply same_vkey_true in F2. f_equal. apply (NoDup_map_in v_key l); auto.
  - pose proof (find_none _ _ F v I) as Q. cbv beta in Q. assert (same_vkey (v_key v) (v_key v) = true) by (apply same_vkey_true; reflexivity). congruence.
Qed.
Lemma old_row_none : forall l k, (forall v, In v l -> v_key v <> k) -> old_row l k = None.
Proof.
  intros l k H. unfold old_row. destruct (find _ l) as [w|] eqn:F; [|reflexivity]. apply find_some in F. destruct F as [F1 F2].
  apply same_vkey_true in F2. exfalso. exact (H w F1 F2).
Qed.
Lemma find_strip : forall l k, find (fun v => same_vkey (v_key v) k) (map strip l) = option_map strip (old_row l k).
Proof.
  intros l k. unfold old_row. induction l as [|v l IH]; [reflexivity|]. cbn [map find]. change (v_key (strip v)) with (v_key v).
  destruct (same_vkey (v_key v) k); [reflexivity | exact IH].
Qed.
Lemma ids_apart : forall pre v post nv na nm, ids (pre ++ v :: post) nv na nm -> apart (pre ++ post) v na nm /\ own_ids v na nm.
Proof.
  intros pre v post nv na nm I. assert (VI : In v (pre ++ v :: post)) by (apply in_or_app; right; left; reflexivity).
  assert (S : forall w, In w (pre ++ post) -> In w (pre ++ v :: post)).
  { intros w W. apply in_app_or in W. apply in_or_app. cbn [In]. tauto. }
  split.
  - intros w W. assert (N : v_id w <> v_id v).
    { pose proof (id_v _ _ _ _ I) as D. rewrite map_app in D. cbn [map] in D. apply NoDup_remove_2 in D. intros E. apply D. rewrite <- E, <- map_app.
      apply in_map, W. }
    split; [exact N|]. split; intros i J.
    + split; [exact (id_ba _ _ _ _ I w i (S w W) J) | exact (id_a _ _ _ _ I w v (S w W) VI N i J)].
    + split; [exact (id_bm _ _ _ _ I w i (S w W) J) | exact (id_m _ _ _ _ I w v (S w W) VI N i J)].
  - constructor; [exact (id_na _ _ _ _ I v VI) | exact (id_nm _ _ _ _ I v VI) | |]; intros i J;
      [exact (id_ba _ _ _ _ I v i VI J) | exact (id_bm _ _ _ _ I v i VI J)].
Qed.
Lemma others_replace : forall cid pre v v' post, v_cid v = cid -> v_cid v' = cid -> others cid (pre ++ v' :: post) = others cid (pre ++ v :: post).
Proof.
  intros cid pre v v' post A B. unfold others. rewrite !filter_app. cbn [filter]. rewrite A, B, Z.eqb_refl. reflexivity.
Qed.
(** One variable after the other. *)
Lemma part_step : forall cid comps l0 done c todo l nc nv na nm,
  ids l nv na nm -> part cid l0 done (c :: todo) l -> NoDup (map ckv l0) -> good_var c -> NoDup (map cv_key (done ++ c :: todo)) ->
  exists l' nv' na' nm',
    match find (fun v => same_vkey (v_key v) (cv_key c)) (map strip (mine cid l0)) with
    | None => insert_variable cid c (Db comps l nc nv na nm)
    | Some v => if variable_different v c then update_variable cid c v (Db comps l nc nv na nm) else Some (Db comps l nc nv na nm)
    end = Some (Db comps l' nc nv' na' nm')
    /\ ids l' nv' na' nm' /\ part cid l0 (done ++ [c]) todo l'.
Proof.
  intros cid comps l0 done c todo l nc nv na nm I P N0 GC NK. rewrite find_strip.
  assert (NC : ~ In (cv_key c) (map cv_key done) /\ ~ In (cv_key c) (map cv_key todo)).
  { rewrite map_app in NK. cbn [map] in NK. apply NoDup_remove_2 in NK. split; intros K; apply NK, in_or_app; auto. }
  destruct (old_row (mine cid l0) (cv_key c)) as [v|] eqn:F; cbn [option_map].
  - pose proof F as F0. unfold old_row in F0. apply find_some in F0. destruct F0 as [V0 K]. apply same_vkey_true in K.
    assert (VL : In v l) by (apply (pt_todo _ _ _ _ _ P v V0); left; symmetry; exact K).
    assert (VC : v_cid v = cid) by (apply in_mine in V0; apply V0).
    apply in_split in VL. destruct VL as (pre & post & ->).
    pose proof (pt_rows _ _ _ _ _ P v (in_elt v pre post)) as GR.
    destruct (ids_apart _ _ _ _ _ _ I) as [AP OI].
    assert (X : exists v' na' nm',
      (if variable_different (strip v) c then update_variable cid c (strip v) (Db comps (pre ++ v :: post) nc nv na nm)
       else Some (Db comps (pre ++ v :: post) nc nv na nm)) = Some (Db comps (pre ++ v' :: post) nc nv na' nm')
      /\ row_rel c (Some v) v' /\ v_cid v' = cid /\ NoDup (akeys v') /\ NoDup (mkeys v') /\ fresh_ids v v' na na' nm nm').
    { destruct (variable_different (strip v) c) eqn:D.
      - destruct (update_variable_focus c v comps pre post nc nv na nm GC GR AP OI) as (v' & na' & nm' & E & R & C & _ & A & M & FI).
        rewrite VC in E, C. exists v', na', nm'. auto 10.
      - exists v, na, nm. split; [reflexivity|]. split; [apply unchanged_rel; assumption|]. split; [exact VC|].
        split; [exact (oi_a _ _ _ OI)|]. split; [exact (oi_m _ _ _ OI)|]. constructor; try lia; auto. }
    destruct X as (v' & na' & nm' & E & R & C & A & M & FI). exists (pre ++ v' :: post), nv, na', nm'. split; [exact E|].
    split; [apply (ids_replace pre v v' post nv na na' nm nm'); auto; exact (rr_id _ _ _ R v eq_refl)|].
    assert (KV : v_key v' = v_key v) by (rewrite (rr_key _ _ _ R); congruence).
    assert (SPLIT : forall w, In w (pre ++ v' :: post) -> w = v' \/ (In w (pre ++ v :: post) /\ (v_cid w = cid -> v_key w <> cv_key c))).
    { intros w W. pose proof (pt_keys _ _ _ _ _ P) as D. rewrite map_app in D. cbn [map] in D. apply NoDup_remove_2 in D.
      apply in_app_or in W. destruct W as [W | [W|W]]; [right| left; congruence |right]; (split; [apply in_or_app; cbn [In]; tauto|]);
        intros E1 E2; apply D; rewrite <- map_app; replace (ckv v) with (ckv w) by (unfold ckv; congruence); apply in_map, in_or_app; auto. }
    constructor.
    + rewrite (others_replace cid pre v v' post VC C). exact (pt_others _ _ _ _ _ P).
    + intros x X. apply in_app_or in X. destruct X as [X | [<- | []]].
      * destruct (pt_done _ _ _ _ _ P x X) as (w & W & RW). exists w. split; [|exact RW].
        apply in_mine in W. destruct W as [W WC]. apply in_mine. split; [|exact WC].
        apply in_app_or in W. apply in_or_app. destruct W as [W | [W|W]]; [left; exact W | | right; right; exact W].
        exfalso. apply (proj1 NC). rewrite <- K, W. rewrite (rr_key _ _ _ RW). apply in_map, X.
      * exists v'. split; [apply in_mine; split; [apply in_elt | exact C]|]. rewrite F. exact R.
    + intros w W T. assert (WL : In w (pre ++ v :: post)) by (apply (pt_todo _ _ _ _ _ P w W); right; exact T).
      apply in_app_or in WL. apply in_or_app. destruct WL as [WL | [WL|WL]]; [left; exact WL | | right; right; exact WL].
      exfalso. apply (proj2 NC). rewrite <- K, WL. exact T.
    + intros w W. apply in_mine in W. destruct W as [W WC]. destruct (SPLIT w W) as [-> | [W1 W2]].
      * left. rewrite map_app. apply in_or_app. right. left. rewrite KV. symmetry; exact K.
      * destruct (pt_only _ _ _ _ _ P w) as [Q | [Q1 Q2]]; [apply in_mine; auto | left; rewrite map_app; apply in_or_app; left; exact Q|].
        destruct Q2 as [Q2|Q2]; [exfalso; apply (W2 WC); congruence | right; auto].
    + replace (map ckv (pre ++ v' :: post)) with (map ckv (pre ++ v :: post)); [exact (pt_keys _ _ _ _ _ P)|].
      rewrite !map_app. cbn [map]. unfold ckv at 2 5. rewrite C, VC, KV. reflexivity.
    + intros w W. destruct (SPLIT w W) as [-> | [W1 _]]; [|exact (pt_rows _ _ _ _ _ P w W1)].
      apply (good_row_rel c (Some v) v' GC); [intros y Y; inversion Y; subst y; exact GR | exact R].
  - destruct (insert_variable_new c cid comps l nc nv na nm GC I) as (v' & na' & nm' & E & R & C & ID & A & M & LA & LM & FA & FM).
    exists (l ++ [v']), (nv + 1), na', nm'. split; [exact E|]. split; [apply (ids_snoc l v' nv na na' nm nm'); assumption|].
    assert (NEW : forall w, In w l -> ckv w <> (cid, cv_key c)).
    { intros w W Q. assert (Q1 : v_cid w = cid /\ v_key w = cv_key c) by (unfold ckv in Q; inversion Q; auto). destruct Q1 as [Q1 Q2].
      destruct (pt_only _ _ _ _ _ P w) as [B | [B1 _]]; [apply in_mine; auto | apply (proj1 NC); congruence|].
      unfold old_row in F. pose proof (find_none _ _ F w B1) as X. cbv beta in X.
      assert (same_vkey (v_key w) (cv_key c) = true) by (apply same_vkey_true, Q2). congruence. }
    constructor.
    + unfold others. rewrite filter_app. cbn [filter]. rewrite C, Z.eqb_refl. cbn [negb]. rewrite app_nil_r. exact (pt_others _ _ _ _ _ P).
    + intros x X. apply in_app_or in X. destruct X as [X | [<- | []]].
      * destruct (pt_done _ _ _ _ _ P x X) as (w & W & RW). exists w. split; [|exact RW].
        apply in_mine in W. apply in_mine. split; [apply in_or_app; left|]; apply W.
      * exists v'. split; [apply in_mine; split; [apply in_or_app; right; left; reflexivity | exact C]|]. rewrite F. exact R.
    + intros w W T. apply in_or_app. left. apply (pt_todo _ _ _ _ _ P w W). right; exact T.
    + intros w W. apply in_mine in W. destruct W as [W WC]. apply in_app_or in W. destruct W as [W | [<- | []]].
      * destruct (pt_only _ _ _ _ _ P w) as [Q | [Q1 Q2]]; [apply in_mine; auto | left; rewrite map_app; apply in_or_app; left; exact Q|].
        destruct Q2 as [Q2|Q2]; [exfalso; apply (NEW w W); unfold ckv; congruence | right; auto].
      * left. rewrite map_app. apply in_or_app. right. left. symmetry; exact (rr_key _ _ _ R).
    + rewrite map_app. cbn [map]. apply NoDup_Add with (a := ckv v') (l := map ckv l).
      * replace (map ckv l) with (map ckv l ++ []) at 1 by apply app_nil_r. apply Add_app.
      * split; [exact (pt_keys _ _ _ _ _ P)|]. intros Q. apply in_map_iff in Q. destruct Q as (w & Q & W).
        apply (NEW w W). rewrite Q. unfold ckv. rewrite C, (rr_key _ _ _ R). reflexivity.
    + intros w W. apply in_app_or in W. destruct W as [W | [<- | []]]; [exact (pt_rows _ _ _ _ _ P w W)|].
      apply (good_row_rel c None v' GC); [discriminate | exact R].
Qed.
Lemma part_loop : forall cid comps l0 todo done l nc nv na nm,
  ids l nv na nm -> part cid l0 done todo l -> NoDup (map ckv l0) -> (forall c, In c todo -> good_var c) -> NoDup (map cv_key (done ++ todo)) ->
  exists l' nv' na' nm',
    loop (fun w d => match find (fun v => same_vkey (v_key v) (cv_key w)) (map strip (mine cid l0)) with
                     | None => insert_variable cid w d
                     | Some v => if variable_different v w then update_variable cid w v d else Some d
                     end) todo (Db comps l nc nv na nm) = Some (Db comps l' nc nv' na' nm')
    /\ ids l' nv' na' nm' /\ part cid l0 (done ++ todo) [] l'.
Proof.
  intros cid comps l0. induction todo as [|c todo IH]; intros done l nc nv na nm I P N0 GC NK; cbn [loop].
  - exists l, nv, na, nm. rewrite app_nil_r. auto.
  - destruct (part_step cid comps l0 done c todo l nc nv na nm I P N0 (GC c (or_introl eq_refl)) NK) as (l' & nv' & na' & nm' & E & I' & P').
    rewrite E. destruct (IH (done ++ [c]) l' nc nv' na' nm' I' P' N0) as (l2 & nv2 & na2 & nm2 & E2 & I2 & P2).
    + intros x X. apply GC. right; exact X.
    + rewrite <- app_assoc. exact NK.
    + exists l2, nv2, na2, nm2. rewrite <- app_assoc in P2. auto.
Qed.

(** ** A component *)
Record rows_for (cid : Z) (vs : list cvar) (l0 l : list vrow) : Prop := {
  rw_each : forall c, In c vs -> exists v, In v (mine cid l) /\ row_rel c (old_row (mine cid l0) (cv_key c)) v;
  rw_only : forall v, In v (mine cid l) -> In (v_key v) (map cv_key vs) }.
Record well (l : list vrow) (nv na nm : Z) : Prop := {
  wl_ids : ids l nv na nm; wl_keys : NoDup (map ckv l); wl_rows : forall v, In v l -> good_row v }.
Lemma ids_filter : forall p l nv na nm, ids l nv na nm -> ids (filter p l) nv na nm.
Proof.
  intros p l nv na nm I. assert (S : forall v, In v (filter p l) -> In v l) by (intros v V; apply filter_In in V; apply V). constructor.
  - apply NoDup_map_filter, (id_v _ _ _ _ I).
  - intros v w V W. apply (id_a _ _ _ _ I); auto.
  - intros v w V W. apply (id_m _ _ _ _ I); auto.
  - intros v V. apply (id_na _ _ _ _ I); auto.
  - intros v V. apply (id_nm _ _ _ _ I); auto.
  - intros v V. apply (id_bv _ _ _ _ I); auto.
  - intros v i V. apply (id_ba _ _ _ _ I); auto.
  - intros v i V. apply (id_bm _ _ _ _ I); auto.
Qed.
Lemma well_filter : forall p l nv na nm, well l nv na nm -> well (filter p l) nv na nm.
Proof.
  intros p l nv na nm W. constructor; [apply ids_filter, (wl_ids _ _ _ _ W) | apply NoDup_map_filter, (wl_keys _ _ _ _ W)|].
  intros v V. apply filter_In in V. apply (wl_rows _ _ _ _ W), V.
Qed.
(** Deleting the variables that are not in the configuration. *)
Lemma deletions : forall vs todo comps l nc nv na nm,
  fold_left (fun d v => if existsb (fun w => same_vkey (cv_key w) (v_key v)) vs then d else delete_variable (v_id v) d) todo
    (Db comps l nc nv na nm)
  = Db comps (filter (fun w => negb (existsb (fun v => (v_id w =? v_id v) && negb (existsb (fun c => same_vkey (cv_key c) (v_key v)) vs)) todo)) l)
       nc nv na nm.
Proof.
  intros vs. induction todo as [|v todo IH]; intros comps l nc nv na nm; cbn [fold_left existsb].
  - f_equal. symmetry. change (filter (fun _ => true) l = l). induction l as [|a l IHl]; [reflexivity|]. cbn [filter]. rewrite IHl. reflexivity.
  - destruct (existsb (fun w => same_vkey (cv_key w) (v_key v)) vs) eqn:E.
    + rewrite IH. f_equal. apply filter_ext. intros w. cbn [negb]. rewrite andb_false_r. reflexivity.
    + unfold delete_variable, set_vars; cbn [d_comps d_vars d_nc d_nv d_na d_nm]. rewrite IH. f_equal.
      induction l as [|a l IHl]; [reflexivity|]. cbn [filter]. destruct (v_id a =? v_id v); cbn [andb negb orb]; [exact IHl|].
      cbn [filter]. rewrite IHl. reflexivity.
Qed.
Lemma filter_filter : forall {A} (p q : A -> bool) l, filter p (filter q l) = filter (fun x => q x && p x) l.
Proof. intros A p q l. induction l as [|a l IH]; [reflexivity|]. cbn [filter]. destruct (q a); cbn [filter andb]; rewrite IH; reflexivity. Qed.
Lemma existsb_strip : forall p l, (forall v, p (strip v) = p v) -> existsb p (map strip l) = existsb p l.
Proof. intros p l H. induction l as [|a l IH]; [reflexivity|]. cbn [map existsb]. rewrite H, IH. reflexivity. Qed.
Lemma update_component_ok : forall cid k vs comps l nc nv na nm,
  well l nv na nm -> (forall c, In c vs -> good_var c) -> NoDup (map cv_key vs) ->
  exists l' nv' na' nm',
    update_component ((cid, k), map strip (mine cid l)) vs (Db comps l nc nv na nm) = Some (Db comps l' nc nv' na' nm')
    /\ well l' nv' na' nm' /\ others cid l' = others cid l /\ rows_for cid vs l l'.
Proof.
  intros cid k vs comps l nc nv na nm W GC NK. unfold update_component. cbn [fst snd]. rewrite deletions.
  set (p := fun w => negb (existsb (fun v => (v_id w =? v_id v) && negb (existsb (fun c => same_vkey (cv_key c) (v_key v)) vs)) (map strip (mine cid l)))).
  assert (PE : forall w, In w l -> (p w = false <-> v_cid w = cid /\ ~ In (v_key w) (map cv_key vs))).
  { intros w WL. unfold p. rewrite existsb_strip by reflexivity. rewrite negb_false_iff, existsb_exists. split.
    - intros (v & V & X). apply andb_true_iff in X. destruct X as [X1 X2]. apply in_mine in V. destruct V as [V VC].
      assert (w = v) by (apply (NoDup_map_in v_id l); auto; [exact (id_v _ _ _ _ (wl_ids _ _ _ _ W)) | lia]). subst w. split; [exact VC|].
      intros K. apply negb_true_iff in X2. apply in_map_iff in K. destruct K as (c & E & C).
      assert (existsb (fun c => same_vkey (cv_key c) (v_key v)) vs = true) by (apply existsb_exists; exists c; split; [exact C | apply same_vkey_true, E]).
      congruence.
    - intros [X1 X2]. exists w. split; [apply in_mine; auto|]. rewrite Z.eqb_refl. cbn [andb]. apply negb_true_iff.
      destruct (existsb _ vs) eqn:E; [|reflexivity]. exfalso. apply existsb_exists in E. destruct E as (c & C & E). apply same_vkey_true in E.
      apply X2. rewrite <- E. apply in_map, C. }
  pose proof (well_filter p l nv na nm W) as W1.
  assert (P : part cid l [] vs (filter p l)).
  { constructor.
    - unfold others. rewrite filter_filter. apply filter_ext_in. intros w WL. destruct (p w) eqn:Q; [reflexivity|].
      apply PE in Q; [|exact WL]. destruct Q as [Q _]. rewrite Q, Z.eqb_refl. reflexivity.
    - intros c [].
    - intros v V K. apply in_mine in V. destruct V as [V VC]. apply filter_In. split; [exact V|]. destruct (p v) eqn:Q; [reflexivity|].
      apply PE in Q; [|exact V]. destruct Q; contradiction.
    - intros v V. right. apply in_mine in V. destruct V as [V VC]. apply filter_In in V. destruct V as [V Q]. split; [apply in_mine; auto|].
      destruct (in_dec vkey_dec (v_key v) (map cv_key vs)) as [K|K]; [exact K|]. exfalso.
      assert (p v = false) by (apply PE; auto). congruence.
    - exact (wl_keys _ _ _ _ W1).
    - exact (wl_rows _ _ _ _ W1). }
  destruct (part_loop cid comps l vs [] (filter p l) nc nv na nm (wl_ids _ _ _ _ W1) P (wl_keys _ _ _ _ W) GC NK)
    as (l' & nv' & na' & nm' & E & I & P').
  exists l', nv', na', nm'. split; [exact E|]. cbn [app] in P'. split; [|split].
  - constructor; [exact I | exact (pt_keys _ _ _ _ _ P') | exact (pt_rows _ _ _ _ _ P')].
  - exact (pt_others _ _ _ _ _ P').
  - constructor; [exact (pt_done _ _ _ _ _ P')|]. intros v V. destruct (pt_only _ _ _ _ _ P' v V) as [Q | [_ []]]. exact Q.
Qed.
Lemma insert_component_ok : forall k vs comps l nc nv na nm,
  well l nv na nm -> (forall v, In v l -> v_cid v <> nc + 1) -> k_inst k <> Some "" -> (forall c, In c vs -> good_var c) -> NoDup (map cv_key vs) ->
  exists l' nv' na' nm',
    insert_component k vs (Db comps l nc nv na nm) = Some (Db (comps ++ [(nc + 1, k)]) l' (nc + 1) nv' na' nm')
    /\ well l' nv' na' nm' /\ others (nc + 1) l' = others (nc + 1) l /\ rows_for (nc + 1) vs l l'.
Proof.
  intros k vs comps l nc nv na nm W F KI GC NK.
  destruct (update_component_ok (nc + 1) k vs (comps ++ [(nc + 1, k)]) l (nc + 1) nv na nm W GC NK) as (l' & nv' & na' & nm' & E & R).
  exists l', nv', na', nm'. split; [|exact R]. rewrite <- E.
  assert (M : mine (nc + 1) l = []).
  { unfold mine. clear - F. induction l as [|a l IH]; [reflexivity|]. cbn [filter]. destruct (v_cid a =? nc + 1) eqn:E.
    - exfalso. apply (F a (or_introl eq_refl)). lia.
    - apply IH. intros v V. apply F. right; exact V. }
  rewrite M. unfold insert_component. cbn [d_comps d_vars d_nc d_nv d_na d_nm]. rewrite (stored_same _ KI).
  replace (CK (k_name k) (k_inst k) (k_evse k) (k_conn k)) with k by (destruct k; reflexivity).
  unfold update_component. cbn [map fold_left find fst snd]. reflexivity.
Qed.
