(** What a start does to the database. *)
From Coq Require Import ZArith String List Bool Lia.
From Verif Require Import StrModel StrProofs IdbModel IdbSpec IdbProofs IdbProofs2 IdbProofs3 IdbProofs4 IdbProofs5.
From Verif Require DmModel.
Import ListNotations.
Local Open Scope string_scope.
Local Open Scope list_scope.
Local Open Scope Z_scope.

Lemma good_well : forall d, good d -> well (d_vars d) (d_nv d) (d_na d) (d_nm d).
Proof. intros d G. constructor; [exact (g_ids _ G) | exact (g_vkeys _ G) | exact (g_rows _ G)]. Qed.
Lemma find_as_read : forall d k, find (same_comp k) (as_read d) =
  option_map (fun c => (c, map strip (mine (fst c) (d_vars d)))) (find (fun c => same_ckey (snd c) k) (d_comps d)).
Proof.
  intros d k. unfold as_read. generalize (d_comps d) as cs. induction cs as [|c cs IH]; [reflexivity|]. cbn [map find].
  unfold same_comp at 1. cbn [fst snd]. destruct (same_ckey (snd c) k); [reflexivity | exact IH].
Qed.
Lemma find_comp : forall (cs : list (Z * ckey)) c, NoDup (map snd cs) -> In c cs -> find (fun c' => same_ckey (snd c') (snd c)) cs = Some c.
Proof.
  intros cs c N I. destruct (find _ cs) as [e|] eqn:F.
  - apply find_some in F. destruct F as [F1 F2]. apply same_ckey_true in F2. f_equal. apply (NoDup_map_in snd cs); auto.
  - pose proof (find_none _ _ F c I) as Q. cbv beta in Q. assert (same_ckey (snd c) (snd c) = true) by (apply same_ckey_true; reflexivity). congruence.
Qed.
Lemma find_comp_none : forall (cs : list (Z * ckey)) k, ~ In k (map snd cs) <-> find (fun c => same_ckey (snd c) k) cs = None.
Proof.
  intros cs k. split.
  - intros H. destruct (find _ cs) as [e|] eqn:F; [|reflexivity]. apply find_some in F. destruct F as [F1 F2]. apply same_ckey_true in F2.
    exfalso. apply H. rewrite <- F2. apply in_map, F1.
  - intros F K. apply in_map_iff in K. destruct K as (c & <- & C). pose proof (find_none _ _ F c C) as Q. cbv beta in Q.
    assert (same_ckey (snd c) (snd c) = true) by (apply same_ckey_true; reflexivity). congruence.
Qed.
Lemma mine_others : forall cid cid' l l', others cid l = others cid l' -> cid' <> cid -> mine cid' l = mine cid' l'.
Proof.
  intros cid cid' l l' E N.
  assert (H : forall m, mine cid' m = filter (fun v => v_cid v =? cid') (others cid m)).
  { intros m. unfold mine, others. rewrite filter_filter. apply filter_ext. intros v.
    destruct (v_cid v =? cid') eqn:A, (v_cid v =? cid) eqn:B; cbn [negb andb]; try reflexivity. exfalso. lia. }
  rewrite (H l), (H l'), E. reflexivity.
Qed.
Lemma mine_none : forall cid l, (forall v, In v l -> v_cid v <> cid) -> mine cid l = [].
Proof.
  intros cid l. unfold mine. induction l as [|a l IH]; intros H; [reflexivity|]. cbn [filter].
  destruct (v_cid a =? cid) eqn:E; [exfalso; apply (H a (or_introl eq_refl)); lia|]. apply IH. intros v V. apply H. right; exact V.
Qed.
Lemma rows_for_old : forall cid vs l0 l1 l, mine cid l0 = mine cid l1 -> rows_for cid vs l0 l -> rows_for cid vs l1 l.
Proof.
  intros cid vs l0 l1 l E R. constructor; [|exact (rw_only _ _ _ _ R)]. rewrite <- E. exact (rw_each _ _ _ _ R).
Qed.
Lemma rows_for_new : forall cid vs l0 l l', mine cid l = mine cid l' -> rows_for cid vs l0 l -> rows_for cid vs l0 l'.
Proof.
  intros cid vs l0 l l' E R. constructor; rewrite <- E; [exact (rw_each _ _ _ _ R) | exact (rw_only _ _ _ _ R)].
Qed.

(** ** Component after component *)
Record upto (d : db) (done todo : config) (e : db) : Prop := {
  ut_well : well (d_vars e) (d_nv e) (d_na e) (d_nm e);
  ut_cids : NoDup (map fst (d_comps e));
  ut_ckeys : NoDup (map snd (d_comps e));
  ut_cb : forall c, In c (d_comps e) -> fst c <= d_nc e;
  ut_nc : d_nc d <= d_nc e;
  ut_new : forall c, In c (d_comps e) -> In c (d_comps d) \/ d_nc d < fst c;
  ut_home : forall v, In v (d_vars e) -> In (v_cid v) (map fst (d_comps e));
  ut_keys : forall k, In k (map snd (d_comps e)) <-> In k (map fst done) \/ (In k (map fst todo) /\ In k (map snd (d_comps d)));
  ut_old : forall c, In c (d_comps d) -> In (snd c) (map fst (done ++ todo)) -> In c (d_comps e);
  ut_done : forall k vs, In (k, vs) done -> exists cid, In (cid, k) (d_comps e) /\ rows_for cid vs (d_vars d) (d_vars e);
  ut_todo : forall c, In c (d_comps d) -> In (snd c) (map fst todo) -> mine (fst c) (d_vars e) = mine (fst c) (d_vars d) }.
Lemma upto_step : forall d done k vs todo e, good d -> upto d done ((k, vs) :: todo) e -> NoDup (map fst (done ++ (k, vs) :: todo)) ->
  k_inst k <> Some "" -> (forall c, In c vs -> good_var c) -> NoDup (map cv_key vs) ->
  exists e', match find (same_comp k) (as_read d) with
             | Some c => update_component c vs e
             | None => insert_component k vs e
             end = Some e' /\ upto d (done ++ [(k, vs)]) todo e'.
Proof.
  intros d done k vs todo e G U NK KI GV NV. rewrite find_as_read.
  assert (NC : ~ In k (map fst done) /\ ~ In k (map fst todo)).
  { rewrite map_app in NK. cbn [map] in NK. apply NoDup_remove_2 in NK. split; intros K; apply NK, in_or_app; auto. }
  destruct (find (fun c => same_ckey (snd c) k) (d_comps d)) as [c|] eqn:F; cbn [option_map].
  - apply find_some in F. destruct F as [CI K]. apply same_ckey_true in K. destruct c as [cid k']. cbn [fst snd] in *. subst k'.
    assert (CE : In (cid, k) (d_comps e)).
    { apply (ut_old _ _ _ _ U _ CI). rewrite map_app. apply in_or_app. right. left. reflexivity. }
    pose proof (ut_todo _ _ _ _ U (cid, k) CI (or_introl eq_refl)) as M. cbn [fst] in M.
    destruct e as [comps l nc nv na nm]. cbn [d_comps d_vars d_nc d_nv d_na d_nm] in *.
    destruct (update_component_ok cid k vs comps l nc nv na nm (ut_well _ _ _ _ U) GV NV) as (l' & nv' & na' & nm' & E & W & O & R).
    rewrite M in E. rewrite E. eexists. split; [reflexivity|].
    assert (DIFF : forall c', In c' comps -> snd c' <> k -> mine (fst c') l' = mine (fst c') l).
    { intros c' C' N. apply (mine_others cid); [exact O|]. intros X. apply N.
      assert (c' = (cid, k)) by (apply (NoDup_map_in fst comps); auto; exact (ut_cids _ _ _ _ U)). subst c'. reflexivity. }
    constructor; cbn [d_comps d_vars d_nc d_nv d_na d_nm].
    + exact W.
    + exact (ut_cids _ _ _ _ U).
    + exact (ut_ckeys _ _ _ _ U).
    + exact (ut_cb _ _ _ _ U).
    + exact (ut_nc _ _ _ _ U).
    + exact (ut_new _ _ _ _ U).
    + intros v V. destruct (Z.eq_dec (v_cid v) cid) as [->|N]; [apply (in_map fst) in CE; exact CE|].
      apply (ut_home _ _ _ _ U). assert (X : In v (mine (v_cid v) l)).
      { rewrite <- (mine_others cid (v_cid v) l' l O N). apply in_mine. auto. }
      apply in_mine in X. apply X.
    + intros k'. rewrite (ut_keys _ _ _ _ U k'). rewrite map_app, in_app_iff. cbn [map In fst d_comps]. split.
      * intros [A | [[A|A] B]]; auto.
      * intros [[A | [A | []]] | [A B]]; auto. right. split; [left; exact A|]. rewrite <- A. apply (in_map snd) in CI. exact CI.
    + intros c' C' K'. apply (ut_old _ _ _ _ U _ C'). rewrite <- app_assoc in K'. exact K'.
    + intros k' vs' X. apply in_app_or in X. destruct X as [X | [X | []]].
      * destruct (ut_done _ _ _ _ U k' vs' X) as (cid' & C' & R'). exists cid'. split; [exact C'|]. cbn [d_vars] in R'.
        apply (rows_for_new cid' vs' (d_vars d) l l'); [|exact R']. symmetry. apply (DIFF (cid', k') C'). cbn [snd].
        intros ->. apply (proj1 NC). apply (in_map fst) in X. exact X.
      * inversion X; subst k' vs'. exists cid. split; [exact CE|]. apply (rows_for_old cid vs l (d_vars d) l'); [exact M | exact R].
    + intros c' C' K'. assert (snd c' <> k) by (intros Q; apply (proj2 NC); rewrite <- Q; exact K').
      rewrite DIFF; auto.
      * apply (ut_todo _ _ _ _ U c' C'). right; exact K'.
      * apply (ut_old _ _ _ _ U c' C'). rewrite map_app. apply in_or_app. right. right. exact K'.
  - apply find_comp_none in F. destruct e as [comps l nc nv na nm]. cbn [d_comps d_vars d_nc d_nv d_na d_nm] in *.
    assert (FR : forall v, In v l -> v_cid v <> nc + 1).
    { intros v V. pose proof (ut_home _ _ _ _ U v V) as H. cbn [d_comps] in H. apply in_map_iff in H. destruct H as (c & E & C).
      pose proof (ut_cb _ _ _ _ U c C) as B. cbn [d_nc] in B. lia. }
    assert (FR0 : forall v, In v (d_vars d) -> v_cid v <> nc + 1).
    { intros v V. pose proof (g_home _ G v V) as H. apply in_map_iff in H. destruct H as (c & E & C).
      pose proof (g_cb _ G c C) as B. pose proof (ut_nc _ _ _ _ U) as X. cbn [d_nc] in X. lia. }
    assert (NEWK : ~ In k (map snd comps)).
    { intros K. apply (ut_keys _ _ _ _ U) in K. destruct K as [K | [_ K]]; [exact (proj1 NC K) | exact (F K)]. }
    destruct (insert_component_ok k vs comps l nc nv na nm (ut_well _ _ _ _ U) FR KI GV NV) as (l' & nv' & na' & nm' & E & W & O & R).
    rewrite E. eexists. split; [reflexivity|].
    assert (DIFF : forall c', In c' comps -> mine (fst c') l' = mine (fst c') l).
    { intros c' C'. apply (mine_others (nc + 1)); [exact O|]. pose proof (ut_cb _ _ _ _ U c' C') as B. cbn [d_nc] in B. lia. }
    assert (ADD : forall {A} (f : Z * ckey -> A), NoDup (map f comps) -> ~ In (f (nc + 1, k)) (map f comps) -> NoDup (map f (comps ++ [(nc + 1, k)]))).
    { intros A f N X. rewrite map_app. cbn [map]. apply NoDup_Add with (a := f (nc + 1, k)) (l := map f comps); [|auto].
      replace (map f comps) with (map f comps ++ []) at 1 by apply app_nil_r. apply Add_app. }
    constructor; cbn [d_comps d_vars d_nc d_nv d_na d_nm].
    + exact W.
    + apply ADD; [exact (ut_cids _ _ _ _ U)|]. cbn [fst]. intros X. apply in_map_iff in X. destruct X as (c & E' & C).
      pose proof (ut_cb _ _ _ _ U c C) as B. cbn [d_nc] in B. lia.
    + apply ADD; [exact (ut_ckeys _ _ _ _ U) | exact NEWK].
    + intros c C. apply in_app_or in C. destruct C as [C | [<- | []]]; [|cbn [fst]; lia].
      pose proof (ut_cb _ _ _ _ U c C) as B. cbn [d_nc] in B. lia.
    + pose proof (ut_nc _ _ _ _ U) as B. cbn [d_nc] in B. lia.
    + intros c C. apply in_app_or in C. destruct C as [C | [<- | []]]; [exact (ut_new _ _ _ _ U c C)|].
      pose proof (ut_nc _ _ _ _ U) as B. cbn [d_nc] in B. right. cbn [fst]. lia.
    + intros v V. rewrite map_app. apply in_or_app. destruct (Z.eq_dec (v_cid v) (nc + 1)) as [->|N]; [right; left; reflexivity|]. left.
      apply (ut_home _ _ _ _ U). assert (X : In v (mine (v_cid v) l)).
      { rewrite <- (mine_others (nc + 1) (v_cid v) l' l O N). apply in_mine. auto. }
      apply in_mine in X. apply X.
    + intros k'. rewrite (map_app snd), in_app_iff. rewrite (ut_keys _ _ _ _ U k'). rewrite map_app, in_app_iff. cbn [map In fst snd]. split.
      * intros [[A | [[A|A] B]] | [A | []]]; auto. 
      * intros [[A | [A | []]] | [A B]]; auto.
    + intros c' C' K'. apply in_or_app. left. apply (ut_old _ _ _ _ U _ C'). rewrite <- app_assoc in K'. exact K'.
    + intros k' vs' X. apply in_app_or in X. destruct X as [X | [X | []]].
      * destruct (ut_done _ _ _ _ U k' vs' X) as (cid' & C' & R'). exists cid'. split; [apply in_or_app; left; exact C'|]. cbn [d_vars] in R'.
        apply (rows_for_new cid' vs' (d_vars d) l l'); [|exact R']. symmetry. apply (DIFF (cid', k') C').
      * inversion X; subst k' vs'. exists (nc + 1). split; [apply in_or_app; right; left; reflexivity|].
        apply (rows_for_old (nc + 1) vs l (d_vars d) l'); [|exact R]. rewrite (mine_none _ _ FR), (mine_none _ _ FR0). reflexivity.
    + intros c' C' K'. rewrite DIFF.
      * apply (ut_todo _ _ _ _ U c' C'). right; exact K'.
      * apply (ut_old _ _ _ _ U c' C'). rewrite map_app. apply in_or_app. right. right. exact K'.
Qed.
Lemma upto_loop : forall d todo done e, good d -> upto d done todo e -> NoDup (map fst (done ++ todo)) ->
  (forall x, In x todo -> k_inst (fst x) <> Some "" /\ snd x <> [] /\ NoDup (map cv_key (snd x))) ->
  (forall x c, In x todo -> In c (snd x) -> good_var c) ->
  exists e', insert_components todo (as_read d) e = Some e' /\ upto d (done ++ todo) [] e'.
Proof.
  intros d. induction todo as [|[k vs] todo IH]; intros done e G U NK H V; unfold insert_components; cbn [loop].
  - exists e. rewrite app_nil_r. auto.
  - destruct (H _ (or_introl eq_refl)) as (H1 & _ & H3). cbn [fst snd] in H1, H3 |- *.
    destruct (upto_step d done k vs todo e G U NK H1 (fun c => V _ c (or_introl eq_refl)) H3) as (e1 & E1 & U1).
    unfold same_comp in *. cbn [fst snd] in *.
    replace (find _ (as_read d)) with (find (fun c : comp => same_ckey (snd (fst c)) k) (as_read d)) by reflexivity.
    rewrite E1. destruct (IH (done ++ [(k, vs)]) e1 G U1) as (e2 & E2 & U2).
    + rewrite <- app_assoc. exact NK.
    + intros x X. apply H. right; exact X.
    + intros x c X. apply V. right; exact X.
    + exists e2. rewrite <- app_assoc in U2. split; [exact E2 | exact U2].
Qed.

(** ** Removing components *)
Definition keep_ids (r : list Z) (i : Z) : bool := negb (existsb (Z.eqb i) r).
Lemma remove_components_eq : forall r d, remove_components r d =
  Db (filter (fun c => keep_ids r (fst c)) (d_comps d)) (filter (fun v => keep_ids r (v_cid v)) (d_vars d)) (d_nc d) (d_nv d) (d_na d) (d_nm d).
Proof.
  unfold remove_components. induction r as [|i r IH]; intros d; cbn [fold_left].
  - assert (T : forall {A} (l : list A), filter (fun _ => true) l = l).
    { intros A l. induction l as [|a l IHl]; [reflexivity|]. cbn [filter]. rewrite IHl. reflexivity. }
    change (d = Db (filter (fun _ => true) (d_comps d)) (filter (fun _ => true) (d_vars d)) (d_nc d) (d_nv d) (d_na d) (d_nm d)). rewrite !T.
    destruct d; reflexivity.
  - rewrite IH. unfold remove_component. cbn [d_comps d_vars d_nc d_nv d_na d_nm]. rewrite !filter_filter. f_equal;
      apply filter_ext; intros x; unfold keep_ids; cbn [existsb]; rewrite negb_orb; reflexivity.
Qed.
Lemma keep_ids_in : forall r i, keep_ids r i = true <-> ~ In i r.
Proof.
  intros r i. unfold keep_ids. rewrite negb_true_iff. split.
  - intros E I. assert (existsb (Z.eqb i) r = true) by (apply existsb_exists; exists i; split; [exact I | apply Z.eqb_refl]). congruence.
  - intros N. destruct (existsb _ r) eqn:E; [|reflexivity]. exfalso. apply existsb_exists in E. destruct E as (j & J & E). apply N.
    replace i with j by lia. exact J.
Qed.
Lemma to_remove_in : forall cfg d i, In i (to_remove cfg (as_read d)) <-> exists k, In (i, k) (d_comps d) /\ ~ In k (map fst cfg).
Proof.
  intros cfg d i. unfold to_remove. rewrite in_map_iff. split.
  - intros (c & E & C). apply filter_In in C. destruct C as [C1 C2]. unfold as_read in C1. apply in_map_iff in C1. destruct C1 as ([j k] & <- & C1).
    cbn [fst snd] in *. subst j. exists k. split; [exact C1|]. intros K. apply in_map_iff in K. destruct K as (e & E & X).
    apply negb_true_iff in C2.
    assert (existsb (fun e => same_ckey k (fst e)) cfg = true) by (apply existsb_exists; exists e; split; [exact X | apply same_ckey_true; auto]). congruence.
  - intros (k & C & N). exists ((i, k), map strip (mine i (d_vars d))). split; [reflexivity|]. apply filter_In. split.
    + unfold as_read. apply in_map_iff. exists (i, k). auto.
    + apply negb_true_iff. destruct (existsb _ cfg) eqn:E; [|reflexivity]. exfalso. apply existsb_exists in E. destruct E as (e & X & E).
      apply same_ckey_true in E. apply N. cbn [fst snd] in E. rewrite E. apply in_map, X.
Qed.
Lemma mine_removed : forall r cid l, ~ In cid r -> mine cid (filter (fun v => keep_ids r (v_cid v)) l) = mine cid l.
Proof.
  intros r cid l N. unfold mine. rewrite filter_filter. apply filter_ext. intros v. destruct (v_cid v =? cid) eqn:E; [|apply andb_false_r].
  replace (v_cid v) with cid by lia. assert (K : keep_ids r cid = true) by (apply keep_ids_in, N). rewrite K. reflexivity.
Qed.
Lemma good_removed : forall r d, good d -> good (remove_components r d).
Proof.
  intros r d G. rewrite remove_components_eq. pose proof (well_filter (fun v => keep_ids r (v_cid v)) _ _ _ _ (good_well d G)) as W.
  constructor; cbn [d_comps d_vars d_nc d_nv d_na d_nm].
  - exact (wl_ids _ _ _ _ W).
  - apply NoDup_map_filter, (g_cids _ G).
  - intros c C. apply filter_In in C. apply (g_cb _ G), C.
  - apply NoDup_map_filter, (g_ckeys _ G).
  - intros v V. apply filter_In in V. destruct V as [V K]. pose proof (g_home _ G v V) as H. apply in_map_iff in H. destruct H as (c & E & C).
    apply in_map_iff. exists c. split; [exact E|]. apply filter_In. rewrite E. auto.
  - intros c C. apply filter_In in C. destruct C as [C K]. destruct (g_full _ G c C) as (v & V & E). exists v. split; [|exact E].
    apply filter_In. rewrite E. auto.
  - exact (wl_keys _ _ _ _ W).
  - exact (wl_rows _ _ _ _ W).
Qed.
Lemma upto_start : forall cfg d, good d -> upto d [] cfg (remove_components (to_remove cfg (as_read d)) d).
Proof.
  intros cfg d G. pose proof (good_removed (to_remove cfg (as_read d)) d G) as G1.
  assert (KEEP : forall c, In c (d_comps d) -> (~ In (fst c) (to_remove cfg (as_read d)) <-> In (snd c) (map fst cfg))).
  { intros c C. split.
    - intros N. destruct (in_dec ckey_dec (snd c) (map fst cfg)) as [K|K]; [exact K|]. exfalso. apply N. apply to_remove_in. exists (snd c).
      destruct c; auto.
    - intros K N. apply to_remove_in in N. destruct N as (k & C' & N). assert (c = (fst c, k)).
      { apply (NoDup_map_in fst (d_comps d)); auto. exact (g_cids _ G). }
      apply N. rewrite H in K. exact K. }
  constructor.
  - apply good_well, G1.
  - exact (g_cids _ G1).
  - exact (g_ckeys _ G1).
  - exact (g_cb _ G1).
  - rewrite remove_components_eq. cbn [d_nc]. lia.
  - intros c C. left. rewrite remove_components_eq in C. cbn [d_comps] in C. apply filter_In in C. apply C.
  - exact (g_home _ G1).
  - intros k. rewrite remove_components_eq. cbn [d_comps]. split.
    + intros K. right. apply in_map_iff in K. destruct K as (c & <- & C). apply filter_In in C. destruct C as [C N]. apply keep_ids_in in N.
      split; [apply KEEP; assumption | apply in_map, C].
    + intros [[] | [A B]]. apply in_map_iff in B. destruct B as (c & <- & C). apply in_map. apply filter_In. split; [exact C|].
      apply keep_ids_in, KEEP; assumption.
  - intros c C K. rewrite remove_components_eq. cbn [d_comps]. apply filter_In. split; [exact C|]. apply keep_ids_in, KEEP; assumption.
  - intros k vs [].
  - intros c C K. rewrite remove_components_eq. cbn [d_vars]. apply mine_removed, KEEP; assumption.
Qed.

(** ** Types of values *)
Lemma value_typed : forall t o, opt_of_type o t = true <-> typed t o.
Proof.
  intros t [x|]; [|cbn; tauto]. unfold opt_of_type, typed, value_is_of_type. destruct (str_eq x "") eqn:E.
  - apply str_eq_true in E. split; auto.
  - assert (N : x <> "") by (intros Q; apply str_eq_true in Q; congruence).
    destruct t; rewrite ?orb_true_iff; tauto.
Qed.
Lemma check_integrity_iff : forall cfg, check_integrity cfg = true <->
  forall e c, In e cfg -> In c (snd e) -> typed (ch_type (cv_chars c)) (cv_default c)
    /\ forall a, In a (cv_attrs c) -> typed (ch_type (cv_chars c)) (ca_value a).
Proof.
  intros cfg. unfold check_integrity. rewrite forallb_forall. split.
  - intros H e c E C. specialize (H e E). rewrite forallb_forall in H. specialize (H c C). apply andb_true_iff in H. destruct H as [H1 H2].
    split; [apply value_typed, H1|]. rewrite forallb_forall in H2. intros a A. apply value_typed, H2, A.
  - intros H e E. apply forallb_forall. intros c C. destruct (H e c E C) as [H1 H2]. apply andb_true_iff. split; [apply value_typed, H1|].
    apply forallb_forall. intros a A. apply value_typed, H2, A.
Qed.

(** ** The whole start *)
Theorem initialize_upto : forall cfg d, good d -> good_config cfg ->
  exists d', initialize cfg None d = Done d' /\ good d' /\ upto d cfg [] d'.
Proof.
  intros cfg d G GC. unfold initialize. rewrite (read_all_good d G).
  assert (CI : check_integrity cfg = true) by (apply check_integrity_iff; exact (gc_typed _ GC)). rewrite CI.
  destruct (upto_loop d cfg [] (remove_components (to_remove cfg (as_read d)) d) G (upto_start cfg d G) (gc_keys _ GC) (gc_inst _ GC) (gc_vars _ GC))
    as (d' & E & U). rewrite E. exists d'. split; [reflexivity|]. cbn [app] in U. split; [|exact U].
  pose proof (ut_well _ _ _ _ U) as W. constructor.
  - exact (wl_ids _ _ _ _ W).
  - exact (ut_cids _ _ _ _ U).
  - exact (ut_cb _ _ _ _ U).
  - exact (ut_ckeys _ _ _ _ U).
  - exact (ut_home _ _ _ _ U).
  - intros [cid k] C. cbn [fst].
    assert (K : In k (map fst cfg)).
    { destruct (proj1 (ut_keys _ _ _ _ U k) (in_map snd _ _ C)) as [K | [[] _]]. exact K. }
    apply in_map_iff in K. destruct K as ([k' vs] & E' & K). cbn [fst] in E'. subst k'.
    destruct (ut_done _ _ _ _ U k vs K) as (cid' & C' & R).
    assert (Q : (cid, k) = (cid', k)) by (apply (NoDup_map_in snd (d_comps d')); auto; exact (ut_ckeys _ _ _ _ U)). inversion Q; subst cid'.
    destruct vs as [|c vs]; [exfalso; apply (proj1 (proj2 (gc_inst _ GC _ K))); reflexivity|].
    destruct (rw_each _ _ _ _ R c (or_introl eq_refl)) as (v & V & _). apply in_mine in V. exists v. exact V.
  - exact (wl_keys _ _ _ _ W).
  - exact (wl_rows _ _ _ _ W).
Qed.
(** A start after one during which the process died. *)
Theorem initialize_again : forall cfg d n, good d -> initialize cfg None (after (initialize cfg (Some n) d)) = initialize cfg None d.
Proof.
  intros cfg d n G. unfold initialize at 2 3. rewrite (read_all_good d G).
  destruct (check_integrity cfg) eqn:CI; cbn [after].
  - set (rem := to_remove cfg (as_read d)). set (r := firstn n rem). pose proof (good_removed r d G) as G1.
    unfold initialize. rewrite (read_all_good _ G1), CI.
    assert (SUB : forall i, In i r -> In i rem).
    { intros i I. unfold r in I. rewrite <- (firstn_skipn n rem). apply in_or_app. left; exact I. }
    assert (REM : remove_components (to_remove cfg (as_read (remove_components r d))) (remove_components r d) = remove_components rem d).
    { rewrite (remove_components_eq _ (remove_components r d)), (remove_components_eq rem d).
      assert (X : forall c, In c (d_comps d) -> keep_ids r (fst c) && keep_ids (to_remove cfg (as_read (remove_components r d))) (fst c)
                                              = keep_ids rem (fst c)).
      { intros [i k] C. cbn [fst]. apply eq_true_iff_eq. rewrite andb_true_iff, !keep_ids_in. unfold rem. rewrite !to_remove_in. rewrite remove_components_eq. cbn [d_comps].
        split.
        - intros [A B] (k' & C' & N). apply B. exists k'. split; [|exact N]. apply filter_In. split; [exact C'|]. apply keep_ids_in. exact A.
        - intros A. split.
          + intros B. apply SUB in B. unfold rem in B. apply to_remove_in in B. exact (A B).
          + intros (k' & C' & N). apply A. exists k'. apply filter_In in C'. split; [apply C' | exact N]. }
      revert X. generalize (to_remove cfg (as_read (remove_components r d))) as r2. intros r2 X. rewrite (remove_components_eq r d). cbn [d_comps d_vars d_nc d_nv d_na d_nm]. rewrite !filter_filter. f_equal.
      - apply filter_ext_in. exact X.
      - apply filter_ext_in. intros v V. pose proof (g_home _ G v V) as H. apply in_map_iff in H. destruct H as (c & E & C).
        rewrite <- E. apply X, C. }
    rewrite REM.
    assert (INS : forall cs e, (forall x, In x cs -> In x cfg) ->
       insert_components cs (as_read (remove_components r d)) e = insert_components cs (as_read d) e).
    { induction cs as [|[k vs] cs IH]; intros e S; [reflexivity|]. unfold insert_components. cbn [loop].
      assert (FK : find (same_comp k) (as_read (remove_components r d)) = find (same_comp k) (as_read d)).
      { rewrite !find_as_read. destruct (find (fun c => same_ckey (snd c) k) (d_comps d)) as [[i k']|] eqn:F.
        - apply find_some in F. destruct F as [F1 F2]. apply same_ckey_true in F2. cbn [snd] in F2. subst k'.
          assert (NR : ~ In i r).
          { intros B. apply SUB in B. unfold rem in B. apply to_remove_in in B. destruct B as (k' & B & N).
            assert (Q : (i, k) = (i, k')) by (apply (NoDup_map_in fst (d_comps d)); auto; exact (g_cids _ G)). inversion Q; subst k'.
            apply N. apply (in_map fst _ (k, vs)). apply S. left; reflexivity. }
          assert (C1 : In (i, k) (d_comps (remove_components r d))).
          { rewrite remove_components_eq. cbn [d_comps]. apply filter_In. split; [exact F1 | apply keep_ids_in; exact NR]. }
          pose proof (find_comp (d_comps (remove_components r d)) (i, k) (g_ckeys _ G1) C1) as F3. cbn [snd] in F3. rewrite F3. cbn [option_map fst]. do 3 f_equal.
          rewrite remove_components_eq. cbn [d_vars]. apply mine_removed, NR.
        - apply find_comp_none in F. assert (F1 : ~ In k (map snd (d_comps (remove_components r d)))).
          { rewrite remove_components_eq. cbn [d_comps]. intros K. apply F. apply in_map_iff in K. destruct K as (c & <- & C).
            apply filter_In in C. apply in_map, C. }
          apply find_comp_none in F1. rewrite F1. reflexivity. }
      cbn [fst snd]. rewrite FK. destruct (match find (same_comp k) (as_read d) with Some c => update_component c vs e | None => insert_component k vs e end) as [e1|];
        [|reflexivity].
      apply (IH e1). intros x X. apply S. right; exact X. }
    rewrite INS by auto. reflexivity.
  - unfold initialize. rewrite (read_all_good d G), CI. reflexivity.
Qed.
