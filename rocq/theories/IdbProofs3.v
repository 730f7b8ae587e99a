(** What the statements do to one variable: its monitors. *)
From Coq Require Import ZArith String List Bool Lia.
From Verif Require Import StrModel IdbModel IdbSpec IdbProofs IdbProofs2.
From Verif Require DmModel.
Import ListNotations.
Local Open Scope string_scope.
Local Open Scope list_scope.
Local Open Scope Z_scope.

Definition mkey (m : mon) : monitor_type * Z := (m_type m, m_sev m).
Lemma duplicate_true : forall a b, monitor_duplicate a b = true <-> mkey a = mkey b.
Proof.
  intros a b. unfold monitor_duplicate, mkey. rewrite andb_true_iff, mt_eqb_true, Z.eqb_eq. split; [intros []; congruence | intros E; inversion E; auto].
Qed.
Definition step_mon (m : mon) (e : Z * mon) : Z * mon := if monitor_different m (snd e) then (fst e, m) else e.
Lemma step_mon_key : forall m e, mkey m = mon_key e -> mon_key (step_mon m e) = mkey m.
Proof. intros m e E. unfold step_mon. destruct (monitor_different m (snd e)); [reflexivity | congruence]. Qed.
(** A monitor the configuration may have. *)
Definition usable_mon (m : mon) : Prop := m_cfg m <> DmModel.Custom /\ (m_type m = DmModel.Delta -> m_ref m <> None).
Lemma insert_monitor_focus : forall m cs pre v post nc nv na nm, usable_mon m ->
  (forall w, In w (pre ++ post) -> v_id w <> v_id v) ->
  insert_monitor m (v_id v) (Db cs (pre ++ v :: post) nc nv na nm)
  = Some (Db cs (pre ++ set_mons v (v_mons v ++ [(nm + 1, m)]) :: post) nc nv na (nm + 1)).
Proof.
  intros m cs pre v post nc nv na nm [_ U] H. unfold insert_monitor.
  assert (E : Some (let mid := d_nm (Db cs (pre ++ v :: post) nc nv na nm) + 1 in
      let d1 := at_var (v_id v) (fun v => set_mons v (v_mons v ++ [(mid, m)])) (Db cs (pre ++ v :: post) nc nv na nm) in
      Db (d_comps d1) (d_vars d1) (d_nc d1) (d_nv d1) (d_na d1) mid)
    = Some (Db cs (pre ++ set_mons v (v_mons v ++ [(nm + 1, m)]) :: post) nc nv na (nm + 1))).
  { cbv zeta. rewrite at_var_focus by exact H. reflexivity. }
  destruct (m_type m); try exact E. destruct (m_ref m); [exact E|]. exfalso. apply U; reflexivity.
Qed.

Lemma own_in : forall e l, In e (own_mons l) <-> In e l /\ m_cfg (snd e) <> DmModel.Custom.
Proof.
  intros e l. unfold own_mons. rewrite filter_In. split; intros [A B]; split; auto; destruct (m_cfg (snd e)); congruence.
Qed.
Lemma own_app : forall l k, own_mons (l ++ k) = own_mons l ++ own_mons k.
Proof. intros. apply filter_app. Qed.
Lemma custom_app : forall l k, custom_mons (l ++ k) = custom_mons l ++ custom_mons k.
Proof. intros. apply filter_app. Qed.
Lemma own_single : forall i m, m_cfg m <> DmModel.Custom -> own_mons [(i, m)] = [(i, m)] /\ custom_mons [(i, m)] = [].
Proof. intros i m H. unfold own_mons, custom_mons; cbn [filter snd]. destruct (m_cfg m); try (split; reflexivity). congruence. Qed.

Record mons_inv (done rest : list mon) (old : list (Z * mon)) (cust : list (Z * mon)) (base : list Z) (nm0 nm : Z) (l : list (Z * mon)) : Prop := {
  mi_ids : NoDup (map fst l);
  mi_from : forall e, In e l -> In (fst e) base \/ nm0 < fst e <= nm;
  mi_custom : custom_mons l = cust;
  mi_keys : NoDup (map mon_key (own_mons l));
  mi_only : forall e, In e (own_mons l) -> (exists m, In m done /\ mkey m = mon_key e) \/ (In e old /\ exists m, In m rest /\ mkey m = mon_key e);
  mi_each : forall m, In m done ->
    match find (fun e => monitor_duplicate m (snd e)) old with
    | Some e => In (step_mon m e) l
    | None => exists i, In (i, m) l
    end;
  mi_rest : forall e m, In e old -> In m rest -> mkey m = mon_key e -> In e l;
  mi_nm : nm0 <= nm }.

Lemma map_mon_own : forall i m l, (forall e, In e l -> fst e = i -> m_cfg (snd e) <> DmModel.Custom) -> m_cfg m <> DmModel.Custom ->
  own_mons (map (fun e => if fst e =? i then (fst e, m) else e) l) = map (fun e => if fst e =? i then (fst e, m) else e) (own_mons l)
  /\ custom_mons (map (fun e => if fst e =? i then (fst e, m) else e) l) = custom_mons l.
Proof.
  intros i m l H M. induction l as [|e l IH]; [split; reflexivity|].
  destruct IH as [IH1 IH2]; [intros x X; apply H; right; exact X|].
  unfold own_mons, custom_mons in *. cbn [map filter].
  destruct (fst e =? i) eqn:E; cbn [snd].
  - assert (C : m_cfg (snd e) <> DmModel.Custom) by (apply H; [left; reflexivity | lia]).
    destruct (m_cfg m) eqn:X; try congruence; destruct (m_cfg (snd e)) eqn:Y; try congruence;
      cbn [map]; rewrite E, IH1, IH2; split; reflexivity.
  - destruct (m_cfg (snd e)) eqn:Y; cbn [map]; rewrite ?E, ?IH1, ?IH2; split; reflexivity.
Qed.
Lemma monitors_loop : forall old cust base nm0 cs pre post nc nv na v rest done l nm,
  (forall w, In w (pre ++ post) -> v_id w <> v_id v /\ forall i, In i (mkeys w) -> i <= nm0 /\ ~ In i base) ->
  (forall i, In i base -> i <= nm0) -> (forall e, In e old -> m_cfg (snd e) <> DmModel.Custom /\ In (fst e) base) ->
  NoDup (map mkey (done ++ rest)) -> (forall m, In m rest -> usable_mon m) ->
  mons_inv done rest old cust base nm0 nm l ->
  exists l' nm',
    loop (fun m d => match find (fun e => monitor_duplicate m (snd e)) old with
                     | None => insert_monitor m (v_id v) d
                     | Some e => Some (if monitor_different m (snd e) then update_monitor m (fst e) d else d)
                     end) rest (Db cs (pre ++ set_mons v l :: post) nc nv na nm)
    = Some (Db cs (pre ++ set_mons v l' :: post) nc nv na nm')
    /\ mons_inv (done ++ rest) [] old cust base nm0 nm' l'.
Proof.
  intros old cust base nm0 cs pre post nc nv na v rest. induction rest as [|m rest IH]; intros done l nm H B O NC U I; cbn [loop].
  - exists l, nm. rewrite app_nil_r. split; [reflexivity | exact I].
  - assert (DR : ~ exists x, In x done /\ mkey x = mkey m).
    { intros (x & X & E). rewrite map_app in NC. cbn [map] in NC. apply NoDup_remove_2 in NC. apply NC, in_or_app. left.
      rewrite <- E. apply in_map, X. }
    assert (RR : ~ exists x, In x rest /\ mkey x = mkey m).
    { intros (x & X & E). rewrite map_app in NC. cbn [map] in NC. apply NoDup_remove_2 in NC. apply NC, in_or_app. right.
      rewrite <- E. apply in_map, X. }
    assert (NC' : NoDup (map mkey ((done ++ [m]) ++ rest))) by (rewrite <- app_assoc; exact NC).
    assert (U' : forall x, In x rest -> usable_mon x) by (intros x X; apply U; right; exact X).
    destruct (U m (or_introl eq_refl)) as [UM _].
    assert (FI : forall x e, find (fun e => monitor_duplicate x (snd e)) old = Some e -> In e old /\ mkey x = mon_key e).
    { intros x e F. apply find_some in F. destruct F as [F1 F2]. split; [exact F1|]. apply duplicate_true in F2. exact F2. }
    assert (CONT : forall l1 nm1, mons_inv (done ++ [m]) rest old cust base nm0 nm1 l1 ->
      exists l' nm', loop (fun m d => match find (fun e => monitor_duplicate m (snd e)) old with
                     | None => insert_monitor m (v_id v) d
                     | Some e => Some (if monitor_different m (snd e) then update_monitor m (fst e) d else d)
                     end) rest (Db cs (pre ++ set_mons v l1 :: post) nc nv na nm1)
      = Some (Db cs (pre ++ set_mons v l' :: post) nc nv na nm')
      /\ mons_inv (done ++ m :: rest) [] old cust base nm0 nm' l').
    { intros l1 nm1 I1. destruct (IH (done ++ [m]) l1 nm1 H B O NC' U' I1) as (l' & nm' & E & I'). exists l', nm'.
      split; [exact E|]. rewrite <- app_assoc in I'. exact I'. }
    destruct (find (fun e => monitor_duplicate m (snd e)) old) as [o|] eqn:F.
    + destruct (FI m o F) as [FO FT]. assert (OL : In o l) by (apply (mi_rest _ _ _ _ _ _ _ _ I o m FO); [left; reflexivity | exact FT]).
      destruct (O o FO) as [OC OB].
      assert (OO : In o (own_mons l)) by (apply own_in; auto).
      destruct (monitor_different m (snd o)) eqn:D.
      * unfold update_monitor. rewrite at_mon_focus.
        2:{ intros w W K. apply H in K; [|exact W]. apply K, OB. }
        cbn [v_mons set_mons]. change (set_mons (set_mons v l)) with (set_mons v). change (v_id (set_mons v l)) with (v_id v).
        apply CONT.
        assert (ID : forall e, In e l -> fst e = fst o -> e = o) by (intros e E1 E2; apply (NoDup_map_in fst l); auto; apply (mi_ids _ _ _ _ _ _ _ _ I)).
        destruct (map_mon_own (fst o) m l) as [MO MC]; [intros e E1 E2; rewrite (ID e E1 E2); exact OC | exact UM |].
        set (l1 := map (fun e => if fst e =? fst o then (fst e, m) else e) l) in *.
        assert (EI : map fst l1 = map fst l).
        { unfold l1. rewrite map_map. apply map_ext. intros e. destruct (fst e =? fst o); reflexivity. }
        assert (IN1 : In (fst o, m) l1).
        { unfold l1. apply in_map_iff. exists o. rewrite Z.eqb_refl. split; [reflexivity | exact OL]. }
        assert (IN2 : forall e, In e l -> mon_key e <> mkey m -> In e l1).
        { intros e A X. unfold l1. apply in_map_iff. exists e. split; [|exact A]. destruct (fst e =? fst o) eqn:E; [|reflexivity].
          exfalso. apply X. rewrite (ID e A) by lia. congruence. }
        assert (IN3 : forall e, In e l1 -> e = (fst o, m) \/ (In e l /\ fst e <> fst o)).
        { intros e A. unfold l1 in A. apply in_map_iff in A. destruct A as (x & E & X). destruct (fst x =? fst o) eqn:Y.
          - left. rewrite <- E. f_equal. lia.
          - right. subst x. split; [exact X | lia]. }
        constructor.
        -- rewrite EI. exact (mi_ids _ _ _ _ _ _ _ _ I).
        -- intros e A. assert (Q : In (fst e) (map fst l)) by (rewrite <- EI; apply in_map, A).
           apply in_map_iff in Q. destruct Q as (x & <- & X). exact (mi_from _ _ _ _ _ _ _ _ I x X).
        -- rewrite MC. exact (mi_custom _ _ _ _ _ _ _ _ I).
        -- rewrite MO, map_map.
           replace (map (fun e => mon_key (if fst e =? fst o then (fst e, m) else e)) (own_mons l)) with (map mon_key (own_mons l));
             [exact (mi_keys _ _ _ _ _ _ _ _ I)|].
           apply map_ext_in. intros e E. destruct (fst e =? fst o) eqn:Q; [|reflexivity]. apply own_in in E.
           rewrite (ID e (proj1 E)) by lia. symmetry. exact FT.
        -- intros e E. apply own_in in E. destruct E as [E EC]. destruct (IN3 e E) as [-> | [A1 A2]].
           ++ left. exists m. split; [apply in_or_app; right; left; reflexivity | reflexivity].
           ++ assert (AO : In e (own_mons l)) by (apply own_in; auto).
              destruct (mi_only _ _ _ _ _ _ _ _ I e AO) as [(x & X & Y) | (EO & x & [X|X] & Y)].
              ** left. exists x. split; [apply in_or_app; left; exact X | exact Y].
              ** subst x. exfalso. apply A2. f_equal. apply (NoDup_map_in mon_key (own_mons l)); auto; [apply (mi_keys _ _ _ _ _ _ _ _ I) | congruence].
              ** right. split; [exact EO | exists x; auto].
        -- intros x X. apply in_app_or in X. destruct X as [X | [<- | []]].
           ++ pose proof (mi_each _ _ _ _ _ _ _ _ I x X) as E.
              assert (NX : mkey x <> mkey m) by (intros Q; apply DR; exists x; auto).
              revert E. destruct (find (fun e => monitor_duplicate x (snd e)) old) as [p|] eqn:FX; intros E.
              ** apply IN2; [exact E|]. destruct (FI x p FX) as [_ T]. rewrite step_mon_key by exact T. exact NX.
              ** destruct E as (i & E). exists i. apply IN2; [exact E | exact NX].
           ++ rewrite F. unfold step_mon. rewrite D. exact IN1.
        -- intros p x P X E. apply IN2; [apply (mi_rest _ _ _ _ _ _ _ _ I p x P); [right; exact X | exact E]|].
           intros Q. apply RR. exists x. split; [exact X | congruence].
        -- exact (mi_nm _ _ _ _ _ _ _ _ I).
      * apply CONT. constructor.
        -- exact (mi_ids _ _ _ _ _ _ _ _ I).
        -- exact (mi_from _ _ _ _ _ _ _ _ I).
        -- exact (mi_custom _ _ _ _ _ _ _ _ I).
        -- exact (mi_keys _ _ _ _ _ _ _ _ I).
        -- intros e E. destruct (mi_only _ _ _ _ _ _ _ _ I e E) as [(x & X & Y) | (EO & x & [X|X] & Y)].
           ++ left. exists x. split; [apply in_or_app; left; exact X | exact Y].
           ++ subst x. left. exists m. split; [apply in_or_app; right; left; reflexivity | exact Y].
           ++ right. split; [exact EO | exists x; auto].
        -- intros x X. apply in_app_or in X. destruct X as [X | [<- | []]]; [exact (mi_each _ _ _ _ _ _ _ _ I x X)|].
           rewrite F. unfold step_mon. rewrite D. exact OL.
        -- intros p x P X E. apply (mi_rest _ _ _ _ _ _ _ _ I p x P); [right; exact X | exact E].
        -- exact (mi_nm _ _ _ _ _ _ _ _ I).
    + change (v_id v) with (v_id (set_mons v l)) at 1.
      pose proof (mi_nm _ _ _ _ _ _ _ _ I) as LE.
      assert (BL : forall i, In i (map fst l) -> i <= nm).
      { intros i K. apply in_map_iff in K. destruct K as (a & <- & A). destruct (mi_from _ _ _ _ _ _ _ _ I a A) as [K|K]; [|lia].
        apply B in K. lia. }
      rewrite insert_monitor_focus; [| apply U; left; reflexivity | intros w W; apply H, W].
      cbn [v_mons set_mons]. change (set_mons (set_mons v l)) with (set_mons v). change (v_id (set_mons v l)) with (v_id v).
      destruct (own_single (nm + 1) m UM) as [OS CS].
      apply CONT. constructor.
      * rewrite map_app. cbn [map fst]. apply NoDup_Add with (a := nm + 1) (l := map fst l).
        -- replace (map fst l) with (map fst l ++ []) at 1 by apply app_nil_r. apply Add_app.
        -- split; [exact (mi_ids _ _ _ _ _ _ _ _ I)|]. intros K. apply BL in K. lia.
      * intros a A. apply in_app_or in A. destruct A as [A | [<- | []]].
        -- destruct (mi_from _ _ _ _ _ _ _ _ I a A); [tauto | right; lia].
        -- right. cbn [fst]. lia.
      * rewrite custom_app, CS, app_nil_r. exact (mi_custom _ _ _ _ _ _ _ _ I).
      * rewrite own_app, OS, map_app. cbn [map]. apply NoDup_Add with (a := mkey m) (l := map mon_key (own_mons l)).
        -- replace (map mon_key (own_mons l)) with (map mon_key (own_mons l) ++ []) at 1 by apply app_nil_r. apply Add_app.
        -- split; [exact (mi_keys _ _ _ _ _ _ _ _ I)|]. intros K. apply in_map_iff in K. destruct K as (a & E & A).
           destruct (mi_only _ _ _ _ _ _ _ _ I a A) as [(x & X & Y) | (AO & _)].
           ++ apply DR. exists x. split; [exact X | congruence].
           ++ pose proof (find_none _ _ F a AO) as Q. cbv beta in Q.
              assert (monitor_duplicate m (snd a) = true) by (apply duplicate_true; symmetry; exact E). congruence.
      * intros e E. rewrite own_app, OS in E. apply in_app_or in E. destruct E as [A | [<- | []]].
        -- destruct (mi_only _ _ _ _ _ _ _ _ I e A) as [(x & X & E) | (AO & x & [X|X] & E)].
           ++ left. exists x. split; [apply in_or_app; left; exact X | exact E].
           ++ subst x. left. exists m. split; [apply in_or_app; right; left; reflexivity | exact E].
           ++ right. split; [exact AO | exists x; auto].
        -- left. exists m. split; [apply in_or_app; right; left; reflexivity | reflexivity].
      * intros x X. apply in_app_or in X. destruct X as [X | [<- | []]].
        -- pose proof (mi_each _ _ _ _ _ _ _ _ I x X) as E. revert E.
           destruct (find (fun e => monitor_duplicate x (snd e)) old); intros E; [apply in_or_app; left; exact E|].
           destruct E as (i & E). exists i. apply in_or_app; left; exact E.
        -- rewrite F. exists (nm + 1). apply in_or_app; right; left; reflexivity.
      * intros p x P X E. apply in_or_app. left. apply (mi_rest _ _ _ _ _ _ _ _ I p x P); [right; exact X | exact E].
      * lia.
Qed.

Lemma delete_mons_focus : forall (keep : Z * mon -> bool) cs pre post nc nv na nm v todo l,
  (forall w i, In w (pre ++ post) -> In i (map fst todo) -> ~ In i (mkeys w)) ->
  fold_left (fun d e => if keep e then d else delete_monitor (fst e) d) todo (Db cs (pre ++ set_mons v l :: post) nc nv na nm)
  = Db cs (pre ++ set_mons v (deleted fst keep todo l) :: post) nc nv na nm.
Proof.
  intros keep cs pre post nc nv na nm v todo. unfold deleted. induction todo as [|a todo IH]; intros l H; cbn [fold_left]; [reflexivity|].
  assert (H' : forall w i, In w (pre ++ post) -> In i (map fst todo) -> ~ In i (mkeys w)) by (intros w i W J; apply (H w i W); right; exact J).
  destruct (keep a); [apply IH, H'|].
  rewrite delete_monitor_focus by (intros w W; apply (H w _ W); left; reflexivity).
  cbn [v_mons set_mons]. change (set_mons (set_mons v l)) with (set_mons v). apply IH, H'.
Qed.
Lemma deleted_own : forall (keep : Z * mon -> bool) todo l, NoDup (map mon_key (own_mons l)) ->
  NoDup (map mon_key (own_mons (deleted fst keep todo l))).
Proof.
  intros keep todo. unfold deleted. induction todo as [|b todo IH]; intros l N; cbn [fold_left]; [exact N|].
  apply IH. destruct (keep b); [exact N|].
  assert (E : forall p m, own_mons (filter p m) = filter p (own_mons m)).
  { intros p. unfold own_mons. induction m as [|x m IHm]; [reflexivity|]. cbn [filter].
    destruct (p x) eqn:P, (m_cfg (snd x)) eqn:C; cbn [filter]; rewrite ?P, ?C, ?IHm; reflexivity. }
  rewrite E. apply NoDup_map_filter, N.
Qed.

(** The monitors after the update, from those of the configuration before. *)
Record mons_rel (cs : list mon) (old : list (Z * mon)) (l : list (Z * mon)) : Prop := {
  mr_keys : NoDup (map mon_key (own_mons l));
  mr_only : forall e, In e (own_mons l) -> exists m, In m cs /\ mkey m = mon_key e;
  mr_each : forall m, In m cs ->
    match find (fun e => monitor_duplicate m (snd e)) old with
    | Some e => In (step_mon m e) l
    | None => exists i, In (i, m) l
    end }.
Lemma update_monitors_focus : forall cs v comps pre post nc nv na nm,
  (forall w, In w (pre ++ post) -> v_id w <> v_id v /\ forall i, In i (mkeys w) -> i <= nm /\ ~ In i (mkeys v)) ->
  (forall i, In i (mkeys v) -> i <= nm) -> NoDup (mkeys v) -> NoDup (map mon_key (own_mons (v_mons v))) ->
  NoDup (map mkey cs) -> (forall m, In m cs -> usable_mon m) ->
  exists l nm',
    update_monitors cs (own_mons (v_mons v)) (v_id v) (Db comps (pre ++ v :: post) nc nv na nm)
    = Some (Db comps (pre ++ set_mons v l :: post) nc nv na nm')
    /\ nm <= nm' /\ NoDup (map fst l) /\ (forall i, In i (map fst l) -> In i (mkeys v) \/ nm < i <= nm')
    /\ custom_mons l = custom_mons (v_mons v) /\ mons_rel cs (own_mons (v_mons v)) l.
Proof.
  intros cs v comps pre post nc nv na nm H B N NK NC U. unfold update_monitors.
  replace (Db comps (pre ++ v :: post) nc nv na nm) with (Db comps (pre ++ set_mons v (v_mons v) :: post) nc nv na nm)
    by (rewrite set_mons_same; reflexivity).
  assert (OM : forall e, In e (own_mons (v_mons v)) -> m_cfg (snd e) <> DmModel.Custom /\ In (fst e) (mkeys v)).
  { intros e E. apply own_in in E. split; [apply E | apply in_map, E]. }
  rewrite delete_mons_focus.
  2:{ intros w i W J K. apply H in K; [|exact W]. apply K. apply in_map_iff in J. destruct J as (e & <- & E). apply OM, E. }
  set (keep := fun e : Z * mon => existsb (fun m => monitor_duplicate (snd e) m) cs).
  assert (KEEP : forall e, keep e = true <-> exists m, In m cs /\ mkey m = mon_key e).
  { intros e. unfold keep. rewrite existsb_exists. split; intros (c & C & E); exists c; (split; [exact C|]);
      [symmetry; apply duplicate_true in E; exact E | apply duplicate_true; symmetry; exact E]. }
  destruct (monitors_loop (own_mons (v_mons v)) (custom_mons (v_mons v)) (mkeys v) nm comps pre post nc nv na v cs []
              (deleted fst keep (own_mons (v_mons v)) (v_mons v)) nm) as (l & nm' & E & I).
  - exact H.
  - exact B.
  - exact OM.
  - exact NC.
  - exact U.
  - constructor.
    + apply deleted_nodup, N.
    + intros e E. apply deleted_in in E. left. apply in_map, E.
    + apply deleted_filter.
      * intros b X. apply OM in X. destruct (m_cfg (snd b)); tauto.
      * intros a b A X E. assert (Q : a = b) by (apply (NoDup_map_in fst (v_mons v)); auto; apply own_in in X; apply X).
        subst b. apply OM in X. destruct (m_cfg (snd a)); tauto.
    + apply deleted_own, NK.
    + intros e E. right. apply own_in in E. destruct E as [E EC]. apply deleted_in in E. destruct E as [E K].
      assert (EO : In e (own_mons (v_mons v))) by (apply own_in; auto). split; [exact EO|]. apply KEEP.
      destruct (keep e) eqn:Q; [reflexivity|]. exfalso. apply (K e EO Q). reflexivity.
    + intros c [].
    + intros o c O C T. apply deleted_in. split; [apply own_in in O; apply O|]. intros b X Y Q.
      assert (o = b) by (apply own_in in O; apply own_in in X; apply (NoDup_map_in fst (v_mons v)); tauto). subst b.
      assert (keep o = true) by (apply KEEP; exists c; auto). congruence.
    + lia.
  - cbn [app] in I. exists l, nm'. split; [exact E|]. split; [exact (mi_nm _ _ _ _ _ _ _ _ I)|].
    split; [exact (mi_ids _ _ _ _ _ _ _ _ I)|]. split; [|split; [exact (mi_custom _ _ _ _ _ _ _ _ I)|]].
    + intros i J. apply in_map_iff in J. destruct J as (a & <- & A). exact (mi_from _ _ _ _ _ _ _ _ I a A).
    + constructor.
      * exact (mi_keys _ _ _ _ _ _ _ _ I).
      * intros a A. destruct (mi_only _ _ _ _ _ _ _ _ I a A) as [X | (_ & x & [] & _)]. exact X.
      * exact (mi_each _ _ _ _ _ _ _ _ I).
Qed.
Lemma insert_monitors_focus : forall cs v comps pre post nc nv na nm,
  (forall w, In w (pre ++ post) -> v_id w <> v_id v /\ forall i, In i (mkeys w) -> i <= nm) -> v_mons v = [] ->
  NoDup (map mkey cs) -> (forall m, In m cs -> usable_mon m) ->
  exists l nm',
    insert_monitors cs (v_id v) (Db comps (pre ++ v :: post) nc nv na nm) = Some (Db comps (pre ++ set_mons v l :: post) nc nv na nm')
    /\ nm <= nm' /\ NoDup (map fst l) /\ (forall i, In i (map fst l) -> nm < i <= nm') /\ custom_mons l = [] /\ mons_rel cs [] l.
Proof.
  intros cs v comps pre post nc nv na nm H V NC U.
  destruct (update_monitors_focus cs v comps pre post nc nv na nm) as (l & nm' & E & A & B & C & D & F).
  - intros w W. split; [apply H, W|]. intros i K. split; [eapply H; eauto|]. unfold mkeys. rewrite V. intros [].
  - unfold mkeys. rewrite V. intros i [].
  - unfold mkeys. rewrite V. constructor.
  - rewrite V. constructor.
  - exact NC.
  - exact U.
  - exists l, nm'. rewrite V in E, D, F. unfold update_monitors in E. cbn [own_mons filter fold_left find] in E.
    split; [exact E|]. split; [exact A|]. split; [exact B|]. split; [|split; [exact D | exact F]].
    intros i K. destruct (C _ K) as [X|X]; [unfold mkeys in X; rewrite V in X; destruct X | exact X].
Qed.
