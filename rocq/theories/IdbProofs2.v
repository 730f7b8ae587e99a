(** What the statements do to one variable: its attributes. *)
From Coq Require Import ZArith String List Bool Lia.
From Verif Require Import StrModel IdbModel IdbSpec IdbProofs.
From Verif Require DmModel.
Import ListNotations.
Local Open Scope string_scope.
Local Open Scope list_scope.
Local Open Scope Z_scope.

(** ** One row among others *)
Lemma set_attrs_same : forall v, set_attrs v (v_attrs v) = v.
Proof. intros []; reflexivity. Qed.
Lemma set_mons_same : forall v, set_mons v (v_mons v) = v.
Proof. intros []; reflexivity. Qed.
Lemma at_var_focus : forall cs pre v post nc nv na nm f, (forall w, In w (pre ++ post) -> v_id w <> v_id v) ->
  at_var (v_id v) f (Db cs (pre ++ v :: post) nc nv na nm) = Db cs (pre ++ f v :: post) nc nv na nm.
Proof.
  intros cs pre v post nc nv na nm f H. unfold at_var, set_vars; cbn [d_comps d_vars d_nc d_nv d_na d_nm]. f_equal.
  rewrite map_app. cbn [map]. rewrite Z.eqb_refl.
  rewrite !map_none; [reflexivity | |]; intros w W; apply Z.eqb_neq, H, in_or_app; tauto.
Qed.
Lemma map_id_none : forall {A} (key : A -> Z) (f : A -> A) i l, ~ In i (map key l) ->
  map (fun a => if key a =? i then f a else a) l = l.
Proof.
  intros A key f i l H. apply map_none. intros x X. apply Z.eqb_neq. intros E. apply H. rewrite <- E. apply in_map, X.
Qed.
Lemma filter_id_none : forall {A} (key : A -> Z) i l, ~ In i (map key l) -> filter (fun a => negb (key a =? i)) l = l.
Proof.
  intros A key i. induction l as [|a l IH]; cbn; intros H; [reflexivity|].
  assert (E : key a =? i = false) by (apply Z.eqb_neq; intros E; apply H; left; exact E).
  rewrite E. cbn. rewrite IH; [reflexivity | intros K; apply H; right; exact K].
Qed.
Lemma map_eq_self : forall {A} (f : A -> A) l, (forall x, In x l -> f x = x) -> map f l = l.
Proof.
  induction l as [|a l IH]; cbn; intros H; [reflexivity|]. rewrite (H a (or_introl eq_refl)), IH; [reflexivity | intros; apply H; right; assumption].
Qed.
Lemma at_attr_focus : forall cs pre v post nc nv na nm i f, (forall w, In w (pre ++ post) -> ~ In i (akeys w)) ->
  at_attr i f (Db cs (pre ++ v :: post) nc nv na nm)
  = Db cs (pre ++ set_attrs v (map (fun a => if a_id a =? i then f a else a) (v_attrs v)) :: post) nc nv na nm.
Proof.
  intros cs pre v post nc nv na nm i f H. unfold at_attr, set_vars; cbn [d_comps d_vars d_nc d_nv d_na d_nm]. f_equal.
  rewrite map_app. cbn [map].
  rewrite (map_eq_self _ pre), (map_eq_self _ post); [reflexivity | |]; intros w W; rewrite (map_id_none a_id);
    try apply set_attrs_same; apply H, in_or_app; tauto.
Qed.
Lemma delete_attribute_focus : forall cs pre v post nc nv na nm i, (forall w, In w (pre ++ post) -> ~ In i (akeys w)) ->
  delete_attribute i (Db cs (pre ++ v :: post) nc nv na nm)
  = Db cs (pre ++ set_attrs v (filter (fun a => negb (a_id a =? i)) (v_attrs v)) :: post) nc nv na nm.
Proof.
  intros cs pre v post nc nv na nm i H. unfold delete_attribute, set_vars; cbn [d_comps d_vars d_nc d_nv d_na d_nm]. f_equal.
  rewrite map_app. cbn [map].
  rewrite (map_eq_self _ pre), (map_eq_self _ post); [reflexivity | |]; intros w W; rewrite (filter_id_none a_id);
    try apply set_attrs_same; apply H, in_or_app; tauto.
Qed.
Lemma at_mon_focus : forall cs pre v post nc nv na nm i f, (forall w, In w (pre ++ post) -> ~ In i (mkeys w)) ->
  at_mon i f (Db cs (pre ++ v :: post) nc nv na nm)
  = Db cs (pre ++ set_mons v (map (fun e => if fst e =? i then (fst e, f (snd e)) else e) (v_mons v)) :: post) nc nv na nm.
Proof.
  intros cs pre v post nc nv na nm i f H. unfold at_mon, set_vars; cbn [d_comps d_vars d_nc d_nv d_na d_nm]. f_equal.
  rewrite map_app. cbn [map].
  rewrite (map_eq_self _ pre), (map_eq_self _ post); [reflexivity | |]; intros w W;
    rewrite (map_id_none fst (fun e => (fst e, f (snd e)))); try apply set_mons_same; apply H, in_or_app; tauto.
Qed.
Lemma delete_monitor_focus : forall cs pre v post nc nv na nm i, (forall w, In w (pre ++ post) -> ~ In i (mkeys w)) ->
  delete_monitor i (Db cs (pre ++ v :: post) nc nv na nm)
  = Db cs (pre ++ set_mons v (filter (fun e => negb (fst e =? i)) (v_mons v)) :: post) nc nv na nm.
Proof.
  intros cs pre v post nc nv na nm i H. unfold delete_monitor, set_vars; cbn [d_comps d_vars d_nc d_nv d_na d_nm]. f_equal.
  rewrite map_app. cbn [map].
  rewrite (map_eq_self _ pre), (map_eq_self _ post); [reflexivity | |]; intros w W; rewrite (filter_id_none (@fst Z mon));
    try apply set_mons_same; apply H, in_or_app; tauto.
Qed.

(** Deleting, one after the other. *)
Definition deleted {A} (key : A -> Z) (keep : A -> bool) (todo l : list A) : list A :=
  fold_left (fun l b => if keep b then l else filter (fun a => negb (key a =? key b)) l) todo l.
Lemma deleted_in : forall {A} (key : A -> Z) keep todo l a,
  In a (deleted key keep todo l) <-> In a l /\ forall b, In b todo -> keep b = false -> key a <> key b.
Proof.
  intros A key keep todo. unfold deleted. induction todo as [|b todo IH]; intros l a; cbn [fold_left]; [firstorder|].
  rewrite IH. destruct (keep b) eqn:K.
  - split; intros [I H]; split; auto.
    + intros x [-> | X] Y; [congruence | apply H; auto].
    + intros x X Y. apply H; [right; exact X | exact Y].
  - rewrite filter_In, negb_true_iff, Z.eqb_neq. split.
    + intros [[I N] H]. split; [exact I|]. intros x [-> | X] Y; [exact N | apply H; auto].
    + intros [I H]. repeat split; auto; [apply H; [left; reflexivity | exact K] | intros x X Y; apply H; [right; exact X | exact Y]].
Qed.
Lemma deleted_nodup : forall {A B} (f : A -> B) (key : A -> Z) keep todo l, NoDup (map f l) -> NoDup (map f (deleted key keep todo l)).
Proof.
  intros A B f key keep todo. unfold deleted. induction todo as [|b todo IH]; intros l N; cbn [fold_left]; [exact N|].
  apply IH. destruct (keep b); [exact N | apply NoDup_map_filter, N].
Qed.
Lemma deleted_filter : forall {A} (key : A -> Z) keep p todo l, (forall b, In b todo -> p b = false) -> (forall a b, In a l -> In b todo -> key a = key b -> p a = false) ->
  filter p (deleted key keep todo l) = filter p l.
Proof.
  intros A key keep p todo. unfold deleted. induction todo as [|b todo IH]; intros l N M; cbn [fold_left]; [reflexivity|].
  destruct (keep b).
  - apply IH; intros; [apply N; right; assumption | eapply M; eauto; right; assumption].
  - rewrite IH.
    + assert (F : forall m, incl m l -> filter p (filter (fun a => negb (key a =? key b)) m) = filter p m).
      { induction m as [|a m IHm]; intros I; cbn [filter]; [reflexivity|].
        destruct (key a =? key b) eqn:E; cbn [negb].
        - rewrite (M a b), IHm; auto; [intros x X; apply I; right; exact X | apply I; left; reflexivity | left; reflexivity | lia].
        - cbn [filter]. rewrite IHm by (intros x X; apply I; right; exact X). reflexivity. }
      apply F, incl_refl.
    + intros x X. apply N. right; exact X.
    + intros a x I X E. apply filter_In in I. eapply M; [apply I | right; exact X | exact E].
Qed.

(** ** Attributes *)
(** What becomes of an attribute. *)
Definition new_arow (i : Z) (c : cattr) (def : option string) : arow :=
  AR i (ca_type c) (ca_mut c) true false (config_value c def) (match config_value c def with Some _ => Some "default" | None => None end).
Definition upd_arow (c : cattr) (def : option string) (o : arow) : arow :=
  AR (a_id o) (ca_type c) (ca_mut c) (match ca_pers c with Some b => b | None => a_pers o end)
     (match ca_const c with Some b => b | None => a_const o end)
     (match config_value c def with Some x => if overwritable (a_src o) then Some x else a_value o | None => a_value o end)
     (match config_value c def with Some x => if overwritable (a_src o) then Some "default" else a_src o | None => a_src o end).
Definition step_arow (c : cattr) (def : option string) (o : arow) : arow :=
  if attribute_different c o then upd_arow c def o else o.
(** The attributes after the update, from those before. *)
Record attrs_rel (cs : list cattr) (def : option string) (old l : list arow) : Prop := {
  ar_types : NoDup (map a_type l);
  ar_only : forall a, In a l -> exists c, In c cs /\ ca_type c = a_type a;
  ar_each : forall c, In c cs ->
    match find (fun a => same_atype (ca_type c) (a_type a)) old with
    | Some o => In (step_arow c def o) l
    | None => exists i, In (new_arow i c def) l
    end }.

Lemma insert_attribute_focus : forall c def cs pre v post nc nv na nm,
  (forall w, In w (pre ++ post) -> v_id w <> v_id v /\ forall i, In i (akeys w) -> i <= na) ->
  (forall i, In i (akeys v) -> i <= na) ->
  insert_attribute c (v_id v) def (Db cs (pre ++ v :: post) nc nv na nm)
  = Db cs (pre ++ set_attrs v (v_attrs v ++ [new_arow (na + 1) c def]) :: post) nc nv (na + 1) nm.
Proof.
  intros c def cs pre v post nc nv na nm H B. unfold insert_attribute. cbn [d_na].
  rewrite at_var_focus by (intros w W; apply H, W). cbn [d_comps d_vars d_nc d_nv d_na d_nm].
  unfold set_config_value, new_arow. destruct (config_value c def) as [x|]; [|reflexivity].
  unfold set_value. rewrite at_attr_focus.
  - unfold set_attrs; cbn [v_id v_cid v_key v_source v_chars v_attrs v_mons]. rewrite map_app. cbn [map a_id].
    rewrite Z.eqb_refl. cbn [a_src overwritable a_id a_type a_mut a_pers a_const].
    rewrite (map_id_none a_id); [reflexivity|]. intros I. apply B in I. lia.
  - intros w W I. apply H in I; [lia | exact W].
Qed.
Lemma map_upd : forall (g : arow -> arow) o l, NoDup (map a_id l) -> In o l ->
  map (fun a => if a_id a =? a_id o then g a else a) l = map (fun a => if a_id a =? a_id o then g o else a) l.
Proof.
  intros g o l N I. apply map_ext_in. intros a A. destruct (a_id a =? a_id o) eqn:E; [|reflexivity].
  rewrite (NoDup_map_in a_id l a o N A I); [reflexivity | lia].
Qed.
Lemma update_attribute_focus : forall c def o cs pre v post nc nv na nm,
  (forall w, In w (pre ++ post) -> ~ In (a_id o) (akeys w)) -> NoDup (akeys v) -> In o (v_attrs v) ->
  update_attribute c o def (Db cs (pre ++ v :: post) nc nv na nm)
  = Db cs (pre ++ set_attrs v (map (fun a => if a_id a =? a_id o then upd_arow c def o else a) (v_attrs v)) :: post) nc nv na nm.
Proof.
  intros c def o cs pre v post nc nv na nm H N I. unfold update_attribute. rewrite at_attr_focus by exact H.
  unfold set_config_value, upd_arow. destruct (config_value c def) as [x|].
  - unfold set_value. rewrite at_attr_focus by exact H. unfold set_attrs; cbn [v_id v_cid v_key v_source v_chars v_attrs v_mons].
    rewrite map_map. f_equal. f_equal. f_equal. f_equal. apply map_ext_in. intros a A.
    destruct (a_id a =? a_id o) eqn:E; cbn [a_id a_src]; rewrite ?E; [|reflexivity].
    rewrite (NoDup_map_in a_id (v_attrs v) a o N A I) by lia. destruct (overwritable (a_src o)); reflexivity.
  - rewrite map_upd with (o := o) by assumption. reflexivity.
Qed.

(** The loop over the configured attributes. *)
Record attrs_inv (done rest : list cattr) (def : option string) (old : list arow) (na0 na : Z) (l : list arow) : Prop := {
  ai_ids : NoDup (map a_id l);
  ai_from : forall a, In a l -> In (a_id a) (map a_id old) \/ na0 < a_id a <= na;
  ai_types : NoDup (map a_type l);
  ai_only : forall a, In a l -> (exists c, In c done /\ ca_type c = a_type a) \/ (In a old /\ exists c, In c rest /\ ca_type c = a_type a);
  ai_each : forall c, In c done ->
    match find (fun a => same_atype (ca_type c) (a_type a)) old with
    | Some o => In (step_arow c def o) l
    | None => exists i, In (new_arow i c def) l
    end;
  ai_rest : forall o c, In o old -> In c rest -> ca_type c = a_type o -> In o l;
  ai_na : na0 <= na }.
Lemma update_loop : forall def old na0 cs pre post nc nv nm v rest done l na,
  (forall w, In w (pre ++ post) -> v_id w <> v_id v /\ forall i, In i (akeys w) -> i <= na0 /\ ~ In i (map a_id old)) ->
  (forall i, In i (map a_id old) -> i <= na0) -> NoDup (map a_id old) -> NoDup (map ca_type (done ++ rest)) ->
  attrs_inv done rest def old na0 na l ->
  exists l' na',
    fold_left (fun d c =>
      match find (fun a => same_atype (ca_type c) (a_type a)) old with
      | None => insert_attribute c (v_id v) def d
      | Some a => if attribute_different c a then update_attribute c a def d else d
      end) rest (Db cs (pre ++ set_attrs v l :: post) nc nv na nm)
    = Db cs (pre ++ set_attrs v l' :: post) nc nv na' nm
    /\ attrs_inv (done ++ rest) [] def old na0 na' l'.
Proof.
  intros def old na0 cs pre post nc nv nm v rest. induction rest as [|c rest IH]; intros done l na H B NO NC I; cbn [fold_left].
  - exists l, na. rewrite app_nil_r. split; [reflexivity | exact I].
  - assert (DR : ~ exists x, In x done /\ ca_type x = ca_type c).
    { intros (x & X & E). rewrite map_app in NC. cbn [map] in NC. apply NoDup_remove_2 in NC. apply NC, in_or_app. left.
      rewrite <- E. apply in_map, X. }
    assert (RR : ~ exists x, In x rest /\ ca_type x = ca_type c).
    { intros (x & X & E). rewrite map_app in NC. cbn [map] in NC. apply NoDup_remove_2 in NC. apply NC, in_or_app. right.
      rewrite <- E. apply in_map, X. }
    assert (NC' : NoDup (map ca_type ((done ++ [c]) ++ rest))) by (rewrite <- app_assoc; exact NC).
    assert (FI : forall x o, find (fun a => same_atype (ca_type x) (a_type a)) old = Some o -> In o old /\ a_type o = ca_type x).
    { intros x o F. apply find_some in F. destruct F as [F1 F2]. split; [exact F1|]. symmetry. apply same_atype_true, F2. }
    assert (CONT : forall l1 na1, attrs_inv (done ++ [c]) rest def old na0 na1 l1 ->
      exists l' na', fold_left (fun d c =>
        match find (fun a => same_atype (ca_type c) (a_type a)) old with
        | None => insert_attribute c (v_id v) def d
        | Some a => if attribute_different c a then update_attribute c a def d else d
        end) rest (Db cs (pre ++ set_attrs v l1 :: post) nc nv na1 nm)
      = Db cs (pre ++ set_attrs v l' :: post) nc nv na' nm
      /\ attrs_inv (done ++ c :: rest) [] def old na0 na' l').
    { intros l1 na1 I1. destruct (IH (done ++ [c]) l1 na1 H B NO NC' I1) as (l' & na' & E & I'). exists l', na'.
      split; [exact E|]. rewrite <- app_assoc in I'. exact I'. }
    destruct (find (fun a => same_atype (ca_type c) (a_type a)) old) as [o|] eqn:F.
    + destruct (FI c o F) as [FO FT]. assert (OL : In o l) by (apply (ai_rest _ _ _ _ _ _ _ I o c FO); [left; reflexivity | congruence]).
      destruct (attribute_different c o) eqn:D.
      * change (v_id v) with (v_id (set_attrs v l)).
        rewrite update_attribute_focus; [| | exact (ai_ids _ _ _ _ _ _ _ I) | exact OL].
        2:{ intros w W K. apply H in K; [|exact W]. apply K, in_map, FO. }
        cbn [v_attrs set_attrs]. change (set_attrs (set_attrs v l)) with (set_attrs v). change (v_id (set_attrs v l)) with (v_id v).
        apply CONT.
        set (l1 := map (fun a => if a_id a =? a_id o then upd_arow c def o else a) l).
        assert (EI : map a_id l1 = map a_id l).
        { unfold l1. rewrite map_map. apply map_ext. intros a. destruct (a_id a =? a_id o) eqn:E; cbn [upd_arow a_id]; lia. }
        assert (ET : map a_type l1 = map a_type l).
        { unfold l1. rewrite map_map. apply map_ext_in. intros a A. destruct (a_id a =? a_id o) eqn:E; [|reflexivity].
          cbn [upd_arow a_type]. rewrite (NoDup_map_in a_id l a o (ai_ids _ _ _ _ _ _ _ I) A OL) by lia. congruence. }
        assert (IN1 : In (upd_arow c def o) l1).
        { unfold l1. apply in_map_iff. exists o. rewrite Z.eqb_refl. split; [reflexivity | exact OL]. }
        assert (IN2 : forall a, In a l -> a_type a <> ca_type c -> In a l1).
        { intros a A X. unfold l1. apply in_map_iff. exists a. split; [|exact A]. destruct (a_id a =? a_id o) eqn:E; [|reflexivity].
          exfalso. apply X. rewrite (NoDup_map_in a_id l a o (ai_ids _ _ _ _ _ _ _ I) A OL) by lia. exact FT. }
        assert (IN3 : forall a, In a l1 -> a = upd_arow c def o \/ (In a l /\ a_id a <> a_id o)).
        { intros a A. unfold l1 in A. apply in_map_iff in A. destruct A as (x & E & X). destruct (x.(a_id) =? a_id o) eqn:Y; [left; congruence|].
          right. subst x. split; [exact X | lia]. }
        constructor.
        -- rewrite EI. exact (ai_ids _ _ _ _ _ _ _ I).
        -- intros a A. assert (Q : In (a_id a) (map a_id l)) by (rewrite <- EI; apply in_map, A).
           apply in_map_iff in Q. destruct Q as (x & <- & X). exact (ai_from _ _ _ _ _ _ _ I x X).
        -- rewrite ET. exact (ai_types _ _ _ _ _ _ _ I).
        -- intros a A. destruct (IN3 a A) as [-> | [A1 A2]].
           ++ left. exists c. split; [apply in_or_app; right; left; reflexivity | reflexivity].
           ++ destruct (ai_only _ _ _ _ _ _ _ I a A1) as [(x & X & E) | (AO & x & [X|X] & E)].
              ** left. exists x. split; [apply in_or_app; left; exact X | exact E].
              ** subst x. exfalso. apply A2. f_equal. apply (NoDup_map_in a_type l); auto; [apply (ai_types _ _ _ _ _ _ _ I) | congruence].
              ** right. split; [exact AO | exists x; auto].
        -- intros x X. apply in_app_or in X. destruct X as [X | [<- | []]].
           ++ pose proof (ai_each _ _ _ _ _ _ _ I x X) as E.
              assert (NX : ca_type x <> ca_type c) by (intros Q; apply DR; exists x; auto).
              revert E. destruct (find (fun a => same_atype (ca_type x) (a_type a)) old) as [p|] eqn:FX; intros E; [apply IN2; [exact E|] | destruct E as (i & E); exists i; apply IN2; [exact E | exact NX]].
              destruct (FI x p FX) as [_ T]. unfold step_arow. destruct (attribute_different x p); cbn [upd_arow a_type]; congruence.
           ++ rewrite F. unfold step_arow. rewrite D. exact IN1.
        -- intros p x P X E. apply IN2; [apply (ai_rest _ _ _ _ _ _ _ I p x P); [right; exact X | exact E]|].
           intros Q. apply RR. exists x. split; [exact X | congruence].
        -- exact (ai_na _ _ _ _ _ _ _ I).
      * apply CONT. constructor.
        -- exact (ai_ids _ _ _ _ _ _ _ I).
        -- exact (ai_from _ _ _ _ _ _ _ I).
        -- exact (ai_types _ _ _ _ _ _ _ I).
        -- intros a A. destruct (ai_only _ _ _ _ _ _ _ I a A) as [(x & X & E) | (AO & x & [X|X] & E)].
           ++ left. exists x. split; [apply in_or_app; left; exact X | exact E].
           ++ subst x. left. exists c. split; [apply in_or_app; right; left; reflexivity | exact E].
           ++ right. split; [exact AO | exists x; auto].
        -- intros x X. apply in_app_or in X. destruct X as [X | [<- | []]]; [exact (ai_each _ _ _ _ _ _ _ I x X)|].
           rewrite F. unfold step_arow. rewrite D. exact OL.
        -- intros p x P X E. apply (ai_rest _ _ _ _ _ _ _ I p x P); [right; exact X | exact E].
        -- exact (ai_na _ _ _ _ _ _ _ I).
    + change (v_id v) with (v_id (set_attrs v l)).
      pose proof (ai_na _ _ _ _ _ _ _ I) as LE.
      assert (BL : forall i, In i (map a_id l) -> i <= na).
      { intros i K. apply in_map_iff in K. destruct K as (a & <- & A). destruct (ai_from _ _ _ _ _ _ _ I a A) as [K|K]; [|lia].
        apply B in K. lia. }
      rewrite insert_attribute_focus.
      2:{ intros w W. split; [apply H, W|]. intros i K. apply H in K; [lia | exact W]. }
      2:{ exact BL. }
      cbn [v_attrs set_attrs]. change (set_attrs (set_attrs v l)) with (set_attrs v). change (v_id (set_attrs v l)) with (v_id v).
      apply CONT. constructor.
      * rewrite map_app. cbn [map new_arow a_id]. apply NoDup_Add with (a := na + 1) (l := map a_id l).
        -- replace (map a_id l) with (map a_id l ++ []) at 1 by apply app_nil_r. apply Add_app.
        -- split; [exact (ai_ids _ _ _ _ _ _ _ I)|]. intros K. apply BL in K. lia.
      * intros a A. apply in_app_or in A. destruct A as [A | [<- | []]].
        -- destruct (ai_from _ _ _ _ _ _ _ I a A); [tauto | right; lia].
        -- right. cbn [new_arow a_id]. lia.
      * rewrite map_app. cbn [map new_arow a_type]. apply NoDup_Add with (a := ca_type c) (l := map a_type l).
        -- replace (map a_type l) with (map a_type l ++ []) at 1 by apply app_nil_r. apply Add_app.
        -- split; [exact (ai_types _ _ _ _ _ _ _ I)|]. intros K. apply in_map_iff in K. destruct K as (a & E & A).
           destruct (ai_only _ _ _ _ _ _ _ I a A) as [(x & X & Y) | (AO & _)].
           ++ apply DR. exists x. split; [exact X | congruence].
           ++ pose proof (find_none _ _ F a AO) as Q. cbv beta in Q. assert (same_atype (ca_type c) (a_type a) = true) by (apply same_atype_true; congruence). congruence.
      * intros a A. apply in_app_or in A. destruct A as [A | [<- | []]].
        -- destruct (ai_only _ _ _ _ _ _ _ I a A) as [(x & X & E) | (AO & x & [X|X] & E)].
           ++ left. exists x. split; [apply in_or_app; left; exact X | exact E].
           ++ subst x. left. exists c. split; [apply in_or_app; right; left; reflexivity | exact E].
           ++ right. split; [exact AO | exists x; auto].
        -- left. exists c. split; [apply in_or_app; right; left; reflexivity | reflexivity].
      * intros x X. apply in_app_or in X. destruct X as [X | [<- | []]].
        -- pose proof (ai_each _ _ _ _ _ _ _ I x X) as E. revert E. destruct (find (fun a => same_atype (ca_type x) (a_type a)) old); intros E; [apply in_or_app; left; exact E|].
           destruct E as (i & E). exists i. apply in_or_app; left; exact E.
        -- rewrite F. exists (na + 1). apply in_or_app; right; left; reflexivity.
      * intros p x P X E. apply in_or_app. left. apply (ai_rest _ _ _ _ _ _ _ I p x P); [right; exact X | exact E].
      * lia.
Qed.

Lemma delete_attrs_focus : forall (keep : arow -> bool) cs pre post nc nv na nm v todo l,
  (forall w i, In w (pre ++ post) -> In i (map a_id todo) -> ~ In i (akeys w)) ->
  fold_left (fun d a => if keep a then d else delete_attribute (a_id a) d) todo (Db cs (pre ++ set_attrs v l :: post) nc nv na nm)
  = Db cs (pre ++ set_attrs v (deleted a_id keep todo l) :: post) nc nv na nm.
Proof.
  intros keep cs pre post nc nv na nm v todo. unfold deleted. induction todo as [|a todo IH]; intros l H; cbn [fold_left]; [reflexivity|].
  assert (H' : forall w i, In w (pre ++ post) -> In i (map a_id todo) -> ~ In i (akeys w)) by (intros w i W J; apply (H w i W); right; exact J).
  destruct (keep a); [apply IH, H'|].
  rewrite delete_attribute_focus by (intros w W; apply (H w _ W); left; reflexivity).
  cbn [v_attrs set_attrs]. change (set_attrs (set_attrs v l)) with (set_attrs v). apply IH, H'.
Qed.

(** update_attributes on one row. *)
Lemma update_attributes_focus : forall cs def v comps pre post nc nv na nm,
  (forall w, In w (pre ++ post) -> v_id w <> v_id v /\ forall i, In i (akeys w) -> i <= na /\ ~ In i (akeys v)) ->
  (forall i, In i (akeys v) -> i <= na) -> NoDup (akeys v) -> NoDup (map a_type (v_attrs v)) -> NoDup (map ca_type cs) ->
  exists l na',
    update_attributes cs (v_attrs v) (v_id v) def (Db comps (pre ++ v :: post) nc nv na nm)
    = Db comps (pre ++ set_attrs v l :: post) nc nv na' nm
    /\ na <= na' /\ NoDup (map a_id l) /\ (forall i, In i (map a_id l) -> In i (akeys v) \/ na < i <= na')
    /\ attrs_rel cs def (v_attrs v) l.
Proof.
  intros cs def v comps pre post nc nv na nm H B N NT NC. unfold update_attributes.
  replace (Db comps (pre ++ v :: post) nc nv na nm) with (Db comps (pre ++ set_attrs v (v_attrs v) :: post) nc nv na nm)
    by (rewrite set_attrs_same; reflexivity).
  rewrite delete_attrs_focus.
  2:{ intros w i W J K. apply H in K; [|exact W]. apply K, J. }
  set (keep := fun a => existsb (fun c => same_atype (a_type a) (ca_type c)) cs).
  assert (KEEP : forall a, keep a = true <-> exists c, In c cs /\ ca_type c = a_type a).
  { intros a. unfold keep. rewrite existsb_exists. split; intros (c & C & E); exists c; (split; [exact C|]);
      [symmetry; apply same_atype_true, E | apply same_atype_true; congruence]. }
  destruct (update_loop def (v_attrs v) na comps pre post nc nv nm v cs [] (deleted a_id keep (v_attrs v) (v_attrs v)) na) as (l & na' & E & I).
  - exact H.
  - exact B.
  - exact N.
  - exact NC.
  - constructor.
    + apply deleted_nodup, N.
    + intros a A. apply deleted_in in A. left. apply in_map, A.
    + apply deleted_nodup, NT.
    + intros a A. right. apply deleted_in in A. destruct A as [A K]. split; [exact A|]. apply KEEP.
      destruct (keep a) eqn:Q; [reflexivity|]. exfalso. apply (K a A Q). reflexivity.
    + intros c [].
    + intros o c O C T. apply deleted_in. split; [exact O|]. intros b X Y Q.
      assert (o = b) by (apply (NoDup_map_in a_id (v_attrs v)); assumption). subst b.
      assert (keep o = true) by (apply KEEP; exists c; auto). congruence.
    + lia.
  - cbn [app] in I. exists l, na'. split; [exact E|]. split; [exact (ai_na _ _ _ _ _ _ _ I)|].
    split; [exact (ai_ids _ _ _ _ _ _ _ I)|]. split.
    + intros i J. apply in_map_iff in J. destruct J as (a & <- & A). exact (ai_from _ _ _ _ _ _ _ I a A).
    + constructor.
      * exact (ai_types _ _ _ _ _ _ _ I).
      * intros a A. destruct (ai_only _ _ _ _ _ _ _ I a A) as [X | (_ & x & [] & _)]. exact X.
      * exact (ai_each _ _ _ _ _ _ _ I).
Qed.

(** Inserting the attributes of a new variable is a special case. *)
Lemma insert_attrs_focus : forall cs def v comps pre post nc nv na nm,
  (forall w, In w (pre ++ post) -> v_id w <> v_id v /\ forall i, In i (akeys w) -> i <= na) -> v_attrs v = [] ->
  NoDup (map ca_type cs) ->
  exists l na',
    fold_left (fun d a => insert_attribute a (v_id v) def d) cs (Db comps (pre ++ v :: post) nc nv na nm)
    = Db comps (pre ++ set_attrs v l :: post) nc nv na' nm
    /\ na <= na' /\ NoDup (map a_id l) /\ (forall i, In i (map a_id l) -> na < i <= na') /\ attrs_rel cs def [] l.
Proof.
  intros cs def v comps pre post nc nv na nm H V NC.
  destruct (update_attributes_focus cs def v comps pre post nc nv na nm) as (l & na' & E & A & B & C & D).
  - intros w W. split; [apply H, W|]. intros i K. split; [eapply H; eauto|]. unfold akeys. rewrite V. intros [].
  - unfold akeys. rewrite V. intros i [].
  - unfold akeys. rewrite V. constructor.
  - rewrite V. constructor.
  - exact NC.
  - exists l, na'. rewrite V in E, D. unfold update_attributes in E. cbn [fold_left find] in E. repeat split; auto; try apply D.
    all: destruct (C _ H0) as [K|K]; [unfold akeys in K; rewrite V in K; destruct K | lia].
Qed.
