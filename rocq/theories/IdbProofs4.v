(** What the statements do to one variable. *)
From Coq Require Import ZArith String List Bool Lia.
From Verif Require Import StrModel IdbModel IdbSpec IdbProofs IdbProofs2 IdbProofs3.
From Verif Require DmModel.
Import ListNotations.
Local Open Scope string_scope.
Local Open Scope list_scope.
Local Open Scope Z_scope.

(** ** Nothing to do *)
Lemma pigeon : forall {A} (l k : list A), NoDup l -> length k = length l -> incl l k -> incl k l.
Proof. intros A l k N L I. apply NoDup_length_incl; [exact N | lia | exact I]. Qed.
Lemma same_attr_type : forall c a, attribute_different c a = false -> ca_type c = a_type a.
Proof.
  intros c a H. unfold attribute_different in H. apply negb_false_iff in H. rewrite !andb_true_iff in H.
  apply same_atype_true, H.
Qed.
Lemma attrs_rel_same : forall cs def old, NoDup (map a_type old) -> NoDup (map ca_type cs) -> length cs = length old ->
  (forall c, In c cs -> exists a, In a old /\ attribute_different c a = false) -> attrs_rel cs def old old.
Proof.
  intros cs def old NO NC L H. constructor.
  - exact NO.
  - intros a A.
    assert (P : incl (map a_type old) (map ca_type cs)).
    { apply pigeon; [exact NC | rewrite !map_length; lia |]. intros t T. apply in_map_iff in T. destruct T as (c & <- & C).
      destruct (H c C) as (b & B & D). rewrite (same_attr_type c b D). apply in_map, B. }
    specialize (P (a_type a) (in_map _ _ _ A)). apply in_map_iff in P. destruct P as (c & E & C). exists c; auto.
  - intros c C. destruct (H c C) as (a & A & D). pose proof (same_attr_type c a D) as T.
    destruct (find (fun a => same_atype (ca_type c) (a_type a)) old) as [o|] eqn:F.
    + apply find_some in F. destruct F as [F1 F2]. apply same_atype_true in F2.
      assert (o = a) by (apply (NoDup_map_in a_type old); congruence). subst o. unfold step_arow. rewrite D. exact A.
    + pose proof (find_none _ _ F a A) as Q. cbv beta in Q. assert (same_atype (ca_type c) (a_type a) = true) by (apply same_atype_true, T). congruence.
Qed.
Lemma same_attributes_rel : forall cs def old, NoDup (map a_type old) -> NoDup (map ca_type cs) ->
  same_attributes cs old = true -> attrs_rel cs def old old.
Proof.
  intros cs def old NO NC S. unfold same_attributes in S. apply andb_true_iff in S. destruct S as [L S]. apply Nat.eqb_eq in L.
  apply attrs_rel_same; auto. intros c C. rewrite forallb_forall in S. specialize (S c C). apply existsb_exists in S.
  destruct S as (a & A & D). exists a. split; [exact A | apply negb_true_iff, D].
Qed.
Lemma same_attributes_rel' : forall cs def old, NoDup (map a_type old) -> NoDup (map ca_type cs) ->
  same_attributes' old cs = true -> attrs_rel cs def old old.
Proof.
  intros cs def old NO NC S. unfold same_attributes' in S. apply andb_true_iff in S. destruct S as [L S]. apply Nat.eqb_eq in L.
  rewrite forallb_forall in S.
  assert (T : forall a, In a old -> exists c, In c cs /\ attribute_different c a = false).
  { intros a A. specialize (S a A). apply existsb_exists in S. destruct S as (c & C & D). exists c. split; [exact C | apply negb_true_iff, D]. }
  apply attrs_rel_same; auto. intros c C.
  assert (P : incl (map ca_type cs) (map a_type old)).
  { apply pigeon; [exact NO | rewrite !map_length; lia |]. intros t I. apply in_map_iff in I. destruct I as (a & <- & A).
    destruct (T a A) as (x & X & D). rewrite <- (same_attr_type x a D). apply in_map, X. }
  specialize (P (ca_type c) (in_map _ _ _ C)). apply in_map_iff in P. destruct P as (a & E & A). exists a. split; [exact A|].
  destruct (T a A) as (x & X & D). assert (x = c) by (apply (NoDup_map_in ca_type cs); auto; rewrite (same_attr_type x a D); exact E).
  subst x. exact D.
Qed.
Lemma different_false : forall a b, monitor_different a b = false <-> mon_alike a b.
Proof.
  intros a b. unfold monitor_different, mon_alike. rewrite !orb_false_iff, !negb_false_iff.
  rewrite cfg_eqb_true, (opt_eqb_true str_eq str_eq_true), Z.ltb_ge, Z.eqb_eq, eqb_true_iff, mt_eqb_true. unfold epsilon. tauto.
Qed.
Lemma alike_sym : forall a b, mon_alike a b -> mon_alike b a.
Proof.
  intros a b (A & B & C & D & E & F). repeat split; try congruence. rewrite <- Z.abs_opp. replace (- (m_val b - m_val a)) with (m_val a - m_val b) by lia. exact F.
Qed.
Lemma alike_key : forall a b, mon_alike a b -> mkey a = mkey b.
Proof. intros a b (A & B & C & _). unfold mkey. congruence. Qed.
Lemma mons_rel_same : forall cs l, NoDup (map mon_key (own_mons l)) -> NoDup (map mkey cs) -> length cs = length (own_mons l) ->
  (forall m, In m cs -> exists e, In e (own_mons l) /\ mon_alike m (snd e)) -> mons_rel cs (own_mons l) l.
Proof.
  intros cs l NO NC L H. constructor.
  - exact NO.
  - intros a A.
    assert (P : incl (map mon_key (own_mons l)) (map mkey cs)).
    { apply pigeon; [exact NC | rewrite !map_length; lia |]. intros t T. apply in_map_iff in T. destruct T as (c & <- & C).
      destruct (H c C) as (b & B & D). rewrite (alike_key _ _ D). change (mkey (snd b)) with (mon_key b). apply in_map, B. }
    specialize (P (mon_key a) (in_map _ _ _ A)). apply in_map_iff in P. destruct P as (c & E & C). exists c; auto.
  - intros c C. destruct (H c C) as (a & A & D). pose proof (alike_key _ _ D) as T.
    destruct (find (fun e => monitor_duplicate c (snd e)) (own_mons l)) as [o|] eqn:F.
    + apply find_some in F. destruct F as [F1 F2]. apply duplicate_true in F2.
      assert (o = a) by (apply (NoDup_map_in mon_key (own_mons l)); auto; unfold mon_key, mkey in *; congruence). subst o.
      apply different_false in D. unfold step_mon. rewrite D. apply own_in in A. apply A.
    + pose proof (find_none _ _ F a A) as Q. cbv beta in Q. assert (monitor_duplicate c (snd a) = true) by (apply duplicate_true, T). congruence.
Qed.
Lemma same_monitors_rel : forall cs l, NoDup (map mon_key (own_mons l)) -> NoDup (map mkey cs) ->
  same_monitors cs (map snd (own_mons l)) = true -> mons_rel cs (own_mons l) l.
Proof.
  intros cs l NO NC S. unfold same_monitors in S. apply andb_true_iff in S. destruct S as [L S]. apply Nat.eqb_eq in L. rewrite map_length in L.
  apply mons_rel_same; auto. intros m M. rewrite forallb_forall in S. specialize (S m M). apply existsb_exists in S.
  destruct S as (n & N & D). apply in_map_iff in N. destruct N as (e & <- & E). exists e. split; [exact E|].
  apply different_false, negb_true_iff, D.
Qed.
Lemma same_monitors_rel' : forall cs l, NoDup (map mon_key (own_mons l)) -> NoDup (map mkey cs) ->
  same_monitors (map snd (own_mons l)) cs = true -> mons_rel cs (own_mons l) l.
Proof.
  intros cs l NO NC S. unfold same_monitors in S. apply andb_true_iff in S. destruct S as [L S]. apply Nat.eqb_eq in L. rewrite map_length in L.
  rewrite forallb_forall in S.
  assert (T : forall e, In e (own_mons l) -> exists m, In m cs /\ mon_alike m (snd e)).
  { intros e E. specialize (S (snd e) (in_map _ _ _ E)). apply existsb_exists in S. destruct S as (m & M & D). exists m.
    split; [exact M|]. apply alike_sym, different_false, negb_true_iff, D. }
  apply mons_rel_same; auto. intros c C.
  assert (P : incl (map mkey cs) (map mon_key (own_mons l))).
  { apply pigeon; [exact NO | rewrite !map_length; lia |]. intros t I. apply in_map_iff in I. destruct I as (a & <- & A).
    destruct (T a A) as (x & X & D). unfold mon_key. change (m_type (snd a), m_sev (snd a)) with (mkey (snd a)). rewrite <- (alike_key x (snd a) D). apply in_map, X. }
  specialize (P (mkey c) (in_map _ _ _ C)). apply in_map_iff in P. destruct P as (a & E & A). exists a. split; [exact A|].
  destruct (T a A) as (x & X & D). assert (x = c).
  { apply (NoDup_map_in mkey cs); auto. rewrite (alike_key x (snd a) D). exact E. }
  subst x. exact D.
Qed.

(** ** One variable *)
Record row_rel (c : cvar) (o : option vrow) (v : vrow) : Prop := {
  rr_key : v_key v = cv_key c;
  rr_attrs : attrs_rel (cv_attrs c) (cv_default c) (match o with Some w => v_attrs w | None => [] end) (v_attrs v);
  rr_mons : mons_rel (cv_mons c) (match o with Some w => own_mons (v_mons w) | None => [] end) (v_mons v);
  rr_custom : custom_mons (v_mons v) = match o with Some w => custom_mons (v_mons w) | None => [] end;
  rr_chars : v_chars v = match o with
                         | Some w => if chars_different (cv_chars c) (v_chars w) then cv_chars c else v_chars w
                         | None => cv_chars c
                         end;
  rr_source : v_source v = cv_source c \/ (o = Some v /\ variable_different (strip v) c = false);
  rr_id : forall w, o = Some w -> v_id v = v_id w }.
(** A row with ids of its own. *)
Record own_ids (v : vrow) (na nm : Z) : Prop := {
  oi_a : NoDup (akeys v); oi_m : NoDup (mkeys v);
  oi_ba : forall i, In i (akeys v) -> i <= na; oi_bm : forall i, In i (mkeys v) -> i <= nm }.
Definition apart (l : list vrow) (v : vrow) (na nm : Z) : Prop := forall w, In w l ->
  v_id w <> v_id v /\ (forall i, In i (akeys w) -> i <= na /\ ~ In i (akeys v)) /\ (forall i, In i (mkeys w) -> i <= nm /\ ~ In i (mkeys v)).
(** Where the ids of a changed row come from. *)
Record fresh_ids (v v' : vrow) (na na' nm nm' : Z) : Prop := {
  fi_na : na <= na'; fi_nm : nm <= nm';
  fi_a : forall i, In i (akeys v') -> In i (akeys v) \/ na < i <= na';
  fi_m : forall i, In i (mkeys v') -> In i (mkeys v) \/ nm < i <= nm' }.
Lemma stored_same : forall i, i <> Some "" -> stored_inst i = i.
Proof.
  intros [s|] H; [|reflexivity]. unfold stored_inst. destruct (str_eq s "") eqn:E; [|reflexivity]. apply str_eq_true in E. congruence.
Qed.
Lemma stored_key : forall c, good_var c -> VK (vk_name (cv_key c)) (stored_inst (vk_inst (cv_key c))) = cv_key c.
Proof. intros c G. rewrite stored_same by exact (gv_inst _ G). destruct (cv_key c); reflexivity. Qed.

Lemma update_variable_focus : forall c v comps pre post nc nv na nm,
  good_var c -> good_row v -> apart (pre ++ post) v na nm -> own_ids v na nm ->
  exists v' na' nm',
    update_variable (v_cid v) c (strip v) (Db comps (pre ++ v :: post) nc nv na nm) = Some (Db comps (pre ++ v' :: post) nc nv na' nm')
    /\ row_rel c (Some v) v' /\ v_cid v' = v_cid v /\ v_source v' = cv_source c /\ NoDup (akeys v') /\ NoDup (mkeys v')
    /\ fresh_ids v v' na na' nm nm'.
Proof.
  intros c v comps pre post nc nv na nm GC GR AP OI. unfold update_variable.
  change (v_id (strip v)) with (v_id v). change (v_chars (strip v)) with (v_chars v). change (v_attrs (strip v)) with (v_attrs v).
  change (v_mons (strip v)) with (own_mons (v_mons v)).
  rewrite (stored_key c GC).
  rewrite at_var_focus by (intros w W; apply AP, W).
  set (v1 := VR (v_id v) (v_cid v) (cv_key c) (cv_source c) (v_chars v) (v_attrs v) (v_mons v)).
  set (ch := if chars_different (cv_chars c) (v_chars v) then cv_chars c else v_chars v).
  set (v2 := VR (v_id v) (v_cid v) (cv_key c) (cv_source c) ch (v_attrs v) (v_mons v)).
  assert (E2 : (if chars_different (cv_chars c) (v_chars v)
     then at_var (v_id v) (fun v0 => VR (v_id v0) (v_cid v0) (v_key v0) (v_source v0) (cv_chars c) (v_attrs v0) (v_mons v0))
            (Db comps (pre ++ v1 :: post) nc nv na nm)
     else Db comps (pre ++ v1 :: post) nc nv na nm) = Db comps (pre ++ v2 :: post) nc nv na nm).
  { unfold v2, ch. destruct (chars_different (cv_chars c) (v_chars v)); [|reflexivity].
    change (v_id v) with (v_id v1). rewrite at_var_focus by (intros w W; apply AP, W). reflexivity. }
  rewrite E2. clear E2.
  assert (A3 : exists l na',
     (if same_attributes (cv_attrs c) (v_attrs v) then Db comps (pre ++ v2 :: post) nc nv na nm
      else update_attributes (cv_attrs c) (v_attrs v) (v_id v) (cv_default c) (Db comps (pre ++ v2 :: post) nc nv na nm))
     = Db comps (pre ++ set_attrs v2 l :: post) nc nv na' nm
     /\ na <= na' /\ NoDup (map a_id l) /\ (forall i, In i (map a_id l) -> In i (akeys v) \/ na < i <= na')
     /\ attrs_rel (cv_attrs c) (cv_default c) (v_attrs v) l).
  { destruct (same_attributes (cv_attrs c) (v_attrs v)) eqn:S.
    - exists (v_attrs v), na. split; [reflexivity|]. split; [lia|]. split; [exact (oi_a _ _ _ OI)|]. split; [intros i I; left; exact I|].
      apply same_attributes_rel; [exact (gr_types _ GR) | exact (gv_types _ GC) | exact S].
    - destruct (update_attributes_focus (cv_attrs c) (cv_default c) v2 comps pre post nc nv na nm) as (l & na' & E & R).
      + intros w W. destruct (AP w W) as (P1 & P2 & _). split; [exact P1 | exact P2].
      + exact (oi_ba _ _ _ OI).
      + exact (oi_a _ _ _ OI).
      + exact (gr_types _ GR).
      + exact (gv_types _ GC).
      + exists l, na'. split; [exact E | exact R]. }
  destruct A3 as (l & na' & E3 & A1 & A2 & A4 & A5). rewrite E3. clear E3.
  assert (M : exists k nm',
     (if same_monitors (cv_mons c) (map snd (own_mons (v_mons v))) then Some (Db comps (pre ++ set_attrs v2 l :: post) nc nv na' nm)
      else update_monitors (cv_mons c) (own_mons (v_mons v)) (v_id v) (Db comps (pre ++ set_attrs v2 l :: post) nc nv na' nm))
     = Some (Db comps (pre ++ set_mons (set_attrs v2 l) k :: post) nc nv na' nm')
     /\ nm <= nm' /\ NoDup (map fst k) /\ (forall i, In i (map fst k) -> In i (mkeys v) \/ nm < i <= nm')
     /\ custom_mons k = custom_mons (v_mons v) /\ mons_rel (cv_mons c) (own_mons (v_mons v)) k).
  { destruct (same_monitors (cv_mons c) (map snd (own_mons (v_mons v)))) eqn:S.
    - exists (v_mons v), nm. split; [reflexivity|]. split; [lia|]. split; [exact (oi_m _ _ _ OI)|]. split; [intros i I; left; exact I|].
      split; [reflexivity|]. apply same_monitors_rel; [exact (gr_mons _ GR) | exact (gv_mons _ GC) | exact S].
    - destruct (update_monitors_focus (cv_mons c) (set_attrs v2 l) comps pre post nc nv na' nm) as (k & nm' & E & R).
      + intros w W. destruct (AP w W) as (P1 & _ & P3). split; [exact P1 | exact P3].
      + exact (oi_bm _ _ _ OI).
      + exact (oi_m _ _ _ OI).
      + exact (gr_mons _ GR).
      + exact (gv_mons _ GC).
      + exact (gv_own _ GC).
      + exists k, nm'. split; [exact E | exact R]. }
  destruct M as (k & nm' & EM & B1 & B2 & B3 & B4 & B5). rewrite EM. exists (set_mons (set_attrs v2 l) k), na', nm'.
  split; [reflexivity|]. split; [|split; [reflexivity|split; [reflexivity|split; [exact A2|split; [exact B2|]]]]].
  - constructor; cbn [v_key v_attrs v_mons v_chars v_source v_id set_mons set_attrs]; auto.
    intros w W. assert (X : v = w) by congruence. rewrite <- X. reflexivity.
  - constructor; auto.
Qed.

Lemma insert_variable_new : forall c cid comps l nc nv na nm, good_var c -> ids l nv na nm ->
  exists v' na' nm',
    insert_variable cid c (Db comps l nc nv na nm) = Some (Db comps (l ++ [v']) nc (nv + 1) na' nm')
    /\ row_rel c None v' /\ v_cid v' = cid /\ v_id v' = nv + 1 /\ NoDup (akeys v') /\ NoDup (mkeys v') /\ na <= na' /\ nm <= nm'
    /\ (forall i, In i (akeys v') -> na < i <= na') /\ (forall i, In i (mkeys v') -> nm < i <= nm').
Proof.
  intros c cid comps l nc nv na nm GC G. unfold insert_variable. cbn [d_comps d_vars d_nc d_nv d_na d_nm]. rewrite (stored_key c GC).
  set (v := VR (nv + 1) cid (cv_key c) (cv_source c) (cv_chars c) [] []).
  assert (H : forall w, In w (l ++ []) -> v_id w <> v_id v).
  { intros w W. rewrite app_nil_r in W. pose proof (id_bv _ _ _ _ G w W). cbn [v_id v]. lia. }
  destruct (insert_attrs_focus (cv_attrs c) (cv_default c) v comps l [] nc (nv + 1) na nm) as (k & na' & E & A1 & A2 & A3 & A4).
  - intros w W. split; [apply H, W|]. rewrite app_nil_r in W. intros i I. exact (id_ba _ _ _ _ G w i W I).
  - reflexivity.
  - exact (gv_types _ GC).
  - change (v_id v) with (nv + 1) in E. rewrite E.
    destruct (insert_monitors_focus (cv_mons c) (set_attrs v k) comps l [] nc (nv + 1) na' nm) as (m & nm' & E' & B1 & B2 & B3 & B4 & B5).
    + intros w W. split; [apply H, W|]. rewrite app_nil_r in W. intros i I. exact (id_bm _ _ _ _ G w i W I).
    + reflexivity.
    + exact (gv_mons _ GC).
    + exact (gv_own _ GC).
    + change (v_id (set_attrs v k)) with (nv + 1) in E'. rewrite E'. exists (set_mons (set_attrs v k) m), na', nm'.
      split; [reflexivity|]. split; [|repeat split; auto; try (apply A3; assumption); apply B3; assumption].
      constructor; cbn [v_key v_attrs v_mons v_chars v_source v_id set_mons set_attrs]; auto. intros w W. discriminate W.
Qed.

(** ** Ids and rows stay well formed *)
Lemma ids_replace : forall pre v v' post nv na na' nm nm', ids (pre ++ v :: post) nv na nm -> v_id v' = v_id v ->
  NoDup (akeys v') -> NoDup (mkeys v') -> fresh_ids v v' na na' nm nm' -> ids (pre ++ v' :: post) nv na' nm'.
Proof.
  intros pre v v' post nv na na' nm nm' I V NA NM F.
  assert (VI : In v (pre ++ v :: post)) by (apply in_or_app; right; left; reflexivity).
  assert (SPLIT : forall w, In w (pre ++ v' :: post) -> w = v' \/ (In w (pre ++ v :: post) /\ v_id w <> v_id v)).
  { intros w W. assert (D : NoDup (map v_id (pre ++ v :: post))) by exact (id_v _ _ _ _ I).
    rewrite map_app in D. cbn [map] in D. apply NoDup_remove_2 in D.
    apply in_app_or in W. destruct W as [W | [W|W]]; [right| left; congruence |right]; (split; [apply in_or_app; cbn [In]; tauto|]);
      intros E; apply D; rewrite <- E; apply in_or_app; [left|right]; apply in_map, W. }
  constructor.
  - replace (map v_id (pre ++ v' :: post)) with (map v_id (pre ++ v :: post)); [exact (id_v _ _ _ _ I)|].
    rewrite !map_app. cbn [map]. rewrite V. reflexivity.
  - intros a b A B N i J K. destruct (SPLIT a A) as [-> | [A1 A2]], (SPLIT b B) as [-> | [B1 B2]].
    + congruence.
    + destruct (fi_a _ _ _ _ _ _ F i J) as [X|X]; [exact (id_a _ _ _ _ I v b VI B1 (fun E => B2 (eq_sym E)) i X K)|].
      pose proof (id_ba _ _ _ _ I b i B1 K). lia.
    + destruct (fi_a _ _ _ _ _ _ F i K) as [X|X]; [exact (id_a _ _ _ _ I a v A1 VI A2 i J X)|].
      pose proof (id_ba _ _ _ _ I a i A1 J). lia.
    + exact (id_a _ _ _ _ I a b A1 B1 N i J K).
  - intros a b A B N i J K. destruct (SPLIT a A) as [-> | [A1 A2]], (SPLIT b B) as [-> | [B1 B2]].
    + congruence.
    + destruct (fi_m _ _ _ _ _ _ F i J) as [X|X]; [exact (id_m _ _ _ _ I v b VI B1 (fun E => B2 (eq_sym E)) i X K)|].
      pose proof (id_bm _ _ _ _ I b i B1 K). lia.
    + destruct (fi_m _ _ _ _ _ _ F i K) as [X|X]; [exact (id_m _ _ _ _ I a v A1 VI A2 i J X)|].
      pose proof (id_bm _ _ _ _ I a i A1 J). lia.
    + exact (id_m _ _ _ _ I a b A1 B1 N i J K).
  - intros a A. destruct (SPLIT a A) as [-> | [A1 _]]; [exact NA | exact (id_na _ _ _ _ I a A1)].
  - intros a A. destruct (SPLIT a A) as [-> | [A1 _]]; [exact NM | exact (id_nm _ _ _ _ I a A1)].
  - intros a A. destruct (SPLIT a A) as [-> | [A1 _]]; [rewrite V; exact (id_bv _ _ _ _ I v VI) | exact (id_bv _ _ _ _ I a A1)].
  - pose proof (fi_na _ _ _ _ _ _ F). intros a i A J. destruct (SPLIT a A) as [-> | [A1 _]].
    + destruct (fi_a _ _ _ _ _ _ F i J) as [X|X]; [pose proof (id_ba _ _ _ _ I v i VI X); lia | lia].
    + pose proof (id_ba _ _ _ _ I a i A1 J). lia.
  - pose proof (fi_nm _ _ _ _ _ _ F). intros a i A J. destruct (SPLIT a A) as [-> | [A1 _]].
    + destruct (fi_m _ _ _ _ _ _ F i J) as [X|X]; [pose proof (id_bm _ _ _ _ I v i VI X); lia | lia].
    + pose proof (id_bm _ _ _ _ I a i A1 J). lia.
Qed.
Lemma ids_snoc : forall l v nv na na' nm nm', ids l nv na nm -> v_id v = nv + 1 -> NoDup (akeys v) -> NoDup (mkeys v) ->
  na <= na' -> nm <= nm' -> (forall i, In i (akeys v) -> na < i <= na') -> (forall i, In i (mkeys v) -> nm < i <= nm') ->
  ids (l ++ [v]) (nv + 1) na' nm'.
Proof.
  intros l v nv na na' nm nm' I V NA NM LA LM FA FM.
  assert (SPLIT : forall w, In w (l ++ [v]) -> w = v \/ In w l) by (intros w W; apply in_app_or in W; destruct W as [W | [W | []]]; auto).
  constructor.
  - rewrite map_app. cbn [map]. apply NoDup_Add with (a := v_id v) (l := map v_id l).
    + replace (map v_id l) with (map v_id l ++ []) at 1 by apply app_nil_r. apply Add_app.
    + split; [exact (id_v _ _ _ _ I)|]. intros K. apply in_map_iff in K. destruct K as (w & E & W). pose proof (id_bv _ _ _ _ I w W). lia.
  - intros a b A B N i J K. destruct (SPLIT a A) as [-> | A1], (SPLIT b B) as [-> | B1].
    + congruence.
    + pose proof (id_ba _ _ _ _ I b i B1 K). apply FA in J. lia.
    + pose proof (id_ba _ _ _ _ I a i A1 J). apply FA in K. lia.
    + exact (id_a _ _ _ _ I a b A1 B1 N i J K).
  - intros a b A B N i J K. destruct (SPLIT a A) as [-> | A1], (SPLIT b B) as [-> | B1].
    + congruence.
    + pose proof (id_bm _ _ _ _ I b i B1 K). apply FM in J. lia.
    + pose proof (id_bm _ _ _ _ I a i A1 J). apply FM in K. lia.
    + exact (id_m _ _ _ _ I a b A1 B1 N i J K).
  - intros a A. destruct (SPLIT a A) as [-> | A1]; [exact NA | exact (id_na _ _ _ _ I a A1)].
  - intros a A. destruct (SPLIT a A) as [-> | A1]; [exact NM | exact (id_nm _ _ _ _ I a A1)].
  - intros a A. destruct (SPLIT a A) as [-> | A1]; [lia | pose proof (id_bv _ _ _ _ I a A1); lia].
  - intros a i A J. destruct (SPLIT a A) as [-> | A1]; [apply FA in J; lia | pose proof (id_ba _ _ _ _ I a i A1 J); lia].
  - intros a i A J. destruct (SPLIT a A) as [-> | A1]; [apply FM in J; lia | pose proof (id_bm _ _ _ _ I a i A1 J); lia].
Qed.
Lemma config_value_short : forall c a, good_var c -> In a (cv_attrs c) -> short (config_value a (cv_default c)).
Proof.
  intros c a G A. destruct (gv_short _ G) as [D V]. specialize (V a A). unfold config_value.
  destruct (ca_value a); [exact V|]. destruct (ca_type a) as [[]|]; try exact Logic.I; exact D.
Qed.
Lemma attr_from : forall cs def old l a, attrs_rel cs def old l -> In a l ->
  exists c, In c cs /\ ca_type c = a_type a
            /\ match find (fun a => same_atype (ca_type c) (a_type a)) old with
               | Some o => In o old /\ a_type o = a_type a /\ a = step_arow c def o
               | None => exists i, a = new_arow i c def
               end.
Proof.
  intros cs def old l a R A. destruct (ar_only _ _ _ _ R a A) as (c & C & T). exists c. split; [exact C|]. split; [exact T|].
  pose proof (ar_each _ _ _ _ R c C) as E. revert E. destruct (find (fun a => same_atype (ca_type c) (a_type a)) old) as [o|] eqn:F; intros E.
  - apply find_some in F. destruct F as [F1 F2]. apply same_atype_true in F2. split; [exact F1|]. split; [congruence|].
    apply (NoDup_map_in a_type l); auto; [exact (ar_types _ _ _ _ R)|]. unfold step_arow. destruct (attribute_different c o); cbn [upd_arow a_type]; congruence.
  - destruct E as (i & E). exists i. apply (NoDup_map_in a_type l); [exact (ar_types _ _ _ _ R) | exact A | exact E | cbn [new_arow a_type]; congruence].
Qed.
Lemma good_row_rel : forall c o v, good_var c -> (forall w, o = Some w -> good_row w) -> row_rel c o v -> good_row v.
Proof.
  intros c o v GC GO R. pose proof (rr_attrs _ _ _ R) as RA. constructor.
  - intros E. destruct (cv_attrs c) as [|a q] eqn:Q; [exact (gv_attrs _ GC Q)|].
    pose proof (ar_each _ _ _ _ RA a (or_introl eq_refl)) as X. rewrite E in X. revert X.
    destruct (find _ _); [intros [] | intros (i & [])].
  - exact (ar_types _ _ _ _ RA).
  - intros a A. destruct (attr_from _ _ _ _ a RA A) as (x & X & T & S).
    pose proof (config_value_short c x GC X) as CS. revert S.
    destruct (find _ _) as [b|] eqn:F; intros S.
    + destruct S as (B & _ & ->).
      assert (SB : short (a_value b)) by (destruct o as [w|]; [exact (gr_short _ (GO w eq_refl) b B) | destruct B]).
      unfold step_arow. destruct (attribute_different x b); [|exact SB]. cbn [upd_arow a_value].
      destruct (config_value x (cv_default c)); [destruct (overwritable (a_src b)); assumption | exact SB].
    + destruct S as (i & ->). exact CS.
  - exact (mr_keys _ _ _ (rr_mons _ _ _ R)).
Qed.
