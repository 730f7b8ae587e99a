(** A start makes the database that of the configuration. *)
From Coq Require Import ZArith String List Bool Lia.
From Verif Require Import StrModel StrProofs IdbModel IdbSpec IdbProofs IdbProofs2 IdbProofs3 IdbProofs4 IdbProofs5 IdbProofs6.
From Verif Require DmModel.
Import ListNotations.
Local Open Scope string_scope.
Local Open Scope list_scope.
Local Open Scope Z_scope.

Lemma hd_filter : forall {A} (p : A -> bool) l, hd_error (filter p l) = find p l.
Proof. intros A p l. induction l as [|a l IH]; [reflexivity|]. cbn [filter find]. destruct (p a); [reflexivity | exact IH]. Qed.
Lemma find_ext : forall {A} (p q : A -> bool) l, (forall x, In x l -> p x = q x) -> find p l = find q l.
Proof.
  intros A p q l. induction l as [|a l IH]; intros H; [reflexivity|]. cbn [find]. rewrite (H a (or_introl eq_refl)).
  destruct (q a); [reflexivity|]. apply IH. intros x X. apply H. right; exact X.
Qed.
Lemma filter_none : forall {A} (p : A -> bool) l, (forall x, In x l -> p x = false) -> filter p l = [].
Proof.
  intros A p l. induction l as [|a l IH]; intros H; [reflexivity|]. cbn [filter]. rewrite (H a (or_introl eq_refl)). apply IH. intros x X. apply H. right; exact X.
Qed.
(** The only element with a key. *)
Lemma filter_one : forall {A B} (f : A -> B) (p : A -> bool) l x, NoDup (map f l) -> In x l -> (forall y, In y l -> (p y = true <-> f y = f x)) ->
  filter p l = [x].
Proof.
  intros A B f p l x. induction l as [|a l IH]; intros N I P; [destruct I|]. cbn [map] in N. inversion N as [|? ? NI N']; subst. cbn [filter].
  destruct I as [-> | I].
  - assert (E : p x = true) by (apply P; [left|]; reflexivity). rewrite E. f_equal. apply filter_none. intros y Y. destruct (p y) eqn:Q; [|reflexivity].
    exfalso. apply (P y (or_intror Y)) in Q. apply NI. rewrite <- Q. apply in_map, Y.
  - destruct (p a) eqn:Q.
    + exfalso. apply (P a (or_introl eq_refl)) in Q. apply NI. rewrite Q. apply in_map, I.
    + apply IH; auto. intros y Y. apply P. right; exact Y.
Qed.
Lemma is_atype : forall a t, is atype_dec (a_type a) t = same_atype t (a_type a).
Proof.
  intros a t. apply eq_true_iff_eq. rewrite is_true, same_atype_true. split; congruence.
Qed.
Lemma hd_attrs : forall t l, hd_error (attrs_of t l) = find (fun a => same_atype t (a_type a)) l.
Proof. intros t l. unfold attrs_of. rewrite hd_filter. apply find_ext. intros a _. apply is_atype. Qed.
Lemma attrs_of_one : forall l r, NoDup (map a_type l) -> In r l -> attrs_of (a_type r) l = [r].
Proof.
  intros l r N I. unfold attrs_of. apply (filter_one a_type); auto. intros y _. apply is_true.
Qed.
Lemma set_by_overwritable : forall s, set_by s <-> overwritable s = false.
Proof.
  intros [x|]; cbn [set_by overwritable]; [|split; [tauto | discriminate]]. rewrite orb_false_iff. split.
  - intros [A B]. split; apply not_true_iff_false; rewrite str_eq_true; assumption.
  - intros [A B]. split; intros E; apply str_eq_true in E; congruence.
Qed.
Lemma given_config : forall c def, given c def = config_value c def.
Proof. intros [t v m p q] def. unfold given, config_value. cbn [ca_value ca_type]. destruct v, t as [[]|]; reflexivity. Qed.
Lemma step_mut : forall c def b, a_type b = ca_type c -> a_mut (step_arow c def b) = ca_mut c /\ a_type (step_arow c def b) = ca_type c.
Proof.
  intros c def b T. unfold step_arow. destruct (attribute_different c b) eqn:D; [split; reflexivity|].
  unfold attribute_different in D. apply negb_false_iff in D. rewrite !andb_true_iff in D. destruct D as [[_ D] _].
  apply (opt_eqb_true DmModel.mut_eqb mut_eqb_true) in D. auto.
Qed.
Lemma step_ok : forall c def b, a_type b = ca_type c -> attr_ok c def (Some b) (step_arow c def b).
Proof.
  intros c def b T. destruct (step_mut c def b T) as [SM ST]. constructor; auto.
  - intros x E S. assert (X : x = b) by congruence. subst x. apply set_by_overwritable in S. unfold step_arow.
    destruct (attribute_different c b); [|auto]. cbn [upd_arow a_value a_src]. rewrite S. destruct (config_value c def); auto.
  - intros x E H. destruct (H b eq_refl) as [NS ND]. rewrite given_config in E.
    assert (O : overwritable (a_src b) = true) by (destruct (overwritable (a_src b)) eqn:O; [reflexivity | exfalso; apply NS, set_by_overwritable, O]).
    unfold step_arow. destruct (attribute_different c b) eqn:D.
    + exists x. cbn [upd_arow a_value]. rewrite E, O. split; [reflexivity | apply iequals_refl].
    + unfold attribute_different in D. apply negb_false_iff in D. rewrite !andb_true_iff in D. destruct D as [_ D].
      unfold config_value in E. destruct (ca_value c) as [y|] eqn:CV.
      * destruct (a_value b) as [z|]; [|discriminate D]. exists z. split; [reflexivity|]. inversion E; subst y. exact D.
      * exfalso. apply (ND eq_refl). destruct (a_value b); [discriminate D | reflexivity].
  - intros E. rewrite given_config in E. unfold step_arow. destruct (attribute_different c b); [|reflexivity]. cbn [upd_arow a_value]. rewrite E. reflexivity.
  - intros x E. assert (X : x = b) by congruence. subst x. unfold step_arow. destruct (attribute_different c b); reflexivity.
Qed.
Lemma new_ok : forall c def i, attr_ok c def None (new_arow i c def).
Proof.
  intros c def i. constructor; try reflexivity; try discriminate.
  - intros x E _. rewrite given_config in E. exists x. cbn [new_arow a_value]. split; [exact E | apply iequals_refl].
  - intros E. rewrite given_config in E. exact E.
Qed.
Lemma alike_ci : forall a b, opt_eqb ci_eq a b = true <-> alike a b.
Proof. intros [a|] [b|]; unfold ci_eq; cbn; split; intros; try discriminate; try contradiction; auto. Qed.
Lemma alike_refl : forall a, alike a a.
Proof. intros [a|]; cbn; [apply iequals_refl | exact Logic.I]. Qed.
Lemma chars_alike_iff : forall a b, chars_different a b = false <-> chars_alike a b.
Proof.
  intros a b. unfold chars_different, chars_alike. rewrite negb_false_iff, !andb_true_iff, !alike_ci, !(opt_eqb_true Z.eqb Z.eqb_eq), dt_eqb_true, eqb_true_iff. tauto.
Qed.
Lemma chars_alike_refl : forall a, chars_alike a a.
Proof. intros a. unfold chars_alike. repeat split; apply alike_refl. Qed.
Lemma step_mon_alike : forall m e, mon_alike m (snd (step_mon m e)).
Proof.
  intros m e. unfold step_mon. destruct (monitor_different m (snd e)) eqn:D; [|apply different_false, D].
  cbn [snd]. unfold mon_alike. rewrite Z.sub_diag. repeat split. apply Z.leb_le. vm_compute. reflexivity.
Qed.
Lemma mons_ok_rel : forall cs old l, (forall m, In m cs -> m_cfg m <> DmModel.Custom) -> (forall e, In e old -> m_cfg (snd e) <> DmModel.Custom) ->
  NoDup (map mkey cs) -> mons_rel cs old l -> mons_ok cs l.
Proof.
  intros cs old l NC NO NK R.
  assert (EACH : forall m, In m cs -> exists e, In e (own_mons l) /\ mon_alike m (snd e)).
  { intros m M. pose proof (mr_each _ _ _ R m M) as E. revert E. destruct (find _ old) as [e|] eqn:F; intros E.
    - exists (step_mon m e). split; [|apply step_mon_alike]. apply own_in. split; [exact E|].
      unfold step_mon. destruct (monitor_different m (snd e)); [apply NC, M|]. apply find_some in F. apply NO, F.
    - destruct E as (i & E). exists (i, m). split; [apply own_in; split; [exact E | apply NC, M]|]. cbn [snd]. unfold mon_alike.
      rewrite Z.sub_diag. repeat split. apply Z.leb_le. vm_compute. reflexivity. }
  split.
  - intros m M. destruct (EACH m M) as (e & E & A). exists e. split; [|exact A].
    apply (filter_one mon_key); [exact (mr_keys _ _ _ R) | exact E|]. intros y _.
    destruct A as (A1 & _ & A3 & _). rewrite andb_true_iff, mt_eqb_true, Z.eqb_eq. unfold mon_key. rewrite A1, A3. split.
    + intros [B C]. congruence.
    + intros B. inversion B. auto.
  - intros e E. destruct (mr_only _ _ _ R e E) as (m & M & K). exists m. split; [exact M|]. destruct (EACH m M) as (e' & E' & A).
    assert (Q : e' = e).
    { apply (NoDup_map_in mon_key (own_mons l)); auto; [exact (mr_keys _ _ _ R)|]. rewrite <- K. symmetry. exact (alike_key _ _ A). }
    subst e'. exact A.
Qed.
Lemma row_rel_ok : forall c o v, good_var c -> row_rel c o v -> var_ok c o v.
Proof.
  intros c o v GC R. pose proof (rr_attrs _ _ _ R) as RA. constructor.
  - apply chars_alike_iff. rewrite (rr_chars _ _ _ R). destruct o as [w|]; [|apply chars_alike_iff, chars_alike_refl].
    destruct (chars_different (cv_chars c) (v_chars w)) eqn:D; [apply chars_alike_iff, chars_alike_refl | exact D].
  - intros t. split.
    + intros a A T. subst t. rewrite hd_attrs. pose proof (ar_each _ _ _ _ RA a A) as E. revert E.
      destruct (find _ _) as [b|] eqn:F; intros E.
      * apply find_some in F. destruct F as [_ F]. apply same_atype_true in F. exists (step_arow a (cv_default c) b).
        destruct (step_mut a (cv_default c) b (eq_sym F)) as [_ ST]. split; [|apply step_ok; congruence].
        rewrite <- ST. apply attrs_of_one; [exact (ar_types _ _ _ _ RA) | exact E].
      * destruct E as (i & E). exists (new_arow i a (cv_default c)). split; [|apply new_ok].
        change (ca_type a) with (a_type (new_arow i a (cv_default c))). apply attrs_of_one; [exact (ar_types _ _ _ _ RA) | exact E].
    + intros N. unfold attrs_of. apply filter_none. intros a A. destruct (is atype_dec (a_type a) t) eqn:Q; [|reflexivity].
      apply is_true in Q. destruct (ar_only _ _ _ _ RA a A) as (x & X & E). exfalso. apply (N x X). congruence.
  - apply (mons_ok_rel (cv_mons c) (match o with Some w => own_mons (v_mons w) | None => [] end)).
    + intros m M. apply (gv_own _ GC m M).
    + intros e E. destruct o as [w|]; [apply own_in in E; apply E | destruct E].
    + exact (gv_mons _ GC).
    + exact (rr_mons _ _ _ R).
  - exact (rr_custom _ _ _ R).
  - destruct (rr_source _ _ _ R) as [S | [S _]]; [left; exact S | right; exists v; auto].
  - intros ->. split; [|exact (rr_chars _ _ _ R)]. destruct (rr_source _ _ _ R) as [S | [S _]]; [exact S | discriminate S].
  - exact (rr_id _ _ _ R).
Qed.

(** ** Looking up variables *)
Lemma vars_at_mine : forall d k key cid, NoDup (map fst (d_comps d)) -> NoDup (map snd (d_comps d)) -> In (cid, k) (d_comps d) ->
  vars_at d k key = filter (fun v => same_vkey (v_key v) key) (mine cid (d_vars d)).
Proof.
  intros d k key cid N1 N2 I. unfold vars_at, mine. rewrite filter_filter. apply filter_ext. intros v.
  assert (A : is vkey_dec (v_key v) key = same_vkey (v_key v) key) by (apply eq_true_iff_eq; rewrite is_true, same_vkey_true; tauto).
  rewrite A, andb_comm. f_equal. destruct (in_dec pair_dec (v_cid v, k) (d_comps d)) as [J|J].
  - assert (Q : (v_cid v, k) = (cid, k)) by (apply (NoDup_map_in snd (d_comps d)); auto). inversion Q. symmetry. apply Z.eqb_refl.
  - destruct (v_cid v =? cid) eqn:E; [|reflexivity]. exfalso. apply J. replace (v_cid v) with cid by lia. exact I.
Qed.
Lemma vars_at_none : forall d k key, ~ In k (map snd (d_comps d)) -> vars_at d k key = [].
Proof.
  intros d k key N. unfold vars_at. apply filter_none. intros v _. destruct (in_dec pair_dec (v_cid v, k) (d_comps d)) as [J|J]; [|apply andb_false_r].
  exfalso. apply N. apply (in_map snd) in J. exact J.
Qed.
Theorem initialize_reflects : forall cfg d, good d -> good_config cfg ->
  exists d', initialize cfg None d = Done d' /\ good d' /\ reflects cfg d d'.
Proof.
  intros cfg d G GC. destruct (initialize_upto cfg d G GC) as (d' & E & G' & U). exists d'. split; [exact E|]. split; [exact G'|].
  constructor.
  - intros k. rewrite (ut_keys _ _ _ _ U k). cbn [map In]. tauto.
  - exact (g_ckeys _ G').
  - intros k c (vs & V & C). destruct (ut_done _ _ _ _ U k vs V) as (cid & CI & R). destruct (rw_each _ _ _ _ R c C) as (v & VI & RR).
    exists v. split.
    + rewrite (vars_at_mine d' k (cv_key c) cid (g_cids _ G') (g_ckeys _ G') CI). apply (filter_one v_key); [|exact VI|].
      * apply mine_keys, (g_vkeys _ G').
      * intros y _. rewrite (rr_key _ _ _ RR). apply same_vkey_true.
    + assert (H : hd_error (vars_at d k (cv_key c)) = old_row (mine cid (d_vars d)) (cv_key c)).
      { destruct (in_dec ckey_dec k (map snd (d_comps d))) as [K|K].
        - apply in_map_iff in K. destruct K as ([i k'] & K1 & K2). cbn [snd] in K1. subst k'.
          assert (K3 : In (i, k) (d_comps d')).
          { apply (ut_old _ _ _ _ U _ K2). rewrite app_nil_r. apply (in_map fst) in V. exact V. }
          assert (Q : (i, k) = (cid, k)) by (apply (NoDup_map_in snd (d_comps d')); auto; exact (g_ckeys _ G')). inversion Q; subst i.
          rewrite (vars_at_mine d k (cv_key c) cid (g_cids _ G) (g_ckeys _ G) K2). rewrite hd_filter. reflexivity.
        - rewrite (vars_at_none d k _ K). cbn [hd_error]. symmetry. apply old_row_none. intros w W. exfalso. apply in_mine in W. destruct W as [W1 W2].
          pose proof (g_home _ G w W1) as H. apply in_map_iff in H. destruct H as ([i k'] & H1 & H2). cbn [fst] in H1.
          pose proof (g_cb _ G _ H2) as B. cbn [fst] in B. destruct (ut_new _ _ _ _ U _ CI) as [Y|Y]; [apply K; apply (in_map snd) in Y; exact Y|].
          cbn [fst] in Y. lia. }
      rewrite H. apply row_rel_ok; [|exact RR]. exact (gc_vars _ GC _ c V C).
  - intros v V. pose proof (g_home _ G' v V) as H. apply in_map_iff in H. destruct H as ([cid k] & H1 & H2). cbn [fst] in H1.
    assert (K : In k (map fst cfg)).
    { destruct (proj1 (ut_keys _ _ _ _ U k) (in_map snd _ _ H2)) as [K | [[] _]]. exact K. }
    apply in_map_iff in K. destruct K as ([k' vs] & E' & K). cbn [fst] in E'. subst k'.
    destruct (ut_done _ _ _ _ U k vs K) as (cid' & C' & R).
    assert (Q : (cid, k) = (cid', k)) by (apply (NoDup_map_in snd (d_comps d')); auto; exact (g_ckeys _ G')). inversion Q; subst cid'.
    assert (VM : In v (mine cid (d_vars d'))) by (apply in_mine; auto).
    pose proof (rw_only _ _ _ _ R v VM) as KV. apply in_map_iff in KV. destruct KV as (c & EC & C). exists k, c.
    split; [exists vs; auto|]. split; [symmetry; exact EC | rewrite <- H1; exact H2].
Qed.
