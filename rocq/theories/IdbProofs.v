(** Reading a well formed database. *)
From Coq Require Import ZArith String List Bool Lia.
From Verif Require Import StrModel IdbModel IdbSpec.
From Verif Require DmModel StrProofs.
Import ListNotations.
Local Open Scope string_scope.
Local Open Scope list_scope.
Local Open Scope Z_scope.

(** ** Comparisons *)
Lemma opt_eqb_true : forall {A} (e : A -> A -> bool), (forall x y, e x y = true <-> x = y) ->
  forall a b, opt_eqb e a b = true <-> a = b.
Proof.
  intros A e E [x|] [y|]; cbn; rewrite ?E; split; intros H; try discriminate; try congruence; auto.
Qed.
Lemma str_eq_true : forall x y, str_eq x y = true <-> x = y.
Proof. intros. apply String.eqb_eq. Qed.
Lemma same_ckey_true : forall a b, same_ckey a b = true <-> a = b.
Proof.
  intros [a1 a2 a3 a4] [b1 b2 b3 b4]. unfold same_ckey; cbn [k_name k_inst k_evse k_conn].
  rewrite !andb_true_iff, (opt_eqb_true str_eq str_eq_true), !(opt_eqb_true Z.eqb Z.eqb_eq), str_eq_true.
  split; [intros (((? & ?) & ?) & ?); congruence | intros E; inversion E; auto].
Qed.
Lemma same_vkey_true : forall a b, same_vkey a b = true <-> a = b.
Proof.
  intros [a1 a2] [b1 b2]. unfold same_vkey; cbn [vk_name vk_inst].
  rewrite !andb_true_iff, (opt_eqb_true str_eq str_eq_true), str_eq_true.
  split; [intros (? & ?); congruence | intros E; inversion E; auto].
Qed.
Lemma attr_eqb_true : forall a b, DmModel.attr_eqb a b = true <-> a = b.
Proof. intros [] []; cbn; split; congruence. Qed.
Lemma mut_eqb_true : forall a b, DmModel.mut_eqb a b = true <-> a = b.
Proof. intros [] []; cbn; split; congruence. Qed.
Lemma mt_eqb_true : forall a b, DmModel.mt_eqb a b = true <-> a = b.
Proof. intros [] []; cbn; split; congruence. Qed.
Lemma cfg_eqb_true : forall a b, DmModel.cfg_eqb a b = true <-> a = b.
Proof. intros [] []; cbn; split; congruence. Qed.
Lemma dt_eqb_true : forall a b, dt_eqb a b = true <-> a = b.
Proof. intros [] []; cbn; split; congruence. Qed.
Lemma same_atype_true : forall a b, same_atype a b = true <-> a = b.
Proof. intros. apply opt_eqb_true, attr_eqb_true. Qed.
Lemma is_true : forall {A} (dec : forall a b : A, {a = b} + {a <> b}) a b, is dec a b = true <-> a = b.
Proof. intros A dec a b. unfold is. destruct (dec a b); split; congruence. Qed.
Lemma eqb_false : forall (f : bool) (P : Prop), (f = true <-> P) -> ~ P -> f = false.
Proof. intros [] P H N; [exfalso; apply N, H; reflexivity | reflexivity]. Qed.

(** ** Well formed databases *)
Definition akeys (v : vrow) : list Z := map a_id (v_attrs v).
Definition mkeys (v : vrow) : list Z := map fst (v_mons v).
(** The ids of a list of variables are primary keys below the sequences. *)
Record ids (l : list vrow) (nv na nm : Z) : Prop := {
  id_v : NoDup (map v_id l);
  id_a : forall v w, In v l -> In w l -> v_id v <> v_id w -> forall i, In i (akeys v) -> ~ In i (akeys w);
  id_m : forall v w, In v l -> In w l -> v_id v <> v_id w -> forall i, In i (mkeys v) -> ~ In i (mkeys w);
  id_na : forall v, In v l -> NoDup (akeys v);
  id_nm : forall v, In v l -> NoDup (mkeys v);
  id_bv : forall v, In v l -> v_id v <= nv;
  id_ba : forall v i, In v l -> In i (akeys v) -> i <= na;
  id_bm : forall v i, In v l -> In i (mkeys v) -> i <= nm }.
Definition mon_key (e : Z * mon) : monitor_type * Z := (m_type (snd e), m_sev (snd e)).
Record good_row (v : vrow) : Prop := {
  gr_some : v_attrs v <> [];
  gr_types : NoDup (map a_type (v_attrs v));
  gr_short : forall a, In a (v_attrs v) -> short (a_value a);
  gr_mons : NoDup (map mon_key (own_mons (v_mons v))) }.
Record good (d : db) : Prop := {
  g_ids : ids (d_vars d) (d_nv d) (d_na d) (d_nm d);
  g_cids : NoDup (map fst (d_comps d));
  g_cb : forall c, In c (d_comps d) -> fst c <= d_nc d;
  g_ckeys : NoDup (map snd (d_comps d));
  g_home : forall v, In v (d_vars d) -> In (v_cid v) (map fst (d_comps d));
  g_full : forall c, In c (d_comps d) -> exists v, In v (d_vars d) /\ v_cid v = fst c;
  g_vkeys : NoDup (map (fun v => (v_cid v, v_key v)) (d_vars d));
  g_rows : forall v, In v (d_vars d) -> good_row v }.

Lemma NoDup_map_in : forall {A B} (f : A -> B) l x y, NoDup (map f l) -> In x l -> In y l -> f x = f y -> x = y.
Proof.
  induction l as [|a l IH]; cbn; intros x y N X Y E; [tauto|]. inversion N as [|? ? NI N']; subst.
  destruct X as [X|X], Y as [Y|Y]; subst; auto.
  - exfalso. apply NI. rewrite E. apply in_map, Y.
  - exfalso. apply NI. rewrite <- E. apply in_map, X.
Qed.
Lemma read_own : forall v, read_mons v = own_mons (v_mons v).
Proof.
  intros v. unfold read_mons, own_mons. apply filter_ext. intros [i [s tx t [] x r]]; reflexivity.
Qed.

(** ** Reading *)
Definition mine (cid : Z) (l : list vrow) : list vrow := filter (fun v => v_cid v =? cid) l.
Definition strip (v : vrow) : vrow := set_mons v (own_mons (v_mons v)).
Definition as_read (d : db) : list comp := map (fun c => (c, map strip (mine (fst c) (d_vars d)))) (d_comps d).

Lemma flat_one : forall {B} (f : vrow -> list B) l v, NoDup (map v_id l) -> In v l ->
  flat_map (fun w => if v_id w =? v_id v then f w else []) l = f v.
Proof.
  induction l as [|a l IH]; cbn [flat_map map]; intros v N I; [destruct I|]. inversion N as [|? ? NI N']; subst.
  assert (Z0 : forall m, ~ In (v_id v) (map v_id m) -> flat_map (fun w => if v_id w =? v_id v then f w else []) m = []).
  { induction m as [|b m IHm]; cbn [flat_map map]; intros H; [reflexivity|].
    destruct (v_id b =? v_id v) eqn:E; [exfalso; apply H; left; lia | cbn [app]; apply IHm; intros K; apply H; right; exact K]. }
  destruct I as [-> | I].
  - rewrite Z.eqb_refl, Z0, app_nil_r by exact NI. reflexivity.
  - destruct (v_id a =? v_id v) eqn:E; [exfalso; apply NI; replace (v_id a) with (v_id v) by lia; apply in_map, I|].
    cbn [app]. apply IH; auto.
Qed.
Lemma mons_of_one : forall d v, NoDup (map v_id (d_vars d)) -> In v (d_vars d) -> mons_of d (v_id v) = own_mons (v_mons v).
Proof. intros d v N I. unfold mons_of. rewrite (flat_one read_mons) by assumption. apply read_own. Qed.
Lemma add_mons_new : forall l acc, NoDup (map fst (acc ++ l)) -> add_mons acc l = acc ++ l.
Proof.
  unfold add_mons. induction l as [|e l IH]; cbn [fold_left]; intros acc N; [rewrite app_nil_r; reflexivity|].
  assert (E : existsb (fun x => fst x =? fst e) acc = false).
  { destruct (existsb _ acc) eqn:X; [|reflexivity]. exfalso. apply existsb_exists in X. destruct X as (x & X1 & X2).
    rewrite map_app in N. cbn [map] in N. apply NoDup_remove_2 in N. apply N. apply in_or_app. left.
    replace (fst e) with (fst x) by lia. apply in_map, X1. }
  rewrite E, IH; rewrite <- app_assoc; [reflexivity | exact N].
Qed.
Lemma add_mons_same : forall l acc, incl l acc -> add_mons acc l = acc.
Proof.
  unfold add_mons. induction l as [|e l IH]; cbn [fold_left]; intros acc I; [reflexivity|].
  assert (E : existsb (fun x => fst x =? fst e) acc = true).
  { apply existsb_exists. exists e. split; [apply I; left; reflexivity | lia]. }
  rewrite E. apply IH. intros x X. apply I. right; exact X.
Qed.
Lemma NoDup_map_filter : forall {A B} (f : A -> B) p l, NoDup (map f l) -> NoDup (map f (filter p l)).
Proof.
  induction l as [|a l IH]; cbn; intros N; [constructor|]. inversion N as [|? ? NI N']; subst.
  destruct (p a); cbn; [constructor; auto | auto]. intros K. apply NI. apply in_map_iff in K. destruct K as (x & E & X).
  apply filter_In in X. rewrite <- E. apply in_map, X.
Qed.
Definition partly (v : vrow) (l : list arow) : vrow :=
  VR (v_id v) (v_cid v) (v_key v) (v_source v) (v_chars v) l (own_mons (v_mons v)).
Lemma partly_all : forall v, partly v (v_attrs v) = strip v.
Proof. reflexivity. Qed.
Lemma first_row : forall d v a, NoDup (map v_id (d_vars d)) -> In v (d_vars d) -> NoDup (mkeys v) ->
  more_attrs d a (v_source v) (VR (v_id v) (v_cid v) (v_key v) None (v_chars v) [] []) = partly v [a].
Proof.
  intros d v a N I M. unfold more_attrs, partly; cbn [v_id v_cid v_key v_source v_chars v_attrs v_mons].
  rewrite mons_of_one by assumption. rewrite add_mons_new by (cbn [app]; apply NoDup_map_filter, M). cbn [app].
  destruct (v_source v); reflexivity.
Qed.
Lemma next_row : forall d v a l, NoDup (map v_id (d_vars d)) -> In v (d_vars d) ->
  more_attrs d a (v_source v) (partly v l) = partly v (l ++ [a]).
Proof.
  intros d v a l N I. unfold more_attrs, partly; cbn [v_id v_cid v_key v_source v_chars v_attrs v_mons].
  rewrite mons_of_one by assumption. rewrite add_mons_same by apply incl_refl.
  destruct (v_source v); reflexivity.
Qed.
Lemma map_none : forall {A} (p : A -> bool) (f : A -> A) l, (forall x, In x l -> p x = false) ->
  map (fun x => if p x then f x else x) l = l.
Proof.
  induction l as [|a l IH]; cbn; intros H; [reflexivity|].
  rewrite (H a (or_introl eq_refl)), IH; [reflexivity | intros; apply H; right; assumption].
Qed.
Lemma existsb_none : forall {A} (p : A -> bool) l, (forall x, In x l -> p x = false) -> existsb p l = false.
Proof.
  induction l as [|a l IH]; cbn; intros H; [reflexivity|].
  rewrite (H a (or_introl eq_refl)), IH; [reflexivity | intros; apply H; right; assumption].
Qed.
Lemma rows_rest : forall d c v pre l more done,
  NoDup (map v_id (d_vars d)) -> In v (d_vars d) ->
  (forall e, In e pre -> snd (fst e) <> snd c) -> (forall w, In w l -> v_key w <> v_key v) ->
  fold_left (fun acc a => add_row d acc c v a) more (pre ++ [(c, l ++ [partly v done])])
  = pre ++ [(c, l ++ [partly v (done ++ more)])].
Proof.
  intros d c v pre l more. induction more as [|a more IH]; intros done N I P L; cbn [fold_left].
  - rewrite app_nil_r. reflexivity.
  - assert (S : add_row d (pre ++ [(c, l ++ [partly v done])]) c v a = pre ++ [(c, l ++ [partly v (done ++ [a])])]).
    { unfold add_row.
      assert (X : existsb (same_comp (snd c)) (pre ++ [(c, l ++ [partly v done])]) = true).
      { apply existsb_exists. exists (c, l ++ [partly v done]). split; [apply in_or_app; right; left; reflexivity|].
        apply same_ckey_true. reflexivity. }
      rewrite X, map_app. f_equal.
      - apply map_none. intros e E. apply (eqb_false _ _ (same_ckey_true _ _)), P, E.
      - cbn [map]. assert (Y : same_comp (snd c) (c, l ++ [partly v done]) = true) by (apply same_ckey_true; reflexivity).
        rewrite Y. cbn [fst snd].
        assert (H : has_var (v_key v) (l ++ [partly v done]) = true).
        { apply existsb_exists. exists (partly v done). split; [apply in_or_app; right; left; reflexivity|].
          apply same_vkey_true. reflexivity. }
        rewrite H, map_app. cbn [map].
        assert (K : same_vkey (v_key (partly v done)) (v_key v) = true) by (apply same_vkey_true; reflexivity).
        rewrite K, next_row by assumption. f_equal. f_equal. f_equal. f_equal.
        apply map_none. intros w W. apply (eqb_false _ _ (same_vkey_true _ _)), L, W. }
    rewrite S, IH by assumption. rewrite <- app_assoc. reflexivity.
Qed.
Lemma rows_first : forall d c v pre, NoDup (map v_id (d_vars d)) -> In v (d_vars d) -> NoDup (mkeys v) -> v_attrs v <> [] ->
  (forall e, In e pre -> snd (fst e) <> snd c) ->
  fold_left (fun acc a => add_row d acc c v a) (v_attrs v) pre = pre ++ [(c, [strip v])].
Proof.
  intros d c v pre N I M A P. rewrite <- partly_all. destruct (v_attrs v) as [|a more] eqn:E; [congruence|]. cbn [fold_left].
  assert (S : add_row d pre c v a = pre ++ [(c, [] ++ [partly v [a]])]).
  { unfold add_row. rewrite existsb_none.
    - rewrite first_row by assumption. reflexivity.
    - intros e X. apply (eqb_false _ _ (same_ckey_true _ _)), P, X. }
  rewrite S, rows_rest; auto.
Qed.
Lemma rows_more : forall d c v pre l, NoDup (map v_id (d_vars d)) -> In v (d_vars d) -> NoDup (mkeys v) -> v_attrs v <> [] ->
  (forall e, In e pre -> snd (fst e) <> snd c) -> (forall w, In w l -> v_key w <> v_key v) ->
  fold_left (fun acc a => add_row d acc c v a) (v_attrs v) (pre ++ [(c, l)]) = pre ++ [(c, l ++ [strip v])].
Proof.
  intros d c v pre l N I M A P L. rewrite <- partly_all. destruct (v_attrs v) as [|a more] eqn:E; [congruence|]. cbn [fold_left].
  assert (S : add_row d (pre ++ [(c, l)]) c v a = pre ++ [(c, l ++ [partly v [a]])]).
  { unfold add_row.
    assert (X : existsb (same_comp (snd c)) (pre ++ [(c, l)]) = true).
    { apply existsb_exists. exists (c, l). split; [apply in_or_app; right; left; reflexivity|]. apply same_ckey_true. reflexivity. }
    rewrite X, map_app. f_equal.
    - apply map_none. intros e Y. apply (eqb_false _ _ (same_ckey_true _ _)), P, Y.
    - cbn [map]. assert (Y : same_comp (snd c) (c, l) = true) by (apply same_ckey_true; reflexivity).
      rewrite Y. cbn [fst snd].
      assert (H : has_var (v_key v) l = false).
      { unfold has_var. apply existsb_none. intros w W. apply (eqb_false _ _ (same_vkey_true _ _)), L, W. }
      rewrite H, first_row by assumption. reflexivity. }
  rewrite S, rows_rest; auto.
Qed.
Lemma vars_more : forall d c pre vs l, NoDup (map v_id (d_vars d)) -> incl vs (d_vars d) ->
  (forall v, In v vs -> NoDup (mkeys v) /\ v_attrs v <> []) ->
  (forall e, In e pre -> snd (fst e) <> snd c) -> NoDup (map v_key (l ++ vs)) ->
  fold_left (fun acc v => fold_left (fun acc a => add_row d acc c v a) (v_attrs v) acc) vs (pre ++ [(c, l)])
  = pre ++ [(c, l ++ map strip vs)].
Proof.
  intros d c pre vs. induction vs as [|v vs IH]; intros l N I M P K; cbn [fold_left map]; [rewrite app_nil_r; reflexivity|].
  rewrite rows_more; auto.
  - rewrite IH; auto.
    + rewrite <- app_assoc. reflexivity.
    + intros x X. apply I. right; exact X.
    + intros x X. apply M. right; exact X.
    + replace (map v_key ((l ++ [strip v]) ++ vs)) with (map v_key (l ++ v :: vs)) by (rewrite <- app_assoc, !map_app; reflexivity).
      exact K.
  - apply I. left; reflexivity.
  - apply M. left; reflexivity.
  - apply M. left; reflexivity.
  - intros w W E. rewrite map_app in K. cbn [map] in K. apply NoDup_remove_2 in K. apply K, in_or_app. left.
    rewrite <- E. apply in_map, W.
Qed.
Lemma vars_all : forall d c pre vs, vs <> [] -> NoDup (map v_id (d_vars d)) -> incl vs (d_vars d) ->
  (forall v, In v vs -> NoDup (mkeys v) /\ v_attrs v <> []) ->
  (forall e, In e pre -> snd (fst e) <> snd c) -> NoDup (map v_key vs) ->
  fold_left (fun acc v => fold_left (fun acc a => add_row d acc c v a) (v_attrs v) acc) vs pre = pre ++ [(c, map strip vs)].
Proof.
  intros d c pre [|v vs] V N I M P K; [congruence|]. cbn [fold_left map].
  rewrite rows_first; auto.
  - rewrite (vars_more d c pre vs [strip v]); auto.
    + intros x X. apply I. right; exact X.
    + intros x X. apply M. right; exact X.
  - apply I. left; reflexivity.
  - apply M. left; reflexivity.
  - apply M. left; reflexivity.
Qed.
Lemma mine_keys : forall cid l, NoDup (map (fun v => (v_cid v, v_key v)) l) -> NoDup (map v_key (mine cid l)).
Proof.
  intros cid l. induction l as [|v l IH]; cbn [mine filter map]; intros N; [constructor|]. inversion N as [|? ? NI N']; subst.
  destruct (v_cid v =? cid) eqn:E; [|apply IH, N']. cbn [map]. constructor; [|apply IH, N'].
  intros K. apply NI. apply in_map_iff in K. destruct K as (w & E1 & W). apply filter_In in W. destruct W as [W1 W2].
  apply in_map_iff. exists w. split; [f_equal; [lia | exact E1] | exact W1].
Qed.
Lemma read_all_good : forall d, good d -> read_all d = Some (as_read d).
Proof.
  intros d G. unfold read_all.
  assert (F : forallb (fun v => forallb (fun a => value_fits (a_value a)) (v_attrs v)) (d_vars d) = true).
  { apply forallb_forall. intros v V. apply forallb_forall. intros a A. pose proof (gr_short _ (g_rows _ G v V) a A) as S.
    unfold value_fits, short in *. destruct (a_value a); [apply Z.leb_le, S | reflexivity]. }
  rewrite F. f_equal.
  assert (K : forall cs pre, NoDup (map snd pre ++ map snd cs) -> incl cs (d_comps d) ->
    fold_left (fun acc c =>
      fold_left (fun acc v => fold_left (fun acc a => add_row d acc c v a) (v_attrs v) acc)
                (filter (fun v => v_cid v =? fst c) (d_vars d)) acc) cs
      (map (fun c => (c, map strip (mine (fst c) (d_vars d)))) pre)
    = map (fun c => (c, map strip (mine (fst c) (d_vars d)))) (pre ++ cs)).
  { induction cs as [|c cs IH]; intros pre N I; cbn [fold_left]; [rewrite app_nil_r; reflexivity|].
    rewrite vars_all.
    - change [(c, map strip (filter (fun v => v_cid v =? fst c) (d_vars d)))]
        with (map (fun c => (c, map strip (mine (fst c) (d_vars d)))) [c]).
      rewrite <- map_app, IH.
      + rewrite <- app_assoc. reflexivity.
      + rewrite map_app. cbn [map] in *. rewrite <- app_assoc. exact N.
      + intros x X. apply I. right; exact X.
    - destruct (g_full _ G c (I c (or_introl eq_refl))) as (v & V1 & V2). intros Q.
      assert (X : In v (filter (fun v => v_cid v =? fst c) (d_vars d))) by (apply filter_In; split; [exact V1 | lia]).
      rewrite Q in X. destruct X.
    - exact (id_v _ _ _ _ (g_ids _ G)).
    - intros x X. apply filter_In in X. apply X.
    - intros v V. apply filter_In in V. split; [apply (id_nm _ _ _ _ (g_ids _ G)), V | apply gr_some, (g_rows _ G), V].
    - intros e E. apply in_map_iff in E. destruct E as (x & <- & X). cbn [fst]. intros Q.
      cbn [map] in N. apply NoDup_remove_2 in N. apply N, in_or_app. left. rewrite <- Q. apply in_map, X.
    - apply (mine_keys (fst c)), (g_vkeys _ G). }
  apply (K (d_comps d) []); [exact (g_ckeys _ G) | apply incl_refl].
Qed.
