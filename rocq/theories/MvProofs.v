(** Filters, averages and clock alignment. *)
From Coq Require Import String ZArith QArith List Bool Lia Permutation Sorted.
From Verif Require Import MvModel MvSpec.
Import ListNotations.
Local Open Scope Z_scope.

Lemma oeqb_spec : forall a b, oeqb a b = true <-> a = b.
Proof.
  intros [x|] [y|]; cbn; try (split; congruence). rewrite Z.eqb_eq. split; [congruence|]. intros E. injection E as ->. reflexivity.
Qed.
Lemma existsb_in : forall x l, existsb (Z.eqb x) l = if in_dec Z.eq_dec x l then true else false.
Proof.
  intros x l. destruct (in_dec Z.eq_dec x l) as [I|N].
  - apply existsb_exists. exists x. split; [exact I|apply Z.eqb_refl].
  - apply not_true_is_false. intros E. apply existsb_exists in E. destruct E as (y&I&E). apply Z.eqb_eq in E. subst y. exact (N I).
Qed.

(** ** Filters *)
Lemma stripped_true : forall s, stripped true s = s.
Proof. intros []. reflexivity. Qed.
Lemma stripped_if : forall (k : bool) s, (if k then s else unsigned s) = stripped k s.
Proof. intros [|] s; [symmetry; apply stripped_true|reflexivity]. Qed.
Lemma applied_filtered : forall l ms k, applied l ms k = filtered ms k l.
Proof.
  intros l ms k. induction l as [|s q IH]; [reflexivity|]. cbn [applied]. unfold filtered, wanted in *. cbn [filter].
  destruct (s_measurand s) as [x|]; [|exact IH]. rewrite existsb_in. destruct (in_dec Z.eq_dec x ms); [|exact IH].
  cbn [map]. rewrite IH, stripped_if. reflexivity.
Qed.
Lemma has_any_filtered : forall m ms k, has_any m ms = true <-> filtered ms k (m_samples m) <> [].
Proof.
  intros m ms k. unfold has_any, filtered. split.
  - intros E. apply existsb_exists in E. destruct E as (s&I&E). apply existsb_exists in E. destruct E as (x&J&E). apply oeqb_spec in E.
    intros N. apply map_eq_nil in N. assert (X : In s (filter (wanted ms) (m_samples m))).
    { apply filter_In. split; [exact I|]. unfold wanted. rewrite E. destruct (in_dec Z.eq_dec x ms); [reflexivity|contradiction]. }
    rewrite N in X. exact X.
  - intros N. destruct (filter (wanted ms) (m_samples m)) as [|s q] eqn:E; [elim N; reflexivity|].
    assert (X : In s (filter (wanted ms) (m_samples m))) by (rewrite E; left; reflexivity). apply filter_In in X. destruct X as [I W].
    unfold wanted in W. destruct (s_measurand s) as [x|] eqn:M; [|discriminate W]. destruct (in_dec Z.eq_dec x ms) as [J|]; [|discriminate W].
    apply existsb_exists. exists s. split; [exact I|]. apply existsb_exists. exists x. split; [exact J|]. apply oeqb_spec. exact M.
Qed.
Lemma select_one_yes : forall m ms k, filtered ms k (m_samples m) <> [] ->
  select_one m ms k = [MV (filtered ms k (m_samples m)) (m_time m) (m_custom m)].
Proof.
  intros m ms k N. unfold select_one. rewrite (proj2 (has_any_filtered m ms k) N). unfold measurands_applied, with_samples.
  rewrite applied_filtered. reflexivity.
Qed.
Lemma select_one_no : forall m ms k, filtered ms k (m_samples m) = [] -> select_one m ms k = [].
Proof.
  intros m ms k N. unfold select_one. destruct (has_any m ms) eqn:E; [|reflexivity]. apply (has_any_filtered m ms k) in E. contradiction.
Qed.
Lemma sampled_contextb : forall c,
  (c =? Transaction_Begin) || (c =? Interruption_Begin) || (c =? Transaction_End) || (c =? Interruption_End) || (c =? Sample_Periodic) = true <-> sampled_context c.
Proof. intros c. unfold sampled_context. rewrite !orb_true_iff, !Z.eqb_eq. cbn [In]. intuition congruence. Qed.
Lemma nil_dec : forall A (l : list A), l = [] \/ l <> [].
Proof. intros A [|x l]; [left; reflexivity|right; discriminate]. Qed.
Lemma all_applied_spec : forall l sampled aligned t ss sa, all_selected sampled aligned t ss sa l (all_applied l sampled aligned t ss sa).
Proof.
  intros l sampled aligned t ss sa. induction l as [|m q IH]; [constructor|]. cbn [all_applied].
  set (r := all_applied q sampled aligned t ss sa) in *. destruct (m_samples m) as [|s l] eqn:S.
  { apply (AllCons _ _ _ _ _ m q []); [|exact IH]. apply SelNot. left. exact S. }
  destruct (t <? m_time m) eqn:T.
  { apply (AllCons _ _ _ _ _ m q []); [|exact IH]. apply SelNot. right. left. lia. }
  destruct (s_context s) as [c|] eqn:C.
  2:{ apply (AllCons _ _ _ _ _ m q []); [|exact IH]. apply SelNot. right. right. exists s, l. split; [exact S|]. left. exact C. }
  destruct (_ || (c =? Sample_Periodic)) eqn:K.
  - apply sampled_contextb in K. apply AllCons; [|exact IH]. destruct (nil_dec _ (filtered sampled ss (m_samples m))) as [N|N].
    + rewrite select_one_no by exact N. apply SelNot. right. right. exists s, l. split; [exact S|]. right. right. left. exists c. auto.
    + rewrite select_one_yes by exact N. apply (SelSampled _ _ _ _ _ m s l c); auto. lia.
  - assert (NK : ~ sampled_context c) by (intros X; apply sampled_contextb in X; congruence).
    destruct (c =? Sample_Clock) eqn:K2.
    + apply Z.eqb_eq in K2. subst c. apply AllCons; [|exact IH]. destruct (nil_dec _ (filtered aligned sa (m_samples m))) as [N|N].
      * rewrite select_one_no by exact N. apply SelNot. right. right. exists s, l. split; [exact S|]. right. right. right. auto.
      * rewrite select_one_yes by exact N. apply (SelAligned _ _ _ _ _ m s l); auto. lia.
    + apply (AllCons _ _ _ _ _ m q []); [|exact IH]. apply SelNot. right. right. exists s, l. split; [exact S|]. right. left. exists c.
      apply Z.eqb_neq in K2. auto.
Qed.
(** The specification leaves no choice. *)
Lemma selected_unique : forall a b t ss sa m x y, selected a b t ss sa m x -> selected a b t ss sa m y -> x = y.
Proof.
  intros a b t ss sa m x y X Y.
  assert (NC : ~ sampled_context Sample_Clock) by (unfold sampled_context; cbn; intuition discriminate).
  destruct X as [s q c S C K T N|s q S C T N|[S|[T|(s&q&S&H)]]]; destruct Y as [s' q' c' S' C' K' T' N'|s' q' S' C' T' N'|[S'|[T'|(s'&q'&S'&H')]]];
    try reflexivity; try congruence; try lia.
  all: repeat match goal with
       | H : ?a = ?b :: _, H' : ?a = ?c :: _ |- _ => assert (b = c) by congruence; subst; clear H'
       end.
  all: try (exfalso; repeat match goal with H : _ \/ _ |- _ => destruct H | H : exists _, _ |- _ => destruct H | H : _ /\ _ |- _ => destruct H end; try congruence).
  all: try (match goal with H : sampled_context ?c, E : s_context ?s = Some ?c, E' : s_context ?s = Some Sample_Clock |- _ => assert (c = Sample_Clock) by congruence; subst; contradiction end).
  all: try (match goal with E : s_context ?s = Some ?c, E' : s_context ?s = Some ?d |- _ => assert (c = d) by congruence; subst; contradiction end).
Qed.

(** ** Averages *)
Lemma keqb_spec : forall a b, keqb a b = true <-> a = b.
Proof.
  intros [[m p] l] [[m' p'] l']. unfold keqb. rewrite !andb_true_iff, Z.eqb_eq, !oeqb_spec. split; [intros [[-> ->] ->]; reflexivity|].
  intros E. injection E as -> -> ->. auto.
Qed.
Lemma keqb_refl : forall a, keqb a a = true.
Proof. intros a. apply keqb_spec. reflexivity. Qed.
Lemma avg_meas : forall s, is_avg_meas s = true <-> averaged s.
Proof.
  intros s. unfold is_avg_meas, averaged. destruct (s_measurand s) as [m|].
  - rewrite !orb_true_iff, !Z.eqb_eq. split.
    + intros H. exists m. split; [reflexivity|]. cbn [In]. intuition congruence.
    + intros (x&E&I). injection E as ->. cbn [In] in I. intuition congruence.
  - split; [discriminate|]. intros (x&E&_). discriminate E.
Qed.
Definition key_of (s : sample) : option key := match s_measurand s with Some m => Some (m, s_phase s, s_location s) | None => None end.
(** The values with a key. *)
Fixpoint with_key (k : key) (l : list sample) : list Q :=
  match l with
  | [] => []
  | s :: q => match key_of s with Some k' => if keqb k k' && is_avg_meas s then s_value s :: with_key k q else with_key k q | None => with_key k q end
  end.
Lemma with_key_app : forall k a b, with_key k (a ++ b) = with_key k a ++ with_key k b.
Proof.
  intros k a b. induction a as [|s q IH]; [reflexivity|]. cbn [app with_key]. destruct (key_of s); [|exact IH].
  destruct (keqb k k0 && is_avg_meas s); [cbn [app]; rewrite IH; reflexivity|exact IH].
Qed.
Lemma sum_app : forall a b, (sum (a ++ b) == sum a + sum b)%Q.
Proof.
  intros a b. induction a as [|x a IH]; [unfold sum at 2; cbn [app fold_right]; ring|]. cbn [app]. change (sum (x :: a ++ b)) with (x + sum (a ++ b))%Q.
  change (sum (x :: a)) with (x + sum a)%Q. rewrite IH. ring.
Qed.
(** What the map holds after the samples [l]. *)
Definition holds (sums : list (key * (Q * Z))) (l : list sample) : Prop :=
  forall k, match lookup k sums with
            | Some (s, n) => (s == sum (with_key k l))%Q /\ n = Z.of_nat (length (with_key k l)) /\ with_key k l <> []
            | None => with_key k l = []
            end.
Lemma add_to_lookup : forall k v l k', lookup k' (add_to k v l) =
  if keqb k' k then Some (match lookup k l with Some (s, n) => ((s + v)%Q, n + 1) | None => ((0 + v)%Q, 0 + 1) end) else lookup k' l.
Proof.
  intros k v l k'. induction l as [|[k0 [s n]] q IH]; cbn [add_to lookup].
  - destruct (keqb k' k); reflexivity.
  - destruct (keqb k k0) eqn:E.
    + apply keqb_spec in E. subst k0. cbn [lookup]. destruct (keqb k' k); reflexivity.
    + cbn [lookup]. rewrite IH. destruct (keqb k' k0) eqn:E0; [|reflexivity]. destruct (keqb k' k) eqn:E1; [|reflexivity].
      apply keqb_spec in E0. apply keqb_spec in E1. subst. rewrite keqb_refl in E. discriminate E.
Qed.
Lemma add_sample_holds : forall sums l s, holds sums l -> holds (add_sample sums s) (l ++ [s]).
Proof.
  intros sums l s H k. unfold add_sample. rewrite with_key_app. cbn [with_key]. unfold key_of.
  destruct (is_avg_meas s) eqn:A.
  2:{ destruct (s_measurand s); [rewrite andb_false_r|]; rewrite app_nil_r; exact (H k). }
  destruct (s_measurand s) as [m|] eqn:M.
  2:{ rewrite app_nil_r. exact (H k). }
  rewrite add_to_lookup. rewrite andb_true_r. specialize (H k). destruct (keqb k (m, s_phase s, s_location s)) eqn:E.
  - apply keqb_spec in E. subst k. destruct (lookup (m, s_phase s, s_location s) sums) as [[x n]|].
    + destruct H as (H1&H2&H3). split; [|split].
      * rewrite sum_app, H1. cbn [sum fold_right]. ring.
      * rewrite app_length. cbn [length]. lia.
      * intros X. apply app_eq_nil in X. destruct X as [_ X]. discriminate X.
    + rewrite H. cbn [app sum fold_right length]. split; [ring|]. split; [reflexivity|discriminate].
  - rewrite app_nil_r. exact H.
Qed.
Lemma fold_holds : forall l sums h, holds sums h -> holds (fold_left add_sample l sums) (h ++ l).
Proof.
  induction l as [|s q IH]; intros sums h H; cbn [fold_left]; [rewrite app_nil_r; exact H|].
  replace (h ++ s :: q) with ((h ++ [s]) ++ q) by (rewrite <- app_assoc; reflexivity). apply IH. apply add_sample_holds. exact H.
Qed.
Lemma alike_key : forall s x k, key_of s = Some k -> is_avg_meas s = true ->
  (alike s x <-> match key_of x with Some k' => keqb k k' && is_avg_meas x = true | None => False end).
Proof.
  intros s x k K A. unfold key_of in *. destruct (s_measurand s) as [m|] eqn:M; [|discriminate K]. injection K as <-. unfold alike. rewrite M.
  destruct (s_measurand x) as [m'|] eqn:M'.
  - rewrite andb_true_iff, keqb_spec. split.
    + intros (E1&E2&E3). injection E1 as ->. split; [congruence|]. apply avg_meas in A. destruct A as (y&Y&I). apply avg_meas. exists m'. split; [exact M'|]. congruence.
    + intros [E _]. split; [congruence|]. split; congruence.
  - split; [intros (E&_); discriminate E|contradiction].
Qed.
Lemma with_key_alike : forall s k l, key_of s = Some k -> is_avg_meas s = true -> values_alike s l (with_key k l).
Proof.
  intros s k l K A. induction l as [|x q IH]; [constructor|]. cbn [with_key]. pose proof (alike_key s x k K A) as X.
  destruct (key_of x) as [k'|].
  - destruct (keqb k k' && is_avg_meas x).
    + apply ValYes; [apply X; reflexivity|exact IH].
    + apply ValNo; [intros Y; apply X in Y; discriminate Y|exact IH].
  - apply ValNo; [intros Y; apply X in Y; exact Y|exact IH].
Qed.
(** The averages after the values [h] since the last clearing. *)
Definition since0 (h : list mvalue) (a : avg) : Prop :=
  (match h with [] => m_samples (a_last a) = [] | _ => a_last a = last h (MV [] 0 None) end) /\
  holds (a_sums a) (all_samples h).
(** They may have been computed before. *)
Definition since (h : list mvalue) (a : avg) : Prop := exists a0, since0 h a0 /\ (a = a0 \/ a = retrieve a0).
Lemma since_nil : forall a, since [] (clear_values a).
Proof. intros a. exists (clear_values a). split; [|left; reflexivity]. split; [reflexivity|]. intros k. reflexivity. Qed.
Lemma since_set : forall h a m, since h a -> since (h ++ [m]) (set_values m a).
Proof.
  intros h a m (a0&[_ H]&A). exists (set_values m a0). split; [|left; destruct A as [-> | ->]; reflexivity]. split.
  - destruct (h ++ [m]) eqn:E; [destruct h; discriminate E|]. rewrite <- E, last_last. reflexivity.
  - unfold all_samples in *. rewrite flat_map_app. cbn [flat_map]. rewrite app_nil_r. apply fold_holds. exact H.
Qed.
Lemma average_twice : forall l s, average_sample l (average_sample l s) = average_sample l s.
Proof.
  intros l s. unfold average_sample at 2 3. destruct (is_avg_meas s) eqn:A.
  - destruct (s_measurand s) as [m|] eqn:M; [|unfold average_sample; rewrite A, M; reflexivity].
    destruct (lookup (m, s_phase s, s_location s) l) as [[x n]|] eqn:L; [|unfold average_sample; rewrite A, M, L; reflexivity].
    unfold average_sample. assert (A' : is_avg_meas (with_value (x / inject_Z n) s) = true) by exact A. rewrite A'.
    cbn [s_measurand s_phase s_location with_value]. rewrite M, L. reflexivity.
  - unfold average_sample. rewrite A. reflexivity.
Qed.
Lemma retrieve_twice : forall a, retrieve (retrieve a) = retrieve a.
Proof.
  intros a. unfold retrieve at 1. cbn [a_last a_sums retrieve]. unfold retrieve, with_samples. cbn [a_last a_sums m_samples m_time m_custom]. f_equal. f_equal.
  rewrite map_map. apply map_ext. intros s. apply average_twice.
Qed.
Lemma since_retrieve : forall h a, since h a -> since h (retrieve a).
Proof. intros h a (a0&S&[-> | ->]); exists a0; (split; [exact S|]); right; [reflexivity|apply retrieve_twice]. Qed.
Lemma average_one : forall h sums s, holds sums (all_samples h) -> In s (all_samples h) -> averaged_over h s (average_sample sums s).
Proof.
  intros h sums s H I. unfold average_sample, averaged_over. destruct (is_avg_meas s) eqn:A.
  2:{ split; [destruct s; reflexivity|]. split; [|reflexivity]. intros X. apply avg_meas in X. congruence. }
  pose proof A as AV. apply avg_meas in AV. destruct (s_measurand s) as [m|] eqn:M; [|destruct AV as (x&E&_); congruence].
  assert (K : key_of s = Some (m, s_phase s, s_location s)) by (unfold key_of; rewrite M; reflexivity).
  specialize (H (m, s_phase s, s_location s)). pose proof (with_key_alike s _ (all_samples h) K A) as V.
  destruct (lookup (m, s_phase s, s_location s) sums) as [[x n]|].
  - destruct H as (H1&H2&H3). split; [unfold with_value; rewrite ?M; reflexivity|]. split; [|intros N; elim N; exact AV].
    intros _. exists (with_key (m, s_phase s, s_location s) (all_samples h)). split; [exact V|]. cbn [s_value with_value]. unfold mean. rewrite H1, H2. reflexivity.
  - exfalso. assert (X : forall l, In s l -> with_key (m, s_phase s, s_location s) l <> []).
    { induction l as [|y q IH]; [intros []|]. intros [->|J]; cbn [with_key].
      - rewrite K, keqb_refl, A. discriminate.
      - destruct (key_of y) as [k'|]; [|exact (IH J)]. destruct (keqb _ k' && is_avg_meas y); [discriminate|exact (IH J)]. }
    exact (X _ I H).
Qed.
Lemma retrieve_report : forall h a, since h a -> report h (m_samples (a_last (retrieve a))).
Proof.
  intros h a1 (a&[L H]&A). replace (retrieve a1) with (retrieve a) by (destruct A as [-> | ->]; [reflexivity|symmetry; apply retrieve_twice]).
  unfold retrieve. cbn [a_last m_samples with_samples]. destruct h as [|h0 h].
  - cbn [report]. rewrite L. reflexivity.
  - unfold report. rewrite L. set (hh := h0 :: h) in *. 
    assert (I : forall s, In s (m_samples (last hh (MV [] 0 None))) -> In s (all_samples hh)).
    { intros s J. unfold all_samples. apply in_flat_map. exists (last hh (MV [] 0 None)). split; [|exact J].
      destruct (exists_last (l := hh) ltac:(discriminate)) as (p&x&E). rewrite E, last_last. apply in_app_iff. right. left. reflexivity. }
    revert I. generalize (m_samples (last hh (MV [] 0 None))) as l. induction l as [|s q IH]; intros I; cbn [map]; constructor.
    + apply average_one; [exact H|]. apply I. left. reflexivity.
    + apply IH. intros x J. apply I. right. exact J.
Qed.
Lemma retrieve_meta : forall a, m_time (a_last (retrieve a)) = m_time (a_last a) /\ m_custom (a_last (retrieve a)) = m_custom (a_last a).
Proof. intros a. split; reflexivity. Qed.

(** ** Clock alignment *)
Lemma midnight_div : forall t m, midnight t m -> m = t / (day * second) * (day * second).
Proof. intros t m [B (k&->)]. unfold day, second in *. f_equal. Z.to_euclidean_division_equations; lia. Qed.
Lemma align_ok : forall t m i, midnight t m -> 0 < i ->
  align_timestamp t i = Some (m + (((t - m) / second + i / 2) / i * i) * second).
Proof.
  intros t m i M I. unfold align_timestamp. replace (i <? 0) with false by lia. replace (i =? 0) with false by lia.
  rewrite <- (midnight_div t m M). destruct M as [B _]. cbv zeta. do 2 f_equal.
  assert (S0 : 0 < second) by (unfold second; lia).
  rewrite (Z.quot_div_nonneg i 2), (Z.quot_div_nonneg (t - m) second) by lia.
  rewrite Z.quot_div_nonneg; [reflexivity| |lia]. apply Z.add_nonneg_nonneg; apply Z.div_pos; lia.
Qed.
Lemma midnight_exists : forall t, exists m, midnight t m.
Proof.
  intros t. exists (t / (day * second) * (day * second)). split; [|exists (t / (day * second)); reflexivity].
  unfold day, second. Z.to_euclidean_division_equations; lia.
Qed.
(** Within the second: the result is the point of the grid nearest to the second the time lies in. *)
Lemma align_seconds : forall t m i r, midnight t m -> 0 < i -> align_timestamp t i = Some r ->
  exists k, r = m + k * (i * second) /\ 0 <= k /\
    let s := (t - m) / second in s - i / 2 - (i mod 2) < k * i <= s + i / 2 /\ i / 2 + s - i < k * i.
Proof.
  intros t m i r M I E. rewrite (align_ok t m i M I) in E. injection E as <-. destruct M as [B _].
  assert (S0 : 0 < second) by (unfold second; lia).
  set (s := (t - m) / second). assert (P : 0 <= s) by (apply Z.div_pos; lia).
  exists ((s + i / 2) / i). split; [ring|]. cbv zeta.
  pose proof (Z.div_pos (s + i / 2) i ltac:(pose proof (Z.div_pos i 2 ltac:(lia) ltac:(lia)); lia) I) as Q. split; [exact Q|].
  pose proof (Z.div_mod (s + i / 2) i ltac:(lia)) as D. pose proof (Z.mod_pos_bound (s + i / 2) i I) as D2.
  pose proof (Z.div_mod i 2 ltac:(lia)) as D3. pose proof (Z.mod_pos_bound i 2 ltac:(lia)) as D4. nia.
Qed.
(** Nearest in nanoseconds for even intervals, or for whole seconds; ties go up. *)
Lemma align_nearest : forall t m i r, midnight t m -> 0 < i -> (i mod 2 = 0 \/ (t - m) mod second = 0) -> align_timestamp t i = Some r ->
  on_grid m i r /\ m <= r /\ forall g, on_grid m i g -> Z.abs (t - r) < Z.abs (t - g) \/ (Z.abs (t - r) = Z.abs (t - g) /\ g <= r).
Proof.
  intros t m i r M I H E. destruct (align_seconds t m i r M I E) as (k&->&K&B). cbv zeta in B.
  split; [exists k; reflexivity|]. assert (S0 : second = 1000000000) by reflexivity. split; [nia|]. intros g (k'&->).
  pose proof (Z.div_mod (t - m) second ltac:(lia)) as D. pose proof (Z.mod_pos_bound (t - m) second ltac:(lia)) as D2.
  pose proof (Z.div_mod i 2 ltac:(lia)) as D3. pose proof (Z.mod_pos_bound i 2 ltac:(lia)) as D4.
  set (s := (t - m) / second) in *. set (f := (t - m) mod second) in *. set (hf := i / 2) in *.
  assert (T : t = m + s * second + f) by lia.
  assert (UP : 2 * (k * i * second) <= 2 * (s * second + f) + i * second) by (destruct H as [H|H]; nia).
  assert (LO : 2 * (s * second + f) < 2 * (k * i * second) + i * second) by (destruct H as [H|H]; nia).
  destruct (Z.lt_trichotomy k' k) as [L|[->|L]].
  - assert ((k' + 1) * (i * second) <= k * (i * second)) by nia. 
    assert (X : Z.abs (t - (m + k * (i * second))) <= Z.abs (t - (m + k' * (i * second)))) by lia. lia.
  - right. lia.
  - assert ((k + 1) * (i * second) <= k' * (i * second)) by nia. left. lia.
Qed.
(** In any case less than a second worse than the nearest point. *)
Lemma align_close : forall t m i r, midnight t m -> 0 < i -> align_timestamp t i = Some r ->
  on_grid m i r /\ 2 * Z.abs (t - r) < i * second + second.
Proof.
  intros t m i r M I E. destruct (align_seconds t m i r M I E) as (k&->&K&B). cbv zeta in B.
  split; [exists k; reflexivity|]. assert (S0 : second = 1000000000) by reflexivity.
  pose proof (Z.div_mod (t - m) second ltac:(lia)) as D. pose proof (Z.mod_pos_bound (t - m) second ltac:(lia)) as D2.
  pose proof (Z.div_mod i 2 ltac:(lia)) as D3. pose proof (Z.mod_pos_bound i 2 ltac:(lia)) as D4.
  set (s := (t - m) / second) in *. set (f := (t - m) mod second) in *. set (hf := i / 2) in *.
  assert (T : t = m + s * second + f) by lia.
  assert (UP : 2 * (k * i * second) <= 2 * (s * second) + i * second) by nia.
  assert (LO : 2 * (s * second) + second <= 2 * (k * i * second) + i * second) by nia.
  lia.
Qed.
Lemma align_total : forall t i, 0 < i -> exists r, align_timestamp t i = Some r.
Proof. intros t i I. destruct (midnight_exists t) as (m&M). rewrite (align_ok t m i M I). eauto. Qed.
(** ** Timer *)
Lemma next_grid : forall start interval now, 0 < interval -> start < now ->
  on_grid start interval (next_timepoint start interval now) /\ now < next_timepoint start interval now <= now + interval * second.
Proof.
  intros start interval now I N. unfold next_timepoint. replace (0 <? now - start) with true by lia.
  assert (S0 : second = 1000000000) by reflexivity.
  rewrite (Z.quot_div_nonneg (now - start) second) by lia. set (s := (now - start) / second).
  pose proof (Z.div_mod (now - start) second ltac:(lia)) as D. pose proof (Z.mod_pos_bound (now - start) second ltac:(lia)) as D2. fold s in D.
  assert (P : 0 <= s) by (apply Z.div_pos; lia).
  rewrite (Z.quot_div_nonneg s interval) by lia. pose proof (Z.div_mod s interval ltac:(lia)) as D3. pose proof (Z.mod_pos_bound s interval ltac:(lia)) as D4.
  split; [exists (s / interval + 1); ring|]. set (q := s / interval) in *. nia.
Qed.
Lemma next_first : forall start interval now, 0 < interval -> start < now ->
  forall g, on_grid start interval g -> now < g -> next_timepoint start interval now <= g.
Proof.
  intros start interval now I N g (k&->) G. destruct (next_grid start interval now I N) as [(k'&E) [L U]]. rewrite E in *.
  assert (S0 : second = 1000000000) by reflexivity. assert (k' - 1 < k) by nia. nia.
Qed.
Lemma next_before : forall start interval now, now <= start -> next_timepoint start interval now = start.
Proof. intros start interval now N. unfold next_timepoint. replace (0 <? now - start) with false by lia. reflexivity. Qed.
