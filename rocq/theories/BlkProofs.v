(** Proofs for customer information, monitoring reports, display messages and costs. *)
From Coq Require Import String Ascii ZArith QArith List Bool Lia.
From Verif Require Import StrModel StrSpec StrProperties BlkModel BlkSpec.
Import ListNotations.
Local Open Scope string_scope.
Local Open Scope list_scope.
Local Open Scope Z_scope.

(** *** Strings *)
Fixpoint droplen (n : nat) (s : string) : string := match n, s with O, _ => s | S n, "" => "" | S n, String _ s => droplen n s end%string.
Lemma substring_drop p n s : substring p n s = substring 0 n (droplen p s).
Proof. revert s. induction p as [ | p IH ]; intros s; [ now destruct s | ]. destruct s as [ | a s ]; [ now destruct n | ]. cbn [substring droplen]. apply IH. Qed.
Lemma droplen_length p s : String.length (droplen p s) = (String.length s - p)%nat.
Proof. revert s. induction p as [ | p IH ]; intros s; [ cbn; lia | ]. destruct s; cbn; auto. Qed.
Lemma droplen_add a b s : droplen (a + b) s = droplen b (droplen a s).
Proof. revert s. induction a as [ | a IH ]; intros s; auto. destruct s; cbn. - destruct b; reflexivity. - apply IH. Qed.
Lemma substring0_length n s : String.length (substring 0 n s) = Nat.min n (String.length s).
Proof. revert s. induction n as [ | n IH ]; intros s; [ now destruct s | ]. destruct s; cbn; auto. Qed.
Lemma substring0_all n s : (String.length s <= n)%nat -> substring 0 n s = s.
Proof. revert s. induction n as [ | n IH ]; intros s L; destruct s; cbn in *; auto; [ lia | ]. rewrite IH; auto. lia. Qed.
Lemma substring0_app n s : (substring 0 n s ++ droplen n s)%string = s.
Proof. revert s. induction n as [ | n IH ]; intros s; [ now destruct s | ]. destruct s; cbn; auto. now rewrite IH. Qed.

(** *** Customer information *)
Lemma info_loop_split f data id pos n : (String.length data < pos + f)%nat -> (pos < String.length data \/ (pos = 0 /\ data = ""))%nat ->
  split_from id n (droplen pos data) (info_loop f data id pos n).
Proof.
  revert pos n. induction f as [ | f IH ]; intros pos n F P. { exfalso. destruct P as [ P | (P & ->)]; cbn in *; lia. }
  cbn [info_loop]. replace (Nat.ltb pos (String.length data) || (Nat.eqb pos 0 && String.eqb data "")) with true.
  2: { destruct P as [ P | ( -> & -> )]; [ | reflexivity ]. apply Nat.ltb_lt in P. now rewrite P. }
  assert (C : 512%nat = chunk) by reflexivity. rewrite substring_drop. destruct (Nat.ltb chunk (String.length data - pos)) eqn:L.
  - apply Nat.ltb_lt in L. rewrite <- (substring0_app chunk (droplen pos data)) at 1. apply split_more.
    + rewrite C, substring0_length, droplen_length. lia.
    + intros E. apply (f_equal String.length) in E. rewrite !droplen_length in E. cbn in E. lia.
    + rewrite <- droplen_add. apply IH; [ | left ]; lia.
  - apply Nat.ltb_ge in L. rewrite substring0_all by (rewrite droplen_length; lia).
    replace (info_loop f data id (pos + chunk) (n + 1)) with (@nil info_out).
    { apply split_last. rewrite C, droplen_length. lia. }
    destruct f as [ | f ]; auto. cbn [info_loop]. replace (Nat.ltb (pos + chunk) (String.length data)) with false by (symmetry; apply Nat.ltb_ge; lia).
    replace (Nat.eqb (pos + chunk) 0) with false by (symmetry; apply Nat.eqb_neq; assert (0 < chunk)%nat by (unfold chunk; apply Nat.lt_0_succ); lia). reflexivity.
Qed.
Lemma notify_info_split data id : split_from id 0 data (notify_info data id).
Proof. unfold notify_info. apply (info_loop_split (S (String.length data)) data id 0 0); [ lia | ]. destruct data; [ right; auto | left; cbn; lia ]. Qed.
Lemma split_unique id n s l l' : split_from id n s l -> split_from id n s l' -> l = l'.
Proof.
  intros H. revert l'. induction H as [ n s L | n a b l A B S IH ]; intros l' H'.
  - inversion H' as [ x y L' | x a b l2 A B S ]; subst; auto. exfalso. revert L. clear -A B. intros L. assert (E : forall x y : string, String.length (x ++ y)%string = (String.length x + String.length y)%nat) by (induction x; intros; cbn; auto). rewrite E, A in L. destruct b; [ congruence | cbn in L; lia ].
  - assert (E : forall x y : string, String.length (x ++ y)%string = (String.length x + String.length y)%nat) by (induction x; intros; cbn; auto).
    inversion H' as [ x y L' X1 X2 | x a' b' l2 A' B' S' X1 X2 ]; subst. { exfalso. rewrite E, A in L'. destruct b; [ congruence | cbn in L'; lia ]. }
    assert (G : forall x y u v : string, String.length x = String.length u -> (x ++ y)%string = (u ++ v)%string -> x = u /\ y = v).
    { induction x as [ | c x IHx ]; intros y u v; destruct u; cbn; intros E1 E2; try discriminate; auto. inversion E2; subst. destruct (IHx y u v) as [ -> -> ]; auto; congruence. }
    destruct (G a' b' a b) as [ -> -> ]; auto; [ congruence | ]. now rewrite (IH l2 S').
Qed.
Lemma split_texts id n s l : split_from id n s l -> texts l = s.
Proof.
  induction 1 as [ n s L | n a b l A B S IH ]; cbn [texts fold_right]. - clear. induction s; cbn; congruence. - fold (texts l). now rewrite IH.
Qed.
Lemma lookup_cached t c : match lookup t c with Some x => cached t c x | None => forall x, ~ In (t, x) c end.
Proof.
  unfold lookup. induction c as [ | [k v] c IH ]; cbn; auto. destruct (String.eqb k t) eqn:E; cbn.
  - apply String.eqb_eq in E. subst. exists [], c. split; auto.
  - apply String.eqb_neq in E. destruct (find _ c) as [ [k' v'] | ]; cbn in *.
    + destruct IH as (c1 & c2 & -> & N). exists ((k, v) :: c1), c2. split; auto. intros x [ H | H ]; [ congruence | now apply (N x) ].
    + intros x [ H | H ]; [ congruence | now apply (IH x) ].
Qed.
Lemma cached_lookup t c x : cached t c x -> lookup t c = Some x.
Proof.
  intros (c1 & c2 & -> & N). unfold lookup. induction c1 as [ | [k v] c1 IH ]; cbn. - now rewrite String.eqb_refl.
  - destruct (String.eqb k t) eqn:E. + apply String.eqb_eq in E. subst. exfalso. apply (N v). now left. + apply IH. intros y I. apply (N y). now right.
Qed.
Lemma crop_shortened m s : 0 <= m -> shortened m s (crop m s).
Proof.
  intros M. unfold crop, shortened. destruct (m <? 0) eqn:Z0; [ apply Z.ltb_lt in Z0; lia | ]. destruct (m <? Z.of_nat (String.length s)) eqn:L.
  - apply Z.ltb_lt in L. right. split; auto. split. + rewrite substring0_length. lia. + exists (droplen (Z.to_nat m) s). symmetry. apply substring0_app.
  - apply Z.ltb_ge in L. now left.
Qed.
Lemma shortened_unique n s t t' : shortened n s t -> shortened n s t' -> t = t'.
Proof.
  assert (G : forall x y u v : string, String.length x = String.length u -> (x ++ y)%string = (u ++ v)%string -> x = u).
  { induction x as [ | c x IHx ]; intros y u v; destruct u; cbn; intros E1 E2; try discriminate; auto. inversion E2; subst. f_equal. eapply IHx; eauto. }
  intros [ (A & ->) | (A & B & u & E) ] [ (A' & ->) | (A' & B' & u' & E') ]; try lia; auto. eapply G; [ | rewrite <- E, <- E'; reflexivity ]. lia.
Qed.

(** *** Reports *)
Lemma seq_none i (l : list mdata) : (maximum <= i)%nat -> sub_data i l = [].
Proof. intros L. unfold sub_data. replace (Nat.min maximum (List.length l) - i)%nat with 0%nat by lia. reflexivity. Qed.
Lemma sub_first (l : list mdata) : sub_data 0 l = firstn 10 l.
Proof.
  unfold sub_data. rewrite Nat.sub_0_r.
  assert (G : forall n s (k : list mdata), (s + n <= List.length k)%nat -> flat_map (fun j => match nth_error k (0 + j) with Some m => [m] | None => [] end) (seq s n) = firstn n (skipn s k)).
  { induction n as [ | n IH ]; intros s k L; auto. cbn [seq flat_map]. rewrite IH by lia. cbn [plus]. destruct (nth_error k s) eqn:E. 2: { apply nth_error_None in E. lia. }
    clear IH. revert k L E. induction s as [ | s IHs ]; intros k L E; destruct k as [ | x k ]; cbn in *; try discriminate. - inversion E; subst. reflexivity. - apply IHs; auto. lia. }
  rewrite G by (unfold maximum; lia). cbn [skipn]. unfold maximum. destruct (Nat.le_gt_cases (List.length l) 10). - rewrite Nat.min_r by lia. rewrite !firstn_all2; auto. - rewrite Nat.min_l by lia. reflexivity.
Qed.
Lemma report_empty f id l i n : (maximum <= i)%nat -> reported (report_loop f id l i n) = [].
Proof.
  revert i n. induction f as [ | f IH ]; intros i n L; auto. cbn [report_loop]. destruct (Nat.ltb i (List.length l)); auto. unfold reported. cbn [flat_map]. rewrite seq_none by auto. apply IH. lia.
Qed.
Lemma report_numbered f id l i n k : (List.length l < i + f)%nat -> (i < List.length l)%nat -> (i + 10 * (k - 1) < List.length l <= i + 10 * k)%nat -> (0 < k)%nat ->
  numbered id n k (report_loop f id l i n).
Proof.
  revert i n k. induction f as [ | f IH ]; intros i n k F L K P; [ lia | ]. cbn [report_loop]. assert (E : Nat.ltb i (List.length l) = true) by (apply Nat.ltb_lt; lia). rewrite E. unfold maximum in *.
  destruct k as [ | [ | k ] ]; [ lia | | ].
  - replace (Nat.leb (List.length l) (i + 10)) with true by (symmetry; apply Nat.leb_le; lia). replace (report_loop f id l (i + 10) (n + 1)) with (@nil report_out).
    + apply numbered_last.
    + destruct f as [ | f ]; auto. cbn [report_loop]. replace (Nat.ltb (i + 10) (List.length l)) with false; auto. symmetry. apply Nat.ltb_ge. lia.
  - replace (Nat.leb (List.length l) (i + 10)) with false by (symmetry; apply Nat.leb_gt; lia). cbn [negb]. apply numbered_more. apply IH; lia.
Qed.
Lemma without_event_plain l : Forall2 plain_monitor l (map without_event l).
Proof.
  induction l as [ | m l IH ]; constructor; auto. split; auto. unfold without_event. cbn [d_monitors]. induction (d_monitors m) as [ | v k IHk ]; constructor; auto.
Qed.

(** *** Display messages *)
Lemma listed_in x l s : value_list l s -> listed x s = true <-> In x l.
Proof.
  intros (f & NE & F & -> & ->). unfold listed. rewrite split_trimmed; auto; [ | discriminate ].
  rewrite existsb_exists. split. - intros (y & I & E). apply String.eqb_eq in E. now subst. - intros I. exists x. split; auto. apply String.eqb_refl.
Qed.
Lemma fits_iff n s : fits n s = true <-> (String.length s <= n)%nat.
Proof. unfold fits. apply Nat.leb_le. Qed.
Lemma fits_opt_iff n o : fits_opt n o = true <-> forall s, o = Some s -> (String.length s <= n)%nat.
Proof. destruct o as [s | ]; cbn [fits_opt]. - rewrite fits_iff. split; [ intros H x E; inversion E; subst; auto | auto ]. - split; [ discriminate | auto ]. Qed.
Lemma to_minfo_ok g : complete g = true -> short g -> exists m, to_minfo g = Some (Some m) /\ tells g m.
Proof.
  unfold complete, to_minfo. destruct (g_id g) eqn:E1; [ | discriminate ]. destruct (g_priority g) eqn:E2; [ | discriminate ]. intros _ (A & B & C).
  rewrite (proj2 (fits_iff _ _) A), (proj2 (fits_opt_iff _ _) B), (proj2 (fits_opt_iff _ _) C). cbn [andb]. eexists. split; [ reflexivity | ].
  unfold tells. cbn. rewrite E1, E2. repeat split; auto. - intros f ->. reflexivity. - intros ->. reflexivity.
Qed.
Lemma to_minfo_incomplete g : complete g = false -> to_minfo g = Some None.
Proof. unfold complete, to_minfo. destruct (g_id g); auto. destruct (g_priority g); auto. discriminate. Qed.
Lemma tells_unique g m m' : tells g m -> tells g m' -> m = m'.
Proof.
  unfold tells. intros (A1 & A2 & A3 & A4 & A5 & A6 & A7 & A8 & A9 & A10 & A11 & A12) (B1 & B2 & B3 & B4 & B5 & B6 & B7 & B8 & B9 & B10 & B11 & B12).
  destruct m as [ai ap [af at' al] ad ast as' ae atr ax], m' as [bi bp [bf bt bl] bd bst bs be btr bx]. cbn in *.
  assert (F : af = bf). { destruct (x_format (g_message g)) as [f | ]; [ now rewrite (A9 f eq_refl), (B9 f eq_refl) | now rewrite (A10 eq_refl), (B10 eq_refl) ]. }
  assert (ai = bi) by congruence. assert (ap = bp) by congruence. subst. congruence.
Qed.
Lemma convert_ok l : (forall g, In g l -> complete g = true -> short g) -> exists k, convert l = Some k /\ Forall2 tells (filter complete l) k.
Proof.
  induction l as [ | g l IH ]; intros H; cbn [convert filter]. { exists []. split; auto. }
  destruct IH as (k & E & F). { intros x I. apply H. now right. } rewrite E. destruct (complete g) eqn:C.
  - destruct (to_minfo_ok g C (H g (or_introl eq_refl) C)) as (m & -> & T). exists (m :: k). split; auto.
  - rewrite to_minfo_incomplete; auto. exists k. auto.
Qed.

(** *** Costs *)
Lemma yes_on b : yes b = true <-> is_on b.
Proof. unfold yes, is_on. destruct b as [ [ | ] | ]; split; congruence. Qed.
Lemma tariff_on e : tariff_enabled e = true <-> shows_tariffs e.
Proof. unfold tariff_enabled, shows_tariffs. rewrite andb_true_iff, !yes_on. tauto. Qed.
Lemma cost_on e : cost_enabled e = true <-> shows_costs e.
Proof. unfold cost_enabled, shows_costs. rewrite andb_true_iff, !yes_on. tauto. Qed.
Lemma is_register_iff s : is_register s = true <-> s_measurand s = Some "Energy.Active.Import.Register" /\ s_phase s = None.
Proof.
  unfold is_register. destruct (s_measurand s) as [m | ]; [ | split; [ discriminate | intros [H _]; discriminate ] ]. destruct (s_phase s); [ split; [ discriminate | intros [_ H]; discriminate ] | ].
  rewrite String.eqb_eq. split; [ intros ->; auto | intros [H _]; congruence ].
Qed.
Lemma find_register l : match find is_register l with Some s => register_of l (s_value s) | None => forall q, ~ register_of l q end.
Proof.
  induction l as [ | s l IH ]; cbn [find]. { intros q (l1 & x & l2 & E & _). destruct l1; discriminate. }
  destruct (is_register s) eqn:E. - apply is_register_iff in E as [A B]. exists [], s, l. repeat split; auto.
  - destruct (find is_register l) as [x | ].
    + destruct IH as (l1 & y & l2 & -> & A & B & C & D). exists (s :: l1), y, l2. repeat split; auto. intros z [ <- | I ]; auto. intros H. apply is_register_iff in H. congruence.
    + intros q (l1 & y & l2 & Q & A & B & C & D). destruct l1 as [ | z l1 ]; cbn in Q; inversion Q; subst.
      * assert (is_register y = true) by now apply is_register_iff. congruence.
      * apply (IH (s_value y)). exists l1, y, l2. repeat split; auto. intros x I. apply D. now right.
Qed.
Lemma register_unique l q q' : register_of l q -> register_of l q' -> q = q'.
Proof.
  intros (l1 & s & l2 & -> & A & B & C & D) (m1 & t & m2 & E & A' & B' & C' & D').
  revert m1 E D'. induction l1 as [ | x l1 IH ]; intros m1 E D'; destruct m1 as [ | y m1 ]; cbn in E; inversion E; subst; auto.
  - exfalso. apply (D' y); [ now left | auto ]. - exfalso. apply (D t); [ now left | auto ].
  - eapply IH; eauto. + intros z I. apply D. now right. + intros z I. apply D'. now right.
Qed.
Lemma max_meter_ok l : match max_meter l with Some q => readings l q /\ (forall q', readings l q' -> (q' <= q)%Q) | None => forall q, ~ readings l q end.
Proof.
  unfold max_meter.
  assert (G : forall l2 l1 o, (match o with Some q => readings l1 q /\ (forall q', readings l1 q' -> (q' <= q)%Q) | None => forall q, ~ readings l1 q end) ->
     match fold_left max_step l2 o with Some q => readings (l1 ++ l2) q /\ (forall q', readings (l1 ++ l2) q' -> (q' <= q)%Q) | None => forall q, ~ readings (l1 ++ l2) q end).
  { induction l2 as [ | x l2 IH ]; intros l1 o H. { rewrite app_nil_r. exact H. }
    cbn [fold_left]. replace (l1 ++ x :: l2) with ((l1 ++ [x]) ++ l2) by (rewrite <- app_assoc; reflexivity). apply IH. unfold max_step.
    assert (R := find_register x). destruct (find is_register x) as [s | ].
    - destruct o as [o | ].
      + destruct H as [H1 H2]. destruct (Qle_bool (s_value s) o) eqn:Q.
        * apply Qle_bool_iff in Q. split. { destruct H1 as (y & I & Y). exists y. split; auto. apply in_or_app. now left. }
          intros q' (y & I & Y). apply in_app_or in I as [ I | [ <- | [] ] ]. -- apply H2. now exists y. -- rewrite (register_unique x q' (s_value s)); auto.
        * assert (Q' : (o < s_value s)%Q). { apply Qnot_le_lt. intros C. apply Qle_bool_iff in C. congruence. }
          split. { exists x. split; auto. apply in_or_app. right. now left. }
          intros q' (y & I & Y). apply in_app_or in I as [ I | [ <- | [] ] ]. -- apply Qlt_le_weak. eapply Qle_lt_trans; [ | exact Q' ]. apply H2. now exists y. -- rewrite (register_unique x q' (s_value s)); auto. apply Qle_refl.
      + split. { exists x. split; auto. apply in_or_app. right. now left. }
        intros q' (y & I & Y). apply in_app_or in I as [ I | [ <- | [] ] ]. -- exfalso. apply (H q'). now exists y. -- rewrite (register_unique x q' (s_value s)); auto. apply Qle_refl.
    - assert (R' : forall q, readings (l1 ++ [x]) q <-> readings l1 q).
      { intros q. split. - intros (y & I & Y). apply in_app_or in I as [ I | [ <- | [] ] ]; [ now exists y | now apply R in Y ]. - intros (y & I & Y). exists y. split; auto. apply in_or_app. now left. }
      destruct o as [o | ]. + destruct H as [H1 H2]. split; [ now apply R' | ]. intros q' Y. apply H2. now apply R'. + intros q Y. apply R' in Y. now apply (H q). }
  apply (G l [] None). intros q (y & [] & _).
Qed.
