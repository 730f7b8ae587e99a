(** The calendar of one era of 400 years. *)
From Coq Require Import ZArith List Bool String Ascii Lia Znumtheory.
From Verif Require Import DtModel.
Import ListNotations.
Local Open Scope string_scope.
Local Open Scope Z_scope.
Ltac Zify.zify_post_hook ::= Z.to_euclidean_division_equations.

(** ** Calendar *)
Definition nextb (a : Z * Z * Z) : Z * Z * Z :=
  let '(y, m, d) := a in if d <? last_day y m then (y, m, d + 1) else if m <? 12 then (y, m + 1, 1) else (y + 1, 1, 1).
Definition valid (a : Z * Z * Z) : bool := let '(y, m, d) := a in ymd_ok y m d.
Definition days (a : Z * Z * Z) : Z := let '(y, m, d) := a in days_from_civil y m d.
Definition eqb3 (a b : Z * Z * Z) : bool :=
  let '(y, m, d) := a in let '(y', m', d') := b in (y =? y') && (m =? m') && (d =? d').
Lemma eqb3_eq : forall a b, eqb3 a b = true -> a = b.
Proof. intros [[y m] d] [[y' m'] d'] H. cbn in H. rewrite !andb_true_iff, !Z.eqb_eq in H. destruct H as [[-> ->] ->]. reflexivity. Qed.
Fixpoint all_from (fuel : nat) (k : Z) (f : Z -> bool) : bool :=
  match fuel with O => true | S n => if f k then all_from n (k + 1) f else false end.
Definition all_below (n : Z) (f : Z -> bool) : bool := all_from (Z.to_nat n) 0 f.
Lemma all_from_ok : forall fuel k f, all_from fuel k f = true -> forall x, k <= x < k + Z.of_nat fuel -> f x = true.
Proof.
  induction fuel as [|n IH]; intros k f H x B; [lia|]. cbn in H. destruct (f k) eqn:E; [|discriminate]. destruct (Z.eq_dec x k) as [->|N]; [exact E|]. apply (IH _ _ H). lia.
Qed.
Lemma all_below_ok : forall n f, all_below n f = true -> forall k, 0 <= k < n -> f k = true.
Proof. intros n f H k K. apply (all_from_ok _ _ _ H). rewrite Z2Nat.id by lia. lia. Qed.

(** Years of the era, from March on: where they begin, and how the year of a day is day_found. *)
Definition year_base (yoe : Z) : Z := 365 * yoe + yoe / 4 - yoe / 100.
Definition leap_end (yoe : Z) : bool := is_leap (yoe + 1).
Definition last_of (yoe : Z) : Z := if leap_end yoe then 365 else 364.
Definition year_of (doe : Z) : Z := (doe - doe / 1460 + doe / 36524 - doe / 146096) / 365.

Lemma years_checked : all_below 400 (fun yoe => (year_of (year_base yoe) =? yoe) && (year_of (year_base yoe + last_of yoe) =? yoe)
  && ((yoe =? 399) || (year_base (yoe + 1) =? year_base yoe + last_of yoe + 1))) = true.
Proof. vm_compute. reflexivity. Qed.

Lemma year_ok yoe : 0 <= yoe < 400 -> year_of (year_base yoe) = yoe /\ year_of (year_base yoe + last_of yoe) = yoe /\
  (yoe <> 399 -> year_base (yoe + 1) = year_base yoe + last_of yoe + 1).
Proof.
  intros B. pose proof (all_below_ok _ _ years_checked yoe B) as H. cbv beta in H.
  rewrite !andb_true_iff, orb_true_iff, !Z.eqb_eq in H. destruct H as [[H1 H2] H3]. repeat split; auto. intros N. destruct H3; [contradiction|assumption].
Qed.

Lemma count_step d : 0 <= d < 146096 -> d - d / 1460 + d / 36524 - d / 146096 <= d + 1 - (d + 1) / 1460 + (d + 1) / 36524 - (d + 1) / 146096.
Proof. intros B. lia. Qed.

Lemma count_mono n : forall d, 0 <= d -> d + Z.of_nat n <= 146096 ->
  d - d / 1460 + d / 36524 - d / 146096 <= d + Z.of_nat n - (d + Z.of_nat n) / 1460 + (d + Z.of_nat n) / 36524 - (d + Z.of_nat n) / 146096.
Proof.
  induction n as [|n IH]; intros d B L; [rewrite Z.add_0_r; apply Z.le_refl|].
  apply (Z.le_trans _ _ _ (IH d B ltac:(lia))). replace (d + Z.of_nat (S n)) with (d + Z.of_nat n + 1) by lia. apply count_step. lia.
Qed.

Lemma year_mono a b : 0 <= a -> a <= b -> b <= 146096 -> year_of a <= year_of b.
Proof.
  intros A L B. unfold year_of. apply Z.div_le_mono; [lia|]. pose proof (count_mono (Z.to_nat (b - a)) a A) as H.
  rewrite Z2Nat.id in H by lia. replace (a + (b - a)) with b in H by lia. apply H. lia.
Qed.

Lemma base_range yoe : 0 <= yoe < 400 -> 0 <= year_base yoe /\ year_base yoe + last_of yoe <= 146096.
Proof.
  intros B. assert (H : all_below 400 (fun yoe => (0 <=? year_base yoe) && (year_base yoe + last_of yoe <=? 146096)) = true) by (vm_compute; reflexivity).
  pose proof (all_below_ok _ _ H yoe B) as Q. cbv beta in Q. rewrite andb_true_iff, !Z.leb_le in Q. exact Q.
Qed.

Lemma year_found yoe doy : 0 <= yoe < 400 -> 0 <= doy <= last_of yoe -> year_of (year_base yoe + doy) = yoe.
Proof.
  intros B D. destruct (year_ok yoe B) as (H1 & H2 & _). destruct (base_range yoe B) as [R1 R2].
  assert (L : year_of (year_base yoe) <= year_of (year_base yoe + doy)) by (apply year_mono; lia).
  assert (U : year_of (year_base yoe + doy) <= year_of (year_base yoe + last_of yoe)) by (apply year_mono; lia).
  clear - H1 H2 L U. rewrite H1 in L. rewrite H2 in U. lia.
Qed.

(** Months, from March on. *)
Definition month_at (mp : Z) : Z := if mp <? 10 then mp + 3 else mp - 9.
Definition first_of (mp : Z) : Z := (153 * mp + 2) / 5.
Definition year_at (yoe mp : Z) : Z := if mp <? 10 then yoe else yoe + 1.

Lemma months_checked : all_below 12 (fun mp => all_below 32 (fun d =>
  (d =? 0) || (last_day 0 (month_at mp) <? d) || (((5 * (first_of mp + d - 1) + 2) / 153 =? mp) && (0 <=? first_of mp)))) = true.
Proof. vm_compute. reflexivity. Qed.
Lemma ends_checked : all_below 11 (fun mp => (first_of (mp + 1) =? first_of mp + last_day 1 (month_at mp))) = true.
Proof. vm_compute. reflexivity. Qed.

Lemma last_day_any y m : m <> 2 -> last_day y m = last_day 0 m.
Proof. intros N. unfold last_day. destruct (Z.eqb_spec m 2); [contradiction|reflexivity]. Qed.
Lemma last_day_feb y : last_day y 2 = if is_leap y then 29 else 28.
Proof. reflexivity. Qed.
Lemma last_day_range y m : 28 <= last_day y m <= 31.
Proof. unfold last_day. destruct (m =? 2); [destruct (is_leap y); lia|]. destruct (_ || _); lia. Qed.

Lemma month_feb mp : 0 <= mp < 12 -> month_at mp = 2 -> mp = 11.
Proof. intros B H. unfold month_at in H. destruct (Z.ltb_spec mp 10); lia. Qed.

Lemma month_found mp d y : 0 <= mp < 12 -> 1 <= d <= last_day y (month_at mp) ->
  (5 * (first_of mp + d - 1) + 2) / 153 = mp /\ 0 <= first_of mp.
Proof.
  intros B D. assert (L : last_day y (month_at mp) <= last_day 0 (month_at mp)).
  { destruct (Z.eq_dec (month_at mp) 2) as [->|N]; [rewrite !last_day_feb; change (is_leap 0) with true; destruct (is_leap y); lia|].
    rewrite (last_day_any y) by exact N. lia. }
  pose proof (last_day_range y (month_at mp)) as R.
  pose proof (all_below_ok _ _ (all_below_ok _ _ months_checked mp B) d ltac:(lia)) as H. cbv beta in H.
  rewrite !orb_true_iff, andb_true_iff, !Z.eqb_eq, Z.ltb_lt, Z.leb_le in H. destruct H as [[H|H]|H]; [lia|lia|exact H].
Qed.

Lemma doy_range yoe mp d : 0 <= mp < 12 -> 1 <= d <= last_day (year_at yoe mp) (month_at mp) -> 0 <= first_of mp + d - 1 <= last_of yoe.
Proof.
  intros B D. destruct (month_found _ _ _ B D) as [_ F]. split; [lia|]. unfold last_of, leap_end.
  destruct (Z.eq_dec mp 11) as [->|N].
  - change (first_of 11) with 337. change (month_at 11) with 2 in D. rewrite last_day_feb in D. change (year_at yoe 11) with (yoe + 1) in D. destruct (is_leap (yoe + 1)); lia.
  - assert (Q : forall mp, 0 <= mp < 11 -> first_of mp <= 306) by (intros k K; unfold first_of; lia). specialize (Q mp ltac:(lia)).
    pose proof (last_day_range (year_at yoe mp) (month_at mp)). destruct (is_leap (yoe + 1)); lia.
Qed.

(** A day of the era is day_found by its year, month_at and day of the month_at. *)
Lemma day_found yoe mp d : 0 <= yoe < 400 -> 0 <= mp < 12 -> 1 <= d <= last_day (year_at yoe mp) (month_at mp) ->
  civil_in_era (year_base yoe + (first_of mp + d - 1)) = (year_at yoe mp, month_at mp, d).
Proof.
  intros B M D. unfold civil_in_era. fold (year_of (year_base yoe + (first_of mp + d - 1))).
  rewrite (year_found _ _ B (doy_range _ _ _ M D)). fold (year_base yoe).
  replace (year_base yoe + (first_of mp + d - 1) - year_base yoe) with (first_of mp + d - 1) by lia.
  rewrite (proj1 (month_found _ _ _ M D)). fold (first_of mp). fold (month_at mp).
  replace (first_of mp + d - 1 - first_of mp + 1) with d by lia. unfold year_at.
  replace (month_at mp <=? 2) with (negb (mp <? 10)); [destruct (mp <? 10); reflexivity|].
  unfold month_at. destruct (Z.ltb_spec mp 10); cbn [negb]; symmetry; [apply Z.leb_gt|apply Z.leb_le]; lia.
Qed.

(** Every day of the era is one. *)
Definition at_day (n : Z) (yoe mp d : Z) : Prop :=
  0 <= yoe < 400 /\ 0 <= mp < 12 /\ 1 <= d <= last_day (year_at yoe mp) (month_at mp) /\ n = year_base yoe + (first_of mp + d - 1).

Lemma at_next n yoe mp d : at_day n yoe mp d -> n < 146096 -> exists yoe' mp' d', at_day (n + 1) yoe' mp' d'.
Proof.
  intros (B & M & D & E) L. destruct (Z.eq_dec d (last_day (year_at yoe mp) (month_at mp))) as [F|F].
  - destruct (Z.eq_dec mp 11) as [->|N].
    + exists (yoe + 1), 0, 1. change (year_at yoe 11) with (yoe + 1) in *. change (month_at 11) with 2 in *. rewrite last_day_feb in *.
      change (first_of 11) with 337 in E.
      assert (Q : year_base yoe + last_of yoe = n) by (unfold last_of, leap_end; destruct (is_leap (yoe + 1)); lia).
      assert (Y : yoe <> 399) by (intros ->; change (year_base 399 + last_of 399) with 146096 in Q; lia).
      destruct (year_ok yoe B) as (_ & _ & S). specialize (S Y).
      split; [lia|]. split; [lia|]. split; [change (month_at 0) with 3; pose proof (last_day_range (year_at (yoe + 1) 0) 3); lia|].
      rewrite S. change (first_of 0) with 0. lia.
    + exists yoe, (mp + 1), 1. split; [lia|]. split; [lia|]. split; [pose proof (last_day_range (year_at yoe (mp + 1)) (month_at (mp + 1))); lia|].
      pose proof (all_below_ok _ _ ends_checked mp ltac:(lia)) as S. cbv beta in S. apply Z.eqb_eq in S. rewrite S.
      assert (Nf : month_at mp <> 2) by (intros H; apply month_feb in H; lia).
      rewrite (last_day_any 1) by exact Nf. rewrite (last_day_any (year_at yoe mp)) in F by exact Nf. lia.
  - exists yoe, mp, (d + 1). split; [exact B|]. split; [exact M|]. split; lia.
Qed.

Lemma any_day n : (Z.of_nat n <= 146096) -> exists yoe mp d, at_day (Z.of_nat n) yoe mp d.
Proof.
  induction n as [|n IH]; intros L.
  - exists 0, 0, 1. repeat split; try lia. change (last_day (year_at 0 0) (month_at 0)) with 31. lia.
  - destruct IH as (yoe & mp & d & H); [lia|]. replace (Z.of_nat (S n)) with (Z.of_nat n + 1) by lia. apply (at_next _ _ _ _ H). lia.
Qed.

(** The day of a date. *)
Lemma days_at y m d : 1 <= m <= 12 ->
  let y' := if m <=? 2 then y - 1 else y in
  days_from_civil y m d = y' / 400 * 146097 + (year_base (y' - y' / 400 * 400) + (first_of (if 2 <? m then m - 3 else m + 9) + d - 1)) - 719468.
Proof. intros M y'. unfold days_from_civil, year_base, first_of. fold y'. lia. Qed.

Definition check_day (n : Z) : bool := valid (civil_in_era n) && (days (civil_in_era n) =? n - 719468).
Lemma day_ok : forall n, 0 <= n < 146097 -> check_day n = true.
Proof.
  intros n B. destruct (any_day (Z.to_nat n)) as (yoe & mp & d & H); [lia|]. rewrite Z2Nat.id in H by lia. destruct H as (Y & M & D & ->).
  unfold check_day. rewrite (day_found _ _ _ Y M D). unfold valid, days, ymd_ok.
  assert (Mr : 1 <= month_at mp <= 12) by (unfold month_at; destruct (Z.ltb_spec mp 10); lia).
  rewrite !andb_true_iff, !Z.leb_le, Z.eqb_eq. split; [lia|]. rewrite days_at by exact Mr.
  unfold month_at, year_at. destruct (Z.ltb_spec mp 10) as [L|L].
  - replace (mp + 3 <=? 2) with false by (symmetry; apply Z.leb_gt; lia). replace (2 <? mp + 3) with true by (symmetry; apply Z.ltb_lt; lia).
    replace (yoe / 400) with 0 by (symmetry; apply Z.div_small; lia). replace (mp + 3 - 3) with mp by lia. replace (yoe - 0 * 400) with yoe by lia. lia.
  - replace (mp - 9 <=? 2) with true by (symmetry; apply Z.leb_le; lia). replace (2 <? mp - 9) with false by (symmetry; apply Z.ltb_ge; lia).
    replace (yoe + 1 - 1) with yoe by lia.
    replace (yoe / 400) with 0 by (symmetry; apply Z.div_small; lia). replace (mp - 9 + 9) with mp by lia. replace (yoe - 0 * 400) with yoe by lia. lia.
Qed.

Definition check_date (y m d : Z) : bool :=
  negb (ymd_ok y m d) || (valid (nextb (y, m, d)) && (days (nextb (y, m, d)) =? days (y, m, d) + 1) && eqb3 (civil_from_days (days (y, m, d))) (y, m, d)).

Lemma date_back y m d : 0 <= y < 400 -> 1 <= m <= 12 -> 1 <= d <= last_day y m -> civil_from_days (days_from_civil y m d) = (y, m, d).
Proof.
  intros Y M D. rewrite days_at by exact M. unfold civil_from_days.
  set (y' := if m <=? 2 then y - 1 else y). set (mp := if 2 <? m then m - 3 else m + 9). set (era := y' / 400). set (yoe := y' - era * 400).
  assert (Yr : 0 <= yoe < 400) by (unfold yoe, era; lia).
  assert (Mr : 0 <= mp < 12) by (unfold mp; destruct (Z.ltb_spec 2 m); lia).
  assert (Mm : month_at mp = m) by (unfold mp, month_at; destruct (Z.ltb_spec 2 m); match goal with |- context [?a <? 10] => destruct (Z.ltb_spec a 10) end; lia).
  assert (Ya : year_at yoe mp + era * 400 = y).
  { unfold year_at, mp, yoe, y'. destruct (Z.ltb_spec 2 m), (Z.leb_spec m 2); match goal with |- context [?a <? 10] => destruct (Z.ltb_spec a 10) end; lia. }
  assert (Dr : 1 <= d <= last_day (year_at yoe mp) (month_at mp)).
  { rewrite Mm. assert (Q : last_day (year_at yoe mp) m = last_day y m); [|rewrite Q; exact D].
    destruct (Z.eq_dec m 2) as [->|N]; [|rewrite (last_day_any y), (last_day_any (year_at yoe mp)) by exact N; reflexivity].
    rewrite !last_day_feb. assert (E : is_leap (year_at yoe mp) = is_leap y); [|rewrite E; reflexivity].
    unfold is_leap. assert (E4 : year_at yoe mp mod 4 = y mod 4) by lia. assert (E1 : year_at yoe mp mod 100 = y mod 100) by lia.
    assert (E2 : year_at yoe mp mod 400 = y mod 400) by lia. rewrite E4, E1, E2. reflexivity. }
  pose proof (doy_range _ _ _ Mr Dr) as Dy. destruct (base_range yoe Yr) as [R1 R2].
  set (doe := year_base yoe + (first_of mp + d - 1)).
  assert (Er : (era * 146097 + doe - 719468 + 719468) / 146097 = era).
  { replace (era * 146097 + doe - 719468 + 719468) with (doe + era * 146097) by lia. rewrite Z.div_add by lia. rewrite Z.div_small; [lia|]. unfold doe. lia. }
  rewrite Er. replace (era * 146097 + doe - 719468 + 719468 - era * 146097) with doe by lia. unfold doe. rewrite (day_found _ _ _ Yr Mr Dr), Ya, Mm. reflexivity.
Qed.

Lemma february_ok y : 0 <= y < 400 -> days_from_civil y (2 + 1) 1 = days_from_civil y 2 (last_day y 2) + 1.
Proof.
  intros B. assert (H : all_below 400 (fun y => days_from_civil y (2 + 1) 1 =? days_from_civil y 2 (last_day y 2) + 1) = true) by (vm_compute; reflexivity).
  apply Z.eqb_eq. exact (all_below_ok _ _ H y B).
Qed.

Lemma after_day y m d : 0 <= y < 400 -> 1 <= m <= 12 -> 1 <= d <= last_day y m ->
  valid (nextb (y, m, d)) = true /\ days (nextb (y, m, d)) = days (y, m, d) + 1.
Proof.
  intros Y M D. unfold nextb. destruct (Z.ltb_spec d (last_day y m)) as [L|L].
  - split; [unfold valid, ymd_ok; rewrite !andb_true_iff, !Z.leb_le; lia|]. unfold days. rewrite !days_at by exact M. lia.
  - assert (E : d = last_day y m) by lia. clear D L. destruct (Z.ltb_spec m 12) as [L|L].
    + split; [unfold valid, ymd_ok; rewrite !andb_true_iff, !Z.leb_le; pose proof (last_day_range y (m + 1)); lia|].
      unfold days. subst d.
      assert (C : m = 1 \/ m = 2 \/ m = 3 \/ m = 4 \/ m = 5 \/ m = 6 \/ m = 7 \/ m = 8 \/ m = 9 \/ m = 10 \/ m = 11) by lia.
      destruct C as [->|[->|[->|[->|[->|[->|[->|[->|[->|[->| ->]]]]]]]]]];
        try exact (february_ok y Y); rewrite !days_at by lia; unfold last_day;
        cbn [Z.leb Z.ltb Z.eqb Z.compare Z.add Z.mul Z.sub Pos.compare Pos.compare_cont Pos.eqb Pos.add Pos.mul orb Z.opp Z.pos_sub Pos.pred_double Pos.succ]; unfold first_of; lia.
    + assert (m = 12) by lia. subst m. split; [reflexivity|]. subst d. unfold days, days_from_civil. change (last_day y 12) with 31. 
      change (12 <=? 2) with false. change (1 <=? 2) with true. change (2 <? 12) with true. change (2 <? 1) with false. cbv iota. replace (y + 1 - 1) with y by lia. lia.
Qed.

Lemma date_ok : forall y m d, 0 <= y < 400 -> 0 <= m < 13 -> 0 <= d < 32 -> check_date y m d = true.
Proof.
  intros y m d Y _ _. unfold check_date. destruct (ymd_ok y m d) eqn:O; [|reflexivity]. cbn [negb orb].
  unfold ymd_ok in O. rewrite !andb_true_iff, !Z.leb_le in O. destruct O as [[[O1 O2] O3] O4].
  destruct (after_day y m d Y ltac:(lia) ltac:(lia)) as [V N]. rewrite V, N, Z.eqb_refl. unfold days. rewrite date_back by lia.
  unfold eqb3. rewrite !Z.eqb_refl. reflexivity.
Qed.
