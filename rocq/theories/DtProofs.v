(** Proofs about times and their text. *)
From Coq Require Import ZArith List Bool String Ascii Lia Znumtheory.
From Verif Require Import StrModel StrSpec StrProofs JsonModel JsonProofs DtModel DtSpec DtCalendar.
Import ListNotations.
Local Open Scope string_scope.
Local Open Scope Z_scope.
Ltac Zify.zify_post_hook ::= Z.to_euclidean_division_equations.

(** ** Calendar *)

(** Everything repeats after 400 years. *)
Definition shift (k : Z) (a : Z * Z * Z) : Z * Z * Z := let '(y, m, d) := a in (y + k * 400, m, d).
Lemma leap_shift : forall y k, is_leap (y + k * 400) = is_leap y.
Proof.
  intros y k. unfold is_leap. replace ((y + k * 400) mod 4) with (y mod 4) by (replace (k * 400) with (k * 100 * 4) by ring; rewrite Z.mod_add by discriminate; reflexivity).
  replace ((y + k * 400) mod 100) with (y mod 100) by (replace (k * 400) with (k * 4 * 100) by ring; rewrite Z.mod_add by discriminate; reflexivity).
  rewrite Z.mod_add by discriminate. reflexivity.
Qed.
Lemma last_day_shift : forall y m k, last_day (y + k * 400) m = last_day y m.
Proof. intros. unfold last_day. rewrite leap_shift. reflexivity. Qed.
Lemma valid_shift : forall a k, valid (shift k a) = valid a.
Proof. intros [[y m] d] k. cbn. unfold ymd_ok. rewrite last_day_shift. reflexivity. Qed.
Lemma nextb_shift : forall a k, nextb (shift k a) = shift k (nextb a).
Proof.
  intros [[y m] d] k. unfold shift, nextb. rewrite last_day_shift. destruct (d <? last_day y m); [reflexivity|]. destruct (m <? 12); [reflexivity|].
  f_equal. f_equal. ring.
Qed.
Lemma days_shift : forall a k, days (shift k a) = days a + k * 146097.
Proof.
  intros [[y m] d] k. unfold shift, days, days_from_civil. set (w := if m <=? 2 then y - 1 else y).
  replace (if m <=? 2 then y + k * 400 - 1 else y + k * 400) with (w + k * 400) by (unfold w; destruct (m <=? 2); ring).
  rewrite Z.div_add by discriminate. replace (w + k * 400 - (w / 400 + k) * 400) with (w - w / 400 * 400) by ring. ring.
Qed.
Lemma civil_shift : forall n k, civil_from_days (n + k * 146097) = shift k (civil_from_days n).
Proof.
  intros n k. unfold civil_from_days. replace (n + k * 146097 + 719468) with (n + 719468 + k * 146097) by ring. rewrite Z.div_add by discriminate.
  replace (n + 719468 + k * 146097 - ((n + 719468) / 146097 + k) * 146097) with (n + 719468 - (n + 719468) / 146097 * 146097) by ring.
  destruct (civil_in_era _) as [[y m] d]. cbn. f_equal. f_equal. ring.
Qed.
Lemma valid_range : forall y m d, valid (y, m, d) = true -> 1 <= m <= 12 /\ 1 <= d <= 31.
Proof.
  intros y m d V. cbn in V. unfold ymd_ok in V. rewrite !andb_true_iff, !Z.leb_le in V. destruct V as [[[A B] C] D]. split; [lia|]. split; [lia|].
  revert D. unfold last_day. destruct (m =? 2); [destruct (is_leap y); lia|]. destruct (_ || _); lia.
Qed.
Lemma valid_ok : forall a, valid a = true -> valid (nextb a) = true /\ days (nextb a) = days a + 1 /\ civil_from_days (days a) = a.
Proof.
  intros [[y m] d] V. pose proof (valid_range y m d V) as [M D]. set (k := y / 400). set (y0 := y mod 400).
  assert (E : (y, m, d) = shift k (y0, m, d)). { unfold shift, k, y0. rewrite Z.mul_comm, Z.add_comm, <- Z.div_mod by discriminate. reflexivity. }
  rewrite E in *. rewrite valid_shift in V. rewrite nextb_shift, valid_shift, !days_shift, civil_shift.
  assert (B0 : 0 <= y0 < 400) by (unfold y0; apply Z.mod_pos_bound; reflexivity). pose proof (date_ok y0 m d B0 ltac:(lia) ltac:(lia)) as H. unfold check_date in H. cbn [valid] in V. rewrite V in H.
  cbn [negb orb] in H. rewrite !andb_true_iff in H. destruct H as [[A B] C]. apply Z.eqb_eq in B. apply eqb3_eq in C. rewrite B, C. split; [exact A|]. split; [lia|reflexivity].
Qed.
Lemma civil_ok : forall n, valid (civil_from_days n) = true /\ days (civil_from_days n) = n.
Proof.
  intros n. set (k := (n + 719468) / 146097). set (r := (n + 719468) mod 146097). assert (B : 0 <= r < 146097) by (unfold r; apply Z.mod_pos_bound; reflexivity). assert (En : n = (r - 719468) + k * 146097) by (pose proof (Z.div_mod (n + 719468) 146097 ltac:(discriminate)); unfold r, k; lia). clearbody r k. subst n.
  rewrite civil_shift, valid_shift, days_shift. 
  assert (E : civil_from_days (r - 719468) = civil_in_era r).
  { unfold civil_from_days. replace (r - 719468 + 719468) with r by ring. rewrite Z.div_small by exact B. replace (r - 0 * 146097) with r by ring.
    destruct (civil_in_era r) as [[y m] d]. replace (y + 0 * 400) with y by ring. reflexivity. }
  rewrite E. pose proof (day_ok r B) as H. unfold check_day in H. apply andb_true_iff in H as [A C]. apply Z.eqb_eq in C.
  rewrite C. split; [exact A|ring].
Qed.

(** The rules of the specification. *)
Lemma leap_iff : forall y, leap y <-> is_leap y = true.
Proof.
  intros y. unfold leap, is_leap. rewrite andb_true_iff, orb_true_iff, negb_true_iff, !Z.eqb_eq, Z.eqb_neq.
  rewrite <- !Z.mod_divide by discriminate. split; intros [A B]; (split; [exact A|]).
  - destruct (Z.eq_dec (y mod 100) 0); [right; auto|left; assumption].
  - intros H. destruct B; [contradiction|assumption].
Qed.
Lemma month_iff : forall y m n, 1 <= m <= 12 -> (month_length y m n <-> n = last_day y m).
Proof.
  intros y m n M. unfold month_length, last_day. cbn [In]. split.
  - intros [H|[(->&L&->)|(->&L&->)]].
    + repeat match goal with H : _ \/ _ |- _ => destruct H as [H|H] end; try (injection H as <- <-; reflexivity). contradiction.
    + apply leap_iff in L. rewrite L. reflexivity.
    + destruct (is_leap y) eqn:E; [apply leap_iff in E; contradiction|reflexivity].
  - intros ->. assert (C : m = 2 \/ m = 1 \/ m = 3 \/ m = 4 \/ m = 5 \/ m = 6 \/ m = 7 \/ m = 8 \/ m = 9 \/ m = 10 \/ m = 11 \/ m = 12) by lia.
    destruct C as [->|C]; [right|left].
    + change (2 =? 2) with true. cbv iota. destruct (is_leap y) eqn:E; [left|right]; (split; [reflexivity|]); split; try reflexivity.
      * apply leap_iff. exact E.
      * intros L. apply leap_iff in L. congruence.
    + repeat (destruct C as [->|C]; [cbn; tauto|]). subst m. cbn. tauto.
Qed.
Lemma month_range : forall y m n, month_length y m n -> 1 <= m <= 12.
Proof.
  intros y m n [H|[(->&_)|(->&_)]]; try lia. cbn [In] in H. repeat match goal with H : _ \/ _ |- _ => destruct H as [H|H] end; try (injection H as <- <-; lia). contradiction.
Qed.
Lemma next_iff : forall a b, 1 <= snd a -> (next_day a b -> valid a = true /\ b = nextb a) /\ (valid a = true -> b = nextb a -> next_day a b).
Proof.
  intros [[y m] d] b D. cbn [snd] in D. split.
  - intros H. inversion H as [y' m' d' n L Lt|y' m' d' L Lt|y']; subst.
    + pose proof (month_range _ _ _ L) as R. apply (month_iff _ _ _ R) in L. subst n. cbn. unfold ymd_ok. rewrite !andb_true_iff, !Z.leb_le. split; [lia|].
      destruct (Z.ltb_spec d (last_day y m)); [reflexivity|lia].
    + pose proof (month_range _ _ _ L) as R. apply (month_iff _ _ _ R) in L. cbn. unfold ymd_ok. rewrite !andb_true_iff, !Z.leb_le. split; [lia|].
      destruct (Z.ltb_spec d (last_day y m)); [lia|]. destruct (Z.ltb_spec m 12); [reflexivity|lia].
    + split; reflexivity.
  - intros V ->. pose proof (valid_range y m d V) as [M _]. cbn in V. unfold ymd_ok in V. rewrite !andb_true_iff, !Z.leb_le in V. cbn [nextb].
    destruct (Z.ltb_spec d (last_day y m)); [apply SameMonth with (n := last_day y m); [apply month_iff; [exact M|reflexivity]|assumption]|].
    assert (E : d = last_day y m) by lia. destruct (Z.ltb_spec m 12); [apply NextMonth; [apply month_iff; [exact M|exact E]|assumption]|].
    assert (m = 12) by lia. subst m. change (last_day y 12) with 31 in E. subst d. apply NextYear.
Qed.
Lemma valid_day : forall a, valid a = true -> 1 <= snd a.
Proof. intros [[y m] d] V. pose proof (valid_range y m d V). cbn. lia. Qed.
Lemma on_day_days : forall n a, on_day n a -> valid a = true /\ days a = n.
Proof.
  induction 1 as [|n a b H [V D] N|n a b H [V D] N P]; [split; reflexivity| |].
  - apply (next_iff a b (valid_day a V)) in N as [_ ->]. destruct (valid_ok a V) as (W&E&_). split; [exact W|]. rewrite E, D. reflexivity.
  - apply (next_iff a b P) in N as [W ->]. destruct (valid_ok a W) as (_&E&_). split; [exact W|]. lia.
Qed.
Lemma civil_next : forall n, civil_from_days (n + 1) = nextb (civil_from_days n).
Proof.
  intros n. destruct (civil_ok n) as [V D]. destruct (valid_ok _ V) as (W&E&_). destruct (valid_ok _ W) as (_&_&C). rewrite E, D in C. exact C.
Qed.
Lemma civil_on_day : forall n, on_day n (civil_from_days n).
Proof.
  assert (S : forall n, next_day (civil_from_days n) (civil_from_days (n + 1))).
  { intros n. destruct (civil_ok n) as [V _]. apply next_iff; [apply valid_day, V|exact V|apply civil_next]. }
  assert (U : forall k : nat, on_day (Z.of_nat k) (civil_from_days (Z.of_nat k))).
  { induction k as [|k IH]; [exact Epoch|]. rewrite Nat2Z.inj_succ. exact (DayAfter _ _ _ IH (S _)). }
  assert (L : forall k : nat, on_day (- Z.of_nat k) (civil_from_days (- Z.of_nat k))).
  { induction k as [|k IH]; [exact Epoch|]. rewrite Nat2Z.inj_succ. replace (- Z.succ (Z.of_nat k)) with (- Z.of_nat k - 1) by lia.
    apply (DayBefore _ _ _ IH); [|apply valid_day, civil_ok]. replace (- Z.of_nat k) with (- Z.of_nat k - 1 + 1) at 2 by ring. apply S. }
  intros n. destruct (Z.le_gt_cases 0 n) as [P|P].
  - rewrite <- (Z2Nat.id n P). apply U.
  - replace n with (- Z.of_nat (Z.to_nat (- n))) by (rewrite Z2Nat.id; lia). apply L.
Qed.

(** ** Numbers *)
Lemma digit_iff : forall c n, digit c n <-> isdigit c = true /\ n = code c - 48.
Proof.
  intros c n. unfold digit. cbn [In]. split.
  - intros H. repeat match goal with H : _ \/ _ |- _ => destruct H as [H|H] end; try (injection H as <- <-; split; reflexivity). contradiction.
  - intros [D ->]. destruct c as [[|] [|] [|] [|] [|] [|] [|] [|]]; try discriminate D; cbn; tauto.
Qed.
Lemma digits_value_acc : forall s acc, all_of isdigit s = true -> digits_value acc s = acc * 10 ^ Z.of_nat (String.length s) + digits_value 0 s.
Proof.
  induction s as [|c s IH]; intros acc A; [cbn; ring|]. cbn [all_of] in A. apply andb_true_iff in A as [C A]. cbn [digits_value String.length]. rewrite C.
  rewrite (IH (acc * 10 + _)), (IH (0 * 10 + _)) by exact A. rewrite Nat2Z.inj_succ, Z.pow_succ_r by lia. ring.
Qed.
Lemma digits_value_app : forall s c acc, all_of isdigit s = true -> isdigit c = true -> digits_value acc (s ++ String c "") = digits_value acc s * 10 + (code c - 48).
Proof.
  induction s as [|x s IH]; intros c acc A C; cbn [append digits_value]; [rewrite C; reflexivity|]. cbn [all_of] in A. apply andb_true_iff in A as [X A]. rewrite X. apply IH; assumption.
Qed.
Lemma all_of_app : forall p a b, all_of p (a ++ b) = all_of p a && all_of p b.
Proof. induction a as [|x a IH]; intros b; [reflexivity|]. cbn. rewrite IH. apply andb_assoc. Qed.
Lemma number_value : forall s n, number s n -> all_of isdigit s = true /\ digits_value 0 s = n.
Proof.
  induction 1 as [|s n c d N [A V] D]; [split; reflexivity|]. apply digit_iff in D as [C ->]. split.
  - rewrite all_of_app, A. cbn. rewrite C. reflexivity.
  - rewrite digits_value_app by assumption. rewrite V. reflexivity.
Qed.
Lemma length_app : forall a b, String.length (a ++ b) = (String.length a + String.length b)%nat.
Proof. induction a; intros; cbn; auto. Qed.
Lemma pad_number : forall w n, 0 <= n -> number (pad w n) (n mod 10 ^ Z.of_nat w) /\ String.length (pad w n) = w.
Proof.
  induction w as [|w IH]; intros n P; [cbn; rewrite Z.mod_1_r; split; [constructor|reflexivity]|]. cbn [pad].
  destruct (IH (n / 10)) as [A B]; [apply Z.div_pos; lia|]. rewrite length_app, B. split; [|cbn; lia].
  rewrite Nat2Z.inj_succ, Z.pow_succ_r by lia. rewrite Z.rem_mul_r by (try lia; apply Z.pow_pos_nonneg; lia).
  replace (n mod 10 + 10 * ((n / 10) mod 10 ^ Z.of_nat w)) with ((n / 10) mod 10 ^ Z.of_nat w * 10 + n mod 10) by ring.
  constructor; [exact A|]. apply digit_iff. pose proof (Z.mod_pos_bound n 10 ltac:(lia)) as B10. destruct (chr_digit (n mod 10) B10) as [D E]. split; [exact D|]. rewrite E. ring.
Qed.
Lemma pad_exact : forall w n, 0 <= n < 10 ^ Z.of_nat w -> number (pad w n) n /\ String.length (pad w n) = w.
Proof. intros w n B. destruct (pad_number w n ltac:(lia)) as [A L]. rewrite Z.mod_small in A by exact B. auto. Qed.

(** ** Reading *)
Definition stop (r : string) : Prop := match r with String c _ => isdigit c = false | EmptyString => True end.
Lemma read_digits_app : forall s max acc count r, all_of isdigit s = true -> (String.length s <= max)%nat -> ((String.length s = max) \/ stop r) ->
  read_digits max acc count (s ++ r) = (digits_value acc s, (count + String.length s)%nat, r).
Proof.
  induction s as [|c s IH]; intros max acc count r A L E.
  - cbn [append digits_value String.length]. rewrite Nat.add_0_r. destruct E as [E|E].
    + cbn in E. subst max. reflexivity.
    + destruct max as [|max]; [reflexivity|]. destruct r as [|x r]; [reflexivity|]. cbn in E |- *. rewrite E. reflexivity.
  - cbn [all_of] in A. apply andb_true_iff in A as [C A]. cbn [String.length] in L, E. destruct max as [|max]; [lia|]. cbn [append read_digits digits_value String.length]. rewrite C.
    rewrite IH; [|exact A|lia|destruct E; [left; lia|right; assumption]]. f_equal. f_equal. lia.
Qed.
Lemma read_unsigned_app : forall s n max r, number s n -> (1 <= String.length s <= max)%nat -> (String.length s = max \/ stop r) -> read_unsigned max (s ++ r) = Some (n, r).
Proof.
  intros s n max r N L E. destruct (number_value s n N) as [A V]. unfold read_unsigned. rewrite read_digits_app by (assumption || lia). rewrite V.
  destruct (String.length s) as [|l] eqn:X; [lia|]. reflexivity.
Qed.
Lemma number_first_digit : forall s n, number s n -> (1 <= String.length s)%nat -> exists c q, s = String c q /\ isdigit c = true.
Proof. intros s n N L. destruct (number_value s n N) as [A _]. destruct s as [|c q]; [cbn in L; lia|]. cbn in A. apply andb_true_iff in A as [A _]. eauto. Qed.
Lemma read_signed_app : forall s n max r, number s n -> (1 <= String.length s <= max)%nat -> (String.length s = max \/ stop r) -> read_signed max (s ++ r) = Some (n, r).
Proof.
  intros s n max r N L E. pose proof (read_unsigned_app s n max r N L E) as R. destruct (number_first_digit s n N) as (c&q&Es&D); [lia|]. subst s. cbn [append] in *. unfold read_signed.
  unfold isdigit in D. rewrite andb_true_iff, !Z.leb_le in D. destruct (Z.eqb_spec (code c) 45); [lia|]. destruct (Z.eqb_spec (code c) 43); [lia|]. exact R.
Qed.
Lemma read_fraction_app : forall g max k acc r, all_of isdigit g = true -> (String.length g <= max)%nat -> (String.length g = max \/ stop r) ->
  (String.length g <= S k)%nat ->
  read_fraction max (10 ^ Z.of_nat k) acc (g ++ r) = (acc + digits_value 0 g * 10 ^ (Z.of_nat (S k) - Z.of_nat (String.length g)), r).
Proof.
  induction g as [|c g IH]; intros max k acc r A L E K.
  - cbn [append digits_value String.length]. replace (acc + 0 * _) with acc by ring. destruct E as [E|E].
    + cbn in E. subst max. reflexivity.
    + destruct max as [|max]; [reflexivity|]. destruct r as [|x r]; [reflexivity|]. cbn in E |- *. rewrite E. reflexivity.
  - cbn [all_of] in A. apply andb_true_iff in A as [C A]. cbn [String.length] in *. destruct max as [|max]; [lia|]. cbn [append read_fraction]. rewrite C.
    assert (V : digits_value 0 (String c g) = (code c - 48) * 10 ^ Z.of_nat (String.length g) + digits_value 0 g).
    { cbn [digits_value]. rewrite C. rewrite digits_value_acc by exact A. ring. }
    rewrite V. destruct k as [|k].
    + assert (g = "") by (destruct g; [reflexivity|cbn in K; lia]). subst g. cbn [append digits_value String.length]. change (10 ^ Z.of_nat 0) with 1.
      destruct E as [E|E].
      * cbn in E. assert (max = 0%nat) by lia. subst max. cbn. f_equal. ring.
      * destruct max as [|max]; [cbn; f_equal; ring|]. destruct r as [|x r]; [cbn; f_equal; ring|]. cbn in E. cbn [read_fraction]. rewrite E. f_equal. change (Z.of_nat 1 - Z.of_nat 1) with 0. change (10 ^ 0) with 1. change (10 ^ Z.of_nat 0) with 1. ring.
    + assert (S10 : 10 ^ Z.of_nat (S k) / 10 = 10 ^ Z.of_nat k) by (rewrite Nat2Z.inj_succ, Z.pow_succ_r, Z.mul_comm, Z.div_mul by lia; reflexivity).
      rewrite S10, IH; [|exact A|lia|destruct E; [left; lia|right; assumption]|lia]. f_equal.
      replace (Z.of_nat (S (S k)) - Z.of_nat (S (String.length g))) with (Z.of_nat (S k) - Z.of_nat (String.length g)) by lia.
      assert (P : 10 ^ Z.of_nat (S k) = 10 ^ Z.of_nat (String.length g) * 10 ^ (Z.of_nat (S k) - Z.of_nat (String.length g))) by (rewrite <- Z.pow_add_r by lia; f_equal; lia).
      rewrite P. ring.
Qed.
Definition ends (r : string) : Prop := match r with String c _ => isdigit c = false /\ code c <> 46 | EmptyString => True end.
Lemma read_seconds_app : forall ss s sf f r, number ss s -> String.length ss = 2%nat -> (sf = "" /\ f = 0 \/ exists g, sf = "." ++ g /\ nanos g f) -> ends r ->
  read_seconds (ss ++ sf ++ r) = Some (s * 1000000000 + f, r).
Proof.
  intros ss s sf f r N L F E. destruct (number_value ss s N) as [A V]. unfold read_seconds. destruct F as [[-> ->]|(g&->&n&G&B&->)].
  - cbn [append]. rewrite read_digits_app; [|exact A|lia|right; destruct r; [exact I|apply E]]. rewrite V, L. destruct r as [|c r]; [cbn; f_equal; f_equal; ring|].
    destruct E as [_ E]. destruct (Z.eqb_spec (code c) 46); [contradiction|]. cbn. f_equal. f_equal. ring.
  - rewrite read_digits_app; [|exact A|lia|right; reflexivity]. rewrite V, L. destruct (number_value g n G) as [Ag Vg].
    change (("." ++ g) ++ r) with (String "."%char (g ++ r)). cbv beta iota. change ((code "." =? 46) && Nat.ltb (0 + 2) 12) with true. cbv iota. change (11 - (0 + 2))%nat with 9%nat.
    change 100000000 with (10 ^ Z.of_nat 8). rewrite read_fraction_app; [|exact Ag|lia|right; destruct r; [exact I|apply E]|lia]. rewrite Vg.
    change (Z.of_nat 9) with 9. f_equal.
Qed.
Lemma expect_app : forall c r, expect c (String c "" ++ r) = Some r.
Proof. intros c r. cbn. rewrite Ascii.eqb_refl. reflexivity. Qed.
Lemma app_assoc : forall a b c : string, (a ++ b) ++ c = a ++ (b ++ c).
Proof. induction a; intros; cbn; [|rewrite IHa]; reflexivity. Qed.
Lemma nanos_range : forall g f, nanos g f -> 0 <= f < 1000000000.
Proof.
  intros g f (n&N&L&->). destruct (number_value g n N) as [A V].
  assert (B : forall s, all_of isdigit s = true -> 0 <= digits_value 0 s < 10 ^ Z.of_nat (String.length s)).
  { induction s as [|c s IH]; intros As; [cbn; lia|]. cbn [all_of] in As. apply andb_true_iff in As as [C As]. specialize (IH As). cbn [digits_value String.length]. rewrite C.
    rewrite digits_value_acc by exact As. unfold isdigit in C. rewrite andb_true_iff, !Z.leb_le in C. rewrite Nat2Z.inj_succ, Z.pow_succ_r by lia. nia. }
  specialize (B g A). rewrite V in B. set (l := Z.of_nat (String.length g)) in *. assert (P : 1000000000 = 10 ^ l * 10 ^ (9 - l)) by (rewrite <- Z.pow_add_r by lia; replace (l + (9 - l)) with 9 by ring; reflexivity).
  assert (0 < 10 ^ (9 - l)) by (apply Z.pow_pos_nonneg; lia). nia.
Qed.
Lemma number_pos : forall s n, number s n -> 0 <= n.
Proof. induction 1 as [|s n c d N IH D]; [lia|]. apply digit_iff in D as [C ->]. unfold isdigit in C. rewrite andb_true_iff, !Z.leb_le in C. lia. Qed.
Lemma local_read : forall s t r, local_text s t -> ends r -> read_local (s ++ r) = Some (t, r).
Proof.
  intros s t r L E. destruct L as [sy sm sd sh smi ss sf y m d h mi sec f day Ny Ly Nm Lm Nd Ld Nh Lh Nmi Lmi Ns Ls Bh Bmi Bs D F].
  rewrite !app_assoc. unfold read_local.
  rewrite (read_signed_app sy y 4) by (try assumption; rewrite ?Ly; auto with arith). cbv beta iota. rewrite expect_app.
  rewrite (read_unsigned_app sm m 2) by (try assumption; rewrite ?Lm; auto with arith). cbv beta iota. rewrite expect_app.
  rewrite (read_unsigned_app sd d 2) by (try assumption; rewrite ?Ld; auto with arith). cbv beta iota. rewrite expect_app.
  rewrite (read_unsigned_app sh h 2) by (try assumption; rewrite ?Lh; auto with arith). cbv beta iota. rewrite expect_app.
  rewrite (read_unsigned_app smi mi 2) by (try assumption; rewrite ?Lmi; auto with arith). cbv beta iota. rewrite expect_app.
  rewrite (read_seconds_app ss sec sf f r Ns Ls F E). cbv beta iota.
  destruct (on_day_days _ _ D) as [V Dd]. cbn [valid days] in V, Dd. rewrite V, Dd.
  assert (Bf : 0 <= f < 1000000000) by (destruct F as [[_ ->]|(g&_&G)]; [lia|exact (nanos_range g f G)]).
  pose proof (number_pos ss sec Ns). destruct (Z.ltb_spec h 24); [|lia]. destruct (Z.ltb_spec mi 60); [|lia]. destruct (Z.ltb_spec (sec * 1000000000 + f) 60000000000); [|lia].
  cbn [andb]. f_equal. f_equal. ring.
Qed.
Lemma offset_read : forall s o, offset_text s o -> ends s /\ match read_offset s with Some x => x = o | None => o = 0 end.
Proof.
  intros s o H. destruct H as [|sh sm h m Nh Lh Nm Lm|sh sm h m Nh Lh Nm Lm].
  - split; [split; [reflexivity|discriminate]|reflexivity].
  - split; [split; [reflexivity|discriminate]|]. unfold read_offset. cbn [append]. change (code "+" =? 45) with false. unfold read_signed. change (code "+" =? 45) with false. change (code "+" =? 43) with true. cbv iota.
    rewrite (read_unsigned_app sh h 2) by (try assumption; rewrite ?Lh; auto with arith). cbv beta iota. change (String ":" sm) with (String ":" "" ++ sm). rewrite expect_app. unfold read_minutes.
    destruct (number_value sm m Nm) as [A V]. pose proof (read_digits_app sm 2 0 0 "" A ltac:(lia) ltac:(left; lia)) as R. rewrite V, Lm in R.
    replace (sm ++ "") with sm in R by (clear; induction sm as [|a l IH]; cbn; [|rewrite <- IH]; reflexivity). rewrite R. cbn [Nat.eqb Nat.add]. rewrite Z.abs_eq by exact (number_pos sh h Nh). ring.
  - split; [split; [reflexivity|discriminate]|]. unfold read_offset. cbn [append]. change (code "-" =? 45) with true. unfold read_signed. change (code "-" =? 45) with true. cbv iota.
    rewrite (read_unsigned_app sh h 2) by (try assumption; rewrite ?Lh; auto with arith). cbv beta iota. change (String ":" sm) with (String ":" "" ++ sm). rewrite expect_app. unfold read_minutes.
    destruct (number_value sm m Nm) as [A V]. pose proof (read_digits_app sm 2 0 0 "" A ltac:(lia) ltac:(left; lia)) as R. rewrite V, Lm in R.
    replace (sm ++ "") with sm in R by (clear; induction sm as [|a l IH]; cbn; [|rewrite <- IH]; reflexivity). rewrite R. cbn [Nat.eqb Nat.add]. rewrite Z.abs_opp, Z.abs_eq by exact (number_pos sh h Nh). ring.
Qed.
Lemma rfc3339_reads : forall s t, rfc3339 s t -> from_rfc3339 s = Some t.
Proof.
  intros s t (a&b&l&o&->&L&O&->). destruct (offset_read b o O) as [E R]. unfold from_rfc3339. rewrite (local_read a l b L E). destruct (read_offset b) as [x|].
  - subst x. reflexivity.
  - subst o. replace (l - 0 * 60000000000) with l by ring. destruct (expect "Z" b); reflexivity.
Qed.
(** ** Writing *)
Lemma year_range : forall n, -719162 <= n <= 2932896 -> let '(y, m, d) := civil_from_days n in 1 <= y <= 9999.
Proof.
  intros n B. pose proof (civil_ok n) as [V D]. destruct (civil_from_days n) as [[y m] d]. pose proof (valid_range y m d V) as [M Dd]. cbn [days] in D. unfold days_from_civil in D.
  destruct (Z.leb_spec m 2); destruct (Z.ltb_spec 2 m); try lia.
Qed.
Lemma rfc3339_writes : forall t, - 2 ^ 63 <= t < 2 ^ 63 -> rfc3339 (to_rfc3339 t) (Z.quot t 1000000 * 1000000).
Proof.
  intros t B. unfold to_rfc3339. set (ms := Z.quot t ns_per_ms). assert (M : - 9223372036855 <= ms <= 9223372036855) by (unfold ms, ns_per_ms; change (2 ^ 63) with 9223372036854775808 in B; lia).
  fold ns_per_ms. change 1000000 with ns_per_ms. fold ms. set (day := ms / ms_per_day). set (rest := ms mod ms_per_day).
  assert (E : ms = day * ms_per_day + rest) by (unfold day, rest; rewrite (Z.div_mod ms ms_per_day) at 1 by discriminate; ring).
  assert (R : 0 <= rest < ms_per_day) by (apply Z.mod_pos_bound; reflexivity). assert (Dy : -719162 <= day <= 2932896) by (unfold ms_per_day in *; lia).
  pose proof (year_range day Dy) as Y. pose proof (civil_on_day day) as O. pose proof (civil_ok day) as [V _]. destruct (civil_from_days day) as [[y m] d]. pose proof (valid_range y m d V) as [Mr Dr].
  unfold ms_per_day in R.
  destruct (pad_exact 4 y) as [Ny Ly]; [change (10 ^ Z.of_nat 4) with 10000; lia|]. destruct (pad_exact 2 m) as [Nm Lm]; [change (10 ^ Z.of_nat 2) with 100; lia|].
  destruct (pad_exact 2 d) as [Nd Ld]; [change (10 ^ Z.of_nat 2) with 100; lia|]. destruct (pad_exact 2 (rest / 3600000)) as [Nh Lh]; [change (10 ^ Z.of_nat 2) with 100; lia|].
  destruct (pad_exact 2 (rest / 60000 mod 60)) as [Nmi Lmi]; [change (10 ^ Z.of_nat 2) with 100; lia|]. destruct (pad_exact 2 (rest / 1000 mod 60)) as [Ns Ls]; [change (10 ^ Z.of_nat 2) with 100; lia|].
  destruct (pad_exact 3 (rest mod 1000)) as [Nf Lf]; [change (10 ^ Z.of_nat 3) with 1000; lia|].
  eexists _, "Z", _, 0. split; [|split; [|split; [constructor|]]].
  2: { eapply Local with (day := day); [exact Ny|exact Ly|exact Nm|exact Lm|exact Nd|exact Ld|exact Nh|exact Lh|exact Nmi|exact Lmi|exact Ns|exact Ls|lia|lia|lia|exact O|].
       right. exists (pad 3 (rest mod 1000)). split; [reflexivity|]. exists (rest mod 1000). split; [exact Nf|]. split; [rewrite Lf; lia|reflexivity]. }
  - rewrite !app_assoc. reflexivity.
  - rewrite Lf. change (10 ^ (9 - Z.of_nat 3)) with 1000000. rewrite E. unfold ms_per_day, ns_per_ms. lia.
Qed.
