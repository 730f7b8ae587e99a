(** base64 and the Authorization header. *)
From Coq Require Import String Ascii ZArith List Bool Lia.
From Verif Require Import UriModel UriSpec.
Import ListNotations.
Local Open Scope Z_scope.

Lemma range64 : forall P : Z -> bool, forallb P (map Z.of_nat (seq 0 64)) = true -> forall i, 0 <= i < 64 -> P i = true.
Proof.
  intros P H i I. rewrite forallb_forall in H. apply H. apply in_map_iff. exists (Z.to_nat i). split; [lia|]. apply in_seq. lia.
Qed.
Lemma char_at_digit : forall i, 0 <= i < 64 -> char_at i = digit64 i.
Proof. intros i I. apply Z.eqb_eq. revert i I. apply range64. vm_compute. reflexivity. Qed.
Lemma index_digit : forall i, 0 <= i < 64 -> index_of (digit64 i) = i.
Proof. intros i I. apply Z.eqb_eq. revert i I. apply range64. vm_compute. reflexivity. Qed.
Lemma digit_readable : forall i, 0 <= i < 64 -> negb (digit64 i =? 61) && is_base64 (digit64 i) = true.
Proof. intros i I. revert i I. apply range64. vm_compute. reflexivity. Qed.

Lemma land_low : forall x n, 0 <= n -> Z.land x (Z.ones n) = x mod 2 ^ n.
Proof. intros. apply Z.land_ones. assumption. Qed.
Lemma sh : forall x m n k, Z.shiftr m n = Z.ones k -> 0 <= n -> 0 <= k -> Z.shiftr (Z.land x m) n = (x / 2 ^ n) mod 2 ^ k.
Proof. intros x m n k E N K. rewrite Z.shiftr_land, E, Z.land_ones, Z.shiftr_div_pow2 by assumption. reflexivity. Qed.

Ltac dm := Z.to_euclidean_division_equations; lia.
Lemma four_digits : forall a b c, 0 <= a < 256 -> 0 <= b < 256 -> 0 <= c < 256 ->
  let n := a * 65536 + b * 256 + c in four a b c = [n / 262144; n / 4096 mod 64; n / 64 mod 64; n mod 64].
Proof.
  intros a b c A B C n. unfold four, u8.
  rewrite (sh a 252 2 6), (sh b 240 4 4), (sh c 192 6 2) by (reflexivity || lia).
  change 3 with (Z.ones 2). change 15 with (Z.ones 4). change 63 with (Z.ones 6). rewrite !Z.land_ones, !Z.shiftl_mul_pow2 by lia.
  change (2 ^ 2) with 4. change (2 ^ 4) with 16. change (2 ^ 6) with 64. unfold n. clear n.
  f_equal; [dm|]. f_equal; [dm|]. f_equal; [dm|]. f_equal. dm.
Qed.
Lemma three_bytes : forall a b c, 0 <= a < 256 -> 0 <= b < 256 -> 0 <= c < 256 ->
  let n := a * 65536 + b * 256 + c in three (n / 262144) (n / 4096 mod 64) (n / 64 mod 64) (n mod 64) = [a; b; c].
Proof.
  intros a b c A B C n. unfold three, u8.
  rewrite (sh _ 48 4 2), (sh _ 60 2 4) by (reflexivity || lia).
  change 3 with (Z.ones 2). change 15 with (Z.ones 4). rewrite !Z.land_ones, !Z.shiftl_mul_pow2 by lia.
  change (2 ^ 2) with 4. change (2 ^ 4) with 16. change (2 ^ 6) with 64. unfold n. clear n.
  f_equal; [dm|]. f_equal; [dm|]. f_equal. dm.
Qed.
Lemma digit_bounds : forall a b c, 0 <= a < 256 -> 0 <= b < 256 -> 0 <= c < 256 ->
  let n := a * 65536 + b * 256 + c in
  0 <= n / 262144 < 64 /\ 0 <= n / 4096 mod 64 < 64 /\ 0 <= n / 64 mod 64 < 64 /\ 0 <= n mod 64 < 64.
Proof. intros a b c A B C n. unfold n. repeat split; dm. Qed.

Lemma group_eq : forall a b c, 0 <= a < 256 -> 0 <= b < 256 -> 0 <= c < 256 -> map char_at (four a b c) = group a b c.
Proof.
  intros a b c A B C. rewrite (four_digits a b c A B C). destruct (digit_bounds a b c A B C) as (D1&D2&D3&D4).
  cbn [map]. unfold group. rewrite !char_at_digit by assumption. reflexivity.
Qed.
Lemma map_firstn : forall A B (f : A -> B) n l, map f (firstn n l) = firstn n (map f l).
Proof. intros A B f n l. symmetry. apply firstn_map. Qed.
(** Induction in steps of three. *)
Lemma by_three : forall P : list Z -> Prop,
  P [] -> (forall a, P [a]) -> (forall a b, P [a; b]) -> (forall a b c q, P q -> P (a :: b :: c :: q)) -> forall l, P l.
Proof.
  intros P H0 H1 H2 H3. assert (X : forall n l, (length l <= n)%nat -> P l).
  { induction n as [|n IH]; intros [|a [|b [|c q]]] L; auto; cbn in L; try lia. apply H3. apply IH. lia. }
  intros l. apply (X (length l)). lia.
Qed.
Lemma encode_rfc : forall l, bytes l -> base64_encode l = rfc4648 l.
Proof.
  intros l. induction l as [|a|a b|a b c q IH] using by_three; intros B.
  - reflexivity.
  - inversion B as [|? ? A _]; subst. cbn [base64_encode rfc4648]. rewrite map_firstn, group_eq by (assumption || lia). reflexivity.
  - inversion B as [|? ? A B1]; subst. inversion B1 as [|? ? A2 _]; subst. cbn [base64_encode rfc4648].
    rewrite map_firstn, group_eq by (assumption || lia). reflexivity.
  - inversion B as [|? ? A B1]; subst. inversion B1 as [|? ? A2 B2]; subst. inversion B2 as [|? ? A3 B3]; subst.
    cbn [base64_encode rfc4648]. rewrite group_eq, IH by assumption. reflexivity.
Qed.

Lemma decode_group : forall a b c q, 0 <= a < 256 -> 0 <= b < 256 -> 0 <= c < 256 ->
  base64_decode (group a b c ++ q) = [a; b; c] ++ base64_decode q.
Proof.
  intros a b c q A B C. destruct (digit_bounds a b c A B C) as (D1&D2&D3&D4). unfold group, base64_decode. cbv zeta.
  cbn [app readable]. rewrite !digit_readable by assumption. cbn [decode_groups]. rewrite !index_digit by assumption.
  rewrite (three_bytes a b c A B C). reflexivity.
Qed.
Lemma three_first : forall a b c d, firstn 1 (three a b c d) = firstn 1 (three a b 0 0).
Proof. reflexivity. Qed.
Lemma three_second : forall a b c d, firstn 2 (three a b c d) = firstn 2 (three a b c 0).
Proof. reflexivity. Qed.
Lemma decode_encode : forall l, bytes l -> base64_decode (base64_encode l) = l.
Proof.
  intros l B. rewrite encode_rfc by assumption. revert B.
  induction l as [|a|a b|a b c q IH] using by_three; intros B.
  - reflexivity.
  - inversion B as [|? ? A _]; subst. cbn [rfc4648]. assert (Z0 : 0 <= 0 < 256) by lia.
    destruct (digit_bounds a 0 0 A Z0 Z0) as (D1&D2&D3&D4). unfold group, base64_decode. cbv zeta. cbn [firstn app readable].
    rewrite !digit_readable by assumption. replace (negb (61 =? 61) && is_base64 61) with false by reflexivity.
    cbn [decode_groups]. rewrite !index_digit by assumption. pose proof (three_bytes a 0 0 A Z0 Z0) as T. cbv zeta in T.
    rewrite three_first. assert (F : firstn 1 (three ((a * 65536 + 0 * 256 + 0) / 262144) ((a * 65536 + 0 * 256 + 0) / 4096 mod 64)
       ((a * 65536 + 0 * 256 + 0) / 64 mod 64) ((a * 65536 + 0 * 256 + 0) mod 64)) = [a]) by (rewrite T; reflexivity).
    rewrite three_first in F. exact F.
  - inversion B as [|? ? A B1]; subst. inversion B1 as [|? ? A2 _]; subst. cbn [rfc4648]. assert (Z0 : 0 <= 0 < 256) by lia.
    destruct (digit_bounds a b 0 A A2 Z0) as (D1&D2&D3&D4). unfold group, base64_decode. cbv zeta. cbn [firstn app readable].
    rewrite !digit_readable by assumption. replace (negb (61 =? 61) && is_base64 61) with false by reflexivity.
    cbn [decode_groups]. rewrite !index_digit by assumption. pose proof (three_bytes a b 0 A A2 Z0) as T. cbv zeta in T.
    rewrite three_second. assert (F : firstn 2 (three ((a * 65536 + b * 256 + 0) / 262144) ((a * 65536 + b * 256 + 0) / 4096 mod 64)
       ((a * 65536 + b * 256 + 0) / 64 mod 64) ((a * 65536 + b * 256 + 0) mod 64)) = [a; b]) by (rewrite T; reflexivity).
    rewrite three_second in F. exact F.
  - inversion B as [|? ? A B1]; subst. inversion B1 as [|? ? A2 B2]; subst. inversion B2 as [|? ? A3 B3]; subst.
    cbn [rfc4648]. rewrite decode_group by assumption. rewrite IH by assumption. reflexivity.
Qed.
Lemma credentials_of : forall id key, ~ In 58 id -> credentials (id ++ 58 :: key) = (id, key).
Proof.
  induction id as [|c q IH]; intros key N; cbn [app credentials]; [reflexivity|].
  destruct (c =? 58) eqn:E; [apply Z.eqb_eq in E; elim N; left; congruence|]. rewrite IH; [reflexivity|]. intros I. apply N. right. exact I.
Qed.
