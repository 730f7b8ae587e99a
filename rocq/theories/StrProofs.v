From Coq Require Import ZArith List Bool String Ascii Lia Arith QArith Qround.
From Verif Require Import StrModel StrSpec.
Import ListNotations.
Local Open Scope string_scope.
Local Open Scope Z_scope.

(** * Characters: everything about a single character is decided by going through all 256 *)

Definition all_ascii : list ascii := map ascii_of_nat (seq 0 256).

Lemma all_ascii_all c : In c all_ascii.
Proof.
  unfold all_ascii. rewrite <- (ascii_nat_embedding c). apply in_map. apply in_seq.
  pose proof (nat_ascii_bounded c). lia.
Qed.

Lemma forall_ascii (f : ascii -> bool) : forallb f all_ascii = true -> forall c, f c = true.
Proof. intros H c. rewrite forallb_forall in H. apply H, all_ascii_all. Qed.

Lemma forall_ascii2 (f : ascii -> ascii -> bool) :
  forallb (fun x => forallb (f x) all_ascii) all_ascii = true -> forall x y, f x y = true.
Proof. intros H x y. revert y. apply forall_ascii. revert x. apply forall_ascii. exact H. Qed.

Lemma code_nat c : code c = Z.of_nat (nat_of_ascii c).
Proof. unfold code, nat_of_ascii. rewrite N_nat_Z. reflexivity. Qed.

Lemma code_inj a b : code a = code b -> a = b.
Proof.
  rewrite !code_nat. intros H. apply Nat2Z.inj in H.
  rewrite <- (ascii_nat_embedding a), <- (ascii_nat_embedding b). congruence.
Qed.

Lemma code_range c : 0 <= code c < 256.
Proof. rewrite code_nat. pose proof (nat_ascii_bounded c). lia. Qed.

Lemma code_is c n : code c =? n = true -> c = ascii_of_nat (Z.to_nat n).
Proof.
  intros H. apply Z.eqb_eq in H. subst n. rewrite code_nat, Nat2Z.id. symmetry. apply ascii_nat_embedding.
Qed.

(** Decision procedures for the specification's character predicates. *)
Definition pairb (x y : ascii) : bool :=
  existsb (fun n => match nth_error lower_letters n, nth_error upper_letters n with
                    | Some a, Some b => Ascii.eqb a x && Ascii.eqb b y | _, _ => false end) (seq 0 26).

Lemma pairb_ok x y : pairb x y = true <-> case_pair x y.
Proof.
  unfold pairb, case_pair. rewrite existsb_exists. split.
  - intros (n & _ & H). exists n.
    destruct (nth_error lower_letters n); [|discriminate]. destruct (nth_error upper_letters n); [|discriminate].
    apply andb_true_iff in H. destruct H as [A B]. apply Ascii.eqb_eq in A, B. subst. auto.
  - intros (n & A & B). exists n. split.
    + apply in_seq. assert (n < List.length lower_letters)%nat by (apply nth_error_Some; congruence).
      change (List.length lower_letters) with 26%nat in *. lia.
    + rewrite A, B, !Ascii.eqb_refl. reflexivity.
Qed.

Definition same_letterb (x y : ascii) : bool := Ascii.eqb x y || pairb x y || pairb y x.

Lemma same_letterb_ok x y : same_letterb x y = true <-> same_letter x y.
Proof.
  unfold same_letterb, same_letter. rewrite !orb_true_iff, !pairb_ok, Ascii.eqb_eq. tauto.
Qed.

Lemma toupper_same x y : Ascii.eqb (toupper x) (toupper y) = same_letterb x y.
Proof.
  apply Bool.eqb_prop.
  revert x y. apply (forall_ascii2 (fun x y => Bool.eqb (Ascii.eqb (toupper x) (toupper y)) (same_letterb x y))).
  vm_compute. reflexivity.
Qed.

Lemma iequals_same a : forall b, iequals a b = true <-> same_text a b.
Proof.
  unfold same_text. induction a as [|x a IH]; intros [|y b]; cbn.
  - split; auto.
  - split; [discriminate|intros H; inversion H].
  - split; [discriminate|intros H; inversion H].
  - rewrite andb_true_iff, toupper_same, same_letterb_ok, IH. split.
    + intros [A B]. constructor; auto.
    + intros H. inversion H; subst. auto.
Qed.

Lemma iequals_refl a : iequals a a = true.
Proof. induction a; cbn; auto. rewrite Ascii.eqb_refl. auto. Qed.

Lemma iequals_sym a : forall b, iequals a b = iequals b a.
Proof. induction a; intros [|y b]; cbn; auto. rewrite Ascii.eqb_sym, IHa. reflexivity. Qed.

Lemma iequals_trans a : forall b c, iequals a b = true -> iequals b c = true -> iequals a c = true.
Proof.
  induction a; intros [|y b] [|z c]; cbn; auto; try discriminate.
  rewrite !andb_true_iff, !Ascii.eqb_eq. intros [A B] [C D]. split; [congruence|eauto].
Qed.

(** * Ordering *)

Lemma str_lt_irrefl a : str_lt a a = false.
Proof. induction a; cbn; auto. rewrite Z.ltb_irrefl. auto. Qed.

Lemma str_lt_trans a : forall b c, str_lt a b = true -> str_lt b c = true -> str_lt a c = true.
Proof.
  induction a as [|x a IH]; intros [|y b] [|z c]; cbn; auto; try discriminate.
  destruct (Z.ltb_spec (code x) (code y)), (Z.ltb_spec (code y) (code z)),
    (Z.ltb_spec (code x) (code z)), (Z.ltb_spec (code y) (code x)), (Z.ltb_spec (code z) (code y)),
    (Z.ltb_spec (code z) (code x)); auto; try discriminate; try lia; eauto.
Qed.

Lemma str_lt_total a : forall b, str_lt a b = true \/ a = b \/ str_lt b a = true.
Proof.
  induction a as [|x a IH]; intros [|y b]; cbn; auto.
  destruct (Z.ltb_spec (code x) (code y)); auto.
  destruct (Z.ltb_spec (code y) (code x)); auto.
  assert (x = y) by (apply code_inj; lia). subst.
  destruct (IH b) as [H1|[H1|H1]]; auto. subst. auto.
Qed.

(** * set *)

Lemma take_length n : forall s, (length (take n s) <= n)%nat.
Proof. induction n; intros [|c s]; cbn; try lia. specialize (IHn s). lia. Qed.

Lemma take_beginning n : forall s, is_beginning (take n s) s.
Proof.
  induction n; intros [|c s]; cbn; try (eexists; reflexivity).
  destruct (IHn s) as [r E]. exists r. cbn. congruence.
Qed.

Lemma take_exact n : forall s, (n <= length s)%nat -> length (take n s) = n.
Proof. induction n; intros [|c s]; cbn; intros; try lia. f_equal. apply IHn. lia. Qed.

Lemma set_fits L s tl v : str_set L s tl = Ret v -> (length v <= L)%nat.
Proof.
  unfold str_set. destruct (Nat.ltb_spec L (length s)).
  - destruct tl; [discriminate|]. cbn. intros [= <-]. apply take_length.
  - cbn. intros [= <-]. lia.
Qed.

(** * printable *)

Lemma ci_is_valid_ok s : ci_is_valid s = Some true <-> Forall printable (chars s).
Proof.
  induction s as [|c s IH]; cbn.
  - split; auto.
  - assert (P : (((signed_code c <? 32) || (126 <? signed_code c)) && negb (signed_code c =? 10) = false) <-> printable c).
    { unfold printable, signed_code. rewrite code_nat. pose proof (nat_ascii_bounded c).
      destruct (Z.ltb_spec (Z.of_nat (nat_of_ascii c)) 128); cbn;
        match goal with |- context [?a <? 32] => destruct (Z.ltb_spec a 32) end;
        match goal with |- context [126 <? ?a] => destruct (Z.ltb_spec 126 a) end;
        match goal with |- context [?a =? 10] => destruct (Z.eqb_spec a 10) end; cbn;
        split; intros; try discriminate; try lia; auto. }
    destruct (((signed_code c <? 32) || (126 <? signed_code c)) && negb (signed_code c =? 10)).
    + split; [discriminate|]. intros F. inversion F; subst. apply P in H1. discriminate.
    + rewrite IH. split; [intros; constructor; tauto|intros F; inversion F; auto].
Qed.

(** * Numbers *)

Definition is_digitb (c : ascii) : bool := existsb (Ascii.eqb c) digit_chars.

Lemma is_digitb_ok c : is_digitb c = true <-> is_digit c.
Proof.
  unfold is_digitb, is_digit. rewrite existsb_exists. split.
  - intros (x & I & E). apply Ascii.eqb_eq in E. subst. exact I.
  - intros I. exists c. split; auto. apply Ascii.eqb_refl.
Qed.

Lemma isdigit_eq c : isdigit c = is_digitb c.
Proof.
  apply Bool.eqb_prop. revert c. apply (forall_ascii (fun c => Bool.eqb (isdigit c) (is_digitb c))).
  vm_compute. reflexivity.
Qed.

Lemma isdigit_ok c : isdigit c = true <-> is_digit c.
Proof. rewrite isdigit_eq. apply is_digitb_ok. Qed.

Lemma digit_char_isdigit d : (d < 10)%nat -> isdigit (digit_char d) = true /\ code (digit_char d) = 48 + Z.of_nat d.
Proof. intros H. do 10 (destruct d as [|d]; [split; reflexivity|]). lia. Qed.

Lemma isdigit_char c : isdigit c = true -> exists d, (d < 10)%nat /\ c = digit_char d.
Proof.
  intros H. exists (Z.to_nat (code c - 48)).
  unfold isdigit in H. apply andb_true_iff in H. destruct H as [A B]. apply Z.leb_le in A, B.
  split; [lia|]. apply code_inj.
  destruct (digit_char_isdigit (Z.to_nat (code c - 48))) as [_ E]; [lia|]. rewrite E. lia.
Qed.

Lemma all_of_app p a b : all_of p (a ++ b) = all_of p a && all_of p b.
Proof. induction a; cbn; auto. rewrite IHa. apply andb_assoc. Qed.

Lemma all_digits_ok s : all_of isdigit s = true <-> all_digits s.
Proof.
  unfold all_digits. induction s; cbn; [split; auto|].
  rewrite andb_true_iff, isdigit_ok, IHs. split; [intros [A B]; constructor; auto|intros F; inversion F; auto].
Qed.

Lemma digits_value_app s : forall acc c, all_of isdigit s = true -> isdigit c = true ->
  digits_value acc (s ++ String c "") = 10 * digits_value acc s + (code c - 48).
Proof.
  induction s; intros acc c A B; cbn [digits_value append].
  - rewrite B. lia.
  - cbn in A. apply andb_true_iff in A. destruct A as [A A']. rewrite A. apply IHs; auto.
Qed.

(** Strings from the right. *)
Lemma string_snoc (s : string) : s = "" \/ exists r c, s = r ++ String c "".
Proof.
  induction s as [|x s IH]; auto. right. destruct IH as [E|(r & c & E)].
  - subst. exists "", x. reflexivity.
  - subst. exists (String x r), c. reflexivity.
Qed.

Lemma app_length_s a b : length (a ++ b) = (length a + length b)%nat.
Proof. induction a; cbn; auto. Qed.

Lemma string_rev_ind (P : string -> Prop) :
  P "" -> (forall s c, P s -> P (s ++ String c "")) -> forall s, P s.
Proof.
  intros H0 H1 s. remember (length s) as n eqn:E. revert s E. induction n; intros s E.
  - destruct s; [auto|discriminate].
  - destruct (string_snoc s) as [-> |(r & c & ->)]; auto. apply H1. apply IHn.
    rewrite app_length_s in E. cbn in E. lia.
Qed.

Lemma digits_sound n s : digits n s -> s <> "" /\ all_of isdigit s = true /\ digits_value 0 s = n.
Proof.
  induction 1 as [d L|n s d D (N & A & V) L].
  - destruct (digit_char_isdigit d L) as [I C]. cbn [digits_value all_of]. rewrite I.
    repeat split; [discriminate|rewrite C; lia].
  - destruct (digit_char_isdigit d L) as [I C]. repeat split.
    + destruct s; discriminate.
    + rewrite all_of_app, A. cbn -[isdigit digit_char]. rewrite I. reflexivity.
    + rewrite digits_value_app by auto. rewrite V, C. lia.
Qed.

Lemma digits_complete s : s <> "" -> all_of isdigit s = true -> digits (digits_value 0 s) s.
Proof.
  induction s as [|s c IH] using string_rev_ind; [congruence|]. intros _ A.
  rewrite all_of_app in A. apply andb_true_iff in A. destruct A as [A B]. cbn in B. rewrite andb_true_r in B.
  destruct (isdigit_char c B) as (d & L & ->).
  destruct (digit_char_isdigit d L) as [I C].
  destruct s as [|x s].
  - cbn [digits_value append]. rewrite I, C. replace (0 * 10 + (48 + Z.of_nat d - 48)) with (Z.of_nat d) by lia.
    constructor. exact L.
  - rewrite digits_value_app by auto. rewrite C. replace (48 + Z.of_nat d - 48) with (Z.of_nat d) by lia.
    constructor; auto. apply IH; auto. discriminate.
Qed.

Lemma digits_functional n m s : digits n s -> digits m s -> n = m.
Proof. intros A B. apply digits_sound in A, B. destruct A as (_ & _ & A), B as (_ & _ & B). congruence. Qed.

Lemma digits_nonneg n s : digits n s -> 0 <= n.
Proof. induction 1; lia. Qed.

Lemma is_sign_ok c : is_sign c = true <-> c = "+"%char \/ c = "-"%char.
Proof.
  unfold is_sign. rewrite orb_true_iff. split.
  - intros [H|H]; apply code_is in H; subst; auto.
  - intros [H|H]; subst; auto.
Qed.

Lemma isdigit_not_sign c : isdigit c = true -> is_sign c = false.
Proof.
  unfold isdigit, is_sign. rewrite andb_true_iff, !Z.leb_le. intros.
  apply orb_false_iff. rewrite !Z.eqb_neq. lia.
Qed.

Lemma digits_first n s : digits n s -> exists c r, s = String c r /\ isdigit c = true.
Proof.
  intros D. apply digits_sound in D. destruct D as (N & A & _). destruct s; [congruence|].
  cbn in A. apply andb_true_iff in A. destruct A. eauto.
Qed.

Lemma literal_parse n s : int_literal n s ->
  is_integer s = true /\
  stoi s = if (n <? int_min) || (int_max <? n) then Throws "out_of_range" else Ret n.
Proof.
  intros [n' s' D|n' s' D|n' s' D]; pose proof (digits_sound _ _ D) as (N & A & V);
    destruct (digits_first _ _ D) as (c & r & -> & C).
  - unfold is_integer, stoi, skip_sign. rewrite (isdigit_not_sign c C). unfold starts_with_digit. rewrite C, A, V.
    split; auto.
    assert (M : code c =? 45 = false) by (apply isdigit_not_sign in C; unfold is_sign in C; apply orb_false_iff in C; tauto).
    rewrite M. reflexivity.
  - unfold is_integer, stoi. cbn [skip_sign]. change (is_sign "+") with true. cbv iota.
    unfold starts_with_digit. rewrite A, C, V. auto.
  - unfold is_integer, stoi. cbn [skip_sign]. change (is_sign "-") with true. cbv iota.
    unfold starts_with_digit. rewrite A, C, V. auto.
Qed.

Lemma is_integer_literal s : is_integer s = true -> (exists n, int_literal n s) \/ s = "+" \/ s = "-".
Proof.
  unfold is_integer. destruct s as [|c s]; [discriminate|]. unfold skip_sign.
  destruct (is_sign c) eqn:S.
  - apply is_sign_ok in S. intros A. destruct s as [|d s].
    + destruct S; subst; auto.
    + left. assert (D : digits (digits_value 0 (String d s)) (String d s)) by (apply digits_complete; [discriminate|auto]).
      destruct S; subst; eexists; [apply lit_plus|apply lit_minus]; exact D.
  - intros A. left. eexists. apply lit_plain. apply digits_complete; [discriminate|exact A].
Qed.

(** decimal numbers *)
Lemma dot_ok c : is_dot c = true <-> c = "."%char.
Proof. unfold is_dot. split; intros H; [apply code_is in H|]; subst; auto. Qed.

Lemma isdigit_not_dot c : isdigit c = true -> is_dot c = false.
Proof. unfold isdigit, is_dot. rewrite andb_true_iff, !Z.leb_le, Z.eqb_neq. lia. Qed.

Lemma decimal_loop_after s : decimal_loop 1 s = all_of isdigit s.
Proof.
  induction s as [|c s IH]; cbn [decimal_loop all_of]; auto.
  destruct (is_dot c) eqn:D; [|rewrite IH; destruct (isdigit c); auto].
  destruct (isdigit c) eqn:I; auto. apply isdigit_not_dot in I. congruence.
Qed.

Lemma decimal_loop_ok s : decimal_loop 0 s = true <->
  exists i f, all_of isdigit i = true /\ all_of isdigit f = true /\ (s = i ++ f \/ s = i ++ "." ++ f).
Proof.
  induction s as [|c s IH]; cbn [decimal_loop].
  - split; auto. intros _. exists "", "". auto.
  - destruct (is_dot c) eqn:D.
    + cbn [Nat.ltb Nat.leb]. rewrite decimal_loop_after. apply dot_ok in D. subst c. split.
      * intros A. exists "", s. auto.
      * intros (i & f & I & F & [E|E]).
        -- assert (A : all_of isdigit (String "." s) = true) by (rewrite E, all_of_app, I, F; auto). discriminate.
        -- destruct i as [|x i]; cbn in E.
           ++ congruence.
           ++ injection E as <- E. cbn in I. discriminate.
    + destruct (isdigit c) eqn:C.
      * rewrite IH. split.
        -- intros (i & f & I & F & E). exists (String c i), f. cbn [all_of]. rewrite C, I. repeat split; auto.
           destruct E; subst; auto.
        -- intros (i & f & I & F & [E|E]).
           ++ destruct i as [|x i]; cbn in E.
              ** exists "", s. subst f. cbn in F. apply andb_true_iff in F. repeat split; tauto.
              ** injection E as <- E. cbn in I. apply andb_true_iff in I. exists i, f. intuition.
           ++ destruct i as [|x i]; cbn in E.
              ** injection E as -> _. discriminate.
              ** injection E as <- E. cbn in I. apply andb_true_iff in I. exists i, f. intuition.
      * split; [discriminate|]. intros (i & f & I & F & [E|E]).
        -- assert (A : all_of isdigit (String c s) = true) by (rewrite E, all_of_app, I, F; auto).
           cbn in A. rewrite C in A. discriminate.
        -- destruct i as [|x i]; cbn in E; injection E as E1 E2; subst c.
           ++ discriminate.
           ++ cbn in I. rewrite C in I. discriminate.
Qed.

(** * Splitting and trimming *)

Lemma getline_field c f : without c f -> forall r, getline c (f ++ String c r) = (f, Some r).
Proof.
  induction f as [|x f IH]; intros W r; cbn.
  - rewrite Ascii.eqb_refl. reflexivity.
  - destruct (Ascii.eqb_spec x c); [exfalso; apply W; cbn; auto|].
    rewrite IH; auto. intros I. apply W. cbn. auto.
Qed.

Lemma getline_last c f : without c f -> getline c f = (f, None).
Proof.
  induction f as [|x f IH]; intros W; cbn; auto.
  destruct (Ascii.eqb_spec x c); [exfalso; apply W; cbn; auto|].
  rewrite IH; auto. intros I. apply W. cbn. auto.
Qed.

Definition trimmed (trim : bool) (t : string) : string := if trim then trim_string t else t.

Lemma split_loop_joined c trim : forall fields n,
  Forall (without c) fields -> (fields = [] \/ last fields "" <> "") ->
  (length (joined c fields) <= n)%nat ->
  split_loop n c trim (joined c fields) = map (trimmed trim) fields.
Proof.
  unfold joined. induction fields as [|f fields IH]; intros n W L N.
  - destruct n; reflexivity.
  - inversion W as [|? ? Wf Wr]; subst. destruct L as [L|L]; [discriminate|].
    destruct fields as [|g fields].
    + cbn [String.concat map] in *. cbn in L. destruct n; [destruct f; [congruence|cbn in N; lia]|].
      cbn [split_loop]. rewrite (getline_last c f Wf). destruct f; [congruence|]. reflexivity.
    + cbn [String.concat] in N |- *. fold (String.concat (String c "")) in *.
      set (R := match fields with [] => g | _ :: _ => g ++ String c "" ++ String.concat (String c "") fields end) in *.
      assert (ER : R = String.concat (String c "") (g :: fields)) by (unfold R; destruct fields; reflexivity).
      cbn [append] in *. rewrite app_length_s in N. cbn in N. destruct n as [|n]; [lia|].
      cbn [split_loop]. rewrite getline_field by auto.
      assert (NE : exists x t, f ++ String c R = String x t) by (destruct f; cbn; eauto).
      destruct NE as (x & t & ->). cbn [map].
      f_equal. rewrite ER in *. apply IH; [auto|right; exact L|lia].
Qed.

Lemma split_loop_cut c trim : forall s n,
  (length s <= n)%nat ->
  exists fields, split_loop n c trim s = map (trimmed trim) fields /\ Forall (without c) fields /\
    (s = joined c fields /\ (s = "" -> fields = []) /\ (fields = [] \/ last fields "" <> "") \/ s = joined c fields ++ String c "" /\ fields <> []).
Proof.
  intros s n. revert s. induction n as [|n IH]; intros s N.
  - destruct s; [|cbn in N; lia]. exists []. cbn. intuition.
  - destruct s as [|x s]; [exists []; cbn; intuition|].
    cbn [split_loop]. remember (String x s) as w eqn:Ew.
    assert (G : forall w, exists t, without c t /\ (getline c w = (t, None) /\ w = t \/
                                 exists r, getline c w = (t, Some r) /\ w = t ++ String c r)).
    { clear. induction w as [|x w (t & W & H)]; cbn.
      - exists "". split; [intros []|auto].
      - destruct (Ascii.eqb_spec x c).
        + subst. exists "". split; [intros []|]. right. exists w. auto.
        + exists (String x t). split; [intros [A|A]; [congruence|auto]|].
          destruct H as [[H E]|(r & H & E)]; rewrite H; [left|right; exists r]; subst; auto. }
    destruct (G w) as (t & W & [[E Ee]|(r & E & Ee)]); rewrite E.
    + exists [t]. cbn. repeat split; auto. left. subst t. repeat split; auto; subst w; intros; try discriminate.
      right; discriminate.
    + assert (Nr : (length r <= n)%nat).
      { assert (L : length w = S (length s)) by (subst w; reflexivity).
        assert (L' : length w = (length t + S (length r))%nat) by (rewrite Ee, app_length_s; reflexivity).
        rewrite L in L'. rewrite Ew in N. cbn in N. lia. }
      destruct (IH r Nr) as (fields & Ef & Wf & H). exists (t :: fields). rewrite Ef. split; [reflexivity|]. split; [constructor; auto|].
      destruct fields as [|g fields].
      * right. split; [|discriminate]. destruct H as [(Er & _)|[Er B]]; [|congruence]. cbn in Er. subst r. exact Ee.
      * destruct H as [(Er & _ & L)|[Er _]].
        -- left. repeat split.
           ++ rewrite Ee, Er. reflexivity.
           ++ subst w. discriminate.
           ++ right. destruct L as [L|L]; [discriminate|exact L].
        -- right. split; [|discriminate]. rewrite Ee, Er. cbn. fold (joined c (g :: fields)).
           unfold joined. cbn. set (K := match fields with [] => g | _ :: _ => _ end).
           clearbody K. clear. induction t; cbn; congruence.
Qed.

(** trimming *)
Lemma is_space_ok c : is_space c = true <-> c = " "%char.
Proof. unfold is_space. split; intros H; [apply code_is in H|]; subst; auto. Qed.

Lemma find_first_spaces k : forall i t, find_first_not_space i (spaces k ++ t) = find_first_not_space (i + k) t.
Proof.
  induction k; intros i t; cbn; [rewrite Nat.add_0_r; auto|]. unfold spaces in IHk. rewrite IHk. f_equal. lia.
Qed.

Lemma find_last_spaces k : forall i t, find_last_not_space i (t ++ spaces k) = find_last_not_space i t.
Proof.
  intros i t. revert i. induction t as [|x t IH]; intros i; cbn.
  - revert i. induction k; intros i; cbn; auto. unfold spaces in IHk. rewrite IHk. reflexivity.
  - rewrite IH. reflexivity.
Qed.

Lemma find_last_skip a : forall i t j, find_last_not_space (i + length a) t = Some j ->
  find_last_not_space i (a ++ t) = Some j.
Proof.
  induction a; intros i t j; cbn.
  - rewrite Nat.add_0_r. auto.
  - intros H. rewrite (IHa (S i) t j); auto. rewrite <- H. f_equal. lia.
Qed.

Lemma drop_app a t : drop (length a) (a ++ t) = t.
Proof. induction a; cbn; auto. Qed.

Lemma take_app a t : take (length a) (a ++ t) = a.
Proof. induction a; cbn; auto. congruence. Qed.

Lemma spaces_length k : length (spaces k) = k.
Proof. induction k; cbn; auto. Qed.

Lemma app_assoc_s a b c : (a ++ b) ++ c = a ++ (b ++ c).
Proof. induction a; cbn; congruence. Qed.

Lemma trim_ok a b t : neat t -> trim_string (spaces a ++ t ++ spaces b) = t.
Proof.
  intros (N & F & L). unfold trim_string.
  destruct (string_snoc t) as [E|(r & z & E)]; [congruence|].
  assert (Z' : is_space z = false).
  { destruct (is_space z) eqn:S; auto. apply is_space_ok in S. subst z. exfalso. exact (L r E). }
  rewrite find_first_spaces. cbn [Nat.add].
  assert (F1 : find_first_not_space a (t ++ spaces b) = Some a).
  { destruct t as [|x t']; [congruence|]. cbn. destruct (is_space x) eqn:S; auto.
    apply is_space_ok in S. subst x. exfalso. exact (F t' eq_refl). }
  rewrite F1.
  assert (F2 : find_last_not_space 0 (spaces a ++ t ++ spaces b) = Some (a + length r)%nat).
  { apply find_last_skip. rewrite spaces_length. cbn [Nat.add]. rewrite find_last_spaces. rewrite E. apply find_last_skip.
    cbn. rewrite Z'. reflexivity. }
  rewrite F2.
  replace (a + length r - a + 1)%nat with (length t) by (rewrite E, app_length_s; cbn; lia).
  rewrite <- (spaces_length a) at 1. rewrite drop_app. apply take_app.
Qed.

Lemma trim_all_spaces k : trim_string (spaces k) = spaces k.
Proof.
  unfold trim_string. assert (E : spaces k = spaces k ++ "") by (clear; induction (spaces k); cbn; congruence).
  assert (F : forall i, find_first_not_space i (spaces k) = None).
  { intros i. rewrite E, find_first_spaces. reflexivity. }
  rewrite F. reflexivity.
Qed.

(** * Date and time *)

Lemma eat_iff p k s : eat p k s = true <-> exists c r, s = String c r /\ p c = true /\ k r = true.
Proof.
  unfold eat. destruct s as [|c s].
  - split; [discriminate|intros (c & r & E & _); discriminate].
  - rewrite andb_true_iff. split; [intros []; eauto|intros (c' & r & [= -> ->] & H)]; tauto.
Qed.

Lemma class_digits lo hi (c : ascii) : (48 <= lo) -> (hi <= 57) -> in_class lo hi c = true ->
  exists d, lo <= 48 + Z.of_nat d <= hi /\ (d < 10)%nat /\ c = digit_char d.
Proof.
  intros A B H. unfold in_class in H. apply andb_true_iff in H. rewrite !Z.leb_le in H.
  destruct (isdigit_char c) as (d & L & E).
  { unfold isdigit. apply andb_true_iff. rewrite !Z.leb_le. lia. }
  exists d. destruct (digit_char_isdigit d L) as [_ C]. subst c. rewrite C in H. auto.
Qed.

Lemma class_char lo hi d : (d < 10)%nat -> lo <= 48 + Z.of_nat d <= hi -> in_class lo hi (digit_char d) = true.
Proof.
  intros L H. unfold in_class. destruct (digit_char_isdigit d L) as [_ C]. rewrite C.
  apply andb_true_iff. rewrite !Z.leb_le. lia.
Qed.

Lemma is_char_digit n c : 48 <= n <= 57 -> is_char n c = true -> c = digit_char (Z.to_nat (n - 48)).
Proof.
  intros R H. unfold is_char in H. apply Z.eqb_eq in H. apply code_inj. rewrite H.
  destruct (digit_char_isdigit (Z.to_nat (n - 48))) as [_ C]; [lia|]. rewrite C. lia.
Qed.

Lemma two_make a b : (a < 10)%nat -> (b < 10)%nat -> two (10 * a + b) = String (digit_char a) (String (digit_char b) "").
Proof.
  intros A B. unfold two.
  replace (10 * a + b)%nat with (b + a * 10)%nat by lia.
  rewrite Nat.div_add, Nat.mod_add by lia. rewrite (Nat.div_small b 10), (Nat.mod_small b 10) by lia. reflexivity.
Qed.

(** A two digit field whose first digit and second digit come from given classes. *)
Lemma two_eat a1 a2 b1 b2 k s : (48 <= a1) -> (a2 <= 57) -> (48 <= b1) -> (b2 <= 57) ->
  eat (in_class a1 a2) (eat (in_class b1 b2) k) s = true <->
  exists a b r, a1 <= 48 + Z.of_nat a <= a2 /\ b1 <= 48 + Z.of_nat b <= b2 /\ s = two (10 * a + b) ++ r /\ k r = true.
Proof.
  intros A1 A2 B1 B2. rewrite eat_iff. split.
  - intros (c & r & -> & C & K). apply eat_iff in K. destruct K as (c' & r' & -> & C' & K).
    apply class_digits in C, C'; auto. destruct C as (a & Ra & La & ->), C' as (b & Rb & Lb & ->).
    exists a, b, r'. rewrite two_make by auto. auto.
  - intros (a & b & r & Ra & Rb & -> & K). rewrite two_make by lia. cbn [append].
    do 2 eexists. split; [reflexivity|]. split; [apply class_char; lia|]. apply eat_iff.
    do 2 eexists. split; [reflexivity|]. split; [apply class_char; lia|]. exact K.
Qed.

Lemma is_char_class n c : is_char n c = in_class n n c.
Proof.
  unfold is_char, in_class. destruct (Z.eqb_spec (code c) n), (Z.leb_spec n (code c)), (Z.leb_spec (code c) n); auto; lia.
Qed.

Lemma eat_ext p q k s : (forall c, p c = q c) -> eat p k s = eat q k s.
Proof. intros H. destruct s; cbn; rewrite ?H; reflexivity. Qed.

Lemma eat_ext2 p q k l s : (forall c, p c = q c) -> (forall r, k r = l r) -> eat p k s = eat q l s.
Proof. intros H K. destruct s; cbn; rewrite ?H, ?K; reflexivity. Qed.

Lemma digit_split n : exists a b, n = (10 * a + b)%nat /\ (b < 10)%nat /\ a = (n / 10)%nat.
Proof. exists (n / 10)%nat, (n mod 10)%nat. pose proof (Nat.div_mod n 10). pose proof (Nat.mod_upper_bound n 10). lia. Qed.

Ltac classes := repeat match goal with
  | |- context [eat (is_char ?n) ?k ?s] =>
      rewrite (eat_ext (is_char n) (in_class n n) k s (is_char_class n)) end.

Lemma month_iff k s : match_month k s = true <->
  exists n r, (1 <= n <= 12)%nat /\ s = two n ++ r /\ k r = true.
Proof.
  unfold match_month. classes. rewrite orb_true_iff, !two_eat by lia. split.
  - intros [(a & b & r & A & B & E & K)|(a & b & r & A & B & E & K)];
      exists (10 * a + b)%nat, r; (split; [lia|auto]).
  - intros (n & r & N & E & K). destruct (digit_split n) as (a & b & -> & B & _).
    assert (H : a = 0%nat \/ a = 1%nat) by lia.
    destruct H; [left|right]; exists a, b, r; subst a; (split; [lia|split; [lia|auto]]).
Qed.

Lemma isdigit_class c : isdigit c = in_class 48 57 c.
Proof. reflexivity. Qed.

Lemma day_iff k s : match_day k s = true <->
  exists n r, (1 <= n <= 31)%nat /\ s = two n ++ r /\ k r = true.
Proof.
  unfold match_day. classes. rewrite !orb_true_iff, two_eat by lia.
  rewrite (eat_ext2 (in_class 49 50) (in_class 49 50) _ (eat (in_class 48 57) k) s) by (intros; first [reflexivity|apply eat_ext, isdigit_class]).
  rewrite !two_eat by lia. split.
  - intros [[(a & b & r & A & B & E & K)|(a & b & r & A & B & E & K)]|(a & b & r & A & B & E & K)];
      exists (10 * a + b)%nat, r; (split; [lia|auto]).
  - intros (n & r & N & E & K). destruct (digit_split n) as (a & b & -> & B & _).
    assert (H : a = 0%nat \/ a = 3%nat \/ a = 1%nat \/ a = 2%nat) by lia.
    destruct H as [H|[H|H]]; [left; left|right|left; right]; exists a, b, r; (split; [lia|split; [lia|auto]]).
Qed.

Lemma hour_iff k s : match_hour k s = true <->
  exists n r, (n < 24)%nat /\ s = two n ++ r /\ k r = true.
Proof.
  unfold match_hour. classes. rewrite !orb_true_iff.
  rewrite (eat_ext2 (in_class 48 49) (in_class 48 49) _ (eat (in_class 48 57) k) s) by (intros; first [reflexivity|apply eat_ext, isdigit_class]).
  rewrite !two_eat by lia. split.
  - intros [(a & b & r & A & B & E & K)|(a & b & r & A & B & E & K)];
      exists (10 * a + b)%nat, r; (split; [lia|auto]).
  - intros (n & r & N & E & K). destruct (digit_split n) as (a & b & -> & B & _).
    assert (H : a = 2%nat \/ a = 0%nat \/ a = 1%nat) by lia.
    destruct H as [H|H]; [right|left]; exists a, b, r; (split; [lia|split; [lia|auto]]).
Qed.

Lemma sixty_iff k s : match_60 k s = true <->
  exists n r, (n < 60)%nat /\ s = two n ++ r /\ k r = true.
Proof.
  unfold match_60.
  rewrite (eat_ext2 (in_class 48 53) (in_class 48 53) _ (eat (in_class 48 57) k) s) by (intros; first [reflexivity|apply eat_ext, isdigit_class]).
  rewrite two_eat by lia. split.
  - intros (a & b & r & A & B & E & K). exists (10 * a + b)%nat, r. split; [lia|auto].
  - intros (n & r & N & E & K). destruct (digit_split n) as (a & b & -> & B & _).
    exists a, b, r. split; [lia|split; [lia|auto]].
Qed.

Lemma hundred_iff k s : eat isdigit (eat isdigit k) s = true <->
  exists n r, (n < 100)%nat /\ s = two n ++ r /\ k r = true.
Proof.
  rewrite (eat_ext2 isdigit (in_class 48 57) _ (eat (in_class 48 57) k) s) by (intros; first [reflexivity|apply eat_ext, isdigit_class]).
  rewrite two_eat by lia. split.
  - intros (a & b & r & A & B & E & K). exists (10 * a + b)%nat, r. split; [lia|auto].
  - intros (n & r & N & E & K). destruct (digit_split n) as (a & b & -> & B & _).
    exists a, b, r. split; [lia|split; [lia|auto]].
Qed.

Lemma char_iff n k s : 0 <= n -> eat (is_char n) k s = true <->
  exists r, s = String (ascii_of_nat (Z.to_nat n)) r /\ k r = true /\ n = code (ascii_of_nat (Z.to_nat n)).
Proof.
  intros P. rewrite eat_iff. unfold is_char. split.
  - intros (c & r & -> & C & K). pose proof C as C'. apply code_is in C. subst c. exists r. apply Z.eqb_eq in C'. auto.
  - intros (r & -> & K & E). do 2 eexists. split; [reflexivity|]. rewrite Z.eqb_eq. auto.
Qed.

Lemma fraction_iff k s : match_fraction k s = true <-> exists f r, fraction f /\ s = f ++ r /\ k r = true.
Proof.
  assert (D3 : forall k s, (k s || eat isdigit (fun s => k s || eat isdigit (fun s => k s || eat isdigit k s) s) s) = true <->
            exists d r, all_digits d /\ (length d <= 3)%nat /\ s = d ++ r /\ k r = true).
  { clear. intros k s. split.
    - rewrite orb_true_iff, eat_iff. intros [K|(c & r & -> & C & H)].
      { exists "", s. repeat split; cbn; auto; constructor. }
      rewrite orb_true_iff, eat_iff in H. destruct H as [K|(c' & r' & -> & C' & H)].
      { exists (String c ""), r. repeat split; cbn; auto; try lia. apply all_digits_ok. cbn. rewrite C. reflexivity. }
      rewrite orb_true_iff, eat_iff in H. destruct H as [K|(c'' & r'' & -> & C'' & K)].
      { exists (String c (String c' "")), r'. repeat split; cbn; auto; try lia. apply all_digits_ok. cbn. rewrite C, C'. reflexivity. }
      exists (String c (String c' (String c'' ""))), r''. repeat split; cbn; auto; try lia.
      apply all_digits_ok. cbn. rewrite C, C', C''. reflexivity.
    - intros (d & r & A & L & -> & K). apply all_digits_ok in A.
      destruct d as [|x d]; [cbn [append]; rewrite K; reflexivity|].
      cbn [all_of] in A. apply andb_true_iff in A. destruct A as [X A].
      apply orb_true_iff. right. cbn [append]. unfold eat at 1. rewrite X. cbn [andb].
      destruct d as [|y d]; [cbn [append]; rewrite K; reflexivity|].
      cbn [all_of] in A. apply andb_true_iff in A. destruct A as [Y A].
      apply orb_true_iff. right. cbn [append]. unfold eat at 1. rewrite Y. cbn [andb].
      destruct d as [|z d]; [cbn [append]; rewrite K; reflexivity|].
      cbn [all_of] in A. apply andb_true_iff in A. destruct A as [Z' A].
      apply orb_true_iff. right. cbn [append]. unfold eat. rewrite Z'. cbn [andb].
      destruct d; [exact K|]. cbn in L. lia. }
  unfold match_fraction. rewrite orb_true_iff, char_iff by lia. split.
  - intros [(r & -> & H & _)|K].
    + apply D3 in H. destruct H as (d & r' & A & L & -> & K).
      exists ("." ++ d), r'. split; [right; exists d; auto|]. auto.
    + exists "", s. split; [left; auto|auto].
  - intros (f & r & [-> |(d & -> & A & L)] & -> & K).
    + auto.
    + left. exists (d ++ r). split; [reflexivity|]. split; [|reflexivity]. apply D3. exists d, r. auto.
Qed.

Lemma at_end_iff s : at_end s = true <-> s = "".
Proof. destruct s; cbn; split; congruence. Qed.

Lemma zone_iff s : match_zone s = true <-> zone s.
Proof.
  unfold match_zone. rewrite orb_true_iff, char_iff by lia. split.
  - intros [(r & -> & E & _)|H].
    + apply at_end_iff in E. subst. constructor.
    + apply eat_iff in H. destruct H as (c & r & -> & C & H). apply is_sign_ok in C.
      apply hundred_iff in H. destruct H as (h & r' & Lh & -> & H). rewrite orb_true_iff in H.
      rewrite char_iff in H by lia.
      assert (SG : String c "" = "+" \/ String c "" = "-") by (destruct C; subst; auto).
      destruct H as [(r'' & -> & H & _)|H]; apply hundred_iff in H; destruct H as (m & r3 & Lm & -> & H);
        apply at_end_iff in H; subst r3.
      * replace (String c (two h ++ String (ascii_of_nat (Z.to_nat 58)) (two m ++ ""))) with (String c "" ++ two h ++ ":" ++ two m) by reflexivity.
        constructor; auto.
      * replace (String c (two h ++ two m ++ "")) with (String c "" ++ two h ++ "" ++ two m) by reflexivity.
        constructor; auto.
  - intros Z. destruct Z as [|sg h m colon SG CO Lh Lm].
    + left. exists "". auto.
    + right. destruct SG as [-> | ->]; cbn [append]; apply eat_iff; do 2 eexists; (split; [reflexivity|]); (split; [reflexivity|]);
        apply hundred_iff; exists h, (colon ++ two m); (split; [auto|]); (split; [reflexivity|]); apply orb_true_iff;
        destruct CO as [-> | ->].
      1,3: left; apply char_iff; [lia|]; exists (two m); split; [reflexivity|]; split; [|reflexivity];
           apply hundred_iff; exists m, ""; auto.
      all: right; apply hundred_iff; exists m, ""; auto.
Qed.

Lemma datetime_ok s : is_rfc3339_datetime s = true <-> datetime s.
Proof.
  unfold is_rfc3339_datetime, datetime. split.
  - intros H. apply hundred_iff in H. destruct H as (y1 & r & Ly1 & -> & H).
    apply hundred_iff in H. destruct H as (y2 & r1 & Ly2 & -> & H).
    apply char_iff in H; [|lia]. destruct H as (r2 & -> & H & _).
    apply month_iff in H. destruct H as (M & r3 & LM & -> & H).
    apply char_iff in H; [|lia]. destruct H as (r4 & -> & H & _).
    apply day_iff in H. destruct H as (D & r5 & LD & -> & H).
    apply char_iff in H; [|lia]. destruct H as (r6 & -> & H & _).
    apply hour_iff in H. destruct H as (h & r7 & Lh & -> & H).
    apply char_iff in H; [|lia]. destruct H as (r8 & -> & H & _).
    apply sixty_iff in H. destruct H as (m & r9 & Lm & -> & H).
    apply char_iff in H; [|lia]. destruct H as (r10 & -> & H & _).
    apply sixty_iff in H. destruct H as (sec & r11 & Ls & -> & H).
    apply fraction_iff in H. destruct H as (f & z & F & -> & H). apply zone_iff in H.
    exists (100 * y1 + y2)%nat, M, D, h, m, sec, f, z.
    assert (E : four (100 * y1 + y2) = two y1 ++ two y2).
    { unfold four. replace (100 * y1 + y2)%nat with (y2 + y1 * 100)%nat by lia.
      rewrite Nat.div_add, Nat.mod_add by lia. rewrite (Nat.div_small y2 100), (Nat.mod_small y2 100) by lia. reflexivity. }
    rewrite E. repeat match goal with |- _ /\ _ => split end; auto; try lia.
    all: rewrite app_assoc_s; reflexivity.
  - intros (Y & M & D & h & m & sec & f & z & LY & LM & LD & Lh & Lm & Ls & F & Z & ->).
    unfold four. apply hundred_iff. do 2 eexists. split; [|split; [rewrite app_assoc_s; reflexivity|]].
    { apply Nat.div_lt_upper_bound; lia. }
    apply hundred_iff. do 2 eexists. split; [apply (Nat.mod_upper_bound Y 100); lia|]. split; [reflexivity|].
    apply char_iff; [lia|]. eexists. split; [reflexivity|]. split; [|reflexivity].
    apply month_iff. do 2 eexists. split; [exact LM|]. split; [reflexivity|].
    apply char_iff; [lia|]. eexists. split; [reflexivity|]. split; [|reflexivity].
    apply day_iff. do 2 eexists. split; [exact LD|]. split; [reflexivity|].
    apply char_iff; [lia|]. eexists. split; [reflexivity|]. split; [|reflexivity].
    apply hour_iff. do 2 eexists. split; [exact Lh|]. split; [reflexivity|].
    apply char_iff; [lia|]. eexists. split; [reflexivity|]. split; [|reflexivity].
    apply sixty_iff. do 2 eexists. split; [exact Lm|]. split; [reflexivity|].
    apply char_iff; [lia|]. eexists. split; [reflexivity|]. split; [|reflexivity].
    apply sixty_iff. do 2 eexists. split; [exact Ls|]. split; [reflexivity|].
    apply fraction_iff. do 2 eexists. split; [exact F|]. split; [reflexivity|].
    apply zone_iff. exact Z.
Qed.
