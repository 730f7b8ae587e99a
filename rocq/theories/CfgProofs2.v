(** Lemmas for CfgProperties.v: what the texts of values mean. *)
From Coq Require Import ZArith List Bool String Ascii Lia.
From Verif Require Import StrModel StrSpec StrProofs StrProperties JsonModel JsonProofs DtModel CfgSchemaLang CfgModel CfgSchema CfgTables CfgApi CfgSpec CfgProofs.
Import ListNotations.
Local Open Scope list_scope.
Local Open Scope string_scope.
Local Open Scope Z_scope.

(** ** Switches *)

Definition lower_letter (c : ascii) : bool := (97 <=? code c) && (code c <=? 122).

Lemma tolower_upper c d : lower_letter d = true -> Ascii.eqb (tolower c) d = Ascii.eqb (toupper c) (toupper d).
Proof.
  intros L. assert (H : implb (lower_letter d) (Bool.eqb (Ascii.eqb (tolower c) d) (Ascii.eqb (toupper c) (toupper d))) = true).
  { revert c d L. assert (F : forall c d, implb (lower_letter d) (Bool.eqb (Ascii.eqb (tolower c) d) (Ascii.eqb (toupper c) (toupper d))) = true).
    { apply forall_ascii2. vm_compute. reflexivity. }
    intros c d _. apply F. }
  rewrite L in H. cbn [implb] in H. apply eqb_prop. exact H.
Qed.

Lemma lower_iequals t : all_of lower_letter t = true -> forall s, String.eqb (lower s) t = iequals s t.
Proof.
  induction t as [|d t IH]; intros A [|c s]; cbn in *; try reflexivity.
  apply andb_true_iff in A. destruct A as [A1 A2]. rewrite <- (IH A2 s), <- (tolower_upper c d A1).
  destruct (Ascii.eqb_spec (tolower c) d); reflexivity.
Qed.

Lemma string_to_bool_ok s : string_to_bool s = true <-> same_text s "true".
Proof. unfold string_to_bool. rewrite lower_iequals by reflexivity. apply iequals_same. Qed.

Lemma isBool_ok s : isBool s = true <-> same_text s "true" \/ same_text s "false".
Proof. unfold isBool. rewrite orb_true_iff, !lower_iequals by reflexivity. rewrite !iequals_same. reflexivity. Qed.

(** ** Numbers *)

Lemma positive_literal text z : is_positive_integer text = Ret (true, z) <-> int_literal z text /\ 0 <= z <= int_max.
Proof.
  split.
  - intros H. destruct (is_integer text) eqn:I.
    + apply is_integer_literal in I. destruct I as [(n & L)|I].
      * destruct (is_positive_integer_literals n text L) as (A & B & C).
        assert (D : 0 <= n <= int_max \/ int_min <= n < 0 \/ ~ int_min <= n <= int_max) by (unfold int_min, int_max; lia).
        destruct D as [D|[D|D]]; [rewrite (A D) in H|rewrite (B D) in H|rewrite (C D) in H]; try discriminate.
        injection H as <-. auto.
      * destruct I as [-> | ->]; vm_compute in H; discriminate.
    + unfold is_positive_integer in H. rewrite I in H. discriminate.
  - intros [L R]. apply (is_positive_integer_literals z text L). exact R.
Qed.

Lemma isspace_ok c : isspace c = true <-> blank c.
Proof.
  unfold isspace, blank. rewrite code_nat. split.
  - intros H. apply orb_true_iff in H. rewrite andb_true_iff, !Z.leb_le, Z.eqb_eq in H.
    assert (N : (nat_of_ascii c = 9 \/ nat_of_ascii c = 10 \/ nat_of_ascii c = 11 \/ nat_of_ascii c = 12 \/ nat_of_ascii c = 13 \/ nat_of_ascii c = 32)%nat) by lia.
    cbn [In]. lia.
  - cbn [In]. intros H. apply orb_true_iff. rewrite andb_true_iff, !Z.leb_le, Z.eqb_eq. lia.
Qed.

Lemma skip_space_split s : exists b, s = b ++ skip_space s /\ Forall blank (chars b).
Proof.
  induction s as [|c s (b & E & B)].
  - exists "". split; [reflexivity|constructor].
  - cbn [skip_space]. destruct (isspace c) eqn:C.
    + exists (String c b). cbn. split; [congruence|]. constructor; [apply isspace_ok; exact C|exact B].
    + exists "". split; [reflexivity|constructor].
Qed.

Lemma leading_digits s : exists d r, s = d ++ r /\ all_of isdigit d = true /\ (forall a, digits_value a s = digits_value a d) /\
  (forall c r', r = String c r' -> isdigit c = false) /\ (starts_with_digit s = true -> d <> "").
Proof.
  induction s as [|c s (d & r & E & A & V & N & _)].
  - exists "", "". repeat split; auto; discriminate.
  - destruct (isdigit c) eqn:C.
    + exists (String c d), r. cbn. rewrite C, A. repeat split; auto; try congruence.
    + exists "", (String c s). cbn. rewrite C. repeat split; auto; try congruence.
Qed.

Lemma stoi_prefix s z : stoi s = Ret z -> exists n r, s = n ++ r /\ int_literal z n /\ ends_here r.
Proof.
  unfold stoi. destruct (starts_with_digit (skip_sign s)) eqn:S; [|discriminate].
  destruct (leading_digits (skip_sign s)) as (d & r & E & A & V & N & D). specialize (D S).
  rewrite V. pose proof (digits_complete d D A) as Dg.
  assert (EH : ends_here r).
  { intros c r' H I. apply N in H. apply isdigit_ok in I. congruence. }
  destruct s as [|c s]; [discriminate S|]. cbn [skip_sign] in E. destruct (is_sign c) eqn:G.
  - apply is_sign_ok in G. destruct G as [-> | ->].
    + change (code "+" =? 45) with false. cbv iota. destruct (_ || _); [discriminate|]. intros H. injection H as <-.
      exists (String "+" d), r. cbn. rewrite <- E. auto using lit_plus.
    + change (code "-" =? 45) with true. cbv iota. destruct (_ || _); [discriminate|]. intros H. injection H as <-.
      exists (String "-" d), r. cbn. rewrite <- E. auto using lit_minus.
  - assert (M : code c =? 45 = false) by (unfold is_sign in G; apply orb_false_iff in G; tauto).
    rewrite M. destruct (_ || _); [discriminate|]. intros H. injection H as <-.
    exists d, r. auto using lit_plain.
Qed.

Lemma stoi_ws_prefix s z : stoi_ws s = Ret z -> begins_with_number s z.
Proof.
  unfold stoi_ws. intros H. destruct (skip_space_split s) as (b & E & B).
  apply stoi_prefix in H. destruct H as (n & r & E2 & L & H). exists b, n, r. rewrite <- E2. auto.
Qed.

(** ** The authorization key *)

Lemma hex_val_ok c : forall z, hex_val c = Some z <-> exists n, z = Z.of_nat n /\ hex_digit n c.
Proof.
  assert (F : forall c, forallb (fun n : nat =>
     Bool.eqb (match hex_val c with Some z => z =? Z.of_nat n | None => false end)
       (match nth_error (chars "0123456789abcdef") n with Some d => Ascii.eqb d c | None => false end
        || match nth_error (chars "0123456789ABCDEF") n with Some d => Ascii.eqb d c | None => false end))
     (seq 0 16) = true).
  { apply (forall_ascii (fun c => forallb _ (seq 0 16))). vm_compute. reflexivity. }
  assert (R : match hex_val c with Some z => (0 <=? z) && (z <? 16) | None => true end = true).
  { revert c. apply (forall_ascii (fun c => match hex_val c with Some z => (0 <=? z) && (z <? 16) | None => true end)). vm_compute. reflexivity. }
  specialize (F c). rewrite forallb_forall in F.
  assert (G : forall n, (n < 16)%nat -> (hex_val c = Some (Z.of_nat n) <-> hex_digit n c)).
  { intros n L. assert (I : In n (seq 0 16)) by (apply in_seq; lia). apply F in I. apply eqb_prop in I.
    unfold hex_digit. split.
    - intros H. rewrite H, Z.eqb_refl in I. symmetry in I. apply orb_true_iff in I.
      destruct I as [I|I]; [left|right]; destruct (nth_error _ n); try discriminate; apply Ascii.eqb_eq in I; congruence.
    - intros [H|H]; rewrite H, Ascii.eqb_refl in I; [|rewrite orb_true_r in I]; cbn [orb] in I;
        (destruct (hex_val c); [|discriminate]); apply Z.eqb_eq in I; congruence. }
  intros z. split.
  - intros H. rewrite H in R. apply andb_true_iff in R. rewrite Z.leb_le, Z.ltb_lt in R.
    exists (Z.to_nat z). split; [lia|]. apply G; [lia|]. rewrite Z2Nat.id by lia. exact H.
  - intros (n & -> & H). apply G; [|exact H].
    assert (L : (n < 16)%nat); [|exact L]. destruct H as [H|H]; assert (L : nth_error _ n <> None) by (rewrite H; discriminate); apply nth_error_Some in L; exact L.
Qed.

Lemma hex_spelling_length text p : hex_spelling text p -> String.length text = (2 * String.length p)%nat.
Proof. induction 1; cbn; lia. Qed.

Lemma hex_digit_range n c : hex_digit n c -> (n < 16)%nat.
Proof. intros [H|H]; assert (L : nth_error _ n <> None) by (rewrite H; discriminate); apply nth_error_Some in L; exact L. Qed.

Lemma hex_to_string_ok text p : hex_spelling text p -> forall n, (String.length text <= n)%nat -> hex_to_string n text = p.
Proof.
  induction 1 as [|m k a b text p A B S IH]; intros n L; [destruct n; reflexivity|].
  destruct n as [|n]; [cbn in L; lia|]. cbn [hex_to_string]. rewrite IH by (cbn in L; lia). f_equal.
  assert (E1 : hex_val a = Some (Z.of_nat m)) by (apply hex_val_ok; eauto).
  assert (E2 : hex_val b = Some (Z.of_nat k)) by (apply hex_val_ok; eauto).
  unfold strtol16, hex_value. rewrite E1, E2. unfold as_char, chr.
  pose proof (hex_digit_range _ _ A). pose proof (hex_digit_range _ _ B).
  rewrite Z.mod_small by lia. unfold ascii_of_nat. f_equal. lia.
Qed.

Lemma hex_spelling_digits text p : hex_spelling text p ->
  all_of (fun c => match hex_value c with Some _ => true | None => false end) text = true.
Proof.
  induction 1 as [|m k a b text p A B S IH]; [reflexivity|]. cbn [all_of]. rewrite IH.
  assert (E1 : hex_val a = Some (Z.of_nat m)) by (apply hex_val_ok; eauto).
  assert (E2 : hex_val b = Some (Z.of_nat k)) by (apply hex_val_ok; eauto).
  unfold hex_value. rewrite E1, E2. reflexivity.
Qed.

Lemma all_of_drop f n : forall s, all_of f s = true -> all_of f (drop n s) = true.
Proof.
  induction n as [|n IH]; intros [|c s]; cbn; auto. intros H. apply andb_true_iff in H. apply IH. tauto.
Qed.

Lemma all_of_nth f s : all_of f s = true -> forall n c, nth_error (chars s) n = Some c -> f c = true.
Proof.
  induction s as [|d s IH]; cbn; intros A [|n] c H; cbn in H; try discriminate; apply andb_true_iff in A; destruct A as [A1 A2].
  - injection H as <-. exact A1.
  - eapply IH; eauto.
Qed.

Lemma nth_drop n : forall s m c, nth_error (chars s) (n + m) = Some c -> nth_error (chars (drop n s)) m = Some c.
Proof. induction n as [|n IH]; intros [|d s] m c H; cbn in *; try exact H; [destruct m; discriminate|]. apply IH. exact H. Qed.

Lemma printable_code c : printable c <-> negb (((signed_code c <? 32) || (126 <? signed_code c)) && negb (signed_code c =? 10)) = true.
Proof.
  unfold printable. assert (F : forall c, Bool.eqb
    ((Nat.leb 32 (nat_of_ascii c) && Nat.leb (nat_of_ascii c) 126) || Nat.eqb (nat_of_ascii c) 10)
    (negb (((signed_code c <? 32) || (126 <? signed_code c)) && negb (signed_code c =? 10))) = true).
  { apply forall_ascii. vm_compute. reflexivity. }
  specialize (F c). apply eqb_prop in F. rewrite <- F, orb_true_iff, andb_true_iff, !Nat.leb_le, Nat.eqb_eq. tauto.
Qed.

Lemma all_of_forall f s : all_of f s = true <-> Forall (fun c => f c = true) (chars s).
Proof.
  induction s as [|c s IH]; cbn; [split; auto|]. rewrite andb_true_iff, IH. split.
  - intros [A B]. constructor; auto.
  - intros H. inversion H; auto.
Qed.

Lemma secret_ok text : (8 <= String.length text)%nat -> secret text (authorization_key_of text).
Proof.
  intros L. unfold authorization_key_of. split.
  - intros q S P. assert (H : is_hex_notation text = true).
    { unfold is_hex_notation. rewrite (hex_to_string_ok _ _ S) by lia.
      rewrite (all_of_drop _ 2 _ (hex_spelling_digits _ _ S)).
      replace (Nat.ltb 2 (String.length text)) with true by (symmetry; apply Nat.ltb_lt; lia).
      cbn [andb]. apply all_of_forall. eapply Forall_impl; [|exact P]. intros c Pc. apply printable_code. exact Pc. }
    rewrite H. apply hex_to_string_ok; auto.
  - intros (n & c & Ln & N & D). replace (is_hex_notation text) with false; [reflexivity|].
    symmetry. unfold is_hex_notation.
    destruct (all_of (fun c => match hex_value c with Some _ => true | None => false end) (drop 2 text)) eqn:A;
      [|rewrite andb_false_r; reflexivity].
    exfalso. replace n with (2 + (n - 2))%nat in N by lia. apply nth_drop in N.
    pose proof (all_of_nth _ _ A _ _ N) as Q. cbv beta in Q. unfold hex_value in Q.
    destruct (hex_val c) eqn:E; [|discriminate]. apply hex_val_ok in E. destruct E as (m & _ & E). eapply D; eauto.
Qed.

(** ** The rules and the types *)

Definition plain_text (t : schema) : bool := match t with SText _ _ => true | _ => false end.
Definition opt_max (a : Z) (o : option Z) : Z := match o with Some b => Z.max a b | None => a end.
Definition opt_min (a : Z) (o : option Z) : Z := match o with Some b => Z.min a b | None => a end.

Definition rule_fits (k : string) (r : rule) (t : schema) : bool :=
  match r with
  | RBool | RAnyBool => match t with SBool => true | _ => false end
  | RInt lo hi =>
      match t with
      | SInt a b | SNumber a b => (lo =? opt_max 0 a) && (hi =? opt_min int_max b) && negb (String.eqb k phases)
      | _ => false
      end
  | RPhases => match t with SNumber (Some a) (Some b) => (a =? 1) && (b =? 3) && String.eqb k phases | _ => false end
  | RJson => match t with SObject _ _ _ => true | _ => false end
  | RAuthorizationKey => plain_text t && String.eqb k "AuthorizationKey"
  | _ => plain_text t && negb (String.eqb k "AuthorizationKey")
  end.

Lemma within_ok lo hi z : 0 <= z <= int_max -> within lo hi z = true <-> opt_max 0 lo <= z <= opt_min int_max hi.
Proof.
  intros R. unfold within. rewrite andb_true_iff.
  destruct lo, hi; cbn [opt_max opt_min]; rewrite ?Z.leb_le; intuition lia.
Qed.

(** Integers are stored exactly if the type allows them. *)
Lemma number_fits k lo hi t z : rule_fits k (RInt lo hi) t = true -> 0 <= z <= int_max -> (bounds t z <-> lo <= z <= hi).
Proof.
  intros F R. cbn [rule_fits] in F.
  destruct t; try discriminate F; rewrite !andb_true_iff, !Z.eqb_eq in F; destruct F as [[-> ->] _]; cbn [bounds]; apply within_ok; exact R.
Qed.

Lemma rule_means w x k r t text v s :
  rule_fits k r t = true -> apply_rule w x r text = Ret (Store v s) -> means k t text v /\ (s = Accepted \/ s = RebootRequired).
Proof.
  intros F A. destruct r; cbn [apply_rule] in A.
  - destruct t; try discriminate F. destruct (isBool text); [|discriminate A]. injection A as <- <-.
    split; [|auto]. destruct (string_to_bool text) eqn:E.
    + apply means_true. apply string_to_bool_ok. exact E.
    + apply means_false. intros H. apply string_to_bool_ok in H. congruence.
  - destruct t; try discriminate F. injection A as <- <-.
    split; [|auto]. destruct (string_to_bool text) eqn:E.
    + apply means_true. apply string_to_bool_ok. exact E.
    + apply means_false. intros H. apply string_to_bool_ok in H. congruence.
  - destruct (is_positive_integer text) as [[[] z]|] eqn:P; try discriminate A.
    destruct ((z <? lo) || (hi <? z)) eqn:B; [discriminate A|]. injection A as <- <-. split; [|auto].
    apply positive_literal in P. destruct P as [P R].
    apply orb_false_iff in B. rewrite !Z.ltb_ge in B.
    assert (Q : bounds t z) by (apply (number_fits k lo hi t z F R); lia).
    apply means_number; auto.
    + destruct t; try discriminate F; eexists; eexists; eauto.
    + intros ->. cbn [rule_fits] in F. destruct t; try discriminate F; rewrite String.eqb_refl, andb_false_r in F; discriminate F.
  - destruct (stoi_ws text) as [z|] eqn:P; [|discriminate A].
    destruct ((z <=? 0) || (3 <? z)) eqn:B; [discriminate A|]. injection A as <- <-. split; [|auto].
    apply orb_false_iff in B. rewrite Z.leb_gt, Z.ltb_ge in B.
    cbn [rule_fits] in F. destruct t as [| |[a|] [b|]| | |]; try discriminate F.
    rewrite !andb_true_iff, !Z.eqb_eq, String.eqb_eq in F. destruct F as [[-> ->] ->].
    apply means_phases; [eexists; eexists; right; reflexivity|reflexivity|apply stoi_ws_prefix; exact P|].
    cbn [bounds]. unfold within. rewrite andb_true_iff, !Z.leb_le. lia.
  - destruct (_ || _); [discriminate A|]. injection A as <- <-. split; [|auto].
    cbn [rule_fits plain_text] in F. destruct t; try discriminate F.
    apply means_text. intros ->. discriminate F.
  - destruct (measurands_supported _ _); [|discriminate A]. injection A as <- <-. split; [|auto].
    destruct t; try discriminate F. apply means_text. intros ->. discriminate F.
  - destruct (lookup _ _ _); [|discriminate A]. destruct (text_of _ _ _ _); [|discriminate A].
    destruct (Nat.ltb _ _); [discriminate A|]. destruct (forallb _ _); [|discriminate A]. injection A as <- <-. split; [|auto].
    destruct t; try discriminate F. apply means_text. intros ->. discriminate F.
  - destruct (number_of_connectors _ _); [|discriminate A]. destruct (rotation_ok _ _); [|discriminate A]. injection A as <- <-. split; [|auto].
    destruct t; try discriminate F. apply means_text. intros ->. discriminate F.
  - destruct (evse_ids_ok _); [|discriminate A]. injection A as <- <-. split; [|auto].
    destruct t; try discriminate F. apply means_text. intros ->. discriminate F.
  - destruct (Nat.leb 8 (String.length text)) eqn:L; [|discriminate A]. injection A as <- <-. split; [|auto]. apply Nat.leb_le in L.
    cbn [rule_fits] in F. apply andb_true_iff in F. destruct F as [F K]. apply String.eqb_eq in K.
    destruct t; try discriminate F. apply means_secret; [exact K|lia|apply secret_ok; exact L].
  - destruct (time_offset_ok _); [|discriminate A]. injection A as <- <-. split; [|auto].
    destruct t; try discriminate F. apply means_text. intros ->. discriminate F.
  - destruct (parse text) eqn:P; [|discriminate A]. injection A as <- <-. split; [|auto].
    destruct t; try discriminate F. apply means_object. exact P.
  - destruct (from_rfc3339 text); [|discriminate A]. destruct (_ <? _); [|discriminate A]. injection A as <- <-. split; [|auto].
    destruct t; try discriminate F. apply means_text. intros ->. discriminate F.
  - injection A as <- <-. split; [|auto]. destruct t; try discriminate F. apply means_text. intros ->. discriminate F.
Qed.

(** Nothing else is answered without being stored. *)
Lemma rule_refuses w x r text s : apply_rule w x r text = Ret (Answer s) -> s = Rejected.
Proof.
  intros A. destruct r; cbn [apply_rule] in A;
    repeat match type of A with
           | context [match ?e with _ => _ end] => destruct e; try discriminate A
           | context [if ?e then _ else _] => destruct e; try discriminate A
           end; try (injection A as <-; reflexivity); try discriminate A.
Qed.
