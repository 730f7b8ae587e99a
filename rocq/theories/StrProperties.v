(** C20, C21, C22: string types and string utilities. *)
From Coq Require Import ZArith List Bool String Ascii Lia QArith Qround.
From Verif Require Import StrModel StrSpec StrProofs.
Import ListNotations.
Local Open Scope string_scope.
Local Open Scope Z_scope.

(** ** C20 *)

(** operator== holds exactly for texts that differ at most in the case of their ASCII letters, and is an
    equivalence relation. *)
Theorem ci_equality :
  (forall a b, ci_eq a b = true <-> same_text a b) /\
  (forall a, ci_eq a a = true) /\
  (forall a b, ci_eq a b = ci_eq b a) /\
  (forall a b c, ci_eq a b = true -> ci_eq b c = true -> ci_eq a c = true).
Proof.
  unfold ci_eq. repeat split.
  - apply iequals_same.
  - apply iequals_same.
  - apply iequals_refl.
  - apply iequals_sym.
  - apply iequals_trans.
Qed.
Print Assumptions ci_equality.

Example ci_equality_ex :
  ci_eq "RFID-0a" "rfid-0A" = true /\ ci_eq "RFID-0a" "RFID-0b" = false /\ ci_eq "[" "{" = false.
Proof. vm_compute. auto. Qed.

(** operator!= is not the negation of operator==: two id tags written in different case are both equal and unequal. *)
Theorem ci_inequality_refuted : exists a b, ci_eq a b = true /\ ci_ne a b = true.
Proof. exists "abc", "ABC". vm_compute. auto. Qed.
Print Assumptions ci_inequality_refuted.

(** What holds of operator!=: it tells texts apart that differ as byte strings, so it holds of every pair that is
    not equal, and it fails for identical texts. *)
Theorem ci_inequality_partial :
  forall a b, (ci_ne a b = true <-> a <> b) /\ (ci_eq a b = false -> ci_ne a b = true).
Proof.
  intros a b. unfold ci_ne, str_eq. split.
  - rewrite negb_true_iff. apply String.eqb_neq.
  - intros H. apply negb_true_iff, String.eqb_neq. intros ->. unfold ci_eq in H. rewrite iequals_refl in H. discriminate.
Qed.
Print Assumptions ci_inequality_partial.

Example ci_inequality_ex : ci_ne "abc" "abd" = true /\ ci_eq "abc" "abd" = false /\ ci_ne "abc" "abc" = false.
Proof. vm_compute. auto. Qed.

(** operator< is a strict total order of the byte strings, so sets and maps keyed by CiString behave. *)
Theorem ci_order :
  (forall a, ci_lt a a = false) /\
  (forall a b c, ci_lt a b = true -> ci_lt b c = true -> ci_lt a c = true) /\
  (forall a b, ci_lt a b = true \/ a = b \/ ci_lt b a = true).
Proof.
  unfold ci_lt. repeat split; [apply str_lt_irrefl|intros a b c; apply str_lt_trans|apply str_lt_total].
Qed.
Print Assumptions ci_order.

Example ci_order_ex : ci_lt "Zeta" "alpha" = true /\ ci_lt "alpha" "alpha2" = true /\ ci_lt "b" "alpha" = false.
Proof. vm_compute. auto. Qed.

(** ... but it does not respect operator==: equal texts are ordered, so a std::set<CiString> holds both. *)
Theorem ci_order_respects_equality_refuted : exists a b, ci_eq a b = true /\ ci_lt a b = true.
Proof. exists "ABC", "abc". vm_compute. auto. Qed.
Print Assumptions ci_order_respects_equality_refuted.

(** ** C21 *)

(** Setting a String<L>/CiString<L>: what fits is stored unchanged; what is too long is refused, or cut to its
    first L characters when truncation was asked for. *)
Theorem set_string :
  forall L s,
    ((length s <= L)%nat -> forall tl, str_set L s tl = Ret s) /\
    ((L < length s)%nat ->
       (exists w, str_set L s TooLargeThrow = Throws w) /\
       exists v, str_set L s TooLargeTruncate = Ret v /\ is_beginning v s /\ length v = L).
Proof.
  intros L s. unfold str_set. split.
  - intros H tl. destruct (Nat.ltb_spec L (length s)); [lia|]. reflexivity.
  - intros H. destruct (Nat.ltb_spec L (length s)); [|lia]. split; [eauto|].
    exists (take L s). split; [reflexivity|]. split; [apply take_beginning|apply take_exact; lia].
Qed.
Print Assumptions set_string.

Example set_string_ex :
  str_set 4 "OCPP" TooLargeThrow = Ret "OCPP" /\ str_set 4 "OCPP2.1" TooLargeThrow = Throws "StringConversionException" /\
  str_set 4 "OCPP2.1" TooLargeTruncate = Ret "OCPP".
Proof. vm_compute. auto. Qed.

(** A variable of type String<L>/CiString<L> never holds more than L characters, whatever sequence of assignments it
    goes through (a throwing assignment keeps the old content); a copy of it always succeeds and is the same text. *)
Theorem string_length_invariant :
  forall L (ops : list (string * too_large)) s0,
    (length s0 <= L)%nat ->
    let s := fold_left (fun v op => var_set L v (fst op) (snd op)) ops s0 in
    (length s <= L)%nat /\ ci_copy L s = Ret s.
Proof.
  intros L ops. induction ops as [|[x tl] ops IH]; intros s0 H; cbn [fold_left fst snd].
  - cbv zeta. split; auto. apply (proj1 (set_string L s0)). auto.
  - apply IH. unfold var_set. destruct (str_set L x tl) eqn:E; auto. eapply set_fits; eauto.
Qed.
Print Assumptions string_length_invariant.

Example string_length_invariant_ex :
  fold_left (fun v op => var_set 4 v (fst op) (snd op))
    [("abc", TooLargeThrow); ("abcdef", TooLargeThrow); ("vwxyz", TooLargeTruncate); ("12345", TooLargeThrow)] "" = "vwxy".
Proof. vm_compute. reflexivity. Qed.

(** CiString::is_valid would accept exactly the printable texts (and line feeds) ... *)
Theorem ci_is_valid_printable : forall s, ci_is_valid s = Some true <-> Forall printable (chars s).
Proof. exact ci_is_valid_ok. Qed.
Print Assumptions ci_is_valid_printable.

Example ci_is_valid_printable_ex :
  ci_is_valid "Hello, world!" = Some true /\ ci_is_valid (String "009"%char "tab") = None /\
  ci_is_valid (String "195"%char (String "164"%char "")) = None.
Proof. vm_compute. auto. Qed.

(** ... but nothing calls it: control characters and non-ASCII bytes are stored. *)
Theorem ci_string_printable_refuted :
  exists s v, ci_make 20 s TooLargeThrow = Ret v /\ ~ Forall printable (chars v).
Proof.
  exists (String "000"%char (String "200"%char "")), (String "000"%char (String "200"%char "")). split; [reflexivity|].
  intros F. apply ci_is_valid_ok in F. vm_compute in F. discriminate.
Qed.
Print Assumptions ci_string_printable_refuted.

(** ** C22 *)

(** Splitting what was joined gives the fields back, provided no field contains the separator and the last one is
    not empty. *)
Theorem split_joined :
  forall c fields, Forall (without c) fields -> (fields = [] \/ last fields "" <> "") ->
    split_string (joined c fields) c false = fields.
Proof.
  intros c fields W L. unfold split_string. rewrite split_loop_joined; auto.
  - unfold trimmed. induction fields; cbn; auto. f_equal. apply IHfields; [inversion W; auto|].
    destruct L as [L|L]; [discriminate|]. destruct fields; auto.
Qed.
Print Assumptions split_joined.

Example split_joined_ex :
  split_string "Energy.Active.Import.Register,,Voltage" ","%char false = ["Energy.Active.Import.Register"; ""; "Voltage"].
Proof. vm_compute. reflexivity. Qed.

(** Every text is cut at exactly its separators: the result, joined again, is the text, except that a separator at
    the very end adds no empty field. *)
Theorem split_any :
  forall c s,
    let fields := split_string s c false in
    Forall (without c) fields /\
    (s = joined c fields \/ s = joined c fields ++ String c "" /\ fields <> []).
Proof.
  intros c s fields. unfold fields, split_string.
  destruct (split_loop_cut c false s (length s) (le_n _)) as (fs & E & W & H).
  assert (E' : map (trimmed false) fs = fs) by (clear; induction fs; cbn; congruence).
  rewrite E, E'. split; auto. destruct H as [(H & _)|H]; auto.
Qed.
Print Assumptions split_any.

Example split_any_ex : split_string ",a,b," ","%char false = [""; "a"; "b"] /\ split_string "" ","%char false = [].
Proof. vm_compute. auto. Qed.

(** An empty last field is lost. *)
Theorem split_joined_refuted :
  exists c fields, Forall (without c) fields /\ split_string (joined c fields) c false <> fields.
Proof.
  exists ","%char, ["a"; ""]. split; [|vm_compute; discriminate].
  apply Forall_cons; [unfold without; cbn; intuition discriminate|]. apply Forall_cons; [unfold without; cbn; tauto|apply Forall_nil].
Qed.
Print Assumptions split_joined_refuted.

(** With trimming, spaces around the fields do not matter. *)
Theorem split_trimmed :
  forall c (fields : list (nat * string * nat)),
    c <> " "%char -> fields <> [] ->
    Forall (fun f => without c (snd (fst f)) /\ neat (snd (fst f))) fields ->
    split_string (joined c (map (fun f => spaces (fst (fst f)) ++ snd (fst f) ++ spaces (snd f)) fields)) c true
    = map (fun f => snd (fst f)) fields.
Proof.
  intros c fields NS NE F. unfold split_string.
  rewrite split_loop_joined.
  - rewrite map_map. apply map_ext_in. intros [[a t] b] I. rewrite Forall_forall in F. cbn.
    apply trim_ok. apply (F _ I).
  - rewrite Forall_map. eapply Forall_impl; [|exact F]. intros [[a t] b] [W _]. cbn [fst snd] in *.
    unfold without, chars in *. intros I.
    assert (LA : forall x y, list_ascii_of_string (x ++ y) = (list_ascii_of_string x ++ list_ascii_of_string y)%list)
      by (induction x; intros; cbn; congruence).
    rewrite !LA, !in_app_iff in I. unfold spaces in I. rewrite !list_ascii_of_string_of_list_ascii in I.
    destruct I as [I|[I|I]]; [apply repeat_spec in I; congruence|auto|apply repeat_spec in I; congruence].
  - right. destruct (exists_last NE) as (fs & [[a t] b] & ->). rewrite map_app. cbn [map].
    rewrite last_last. cbn [fst snd]. apply Forall_app in F. destruct F as [_ F]. inversion F as [|? ? [_ (N & _)] _]; subst.
    cbn in N. intros E. destruct (spaces a); [|discriminate]. destruct t; [congruence|discriminate].
  - lia.
Qed.
Print Assumptions split_trimmed.

Example split_trimmed_ex :
  split_string "ASCII , HTML,  UTF8" ","%char true = ["ASCII"; "HTML"; "UTF8"] /\
  neat "UTF8" /\ without ","%char "UTF8".
Proof.
  split; [vm_compute; reflexivity|]. split.
  - repeat split; [discriminate|discriminate|].
    intros r E. destruct r as [|a [|b [|d [|e [|]]]]]; cbn in E; congruence.
  - unfold without. cbn. intuition discriminate.
Qed.

(** trim_string removes exactly the spaces at both ends. *)
Theorem trim_string_neat : forall a b t, neat t -> trim_string (spaces a ++ t ++ spaces b) = t.
Proof. exact trim_ok. Qed.
Print Assumptions trim_string_neat.

Example trim_string_neat_ex : trim_string "  Cable plugged in " = "Cable plugged in".
Proof. vm_compute. reflexivity. Qed.

(** A text of spaces only is left as it is, so a trimmed list can hold fields that are not trimmed. *)
Theorem trim_blank_refuted : exists s, s <> "" /\ trim_string s = s /\ exists r, s = String " " r.
Proof. exists "  ". repeat split; [discriminate|]. exists " ". reflexivity. Qed.
Print Assumptions trim_blank_refuted.

(** is_integer accepts every integer literal, and conversion gives its value or an out-of-range error. *)
Theorem is_integer_literals :
  forall n s, int_literal n s ->
    is_integer s = true /\
    (int_min <= n <= int_max -> stoi s = Ret n) /\
    (~ int_min <= n <= int_max -> stoi s = Throws "out_of_range").
Proof.
  intros n s H. apply literal_parse in H. destruct H as [I S]. split; auto. rewrite S.
  destruct (Z.ltb_spec n int_min), (Z.ltb_spec int_max n); cbn; split; intros; auto; lia.
Qed.
Print Assumptions is_integer_literals.

Example is_integer_literals_ex : int_literal (-42) "-42" /\ stoi "-42" = Ret (-42) /\ is_integer "-42" = true.
Proof.
  split; [|vm_compute; auto]. apply (lit_minus 42 "42"). apply (digits_more 4 "4" 2); [|lia]. apply (digits_one 4). lia.
Qed.

(** is_integer accepts nothing else except the bare signs. *)
Theorem is_integer_accepts_partial :
  forall s, is_integer s = true <-> (exists n, int_literal n s) \/ s = "+" \/ s = "-".
Proof.
  intros s. split; [apply is_integer_literal|].
  intros [(n & H)|[-> | ->]]; [apply literal_parse in H; tauto|reflexivity|reflexivity].
Qed.
Print Assumptions is_integer_accepts_partial.

Example is_integer_accepts_ex : is_integer "12a" = false /\ is_integer "" = false /\ is_integer "+7" = true.
Proof. vm_compute. auto. Qed.

(** A bare sign passes is_integer although it denotes no number, and is_positive_integer then throws. *)
Theorem is_integer_refuted :
  exists s, is_integer s = true /\ (forall n, ~ int_literal n s) /\ exists w, is_positive_integer s = Throws w.
Proof.
  exists "+". split; [reflexivity|]. split.
  - intros n H. apply literal_parse in H. destruct H as [_ H]. change (stoi "+") with (@Throws Z "invalid_argument") in H.
    destruct ((n <? int_min) || (int_max <? n)); discriminate.
  - eexists. vm_compute. reflexivity.
Qed.
Print Assumptions is_integer_refuted.

(** is_positive_integer: an exact description. A literal in the range of int is accepted iff it is not negative and
    its value is returned; a literal out of that range throws. *)
Theorem is_positive_integer_literals :
  forall n s, int_literal n s ->
    (0 <= n <= int_max -> is_positive_integer s = Ret (true, n)) /\
    (int_min <= n < 0 -> is_positive_integer s = Ret (false, n)) /\
    (~ int_min <= n <= int_max -> is_positive_integer s = Throws "out_of_range").
Proof.
  intros n s H. apply literal_parse in H. destruct H as [I S]. unfold is_positive_integer. rewrite I, S.
  unfold int_min, int_max.
  destruct (Z.ltb_spec n (-2147483648)), (Z.ltb_spec 2147483647 n); cbn [orb]; destruct (Z.ltb_spec n 0);
    repeat split; intros; auto; lia.
Qed.
Print Assumptions is_positive_integer_literals.

(** Everything else is reported as invalid, except the bare signs, which throw. *)
Theorem is_positive_integer_others :
  forall s, (forall n, ~ int_literal n s) ->
    is_positive_integer s = Ret (false, 0) \/ (s = "+" \/ s = "-") /\ is_positive_integer s = Throws "invalid_argument".
Proof.
  intros s N. unfold is_positive_integer. destruct (is_integer s) eqn:I; auto. right.
  destruct (is_integer_literal s I) as [(n & H)|H]; [exfalso; eapply N; eauto|].
  split; auto. destruct H; subst; reflexivity.
Qed.
Print Assumptions is_positive_integer_others.

Example is_positive_integer_ex :
  is_positive_integer "900" = Ret (true, 900) /\ is_positive_integer "-1" = Ret (false, -1) /\
  is_positive_integer "abc" = Ret (false, 0) /\ is_positive_integer "99999999999" = Throws "out_of_range".
Proof. vm_compute. auto. Qed.

(** is_decimal_number accepts exactly an optional sign followed by digits with at most one decimal point. *)
Theorem is_decimal_accepts_partial :
  forall s, is_decimal_number s = true <->
    s <> "" /\ (decimal_literal s \/ exists sg, opt_sign sg /\ (s = sg \/ s = sg ++ ".")).
Proof.
  intros s. split.
  - unfold is_decimal_number. destruct s as [|c s]; [discriminate|]. intros H. split; [discriminate|].
    apply decimal_loop_ok in H. destruct H as (i & f & I & F & E). apply all_digits_ok in I, F.
    assert (SK : exists sg, opt_sign sg /\ String c s = sg ++ skip_sign (String c s)).
    { unfold skip_sign, opt_sign. destruct (is_sign c) eqn:S.
      - apply is_sign_ok in S. exists (String c ""). split; [|reflexivity]. destruct S; subst; auto.
      - exists "". auto. }
    destruct SK as (sg & O & ES).
    destruct (string_dec (i ++ f) "") as [Z|NZ].
    + right. exists sg. split; auto. destruct i; [|discriminate]. cbn in Z. subst f. rewrite ES.
      destruct E as [-> | ->]; cbn; auto. left. clear. induction sg; cbn; congruence.
    + left. exists sg, i, f. repeat split; auto. rewrite ES. destruct E as [-> | ->]; auto.
  - intros [NE H].
    assert (G : exists sg i f, opt_sign sg /\ all_digits i /\ all_digits f /\ (s = sg ++ i ++ f \/ s = sg ++ i ++ "." ++ f)).
    { destruct H as [(sg & i & f & O & I & F & _ & E)|(sg & O & E)].
      - exists sg, i, f. auto.
      - exists sg, "", "". split; auto. split; [constructor|]. split; [constructor|]. cbn. destruct E as [-> | ->]; auto.
        left. clear. induction sg; cbn; congruence. }
    clear H. destruct G as (sg & i & f & O & I & F & E). apply all_digits_ok in I, F.
    unfold is_decimal_number. destruct s as [|c s]; [congruence|].
    apply decimal_loop_ok. exists i, f. split; auto. split; auto.
    assert (SK : forall w, sg ++ w = String c s -> (w = i ++ f \/ w = i ++ "." ++ f) -> skip_sign (String c s) = w).
    { intros w Ew W. destruct O as [-> | [-> | ->]]; cbn in Ew.
      - subst w. unfold skip_sign. assert (NS : is_sign c = false); [|rewrite NS; auto].
        destruct W as [W|W]; destruct i as [|x i]; cbn in W.
        + subst f. cbn in F. apply andb_true_iff in F. apply isdigit_not_sign. tauto.
        + injection W as -> _. cbn in I. apply andb_true_iff in I. apply isdigit_not_sign. tauto.
        + injection W as -> _. reflexivity.
        + injection W as -> _. cbn in I. apply andb_true_iff in I. apply isdigit_not_sign. tauto.
      - injection Ew as <- <-. reflexivity.
      - injection Ew as <- <-. reflexivity. }
    destruct E as [E|E]; [left|right]; apply SK; auto.
Qed.
Print Assumptions is_decimal_accepts_partial.

Example is_decimal_accepts_ex :
  is_decimal_number "-12.5" = true /\ decimal_literal "-12.5" /\ is_decimal_number "1.2.3" = false /\ is_decimal_number "1e3" = false.
Proof.
  split; [reflexivity|]. split; [|vm_compute; auto].
  exists "-", "12", "5". repeat split; try (apply all_digits_ok; reflexivity); [right; right; auto|discriminate|right; reflexivity].
Qed.

(** "." and a bare sign are accepted although they denote no number. *)
Theorem is_decimal_refuted : exists s, is_decimal_number s = true /\ ~ decimal_literal s.
Proof.
  exists ".". split; [reflexivity|]. intros (sg & i & f & O & I & F & NE & E). apply all_digits_ok in I, F.
  destruct O as [-> | [-> | ->]]; destruct E as [E|E]; try discriminate E.
  - destruct i as [|x i]; cbn in E.
    + subst f. discriminate.
    + injection E as <- _. discriminate.
  - destruct i as [|x i]; cbn in E.
    + injection E as <-. apply NE. reflexivity.
    + injection E as <- _. discriminate.
Qed.
Print Assumptions is_decimal_refuted.

(** is_rfc3339_datetime accepts exactly the date-times of the stated form. *)
Theorem is_rfc3339_exact : forall s, is_rfc3339_datetime s = true <-> datetime s.
Proof. exact datetime_ok. Qed.
Print Assumptions is_rfc3339_exact.

Example is_rfc3339_ex :
  is_rfc3339_datetime "2024-02-29T23:59:59.123Z" = true /\ is_rfc3339_datetime "2024-02-29T23:59:59+0100" = true /\
  is_rfc3339_datetime "2024-13-01T00:00:00Z" = false /\ is_rfc3339_datetime "2024-01-01T24:00:00Z" = false /\
  is_rfc3339_datetime "2024-01-01T00:00:00" = false.
Proof. vm_compute. auto. Qed.

(** is_boolean accepts exactly "true" and "false" in any case. *)
Theorem is_boolean_exact : forall s, is_boolean s = true <-> same_text s "true" \/ same_text s "false".
Proof. intros s. unfold is_boolean. rewrite orb_true_iff, !iequals_same. tauto. Qed.
Print Assumptions is_boolean_exact.

Example is_boolean_ex : is_boolean "True" = true /\ is_boolean "FALSE" = true /\ is_boolean "yes" = false.
Proof. vm_compute. auto. Qed.

(** convert_to_positive_size_t: the least natural number that is not below the limit. *)
Theorem convert_limit :
  forall v n, convert_to_positive_size_t v = Some n ->
    0 <= n /\ (v <= inject_Z n)%Q /\ forall m, 0 <= m -> (v <= inject_Z m)%Q -> n <= m.
Proof.
  intros v n. unfold convert_to_positive_size_t. destruct (Qlt_le_dec v 0) as [L|L].
  - intros [= <-]. split; [lia|]. split; [apply Qlt_le_weak; exact L|auto].
  - destruct (Z.leb_spec (Qceiling v) 9223372036854775807) as [B|B]; [|discriminate].
    assert (P : 0 <= Qceiling v) by (pose proof (Qceiling_resp_le _ _ L) as H; exact H).
    unfold clamp_to_size, size_max. rewrite Z.mod_small by lia.
    destruct (Z.leb_spec (Qceiling v) 18446744073709551615); [|lia]. intros [= <-].
    split; auto. split; [apply Qle_ceiling|]. intros m _ M. apply Qceiling_resp_le in M.
    rewrite Qceiling_Z in M. exact M.
Qed.
Print Assumptions convert_limit.

Example convert_limit_ex :
  convert_to_positive_size_t (5 # 2) = Some 3 /\ convert_to_positive_size_t (- (5 # 2)) = Some 0.
Proof. vm_compute. auto. Qed.
