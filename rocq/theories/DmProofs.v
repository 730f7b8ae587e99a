(** Lemmas for the device model: identifiers, values, attributes, reports. *)
From Coq Require Import ZArith List Bool String Ascii QArith Qabs Qround Lia Lqa.
From Verif Require Import StrModel StrSpec StrProofs DmModel DmSpec.
Import ListNotations.
Local Open Scope string_scope.
Local Open Scope Z_scope.

(** ** Identifiers *)

Lemma str_eq_ok a b : str_eq a b = true <-> a = b.
Proof. unfold str_eq. apply String.eqb_eq. Qed.

Lemma opt_eqb_ok {A} (e : A -> A -> bool) : (forall x y, e x y = true <-> x = y) -> forall a b, opt_eqb e a b = true <-> a = b.
Proof.
  intros E [x|] [y|]; cbn; split; intros H; try discriminate; auto.
  - f_equal. apply E. exact H.
  - apply E. congruence.
Qed.

Lemma opt_ci_ok a b : opt_eqb ci_eq a b = true <-> same_opt_text a b.
Proof. destruct a, b; cbn; unfold ci_eq; rewrite ?iequals_same; intuition congruence. Qed.

Lemma evse_eq_ok a b : evse_eq a b = true <-> a = b.
Proof.
  destruct a as [a1 a2], b as [b1 b2]. unfold evse_eq. cbn [fst snd]. rewrite andb_true_iff, Z.eqb_eq.
  rewrite (opt_eqb_ok Z.eqb Z.eqb_eq). split; [intros [-> ->]; auto|intros E; inversion E; auto].
Qed.

Lemma comp_same_ok a b : comp_same a b = true <-> a = b.
Proof.
  destruct a as [n i e], b as [n' i' e']. unfold comp_same. cbn. rewrite !andb_true_iff, str_eq_ok.
  rewrite (opt_eqb_ok str_eq str_eq_ok), (opt_eqb_ok evse_eq evse_eq_ok).
  split; [intros [[-> ->] ->]; auto|intros E; inversion E; auto].
Qed.

Lemma var_same_ok a b : var_same a b = true <-> a = b.
Proof.
  destruct a as [n i], b as [n' i']. unfold var_same. cbn. rewrite andb_true_iff, str_eq_ok.
  rewrite (opt_eqb_ok str_eq str_eq_ok). split; [intros [-> ->]; auto|intros E; inversion E; auto].
Qed.

Lemma key_same_ok a b : key_same a b = true <-> a = b.
Proof.
  destruct a, b. unfold key_same. cbn. rewrite andb_true_iff, comp_same_ok, var_same_ok.
  split; [intros [-> ->]; auto|intros E; inversion E; auto].
Qed.

Lemma key_same_false a b : key_same a b = false <-> a <> b.
Proof.
  rewrite <- (key_same_ok a b). destruct (key_same a b); split; congruence.
Qed.

Lemma key_same_refl k : key_same k k = true.
Proof. apply key_same_ok. reflexivity. Qed.

Lemma key_dec (a b : key) : {a = b} + {a <> b}.
Proof. destruct (key_same a b) eqn:E; [left; apply key_same_ok; auto|right; apply key_same_false; auto]. Qed.

Lemma comp_eq_ok a b : comp_eq a b = true <-> same_component a b.
Proof.
  unfold comp_eq, same_component. rewrite !andb_true_iff, str_eq_ok, opt_ci_ok, (opt_eqb_ok evse_eq evse_eq_ok). tauto.
Qed.

Lemma var_eq_ok a b : var_eq a b = true <-> same_variable a b.
Proof. unfold var_eq, same_variable. rewrite andb_true_iff, str_eq_ok, opt_ci_ok. tauto. Qed.

Lemma same_component_ctrl c n : same_component c (ctrl n) <-> c = mkC n None None.
Proof.
  destruct c as [n' i e]. unfold same_component, ctrl. cbn. split.
  - intros (-> & I & ->). destruct i; [contradiction|]. reflexivity.
  - intros E. inversion E. repeat split.
Qed.

Lemma same_variable_plain v n : same_variable v (plain n) <-> v = mkV n None.
Proof.
  destruct v as [n' i]. unfold same_variable, plain. cbn. split.
  - intros (-> & I). destruct i; [contradiction|]. reflexivity.
  - intros E. inversion E. repeat split.
Qed.

Lemma attr_eqb_ok a b : attr_eqb a b = true <-> a = b.
Proof. destruct a, b; cbn; intuition congruence. Qed.
Lemma mut_eqb_ok a b : mut_eqb a b = true <-> a = b.
Proof. destruct a, b; cbn; intuition congruence. Qed.
Lemma mt_eqb_ok a b : mt_eqb a b = true <-> a = b.
Proof. destruct a, b; cbn; intuition congruence. Qed.
Lemma cfg_eqb_ok a b : cfg_eqb a b = true <-> a = b.
Proof. destruct a, b; cbn; intuition congruence. Qed.

Lemma allow_zero_ok c v : allow_zero c v = true <-> zero_allowed c v.
Proof.
  unfold allow_zero. rewrite !orb_true_iff, !andb_true_iff, !comp_eq_ok, !var_eq_ok, !same_component_ctrl, !same_variable_plain.
  split.
  - intros [[[-> ->] | [-> ->]] | [-> ->]]; constructor.
  - intros H. destruct H; auto.
Qed.

Lemma allow_set_ok c v a : allow_set_read_only_value c v a = true <-> library_may_write c v a.
Proof.
  unfold allow_set_read_only_value, library_may_write. destruct (attr_eqb a Actual) eqn:A; cbn [negb].
  - apply attr_eqb_ok in A. rewrite !orb_true_iff, !comp_eq_ok, !var_eq_ok, !same_component_ctrl, !same_variable_plain.
    cbn [map In]. intuition congruence.
  - split; [discriminate|]. intros [-> _]. discriminate.
Qed.

(** ** The map *)

Lemma find_meta_some k l m : find_meta k l = Some m -> In (k, m) l.
Proof.
  induction l as [|[k' m'] l IH]; cbn; [discriminate|]. destruct (key_same k k') eqn:K.
  - intros E. inversion E. subst. apply key_same_ok in K. subst. auto.
  - auto.
Qed.

Lemma find_meta_in k l m : NoDup (map fst l) -> In (k, m) l -> find_meta k l = Some m.
Proof.
  induction l as [|[k' m'] l IH]; cbn; [contradiction|]. intros N [E|I].
  - inversion E. subst. rewrite key_same_refl. reflexivity.
  - inversion N as [|x y NI N']. subst. destruct (key_same k k') eqn:K; auto.
    apply key_same_ok in K. subst. exfalso. apply NI. apply (in_map fst) in I. exact I.
Qed.

Lemma find_meta_none k l : find_meta k l = None -> forall m, ~ In (k, m) l.
Proof.
  induction l as [|[k' m'] l IH]; cbn; [tauto|]. destruct (key_same k k') eqn:K; [discriminate|].
  intros E m [I|I]; [inversion I; subst; rewrite key_same_refl in K; discriminate|apply (IH E m I)].
Qed.

Lemma has_component_ok c d : has_component c d = true <-> known_component d c.
Proof.
  unfold has_component, known_component, known. rewrite existsb_exists. split.
  - intros ([[c' v] m] & I & E). cbn in E. apply comp_same_ok in E. subst. eauto.
  - intros (v & m & I). exists ((c, v), m). split; auto. cbn. apply comp_same_ok. reflexivity.
Qed.

Lemma known_comp d c v m : known d (c, v) m -> known_component d c.
Proof. intros K. exists v, m. exact K. Qed.

Lemma known_fun d k m m' : NoDup (map fst (d_map d)) -> known d k m -> known d k m' -> m = m'.
Proof. unfold known. intros N A B. apply (find_meta_in _ _ _ N) in A, B. congruence. Qed.

(** ** Attributes *)

Lemma rows_in d k a r : In r (get_variable_attributes d k a) <->
  In r (d_attrs d) /\ a_key r = k /\ (forall t, a = Some t -> a_type r = t).
Proof.
  unfold get_variable_attributes, row_of. rewrite filter_In, andb_true_iff, key_same_ok. split.
  - intros (I & K & T). repeat split; auto. intros t ->. apply attr_eqb_ok in T. auto.
  - intros (I & K & T). repeat split; auto. destruct a; auto. apply attr_eqb_ok. symmetry. auto.
Qed.

Lemma stored_fun d k a r r' : NoDup (map (fun r => (a_key r, a_type r)) (d_attrs d)) ->
  stored d k a r -> stored d k a r' -> r = r'.
Proof.
  unfold stored. generalize (d_attrs d) as l. induction l as [|x l IH]; cbn; [tauto|].
  intros N (I & K & T) (I' & K' & T'). inversion N as [|y z NI N']. subst.
  destruct I as [-> | I], I' as [-> | I']; auto.
  - exfalso. apply NI. rewrite <- K', <- T'. apply (in_map (fun r => (a_key r, a_type r)) _ _ I').
  - exfalso. apply NI. rewrite K', T'. apply (in_map (fun r => (a_key r, a_type r)) _ _ I).
Qed.

Lemma attribute_some d k a r : get_variable_attribute d k a = Some r -> stored d k a r.
Proof.
  unfold get_variable_attribute. destruct (get_variable_attributes d k (Some a)) as [|x l] eqn:E; [discriminate|].
  intros X. inversion X. subst. assert (I : In r (get_variable_attributes d k (Some a))) by (rewrite E; left; auto).
  apply rows_in in I. destruct I as (I & K & T). repeat split; auto.
Qed.

Lemma attribute_stored d k a r : NoDup (map (fun r => (a_key r, a_type r)) (d_attrs d)) ->
  stored d k a r -> get_variable_attribute d k a = Some r.
Proof.
  intros N S. destruct (get_variable_attribute d k a) as [r'|] eqn:E.
  - apply attribute_some in E. f_equal. eapply stored_fun; eauto.
  - exfalso. unfold get_variable_attribute in E. destruct (get_variable_attributes d k (Some a)) eqn:F; [|discriminate].
    assert (I : In r (get_variable_attributes d k (Some a))).
    { destruct S as (I & K & T). apply rows_in. repeat split; auto. intros t X. congruence. }
    rewrite F in I. contradiction.
Qed.

Lemma attribute_none d k a : get_variable_attribute d k a = None -> forall r, ~ stored d k a r.
Proof.
  unfold get_variable_attribute. destruct (get_variable_attributes d k (Some a)) eqn:F; [|discriminate].
  intros _ r (I & K & T). assert (X : In r (get_variable_attributes d k (Some a))).
  { apply rows_in. repeat split; auto. intros t Y. congruence. }
  rewrite F in X. contradiction.
Qed.

(** ** Getting *)

Lemma request_sound d c v a : tables_ok d ->
  get_outcome d c v a (fst (request_value_internal d c v a false)) (snd (request_value_internal d c v a false)).
Proof.
  intros [ND NA]. unfold request_value_internal. destruct (has_component c d) eqn:H; cbn [negb].
  2: { apply get_no_component. intros X. apply has_component_ok in X. congruence. }
  apply has_component_ok in H. destruct (find_meta (c, v) (d_map d)) as [m|] eqn:F.
  2: { apply get_no_variable; auto. intros m. apply find_meta_none. auto. }
  apply find_meta_some in F. destruct (get_variable_attribute d (c, v) a) as [r|] eqn:G.
  2: { apply get_no_value with m; auto. intros r S. exfalso. apply (attribute_none _ _ _ G r S). }
  apply attribute_some in G. destruct (a_value r) as [s|] eqn:V.
  - cbn [negb andb]. destruct (mut_eqb (a_mut r) WriteOnly) eqn:M.
    + apply get_secret with m r s; auto. apply mut_eqb_ok. auto.
    + apply get_value with m r; auto. intros X. apply mut_eqb_ok in X. congruence.
  - apply get_no_value with m; auto. intros r' S'. rewrite (stored_fun _ _ _ _ _ NA S' G). auto.
Qed.

Lemma get_outcome_fun d c v a st val st' val' : tables_ok d ->
  get_outcome d c v a st val -> get_outcome d c v a st' val' -> st = st' /\ val = val'.
Proof.
  intros [ND NA] A B.
  assert (Kc : forall m, known d (c, v) m -> known_component d c) by (intros m K; eapply known_comp; eauto).
  destruct A as [NC|KC NV|m K NS|m r s K S V M|m r s K S V M]; inversion B as [NC'|KC' NV'|m' K' NS'|m' r' s' K' S' V' M'|m' r' s' K' S' V' M'];
    subst; auto; try (exfalso; solve [eauto | eapply NV; eauto | eapply NV'; eauto | apply NC; eauto | apply NC'; eauto]);
    try (exfalso; match goal with N : forall r, stored _ _ _ r -> a_value r = None, S : stored _ _ _ _ |- _ => rewrite (N _ S) in *; discriminate end);
    rewrite (stored_fun _ _ _ _ _ NA S S') in *; try congruence; auto.
  split; congruence.
Qed.

Lemma request_iff d c v a st val : tables_ok d ->
  (request_value_internal d c v a false = (st, val) <-> get_outcome d c v a st val).
Proof.
  intros T. assert (S := request_sound d c v a T). destruct (request_value_internal d c v a false) as [st' val']. cbn in S. split.
  - intros E. inversion E. subst. exact S.
  - intros G. destruct (get_outcome_fun _ _ _ _ _ _ _ _ T S G) as [-> ->]. reflexivity.
Qed.

(** Reading with the right to see write-only values. *)
Lemma request_internal_value d c v a m r s : tables_ok d -> known d (c, v) m -> stored d (c, v) a r -> a_value r = Some s ->
  request_value_internal d c v a true = (Accepted, Some s).
Proof.
  intros [ND NA] K S V. unfold request_value_internal. rewrite (proj2 (has_component_ok c d)) by (eapply known_comp; eauto). cbn [negb].
  rewrite (find_meta_in _ _ m ND K), (attribute_stored _ _ _ _ NA S), V. reflexivity.
Qed.

(** ** Numbers *)

Lemma dec_scan_digits s : forall acc p, all_of isdigit s = true ->
  dec_scan s acc p = (digits_value acc s, match p with Some n => n + length s | None => 0 end, length s)%nat.
Proof.
  induction s as [|c s IH]; intros acc p A; cbn [dec_scan digits_value length].
  - destruct p; rewrite ?Nat.add_0_r; reflexivity.
  - cbn in A. apply andb_true_iff in A. destruct A as [C A]. rewrite (isdigit_not_dot c C), C.
    rewrite (IH _ _ A). replace (10 * acc + (code c - 48)) with (acc * 10 + (code c - 48)) by lia.
    destruct p; rewrite ?Nat.add_succ_r; reflexivity.
Qed.

Lemma digits_value_concat i f : all_of isdigit i = true -> forall acc, digits_value acc (i ++ f) = digits_value (digits_value acc i) f.
Proof.
  intros A. induction i as [|c i IH]; intros acc; cbn [digits_value append]; auto.
  cbn in A. apply andb_true_iff in A. destruct A as [C A]. rewrite C. auto.
Qed.

Lemma dec_scan_point i f : forall acc, all_of isdigit i = true -> all_of isdigit f = true ->
  dec_scan (i ++ "." ++ f) acc None = (digits_value acc (i ++ f), length f, (length i + length f)%nat).
Proof.
  induction i as [|c i IH]; intros acc A F; cbn [dec_scan append].
  - change (is_dot ".") with true. cbv iota. rewrite dec_scan_digits by auto. reflexivity.
  - cbn in A. apply andb_true_iff in A. destruct A as [C A]. rewrite (isdigit_not_dot c C).
    cbn [append] in IH. rewrite (IH _ A F). cbn [digits_value length]. rewrite C.
    replace (10 * acc + (code c - 48)) with (acc * 10 + (code c - 48)) by lia. reflexivity.
Qed.

Definition parts (s sg i f : string) : Prop :=
  opt_sign sg /\ all_of isdigit i = true /\ all_of isdigit f = true /\ i ++ f <> "" /\
  (s = sg ++ i ++ f /\ f = "" \/ s = sg ++ i ++ "." ++ f).

Lemma app_nil_s s : s ++ "" = s.
Proof. induction s; cbn; congruence. Qed.

Lemma parts_split s sg i f : parts s sg i f ->
  s <> "" /\ exists body, s = sg ++ body /\ (body = i /\ f = "" \/ body = i ++ "." ++ f) /\ skip_sign s = body /\
    (match s with String c s' => if is_sign c then (Ascii.eqb c "-", s') else (false, s) | EmptyString => (false, s) end)
      = (String.eqb sg "-", body).
Proof.
  intros (O & I & F & NE & E).
  assert (B : exists body, s = sg ++ body /\ (body = i /\ f = "" \/ body = i ++ "." ++ f)).
  { destruct E as [[-> ->] | ->]; [exists i|exists (i ++ "." ++ f)]; split; auto. rewrite app_nil_s. auto. }
  destruct B as (body & -> & B).
  assert (NB : exists c r, body = String c r /\ is_sign c = false).
  { destruct B as [[-> ->] | ->].
    - rewrite app_nil_s in NE. destruct i as [|c i]; [congruence|]. exists c, i. split; auto. apply isdigit_not_sign.
      cbn in I. apply andb_true_iff in I. tauto.
    - destruct i as [|c i]; cbn [append]; [exists "."%char, f; auto|]. exists c, (i ++ "." ++ f). split; auto. apply isdigit_not_sign.
      cbn in I. apply andb_true_iff in I. tauto. }
  destruct NB as (c & r & -> & NS). split; [destruct O as [-> | [-> | ->]]; discriminate|].
  exists (String c r). split; auto. split; auto. unfold skip_sign. destruct O as [-> | [-> | ->]]; cbn [append].
  - rewrite NS. auto.
  - change (is_sign "+") with true. auto.
  - change (is_sign "-") with true. auto.
Qed.

Lemma parts_decimal s sg i f : parts s sg i f -> is_decimal_number s = true.
Proof.
  intros P. destruct (parts_split _ _ _ _ P) as (NE & body & E & B & SK & _). destruct P as (_ & I & F & _).
  unfold is_decimal_number. destruct s as [|c s]; [congruence|]. rewrite SK. apply decimal_loop_ok. exists i, f.
  split; auto. split; auto. destruct B as [[-> ->] | ->]; auto. rewrite app_nil_s. auto.
Qed.

Lemma decimal_parts s : is_decimal_number s = true ->
  (exists sg i f, parts s sg i f) \/ exists sg, opt_sign sg /\ (s = sg \/ s = sg ++ ".").
Proof.
  unfold is_decimal_number. destruct s as [|c s]; [discriminate|]. intros H. apply decimal_loop_ok in H.
  destruct H as (i & f & I & F & E).
  assert (SK : exists sg, opt_sign sg /\ String c s = sg ++ skip_sign (String c s)).
  { unfold skip_sign, opt_sign. destruct (is_sign c) eqn:S.
    - apply is_sign_ok in S. exists (String c ""). split; [|reflexivity]. destruct S; subst; auto.
    - exists "". auto. }
  destruct SK as (sg & O & ES). rewrite ES. destruct (string_dec (i ++ f) "") as [Z|NZ].
  - right. exists sg. split; auto. destruct i; [|discriminate]. cbn in Z. subst f. destruct E as [-> | ->]; cbn; auto.
    left. apply app_nil_s.
  - left. destruct E as [-> | ->].
    + exists sg, (i ++ f), "". unfold parts. rewrite !app_nil_s. repeat split; auto. rewrite all_of_app, I, F. auto.
    + exists sg, i, f. unfold parts. repeat split; auto.
Qed.

Lemma pow10_pos n : 0 < pow10 n.
Proof. unfold pow10. apply Z.pow_pos_nonneg; lia. Qed.

Lemma parts_stof s sg i f : parts s sg i f ->
  let v := digits_value 0 (i ++ f) in let q := pow10 (length f) in
  0 <= v /\
  stof s = if (Z.pow 2 128 * q <=? v) || ((0 <? v) && (v * Z.pow 2 126 <? q)) then Throws "out_of_range"
           else Ret (Qmake (if String.eqb sg "-" then - v else v) (Z.to_pos q)).
Proof.
  intros P v q. destruct (parts_split _ _ _ _ P) as (NE & body & E & B & _ & SK). destruct P as (_ & I & F & NEF & _).
  split.
  { eapply digits_nonneg with (s := i ++ f). apply digits_complete; auto. rewrite all_of_app, I, F. reflexivity. }
  unfold stof. rewrite SK. fold v.
  assert (SC : dec_scan body 0 None = (v, length f, length (i ++ f))).
  { destruct B as [[-> ->] | ->].
    - rewrite dec_scan_digits by auto. unfold v. rewrite app_nil_s. reflexivity.
    - rewrite dec_scan_point by auto. rewrite app_length_s. reflexivity. }
  rewrite SC. destruct (length (i ++ f)) eqn:L; [destruct (i ++ f); [congruence|discriminate]|]. cbn [Nat.eqb].
  reflexivity.
Qed.

Lemma dec_value_parts q s : dec_value q s -> exists sg i f, parts s sg i f /\
  (q * inject_Z (pow10 (length f)) == inject_Z (if String.eqb sg "-" then - digits_value 0 (i ++ f) else digits_value 0 (i ++ f)))%Q.
Proof.
  intros (sg & i & f & n & O & D & E & V). exists sg, i, f. apply digits_sound in D. destruct D as (NE & A & N). subst n.
  rewrite all_of_app in A. apply andb_true_iff in A. destruct A. split; auto. repeat split; auto.
Qed.

Lemma parts_dec_value s sg i f : parts s sg i f ->
  dec_value (Qmake (if String.eqb sg "-" then - digits_value 0 (i ++ f) else digits_value 0 (i ++ f)) (Z.to_pos (pow10 (length f)))) s.
Proof.
  intros (O & I & F & NE & E). exists sg, i, f, (digits_value 0 (i ++ f)). split; auto. split.
  { apply digits_complete; auto. rewrite all_of_app, I, F. auto. }
  split; auto. unfold Qeq, Qmult, inject_Z. cbn [Qnum Qden]. rewrite !Pos.mul_1_r, Z2Pos.id by (apply pow10_pos).
  pose proof (pow10_pos (length f)). lia.
Qed.

Lemma range_test v d sg : 0 <= v -> 0 < d ->
  ((Z.pow 2 128 * d <=? v) || ((0 <? v) && (v * Z.pow 2 126 <? d)) = false <->
   float_range (Qmake (if String.eqb sg "-" then - v else v) (Z.to_pos d))).
Proof.
  intros V D. unfold float_range.
  assert (AB : Qabs (Qmake (if String.eqb sg "-" then - v else v) (Z.to_pos d)) = Qmake v (Z.to_pos d)).
  { unfold Qabs. f_equal. destruct (String.eqb sg "-"); lia. }
  rewrite AB, orb_false_iff, andb_false_iff, Z.leb_gt, !Z.ltb_ge. unfold Qlt, Qle, Qeq, Qmult, inject_Z. cbn [Qnum Qden].
  rewrite !Pos.mul_1_r, !Z.mul_1_r, Z2Pos.id by auto.
  generalize (2 ^ 128) (2 ^ 126). intros a b. destruct (String.eqb sg "-"); split; intros [L R]; split; try lia; destruct R; lia.
Qed.

Lemma dec_value_unique q q' s sg i f : parts s sg i f -> dec_value q s ->
  q' = Qmake (if String.eqb sg "-" then - digits_value 0 (i ++ f) else digits_value 0 (i ++ f)) (Z.to_pos (pow10 (length f))) ->
  (q == q')%Q.
Proof.
  intros P DV ->. destruct (dec_value_parts _ _ DV) as (sg' & i' & f' & P' & V').
  assert (S := parts_stof _ _ _ _ P). assert (S' := parts_stof _ _ _ _ P'). cbv zeta in S, S'.
  (* The scans agree because both describe the same text. *)
  destruct (parts_split _ _ _ _ P) as (NE & body & E & B & _ & SK).
  destruct (parts_split _ _ _ _ P') as (_ & body' & E' & B' & _ & SK').
  rewrite SK in SK'. injection SK' as SG <-.
  destruct P as (_ & I & F & NEF & _), P' as (_ & I' & F' & NEF' & _).
  assert (SC : dec_scan body 0 None = (digits_value 0 (i ++ f), length f, length (i ++ f))).
  { destruct B as [[-> ->] | ->].
    - rewrite dec_scan_digits by auto. rewrite app_nil_s. reflexivity.
    - rewrite dec_scan_point by auto. rewrite app_length_s. reflexivity. }
  assert (SC' : dec_scan body 0 None = (digits_value 0 (i' ++ f'), length f', length (i' ++ f'))).
  { destruct B' as [[-> ->] | ->].
    - rewrite dec_scan_digits by auto. rewrite app_nil_s. reflexivity.
    - rewrite dec_scan_point by auto. rewrite app_length_s. reflexivity. }
  rewrite SC in SC'. injection SC' as V L _. rewrite <- V, <- L, <- SG in V'. clear - V'.
  unfold Qeq, Qmult, inject_Z in *. cbn [Qnum Qden] in *. rewrite Z2Pos.id by (apply pow10_pos).
  pose proof (pow10_pos (length f)). rewrite Pos.mul_1_r, Z.mul_1_r in V'. exact V'.
Qed.

Lemma stof_sound s q : is_decimal_number s = true -> stof s = Ret q -> dec_value q s /\ float_range q.
Proof.
  intros D S. destruct (decimal_parts s D) as [(sg & i & f & P)|(sg & O & E)].
  - destruct (parts_stof _ _ _ _ P) as [V R]. rewrite S in R.
    destruct ((2 ^ 128 * pow10 (length f) <=? digits_value 0 (i ++ f))
                || ((0 <? digits_value 0 (i ++ f)) && (digits_value 0 (i ++ f) * 2 ^ 126 <? pow10 (length f)))) eqn:T; [discriminate|].
    injection R as ->. split; [apply parts_dec_value; auto|]. apply range_test; auto. apply pow10_pos.
  - exfalso. destruct O as [-> | [-> | ->]], E as [-> | ->]; discriminate.
Qed.

Lemma float_range_eq q q' : (q == q')%Q -> float_range q -> float_range q'.
Proof. intros E [A B]. unfold float_range. rewrite <- E. auto. Qed.

Lemma stof_complete s q : dec_value q s -> is_decimal_number s = true /\
  (float_range q -> exists q', stof s = Ret q' /\ (q == q')%Q) /\
  (~ float_range q -> stof s = Throws "out_of_range").
Proof.
  intros DV. destruct (dec_value_parts _ _ DV) as (sg & i & f & P & _). split; [eapply parts_decimal; eauto|].
  destruct (parts_stof _ _ _ _ P) as [V R]. assert (U := dec_value_unique q _ s sg i f P DV eq_refl).
  assert (RT := range_test (digits_value 0 (i ++ f)) (pow10 (length f)) sg V (pow10_pos _)).
  destruct ((2 ^ 128 * pow10 (length f) <=? digits_value 0 (i ++ f))
                || ((0 <? digits_value 0 (i ++ f)) && (digits_value 0 (i ++ f) * 2 ^ 126 <? pow10 (length f)))) eqn:T.
  - split; auto. intros FR. exfalso. apply (float_range_eq _ _ U) in FR. apply RT in FR. discriminate.
  - split; [intros _; eauto|]. intros NR. exfalso. apply NR. eapply float_range_eq; [symmetry; apply U|]. apply RT. reflexivity.
Qed.
