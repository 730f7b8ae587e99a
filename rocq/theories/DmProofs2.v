(** Lemmas for the device model: validation of values, setting, requests. *)
From Coq Require Import ZArith List Bool String Ascii QArith Qabs Qround Lia Lqa.
From Verif Require Import StrModel StrSpec StrProofs StrProperties DmModel DmSpec DmProofs.
Import ListNotations.
Local Open Scope string_scope.
Local Open Scope Z_scope.

(** ** Limits *)

Lemma inject_le a b : (inject_Z a <= inject_Z b)%Q <-> a <= b.
Proof. unfold Qle, inject_Z. cbn. rewrite !Z.mul_1_r. tauto. Qed.

Lemma convert_whole q n : 0 <= n < 2 ^ 63 -> (q == inject_Z n)%Q -> convert_to_positive_size_t q = Some n.
Proof.
  intros R E. unfold convert_to_positive_size_t. destruct (Qlt_le_dec q 0) as [L|L].
  - exfalso. rewrite E in L. unfold Qlt, inject_Z in L. cbn in L. lia.
  - assert (C : Qceiling q = n) by (rewrite (Qceiling_comp _ _ E); apply Qceiling_Z).
    rewrite C. change (2 ^ 63) with 9223372036854775808 in R.
    rewrite (proj2 (Z.leb_le n 9223372036854775807)) by lia. f_equal. unfold clamp_to_size. rewrite Z.mod_small by lia.
    rewrite (proj2 (Z.leb_le n size_max)) by (unfold size_max; lia). reflexivity.
Qed.

Lemma in_limits_nat ch z : size_limit (ch_min ch) -> size_limit (ch_max ch) -> 0 <= z < size_mod ->
  (in_size_limits ch z = Ret true <-> at_least (ch_min ch) (inject_Z z) /\ at_most (ch_max ch) (inject_Z z)) /\
  exists b, in_size_limits ch z = Ret b.
Proof.
  intros L U R. unfold in_size_limits, below_limit, above_limit. rewrite (Z.mod_small z) by auto.
  destruct (ch_min ch) as [l|], (ch_max ch) as [u|]; cbn [at_least at_most size_limit] in *.
  - destruct L as (n & Rn & En), U as (p & Rp & Ep). rewrite (convert_whole _ _ Rn En), (convert_whole _ _ Rp Ep), En, Ep, !inject_le.
    destruct (Z.ltb_spec z n); [split; [|eauto]; split; [discriminate|lia]|].
    destruct (Z.ltb_spec p z); (split; [|eauto]); split; try discriminate; try lia; auto.
  - destruct L as (n & Rn & En). rewrite (convert_whole _ _ Rn En), En, !inject_le.
    destruct (Z.ltb_spec z n); (split; [|eauto]); split; try discriminate; try lia; auto.
  - destruct U as (p & Rp & Ep). rewrite (convert_whole _ _ Rp Ep), Ep, !inject_le.
    destruct (Z.ltb_spec p z); (split; [|eauto]); split; try discriminate; try lia; auto.
  - split; [|eauto]. tauto.
Qed.

Lemma in_limits_neg ch z : size_limit (ch_min ch) -> size_limit (ch_max ch) -> int_min <= z < 0 ->
  in_size_limits ch z = Ret (match ch_max ch with Some _ => false | None => true end).
Proof.
  intros L U R. assert (M : z mod size_mod = z + size_mod).
  { rewrite <- (Z_mod_plus_full z 1 size_mod), Z.mul_1_l. apply Z.mod_small. unfold size_mod, int_min in *. lia. }
  unfold in_size_limits, below_limit, above_limit. rewrite M. unfold int_min in R.
  assert (B : match ch_min ch with None => Ret false | Some q => match convert_to_positive_size_t q with
              Some n => Ret (z + size_mod <? n) | None => Throws "unspecified" end end = Ret false).
  { destruct (ch_min ch) as [l|]; auto. destruct L as (n & Rn & En). rewrite (convert_whole _ _ Rn En). f_equal. apply Z.ltb_ge.
    change (2 ^ 63) with 9223372036854775808 in *. unfold size_mod. lia. }
  rewrite B. destruct (ch_max ch) as [u|]; auto. destruct U as (n & Rn & En). rewrite (convert_whole _ _ Rn En).
  rewrite (proj2 (Z.ltb_lt n (z + size_mod))); auto. change (2 ^ 63) with 9223372036854775808 in *. unfold size_mod. lia.
Qed.

(** ** Values *)

Lemma value_ok_string ch az value : ch_type ch = TString -> size_limit (ch_min ch) -> size_limit (ch_max ch) ->
  Z.of_nat (length value) < size_mod -> (value_ok ch value az = true <-> conforms ch az value).
Proof.
  intros T L U R. unfold value_ok, validate_value, conforms. rewrite T.
  destruct (in_limits_nat ch (Z.of_nat (length value)) L U) as [I (b & E)]; [lia|]. cbv zeta. rewrite <- I, E.
  destruct b; split; congruence.
Qed.

Lemma Qltb_ok a b : Qltb a b = true <-> (a < b)%Q.
Proof. unfold Qltb. destruct (Qlt_le_dec a b); split; intros; auto; try discriminate. exfalso. lra. Qed.

Lemma decimal_limits ch az f :
  (if az && Qeq_bool f 0 then Ret true
   else if match ch_min ch with Some l => Qltb f l | None => false end then Ret false
   else if match ch_max ch with Some l => Qltb l f | None => false end then Ret false
   else Ret true) = Ret true <-> az = true /\ (f == 0)%Q \/ at_least (ch_min ch) f /\ at_most (ch_max ch) f.
Proof.
  destruct (az && Qeq_bool f 0) eqn:A.
  - apply andb_true_iff in A. rewrite Qeq_bool_iff in A. tauto.
  - assert (NA : ~ (az = true /\ (f == 0)%Q)).
    { intros [-> Z]. apply Qeq_bool_iff in Z. rewrite Z in A. discriminate. }
    destruct (ch_min ch) as [l|], (ch_max ch) as [u|]; cbn [at_least at_most].
    + destruct (Qltb f l) eqn:L; [apply Qltb_ok in L; split; [discriminate|intros [X|[X Y]]; [tauto|lra]]|].
      destruct (Qltb u f) eqn:U; [apply Qltb_ok in U; split; [discriminate|intros [X|[X Y]]; [tauto|lra]]|].
      split; auto. intros _. right. split; apply Qnot_lt_le; intros X; apply Qltb_ok in X; congruence.
    + destruct (Qltb f l) eqn:L; [apply Qltb_ok in L; split; [discriminate|intros [X|[X Y]]; [tauto|lra]]|].
      split; auto. intros _. right. split; auto. apply Qnot_lt_le; intros X; apply Qltb_ok in X; congruence.
    + destruct (Qltb u f) eqn:U; [apply Qltb_ok in U; split; [discriminate|intros [X|[X Y]]; [tauto|lra]]|].
      split; auto. intros _. right. split; auto. apply Qnot_lt_le; intros X; apply Qltb_ok in X; congruence.
    + tauto.
Qed.

Lemma at_least_eq l q q' : (q == q')%Q -> at_least l q -> at_least l q'.
Proof. destruct l; cbn; auto. intros E. rewrite E. auto. Qed.
Lemma at_most_eq l q q' : (q == q')%Q -> at_most l q -> at_most l q'.
Proof. destruct l; cbn; auto. intros E. rewrite E. auto. Qed.

Lemma value_ok_decimal ch az value : ch_type ch = TDecimal ->
  (value_ok ch value az = true <->
   exists q, dec_value q value /\ float_range q /\
     (az = true /\ (q == 0)%Q \/ at_least (ch_min ch) q /\ at_most (ch_max ch) q)).
Proof.
  intros T. unfold value_ok, validate_value. rewrite T. destruct (is_decimal_number value) eqn:D; cbn [negb].
  - destruct (stof value) as [f|w] eqn:S.
    + assert (DL := decimal_limits ch az f). destruct (stof_sound _ _ D S) as [DV FR].
      match goal with |- context [if ?b then Ret true else ?x] => remember (if b then Ret true else x) as res end.
      assert (B : match res with Ret b => b | Throws _ => false end = true <-> res = Ret true).
      { destruct res as [[|]|]; split; congruence. }
      rewrite B, DL. split; [intros H; exists f; auto|].
      intros (q & DQ & FQ & H). destruct (stof_complete _ _ DQ) as (_ & C & _). destruct (C FQ) as (q' & S' & E).
      rewrite S in S'. injection S' as <-. destruct H as [[Z Z']|[H1 H2]].
      * left. split; auto. rewrite <- E. auto.
      * right. split; [eapply at_least_eq|eapply at_most_eq]; eauto.
    + split; [discriminate|]. intros (q & DQ & FQ & _). destruct (stof_complete _ _ DQ) as (_ & C & _).
      destruct (C FQ) as (q' & S' & _). congruence.
  - split; [discriminate|]. intros (q & DQ & _). destruct (stof_complete _ _ DQ) as (X & _). congruence.
Qed.

Lemma value_ok_integer ch az value n : ch_type ch = TInteger -> int_literal n value ->
  value_ok ch value az = if (n <? int_min) || (int_max <? n) then false
                         else if az && (n =? 0) then true
                         else match in_size_limits ch n with Ret b => b | Throws _ => false end.
Proof.
  intros T L. unfold value_ok, validate_value. rewrite T. destruct (literal_parse _ _ L) as [I S]. rewrite I, S. cbn [negb].
  destruct ((n <? int_min) || (int_max <? n)); auto. destruct (az && (n =? 0)); auto.
Qed.

Lemma value_ok_integer_literal ch az value : ch_type ch = TInteger -> value_ok ch value az = true -> exists n, int_literal n value.
Proof.
  intros T. unfold value_ok, validate_value. rewrite T. destruct (is_integer value) eqn:I; cbn [negb]; [|discriminate].
  destruct (is_integer_literal _ I) as [H|[-> | ->]]; auto; discriminate.
Qed.

Lemma literal_unique n m s : int_literal n s -> int_literal m s -> n = m.
Proof.
  intros A B.
  assert (NS : forall c n s, (c = "+"%char \/ c = "-"%char) -> ~ digits n (String c s)).
  { intros c k t C D. destruct (digits_first _ _ D) as (x & y & E & I). injection E as -> _. apply isdigit_not_sign in I.
    destruct C; subst; discriminate. }
  destruct A as [n s D|n s D|n s D]; inversion B as [k t D' E1 E2|k t D' E1 E2|k t D' E1 E2]; subst;
    try (exfalso; eapply NS; [|eassumption]; auto; fail); try discriminate.
  all: try (injection E2 as <-). all: try (f_equal); eapply digits_functional; eauto.
Qed.

Lemma conforms_integer ch az value n : ch_type ch = TInteger -> int_literal n value ->
  (conforms ch az value <->
   az = true /\ n = 0 \/ at_least (ch_min ch) (inject_Z n) /\ at_most (ch_max ch) (inject_Z n)).
Proof.
  intros T L. unfold conforms. rewrite T. split.
  - intros (m & L' & H). rewrite (literal_unique _ _ _ L L'). exact H.
  - intros H. exists n. auto.
Qed.

Lemma str_mem_ok s l : str_mem s l = true <-> In s l.
Proof.
  unfold str_mem. rewrite existsb_exists. split.
  - intros (x & I & E). apply str_eq_ok in E. subst. auto.
  - intros I. exists s. split; auto. apply str_eq_ok. auto.
Qed.

Lemma csv_split fields s : csv fields s -> split_string s "," false = fields.
Proof. intros (-> & W & L). apply split_joined; auto. Qed.

Lemma value_ok_options ch az value opts l : ch_type ch = TOptionList -> ch_values ch = Some l -> csv opts l ->
  (value_ok ch value az = true <-> In value opts).
Proof.
  intros T V C. unfold value_ok, validate_value. rewrite T, V, (csv_split _ _ C). apply str_mem_ok.
Qed.

Lemma value_ok_members ch az value fields opts l : (ch_type ch = TMemberList \/ ch_type ch = TSequenceList) ->
  ch_values ch = Some l -> csv opts l -> csv fields value -> (value_ok ch value az = true <-> incl fields opts).
Proof.
  intros T V C F. unfold value_ok, validate_value.
  assert (E : forall b : bool, (b = true <-> incl fields opts) -> (match Ret b with Ret b => b | Throws _ => false end = true <-> incl fields opts)) by auto.
  destruct T as [-> | ->]; rewrite V, (csv_split _ _ C), (csv_split _ _ F); apply E; rewrite forallb_forall; unfold incl;
    split; intros H x I; apply str_mem_ok; auto; apply H; auto.
Qed.

(** ** Setting *)

Lemma set_attr_ok d k a value src : attribute_set d (fst (set_variable_attribute_value d k a value src true)) k a value src.
Proof.
  unfold attribute_set, set_variable_attribute_value. cbn [fst set_attrs d_map d_mons d_seq d_attrs].
  split; [auto|split; [auto|split; [auto|]]]. split.
  - intros k' a' r' N. split.
    + intros (I & K & T). apply in_map_iff in I. destruct I as (r & E & I).
      destruct (row_of k r && attr_eqb a (a_type r)) eqn:C.
      * exfalso. apply N. apply andb_true_iff in C. destruct C as [C1 C2]. apply key_same_ok in C1. apply attr_eqb_ok in C2.
        subst r'. cbn in K, T. congruence.
      * subst r'. repeat split; auto.
    + intros (I & K & T). split; [|auto]. apply in_map_iff. exists r'. split; auto.
      destruct (row_of k r' && attr_eqb a (a_type r')) eqn:C; auto.
      exfalso. apply N. apply andb_true_iff in C. destruct C as [C1 C2]. apply key_same_ok in C1. apply attr_eqb_ok in C2. congruence.
  - intros r'. split.
    + intros (I & K & T). apply in_map_iff in I. destruct I as (r & E & I). exists r.
      destruct (row_of k r && attr_eqb a (a_type r)) eqn:C.
      * apply andb_true_iff in C. destruct C as [C1 C2]. apply key_same_ok in C1. apply attr_eqb_ok in C2.
        subst k a. repeat split; auto.
      * exfalso. subst r'. rewrite <- K, <- T in C. unfold row_of in C. rewrite key_same_refl in C.
        destruct (a_type r); discriminate.
    + intros (r & (I & K & T) & ->). split; [|auto]. apply in_map_iff. exists r. split; auto. unfold row_of.
      rewrite K, key_same_refl, T. assert (X : attr_eqb a a = true) by (apply attr_eqb_ok; auto). rewrite X. reflexivity.
Qed.

Lemma set_attr_keys d k a value src ok :
  map (fun r => (a_key r, a_type r)) (d_attrs (fst (set_variable_attribute_value d k a value src ok)))
  = map (fun r => (a_key r, a_type r)) (d_attrs d).
Proof.
  unfold set_variable_attribute_value. destruct ok; auto. cbn [fst set_attrs d_attrs]. rewrite map_map. apply map_ext.
  intros r. destruct (row_of k r && attr_eqb a (a_type r)); auto.
Qed.

(** When a set request is accepted. *)
Definition may_set (d : dm) (c : component) (v : variable) (a : attr_type) (value : string) (aro : bool) (m : meta) (r : attr_row) : Prop :=
  known d (c, v) m /\ stored d (c, v) a r /\ value_ok (m_char m) value (allow_zero c v) = true /\ (a_mut r = ReadOnly -> aro = true).

Lemma set_value_cases d c v a value src aro ok lst : tables_ok d ->
  let '(d', st, ev) := set_value d c v a value src aro ok lst in
  (st = Accepted /\ exists m r, may_set d c v a value aro m r /\ ok = true /\ attribute_set d d' (c, v) a value src /\
     (ev = if attr_eqb a Actual && lst && negb (Nat.eqb (List.length (m_mons m)) 0)
           then let prev := match a_value r with Some s => s | None => "" end in
                if str_eq prev value then None else Some (prev, value)
           else None))
  \/ (st <> Accepted /\ d' = d /\ ev = None /\ ~ (exists m r, may_set d c v a value aro m r /\ ok = true) /\
      match st with
      | Accepted => True
      | UnknownComponent => ~ known_component d c
      | UnknownVariable => known_component d c /\ forall m, ~ known d (c, v) m
      | NotSupportedAttributeType => (exists m, known d (c, v) m) /\ forall r, ~ stored d (c, v) a r
      | Rejected => exists m, known d (c, v) m
      end).
Proof.
  intros [ND NA]. unfold set_value. destruct (has_component c d) eqn:H; cbn [negb].
  2: { right. assert (NK : ~ known_component d c) by (intros X; apply has_component_ok in X; congruence). repeat split; auto; [discriminate|].
       intros (m & r & (K & _) & _). apply NK. eapply known_comp; eauto. }
  apply has_component_ok in H. destruct (find_meta (c, v) (d_map d)) as [m|] eqn:F.
  2: { right. assert (NK := find_meta_none _ _ F). repeat split; auto; [discriminate|]. intros (m & r & (K & _) & _). apply (NK m K). }
  apply find_meta_some in F.
  assert (MU : forall m', known d (c, v) m' -> m' = m) by (intros m' K; eapply known_fun; eauto).
  destruct (value_ok (m_char m) value (allow_zero c v)) eqn:V; cbn [negb].
  2: { right. repeat split; auto; [discriminate| |eauto]. intros (m' & r & (K & _ & V' & _) & _). rewrite (MU m' K) in V'. congruence. }
  destruct (get_variable_attribute d (c, v) a) as [r|] eqn:G.
  2: { right. assert (NS := attribute_none _ _ _ G). repeat split; eauto; [discriminate|]. intros (m' & r & (K & S & _) & _). apply (NS r S). }
  apply attribute_some in G. assert (RU : forall r', stored d (c, v) a r' -> r' = r) by (intros r' S; eapply stored_fun; eauto).
  destruct (mut_eqb (a_mut r) ReadOnly && negb aro) eqn:M.
  { right. apply andb_true_iff in M. destruct M as [M1 M2]. apply mut_eqb_ok in M1. repeat split; eauto; [discriminate|].
    intros (m' & r' & (K & S & _ & X) & _). rewrite (RU r' S) in X. rewrite (X M1) in M2. discriminate. }
  assert (MS : may_set d c v a value aro m r).
  { repeat split; auto; try apply G. intros X. apply mut_eqb_ok in X. rewrite X in M. destruct aro; [reflexivity|discriminate]. }
  destruct ok.
  - assert (A := set_attr_ok d (c, v) a value src). unfold set_variable_attribute_value in *. cbn [fst] in A.
    rewrite andb_true_r.
    destruct (attr_eqb a Actual && lst && negb (Nat.eqb (List.length (m_mons m)) 0)) eqn:L.
    + destruct (str_eq (match a_value r with Some s => s | None => "" end) value) eqn:S; cbn [negb]; left; split; auto;
        exists m, r; repeat (split; auto); rewrite L, S; reflexivity.
    + left. split; auto. exists m, r. repeat (split; auto). rewrite L. reflexivity.
  - cbn [set_variable_attribute_value]. rewrite andb_false_r. cbn [andb]. right. repeat split; eauto; [discriminate|].
    intros (m' & r' & _ & X). discriminate.
Qed.

Lemma set_value_tables d c v a value src aro ok lst : tables_ok d -> tables_ok (fst (fst (set_value d c v a value src aro ok lst))).
Proof.
  intros [ND NA]. unfold set_value. destruct (negb (has_component c d)); [split; auto|].
  destruct (find_meta (c, v) (d_map d)) as [m|]; [|split; auto]. destruct (negb (value_ok _ _ _)); [split; auto|].
  destruct (get_variable_attribute d (c, v) a) as [r|]; [|split; auto].
  destruct (mut_eqb (a_mut r) ReadOnly && negb aro); [split; auto|].
  assert (K := set_attr_keys d (c, v) a value src ok). destruct ok; cbn [set_variable_attribute_value] in *.
  - assert (T : tables_ok (fst (set_variable_attribute_value d (c, v) a value src true))).
    { split; [auto|]. unfold set_variable_attribute_value. rewrite K. auto. }
    unfold set_variable_attribute_value in T. cbn [fst] in T.
    repeat match goal with |- context [if ?b then _ else _] => match b with context [fun _ => _] => fail 1 | _ => destruct b end end; cbn [fst]; auto.
  - repeat match goal with |- context [if ?b then _ else _] => destruct b end; cbn [fst]; split; auto.
Qed.
