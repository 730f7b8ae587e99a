(** Lemmas for CfgProperties.v: the checks of values. *)
From Coq Require Import ZArith List Bool String Ascii Lia.
From Verif Require Import StrModel StrSpec StrProofs StrProperties JsonModel JsonProofs DtModel CfgSchemaLang CfgModel CfgSchema CfgTables CfgApi CfgSpec CfgProofs CfgProofs2.
Import ListNotations.
Local Open Scope list_scope.
Local Open Scope string_scope.
Local Open Scope Z_scope.

(** ** Numbers *)

Lemma skip_blank b s : Forall blank (chars b) -> skip_space (b ++ s) = skip_space s.
Proof. induction b as [|c b IH]; intros F; [reflexivity|]. inversion F; subst. cbn. rewrite (proj2 (isspace_ok c)) by assumption. apply IH. assumption. Qed.

Lemma digits_value_stop a d r : all_of isdigit d = true -> ends_here r -> digits_value a (d ++ r) = digits_value a d.
Proof.
  revert a. induction d as [|c d IH]; intros a A E; cbn [append].
  - destruct r as [|c r]; [reflexivity|]. cbn. destruct (isdigit c) eqn:I; [|reflexivity].
    exfalso. apply (E c r eq_refl). apply isdigit_ok. exact I.
  - cbn in *. apply andb_true_iff in A. destruct A as [I A]. rewrite I. apply IH; assumption.
Qed.

Lemma digit_no_space c : isdigit c = true -> isspace c = false.
Proof. unfold isdigit, isspace. rewrite andb_true_iff, !Z.leb_le. intros [A B]. apply orb_false_iff. split; [apply andb_false_iff; right; apply Z.leb_gt; lia|apply Z.eqb_neq; lia]. Qed.

Lemma stoi_literal z n r : int_literal z n -> ends_here r -> int_min <= z <= int_max -> stoi (n ++ r) = Ret z /\ skip_space (n ++ r) = n ++ r.
Proof.
  intros L E B. assert (O : (z <? int_min) || (int_max <? z) = false) by (apply orb_false_iff; split; apply Z.ltb_ge; lia).
  destruct L as [v s D|v s D|v s D]; destruct (digits_sound _ _ D) as (N & A & V); destruct (digits_first _ _ D) as (c & s' & -> & C);
    (assert (Dv : digits_value 0 (String c s' ++ r) = v) by (rewrite digits_value_stop by assumption; exact V)).
  - cbn [append] in *. split; [|cbn [skip_space]; rewrite (digit_no_space c C); reflexivity].
    unfold stoi, skip_sign. rewrite (isdigit_not_sign c C). unfold starts_with_digit. rewrite C, Dv.
    assert (M : code c =? 45 = false) by (apply isdigit_not_sign in C; unfold is_sign in C; apply orb_false_iff in C; tauto).
    rewrite M, O. reflexivity.
  - cbn [append] in *. split; [|reflexivity]. unfold stoi. cbn [skip_sign]. change (is_sign "+") with true. cbv iota.
    unfold starts_with_digit. rewrite C, Dv. change (code "+" =? 45) with false. cbv iota. rewrite O. reflexivity.
  - cbn [append] in *. split; [|reflexivity]. unfold stoi. cbn [skip_sign]. change (is_sign "-") with true. cbv iota.
    unfold starts_with_digit. rewrite C, Dv. change (code "-" =? 45) with true. cbv iota. rewrite O. reflexivity.
Qed.

Lemma stoi_ws_iff s z : int_min <= z <= int_max -> (stoi_ws s = Ret z <-> begins_with_number s z).
Proof.
  intros B. split; [apply stoi_ws_prefix|]. intros (b & n & r & -> & F & L & E). unfold stoi_ws. rewrite skip_blank by exact F.
  destruct (stoi_literal z n r L E B) as [S K]. rewrite K. exact S.
Qed.

Lemma chr_char d : (d < 10)%nat -> chr (48 + Z.of_nat d) = digit_char d.
Proof. intros L. do 10 (destruct d as [|d]; [reflexivity|]). lia. Qed.

Lemma digits_zero n s : digits n s -> 0 <= n /\ (n = 0 -> is_beginning "0" s).
Proof.
  induction 1 as [d L|n s d D [IH1 IH2] L].
  - split; [lia|]. intros E. assert (d = 0%nat) by lia. subst. exists "". reflexivity.
  - split; [lia|]. intros E. destruct IH2 as [r ->]; [lia|]. exists (r ++ String (digit_char d) ""). reflexivity.
Qed.

Lemma digits_dec n s : digits n s -> (is_beginning "0" s -> s = "0") -> forall f, (1 <= f)%nat -> n < 2 ^ Z.of_nat f -> dec_fuel f n = s.
Proof.
  induction 1 as [d L|n s d D IH L]; intros Z0 f F B.
  - destruct f; [lia|]. cbn [dec_fuel]. replace (Z.of_nat d <? 10) with true by (symmetry; apply Z.ltb_lt; lia). rewrite chr_char by exact L. reflexivity.
  - assert (Nz : ~ is_beginning "0" s).
    { intros [r ->]. assert (Q : is_beginning "0" (("0" ++ r) ++ String (digit_char d) "")) by (exists (r ++ String (digit_char d) ""); reflexivity).
      apply Z0 in Q. destruct r; discriminate Q. }
    destruct (digits_zero _ _ D) as [P Q]. assert (1 <= n) by (destruct (Z.eq_dec n 0); [exfalso; auto|lia]).
    destruct f as [|f]; [lia|]. cbn [dec_fuel]. replace (10 * n + Z.of_nat d <? 10) with false by (symmetry; apply Z.ltb_ge; lia).
    assert (E1 : (10 * n + Z.of_nat d) / 10 = n) by (rewrite (Z.mul_comm 10 n), Z.div_add_l by lia; rewrite Z.div_small by lia; lia).
    assert (E2 : (10 * n + Z.of_nat d) mod 10 = Z.of_nat d) by (rewrite (Z.mul_comm 10 n), Z.add_comm, Z.mod_add by lia; apply Z.mod_small; lia).
    rewrite E1, E2, chr_char by exact L. f_equal. rewrite Nat2Z.inj_succ, Z.pow_succ_r in B by lia.
    apply IH; [intros; contradiction| |lia]. destruct f; [change (2 * 2 ^ Z.of_nat 0) with 2 in B; lia|lia].
Qed.

Lemma decimal_dump n t : decimal n t <-> 0 <= n /\ t = dump_int n.
Proof.
  split.
  - intros [D Z0]. destruct (digits_zero _ _ D) as [P _]. split; [exact P|]. symmetry.
    unfold dump_int. replace (n <? 0) with false by (symmetry; apply Z.ltb_ge; lia). unfold dec. apply (digits_dec _ _ D Z0); [lia|].
    destruct (Z.eq_dec n 0) as [-> |]; [reflexivity|]. rewrite Nat2Z.inj_succ, Z2Nat.id by apply Z.log2_nonneg. apply Z.log2_spec. lia.
  - intros [P ->]. unfold dump_int. replace (n <? 0) with false by (symmetry; apply Z.ltb_ge; lia).
    destruct (dec_ok n P) as (A & V & N & F & O). split; [rewrite <- V at 1; apply digits_complete; assumption|].
    intros [r E]. destruct (Z.ltb_spec n 10) as [L|L].
    + specialize (O L). rewrite E in O |- *. destruct r; [reflexivity|discriminate O].
    + specialize (F ltac:(lia)). rewrite E in F. cbn in F. exfalso. apply F. reflexivity.
Qed.

(** ** Lists *)

Fixpoint cut (c : ascii) (s : string) : list string :=
  match s with
  | EmptyString => [EmptyString]
  | String a s' =>
      if Ascii.eqb a c then EmptyString :: cut c s'
      else match cut c s' with p :: r => String a p :: r | [] => [String a EmptyString] end
  end.
Lemma boost_cut s : boost_split s = cut comma s.
Proof. induction s as [|a s IH]; cbn [boost_split cut]; [reflexivity|]. rewrite IH. reflexivity. Qed.

Lemma cut_some c s : cut c s <> [].
Proof. destruct s as [|a s]; cbn; [discriminate|]. destruct (Ascii.eqb a c); [discriminate|]. destruct (cut c s); discriminate. Qed.

Lemma joined_cons c a l : l <> [] -> joined c (a :: l) = a ++ String c (joined c l).
Proof. destruct l; [congruence|]. reflexivity. Qed.
Lemma joined_head c a b l : joined c (String a b :: l) = String a (joined c (b :: l)).
Proof. destruct l; reflexivity. Qed.

Lemma cut_joins c s : joined c (cut c s) = s /\ Forall (without c) (cut c s).
Proof.
  induction s as [|a s [IH1 IH2]]; cbn [cut].
  - split; [reflexivity|]. constructor; [intros []|constructor].
  - destruct (Ascii.eqb_spec a c) as [->|N].
    + rewrite joined_cons by apply cut_some. rewrite IH1. split; [reflexivity|]. constructor; [intros []|exact IH2].
    + destruct (cut c s) as [|p r] eqn:E; [exfalso; exact (cut_some _ _ E)|]. rewrite joined_head, IH1. split; [reflexivity|].
      inversion IH2; subst. constructor; [|assumption]. intros [Q|Q]; [congruence|]. auto.
Qed.

Lemma cut_joined c l : l <> [] -> Forall (without c) l -> cut c (joined c l) = l.
Proof.
  induction l as [|p l IH]; [congruence|]. intros _ F. inversion F as [|? ? W F']; subst. clear F.
  induction p as [|a p IHp].
  - destruct l as [|q l]; [reflexivity|]. rewrite joined_cons by discriminate. cbn [append cut]. rewrite Ascii.eqb_refl. f_equal. apply IH; [discriminate|assumption].
  - rewrite joined_head. cbn [cut]. assert (N : a <> c) by (intros ->; apply W; left; reflexivity). rewrite (proj2 (Ascii.eqb_neq a c)) by exact N.
    rewrite IHp; [reflexivity|]. intros I. apply W. right. exact I.
Qed.

Lemma joined_end c l : l <> [] -> joined c l ++ String c "" = joined c (l ++ [""])%list.
Proof.
  induction l as [|p l IH]; [congruence|]. intros _. destruct l as [|q l]; [reflexivity|].
  change ((p :: q :: l) ++ [""])%list with (p :: ((q :: l) ++ [""]))%list. rewrite (joined_cons c p (q :: l)) by discriminate. rewrite (joined_cons c p ((q :: l) ++ [""])%list) by discriminate.
  rewrite <- IH by discriminate. rewrite app_assoc_s. reflexivity.
Qed.

Lemma without_nil c : without c "".
Proof. intros []. Qed.

(** The fields split_string finds, if no field may be empty. *)
Lemma split_lists c text l : ~ In "" l -> (split_string text c false = l <-> lists c text l).
Proof.
  intros N. destruct (split_loop_cut c false text (String.length text) (le_n _)) as (fs & E & W & H).
  assert (E' : map (trimmed false) fs = fs) by (clear; induction fs; cbn; congruence). rewrite E' in E. unfold split_string. rewrite E. clear E E'. split.
  - intros ->. split; [exact W|]. destruct H as [(H & _)|[H H']]; auto.
  - intros [F [T|[Ne T]]].
    + destruct H as [(H & H0 & Hl)|[H Hn]].
      * destruct l as [|p l]; [apply H0; exact T|]. destruct fs as [|q fs].
        { destruct l as [|r l]; [|rewrite T, joined_cons in H by discriminate; destruct p; discriminate H].
          cbn in H, T. exfalso. apply N. left. congruence. }
        rewrite T in H. rewrite <- (cut_joined c (p :: l)), <- (cut_joined c (q :: fs)) by (try discriminate; assumption). congruence.
      * exfalso. rewrite joined_end in H by exact Hn. destruct l as [|p l].
        { rewrite T in H. cbn in H. destruct fs as [|q fs]; [congruence|]. change ((q :: fs) ++ [""])%list with (q :: (fs ++ [""]))%list in H.
          rewrite joined_cons in H by (destruct fs; discriminate). destruct q; discriminate H. }
        rewrite T in H. apply (f_equal (cut c)) in H. rewrite !cut_joined in H; try discriminate; try assumption; try (destruct fs; discriminate);
          try (apply Forall_app; split; [assumption|constructor; [apply without_nil|constructor]]).
        apply N. rewrite H. apply in_or_app. right. left. reflexivity.
    + rewrite joined_end in T by exact Ne. destruct H as [(H & H0 & Hl)|[H Hn]].
      * exfalso. destruct fs as [|q fs].
        { rewrite T in H. cbn in H. destruct l as [|q l]; [congruence|]. change ((q :: l) ++ [""])%list with (q :: (l ++ [""]))%list in H.
          rewrite joined_cons in H by (destruct l; discriminate). destruct q; discriminate H. }
        rewrite T in H. apply (f_equal (cut c)) in H. rewrite !cut_joined in H; try discriminate; try assumption; try (destruct l; discriminate);
          try (apply Forall_app; split; [assumption|constructor; [apply without_nil|constructor]]).
        rewrite <- H in Hl. destruct Hl as [Hl|Hl]; [destruct l; discriminate Hl|]. rewrite last_last in Hl. congruence.
      * rewrite joined_end in H by exact Hn. rewrite T in H. apply (f_equal (cut c)) in H.
        rewrite !cut_joined in H; try (apply Forall_app; split; [assumption|constructor; [apply without_nil|constructor]]); try (destruct l; discriminate); try (destruct fs; discriminate).
        apply app_inj_tail in H. symmetry. apply H.
Qed.

Lemma fields_lists c (good : string -> bool) text : good "" = false ->
  (forallb good (split_string text c false) = true <-> exists l, lists c text l /\ Forall (fun e => good e = true) l).
Proof.
  intros G. rewrite forallb_forall. split.
  - intros H. exists (split_string text c false). split; [|apply Forall_forall; exact H]. apply split_lists; [|reflexivity].
    intros I. rewrite (H _ I) in G. discriminate G.
  - intros (l & L & F). rewrite Forall_forall in F. apply split_lists in L; [rewrite L; exact F|]. intros I. rewrite (F _ I) in G. discriminate G.
Qed.

Lemma purposes_list text : forallb is_purpose (split_string text comma false) = true <-> exists l, lists "," text l /\ Forall purpose l.
Proof.
  rewrite fields_lists by reflexivity. change comma with ","%char.
  assert (Q : forall e, is_purpose e = true <-> purpose e).
  { intros e. unfold is_purpose, purpose. rewrite existsb_exists. split; [intros (p & I & ->%String.eqb_eq); exact I|intros I; exists e; rewrite String.eqb_refl; auto]. }
  split; intros (l & L & F); exists l; (split; [exact L|]); eapply Forall_impl; try exact F; intros e; apply Q.
Qed.

Lemma evse_ids_list text : evse_ids_ok text = true <-> (String.length text <= 1000)%nat /\ exists l, lists "," text l /\ Forall evse_id l.
Proof.
  unfold evse_ids_ok. destruct (Nat.ltb_spec 1000 (String.length text)) as [L|L]; [split; [discriminate|lia]|].
  rewrite fields_lists by reflexivity. change comma with ","%char.
  assert (Q : forall e, Nat.leb 7 (String.length e) && Nat.leb (String.length e) 37 = true <-> evse_id e).
  { intros e. unfold evse_id. rewrite andb_true_iff, !Nat.leb_le. tauto. }
  split.
  - intros (l & H & F). split; [exact L|]. exists l. split; [exact H|]. eapply Forall_impl; [|exact F]. intros e. apply Q.
  - intros (_ & l & H & F). exists l. split; [exact H|]. eapply Forall_impl; [|exact F]. intros e. apply Q.
Qed.

Lemma begins_some text z : begins_with_number text z -> text <> "".
Proof.
  intros (b & n & r & -> & _ & L & _) E. destruct b; [|discriminate E]. cbn in E.
  assert (N : n <> "") by (destruct L as [? ? D|? ? D|? ? D]; [destruct (digits_first _ _ D) as (? & ? & -> & _)| |]; discriminate). destruct n; [congruence|discriminate E].
Qed.

Lemma time_offset_iff text : time_offset_ok text = true <-> time_offset text.
Proof.
  unfold time_offset_ok, time_offset. split.
  - destruct (split_string text ":" false) as [|h [|m [|]]] eqn:S; try discriminate.
    destruct (stoi_ws h) as [zh|] eqn:H; [|discriminate]. destruct (stoi_ws m) as [zm|] eqn:M; [|discriminate].
    rewrite !andb_true_iff, !Z.leb_le. intros [[[A B] C] D]. apply stoi_ws_prefix in H, M. exists h, m, zh, zm.
    split; [|auto]. apply split_lists; [|exact S]. intros [Q|[Q|[]]]; [exact (begins_some _ _ H Q)|exact (begins_some _ _ M Q)].
  - intros (h & m & zh & zm & L & H & M & A & B). apply split_lists in L; [|intros [Q|[Q|[]]]; [exact (begins_some _ _ H Q)|exact (begins_some _ _ M Q)]].
    rewrite L. apply stoi_ws_iff in H; [|unfold int_min, int_max; lia]. apply stoi_ws_iff in M; [|unfold int_min, int_max; lia]. rewrite H, M.
    rewrite !andb_true_iff, !Z.leb_le. lia.
Qed.

(** ** Measurands *)

Lemma phases_in m l : (exists p, phases_of m l = Some p) <-> In m (map fst l).
Proof.
  induction l as [|[n p] l IH]; cbn; [split; [intros (p & H); discriminate|intros []]|].
  destruct (String.eqb_spec m n) as [->|N]; [split; [auto|intros _; eauto]|]. rewrite IH. split; [auto|]. intros [Q|Q]; [congruence|exact Q].
Qed.

Definition served (supported : list (string * list string)) (y : with_phase) : bool :=
  match phases_of (fst y) supported with
  | Some ps => match snd y with Some p => existsb (String.eqb p) ps | None => true end
  | None => false
  end.

Lemma add_new_served s acc y : forallb (served s) (add_new acc y) = forallb (served s) acc && served s y || (existsb (same_phase y) acc && forallb (served s) acc).
Proof.
  unfold add_new. destruct (existsb (same_phase y) acc).
  - cbn [andb]. destruct (forallb (served s) acc); [destruct (served s y); reflexivity|reflexivity].
  - rewrite forallb_app. cbn. rewrite andb_true_r, orb_false_r. reflexivity.
Qed.

Lemma add_new_ok s acc y : forallb (served s) acc = true -> served s y = true -> forallb (served s) (add_new acc y) = true.
Proof. intros A B. rewrite add_new_served, A, B. reflexivity. Qed.
Lemma add_new_acc s acc y : forallb (served s) (add_new acc y) = true -> forallb (served s) acc = true.
Proof. unfold add_new. destruct (existsb _ _); [auto|]. rewrite forallb_app, andb_true_iff. tauto. Qed.
Lemma add_new_in acc y : exists z, In z (add_new acc y) /\ fst z = fst y.
Proof.
  unfold add_new. destruct (existsb (same_phase y) acc) eqn:E.
  - apply existsb_exists in E. destruct E as (z & I & Q). unfold same_phase in Q. apply andb_true_iff in Q. destruct Q as [Q _]. apply String.eqb_eq in Q. eauto.
  - exists y. split; [apply in_or_app; right; left; reflexivity|reflexivity].
Qed.
Lemma fold_acc s l : forall acc, forallb (served s) (fold_left add_new l acc) = true -> forallb (served s) acc = true.
Proof. induction l as [|y l IH]; intros acc H; [exact H|]. cbn in H. apply IH in H. exact (add_new_acc _ _ _ H). Qed.
Lemma fold_ok s l : forall acc, forallb (served s) acc = true -> forallb (served s) l = true -> forallb (served s) (fold_left add_new l acc) = true.
Proof. induction l as [|y l IH]; intros acc A L; [exact A|]. cbn in *. apply andb_true_iff in L. destruct L as [L1 L2]. apply IH; [apply add_new_ok; assumption|exact L2]. Qed.

Lemma requested_served s parts : forall acc,
  forallb (served s) (requested s acc parts) = true <-> forallb (served s) acc = true /\ Forall (fun m => In m (map fst s)) parts.
Proof.
  induction parts as [|m parts IH]; intros acc; cbn [requested]; [split; [auto|tauto]|].
  rewrite IH. clear IH. assert (Q : forall acc, forallb (served s) (match phases_of m s with
      | Some (p :: ps) => fold_left add_new (map (fun q => (m, Some q)) (p :: ps)) (acc ++ [(m, None)])%list
      | _ => add_new acc (m, None) end) = true <-> forallb (served s) acc = true /\ In m (map fst s)).
  { clear acc. intros acc. rewrite <- phases_in. destruct (phases_of m s) as [[|p ps]|] eqn:E.
    - split; [intros H; split; [exact (add_new_acc _ _ _ H)|eauto]|]. intros [H _]. apply add_new_ok; [exact H|]. unfold served. cbn. rewrite E. reflexivity.
    - split; [intros H; apply fold_acc in H; rewrite forallb_app, andb_true_iff in H; split; [tauto|eauto]|]. intros [H _]. apply fold_ok.
      + rewrite forallb_app, H. cbn. unfold served. cbn. rewrite E. reflexivity.
      + apply forallb_forall. intros y I. apply in_map_iff in I. destruct I as (q & <- & I). unfold served. cbn [fst snd]. rewrite E.
        apply existsb_exists. exists q. rewrite String.eqb_refl. auto.
    - split; [|intros (_ & ps & H); discriminate H]. intros H. exfalso. destruct (add_new_in acc (m, None)) as (z & I & Z).
      rewrite forallb_forall in H. specialize (H _ I). unfold served in H. rewrite Z in H. cbn [fst] in H. rewrite E in H. discriminate H. }
  rewrite Q. split; [intros [[A B] C]; auto|]. intros [A B]. inversion B; subst. auto.
Qed.

Lemma measurands_list x text : known_only x -> (measurands_supported (measurands x) text = true <-> supported_list x text).
Proof.
  intros K. unfold supported_list. destruct text as [|a text]; [cbn; tauto|]. unfold measurands_supported.
  rewrite boost_cut. change comma with ","%char. set (text0 := String a text). destruct (cut_joins "," text0) as [J W].
  fold (served (measurands x)).
  assert (R : Forall (fun m => In m (map fst (measurands x))) (cut "," text0) -> forallb (fun m => match phases_of m known_measurands with Some _ => true | None => false end) (cut "," text0) = true).
  { intros F. apply forallb_forall. intros m I. rewrite Forall_forall in F. specialize (F _ I). apply in_map_iff in F. destruct F as ([n ps] & <- & I').
    unfold known_only in K. rewrite Forall_forall in K. specialize (K _ I'). assert (Q : exists p, phases_of n known_measurands = Some p) by (apply phases_in; apply in_map_iff; exists (n, ps); auto).
    cbn [fst]. destruct Q as (p & ->). reflexivity. }
  assert (E : forallb (served (measurands x)) (requested (measurands x) [] (cut "," text0)) = true <-> Forall (fun m => In m (map fst (measurands x))) (cut "," text0)).
  { rewrite requested_served. cbn. tauto. }
  split.
  - intros H. right. exists (cut "," text0). destruct (forallb _ (cut "," text0)) in H; [|discriminate H]. apply E in H.
    split; [apply cut_some|]. auto.
  - intros [H|(l & N & F & H & G)]; [discriminate H|]. assert (Q : cut "," text0 = l) by (rewrite H; apply cut_joined; assumption).
    rewrite Q in *. rewrite (R G). apply E. exact G.
Qed.

Lemma init_known parts : forall l, init_measurands parts = Some l -> Forall (fun e => In e known_measurands) l.
Proof.
  induction parts as [|m parts IH]; intros l H; cbn [init_measurands] in H; [injection H as <-; constructor|].
  destruct (phases_of m known_measurands) as [p|] eqn:P; [|discriminate H]. destruct (init_measurands parts) as [l'|]; [|discriminate H].
  injection H as <-. constructor; [|apply IH; reflexivity].
  clear - P. revert P. generalize known_measurands. intros k P. induction k as [|[n q] k IH]; [discriminate P|]. cbn in P. destruct (String.eqb_spec m n) as [->|]; [injection P as ->; left; reflexivity|right; auto].
Qed.

(** ** Rotation of the phases *)

Lemma squeeze_ok text s : without_space text = s <-> blank_free text s.
Proof.
  split.
  - intros <-. induction text as [|c text IH]; [constructor|]. cbn [without_space]. destruct (isspace c) eqn:B.
    + apply blank_free_skip; [apply isspace_ok; exact B|exact IH].
    + apply blank_free_keep; [intros Q; apply isspace_ok in Q; congruence|exact IH].
  - induction 1 as [|c text s B F IH|c text s B F IH]; [reflexivity| |]; cbn [without_space].
    + rewrite (proj2 (isspace_ok c) B). exact IH.
    + destruct (isspace c) eqn:Q; [exfalso; apply B; apply isspace_ok; exact Q|]. f_equal. exact IH.
Qed.

Lemma erase_in e l x : In x (erase_all e l) <-> In x l /\ x <> e.
Proof. unfold erase_all. rewrite filter_In. destruct (String.eqb_spec x e); cbn; intuition (congruence || discriminate). Qed.

Lemma drop_unknown_in n : forall id l x, In x (drop_unknown n id l) <->
  In x l /\ forall k, id <= k < id + Z.of_nat n -> x <> dump_int k ++ ".NotApplicable" /\ x <> dump_int k ++ ".Unknown".
Proof.
  induction n as [|n IH]; intros id l x.
  - cbn [drop_unknown]. split; [intros H; split; [exact H|lia]|tauto].
  - cbn [drop_unknown]. rewrite IH, !erase_in. split.
    + intros [[[H A] B] C]. split; [exact H|]. intros k K. destruct (Z.eq_dec k id) as [->|N]; [auto|]. apply C. lia.
    + intros [H C]. split; [|intros k K; apply C; lia]. destruct (C id ltac:(lia)). auto.
Qed.

Lemma take_one c s : take 1 (String c s) = String c "".
Proof. destruct s; reflexivity. Qed.
Lemma take_all n : forall s, String.length s = n -> take n s = s.
Proof. induction n as [|n IH]; intros s L; [destruct s; [reflexivity|discriminate L]|]. destruct s as [|c s]; [discriminate L|]. cbn. f_equal. apply IH. cbn in L. lia. Qed.

Lemma one_digit c : stoi (String c "") = if isdigit c then Ret (code c - 48) else Throws "invalid_argument".
Proof.
  unfold stoi, skip_sign. destruct (is_sign c) eqn:S.
  - cbn [starts_with_digit]. destruct (isdigit c) eqn:D; [|reflexivity]. rewrite (isdigit_not_sign c D) in S. discriminate S.
  - unfold starts_with_digit. destruct (isdigit c) eqn:D; [|reflexivity]. cbn [digits_value]. rewrite D.
    assert (M : code c =? 45 = false) by (unfold is_sign in S; apply orb_false_iff in S; tauto). rewrite M.
    unfold isdigit in D. rewrite andb_true_iff, !Z.leb_le in D. replace ((_ <? _) || _) with false; [f_equal; lia|].
    symmetry. apply orb_false_iff. split; apply Z.ltb_ge; unfold int_min, int_max; lia.
Qed.

Lemma rotation_element_ok n e : rotation_element n e = true <->
  exists d c r, (d <= 9)%nat /\ Z.of_nat d <= n /\ e = String (digit_char d) (String c r) /\ In r rotations.
Proof.
  unfold rotation_element. split.
  - rewrite !andb_true_iff, Nat.eqb_eq. intros [[L S] R]. destruct e as [|a [|c r]]; [discriminate L|discriminate L|].
    rewrite take_one, one_digit in S. destruct (isdigit a) eqn:D; [|discriminate S]. destruct (isdigit_char a D) as (d & Ld & ->).
    destruct (digit_char_isdigit d Ld) as [_ C]. rewrite C in S. rewrite andb_true_iff, !Z.leb_le in S.
    exists d, c, r. cbn [drop] in R. assert (T : take 5 r = r).
    { cbn in L. do 4 (destruct r as [|? r]; [first [discriminate L|reflexivity]|]). discriminate L. }
    rewrite T in R. apply existsb_exists in R. destruct R as (q & I & ->%String.eqb_eq). repeat split; auto; lia.
  - intros (d & c & r & Ld & Ln & -> & I). assert (L3 : String.length r = 3%nat) by (cbn in I; destruct I as [<-|[<-|[<-|[<-|[<-|[<-|[]]]]]]]; reflexivity).
    assert (Lt : (d < 10)%nat) by lia. destruct (digit_char_isdigit d Lt) as [D C].
    rewrite !andb_true_iff, Nat.eqb_eq. split; [split|].
    + cbn. rewrite L3. reflexivity.
    + rewrite take_one, one_digit, D, C, andb_true_iff, !Z.leb_le. lia.
    + cbn [drop]. assert (T : take 5 r = r) by (do 4 (destruct r as [|? r]; [first [discriminate L3|reflexivity]|]); discriminate L3).
      rewrite T. apply existsb_exists. exists r. rewrite String.eqb_refl. auto.
Qed.

Lemma rotation_iff n text : rotation_ok n text = true <-> rotation_list n text.
Proof.
  unfold rotation_ok, rotation_list. rewrite boost_cut. change comma with ","%char.
  assert (Q : forall l, forallb (rotation_element n) (drop_unknown (Z.to_nat (n + 1)) 0 l) = true <-> Forall (rotation_entry n) l).
  { intros l. rewrite forallb_forall, Forall_forall. split.
    - intros H e I. assert (D : (exists k, 0 <= k < 0 + Z.of_nat (Z.to_nat (n + 1)) /\ (e = dump_int k ++ ".NotApplicable" \/ e = dump_int k ++ ".Unknown")) \/
        (forall k, 0 <= k < 0 + Z.of_nat (Z.to_nat (n + 1)) -> e <> dump_int k ++ ".NotApplicable" /\ e <> dump_int k ++ ".Unknown")).
      { generalize (Z.to_nat (n + 1)). intros m. induction m as [|m IH]; [right; intros k K; lia|]. destruct IH as [(k & K & IH)|IH]; [left; exists k; split; [lia|exact IH]|].
        destruct (string_dec e (dump_int (Z.of_nat m) ++ ".NotApplicable")) as [E|E]; [left; exists (Z.of_nat m); split; [lia|auto]|].
        destruct (string_dec e (dump_int (Z.of_nat m) ++ ".Unknown")) as [E'|E']; [left; exists (Z.of_nat m); split; [lia|auto]|].
        right. intros k K. destruct (Z.eq_dec k (Z.of_nat m)) as [->|]; [auto|]. apply IH. lia. }
      destruct D as [(k & K & D)|D].
      + left. exists k, (dump_int k). split; [lia|]. split; [apply decimal_dump; split; [lia|reflexivity]|]. destruct D as [-> | ->]; cbn; auto.
      + right. apply rotation_element_ok. apply H. apply drop_unknown_in. auto.
    - intros H e I. apply drop_unknown_in in I. destruct I as [I D]. destruct (H e I) as [(k & t & K & T & E)|E].
      + exfalso. apply decimal_dump in T. destruct T as [P ->]. destruct (D k ltac:(lia)) as [A B]. destruct E as [E|[E|[]]]; congruence.
      + apply rotation_element_ok. exact E. }
  rewrite Q. clear Q. split.
  - intros H. exists (without_space text), (cut "," (without_space text)). destruct (cut_joins "," (without_space text)) as [J W].
    split; [apply squeeze_ok; reflexivity|]. split; [apply cut_some|]. auto.
  - intros (s & l & B & N & F & E & H). apply squeeze_ok in B. rewrite B, E, cut_joined by assumption. exact H.
Qed.
