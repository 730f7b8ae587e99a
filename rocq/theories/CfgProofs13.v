(** Lemmas for CfgProperties2.v: price texts, keys of the section Custom and the authorization key. *)
From Coq Require Import ZArith List Bool String Ascii Lia.
From Verif Require Import StrModel StrSpec StrProofs StrProperties JsonModel JsonProofs JsonPretty DtModel CfgSchemaLang CfgModel CfgSchema CfgTables CfgApi CfgSpec CfgProofs CfgProofs2 CfgProofs3 CfgProofs4 CfgProofs5 CfgProofs6 CfgProofs7 CfgProofs8 CfgProofs9 CfgSpec2 CfgProofs12.
Import ListNotations.
Local Open Scope string_scope.
Local Open Scope list_scope.
Local Open Scope Z_scope.

(** ** Where the keys of price texts lead *)

Fixpoint before_price (l : list witem) : list witem :=
  match l with [] => [] | WPriceText :: _ => [] | i :: l' => i :: before_price l' end.
Fixpoint behind_price (l : list witem) : list witem :=
  match l with [] => [] | WPriceText :: l' => l' | _ :: l' => behind_price l' end.
Lemma writers_price : writers = before_price writers ++ WPriceText :: behind_price writers.
Proof. vm_compute. reflexivity. Qed.

Lemma set_from_price w x key text a b : starts_with "DefaultPriceText" key = true ->
  forallb (fun i => match i with Wanted wr => negb (starts_ci "DefaultPriceText" (w_match wr)) | _ => false end) a = true ->
  set_from w x (a ++ WPriceText :: b) key text = as_set (write_price w x key text).
Proof.
  intros S. induction a as [|i a IH]; cbn [forallb app set_from].
  - intros _. rewrite S. reflexivity.
  - intros H. apply andb_true_iff in H. destruct H as [H1 H2]. destruct i as [wr| | |n]; try discriminate H1.
    apply negb_true_iff in H1. rewrite (price_key _ _ S H1). exact (IH H2).
Qed.

Lemma set_price_key w x key text : starts_with "DefaultPriceText" key = true -> set w x key text = as_set (write_price w x key text).
Proof. intros S. unfold set. rewrite writers_price. apply set_from_price; [exact S|vm_compute; reflexivity]. Qed.

Fixpoint before_texts (l : list item) : list item :=
  match l with [] => [] | PriceTexts :: _ => [] | i :: l' => i :: before_texts l' end.
Fixpoint behind_texts (l : list item) : list item :=
  match l with [] => [] | PriceTexts :: l' => l' | _ :: l' => behind_texts l' end.
Lemma readers_price : readers = before_texts readers ++ PriceTexts :: behind_texts readers.
Proof. vm_compute. reflexivity. Qed.

Lemma get_from_skips w x key a b : starts_with "DefaultPriceText" key = true -> starts_with "MeterPublicKey[" key = false ->
  forallb (fun i => match i with Plain r => negb (starts_ci "DefaultPriceText" (r_match r)) | PublicKeys => true | PriceTexts => false end) a = true ->
  get_from w x (a ++ b) key = get_from w x b key.
Proof.
  intros S M. induction a as [|i a IH]; cbn [forallb app get_from]; intros H; [reflexivity|].
  apply andb_true_iff in H. destruct H as [H1 H2]. destruct i as [r| |]; try discriminate H1.
  - apply negb_true_iff in H1. rewrite (price_key _ _ S H1), andb_false_r. exact (IH H2).
  - rewrite M. exact (IH H2).
Qed.

Lemma text_key_starts l : starts_with "DefaultPriceText" (text_key l) = true /\ starts_with "MeterPublicKey[" (text_key l) = false.
Proof. split; [apply starts_with_ok; exists ("," ++ l)%string; reflexivity|reflexivity]. Qed.

Lemma text_key_split l : l <> "" -> without "," l -> split_string (text_key l) comma false = ["DefaultPriceText"; l].
Proof.
  intros N W. apply split_lists; [intros [H|[H|[]]]; [discriminate H|congruence]|]. split.
  - constructor; [|constructor; [exact W|constructor]]. unfold without. cbn. intuition discriminate.
  - left. reflexivity.
Qed.

Lemma get_price w x l : proper x -> l <> "" -> without "," l -> held (running x) "Custom" (text_key l) = None ->
  (multilingual x /\ get w x (text_key l) = price_text x l) \/ (~ multilingual x /\ get w x (text_key l) = Ret None).
Proof.
  intros P N W C. destruct (text_key_starts l) as [S1 S2]. unfold get. rewrite readers_price.
  rewrite get_from_skips; [|exact S1|exact S2|vm_compute; reflexivity].
  assert (E : get_from w x (behind_texts readers) (text_key l) = Ret None).
  { assert (Q : behind_texts readers = behind_texts readers ++ []) by (rewrite app_nil_r; reflexivity). rewrite Q.
    rewrite get_from_skips; [|exact S1|exact S2|vm_compute; reflexivity].
    cbn [get_from]. unfold custom_key. rewrite held_lookup, C. destruct (supports x "Custom"); reflexivity. }
  cbn [get_from]. rewrite S1, E, andb_true_r. unfold multilingual, supports, multi_language. rewrite held_lookup, text_key_split by assumption.
  assert (D : declared "CostAndPrice" "CustomMultiLanguageMessages" SBool) by (apply declared_type; vm_compute; reflexivity).
  destruct (existsb (String.eqb "CostAndPrice") (profiles x)) eqn:Su.
  - assert (I : In "CostAndPrice" (profiles x)).
    { apply existsb_exists in Su. destruct Su as (p & I & Q). apply String.eqb_eq in Q. subst p. exact I. }
    destruct (held (running x) "CostAndPrice" "CustomMultiLanguageMessages") as [j|] eqn:H; [|right; split; [intros [_ X]; discriminate X|reflexivity]].
    destruct P as (_ & P2 & _). destruct (P2 _ _ _ _ D H) as (b & ->). cbn [to_bool]. destruct b.
    + left. auto.
    + right. split; [intros [_ X]; discriminate X|reflexivity].
  - right. split; [|reflexivity]. intros [I _].
    assert (X : existsb (String.eqb "CostAndPrice") (profiles x) = true) by (apply existsb_exists; exists "CostAndPrice"; split; [exact I|apply String.eqb_refl]).
    congruence.
Qed.

(** ** The list of price texts *)

Lemma named_is s j o : j = JObj o -> obj_get "language" o = Some (JStr s) -> forall m, named m j <-> m = s.
Proof.
  intros -> H m. split.
  - intros (o' & E & H'). inversion E; subst. congruence.
  - intros ->. exists o. auto.
Qed.

Lemma first_named_cons m i e l : first_named m i (e :: l) <-> (named m e /\ i = e) \/ (~ named m e /\ first_named m i l).
Proof.
  split.
  - intros (a & b & E & N & F). destruct a as [|a0 a]; cbn in E.
    + inversion E; subst. left. auto.
    + inversion E; subst. right. split; [apply F; left; reflexivity|]. exists a, b. split; [reflexivity|]. split; [exact N|]. intros z I. apply F. right. exact I.
  - intros [(N & ->)|(N & (a & b & -> & M & F))].
    + exists [], l. split; [reflexivity|]. split; [exact N|]. intros z [].
    + exists (e :: a), b. split; [reflexivity|]. split; [exact M|]. intros z [<-|I]; auto.
Qed.
Lemma first_named_nil m i : ~ first_named m i [].
Proof. intros (a & b & E & _). destruct a; discriminate E. Qed.

Lemma replaced language j l : forall l', named language j -> replace_price language j l = Ret l' ->
  (forall m i, first_named m i l' <-> (m = language /\ i = j) \/ (m <> language /\ first_named m i l)) /\
  find_price language l' = match price_object j with Ret o => Ret (Some o) | Throws e => Throws e end.
Proof.
  induction l as [|e l IH]; intros l' N R; cbn [replace_price] in R.
  - inversion R; subst l'. split.
    + intros m i. rewrite first_named_cons. destruct N as (o & -> & H). rewrite (named_is language (JObj o) o eq_refl H m). split.
      * intros [(-> & ->)|(_ & F)]; [auto|destruct (first_named_nil _ _ F)].
      * intros [(-> & ->)|(_ & F)]; [auto|destruct (first_named_nil _ _ F)].
    + destruct N as (o & -> & H). cbn [find_price member]. rewrite H, String.eqb_refl. reflexivity.
  - destruct e as [| | | | | |o]; try discriminate R. cbn [member] in R.
    destruct (obj_get "language" o) as [[| | | |s| |]|] eqn:L; try discriminate R.
    pose proof (named_is s (JObj o) o eq_refl L) as Ns.
    destruct (String.eqb_spec s language) as [->|Ne].
    + inversion R; subst l'. split.
      * intros m i. rewrite !first_named_cons. destruct N as (o' & -> & H). rewrite (named_is language (JObj o') o' eq_refl H m), (Ns m). tauto.
      * destruct N as (o' & -> & H). cbn [find_price member]. rewrite H, String.eqb_refl. reflexivity.
    + destruct (replace_price language j l) as [r|] eqn:Q; [|discriminate R]. inversion R; subst l'. destruct (IH _ N eq_refl) as [I1 I2]. split.
      * intros m i. rewrite !first_named_cons, (I1 m i), (Ns m). split.
        -- intros [(-> & ->)|(A & [(-> & ->)|(B & C)])]; auto.
        -- intros [(-> & ->)|(A & [(-> & ->)|(B & C)])]; auto.
      * cbn [find_price member]. rewrite L. destruct (String.eqb_spec language s) as [X|_]; [congruence|]. exact I2.
Qed.

Lemma price_object_of o t : obj_get "priceText" o = Some t ->
  price_object (JObj o) = Ret (JObj (("priceText", t) :: match obj_get "priceTextOffline" o with Some f => [("priceTextOffline", f)] | None => [] end)).
Proof. intros H. unfold price_object, member. rewrite H. destruct (obj_get "priceTextOffline" o); reflexivity. Qed.

Lemma existsb_in {A} f (l : list A) : existsb f l = true <-> exists a, In a l /\ f a = true.
Proof. apply existsb_exists. Qed.

(** What an accepted price text does. *)
Lemma price_accepted w x l text x' : proper x -> l <> "" -> without "," l ->
  write_price w x (text_key l) text = Ret (Accepted, x') ->
  exists new d l', parse text = Some (JObj new) /\ obj_get "priceText" new <> None /\ supported_language x l /\
    x' = store w x "CostAndPrice" "DefaultPriceText" (JObj d) /\ obj_get "priceTexts" d = Some (JArr l') /\
    let j := JObj (obj_set "language" (JStr l) new) in
    (forall m i, first_named m i l' <-> (m = l /\ i = j) \/ (m <> l /\ price_for x m i)) /\
    find_price l l' = match price_object j with Ret o => Ret (Some o) | Throws e => Throws e end.
Proof.
  intros P Ne Wo H. unfold write_price in H. rewrite text_key_split in H by assumption. rewrite !held_lookup in H.
  destruct (held (running x) "CostAndPrice" "SupportedLanguages") as [j|] eqn:SL; [|inversion H]. destruct j as [| | | |languages| |]; try discriminate H.
  destruct (existsb _ _) eqn:Ex; [|inversion H].
  assert (Su : supported_language x l).
  { apply existsb_exists in Ex. destruct Ex as (f & I & Q). apply String.eqb_eq in Q. exists languages, f. auto. }
  destruct (parse text) as [[| | | | | |new]|] eqn:Pa; try discriminate H; try (inversion H; fail).
  destruct (obj_get "priceText" new) as [t|] eqn:T; [|inversion H].
  cbv zeta in H. set (j := JObj (obj_set "language" (JStr l) new)) in *.
  assert (Nj : named l j) by (exists (obj_set "language" (JStr l) new); split; [reflexivity|apply get_set]).
  assert (One : forall q, (forall m i, ~ price_for x m i) -> replace_price l j [] = Ret q ->
    (forall m i, first_named m i q <-> (m = l /\ i = j) \/ (m <> l /\ price_for x m i)) /\
    find_price l q = match price_object j with Ret o => Ret (Some o) | Throws e => Throws e end).
  { intros q Np R. destruct (replaced l j [] q Nj R) as [A B]. split; [|exact B]. intros m i. rewrite (A m i). split.
    - intros [C|(_ & C)]; [auto|destruct (first_named_nil _ _ C)].
    - intros [C|(_ & C)]; [auto|destruct (Np _ _ C)]. }
  destruct (held (running x) "CostAndPrice" "DefaultPriceText") as [dd|] eqn:D.
  - destruct dd as [| | | | | |d]; try discriminate H.
    destruct (obj_get "priceTexts" d) as [[| | | | |ps|]|] eqn:PT; try (inversion H; fail).
    + destruct (replace_price l j ps) as [l'|] eqn:R; [|discriminate H]. inversion H; subst x'.
      destruct (replaced l j ps l' Nj R) as [A B].
      exists new, (obj_set "priceTexts" (JArr l') d), l'. split; [reflexivity|]. split; [congruence|]. split; [exact Su|]. split; [reflexivity|]. split; [apply get_set|].
      cbv zeta. split; [|exact B]. intros m i. rewrite (A m i). unfold price_for. rewrite D. split.
      * intros [C|(C1 & C2)]; [auto|right; split; [exact C1|]]. exists d, ps. auto.
      * intros [C|(C1 & (d' & ps' & E1 & E2 & C2))]; [auto|right; split; [exact C1|]]. inversion E1; subst d'. rewrite PT in E2. inversion E2; subst. exact C2.
    + inversion H; subst x'. exists new, (obj_set "priceTexts" (JArr [j]) d), [j]. split; [reflexivity|]. split; [congruence|]. split; [exact Su|]. split; [reflexivity|]. split; [apply get_set|].
      cbv zeta. apply One; [|reflexivity]. intros m i (d' & ps' & E1 & E2 & _). rewrite D in E1. inversion E1; subst d'. congruence.
  - inversion H; subst x'. exists new, [("priceTexts", JArr [j])], [j]. split; [reflexivity|]. split; [congruence|]. split; [exact Su|]. split; [reflexivity|]. split; [reflexivity|].
    cbv zeta. apply One; [|reflexivity]. intros m i (d' & ps' & E1 & _). congruence.
Qed.

Lemma write_price_total w x l text new t : proper x -> l <> "" -> without "," l -> supported_language x l ->
  parse text = Some (JObj new) -> obj_get "priceText" new = Some t -> exists x', write_price w x (text_key l) text = Ret (Accepted, x').
Proof.
  intros (P1 & P2 & P3 & P4) Ne Wo (ls & f & H & I & T) Pa Pt. unfold write_price. rewrite text_key_split by assumption. rewrite !held_lookup, H.
  assert (Ex : existsb (fun l0 => String.eqb (trim_string l0) (trim_string l)) (split_string ls comma false) = true).
  { apply existsb_exists. exists f. split; [exact I|apply String.eqb_eq; exact T]. }
  rewrite Ex, Pa, Pt. destruct (held (running x) "CostAndPrice" "DefaultPriceText") as [d|] eqn:D; [|eauto].
  destruct (P4 _ eq_refl) as (m & -> & [N|(ps & N & F)]); rewrite N; [eauto|].
  destruct (replace_fits l _ ps (new_price_shape l new t Pt) F) as (l' & -> & _). eauto.
Qed.

Lemma react_price w x l text asked : react w x (text_key l) text asked = ([], Ret (Accepted, true)).
Proof.
  destruct (text_key_starts l) as [S _]. unfold react.
  repeat match goal with |- context [ci_eq (text_key l) ?k] =>
    rewrite (price_key _ k S) by (vm_compute; reflexivity) end. reflexivity.
Qed.

(** ** Custom keys *)

Lemma stoi_ws_range s z : stoi_ws s = Ret z -> int_min <= z <= int_max.
Proof.
  unfold stoi_ws, stoi. destruct (starts_with_digit _); [|discriminate]. cbv zeta.
  match goal with |- context [if (?v <? int_min) || (int_max <? ?v) then _ else _] => destruct ((v <? int_min) || (int_max <? v)) eqn:E end; [discriminate|].
  apply orb_false_iff in E. destruct E as [E1 E2]. apply Z.ltb_ge in E1, E2. intros H. inversion H; subst. lia.
Qed.

Lemma custom_value_means w type text j : custom_value w type text = Some j -> custom_meaning w type text j.
Proof.
  unfold custom_value, custom_meaning. destruct (String.eqb_spec type "integer") as [->|_].
  - destruct (stoi_ws text) as [z|] eqn:S; [|discriminate]. intros H. inversion H; subst. left. split; [reflexivity|].
    assert (B : int_min <= z <= int_max) by (eapply stoi_ws_range; exact S). exists z. split; [apply stoi_ws_iff; assumption|]. auto.
  - destruct (String.eqb_spec type "number") as [->|_].
    + destruct (stof w text) as [t|]; [|discriminate]. intros H. inversion H; subst. right. left. eauto.
    + destruct (String.eqb_spec type "string") as [->|_]; [intros H; inversion H; subst; right; right; left; auto|].
      destruct (String.eqb_spec type "array") as [->|_]; [intros H; inversion H; subst; right; right; left; auto|].
      cbn [orb]. destruct (String.eqb_spec type "boolean") as [->|_]; [|discriminate].
      intros H. inversion H; subst. right. right. right. split; [reflexivity|].
      destruct (string_to_bool text) eqn:B; [left|right]; (split; [|reflexivity]).
      * apply string_to_bool_ok. exact B.
      * intros Q. apply string_to_bool_ok in Q. congruence.
Qed.

(** ** The authorization key *)

Lemma set_get_fst k v v' l : map fst (obj_set k v l) = map fst (obj_set k v' l).
Proof.
  induction l as [|[a b] l IH]; cbn; [reflexivity|]. destruct (String.eqb k a); [reflexivity|]. destruct (str_lt k a); [reflexivity|].
  cbn. rewrite IH. reflexivity.
Qed.

Lemma key_lookup x y s k : same_but_key x y -> (s, k) <> ("Security", "AuthorizationKey") -> lookup (running x) s k = lookup (running y) s k.
Proof.
  intros (_ & _ & (l & k1 & k2 & E1 & E2) & O) N. unfold lookup, section. destruct (String.eqb_spec s "Security") as [->|Ns].
  - rewrite E1, E2. rewrite !get_set_other by congruence. reflexivity.
  - rewrite (O s Ns). reflexivity.
Qed.

Lemma key_text x y w k j : same_but_key x y -> text_of w (running x) k j = text_of w (running y) k j.
Proof.
  intros S. destruct k; cbn [text_of]; try reflexivity. unfold number_of_connectors. rewrite (key_lookup x y "Core" "NumberOfConnectors" S) by discriminate. reflexivity.
Qed.

Lemma key_get_from w x y items key : same_but_key x y ->
  forallb (fun i => match i with Plain r => negb (String.eqb (r_section r) "Security" && (String.eqb (r_key r) "AuthorizationKey" || match r_need r with OrFalseSection => true | _ => false end)) | _ => true end) items = true ->
  get_from w x items key = get_from w y items key.
Proof.
  intros S. induction items as [|i items IH]; cbn [get_from forallb]; intros H.
  - destruct S as (Pr & S). unfold supports. rewrite Pr. destruct (existsb _ _); [|reflexivity]. unfold custom_key.
    rewrite (key_lookup x y "Custom" key (conj Pr S)) by discriminate. reflexivity.
  - apply andb_true_iff in H. destruct H as [H1 H2]. specialize (IH H2). assert (Pr : profiles x = profiles y) by (destruct S as (Pr & _); exact Pr).
    destruct i as [r| |].
    + unfold supports. cbv zeta. rewrite Pr. match goal with |- (if ?b then _ else _) = _ => destruct b end; [|exact IH]. unfold read.
      assert (N : (r_section r, r_key r) <> ("Security", "AuthorizationKey")).
      { intros X. inversion X as [[X1 X2]]. rewrite X1, X2 in H1. discriminate H1. }
      rewrite (key_lookup x y _ _ S N). destruct (lookup (running y) (r_section r) (r_key r)); [rewrite (key_text x y _ _ _ S); reflexivity|].
      destruct (r_need r) eqn:Rn; try reflexivity. assert (Ns : r_section r <> "Security").
      { intros X. rewrite X in H1. cbn in H1. rewrite orb_true_r in H1. discriminate H1. }
      unfold section. destruct S as (_ & _ & _ & O). rewrite (O _ Ns). reflexivity.
    + destruct (starts_with _ key); [|exact IH]. destruct (public_key_index key); [|reflexivity]. destruct (z =? 0); [reflexivity|].
      unfold public_key. rewrite (key_lookup x y "Internal" "MeterPublicKeys" S) by discriminate. reflexivity.
    + unfold supports. rewrite Pr. match goal with |- (if ?b then _ else _) = _ => destruct b end; [|exact IH]. unfold multi_language, price_text.
      rewrite (key_lookup x y "CostAndPrice" "CustomMultiLanguageMessages" S) by discriminate.
      destruct (match lookup (running y) "CostAndPrice" "CustomMultiLanguageMessages" with Some j => to_bool j | None => Ret false end) as [[]|]; [|exact IH|reflexivity].
      destruct (split_string key comma false) as [|a [|language r]]; try exact IH.
      rewrite (key_lookup x y "CostAndPrice" "DefaultPriceText" S) by discriminate. reflexivity.
Qed.

Lemma key_get w x y key : same_but_key x y -> get w x key = get w y key.
Proof. intros S. apply key_get_from; [exact S|vm_compute; reflexivity]. Qed.

Lemma key_get_each w x y keys : same_but_key x y -> get_each w x keys = get_each w y keys.
Proof. intros S. induction keys as [|k keys IH]; cbn [get_each]; [reflexivity|]. rewrite (key_get w x y k S), IH. reflexivity. Qed.

Lemma key_entry w x y key : same_but_key x y -> entry w x key = entry w y key.
Proof.
  intros S. unfold entry, all_prices, all_public_keys. rewrite (key_get w x y key S).
  rewrite (key_lookup x y "CostAndPrice" "DefaultPriceText" S), (key_lookup x y "Internal" "MeterPublicKeys" S) by discriminate. reflexivity.
Qed.

Lemma key_get_all w x y : same_but_key x y -> get_all w x = get_all w y.
Proof.
  intros S. unfold get_all. replace (profiles y) with (profiles x) by (destruct S as (Pr & _); exact Pr). apply (f_equal gather). apply map_ext. intros p.
  pose proof S as (_ & _ & (l & k1 & k2 & E1 & E2) & O). unfold section. destruct (String.eqb_spec p "Security") as [->|Ns].
  - rewrite E1, E2. apply (f_equal gather). rewrite <- !(map_map fst (entry w _)), (set_get_fst _ (JStr k1) (JStr k2)). apply map_ext. intros k. apply key_entry. exact S.
  - rewrite (O p Ns). destruct (obj_get p (running y)) as [[| | | | | |o]|]; [reflexivity ..| |reflexivity]. apply (f_equal gather). apply map_ext. intros e. apply key_entry. exact S.
Qed.

Lemma shown_readable text new t : parse text = Some (JObj new) -> obj_get "priceText" new = Some t ->
  readable (JObj (("priceText", t) :: match obj_get "priceTextOffline" new with Some f => [("priceTextOffline", f)] | None => [] end)).
Proof.
  intros P T. apply parse_readable in P. inversion P as [| | | | | |l Inc F]; subst. rewrite Forall_forall in F.
  assert (G : forall k v, obj_get k new = Some v -> readable v) by (intros k v H; apply obj_get_in in H; exact (F _ H)).
  destruct (obj_get "priceTextOffline" new) as [f|] eqn:O; constructor; cbn [map fst increasing]; auto.
  - constructor; [exact (G _ _ T)|]. constructor; [exact (G _ _ O)|constructor].
  - constructor; [exact (G _ _ T)|constructor].
Qed.

Lemma get_price_some w x l g : proper x -> l <> "" -> without "," l -> multilingual x -> get w x (text_key l) = Ret g ->
  exists k, g = Some k /\ kv_readonly k = false.
Proof.
  intros P N W Mu G. destruct (text_key_starts l) as [S1 S2]. unfold get in G. rewrite readers_price in G.
  rewrite get_from_skips in G; [|exact S1|exact S2|vm_compute; reflexivity].
  cbn [get_from] in G. rewrite S1, andb_true_r in G. unfold supports, multi_language in G. rewrite held_lookup, text_key_split in G by assumption.
  destruct Mu as (I & H). rewrite H in G. cbn [to_bool] in G.
  assert (X : existsb (String.eqb "CostAndPrice") (profiles x) = true) by (apply existsb_exists; exists "CostAndPrice"; split; [exact I|apply String.eqb_refl]).
  rewrite X in G. unfold price_text, as_value, too_long, type_error in G.
  repeat match type of G with context [match ?a with _ => _ end] => destruct a; try discriminate G end;
    inversion G; subst; eexists; split; reflexivity.
Qed.

(** ** Keys of the section Custom *)

Lemma named_readers : forallb (fun i => match i with Plain r => existsb (fun e => String.eqb (snd (fst e)) (r_match r)) catalogue | _ => true end) readers = true.
Proof. vm_compute. reflexivity. Qed.

Lemma get_custom w x key : no_shadow x -> held (running x) "Custom" key <> None ->
  starts_with "DefaultPriceText" key = false -> starts_with "MeterPublicKey[" key = false ->
  get w x key = Ret (if supports x "Custom" then custom_key w x key else None).
Proof.
  intros N H S1 S2. pose proof named_readers as R. unfold get. induction readers as [|[r| |] items IH]; cbn [get_from]; [reflexivity| | |].
  - cbn [forallb] in R. apply andb_true_iff in R. destruct R as [R1 R2].
    apply existsb_exists in R1. destruct R1 as ([[s k] b] & I & Q). cbn [fst snd] in Q. apply String.eqb_eq in Q.
    rewrite <- Q, (not_shadowed_by _ _ _ _ _ N I H), andb_false_r. exact (IH R2).
  - rewrite ?S2, ?S1, ?andb_false_r. exact (IH R).
  - rewrite ?S2, ?S1, ?andb_false_r. exact (IH R).
Qed.

Lemma custom_written w x key text x' : write_custom w x key text = (Accepted, x') ->
  exists type j l, custom w key = Some (false, type) /\ custom_value w type text = Some j /\ x' = store w x "Custom" key j /\
    obj_get "Custom" (running x) = Some (JObj l) /\ custom_valid w (obj_set key j l) = true.
Proof.
  unfold write_custom. intros H. destruct (custom_key w x key) as [k|] eqn:K; [|inversion H].
  destruct (custom w key) as [[ro ty]|] eqn:C; [|inversion H].
  destruct (section (running x) "Custom") as [l|] eqn:S; [|inversion H].
  destruct (kv_readonly k) eqn:Ro; [inversion H|]. destruct (custom_value w ty text) as [v|] eqn:V; [|inversion H].
  destruct (custom_valid w _) eqn:Va; [|inversion H]. inversion H; subst.
  unfold custom_key in K. rewrite C in K. destruct (lookup _ _ _); [|discriminate K].
  assert (ro = false). { destruct (Nat.ltb _ _); [discriminate K|]. inversion K; subst. exact Ro. } subst ro.
  exists ty, v, l. split; [reflexivity|]. split; [exact V|]. split; [reflexivity|]. split; [|exact Va].
  unfold section in S. destruct (obj_get "Custom" (running x)) as [[]|]; inversion S; subst. reflexivity.
Qed.

Lemma filter_all {A} f (l : list A) : forallb f l = true -> filter f l = l.
Proof.
  induction l as [|a l IH]; cbn; [reflexivity|]. intros H. apply andb_true_iff in H. destruct H as [-> H]. rewrite (IH H). reflexivity.
Qed.

Lemma secret_readers : forallb (fun i => match i with Plain r => negb (ci_eq "AuthorizationKey" (r_match r)) | _ => true end) readers = true.
Proof. vm_compute. reflexivity. Qed.

Lemma get_secret w x key : ci_eq key "AuthorizationKey" = true -> held (running x) "Custom" key = None -> get w x key = Ret None.
Proof.
  intros K C. pose proof secret_readers as R. unfold get.
  assert (S1 : starts_with "DefaultPriceText" key = false) by (apply (starts_ci_other _ _ _ K); vm_compute; reflexivity).
  assert (S2 : starts_with "MeterPublicKey[" key = false) by (apply (starts_ci_other _ _ _ K); vm_compute; reflexivity).
  induction readers as [|[r| |] items IH]; cbn [get_from].
  - unfold custom_key. rewrite held_lookup, C. destruct (supports x "Custom"); reflexivity.
  - cbn [forallb] in R. apply andb_true_iff in R. destruct R as [R1 R2]. rewrite (ci_replace _ _ _ K). apply negb_true_iff in R1. rewrite R1, andb_false_r. exact (IH R2).
  - rewrite ?S2, ?S1, ?andb_false_r. exact (IH R).
  - rewrite ?S2, ?S1, ?andb_false_r. exact (IH R).
Qed.
