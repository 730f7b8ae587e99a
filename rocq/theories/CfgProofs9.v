(** Lemmas for CfgProperties.v: reading back, starting again, and GetConfiguration. *)
From Coq Require Import ZArith List Bool String Ascii Lia.
From Verif Require Import StrModel StrSpec StrProofs StrProperties JsonModel JsonProofs DtModel CfgSchemaLang CfgModel CfgSchema CfgTables CfgApi CfgSpec CfgProofs CfgProofs2 CfgProofs3 CfgProofs4 CfgProofs5 CfgProofs6 CfgProofs7 CfgProofs8.
Import ListNotations.
Local Open Scope list_scope.
Local Open Scope string_scope.
Local Open Scope Z_scope.

(** ** Reached states *)

Lemma reached_good custom_ok number x : reached custom_ok number x -> proper x /\ no_shadow x /\ known_only x.
Proof.
  induction 1 as [c u x S C N|w x key text asked x' e r R (P & N & K) C].
  - split; [exact (start_proper _ _ _ _ _ S C)|]. split; [exact N|].
    destruct (start_inv _ _ _ _ _ S) as (_ & _ & _ & _ & _ & _ & s & _ & I). exact (init_known _ _ I).
  - destruct (change_all _ _ _ _ _ _ _ _ P N C) as (P' & N' & _). split; [exact P'|]. split; [exact N'|].
    unfold known_only. assert (M : measurands x' = measurands x); [|rewrite M; exact K].
    destruct (change_inv _ _ _ _ _ _ _ _ C) as [(-> & _)|(v & s0 & G & T & S & _)]; [reflexivity|].
    pose proof (set_is w x key text) as Q. rewrite S in Q. inversion Q as [wr I E W|Pr W|Cu W|Se W|W]; subst; try reflexivity.
    + destruct (facts wr I) as (t & F). unfold as_set in W. destruct (write w x wr text) as [[s x0]|] eqn:Wr; [|discriminate W].
      injection W as _ <-. destruct (write_cases _ _ _ _ _ _ _ F Wr) as [(j & _ & _ & _ & _ & _ & ->)|[(-> & _)|(-> & _)]]; reflexivity.
    + destruct (write_price_cases w x key text P) as [(s & W' & _)|[(why & W')|(j & W' & _ & _)]]; rewrite W' in W; cbn [as_set] in W; try discriminate W;
        injection W as _ <-; reflexivity.
    + destruct (write_custom w x key text) as [s x0] eqn:Wc. cbn [as_set] in W. injection W as _ <-.
      destruct (write_custom_cases _ _ _ _ _ _ Wc) as [(-> & _)|(_ & j & -> & _)]; reflexivity.
Qed.

(** ** Reading back *)

Lemma accepted_here w x key text asked x' e s o wr t r :
  no_shadow x -> change w x key text asked = (x', e, Ret (s, o)) -> s = Accepted \/ s = RebootRequired ->
  writer_facts wr t -> reading wr r -> ci_eq key (w_match wr) = true -> here x r = true.
Proof.
  intros N C S F R E. destruct (change_inv _ _ _ _ _ _ _ _ C) as [(_ & [(why & H)|(s' & H & Q)])|(v & s0 & G & T & _)].
  - discriminate H.
  - injection H as <- <-. destruct S, Q; subst; discriminate.
  - rewrite (get_reads _ _ _ _ _ _ N F R E) in G. destruct (here x r); [reflexivity|]. injection G as <-.
    destruct T as [(k & T & _)| ->]; [discriminate T|]. pose proof (rd_secret _ _ R) as Z. rewrite <- (wf_key _ _ F), ci_sym, E in Z. discriminate Z.
Qed.

Lemma get_stored w w' x wr t r key j :
  no_shadow x -> w_section wr <> "Custom" -> writer_facts wr t -> reading wr r -> ci_eq key (w_match wr) = true -> here x r = true ->
  get w' (store w x (w_section wr) (w_key wr) j) key =
  match text_of w' (running (store w x (w_section wr) (w_key wr) j)) (read_as (w_rule wr)) j with
  | Ret tx => match as_value tx with Ret v => Ret (Some (Kv (w_key wr) (readonly w' (r_access r)) v)) | Throws e => Throws e end
  | Throws e => Throws e
  end.
Proof.
  intros N Nc F R E H. assert (N' : no_shadow (store w x (w_section wr) (w_key wr) j)) by (apply store_no_shadow; [exact N|intros Q; contradiction]).
  rewrite (get_reads _ _ _ _ _ _ N' F R E). change (here (store w x (w_section wr) (w_key wr) j) r) with (here x r). rewrite H.
  unfold read. rewrite held_lookup, (rd_section _ _ R), (rd_key _ _ R), (rd_name _ _ R), (rd_kind _ _ R).
  pose proof (got_put (running x) (w_section wr) (w_key wr) j) as (G1 & _). cbn [store running]. rewrite G1. reflexivity.
Qed.

Lemma wrap_small z : 0 <= z <= int_max -> wrap32 z = z.
Proof. unfold wrap32, int_max. intros B. rewrite Z.mod_small by lia. lia. Qed.

Lemma text_shown w c k t rule text j s x : rule_fits k rule t = true -> apply_rule w x rule text = Ret (Store j s) ->
  rule <> RAuthorizationKey -> rule <> RPurposes -> rule <> RJson ->
  forall w', exists shown, shows j shown /\ text_of w' c (read_as rule) j = Ret shown.
Proof.
  intros F A N1 N2 N3 w'. destruct rule; cbn [apply_rule] in A; try congruence; cbn [read_as].
  - destruct (isBool text); [|discriminate A]. injection A as <- _. exists (bool_to_string (string_to_bool text)). split; [|reflexivity].
    destruct (string_to_bool text); constructor.
  - injection A as <- _. exists (bool_to_string (string_to_bool text)). split; [|reflexivity]. destruct (string_to_bool text); constructor.
  - destruct (is_positive_integer text) as [[[|] z]|] eqn:P; try discriminate A. destruct ((z <? lo) || (hi <? z)); [discriminate A|]. injection A as <- _.
    apply positive_literal in P. destruct P as [_ P]. exists (dump_int z). split; [constructor; apply decimal_dump; split; [lia|reflexivity]|].
    cbn [text_of to_int]. rewrite wrap_small by exact P. reflexivity.
  - destruct (stoi_ws text) as [z|]; [|discriminate A]. destruct ((z <=? 0) || (3 <? z)) eqn:B; [discriminate A|]. injection A as <- _.
    apply orb_false_iff in B. destruct B as [B1 B2]. apply Z.leb_gt in B1. apply Z.ltb_ge in B2. exists (dump_int z).
    split; [constructor; apply decimal_dump; split; [lia|reflexivity]|]. cbn [text_of to_int]. rewrite wrap_small by (unfold int_max; lia). reflexivity.
  - destruct (_ || _); [discriminate A|]. injection A as <- _. exists text. split; [constructor|reflexivity].
  - destruct (measurands_supported _ _); [|discriminate A]. injection A as <- _. exists text. split; [constructor|reflexivity].
  - destruct (number_of_connectors _ _); [|discriminate A]. destruct (rotation_ok _ _); [|discriminate A]. injection A as <- _. exists text. split; [constructor|reflexivity].
  - destruct (evse_ids_ok _); [|discriminate A]. injection A as <- _. exists text. split; [constructor|reflexivity].
  - destruct (time_offset_ok _); [|discriminate A]. injection A as <- _. exists text. split; [constructor|reflexivity].
  - destruct (from_rfc3339 text); [|discriminate A]. destruct (now w <? z); [|discriminate A]. injection A as <- _. exists text. split; [constructor|reflexivity].
  - injection A as <- _. exists text. split; [constructor|reflexivity].
Qed.

Lemma special_rules : forallb (fun i => match i with
  | Wanted wr => match w_rule wr with
                 | RPurposes => String.eqb (w_key wr) "IgnoredProfilePurposesOffline"
                 | RJson => String.eqb (w_key wr) "DefaultPrice"
                 | _ => true
                 end
  | _ => true end) writers = true.
Proof. vm_compute. reflexivity. Qed.
Lemma special_rule wr : In (Wanted wr) writers ->
  (w_rule wr = RPurposes -> w_key wr = "IgnoredProfilePurposesOffline") /\ (w_rule wr = RJson -> w_key wr = "DefaultPrice").
Proof.
  intros I. pose proof special_rules as S. rewrite forallb_forall in S. specialize (S _ I). cbv beta iota in S.
  split; intros R; rewrite R in S; apply String.eqb_eq; exact S.
Qed.

(** ** Starting again *)

Lemma fixed_keys : forallb (fun i => match i with
  | Wanted wr => negb (String.eqb (w_key wr) "SupportedFeatureProfiles") && negb (String.eqb (w_key wr) "SupportedMeasurands")
                 && (negb (existsb (String.eqb (w_key wr)) measured) || match w_rule wr with RMeasurands => true | _ => false end)
  | _ => true end) writers = true.
Proof. vm_compute. reflexivity. Qed.

Lemma fixed_key wr : In (Wanted wr) writers ->
  w_key wr <> "SupportedFeatureProfiles" /\ w_key wr <> "SupportedMeasurands" /\ (In (w_key wr) measured -> w_rule wr = RMeasurands).
Proof.
  intros I. pose proof fixed_keys as S. rewrite forallb_forall in S. specialize (S _ I). cbv beta iota in S. ands S.
  apply negb_true_iff in S, S1. apply String.eqb_neq in S, S1. split; [exact S|]. split; [exact S1|]. intros M.
  apply orb_true_iff in S0. destruct S0 as [S0|S0].
  - apply negb_true_iff in S0. assert (Q : existsb (String.eqb (w_key wr)) measured = true) by (apply existsb_exists; exists (w_key wr); rewrite String.eqb_refl; auto). congruence.
  - destruct (w_rule wr); try discriminate S0. reflexivity.
Qed.

Lemma restart_written custom_ok number w x wr t text j s :
  start custom_ok number (running x) (user x) = Some x ->
  In (Wanted wr) writers -> writer_facts wr t -> apply_rule w x (w_rule wr) text = Ret (Store j s) ->
  obj_get (w_section wr) (running x) <> None ->
  let x' := store w x (w_section wr) (w_key wr) j in
  (start custom_ok number (running x') (user x') = Some x' <-> valid number t j = true) /\
  (valid number t j = false -> start custom_ok number (running x') (user x') = None).
Proof.
  intros S I F A P. destruct (fixed_key wr I) as (N1 & N2 & M). apply restart_put; auto.
  - apply declared_type. exact (wf_type _ _ F).
  - congruence.
  - congruence.
  - intros _ Me. rewrite (M Me) in A. cbn [apply_rule] in A. destruct (measurands_supported (measurands x) text) eqn:Q; [|discriminate A].
    injection A as <- _. eauto.
Qed.

Lemma written_section wr t : writer_facts wr t -> In (w_section wr) (map fst sections).
Proof.
  intros F. pose proof (wf_type _ _ F) as T. apply declared_type in T. destruct T as (c & r & p & I & _). apply in_map_iff. exists (w_section wr, SObject c r p). auto.
Qed.

Lemma sturdy_valid number k t text j : means k t text j -> t = SBool \/ is_number t \/ t = SText None None -> valid number t j = true.
Proof.
  intros M [-> |[(lo & hi & [-> | ->])| ->]]; inversion M; subst; cbn; auto.
Qed.

(** ** GetConfiguration *)

Lemma gather_fine {A} (l : list (result (list A))) : Forall fine l -> fine (gather l).
Proof.
  induction l as [|r l IH]; intros F; [apply fine_ret|]. inversion F as [|? ? F1 F2]; subst. specialize (IH F2). cbn [gather].
  destruct r as [a|e]; [|exact F1]. destruct (gather l) as [b|e]; [apply fine_ret|]. intros e' Q. injection Q as <-. apply IH. reflexivity.
Qed.

Lemma price_object_fine l t p : obj_get "language" l = Some (JStr t) -> obj_get "priceText" l = Some p -> exists o, price_object (JObj l) = Ret o.
Proof. intros _ B. unfold price_object, member. rewrite B. destruct (obj_get "priceTextOffline" l); unfold type_error; eauto. Qed.

Lemma all_prices_fine x : proper x -> fine (all_prices x).
Proof.
  intros P. unfold all_prices. rewrite held_lookup. destruct (held (running x) "CostAndPrice" "DefaultPriceText") as [j|] eqn:H; [|apply fine_ret].
  destruct (proj2 (proj2 (proj2 P)) _ H) as (l & -> & Q). unfold contains, member.
  destruct Q as [-> |(ps & -> & F)]; [apply fine_ret|]. apply gather_fine. apply Forall_map. eapply Forall_impl; [|exact F].
  intros e (l' & t & p & -> & L & T). unfold one_price. unfold member at 1. rewrite L. destruct (price_object_fine _ _ _ L T) as (o & ->).
  destruct (Nat.ltb _ _); [apply fine_long|]. destruct (Nat.ltb _ _); [apply fine_long|apply fine_ret].
Qed.

Lemma public_keys_fine l : forall i, Forall fine (public_keys_from i (map JStr l)).
Proof.
  induction l as [|t l IH]; intros i; cbn [map public_keys_from]; [constructor|]. constructor; [|apply IH].
  unfold one_public_key. cbn [to_text]. pose proof (as_value_fine t) as Q. destruct (as_value t); [apply fine_ret|]. intros e0 H. injection H as <-. apply Q. reflexivity.
Qed.

Lemma all_public_keys_fine x : proper x -> fine (all_public_keys x).
Proof.
  intros P. unfold all_public_keys. rewrite held_lookup. destruct (held (running x) "Internal" "MeterPublicKeys") as [j|] eqn:H; [|apply fine_ret].
  assert (D : exists lo hi, declared "Internal" "MeterPublicKeys" (SArray (SText lo hi))) by (do 2 eexists; apply declared_type; vm_compute; reflexivity).
  destruct D as (lo & hi & D). destruct (proj1 (proj2 P) _ _ _ _ D H) as (l & ->). apply gather_fine. apply public_keys_fine.
Qed.

Lemma entry_fine w x k : proper x -> fine (entry w x k).
Proof.
  intros P. unfold entry. destruct (Nat.ltb _ _); [apply fine_long|]. destruct (starts_with _ _); [apply all_prices_fine; exact P|].
  destruct (String.eqb _ _); [apply all_public_keys_fine; exact P|]. pose proof (get_fine w x k P) as G. destruct (get w x k) as [[v|]|e]; [apply fine_ret|apply fine_ret|].
  intros e' Q. injection Q as <-. apply G. reflexivity.
Qed.

Lemma get_all_fine w x : proper x -> fine (get_all w x).
Proof.
  intros P. apply gather_fine. apply Forall_map. apply Forall_forall. intros p _. destruct (section (running x) p) as [l|]; [|apply fine_ret].
  apply gather_fine. apply Forall_map. apply Forall_forall. intros e _. apply entry_fine. exact P.
Qed.

Lemma get_each_fine w x keys : proper x -> fine (get_each w x keys).
Proof.
  intros P. induction keys as [|k keys IH]; cbn [get_each]; [apply fine_ret|]. pose proof (get_fine w x k P) as G.
  destruct (get w x k) as [a|e]; [|intros e' Q; injection Q as <-; apply G; reflexivity].
  destruct (get_each w x keys) as [[a0 b0]|e]; [apply fine_ret|]. intros e' Q. injection Q as <-. apply IH. reflexivity.
Qed.

Lemma get_configuration_fine w x keys : proper x -> fine (get_configuration w x keys).
Proof.
  intros P. assert (A : fine (match get_all w x with Ret l => Ret (l, @nil string) | Throws e => Throws e end)).
  { pose proof (get_all_fine w x P) as G. destruct (get_all w x); [apply fine_ret|]. intros e' Q. injection Q as <-. apply G. reflexivity. }
  destruct keys as [[|k keys]|]; cbn [get_configuration]; [exact A|apply get_each_fine; exact P|exact A].
Qed.

(** The name of what is read. *)
Lemma custom_name w x key v : custom_key w x key = Some v -> kv_key v = key.
Proof.
  unfold custom_key. destruct (lookup _ _ _); [|discriminate]. destruct (custom w key) as [[ro ty]|]; [|discriminate].
  destruct (Nat.ltb _ _); [discriminate|]. intros H. injection H as <-. reflexivity.
Qed.
Lemma read_name w x r v : read w x r = Ret (Some v) -> kv_key v = r_name r.
Proof.
  unfold read, type_error. intros H. destruct (lookup _ _ _).
  - destruct (text_of _ _ _ _) as [t|]; [|discriminate H]. destruct (as_value t); [|discriminate H]. injection H as <-. reflexivity.
  - destruct (r_need r); try discriminate H; [|destruct (section _ _); [discriminate H|]|]; injection H as <-; reflexivity.
Qed.

Lemma get_from_name w x key v items : (forall r, In (Plain r) items -> r_name r = r_match r) ->
  ~ is_beginning "DefaultPriceText" key -> ~ is_beginning "MeterPublicKey[" key ->
  get_from w x items key = Ret (Some v) -> ci_eq key (kv_key v) = true.
Proof.
  intros N P1 P2. induction items as [|i items IH]; cbn [get_from]; intros G.
  - destruct (supports x "Custom"); [|discriminate G]. injection G as G. rewrite (custom_name _ _ _ _ G). apply ci_same. clear.
    unfold same_text. induction (chars key); constructor; [left; reflexivity|assumption].
  - destruct i as [r| |].
    + destruct (match r_profile r with Some p => supports x p | None => true end && ci_eq key (r_match r)) eqn:H.
      * apply andb_true_iff in H. destruct H as [_ H]. rewrite (read_name _ _ _ _ G), (N r) by (left; reflexivity). exact H.
      * apply IH; [|exact G]. intros r' I. apply N. right. exact I.
    + destruct (starts_with "MeterPublicKey[" key) eqn:S; [exfalso; apply P2; apply starts_with_ok; exact S|]. apply IH; [|exact G]. intros r' I. apply N. right. exact I.
    + destruct (starts_with "DefaultPriceText" key) eqn:S; [exfalso; apply P1; apply starts_with_ok; exact S|]. rewrite andb_false_r in G.
      apply IH; [|exact G]. intros r' I. apply N. right. exact I.
Qed.

Lemma get_name w x key v : ~ is_beginning "DefaultPriceText" key -> ~ is_beginning "MeterPublicKey[" key ->
  get w x key = Ret (Some v) -> same_text key (kv_key v).
Proof.
  intros P1 P2 G. apply ci_same. apply (get_from_name w x key v readers); auto. intros r I. destruct (rfacts r I) as (t & F).
  rewrite (rf_name _ _ F), (rf_key _ _ F). reflexivity.
Qed.
