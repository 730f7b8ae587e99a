(** C73 and C77-C79: the keys of the OCPP 1.6 configuration with a form of their own, and what accepted changes do. *)
From Coq Require Import ZArith List Bool String Ascii Lia.
From Verif Require Import StrModel StrSpec StrProofs StrProperties JsonModel JsonProofs JsonPretty DtModel CfgSchemaLang CfgModel CfgSchema CfgTables CfgExample CfgApi CfgSpec CfgProofs CfgProofs2 CfgProofs3 CfgProofs4 CfgProofs5 CfgProofs6 CfgProofs7 CfgProofs8 CfgProofs9 CfgProofs10 CfgProofs11 CfgProperties CfgSpec2 CfgProofs12 CfgProofs13.
Import ListNotations.
Local Open Scope string_scope.
Local Open Scope list_scope.
Local Open Scope Z_scope.

(** ** C77: changes take effect *)

(** After any changes, whatever the last effect handed over is what the configuration holds; without such an effect the
    value is the one from the beginning. *)
Theorem C77_the_value_in_force_is_the_configured_one : forall custom_ok number x e x' s k t,
  reached custom_ok number x -> In (s, k, t) driving -> changes x e x' ->
  (exists j, in_force s k e j /\ held (running x') s k = Some j) \/
  ((forall f j, In f e -> ~ carries s k j f) /\ held (running x') s k = held (running x) s k).
Proof.
  intros co nu x e x' s k t Re D C. destruct (reached_good _ _ _ Re) as (P & N & _). exact (proj2 (proj2 (changes_drive _ _ _ _ _ _ P N D C))).
Qed.
Lemma triple {A B C} (p : A * B * C) : p = (fst (fst p), snd (fst p), snd p).
Proof. destruct p as [[a b] c]. reflexivity. Qed.
Example C77_the_value_in_force_is_the_configured_one_ex : exists e x',
  changes a_point e x' /\ in_force "Core" "HeartbeatInterval" e (JInt 77) /\ held (running x') "Core" "HeartbeatInterval" = Some (JInt 77).
Proof.
  set (c1 := change a_world a_point "heartbeatinterval" "60" true). set (c2 := change a_world (fst (fst c1)) "HeartbeatInterval" "77" true).
  exists (([] ++ snd (fst c1)) ++ snd (fst c2)), (fst (fst c2)). split; [|split].
  - apply (one_more _ _ (fst (fst c1)) a_world "HeartbeatInterval" "77" true _ _ (snd c2)); [|exact (triple c2)].
    apply (one_more _ _ a_point a_world "heartbeatinterval" "60" true _ _ (snd c1)); [constructor|exact (triple c1)].
  - exists [HeartbeatEvery 60; ChangedAny "heartbeatinterval" "60"], (HeartbeatEvery 77), [ChangedAny "HeartbeatInterval" "77"].
    split; [vm_compute; reflexivity|]. split; [constructor|]. intros f j [<-|[]] C. inversion C.
  - vm_compute. reflexivity.
Qed.

(** The interval of OCSP requests takes effect while certificates are managed. *)
Theorem C77_ocsp_interval_takes_effect : forall custom_ok number w x key text x' e,
  reached custom_ok number x -> same_text key "OcspRequestInterval" -> In "PnC" (profiles x) ->
  held (running x) "PnC" "ISO15118CertificateManagementEnabled" = Some (JBool true) ->
  on_change w x key text = (x', e) -> In (Respond Accepted) e ->
  exists z, int_literal z text /\ held (running x') "Internal" "OcspRequestInterval" = Some (JInt z) /\ In (OcspEvery z) e.
Proof.
  intros co nu w x key text x' e Re Sa Pn Ce C A. destruct (reached_good _ _ _ Re) as (P & N & _).
  apply ci_same in Sa. rename Sa into K.
  assert (O : ordinary x key).
  { split; [|split].
    - intros B. apply starts_with_ok in B. rewrite (starts_ci_other _ _ "OcspRequestInterval" K) in B by (vm_compute; reflexivity). discriminate B.
    - destruct (held (running x) "Custom" key) as [j|] eqn:H; [|reflexivity]. exfalso.
      apply (N _ _ H "Internal" "OcspRequestInterval" true); [apply in_catalogue; vm_compute; reflexivity|apply ci_same; exact K].
    - intros B. apply ci_same in B. rewrite (ci_replace _ _ _ K) in B. vm_compute in B. discriminate B. }
  destruct (answered_change _ _ _ _ _ _ _ C A) as (e0 & o & Ch).
  destruct (change_accepted _ _ _ _ _ _ _ _ _ O Ch (or_introl eq_refl)) as (wr & t & j & I & F & E & M & Ap & _ & ->).
  assert (Fi : first_w "OcspRequestInterval" writers = Some (Writer "OcspRequestInterval" Always (RInt 86400 int_max) "Internal" "OcspRequestInterval" false)) by (vm_compute; reflexivity).
  pose proof (one_writer _ _ _ _ _ F E K Fi) as Q. subst wr. cbn [w_section w_key w_rule] in *.
  destruct (is_positive_integer text) as [[[] z]|] eqn:Pi; cbn [apply_rule] in Ap; rewrite Pi in Ap; try discriminate Ap.
  destruct ((z <? 86400) || (int_max <? z)) eqn:Rg; [discriminate Ap|]. inversion Ap; subst j.
  apply positive_literal in Pi. destruct Pi as [Li Ra]. exists z. split; [exact Li|].
  pose proof (got_put (running x) "Internal" "OcspRequestInterval" (JInt z)) as (G1 & G2 & _). split; [exact G1|].
  destruct (on_change_effects _ _ _ _ _ _ C A) as (e1 & o1 & R & I1 & _). apply I1.
  unfold react in R. rewrite !(ci_replace _ _ _ K) in R. ci_in R.
  assert (Su : supports (store w x "Internal" "OcspRequestInterval" (JInt z)) "PnC" = true).
  { unfold supports. cbn [store profiles]. apply existsb_exists. exists "PnC". split; [exact Pn|apply String.eqb_refl]. }
  assert (Ce' : held (running (store w x "Internal" "OcspRequestInterval" (JInt z))) "PnC" "ISO15118CertificateManagementEnabled" = Some (JBool true)).
  { cbn [store running]. rewrite G2 by discriminate. exact Ce. }
  rewrite Su, held_lookup, Ce' in R.
  unfold with_int in R. rewrite (int_at_held w (store w x "Internal" "OcspRequestInterval" (JInt z)) _ _ z G1 Ra) in R. inversion R; subst. left. reflexivity.
Qed.

Example C77_ocsp_interval_takes_effect_ex :
  supports a_point "PnC" = true /\ held (running a_point) "PnC" "ISO15118CertificateManagementEnabled" = Some (JBool true) /\
  snd (on_change a_world a_point "OcspRequestInterval" "90000") = [OcspEvery 90000; ChangedAny "OcspRequestInterval" "90000"; Respond Accepted].
Proof. split; [|split]; vm_compute; reflexivity. Qed.

(** The callback of a key is called exactly for accepted changes that spell the key as it was registered, the callback for
    any key exactly for the other accepted changes. *)
Theorem C77_callbacks_follow_accepted_changes : forall w x key text asked x' e r k v,
  change w x key text asked = (x', e, r) ->
  (In (Changed k v) e <-> (exists o, r = Ret (Accepted, o)) /\ k = key /\ v = text /\ In key (callbacks w)) /\
  (In (ChangedAny k v) e <-> (exists o, r = Ret (Accepted, o)) /\ k = key /\ v = text /\ ~ In key (callbacks w) /\ generic w = true).
Proof.
  intros w x key text asked x' e r k v C.
  assert (Nr : forall f x0, In f (fst (react w x0 key text asked)) -> (forall k v, f <> Changed k v) /\ forall k v, f <> ChangedAny k v) by exact (fun f x0 => react_no_callback w x0 key text asked f).
  assert (Nt : forall st f, In f (notify w st key text) <-> st = Accepted /\ ((In key (callbacks w) /\ f = Changed key text) \/ (~ In key (callbacks w) /\ generic w = true /\ f = ChangedAny key text))).
  { intros st f. unfold notify. destruct st; try (split; [intros []|intros [X _]; discriminate X]; fail).
    destruct (existsb (String.eqb key) (callbacks w)) eqn:Ex.
    - assert (I : In key (callbacks w)) by (apply existsb_exists in Ex; destruct Ex as (q & I & Q); apply String.eqb_eq in Q; subst q; exact I).
      cbn. split; [intros [<-|[]]; auto|intros (_ & [(_ & ->)|(X & _)]); [auto|contradiction]].
    - assert (I : ~ In key (callbacks w)).
      { intros I. assert (X : existsb (String.eqb key) (callbacks w) = true) by (apply existsb_exists; exists key; split; [exact I|apply String.eqb_refl]). congruence. }
      destruct (generic w); cbn.
      + split; [intros [<-|[]]; auto 6|intros (_ & [(X & _)|(_ & _ & ->)]); [contradiction|auto]].
      + split; [intros []|intros (_ & [(X & _)|(_ & X & _)]); [contradiction|discriminate X]]. }
  destruct (callbacks_of_change _ _ _ _ _ _ _ _ C) as [(E0 & Na)|(e0 & x0 & s & o & -> & -> & ->)].
  - split; (split; [intros I; exfalso|intros ((o & Ro) & _); exfalso; exact (Na o Ro)]).
    + destruct E0 as (x0 & I0). specialize (I0 _ I). apply (proj1 (Nr _ _ I0) k v). reflexivity.
    + destruct E0 as (x0 & I0). specialize (I0 _ I). apply (proj2 (Nr _ _ I0) k v). reflexivity.
  - split; rewrite in_app_iff, Nt.
    + split.
      * intros [I|(-> & [(I & X)|(_ & _ & X)])]; [destruct (proj1 (Nr _ _ I) k v eq_refl)| |discriminate X].
        inversion X; subst. split; [eauto|auto].
      * intros ((o' & X) & -> & -> & I). inversion X; subst. right. auto.
    + split.
      * intros [I|(-> & [(I & X)|(I & G & X)])]; [destruct (proj2 (Nr _ _ I) k v eq_refl)|discriminate X|].
        inversion X; subst. split; [eauto|auto].
      * intros ((o' & X) & -> & -> & I & G). inversion X; subst. right. auto 6.
Qed.

(** A world with a callback for the interval of heartbeats. *)
Definition b_world : world := World false false (fun _ => None) any_custom (fun _ => None) (fun _ => 0) 0 true true true ["HeartbeatInterval"] false.
Example C77_callbacks_follow_accepted_changes_ex :
  In (Changed "HeartbeatInterval" "77") (snd (fst (change b_world a_point "HeartbeatInterval" "77" true))) /\
  ~ In (Changed "HeartbeatInterval" "x") (snd (fst (change b_world a_point "HeartbeatInterval" "x" true))).
Proof. split; [vm_compute; auto|vm_compute; intros []]. Qed.

(** A callback registered for a key is not called if the request spells the key in another case, although the change is
    accepted and stored. *)
Theorem C77_every_accepted_change_is_reported_refuted : exists w x key text x' e,
  reached any_custom any_number x /\ on_change w x key text = (x', e) /\ In (Respond Accepted) e /\
  same_text key "HeartbeatInterval" /\ In "HeartbeatInterval" (callbacks w) /\ held (running x') "Core" "HeartbeatInterval" = Some (JInt 77) /\
  forall k v, ~ In (Changed k v) e /\ ~ In (ChangedAny k v) e.
Proof.
  exists b_world, a_point, "heartbeatinterval", "77", (fst (on_change b_world a_point "heartbeatinterval" "77")), (snd (on_change b_world a_point "heartbeatinterval" "77")).
  split; [exact a_point_is_reached|]. split; [destruct (on_change _ _ _ _); reflexivity|].
  assert (E : snd (on_change b_world a_point "heartbeatinterval" "77") = [HeartbeatEvery 77; Respond Accepted]) by (vm_compute; reflexivity).
  rewrite E. split; [cbn; auto|]. split; [apply ci_same; vm_compute; reflexivity|]. split; [left; reflexivity|]. split; [vm_compute; reflexivity|].
  intros k v. split; intros [H|[H|[]]]; discriminate H.
Qed.

(** ** C78: price texts per language *)

(** An accepted price text replaces the one of its language and no other. *)
Theorem C78_price_texts_are_kept_per_language : forall custom_ok number w x language text asked x' e o,
  reached custom_ok number x -> language <> "" -> without "," language ->
  change w x (text_key language) text asked = (x', e, Ret (Accepted, o)) ->
  exists new obj j, parse text = Some (JObj new) /\ obj_get "priceText" new <> None /\ supported_language x language /\ tagged language new obj /\
    (forall l i, price_for x' l i <-> (l = language /\ i = JObj obj) \/ (l <> language /\ price_for x l i)) /\
    changed w x x' "CostAndPrice" "DefaultPriceText" j.
Proof.
  intros co nu w x l text asked x' e o Re Ne Wo C. destruct (reached_good _ _ _ Re) as (P & N & _).
  destruct (text_key_starts l) as [S _].
  destruct (change_inv _ _ _ _ _ _ _ _ C) as [(_ & [(why & H)|(s & H & Q)])|(v & s0 & G & T & St & R)].
  { discriminate H. } { inversion H; subst. destruct Q; discriminate. }
  rewrite (set_price_key _ _ _ _ S) in St.
  destruct (write_price w x (text_key l) text) as [[s x0]|] eqn:W; [|discriminate St]. cbn [as_set] in St. inversion St; subst s0 x0. clear St.
  assert (s = Accepted) by (destruct s; [reflexivity|inversion R ..]). subst s.
  destruct (price_accepted _ _ _ _ _ P Ne Wo W) as (new & d & l' & Pa & Pt & Su & -> & Dl & F & _). cbv zeta in F.
  exists new, (obj_set "language" (JStr l) new), (JObj d). split; [exact Pa|]. split; [exact Pt|]. split; [exact Su|].
  split; [split; [apply get_set|intros k Nk; apply get_set_other; exact Nk]|]. split; [|apply changed_store].
  pose proof (got_put (running x) "CostAndPrice" "DefaultPriceText" (JObj d)) as (G1 & _).
  intros m i. rewrite <- (F m i). unfold price_for. cbn [store running]. rewrite G1. split.
  - intros (d' & q & E1 & E2 & E3). inversion E1; subst d'. rewrite Dl in E2. inversion E2; subst q. exact E3.
  - intros H. exists d, l'. auto.
Qed.

(** Which price texts are accepted, while the present one can be shown. *)
Theorem C78_price_texts_are_accepted_exactly : forall custom_ok number w x language text v,
  reached custom_ok number x -> language <> "" -> without "," language -> multilingual x ->
  get_configuration w x (Some [text_key language]) = Ret v ->
  (answered_with w x (text_key language) text Accepted <->
   supported_language x language /\ exists new, parse text = Some (JObj new) /\ obj_get "priceText" new <> None).
Proof.
  intros co nu w x l text v Re Ne Wo Mu Gc. destruct (reached_good _ _ _ Re) as (P & N & _).
  destruct (text_key_starts l) as [S _].
  cbn [get_configuration get_each] in Gc.
  split.
  - intros (x' & e & C & A). destruct (answered_change _ _ _ _ _ _ _ C A) as (e0 & o & Ch).
    destruct (C78_price_texts_are_kept_per_language _ _ _ _ _ _ _ _ _ _ Re Ne Wo Ch) as (new & ob & j & Pa & Pt & Su & _). eauto.
  - intros (Su & new & Pa & Pt). destruct (obj_get "priceText" new) as [t|] eqn:T; [|congruence].
    destruct (write_price_total w x l text new t P Ne Wo Su Pa T) as (x' & W).
    destruct (get w x (text_key l)) as [g|] eqn:G; [|discriminate Gc].
    assert (Gs : exists k, g = Some k /\ kv_readonly k = false).
    { apply (get_price_some w x l g P Ne Wo Mu G). }
    destruct Gs as (k & -> & Ro).
    assert (Ch : change w x (text_key l) text true = (x', [] ++ notify w Accepted (text_key l) text, Ret (Accepted, true))).
    { unfold change. rewrite G. assert (Nk : ci_ne (text_key l) "AuthorizationKey" = true).
      { unfold ci_ne. destruct (str_eq (text_key l) "AuthorizationKey") eqn:Q; [|reflexivity]. unfold str_eq in Q. apply String.eqb_eq in Q. discriminate Q. }
      rewrite Nk, Ro, (set_price_key _ _ _ _ S), W. cbn [as_set]. rewrite react_price. reflexivity. }
    destruct (change_answered _ _ _ _ _ _ _ _ Ch) as (e & C & A). exists x', e. auto.
Qed.

(** The accepted price text is what the key shows. *)
Theorem C78_price_texts_are_read_back : forall custom_ok number w w' x language text asked x' e o,
  reached custom_ok number x -> language <> "" -> without "," language -> held (running x) "Custom" (text_key language) = None ->
  change w x (text_key language) text asked = (x', e, Ret (Accepted, o)) ->
  exists new shown obj, parse text = Some (JObj new) /\ parse shown = Some (JObj obj) /\
    obj_get "priceText" obj = obj_get "priceText" new /\ obj_get "priceTextOffline" obj = obj_get "priceTextOffline" new /\
    ((String.length shown <= 500)%nat -> get_configuration w' x' (Some [text_key language]) = Ret ([Kv (text_key language) false (Some shown)], [])) /\
    ((500 < String.length shown)%nat -> get_configuration w' x' (Some [text_key language]) = Throws "StringConversionException").
Proof.
  intros co nu w w' x l text asked x' e o Re Ne Wo Cu C. destruct (reached_good _ _ _ Re) as (P & N & _).
  destruct (text_key_starts l) as [S _]. destruct (change_all _ _ _ _ _ _ _ _ P N C) as (P' & _ & _).
  destruct (change_inv _ _ _ _ _ _ _ _ C) as [(_ & [(why & H)|(s & H & Q)])|(v & s0 & G & T & St & R)].
  { discriminate H. } { inversion H; subst. destruct Q; discriminate. }
  rewrite (set_price_key _ _ _ _ S) in St.
  destruct (write_price w x (text_key l) text) as [[s x0]|] eqn:W; [|discriminate St]. cbn [as_set] in St. inversion St; subst s0 x0. clear St.
  assert (s = Accepted) by (destruct s; [reflexivity|inversion R ..]). subst s.
  destruct (price_accepted _ _ _ _ _ P Ne Wo W) as (new & d & l' & Pa & Pt & Su & -> & Dl & _ & F). cbv zeta in F.
  assert (Mu : multilingual x).
  { destruct (get_price w x l P Ne Wo Cu) as [(Mu & _)|(_ & G')]; [exact Mu|]. rewrite G' in G. inversion G; subst v.
    destruct T as [(k & T & _)|T]; [discriminate T|]. apply String.eqb_eq in T. vm_compute in T. discriminate T. }
  pose proof (got_put (running x) "CostAndPrice" "DefaultPriceText" (JObj d)) as (G1 & G2 & _).
  assert (Mu' : multilingual (store w x "CostAndPrice" "DefaultPriceText" (JObj d))).
  { destruct Mu as (M1 & M2). split; [exact M1|]. cbn [store running]. rewrite G2 by discriminate. exact M2. }
  destruct (obj_get "priceText" new) as [t|] eqn:Tx; [|congruence].
  assert (Ob : price_object (JObj (obj_set "language" (JStr l) new)) =
    Ret (JObj (("priceText", t) :: match obj_get "priceTextOffline" new with Some f => [("priceTextOffline", f)] | None => [] end))).
  { rewrite (price_object_of _ t); rewrite ?get_set_other by discriminate; [reflexivity|exact Tx]. }
  rewrite Ob in F.
  set (ob := ("priceText", t) :: match obj_get "priceTextOffline" new with Some f => [("priceTextOffline", f)] | None => [] end) in *.
  exists new, (pretty 0 (JObj ob)), ob. split; [exact Pa|].
  split; [apply parse_pretty, (shown_readable text new t Pa Tx)|].
  split; [rewrite Tx; reflexivity|]. split; [unfold ob; destruct (obj_get "priceTextOffline" new); reflexivity|].
  destruct (get_price w' (store w x "CostAndPrice" "DefaultPriceText" (JObj d)) l P' Ne Wo) as [(_ & G')|(X & _)]; [cbn [store running]; rewrite G2 by discriminate; exact Cu| |contradiction].
  cbn [get_configuration get_each]. rewrite G'. unfold price_text. rewrite held_lookup. cbn [store running]. rewrite G1.
  cbn [contains member]. rewrite Dl, F. unfold as_value, too_long. split; intros L.
  - replace (Nat.ltb 500 (String.length (pretty 0 (JObj ob)))) with false by (symmetry; apply Nat.ltb_ge; exact L). reflexivity.
  - replace (Nat.ltb 500 (String.length (pretty 0 (JObj ob)))) with true by (symmetry; apply Nat.ltb_lt; exact L). reflexivity.
Qed.

(** A point where the texts of Dutch and of English are there, one of them is changed. *)
Definition dutch : string := "{""priceText"": ""Gratis""}".
Lemma dutch_accepted : snd (change a_world a_point (text_key "nl") dutch true) = Ret (Accepted, true).
Proof. vm_compute. reflexivity. Qed.
Lemma english_stays x x' e o : reached any_custom any_number x -> change a_world x (text_key "nl") dutch true = (x', e, Ret (Accepted, o)) ->
  forall i, price_for x' "en" i <-> price_for x "en" i.
Proof.
  intros Re C. assert (Wo : without "," "nl") by (unfold without; cbn; intuition discriminate).
  destruct (C78_price_texts_are_kept_per_language _ _ _ _ "nl" dutch _ _ _ _ Re ltac:(discriminate) Wo C) as (new & ob & j & _ & _ & _ & _ & F & _).
  intros i. rewrite F. split; [intros [(Q & _)|(_ & H)]; [discriminate Q|exact H]|intros H; right; split; [discriminate|exact H]].
Qed.
Example C78_price_texts_are_kept_per_language_ex : let x' := fst (fst (change a_world a_point (text_key "nl") dutch true)) in
  price_for x' "nl" (JObj [("language", JStr "nl"); ("priceText", JStr "Gratis")]) /\
  (forall i, price_for x' "en" i <-> price_for a_point "en" i) /\ exists i, price_for a_point "en" i.
Proof.
  cbv zeta. split; [|split].
  - unfold price_for. eexists _, _. split; [vm_compute; reflexivity|]. split; [vm_compute; reflexivity|].
    eexists [_], _. split; [reflexivity|]. split; [eexists; split; [reflexivity|vm_compute; reflexivity]|].
    intros i [<-|[]] (o & Q & G). inversion Q; subst. vm_compute in G. discriminate G.
  - refine (english_stays a_point _ (snd (fst (change a_world a_point (text_key "nl") dutch true))) true a_point_is_reached _).
    rewrite <- dutch_accepted. apply triple.
  - unfold price_for. eexists _, _, _. split; [vm_compute; reflexivity|]. split; [vm_compute; reflexivity|].
    eexists [], _. split; [reflexivity|]. split; [eexists; split; [reflexivity|vm_compute; reflexivity]|]. intros i [].
Qed.
Example C78_price_texts_are_read_back_ex :
  get_configuration a_world (fst (fst (change a_world a_point (text_key "nl") dutch true))) (Some [text_key "nl"]) =
  Ret ([Kv (text_key "nl") false (Some (pretty 0 (JObj [("priceText", JStr "Gratis")])))], []).
Proof. vm_compute. reflexivity. Qed.

Example C78_price_texts_are_accepted_exactly_ex :
  (exists v, get_configuration a_world a_point (Some [text_key "nl"]) = Ret v) /\
  In (Respond Accepted) (snd (on_change a_world a_point (text_key "nl") dutch)) /\
  In (Respond Rejected) (snd (on_change a_world a_point (text_key "fr") dutch)).
Proof. split; [eexists; vm_compute; reflexivity|]. split; vm_compute; auto. Qed.

(** A price text that is not JSON is answered with an error instead of a status. *)
Theorem C78_every_price_text_gets_a_status_refuted : exists w x language text why,
  reached any_custom any_number x /\ multilingual x /\ supported_language x language /\
  on_change w x (text_key language) text = (x, [RespondError why]).
Proof.
  exists a_world, a_point, "nl", "Gratis", "FormationViolation". split; [exact a_point_is_reached|]. split; [split; [|vm_compute; reflexivity]|].
  { assert (Ex : existsb (String.eqb "CostAndPrice") (profiles a_point) = true) by (vm_compute; reflexivity).
    apply existsb_exists in Ex. destruct Ex as (p & I & Q). apply String.eqb_eq in Q. subst p. exact I. }
  split; [|vm_compute; reflexivity]. exists "en, nl, de, nb_NO", " nl". split; [vm_compute; reflexivity|].
  split; [vm_compute; tauto|vm_compute; reflexivity].
Qed.

(** ** C73: keys of the section Custom, the default price and lists of purposes *)

(** Keys of the section Custom are stored by the type their schema gives them, and shown. *)
Theorem C73_custom_values_are_stored : forall custom_ok number w w' x key text x' e,
  reached custom_ok number x -> held (running x) "Custom" key <> None ->
  ~ is_beginning "DefaultPriceText" key -> ~ is_beginning "MeterPublicKey[" key ->
  on_change w x key text = (x', e) -> In (Respond Accepted) e ->
  exists type j, custom w key = Some (false, type) /\ custom_meaning w type text j /\ changed w x x' "Custom" key j /\
    (exists l, obj_get "Custom" (running x') = Some (JObj l) /\ custom_valid w l = true) /\
    forall ro ty, custom w' key = Some (ro, ty) ->
      let shown := match j with JStr t => t | _ => dump j end in
      get_configuration w' x' (Some [key]) =
      if (String.length shown <=? 500)%nat then Ret ([Kv key ro (Some shown)], []) else Ret ([], [key]).
Proof.
  intros co nu w w' x key text x' e Re H B1 B2 C A. destruct (reached_good _ _ _ Re) as (P & N & _).
  assert (S1 : starts_with "DefaultPriceText" key = false) by (apply not_true_is_false; intros Q; apply starts_with_ok in Q; contradiction).
  assert (S2 : starts_with "MeterPublicKey[" key = false) by (apply not_true_is_false; intros Q; apply starts_with_ok in Q; contradiction).
  destruct (answered_change _ _ _ _ _ _ _ C A) as (e0 & o & Ch).
  destruct (change_inv _ _ _ _ _ _ _ _ Ch) as [(_ & [(why & Q)|(s & Q & [-> | ->])])|(v & s0 & G & T & St & R)]; try discriminate Q.
  assert (s0 = Some Accepted) by (destruct s0 as [[]|]; [reflexivity|inversion R ..]). subst s0.
  assert (Su : supports x "Custom" = true).
  { rewrite (get_custom _ _ _ N H S1 S2) in G. destruct (supports x "Custom"); [reflexivity|]. inversion G; subst v.
    destruct T as [(k & T & _)|T]; [discriminate T|].
    assert (Q : ci_eq key "AuthorizationKey" = false) by (apply (not_shadowed_by x key "Security" "AuthorizationKey" true N); [apply in_catalogue; vm_compute; reflexivity|exact H]).
    rewrite T in Q. vm_compute in Q. discriminate Q. }
  pose proof (set_is w x key text) as D. rewrite St in D. inversion D as [wr Iw E Q|Q Q'|L Q|E Q|Q].
  - exfalso. destruct (facts _ Iw) as (t & F). destruct (wf_catalogue _ _ F) as (b & Ic & _).
    rewrite (wf_key _ _ F), (not_shadowed_by _ _ _ _ _ N Ic H) in E. discriminate E.
  - congruence.
  - destruct (write_custom w x key text) as [st x0] eqn:W. cbn [as_set] in Q. inversion Q; subst st x0.
    destruct (custom_written _ _ _ _ _ W) as (ty & j & l & Cu & Va & -> & Ob & Vd).
    exists ty, j. split; [exact Cu|]. split; [apply custom_value_means; exact Va|]. split; [apply changed_store|]. split.
    + exists (obj_set key j l). split; [|exact Vd]. cbn [store running]. unfold put, section. rewrite Ob. apply get_set.
    + intros ro ty' Cu'. cbv zeta. cbn [get_configuration get_each].
      pose proof (got_put (running x) "Custom" key j) as (G1 & _).
      rewrite (get_custom w' (store w x "Custom" key j) key); auto.
      * change (supports (store w x "Custom" key j) "Custom") with (supports x "Custom"). rewrite Su. unfold custom_key. rewrite held_lookup. cbn [store running].
        rewrite G1, Cu'. cbv zeta. rewrite Nat.leb_antisym. destruct (Nat.ltb 500 _); reflexivity.
      * apply store_no_shadow; auto.
      * cbn [store running]. rewrite G1. discriminate.
  - rewrite (not_shadowed_by x key "Security" "SecurityProfile" true N) in E; [discriminate E| |exact H]. apply in_catalogue; vm_compute; reflexivity.
Qed.

(** The default price is shown as the same JSON, and a list of purposes without the separator at its end. *)
Theorem C73_prices_and_purposes_are_read_back : forall custom_ok number w w' x key text x' e,
  reached custom_ok number x -> ordinary x key -> on_change w x key text = (x', e) -> In (Respond Accepted) e ->
  same_text key "DefaultPrice" \/ same_text key "IgnoredProfilePurposesOffline" ->
  exists k shown,
    ((k = "DefaultPrice" /\ parse text <> None /\ parse shown = parse text) \/
     (k = "IgnoredProfilePurposesOffline" /\ exists l, lists "," text l /\ Forall purpose l /\ shown = joined "," l)) /\ same_text key k /\
    ((String.length shown <= 500)%nat -> exists v, get_configuration w' x' (Some [key]) = Ret ([v], []) /\ kv_key v = k /\ kv_value v = Some shown) /\
    ((500 < String.length shown)%nat -> get_configuration w' x' (Some [key]) = Throws "StringConversionException").
Proof.
  intros co nu w w' x key text x' e Re O C A Ks. destruct (reached_good _ _ _ Re) as (P & N & _).
  destruct (answered_change _ _ _ _ _ _ _ C A) as (e0 & o & Ch).
  destruct (change_accepted _ _ _ _ _ _ _ _ _ O Ch (or_introl eq_refl)) as (wr & t & j & I & F & E & M & Ap & _ & ->).
  assert (R1 : w_rule wr <> RAuthorizationKey).
  { intros Q. apply (wf_secret _ _ F) in Q. destruct Q as (Q & _). rewrite (wf_key _ _ F), Q in E. destruct Ks as [K|K]; apply ci_same in K;
      rewrite (ci_replace _ _ _ K) in E; vm_compute in E; discriminate E. }
  destruct (readings _ _ I F R1) as (r & R). pose proof (accepted_here _ _ _ _ _ _ _ _ _ _ _ _ N Ch (or_introl eq_refl) F R E) as H.
  assert (Z : exists shown, ((w_key wr = "DefaultPrice" /\ parse text <> None /\ parse shown = parse text) \/
     (w_key wr = "IgnoredProfilePurposesOffline" /\ exists l, lists "," text l /\ Forall purpose l /\ shown = joined "," l)) /\
     text_of w' (running (store w x (w_section wr) (w_key wr) j)) (read_as (w_rule wr)) j = Ret shown).
  { destruct Ks as [K|K]; apply ci_same in K.
    - assert (Fi : first_w "DefaultPrice" writers = Some (Writer "DefaultPrice" Always RJson "CostAndPrice" "DefaultPrice" false)) by (vm_compute; reflexivity).
      pose proof (one_writer _ _ _ _ _ F E K Fi) as Q. subst wr. cbn [w_rule w_key w_section] in *. cbn [apply_rule] in Ap.
      destruct (parse text) as [j0|] eqn:Pa; [|discriminate Ap]. inversion Ap; subst j0. exists (pretty 0 j).
      split; [left; split; [reflexivity|]; split; [discriminate|]; apply parse_pretty; exact (parse_readable _ _ Pa)|reflexivity].
    - assert (Fi : first_w "IgnoredProfilePurposesOffline" writers = Some (Writer "IgnoredProfilePurposesOffline" Always RPurposes "Internal" "IgnoredProfilePurposesOffline" false)) by (vm_compute; reflexivity).
      pose proof (one_writer _ _ _ _ _ F E K Fi) as Q. subst wr. cbn [w_rule w_key w_section] in *. cbn [apply_rule] in Ap.
      destruct (lookup _ _ _); [|discriminate Ap]. destruct (text_of w (running x) KPurposeText _); [|discriminate Ap].
      destruct (Nat.ltb _ _); [discriminate Ap|]. destruct (forallb is_purpose (split_string text comma false)) eqn:Fa; [|discriminate Ap]. inversion Ap; subst j.
      exists (joined "," (split_string text comma false)). split.
      + right. split; [reflexivity|]. exists (split_string text comma false).
        assert (Fp : Forall purpose (split_string text comma false)).
        { rewrite forallb_forall in Fa. apply Forall_forall. intros p Ip. specialize (Fa _ Ip). unfold is_purpose in Fa. apply existsb_exists in Fa.
          destruct Fa as (q & Iq & Q). apply String.eqb_eq in Q. subst q. exact Iq. }
        split; [|split; [exact Fp|reflexivity]]. apply split_lists; [|reflexivity]. intros Em. rewrite Forall_forall in Fp. specialize (Fp _ Em).
        destruct Fp as [Q|[Q|[Q|[]]]]; discriminate Q.
      + cbn [read_as text_of to_text]. rewrite (filter_all _ _ Fa). reflexivity. }
  destruct Z as (shown & Wh & Tx). exists (w_key wr), shown. split; [exact Wh|].
  split; [rewrite <- (wf_key _ _ F); apply ci_same; exact E|].
  cbn [get_configuration get_each].
  rewrite (get_stored w w' x wr t r key j N (not_custom _ _ F) F R E H), Tx. unfold as_value, too_long. split; intros L.
  - replace (Nat.ltb 500 (String.length shown)) with false by (symmetry; apply Nat.ltb_ge; exact L). eexists. split; [reflexivity|]. auto.
  - replace (Nat.ltb 500 (String.length shown)) with true by (symmetry; apply Nat.ltb_lt; exact L). reflexivity.
Qed.
Definition free : string := "{""priceText"":""Free""}".
Example C73_prices_and_purposes_are_read_back_ex :
  In (Respond Accepted) (snd (on_change a_world a_point "defaultPrice" free)) /\ parse free = Some (JObj [("priceText", JStr "Free")]) /\
  get_configuration a_world (fst (on_change a_world a_point "defaultPrice" free)) (Some ["DefaultPrice"]) =
    Ret ([Kv "DefaultPrice" false (Some (pretty 0 (JObj [("priceText", JStr "Free")])))], []).
Proof. split; [vm_compute; auto|split; vm_compute; reflexivity]. Qed.
Definition c_world : world := World false false (fun k => if String.eqb k "Colour" then Some (false, "string") else None) any_custom (fun _ => None) (fun _ => 0) 0 true true true [] true.
Definition c_point : cp :=
  match start any_custom any_number (put example_config "Custom" "Colour" (JStr "red")) [] with Some x => x | None => Cp [] [] [] [] end.
Example C73_custom_values_are_stored_ex :
  In (Respond Accepted) (snd (on_change c_world c_point "Colour" "green")) /\
  held (running (fst (on_change c_world c_point "Colour" "green"))) "Custom" "Colour" = Some (JStr "green") /\
  get_configuration c_world (fst (on_change c_world c_point "Colour" "green")) (Some ["Colour"]) = Ret ([Kv "Colour" false (Some "green")], []).
Proof. split; [vm_compute; auto|split; vm_compute; reflexivity]. Qed.

(** ** C79: the authorization key is never shown *)

(** Whatever GetConfiguration is asked for, its response is the same for any two authorization keys. *)
Theorem C79_responses_do_not_depend_on_the_authorization_key : forall w x y keys,
  same_but_key x y -> get_configuration w x keys = get_configuration w y keys.
Proof.
  intros w x y [keys|] S; cbn [get_configuration]; rewrite ?(key_get_each _ _ _ keys S), (key_get_all _ _ _ S); reflexivity.
Qed.
Example C79_responses_do_not_depend_on_the_authorization_key_ex :
  let y k := fst (on_change a_world a_point "AuthorizationKey" k) in
  same_but_key (y "first-secret") (y "second-secret") /\ running (y "first-secret") <> running (y "second-secret") /\
  exists v u, get_configuration a_world (y "first-secret") None = Ret (v, u) /\ (50 < List.length v)%nat.
Proof.
  cbv zeta. split; [|split].
  - split; [vm_compute; reflexivity|]. split; [vm_compute; reflexivity|]. split.
    + exists (match obj_get "Security" (running a_point) with Some (JObj l) => l | _ => [] end), "first-secret", "second-secret". split; vm_compute; reflexivity.
    + intros s Ns.
      assert (Q : forall k, running (fst (on_change a_world a_point "AuthorizationKey" k)) = running (fst (on_change a_world a_point "AuthorizationKey" k))) by reflexivity. clear Q.
      assert (Q1 : running (fst (on_change a_world a_point "AuthorizationKey" "first-secret")) = put (running a_point) "Security" "AuthorizationKey" (JStr "first-secret")) by (vm_compute; reflexivity).
      assert (Q2 : running (fst (on_change a_world a_point "AuthorizationKey" "second-secret")) = put (running a_point) "Security" "AuthorizationKey" (JStr "second-secret")) by (vm_compute; reflexivity).
      rewrite Q1, Q2.
      rewrite (proj2 (proj2 (got_put (running a_point) "Security" "AuthorizationKey" (JStr "first-secret"))) s Ns).
      rewrite (proj2 (proj2 (got_put (running a_point) "Security" "AuthorizationKey" (JStr "second-secret"))) s Ns). reflexivity.
  - vm_compute. discriminate.
  - eexists _, _. split; [vm_compute; reflexivity|]. apply Nat.ltb_lt. vm_compute. reflexivity.
Qed.

(** Asked for by its name the key is unknown, although it can be changed. *)
Theorem C79_the_authorization_key_is_answered_as_unknown : forall custom_ok number w x key,
  reached custom_ok number x -> same_text key "AuthorizationKey" -> get_configuration w x (Some [key]) = Ret ([], [key]).
Proof.
  intros co nu w x key Re Sa. destruct (reached_good _ _ _ Re) as (P & N & _). apply ci_same in Sa.
  assert (G : get w x key = Ret None).
  { assert (Cu : held (running x) "Custom" key = None).
    { destruct (held (running x) "Custom" key) as [j|] eqn:H; [|reflexivity]. exfalso.
      apply (N _ _ H "Security" "AuthorizationKey" true); [apply in_catalogue; vm_compute; reflexivity|apply ci_same; exact Sa]. }
    apply (get_secret _ _ _ Sa Cu). }
  cbn [get_configuration get_each]. rewrite G. reflexivity.
Qed.

Print Assumptions C77_the_value_in_force_is_the_configured_one.
Print Assumptions C77_ocsp_interval_takes_effect.
Print Assumptions C77_callbacks_follow_accepted_changes.
Print Assumptions C77_every_accepted_change_is_reported_refuted.
Print Assumptions C78_price_texts_are_kept_per_language.
Print Assumptions C78_price_texts_are_accepted_exactly.
Print Assumptions C78_price_texts_are_read_back.
Print Assumptions C78_every_price_text_gets_a_status_refuted.
Print Assumptions C73_custom_values_are_stored.
Print Assumptions C73_prices_and_purposes_are_read_back.
Print Assumptions C79_responses_do_not_depend_on_the_authorization_key.
Print Assumptions C79_the_authorization_key_is_answered_as_unknown.
