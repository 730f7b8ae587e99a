(** Lemmas for CfgProperties.v: every change, starting, and starting again. *)
From Coq Require Import ZArith List Bool String Ascii Lia.
From Verif Require Import StrModel StrSpec StrProofs StrProperties JsonModel JsonProofs DtModel CfgSchemaLang CfgModel CfgSchema CfgTables CfgApi CfgSpec CfgProofs CfgProofs2 CfgProofs3 CfgProofs4 CfgProofs5.
Import ListNotations.
Local Open Scope list_scope.
Local Open Scope string_scope.
Local Open Scope Z_scope.

Lemma catalogue_names : forallb (fun e => match e with (s, k, _) =>
    match type_of s k with Some _ => negb (String.eqb s "Custom") | None => false end end) catalogue = true.
Proof. vm_compute. reflexivity. Qed.

Lemma in_catalogue s k b : existsb (fun e => match e with (s', k', b') => String.eqb s s' && String.eqb k k' && Bool.eqb b b' end) catalogue = true -> In (s, k, b) catalogue.
Proof.
  intros H. apply existsb_exists in H. destruct H as ([[s' k'] b'] & I & Q). ands Q. apply String.eqb_eq in Q, Q1. apply eqb_prop in Q0. subst. exact I.
Qed.

Lemma not_shadowed x key wr t : no_shadow x -> writer_facts wr t -> ci_eq key (w_match wr) = true -> held (running x) "Custom" key = None.
Proof.
  intros N F E. destruct (held (running x) "Custom" key) as [j|] eqn:H; [|reflexivity]. exfalso.
  destruct (wf_catalogue _ _ F) as (b & I & _). apply (N _ _ H _ _ _ I). rewrite <- (wf_key _ _ F). apply ci_same. exact E.
Qed.

Lemma not_shadowed_by x key s k b : no_shadow x -> In (s, k, b) catalogue -> held (running x) "Custom" key <> None -> ci_eq key k = false.
Proof.
  intros N I H. destruct (held (running x) "Custom" key) as [j|] eqn:E; [|congruence].
  destruct (ci_eq key k) eqn:Q; [|reflexivity]. exfalso. apply (N _ _ E _ _ _ I). apply ci_same. exact Q.
Qed.

Lemma store_no_shadow w x s k v : no_shadow x -> (s = "Custom" -> held (running x) "Custom" k <> None) -> no_shadow (store w x s k v).
Proof.
  intros N C k' j H. cbn [store running] in H. pose proof (got_put (running x) s k v) as (G1 & G2 & G3).
  destruct (string_dec s "Custom") as [->|Ns]; [destruct (string_dec k' k) as [->|Nk]|].
  - specialize (C eq_refl). destruct (held (running x) "Custom" k) as [j'|] eqn:E; [|congruence]. exact (N _ _ E).
  - rewrite G2 in H by congruence. exact (N _ _ H).
  - rewrite G2 in H by congruence. exact (N _ _ H).
Qed.

Lemma not_custom wr t : writer_facts wr t -> w_section wr <> "Custom".
Proof. intros F C. pose proof (wf_type _ _ F) as T. rewrite C in T. vm_compute in T. discriminate T. Qed.

Lemma one_writer key wr t k wr' : writer_facts wr t -> ci_eq key (w_match wr) = true -> ci_eq key k = true -> first_w k writers = Some wr' -> wr = wr'.
Proof.
  intros F E K H. rewrite <- (first_w_same _ _ _ K), (first_w_same _ _ _ E), (wf_first _ _ F) in H. congruence.
Qed.

Lemma accepted_react w x key text asked res :
  snd (react w x key text asked) = res -> (exists e o, react w x key text asked = (e, Ret (Accepted, o))) -> exists o, res = Ret (Accepted, o).
Proof. intros H (e & o & R). rewrite R in H. cbn in H. eauto. Qed.

Lemma stored_shape s k t text v : type_of s k = Some t -> means k t text v -> forall t', declared s k t' -> shape t' v.
Proof. intros T M t' D. apply declared_type in D. rewrite T in D. injection D as <-. eapply means_shape. exact M. Qed.

Lemma price_key key k : starts_with "DefaultPriceText" key = true -> starts_ci "DefaultPriceText" k = false -> ci_eq key k = false.
Proof. intros S N. destruct (ci_eq key k) eqn:E; [|reflexivity]. rewrite (starts_ci_other _ _ _ E N) in S. discriminate S. Qed.

Lemma not_price wr t : writer_facts wr t -> (w_section wr, w_key wr) <> ("CostAndPrice", "DefaultPriceText").
Proof. intros F E. pose proof (wf_price _ _ F) as P. injection E as _ E. rewrite (wf_key _ _ F), E in P. vm_compute in P. discriminate P. Qed.

(** Every change of a configuration in form. *)
Lemma change_all w x key text asked x' e res :
  proper x -> no_shadow x -> change w x key text asked = (x', e, res) ->
  proper x' /\ no_shadow x' /\ (x' = x \/ exists o, res = Ret (Accepted, o) \/ res = Ret (RebootRequired, o)).
Proof.
  intros P N C. destruct (change_inv _ _ _ _ _ _ _ _ C) as [(-> & _)|(v & s0 & G & T & S & R)]; [auto|].
  pose proof (set_is w x key text) as Q. rewrite S in Q. inversion Q as [wr I E W|Pr W|Cu W|Se W|W].
  - destruct (facts wr I) as (t & F). unfold as_set in W. destruct (write w x wr text) as [[s x0]|] eqn:Wr; [|discriminate W].
    injection W as <- <-. pose proof (not_shadowed _ _ _ _ N F E) as Nc.
    destruct (write_cases _ _ _ _ _ _ _ F Wr) as [(j & M & St & A & Pp & Gd & ->)|[(-> & St)|(-> & _)]]; auto.
    assert (Stands : stands_in x (w_section wr)) by exact (written_stands _ _ _ _ _ _ F E Nc G (tried_some _ _ T)).
    assert (P' : proper (store w x (w_section wr) (w_key wr) j)).
    { apply store_proper; auto; [exact (stored_shape _ _ _ _ _ (wf_type _ _ F) M)|]. intros H. exfalso. exact (not_price _ _ F H). }
    split; [exact P'|]. split; [apply store_no_shadow; [exact N|intros H; exfalso; exact (not_custom _ _ F H)]|].
    right. destruct St as [-> | ->].
    + destruct (accepted_react _ _ _ _ _ _ R) as (o & ->); [|eauto].
      pose proof (got_put (running x) (w_section wr) (w_key wr) j) as (G1 & _).
      apply react_fine; auto.
      * rewrite (ci_replace _ _ _ E). exact (wf_profile _ _ F).
      * intros K. assert (H : first_w "AuthorizationKey" writers = Some (Writer "AuthorizationKey" Always RAuthorizationKey "Security" "AuthorizationKey" false)) by (vm_compute; reflexivity).
        rewrite (one_writer _ _ _ _ _ F E K H) in *. cbn [w_section w_key store running] in *. rewrite G1. discriminate.
      * intros K t'. assert (H : first_w "NextTimeOffsetTransitionDateTime" writers = Some (Writer "NextTimeOffsetTransitionDateTime" Always RFuture "CostAndPrice" "NextTimeOffsetTransitionDateTime" false)) by (vm_compute; reflexivity).
        rewrite (one_writer _ _ _ _ _ F E K H) in *. cbn [w_section w_key w_rule store running] in *. rewrite G1. intros X. injection X as ->.
        cbn [apply_rule] in A. destruct (from_rfc3339 text) eqn:Tm; [|discriminate A]. destruct (now w <? z); [|discriminate A]. injection A as <-. congruence.
    + exists true. auto.
  - destruct (write_price_cases w x key text P) as [(s & W' & _)|[(why & W')|(j & W' & Pf & Sec)]]; rewrite W' in W; cbn [as_set] in W; try discriminate W;
      injection W as <- <-; auto.
    assert (P' : proper (store w x "CostAndPrice" "DefaultPriceText" j)).
    { apply store_proper; auto; [right; right; exact Sec|]. intros t D. apply declared_type in D. vm_compute in D. injection D as <-. exact Logic.I. }
    split; [exact P'|]. split; [apply store_no_shadow; [exact N|discriminate]|]. right.
    destruct (accepted_react _ _ _ _ _ _ R) as (o & ->); [|eauto].
    apply react_fine; auto.
    + apply price_key; [exact Pr|vm_compute; reflexivity].
    + intros K. rewrite (price_key _ "AuthorizationKey" Pr) in K by (vm_compute; reflexivity). discriminate K.
    + intros K. rewrite (price_key _ "NextTimeOffsetTransitionDateTime" Pr) in K by (vm_compute; reflexivity). discriminate K.
  - destruct (write_custom w x key text) as [s x0] eqn:Wc. cbn [as_set] in W. injection W as <- <-.
    destruct (write_custom_cases _ _ _ _ _ _ Wc) as [(-> & ->)|(-> & j & -> & H)]; auto.
    assert (P' : proper (store w x "Custom" key j)).
    { apply store_proper; auto; [right; right; unfold held in H; destruct (obj_get "Custom" (running x)); [discriminate|congruence]| |discriminate].
      intros t D. apply declared_type in D. vm_compute in D. discriminate D. }
    split; [exact P'|]. split; [apply store_no_shadow; auto|]. right.
    destruct (accepted_react _ _ _ _ _ _ R) as (o & ->); [|eauto].
    apply react_fine; auto.
    + apply (not_shadowed_by x key "Security" "SecurityProfile" true); auto. apply in_catalogue; vm_compute; reflexivity.
    + intros K. rewrite (not_shadowed_by x key "Security" "AuthorizationKey" true) in K; [discriminate K|auto| |exact H]. apply in_catalogue; vm_compute; reflexivity.
    + intros K. rewrite (not_shadowed_by x key "CostAndPrice" "NextTimeOffsetTransitionDateTime" true) in K; [discriminate K|auto| |exact H]. apply in_catalogue; vm_compute; reflexivity.
  - subst x'. auto.
  - subst x'. auto.
Qed.

(** ** Starting *)

Section Valid.
Variable number : option Z -> option Z -> string -> bool.

Lemma valid_object closed req props j :
  valid number (SObject closed req props) j = true <->
  exists l, j = JObj l /\ (forall k, In k req -> obj_get k l <> None) /\
    (forall k t, In (k, t) props -> forall v, obj_get k l = Some v -> valid number t v = true) /\
    (closed = true -> forall e, In e l -> existsb (fun p => String.eqb (fst e) (fst p)) props = true).
Proof.
  assert (Q : forall l ps,
    (fix each (ps : list (string * schema)) : bool :=
       match ps with
       | [] => true
       | (k, p) :: ps' => match obj_get k l with Some v => valid number p v | None => true end && each ps'
       end) ps = true <-> (forall k t, In (k, t) ps -> forall v, obj_get k l = Some v -> valid number t v = true)).
  { intros l ps. induction ps as [|[k p] ps IH]; [split; [intros _ k t []|reflexivity]|].
    rewrite andb_true_iff, IH. split.
    - intros [A B] k' t [H|H] v E; [injection H as <- <-; rewrite E in A; exact A|eauto].
    - intros H. split; [destruct (obj_get k l) eqn:E; [|reflexivity]; apply (H k p); [left; reflexivity|exact E]|].
      intros k' t I. apply H. right. exact I. }
  assert (R : forall l, forallb (fun k => match obj_get k l with Some _ => true | None => false end) req = true <-> (forall k, In k req -> obj_get k l <> None)).
  { intros l. rewrite forallb_forall. split; intros H k I; specialize (H k I); destruct (obj_get k l); congruence. }
  split.
  - intros H. destruct j; try discriminate H. exists l. split; [reflexivity|]. cbn [valid] in H.
    apply andb_true_iff in H. destruct H as [H C]. apply andb_true_iff in H. destruct H as [A B].
    split; [apply R; exact A|]. split; [apply Q; exact B|]. intros -> e I. rewrite forallb_forall in C. exact (C _ I).
  - intros (l & -> & A & B & C). cbn [valid]. rewrite !andb_true_iff. split; [split; [apply R; exact A|apply Q; exact B]|].
    destruct closed; [|reflexivity]. apply forallb_forall. auto.
Qed.

Lemma valid_array i j : valid number (SArray i) j = true -> exists l, j = JArr l /\ forall e, In e l -> valid number i e = true.
Proof. destruct j; try discriminate. intros H. exists l. split; [reflexivity|]. apply forallb_forall. exact H. Qed.

Lemma valid_shape t j : valid number t j = true -> shape t j.
Proof.
  destruct t; cbn [valid shape]; intros H; auto.
  - destruct j; try discriminate H; eauto.
  - destruct j; try discriminate H; eauto.
  - destruct j; try discriminate H; eauto.
  - destruct j; try discriminate H; eauto.
  - destruct t; auto. destruct j; try discriminate H.
    assert (Q : exists r, l = map JStr r).
    { induction l as [|a l IH]; [exists []; reflexivity|]. cbn [forallb] in H. apply andb_true_iff in H. destruct H as [A B].
      destruct (IH B) as (r & ->). cbn [valid] in A. destruct a as [| | | |t0| |]; try discriminate A. exists (t0 :: r)%list. reflexivity. }
    destruct Q as (r & ->). eauto.
Qed.

Variable custom_ok : list (string * json) -> bool.

Lemma config_valid_iff c :
  config_valid custom_ok number c = true <->
  (forall s, In s required_sections -> obj_get s c <> None) /\
  (forall s t, In (s, t) sections -> forall j, obj_get s c = Some j -> valid number t j = true) /\
  (forall e, In e c -> fst e = "Custom" \/ exists t, In (fst e, t) sections) /\
  (forall j, obj_get "Custom" c = Some j -> exists l, j = JObj l /\ custom_ok l = true).
Proof.
  unfold config_valid. rewrite !andb_true_iff, !forallb_forall.
  assert (E : forall b c d : Prop, (b <-> c) -> (b /\ d <-> c /\ d)) by tauto.
  split.
  - intros [[[A B] C] D]. repeat split.
    + intros s I. specialize (A _ I). destruct (obj_get s c); congruence.
    + intros s t I j G. specialize (B _ I). cbn [fst snd] in B. rewrite G in B. exact B.
    + intros e I. specialize (C _ I). apply orb_true_iff in C. destruct C as [C|C]; [left; apply String.eqb_eq; exact C|right].
      apply existsb_exists in C. destruct C as ([s t] & Is & Q). apply String.eqb_eq in Q. cbn [fst] in Q. exists t. rewrite Q. exact Is.
    + intros j G. rewrite G in D. destruct j; try discriminate D. eauto.
  - intros (A & B & C & D). repeat split.
    + intros s I. specialize (A _ I). destruct (obj_get s c); congruence.
    + intros [s t] I. cbn [fst snd]. destruct (obj_get s c) eqn:G; [eauto|reflexivity].
    + intros e I. apply orb_true_iff. destruct (C _ I) as [Q|(t & Q)]; [left; apply String.eqb_eq; exact Q|right].
      apply existsb_exists. exists (fst e, t). split; [exact Q|apply String.eqb_refl].
    + destruct (obj_get "Custom" c) as [j|] eqn:G; [|reflexivity]. destruct (D _ eq_refl) as (l & -> & Q). exact Q.
Qed.

Lemma obj_get_in k l (v : json) : obj_get k l = Some v -> In (k, v) l.
Proof.
  induction l as [|[a b] l IH]; cbn; [discriminate|]. destruct (String.eqb_spec k a) as [->|N]; intros H; [injection H as ->; auto|auto].
Qed.

Lemma section_type s t : In (s, t) sections -> exists closed req props, t = SObject closed req props.
Proof.
  assert (F : forallb (fun e => match snd e with SObject _ _ _ => true | _ => false end) sections = true) by (vm_compute; reflexivity).
  intros I. rewrite forallb_forall in F. specialize (F _ I). cbn [snd] in F. destruct t; try discriminate F. eauto.
Qed.

Lemma valid_held c s k t j : config_valid custom_ok number c = true -> declared s k t -> held c s k = Some j -> valid number t j = true.
Proof.
  intros V (closed & req & props & I & K) H. apply config_valid_iff in V. destruct V as (_ & B & _).
  unfold held in H. destruct (obj_get s c) as [o|] eqn:G; [|discriminate H]. specialize (B _ _ I _ G).
  apply valid_object in B. destruct B as (l & -> & _ & B & _). eauto.
Qed.

Lemma start_inv c u x : start custom_ok number c u = Some x ->
  config_valid custom_ok number c = true /\ running x = c /\ user x = u /\ profiles_of c = Some (profiles x) /\
  existsb (String.eqb "Core") (profiles x) = true /\ measurands_valid (measurands x) c = true /\
  exists s, held c "Internal" "SupportedMeasurands" = Some (JStr s) /\ init_measurands (split_string s comma false) = Some (measurands x).
Proof.
  unfold start. destruct (config_valid custom_ok number c); [|discriminate]. destruct (profiles_of c) as [ps|]; [|discriminate].
  destruct (existsb (String.eqb "Core") ps) eqn:Co; [|discriminate]. rewrite held_lookup.
  destruct (held c "Internal" "SupportedMeasurands") as [[]|]; try discriminate.
  destruct (init_measurands (split_string s comma false)) as [ms|] eqn:M; [|discriminate].
  destruct (measurands_valid ms c) eqn:Mv; [|discriminate]. intros H. injection H as <-. cbn. repeat split; auto. eauto.
Qed.

Lemma start_intro c u ps ms s :
  config_valid custom_ok number c = true -> profiles_of c = Some ps -> existsb (String.eqb "Core") ps = true ->
  held c "Internal" "SupportedMeasurands" = Some (JStr s) -> init_measurands (split_string s comma false) = Some ms ->
  measurands_valid ms c = true -> start custom_ok number c u = Some (Cp c u ps ms).
Proof. intros A B C D E F. unfold start. rewrite A, B, C, held_lookup, D, E, F. reflexivity. Qed.

Definition filled (x : cp) : Prop := forall s k, needed s k -> stands_in x s -> held (running x) s k <> None.

Lemma start_proper c u x : start custom_ok number c u = Some x -> filled x -> proper x.
Proof.
  intros S Fl. apply start_inv in S. destruct S as (V & <- & _). pose proof V as V'. apply config_valid_iff in V'. destruct V' as (A & B & C & D).
  split; [|split; [|split; [exact Fl|]]].
  - intros s j G. destruct (C _ (obj_get_in _ _ _ G)) as [E|(t & I)]; cbn [fst] in *.
    + subst s. destruct (D _ G) as (l & -> & _). eauto.
    + specialize (B _ _ I _ G). destruct (section_type _ _ I) as (cl & req & props & ->). apply valid_object in B. destruct B as (l & -> & _). eauto.
  - intros s k t j De H. apply valid_shape. eapply valid_held; eauto.
  - intros j H. destruct (type_of "CostAndPrice" "DefaultPriceText") as [t|] eqn:T; [|vm_compute in T; discriminate T].
    pose proof (valid_held _ _ _ _ _ V (type_declared _ _ _ T) H) as Q. vm_compute in T. injection T as <-.
    apply valid_object in Q. destruct Q as (l & -> & _ & Q & _). exists l. split; [reflexivity|].
    destruct (obj_get "priceTexts" l) as [p|] eqn:E; [|auto]. right.
    pose proof (Q _ _ (or_introl eq_refl) _ E) as P. apply valid_array in P. destruct P as (l0 & -> & P). exists l0. split; [reflexivity|].
    apply Forall_forall. intros o I. specialize (P _ I). apply valid_object in P.
    destruct P as (m & -> & R & Ps & _).
    destruct (obj_get "language" m) as [la|] eqn:L; [|exfalso; apply (R "language"); [vm_compute; tauto|exact L]].
    destruct (obj_get "priceText" m) as [pt|] eqn:Pt; [|exfalso; apply (R "priceText"); [vm_compute; tauto|exact Pt]].
    assert (Z : valid number (SText (Some 2) None) la = true) by (eapply Ps; [right; right; left; reflexivity|exact L]).
    cbn [valid] in Z. destruct la as [| | | |t0| |]; try discriminate Z. exists m, t0, pt. auto.
Qed.

(** ** Starting again *)

Lemma has_put c s k v n : obj_get s c <> None ->
  match obj_get n (put c s k v) with Some _ => true | None => false end = match obj_get n c with Some _ => true | None => false end.
Proof.
  intros H. destruct (string_dec n s) as [->|N].
  - rewrite section_put. destruct (obj_get s c); [reflexivity|congruence].
  - rewrite section_put_other by exact N. reflexivity.
Qed.

Lemma profiles_put c s k v : obj_get s c <> None -> (s, k) <> ("Core", "SupportedFeatureProfiles") -> profiles_of (put c s k v) = profiles_of c.
Proof.
  intros H N. unfold profiles_of. rewrite !held_lookup.
  rewrite (proj1 (proj2 (got_put c s k v))) by congruence.
  destruct (held c "Core" "SupportedFeatureProfiles") as [[]|]; try reflexivity.
  rewrite !has_put by exact H. reflexivity.
Qed.

Lemma valid_put c s k t v : config_valid custom_ok number c = true -> declared s k t -> obj_get s c <> None ->
  (config_valid custom_ok number (put c s k v) = true <-> valid number t v = true).
Proof.
  intros V D H. split.
  - intros V'. eapply valid_held; [exact V'|exact D|]. apply got_put.
  - intros Vv. pose proof D as D'. destruct D' as (closed & req & props & I & K).
    assert (Ns : s <> "Custom").
    { intros ->. apply declared_type in D. vm_compute in D. discriminate D. }
    pose proof V as V'. apply config_valid_iff in V'. destruct V' as (A & B & C & Cu). apply config_valid_iff. repeat split.
    + intros s' I'. specialize (A _ I'). pose proof (has_put c s k v s' H) as Q. destruct (obj_get s' c); [|congruence].
      destruct (obj_get s' (put c s k v)); congruence.
    + intros s' t' I' j G. destruct (string_dec s' s) as [->|N].
      * rewrite section_put in G. injection G as <-.
        assert (t' = SObject closed req props).
        { assert (O : once (map fst sections) = true) by (vm_compute; reflexivity).
          pose proof (once_assoc _ _ _ O I'). pose proof (once_assoc _ _ _ O I). congruence. }
        subst t'. destruct (obj_get s c) as [o|] eqn:G; [|congruence]. specialize (B _ _ I _ G).
        apply valid_object in B. destruct B as (l & -> & R & P & Cl).
        unfold section. rewrite G. apply valid_object. exists (obj_set k v l). split; [reflexivity|]. split; [|split].
        -- intros k' I2. destruct (string_dec k' k) as [->|Nk]; [rewrite get_set; discriminate|]. rewrite get_set_other by exact Nk. auto.
        -- intros k' t2 I2 v2 E. destruct (string_dec k' k) as [->|Nk].
           ++ rewrite get_set in E. injection E as <-.
              assert (t2 = t).
              { assert (D2 : declared s k t2) by (exists closed, req, props; auto). apply declared_type in D, D2. congruence. }
              subst. exact Vv.
           ++ rewrite get_set_other in E by exact Nk. eauto.
        -- intros Q e Ie. apply set_members in Ie. destruct Ie as [->|Ie]; [|auto]. apply existsb_exists. exists (k, t). split; [exact K|]. apply String.eqb_refl.
      * rewrite section_put_other in G by exact N. eauto.
    + intros e Ie. unfold put in Ie. assert (Q : e = (s, snd e) \/ In e c).
      { destruct (section c s); apply set_members in Ie; destruct Ie as [->|Ie]; auto. }
      destruct Q as [->|Q]; [right; eauto|auto].
    + intros j G. rewrite section_put_other in G by congruence. auto.
Qed.

Definition measured : list string := ["MeterValuesAlignedData"; "MeterValuesSampledData"; "StopTxnAlignedData"; "StopTxnSampledData"].

Lemma measurands_put ms c s k v :
  measurands_valid ms c = true ->
  (s = "Core" -> In k measured -> exists t, v = JStr t /\ measurands_supported ms t = true) ->
  measurands_valid ms (put c s k v) = true.
Proof.
  intros M N. unfold measurands_valid in *. fold measured in *. rewrite forallb_forall in M. apply forallb_forall. intros k' I.
  specialize (M _ I). rewrite held_lookup in *. pose proof (got_put c s k v) as (G1 & G2 & _).
  destruct (string_dec s "Core") as [->|Ns]; [destruct (string_dec k' k) as [->|Nk]|].
  - rewrite G1. destruct (N eq_refl I) as (t & -> & Q). exact Q.
  - rewrite G2 by congruence. exact M.
  - rewrite G2 by congruence. exact M.
Qed.

Lemma restart_put w x s k t v :
  start custom_ok number (running x) (user x) = Some x -> declared s k t -> obj_get s (running x) <> None ->
  (s, k) <> ("Core", "SupportedFeatureProfiles") -> (s, k) <> ("Internal", "SupportedMeasurands") ->
  (s = "Core" -> In k measured -> exists t, v = JStr t /\ measurands_supported (measurands x) t = true) ->
  let x' := store w x s k v in
  (start custom_ok number (running x') (user x') = Some x' <-> valid number t v = true) /\
  (valid number t v = false -> start custom_ok number (running x') (user x') = None).
Proof.
  intros S D H N1 N2 M x'. apply start_inv in S. destruct S as (V & _ & _ & Pr & Co & Mv & sm & Hm & Im).
  assert (R : running x' = put (running x) s k v) by reflexivity.
  assert (X : x' = Cp (running x') (user x') (profiles x) (measurands x)) by reflexivity.
  pose proof (valid_put _ _ _ _ v V D H) as Q. rewrite <- R in Q. split; [split|].
  - intros St. apply start_inv in St. apply Q. tauto.
  - intros Vv. rewrite X at 3. apply (start_intro _ _ _ _ sm).
    + apply Q. exact Vv.
    + rewrite R, profiles_put; assumption.
    + exact Co.
    + rewrite R, (proj1 (proj2 (got_put _ _ _ _))) by congruence. exact Hm.
    + exact Im.
    + rewrite R. apply measurands_put; assumption.
  - intros Vv. unfold start. destruct (config_valid custom_ok number (running x')) eqn:Cv; [|reflexivity].
    exfalso. assert (valid number t v = true) by (apply Q; reflexivity). congruence.
Qed.
End Valid.
