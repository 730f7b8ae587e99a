(** C73-C76: the configuration of OCPP 1.6. *)
From Coq Require Import ZArith List Bool String Ascii Lia.
From Verif Require Import StrModel StrSpec StrProofs StrProperties JsonModel JsonProofs DtModel CfgSchemaLang CfgModel CfgSchema CfgTables CfgExample CfgApi CfgSpec CfgProofs CfgProofs2 CfgProofs3 CfgProofs4 CfgProofs5 CfgProofs6 CfgProofs7 CfgProofs8 CfgProofs9 CfgProofs10 CfgProofs11.
Import ListNotations.
Local Open Scope string_scope.
Local Open Scope list_scope.
Local Open Scope Z_scope.

(** ** A charge point for the examples: config/v16/config-full.json with its defaults *)

Definition any_custom : list (string * json) -> bool := fun _ => true.
Definition any_number : option Z -> option Z -> string -> bool := fun _ _ _ => true.
Definition a_world : world := World false false (fun _ => None) any_custom (fun _ => None) (fun _ => 0) 0 true true true [] true.
Definition a_point : cp := match start any_custom any_number example_config [] with Some x => x | None => Cp [] [] [] [] end.

Lemma a_point_starts : start any_custom any_number (running a_point) (user a_point) = Some a_point.
Proof. vm_compute. reflexivity. Qed.
Lemma a_point_complete : complete a_point.
Proof.
  assert (A : forallb (fun e => match snd e with
      | SObject _ req _ => forallb (fun k => match held (running a_point) (fst e) k with Some _ => true | None => false end) req
      | _ => true end) sections = true) by (vm_compute; reflexivity).
  assert (B : forallb (fun e => match held (running a_point) (fst e) (snd e) with Some _ => true | None => false end) defaulted = true) by (vm_compute; reflexivity).
  rewrite forallb_forall in A, B. intros s k [(c & r & p & I & K)|I] _.
  - specialize (A _ I). cbn [fst snd] in A. rewrite forallb_forall in A. specialize (A _ K). destruct (held _ _ _); congruence.
  - specialize (B _ I). cbn [fst snd] in B. destruct (held _ _ _); congruence.
Qed.
Lemma a_point_plain : no_shadow a_point.
Proof. intros k j H. assert (Q : held (running a_point) "Custom" k = None) by (unfold held; vm_compute; reflexivity). congruence. Qed.

Example a_point_is_reached : reached any_custom any_number a_point.
Proof. exact (reached_start _ _ _ _ _ a_point_starts a_point_complete a_point_plain). Qed.
Example another_point_is_reached : exists x', reached any_custom any_number x' /\ held (running x') "Core" "HeartbeatInterval" = Some (JInt 77).
Proof.
  destruct (change a_world a_point "HeartbeatInterval" "77" true) as [[x' e] r] eqn:C. exists x'. split.
  - exact (reached_change _ _ _ _ _ _ _ _ _ _ a_point_is_reached C).
  - assert (Q : x' = fst (fst (change a_world a_point "HeartbeatInterval" "77" true))) by (rewrite C; reflexivity). rewrite Q. vm_compute. reflexivity.
Qed.

(** ** C73 *)

(** An accepted value is stored under its key, in the form its schema asks for, and nothing else is changed. *)
Theorem C73_accepted_values_are_stored : forall w x key text x' e s,
  ordinary x key -> on_change w x key text = (x', e) -> In (Respond s) e -> s = Accepted \/ s = RebootRequired ->
  exists sec k t j, declared sec k t /\ same_text key k /\ (writable sec k \/ k = "CentralSystemURI") /\ means k t text j /\ changed w x x' sec k j.
Proof.
  intros w x key text x' e s O C A S. destruct (answered_change _ _ _ _ _ _ _ C A) as (e0 & o & Ch).
  destruct (change_accepted _ _ _ _ _ _ _ _ _ O Ch S) as (wr & t & j & I & F & E & M & _ & _ & ->).
  exists (w_section wr), (w_key wr), t, j. split; [apply declared_type; exact (wf_type _ _ F)|].
  split; [rewrite <- (wf_key _ _ F); apply ci_same; exact E|]. split; [|split; [exact M|apply changed_store]].
  destruct (wf_catalogue _ _ F) as (b & Ic & [-> |Q]); [left; exact Ic|right; exact Q].
Qed.

(** Everything else leaves the configuration as it is: refusals, unknown keys and exceptions. *)
Theorem C73_other_answers_change_nothing : forall custom_ok number w x key text x' e,
  reached custom_ok number x -> on_change w x key text = (x', e) ->
  ~ In (Respond Accepted) e -> ~ In (Respond RebootRequired) e -> x' = x.
Proof.
  intros co nu w x key text x' e Re C N1 N2. destruct (reached_good _ _ _ Re) as (P & N & _).
  destruct (on_change_answers _ _ _ _ _ _ C) as (e0 & r & Ch & A).
  destruct (change_all _ _ _ _ _ _ _ _ P N Ch) as (_ & _ & [H|(o & [-> | ->])]); [exact H| |]; exfalso; cbn in A.
  - apply N1. assert (Q : In (Respond Accepted) (answers_in e)) by (rewrite A; left; reflexivity). apply filter_In in Q. tauto.
  - apply N2. assert (Q : In (Respond RebootRequired) (answers_in e)) by (rewrite A; left; reflexivity). apply filter_In in Q. tauto.
Qed.

(** Every state after starting and any changes has all its keys in the form their schemas ask for. *)
Theorem C73_reached_states_are_proper : forall custom_ok number x, reached custom_ok number x -> proper x /\ no_shadow x /\ known_only x.
Proof. exact reached_good. Qed.

(** Which texts a key takes that is reported as writable. *)
Theorem C73_values_are_accepted_exactly : forall custom_ok number w x key text sec k t v,
  reached custom_ok number x -> writable sec k -> declared sec k t -> same_text key k ->
  ~ In k unsettable -> k <> "SecurityProfile" -> k <> "DefaultPriceText" -> k <> "AuthorizationKey" ->
  (forall n, held (running x) "Core" "NumberOfConnectors" = Some (JInt n) -> 0 <= n <= int_max) ->
  get_configuration w x (Some [key]) = Ret ([v], []) -> kv_readonly v = false ->
  (answered_with w x key text Accepted <-> acceptable w x k t text).
Proof.
  intros co nu w x key text sec k t v Re W D E N1 N2 N3 N4 Nc G RO. destruct (reached_good _ _ _ Re) as (P & N & Kn).
  assert (Na : ~ In k apart) by (unfold apart; rewrite in_app_iff; intros [H|[H|[H|[]]]]; [contradiction|congruence|congruence]).
  destruct (writer_of _ _ W Na) as (wr & I & <- & <-). destruct (facts wr I) as (t' & F).
  assert (t' = t) by (apply declared_type in D; rewrite (wf_type _ _ F) in D; congruence). subst t'.
  assert (Nr : w_rule wr <> RAuthorizationKey) by (intros Q; apply (wf_secret _ _ F) in Q; tauto).
  destruct (readings _ _ I F Nr) as (r & R).
  assert (E' : ci_eq key (w_match wr) = true) by (rewrite (wf_key _ _ F); apply ci_same; exact E).
  assert (G' : get w x key = Ret (Some v)).
  { cbn [get_configuration get_each] in G. destruct (get w x key) as [[v'|]|]; [injection G as ->; reflexivity|discriminate G|discriminate G]. }
  unfold answered_with. rewrite (change_decided _ _ _ _ _ _ _ text P N I F R E' G' RO Accepted (or_introl eq_refl)).
  exact (accepted_rule _ _ _ _ _ _ _ text P Kn N I F R W E' Nc G' RO).
Qed.

(** The key for the authorization cannot be read, but set. *)
Theorem C73_authorization_keys_are_accepted_exactly : forall custom_ok number w x text,
  reached custom_ok number x -> (answered_with w x "AuthorizationKey" text Accepted <-> 8 <= Z.of_nat (String.length text)).
Proof.
  intros co nu w x text Re. destruct (reached_good _ _ _ Re) as (P & N & _).
  assert (Fw : exists wr, first_w "AuthorizationKey" writers = Some wr /\ w_rule wr = RAuthorizationKey /\ w_guard wr = Always /\ w_present wr = false /\ w_section wr = "Security" /\ w_key wr = "AuthorizationKey" /\ w_match wr = "AuthorizationKey")
    by (eexists; split; [vm_compute; reflexivity|repeat split]).
  destruct Fw as (wr & Fi & Ru & Gu & Pr & Se & Ke & Ma).
  assert (I : In (Wanted wr) writers) by exact (proj1 (first_w_in _ _ _ Fi)).
  destruct (facts wr I) as (t & F).
  assert (E : ci_eq "AuthorizationKey" (w_match wr) = true) by (rewrite Ma; reflexivity).
  pose proof (set_written w x "AuthorizationKey" text _ _ F E) as S. unfold write, check_guard in S. rewrite Gu, Ru, Pr, Se, Ke in S. cbn [apply_rule] in S.
  assert (G : exists v, get w x "AuthorizationKey" = Ret v).
  { pose proof (get_fine w x "AuthorizationKey" P) as Q. destruct (get w x "AuthorizationKey") as [v|e] eqn:Ge; [eauto|]. exfalso.
    unfold get in Ge. rewrite get_from_matches in Ge by (vm_compute; reflexivity).
    assert (M : matches "AuthorizationKey" readers = []) by (vm_compute; reflexivity). rewrite M in Ge. cbn [filter] in Ge.
    unfold else_custom in Ge. destruct (supports x "Custom"); discriminate Ge. }
  destruct G as (v & G).
  assert (Nk : ci_ne "AuthorizationKey" "AuthorizationKey" = false) by reflexivity.
  assert (K : match v with Some _ => true | None => ci_eq "AuthorizationKey" "AuthorizationKey" end = true) by (destruct v; reflexivity).
  destruct (Nat.leb 8 (String.length text)) eqn:L; cbn [andb as_set] in S.
  - apply Nat.leb_le in L. split; [lia|]. intros _.
    destruct (change w x "AuthorizationKey" text true) as [[x' e] res] eqn:C. pose proof (change_all _ _ _ _ _ _ _ _ P N C) as (P' & _ & _).
    pose proof C as C0. unfold change in C. rewrite G, K, Nk, S in C.
    set (x1 := store w x "Security" "AuthorizationKey" (JStr (authorization_key_of text))) in *.
    destruct (react w x1 "AuthorizationKey" text true) as [e0 re] eqn:Rx.
    assert (X : x' = x1) by (destruct re as [[s' op]|]; inversion C; reflexivity). subst x'.
    destruct (react_fine w x1 "AuthorizationKey" text true P') as (e1 & o & Q).
    + reflexivity.
    + intros _. pose proof (got_put (running x) "Security" "AuthorizationKey" (JStr (authorization_key_of text))) as (G1 & _). unfold x1. cbn [store running]. rewrite G1. discriminate.
    + intros Z. vm_compute in Z. discriminate Z.
    + rewrite Rx in Q. injection Q as -> ->. inversion C; subst e res. destruct (change_answered _ _ _ _ _ _ _ _ C0) as (e2 & O & A). exists x1, e2. auto.
  - apply Nat.leb_gt in L. split; [|lia]. intros (x' & e & O & A). exfalso. destruct (answered_change _ _ _ _ _ _ _ O A) as (e0 & o & C).
    unfold change in C. rewrite G, K, Nk, S in C. discriminate C.
Qed.

(** GetConfiguration shows what was accepted, unless it is longer than 500 characters. *)
Theorem C73_accepted_values_are_read_back : forall custom_ok number w w' x key text x' e s,
  reached custom_ok number x -> ordinary x key -> on_change w x key text = (x', e) -> In (Respond s) e -> s = Accepted \/ s = RebootRequired ->
  ~ same_text key "AuthorizationKey" -> ~ same_text key "IgnoredProfilePurposesOffline" -> ~ same_text key "DefaultPrice" ->
  exists sec k t j shown, declared sec k t /\ same_text key k /\ means k t text j /\ shows j shown /\
    ((String.length shown <= 500)%nat -> exists v, get_configuration w' x' (Some [key]) = Ret ([v], []) /\ kv_key v = k /\ kv_value v = Some shown) /\
    ((500 < String.length shown)%nat -> get_configuration w' x' (Some [key]) = Throws "StringConversionException").
Proof.
  intros co nu w w' x key text x' e s Re O C A S N1 N2 N3. destruct (reached_good _ _ _ Re) as (P & N & _).
  destruct (answered_change _ _ _ _ _ _ _ C A) as (e0 & o & Ch).
  destruct (change_accepted _ _ _ _ _ _ _ _ _ O Ch S) as (wr & t & j & I & F & E & M & Ap & _ & ->).
  assert (Sa : same_text key (w_key wr)) by (rewrite <- (wf_key _ _ F); apply ci_same; exact E).
  assert (R1 : w_rule wr <> RAuthorizationKey) by (intros Q; apply (wf_secret _ _ F) in Q; destruct Q as (Q & _); rewrite Q in Sa; contradiction).
  assert (R2 : w_rule wr <> RPurposes) by (intros Q; rewrite (proj1 (special_rule _ I) Q) in Sa; contradiction).
  assert (R3 : w_rule wr <> RJson) by (intros Q; rewrite (proj2 (special_rule _ I) Q) in Sa; contradiction).
  destruct (readings _ _ I F R1) as (r & R). pose proof (accepted_here _ _ _ _ _ _ _ _ _ _ _ _ N Ch S F R E) as H.
  destruct (text_shown w (running (store w x (w_section wr) (w_key wr) j)) _ _ _ _ _ _ _ (wf_rule _ _ F) Ap R1 R2 R3 w') as (shown & Sh & Tx).
  exists (w_section wr), (w_key wr), t, j, shown. split; [apply declared_type; exact (wf_type _ _ F)|]. split; [exact Sa|]. split; [exact M|]. split; [exact Sh|].
  cbn [get_configuration get_each].
  rewrite (get_stored w w' x wr t r key j N (not_custom _ _ F) F R E H), Tx. unfold as_value, too_long. split; intros L.
  - replace (Nat.ltb 500 (String.length shown)) with false by (symmetry; apply Nat.ltb_ge; exact L). eexists. split; [reflexivity|]. auto.
  - replace (Nat.ltb 500 (String.length shown)) with true by (symmetry; apply Nat.ltb_lt; exact L). reflexivity.
Qed.

(** ** C74 *)

(** Whether the charge point starts again after an accepted change depends on the value alone: it must be what the schema
    allows. Switches, numbers and texts without bounds always are. *)
Theorem C74_accepted_values_survive_restart_partial : forall custom_ok number w x key text x' e s,
  start custom_ok number (running x) (user x) = Some x ->
  (forall p, In p (profiles x) -> In p (map fst sections) -> obj_get p (running x) <> None) ->
  ordinary x key -> on_change w x key text = (x', e) -> In (Respond s) e -> s = Accepted \/ s = RebootRequired ->
  exists sec k t j, declared sec k t /\ same_text key k /\ means k t text j /\ changed w x x' sec k j /\
    (valid number t j = true -> start custom_ok number (running x') (user x') = Some x') /\
    (valid number t j = false -> start custom_ok number (running x') (user x') = None) /\
    (t = SBool \/ is_number t \/ t = SText None None -> start custom_ok number (running x') (user x') = Some x').
Proof.
  intros co nu w x key text x' e s St Pr O C A S. destruct (answered_change _ _ _ _ _ _ _ C A) as (e0 & o & Ch).
  destruct (change_accepted _ _ _ _ _ _ _ _ _ O Ch S) as (wr & t & j & I & F & E & M & Ap & Sd & ->).
  assert (Sec : obj_get (w_section wr) (running x) <> None).
  { destruct Sd as [Q|[Q|Q]]; [|exact (Pr _ Q (written_section _ _ F))|exact Q].
    destruct (start_inv _ _ _ _ _ St) as (V & _). apply config_valid_iff in V. apply V. exact Q. }
  destruct (restart_written _ _ w _ _ _ _ _ _ St I F Ap Sec) as (B1 & B2).
  exists (w_section wr), (w_key wr), t, j. split; [apply declared_type; exact (wf_type _ _ F)|].
  split; [rewrite <- (wf_key _ _ F); apply ci_same; exact E|]. split; [exact M|]. split; [apply changed_store|]. split; [apply B1|]. split; [exact B2|].
  intros T. apply B1. exact (sturdy_valid _ _ _ _ _ M T).
Qed.

(** Values that are accepted and keep the charge point from starting again. *)
Definition bricking : list (string * string) :=
  [("AuthorizationKey", "41424344"); ("TimeOffset", "+00000005:00"); ("TimeOffsetNextTransition", "+0000000000000000000000000000000000000000005:00");
   ("ConnectorEvseIds", ""); ("DefaultPrice", "5"); ("DefaultPriceText,de", "{""priceText"": 5}"); ("SeccLeafSubjectCountry", "ä");
   ("SeccLeafSubjectCommonName", "äääää"); ("CentralSystemURI", "")].

Theorem C74_every_accepted_value_survives_restart_refuted : exists custom_ok number w x,
  reached custom_ok number x /\ start custom_ok number (running x) (user x) = Some x /\
  Forall (fun p => let '(x', e) := on_change w x (fst p) (snd p) in
    (In (Respond Accepted) e \/ In (Respond RebootRequired) e) /\ start custom_ok number (running x') (user x') = None) bricking.
Proof.
  exists any_custom, any_number, a_world, a_point. split; [exact a_point_is_reached|]. split; [exact a_point_starts|].
  assert (B : forallb (fun p => let '(x', e) := on_change a_world a_point (fst p) (snd p) in
    existsb (fun r => match r with Respond Accepted | Respond RebootRequired => true | _ => false end) e &&
    match start any_custom any_number (running x') (user x') with None => true | Some _ => false end) bricking = true) by (vm_compute; reflexivity).
  rewrite forallb_forall in B. apply Forall_forall. intros p I. specialize (B p I). destruct (on_change a_world a_point (fst p) (snd p)) as [x' e].
  apply andb_true_iff in B. destruct B as [B1 B2]. split.
  - apply existsb_exists in B1. destruct B1 as (r & Ir & Q). destruct r as [[]| | | | | | | | | | | | | | | | | |]; try discriminate Q; auto.
  - destruct (start any_custom any_number (running x') (user x')); [discriminate B2|reflexivity].
Qed.

(** ** C75 *)

Theorem C75_every_change_is_answered_once : forall w x key text x' e, on_change w x key text = (x', e) ->
  exists before r after, e = before ++ r :: after /\ answer r /\ Forall (fun f => ~ answer f) (before ++ after).
Proof.
  intros w x key text x' e C. destruct (on_change_answers _ _ _ _ _ _ C) as (e0 & r & _ & A).
  assert (Q : forall f, is_answer f = true <-> answer f).
  { intros f. unfold answer. destruct f; cbn; split; try discriminate; try (intros [(z & Z)|(z & Z)]; discriminate Z); eauto. }
  remember (match r with Ret (s, _) => Respond s | Throws why => RespondError (error_code why) end) as a eqn:Ha. clear C Ha.
  assert (None_ : forall l, answers_in l = [] -> Forall (fun f => ~ answer f) l).
  { intros l. induction l as [|f l IH]; intros H; [constructor|]. cbn [answers_in filter] in H. destruct (is_answer f) eqn:D; [discriminate H|].
    constructor; [intros Z; apply Q in Z; congruence|apply IH; exact H]. }
  induction e as [|f e IH]; [discriminate A|]. cbn [answers_in filter] in A. destruct (is_answer f) eqn:D.
  - injection A as -> A. exists [], a, e. split; [reflexivity|]. split; [apply Q; exact D|]. exact (None_ _ A).
  - destruct (IH A) as (b & r' & c & -> & R & Fo). exists (f :: b), r', c. split; [reflexivity|]. split; [exact R|].
    constructor; [intros Z; apply Q in Z; congruence|exact Fo].
Qed.

Theorem C75_requested_keys_are_answered_once : forall w x keys known unknown,
  keys <> [] -> Forall (fun k => ~ is_beginning "DefaultPriceText" k /\ ~ is_beginning "MeterPublicKey[" k) keys ->
  get_configuration w x (Some keys) = Ret (known, unknown) -> answered keys known unknown.
Proof.
  intros w x keys known unknown Ne F G.
  assert (G' : get_each w x keys = Ret (known, unknown)) by (destruct keys; [congruence|exact G]). clear Ne G. revert known unknown G'.
  induction keys as [|k keys IH]; intros known unknown G; cbn [get_each] in G; [injection G as <- <-; constructor|].
  inversion F as [|? ? (F1 & F2) F3]; subst. destruct (get w x k) as [[v|]|] eqn:Gk; [| |discriminate G];
    (destruct (get_each w x keys) as [[a b]|]; [|discriminate G]); injection G as <- <-; constructor; auto.
  exact (get_name _ _ _ _ F1 F2 Gk).
Qed.

(** Reading fails only for texts that do not fit into the response. *)
Theorem C75_only_long_texts_cannot_be_read : forall custom_ok number w x keys why,
  reached custom_ok number x -> get_configuration w x keys = Throws why -> why = "StringConversionException".
Proof. intros co nu w x keys why Re. destruct (reached_good _ _ _ Re) as (P & _). exact (get_configuration_fine w x keys P why). Qed.

Theorem C75_read_only_keys_are_refused : forall w x key text v,
  get_configuration w x (Some [key]) = Ret ([v], []) -> kv_readonly v = true -> key <> "AuthorizationKey" ->
  on_change w x key text = (x, [Respond Rejected]).
Proof.
  intros w x key text v G RO N. cbn [get_configuration get_each] in G. unfold on_change, change.
  destruct (get w x key) as [[v'|]|]; [injection G as ->|discriminate G|discriminate G].
  destruct (ci_ne key "AuthorizationKey") eqn:Q; [rewrite RO; reflexivity|apply ne_false in Q; contradiction].
Qed.

Theorem C75_unknown_keys_are_not_supported : forall w x key text,
  get_configuration w x (Some [key]) = Ret ([], [key]) -> ~ same_text key "AuthorizationKey" ->
  on_change w x key text = (x, [Respond NotSupported]).
Proof.
  intros w x key text G N. cbn [get_configuration get_each] in G. unfold on_change, change.
  destruct (get w x key) as [[v'|]|]; [discriminate G| |discriminate G].
  destruct (ci_eq key "AuthorizationKey") eqn:Q; [apply ci_same in Q; contradiction|reflexivity].
Qed.

(** Keys that are reported as writable and refuse even the value they have. *)
Theorem C75_writable_keys_can_be_changed_refuted : exists custom_ok number w x,
  reached custom_ok number x /\
  Forall (fun k => exists v t, get_configuration w x (Some [k]) = Ret ([v], []) /\ kv_readonly v = false /\ kv_value v = Some t /\
    on_change w x k t = (x, [Respond Rejected])) unsettable.
Proof.
  exists any_custom, any_number, a_world, a_point. split; [exact a_point_is_reached|].
  repeat constructor; do 2 eexists; (split; [vm_compute; reflexivity|]); (split; [reflexivity|]); (split; [reflexivity|]); vm_compute; reflexivity.
Qed.

(** The key for the authorization in another case ends in an exception. *)
Theorem C75_keys_are_case_insensitive_refuted : exists custom_ok number w x,
  reached custom_ok number x /\ same_text "authorizationkey" "AuthorizationKey" /\
  answered_with w x "AuthorizationKey" "0123456789abcdef" Accepted /\
  on_change w x "authorizationkey" "0123456789abcdef" = (x, [RespondError "GenericError"]).
Proof.
  exists any_custom, any_number, a_world, a_point. split; [exact a_point_is_reached|]. split; [apply ci_same; reflexivity|]. split.
  - apply (C73_authorization_keys_are_accepted_exactly any_custom any_number); [exact a_point_is_reached|]. vm_compute. discriminate.
  - vm_compute. reflexivity.
Qed.

(** ** C76 *)

(** The security profile is switched by no other key, only to a higher one, and only if what it needs is there. *)
Theorem C76_security_profile_is_only_raised : forall custom_ok number w x key text x' e p cur,
  reached custom_ok number x -> held (running x) "Security" "SecurityProfile" = Some (JInt cur) -> 0 <= cur <= 3 ->
  on_change w x key text = (x', e) -> In (SwitchProfile p) e ->
  same_text key "SecurityProfile" /\ x' = x /\ In (Respond Accepted) e /\ allowed w x cur text p.
Proof.
  intros co nu w x key text x' e p cur Re H B O I. destruct (reached_good _ _ _ Re) as (_ & N & _).
  destruct (change w x key text true) as [[x0 e0] r] eqn:C.
  assert (I0 : In (SwitchProfile p) e0).
  { unfold on_change in O. rewrite C in O. destruct r as [[s [|]]|why]; injection O as <- <-; try exact I;
      (apply in_app_iff in I; destruct I as [I|[I|[]]]; [exact I|discriminate I]). }
  pose proof (change_switch _ _ _ _ _ _ _ _ _ C I0) as E. split; [apply ci_same; exact E|].
  pose proof (change_profile w x key text true cur N E (reached_security _ _ _ Re) H B) as Q. unfold on_change in O. rewrite Q in O. rewrite Q in C.
  destruct (profile_cases w x text true cur H B) as [(q & A & D)|(_ & [D|(why & D)])]; rewrite D in C, O.
  - injection C as <- <- <-. injection O as <- <-. split; [reflexivity|]. split; [left; reflexivity|].
    destruct I0 as [I0|[I0|[I0|I0]]]; try discriminate I0; [injection I0 as <-; exact A|].
    exfalso. exact (notify_switch w Accepted key text p I0).
  - exfalso. inversion C; subst. cbn in I0. contradiction.
  - exfalso. inversion C; subst. cbn in I0. contradiction.
Qed.

(** And then it is. *)
Theorem C76_security_profile_is_raised_exactly : forall custom_ok number w x key text x' e cur,
  reached custom_ok number x -> held (running x) "Security" "SecurityProfile" = Some (JInt cur) -> 0 <= cur <= 3 ->
  same_text key "SecurityProfile" -> on_change w x key text = (x', e) ->
  x' = x /\ forall p, allowed w x cur text p <-> In (SwitchProfile p) e.
Proof.
  intros co nu w x key text x' e cur Re H B S O. destruct (reached_good _ _ _ Re) as (_ & N & _).
  assert (E : ci_eq key "SecurityProfile" = true) by (apply ci_same; exact S).
  pose proof (change_profile w x key text true cur N E (reached_security _ _ _ Re) H B) as Q. pose proof O as O'. unfold on_change in O. rewrite Q in O.
  assert (X : x' = x /\ ((forall p, ~ allowed w x cur text p) \/ exists q, allowed w x cur text q /\ In (SwitchProfile q) e)).
  { destruct (profile_cases w x text true cur H B) as [(q & A & D)|(A & [D|(why & D)])]; rewrite D in O; inversion O; subst; (split; [reflexivity|]).
    - right. exists q. split; [exact A|]. right. left. reflexivity.
    - left. exact A.
    - left. exact A. }
  destruct X as (X & Y). split; [exact X|]. intros p. split.
  - intros A. destruct Y as [Y|(q & Aq & Iq)]; [exfalso; exact (Y _ A)|].
    assert (p = q); [|subst; exact Iq]. destruct A as (A & Ra & _), Aq as (Aq & Rq & _).
    apply stoi_ws_iff in A; [|unfold int_min, int_max; lia]. apply stoi_ws_iff in Aq; [|unfold int_min, int_max; lia]. congruence.
  - intros I. exact (proj2 (proj2 (proj2 (C76_security_profile_is_only_raised _ _ _ _ _ _ _ _ _ _ Re H B O' I)))).
Qed.

(** A number too large for an int is an exception and not a refusal, and what follows the number is ignored. *)
Theorem C76_bad_profiles_are_refused_refuted : exists custom_ok number w x,
  reached custom_ok number x /\ on_change w x "SecurityProfile" "99999999999" = (x, [RespondError "GenericError"]) /\
  exists e, on_change w x "SecurityProfile" "3abc" = (x, e) /\ In (Respond Accepted) e.
Proof.
  exists any_custom, any_number, a_world, a_point. split; [exact a_point_is_reached|]. split; [vm_compute; reflexivity|].
  eexists. split; [vm_compute; reflexivity|]. left. reflexivity.
Qed.

(** ** Concrete cases *)

Example ordinary_key : ordinary a_point "heartbeatinterval".
Proof.
  split; [|split]; [|reflexivity|].
  - intros H. apply starts_with_ok in H. vm_compute in H. discriminate H.
  - intros H. apply ci_same in H. vm_compute in H. discriminate H.
Qed.
Example number_accepted : exists x' e, on_change a_world a_point "heartbeatinterval" "077" = (x', e) /\ In (Respond Accepted) e /\
  held (running x') "Core" "HeartbeatInterval" = Some (JInt 77) /\ held (user x') "Core" "HeartbeatInterval" = Some (JInt 77) /\
  get_configuration a_world x' (Some ["HEARTBEATINTERVAL"]) = Ret ([Kv "HeartbeatInterval" false (Some "77")], []) /\
  start any_custom any_number (running x') (user x') = Some x'.
Proof. do 2 eexists. split; [vm_compute; reflexivity|]. split; [vm_compute; tauto|]. repeat split; vm_compute; reflexivity. Qed.
Example number_refused : on_change a_world a_point "HeartbeatInterval" "-1" = (a_point, [Respond Rejected]).
Proof. vm_compute. reflexivity. Qed.
Example writable_key : writable "Core" "HeartbeatInterval" /\ declared "Core" "HeartbeatInterval" (SInt (Some 0) None) /\
  ~ In "HeartbeatInterval" unsettable /\
  exists v, get_configuration a_world a_point (Some ["HeartbeatInterval"]) = Ret ([v], []) /\ kv_readonly v = false.
Proof.
  split; [apply in_catalogue; vm_compute; reflexivity|]. split; [apply declared_type; vm_compute; reflexivity|].
  split; [intros H; apply inb_ok in H; vm_compute in H; discriminate H|]. eexists. split; [vm_compute; reflexivity|reflexivity].
Qed.
Example connectors_of_a_point : forall n, held (running a_point) "Core" "NumberOfConnectors" = Some (JInt n) -> 0 <= n <= int_max.
Proof. intros n H. vm_compute in H. injection H as <-. unfold int_max. lia. Qed.
Example sections_of_a_point : forall p, In p (profiles a_point) -> In p (map fst sections) -> obj_get p (running a_point) <> None.
Proof.
  assert (B : forallb (fun p => negb (inb p (map fst sections)) || match obj_get p (running a_point) with Some _ => true | None => false end) (profiles a_point) = true) by (vm_compute; reflexivity).
  rewrite forallb_forall in B. intros p I S. specialize (B p I). apply inb_ok in S. rewrite S in B. cbn [negb orb] in B. destruct (obj_get p (running a_point)); congruence.
Qed.
Example mixed_request : get_configuration a_world a_point (Some ["heartbeatInterval"; "NoSuchKey"; "NumberOfConnectors"]) =
  Ret ([Kv "HeartbeatInterval" false (Some "900"); Kv "NumberOfConnectors" true (Some "2")], ["NoSuchKey"]).
Proof. vm_compute. reflexivity. Qed.
Example read_only_key : exists v, get_configuration a_world a_point (Some ["NumberOfConnectors"]) = Ret ([v], []) /\ kv_readonly v = true.
Proof. eexists. split; [vm_compute; reflexivity|reflexivity]. Qed.
Example unknown_key : get_configuration a_world a_point (Some ["NoSuchKey"]) = Ret ([], ["NoSuchKey"]) /\ ~ same_text "NoSuchKey" "AuthorizationKey".
Proof. split; [vm_compute; reflexivity|]. intros H. apply ci_same in H. vm_compute in H. discriminate H. Qed.
Example long_value : exists x' e text, on_change a_world a_point "CpoName" text = (x', e) /\ In (Respond Accepted) e /\
  get_configuration a_world x' None = Throws "StringConversionException".
Proof.
  exists (fst (on_change a_world a_point "CpoName" (String.concat "" (repeat "0123456789" 51)))), (snd (on_change a_world a_point "CpoName" (String.concat "" (repeat "0123456789" 51)))), (String.concat "" (repeat "0123456789" 51)).
  split; [vm_compute; reflexivity|]. split; [vm_compute; tauto|vm_compute; reflexivity].
Qed.
Example raised : exists e cur, held (running a_point) "Security" "SecurityProfile" = Some (JInt cur) /\ 0 <= cur <= 3 /\
  on_change a_world a_point "SecurityProfile" "3" = (a_point, e) /\ In (SwitchProfile 3) e.
Proof. do 2 eexists. split; [vm_compute; reflexivity|]. split; [lia|]. split; [vm_compute; reflexivity|vm_compute; tauto]. Qed.
Example lowered : on_change a_world a_point "SecurityProfile" "0" = (a_point, [Respond Rejected]).
Proof. vm_compute. reflexivity. Qed.

Print Assumptions C73_accepted_values_are_stored.
Print Assumptions C73_other_answers_change_nothing.
Print Assumptions C73_reached_states_are_proper.
Print Assumptions C73_values_are_accepted_exactly.
Print Assumptions C73_authorization_keys_are_accepted_exactly.
Print Assumptions C73_accepted_values_are_read_back.
Print Assumptions C74_accepted_values_survive_restart_partial.
Print Assumptions C74_every_accepted_value_survives_restart_refuted.
Print Assumptions C75_every_change_is_answered_once.
Print Assumptions C75_requested_keys_are_answered_once.
Print Assumptions C75_only_long_texts_cannot_be_read.
Print Assumptions C75_read_only_keys_are_refused.
Print Assumptions C75_unknown_keys_are_not_supported.
Print Assumptions C75_writable_keys_can_be_changed_refuted.
Print Assumptions C75_keys_are_case_insensitive_refuted.
Print Assumptions C76_security_profile_is_only_raised.
Print Assumptions C76_security_profile_is_raised_exactly.
Print Assumptions C76_bad_profiles_are_refused_refuted.
