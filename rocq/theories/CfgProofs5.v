(** Lemmas for CfgProperties.v: the configuration stays in form, and reading it does not fail. *)
From Coq Require Import ZArith List Bool String Ascii Lia.
From Verif Require Import StrModel StrSpec StrProofs StrProperties JsonModel JsonProofs DtModel CfgSchemaLang CfgModel CfgSchema CfgTables CfgApi CfgSpec CfgProofs CfgProofs2 CfgProofs3 CfgProofs4.
Import ListNotations.
Local Open Scope list_scope.
Local Open Scope string_scope.
Local Open Scope Z_scope.

Lemma means_shape k t text j : means k t text j -> shape t j.
Proof.
  intros M. inversion M as [? ?|? ?|t' ? z N|t' ? z N|? ? ?|? ? ? ?|? ? ? ? ?]; subst; cbn [shape]; eauto.
  - destruct N as (lo & hi & [-> | ->]); cbn; eauto.
  - destruct N as (lo & hi & [-> | ->]); cbn; eauto.
Qed.

Definition prices_fit (j : json) : Prop :=
  exists l, j = JObj l /\
    (obj_get "priceTexts" l = None \/ exists ps, obj_get "priceTexts" l = Some (JArr ps) /\ Forall price_shape ps).

Lemma store_proper w x s k v :
  proper x -> stands_in x s -> (forall t, declared s k t -> shape t v) -> ((s, k) = ("CostAndPrice", "DefaultPriceText") -> prices_fit v) ->
  proper (store w x s k v).
Proof.
  intros (P1 & P2 & P3 & P4) St Sh Pr. pose proof (got_put (running x) s k v) as (G1 & G2 & G3).
  unfold proper, store. cbn [running profiles]. split; [|split; [|split]].
  - intros s' j H. destruct (string_dec s' s) as [->|N].
    + rewrite section_put in H. injection H as <-. eauto.
    + rewrite (G3 _ N) in H. eauto.
  - intros s' k' t j D H. destruct (string_dec s' s) as [->|N]; [destruct (string_dec k' k) as [->|Nk]|].
    + rewrite G1 in H. injection H as <-. auto.
    + rewrite G2 in H by congruence. eauto.
    + rewrite G2 in H by congruence. eauto.
  - intros s' k' D H. destruct (string_dec s' s) as [->|N]; [destruct (string_dec k' k) as [->|Nk]|].
    + rewrite G1. discriminate.
    + rewrite G2 by congruence. apply P3; auto.
    + rewrite G2 by congruence. apply P3; auto. rewrite (G3 _ N) in H. exact H.
  - intros j H. destruct (string_dec "CostAndPrice" s) as [<-|N]; [destruct (string_dec "DefaultPriceText" k) as [<-|Nk]|].
    + rewrite G1 in H. injection H as <-. apply Pr. reflexivity.
    + rewrite G2 in H by congruence. apply P4. exact H.
    + rewrite G2 in H by congruence. apply P4. exact H.
Qed.

(** ** Reading *)

Definition fine {A} (r : result A) : Prop := forall e, r = Throws e -> e = "StringConversionException".

Lemma fine_ret {A} (a : A) : fine (Ret a).
Proof. intros e H. discriminate H. Qed.
Lemma fine_long {A} : @fine A too_long.
Proof. intros e H. unfold too_long in H. congruence. Qed.

Lemma as_value_fine s : fine (as_value s).
Proof. unfold as_value. destruct (Nat.ltb _ _); [apply fine_long|apply fine_ret]. Qed.

Lemma to_texts_ok l : to_texts (map JStr l) = Ret l.
Proof. induction l as [|s l IH]; cbn; [reflexivity|]. rewrite IH. reflexivity. Qed.

Lemma connectors_fine w x : proper x -> exists n, number_of_connectors w (running x) = Ret n.
Proof.
  intros (P1 & P2 & P3 & _). unfold number_of_connectors. rewrite held_lookup.
  assert (N : held (running x) "Core" "NumberOfConnectors" <> None).
  { apply P3; [apply needed_ok; vm_compute; reflexivity|left; vm_compute; auto]. }
  destruct (held _ _ _) as [j|] eqn:E; [|congruence].
  assert (D : declared "Core" "NumberOfConnectors" (SInt (Some 0) None)) by (apply type_declared; vm_compute; reflexivity).
  specialize (P2 _ _ _ _ D E). cbn in P2. destruct P2 as (z & ->). cbn. eauto.
Qed.

Lemma text_of_fine w x k t j : proper x -> kind_fits k t = true -> shape t j -> fine (text_of w (running x) k j).
Proof.
  intros P F S. destruct (connectors_fine w x P) as (n & C).
  destruct k, t; try discriminate F; cbn [shape] in S; cbn [text_of]; try apply fine_ret;
    try (destruct S as (b & ->)); cbn [to_bool to_int to_text]; try apply fine_ret.
  - destruct S as [(z & ->)|(f & ->)]; cbn [to_int]; apply fine_ret.
  - destruct S as [(z & ->)|(f & ->)]; cbn [to_int]; apply fine_ret.
  - destruct (Nat.ltb _ _); [apply fine_long|apply fine_ret].
  - cbn in F. destruct t; try discriminate F. destruct S as (l & ->). rewrite to_texts_ok. apply fine_ret.
  - cbn in F. destruct t; try discriminate F. destruct S as (l & ->). rewrite to_texts_ok. apply fine_ret.
  - cbn in F. destruct t; try discriminate F. destruct S as (l & ->). rewrite to_texts_ok. apply fine_ret.
  - rewrite C. destruct (n =? 1); apply fine_ret.
Qed.

Record reader_facts (r : reader) (t : schema) : Prop := {
  rf_key : r_match r = r_key r;
  rf_name : r_name r = r_key r;
  rf_type : type_of (r_section r) (r_key r) = Some t;
  rf_kind : kind_fits (r_kind r) t = true;
  rf_need : r_need r = Must \/ r_need r = OrFalseSection -> placed r = true /\ needed (r_section r) (r_key r);
  rf_only : exists r', matches (r_match r) readers = [r'] /\ r_match r' = r_match r;
  rf_price : starts_ci "DefaultPriceText" (r_match r) = false;
  rf_public : starts_ci "MeterPublicKey[" (r_match r) = false }.

Lemma rfacts r : In (Plain r) readers -> exists t, reader_facts r t.
Proof.
  intros I. pose proof (reader_is_ok r I) as H. unfold reader_ok in H. ands H.
  destruct (type_of (r_section r) (r_key r)) as [t|] eqn:T; [|discriminate]. exists t.
  constructor.
  - apply String.eqb_eq. exact H.
  - apply String.eqb_eq. assumption.
  - exact T.
  - assumption.
  - intros N. match goal with X : match r_need r with _ => _ end = true |- _ => destruct N as [N|N]; rewrite N in X; ands X end;
      split; auto; apply needed_ok; assumption.
  - match goal with X : match matches _ _ with _ => _ end = true |- _ =>
      destruct (matches (r_match r) readers) as [|r' [|]]; try discriminate X; apply String.eqb_eq in X; eauto end.
  - apply negb_true_iff. assumption.
  - apply negb_true_iff. assumption.
Qed.

Lemma read_fine w x r : proper x -> In (Plain r) readers -> here x r = true -> fine (read w x r).
Proof.
  intros P I H. destruct (rfacts r I) as (t & F). unfold read. rewrite held_lookup.
  destruct (held (running x) (r_section r) (r_key r)) as [v|] eqn:L.
  - assert (S : shape t v) by (eapply (proj1 (proj2 P)); [apply type_declared, (rf_type _ _ F)|exact L]).
    pose proof (text_of_fine w x _ _ _ P (rf_kind _ _ F) S) as T.
    destruct (text_of w (running x) (r_kind r) v) as [s|e]; [|intros e' Q; apply T; congruence].
    pose proof (as_value_fine s) as A. destruct (as_value s); [apply fine_ret|intros e' Q; apply A; congruence].
  - assert (Nope : r_need r = Must \/ r_need r = OrFalseSection -> False).
    { intros N. destruct (rf_need _ _ F N) as [Pl Nd]. apply (proj1 (proj2 (proj2 P)) _ _ Nd); [|exact L].
      apply placed_stands; assumption. }
    destruct (r_need r); try apply fine_ret; try (exfalso; apply Nope; auto; fail).
Qed.

Lemma find_price_fine l : forall language, Forall price_shape l ->
  exists o, find_price language l = Ret o.
Proof.
  induction l as [|j l IH]; intros language F; [exists None; reflexivity|].
  inversion F as [|a b (m & t & p & -> & L & Q) Fl]; subst. cbn [find_price member]. rewrite L.
  destruct (String.eqb language t); [|apply IH; exact Fl].
  unfold price_object. cbn [member]. rewrite Q. destruct (obj_get "priceTextOffline" m); unfold type_error; eauto.
Qed.

Lemma price_text_fine x language : proper x -> fine (price_text x language).
Proof.
  intros (_ & _ & _ & P). unfold price_text. rewrite held_lookup.
  assert (A : forall t, fine match as_value t with Ret v => Ret (Some (Kv ("DefaultPriceText," ++ language) false v)) | Throws e => Throws e end).
  { intros t. pose proof (as_value_fine t) as V. destruct (as_value t); [apply fine_ret|intros e' Q; apply V; congruence]. }
  destruct (held (running x) "CostAndPrice" "DefaultPriceText") as [d|] eqn:E; [|apply (A "")].
  destruct (P _ eq_refl) as (l & -> & [N|(ps & N & F)]); cbn [contains member]; rewrite N; [apply (A "")|].
  destruct (find_price_fine ps language F) as ([o|] & ->); [apply (A (pretty 0 o))|apply (A "")].
Qed.

Lemma multi_fine x : proper x -> exists b, multi_language x = Ret b.
Proof.
  intros (_ & P & _). unfold multi_language. rewrite held_lookup.
  destruct (held _ _ _) as [j|] eqn:E; [|eauto].
  assert (D : declared "CostAndPrice" "CustomMultiLanguageMessages" SBool) by (apply type_declared; vm_compute; reflexivity).
  destruct (P _ _ _ _ D E) as (b & ->). cbn. eauto.
Qed.

Lemma public_key_fine x n : proper x -> fine (public_key x n).
Proof.
  intros (_ & P & _). unfold public_key. rewrite held_lookup.
  destruct (held (running x) "Internal" "MeterPublicKeys") as [j|] eqn:E; [|apply fine_ret].
  assert (D : declared "Internal" "MeterPublicKeys" (SArray (SText None None))) by (apply type_declared; vm_compute; reflexivity).
  destruct (P _ _ _ _ D E) as (l & ->).
  destruct (_ || _); [apply fine_ret|]. destruct (nth_error (map JStr l) _) as [j|] eqn:N; [|apply fine_ret].
  apply nth_error_In, in_map_iff in N. destruct N as (t & <- & _). cbn [to_text].
  pose proof (as_value_fine t) as V. destruct (as_value t); [apply fine_ret|intros e' Q; apply V; congruence].
Qed.

Lemma get_from_fine w x key items : proper x -> (forall i, In i items -> In i readers) -> fine (get_from w x items key).
Proof.
  intros P. induction items as [|[r| |] items IH]; intros I; cbn [get_from].
  - apply fine_ret.
  - fold (here x r). destruct (here x r) eqn:H; cbn [andb]; [destruct (ci_eq key (r_match r))|].
    + apply read_fine; auto. apply I. left. reflexivity.
    + apply IH. intros i Hi. apply I. right. exact Hi.
    + apply IH. intros i Hi. apply I. right. exact Hi.
  - destruct (starts_with _ _).
    + destruct (public_key_index key) as [n|]; [|apply fine_ret]. destruct (n =? 0); [apply fine_ret|apply public_key_fine; exact P].
    + apply IH. intros i Hi. apply I. right. exact Hi.
  - assert (R : fine (get_from w x items key)) by (apply IH; intros i Hi; apply I; right; exact Hi).
    destruct (supports x "CostAndPrice" && starts_with "DefaultPriceText" key); [|exact R].
    destruct (multi_fine x P) as (b & ->). destruct b; [|exact R].
    destruct (split_string key comma false) as [|a [|l r]]; try exact R. apply price_text_fine. exact P.
Qed.

Lemma get_fine w x key : proper x -> fine (get w x key).
Proof. intros P. apply get_from_fine; auto. Qed.

(** ** Prices per language *)

Lemma replace_fits language j l : price_shape j -> Forall price_shape l ->
  exists l', replace_price language j l = Ret l' /\ Forall price_shape l'.
Proof.
  intros J. induction l as [|e l IH]; intros F; cbn [replace_price].
  - eexists. split; [reflexivity|]. auto.
  - inversion F as [|a b (m & t & p & -> & L & Q) Fl]; subst. cbn [member]. rewrite L.
    destruct (String.eqb t language); [eexists; split; [reflexivity|]; auto|].
    destruct (IH Fl) as (l' & -> & F'). eexists. split; [reflexivity|]. constructor; auto. exists m, t, p. auto.
Qed.

Lemma new_price_shape language new t : obj_get "priceText" new = Some t -> price_shape (JObj (obj_set "language" (JStr language) new)).
Proof.
  intros H. exists (obj_set "language" (JStr language) new), language, t. split; [reflexivity|]. split; [apply get_set|].
  rewrite get_set_other by discriminate. exact H.
Qed.

(** The outcomes of changing a price text. *)
Lemma write_price_cases w x key text : proper x ->
  (exists s, write_price w x key text = Ret (s, x) /\ s = Rejected) \/
  (exists why, write_price w x key text = Throws why) \/
  (exists v, write_price w x key text = Ret (Accepted, store w x "CostAndPrice" "DefaultPriceText" v) /\ prices_fit v /\
     obj_get "CostAndPrice" (running x) <> None).
Proof.
  intros (P1 & P2 & P3 & P4). unfold write_price. destruct (split_string key comma false) as [|a [|language r]]; eauto.
  rewrite !held_lookup. unfold type_error. destruct (held (running x) "CostAndPrice" "SupportedLanguages") as [j|] eqn:E; [|eauto].
  assert (St : obj_get "CostAndPrice" (running x) <> None) by (unfold held in E; destruct (obj_get _ _); [discriminate|discriminate E]).
  destruct j; eauto. destruct (existsb _ _); [|eauto]. destruct (parse text) as [[]|]; eauto.
  destruct (obj_get "priceText" l) as [t|] eqn:T; [|eauto].
  pose proof (new_price_shape language l t T) as Sh.
  destruct (held (running x) "CostAndPrice" "DefaultPriceText") as [d|] eqn:D.
  - destruct (P4 _ eq_refl) as (m & -> & [N|(ps & N & F)]); rewrite N.
    + right. right. eexists. split; [reflexivity|]. split; [|exact St]. eexists. split; [reflexivity|].
      right. exists [JObj (obj_set "language" (JStr language) l)]. rewrite get_set. auto.
    + destruct (replace_fits language _ ps Sh F) as (l' & -> & F').
      right. right. eexists. split; [reflexivity|]. split; [|exact St]. eexists. split; [reflexivity|].
      right. exists l'. rewrite get_set. auto.
  - right. right. eexists. split; [reflexivity|]. split; [|exact St]. eexists. split; [reflexivity|].
    right. exists [JObj (obj_set "language" (JStr language) l)]. auto.
Qed.

Lemma write_custom_cases w x key text s x' : write_custom w x key text = (s, x') ->
  (x' = x /\ s = Rejected) \/
  (s = Accepted /\ exists v, x' = store w x "Custom" key v /\ held (running x) "Custom" key <> None).
Proof.
  unfold write_custom. destruct (custom_key w x key) as [k|] eqn:K; [|intros H; injection H as <- <-; auto].
  destruct (custom w key) as [[ro ty]|]; [|intros H; injection H as <- <-; auto].
  destruct (section (running x) "Custom") as [l|]; [|intros H; injection H as <- <-; auto].
  destruct (kv_readonly k); [intros H; injection H as <- <-; auto|].
  destruct (custom_value w ty text) as [v|]; [|intros H; injection H as <- <-; auto].
  destruct (custom_valid w _); [|intros H; injection H as <- <-; auto].
  intros H. injection H as <- <-. right. split; [reflexivity|]. exists v. split; [reflexivity|].
  unfold custom_key in K. rewrite held_lookup in K. destruct (held _ _ _); [discriminate|discriminate K].
Qed.

(** ** Following a change *)

Lemma int_there w x s k lo hi : proper x -> declared s k (SInt lo hi) -> needed s k -> stands_in x s -> exists z, int_at w x s k = Ret z.
Proof.
  intros (P1 & P2 & P3 & _) D N St. unfold int_at. rewrite held_lookup. specialize (P3 _ _ N St).
  destruct (held (running x) s k) as [j|] eqn:E; [|congruence]. destruct (P2 _ _ _ _ D E) as (z & ->). cbn. eauto.
Qed.

Lemma with_int_ok w x s k lo hi f : proper x -> declared s k (SInt lo hi) -> needed s k -> stands_in x s ->
  exists e, with_int w x s k f = (e, Ret (Accepted, true)).
Proof. intros P D N St. unfold with_int. destruct (int_there w x s k lo hi P D N St) as (z & ->). eauto. Qed.

Ltac there s k lo hi := match goal with P : proper _ |- _ =>
  apply (with_int_ok _ _ s k lo hi _ P); [apply type_declared; vm_compute; reflexivity|apply needed_ok; vm_compute; reflexivity|left; vm_compute; auto] end.

Lemma react_fine w x key text asked :
  proper x -> ci_eq key "SecurityProfile" = false ->
  (ci_eq key "AuthorizationKey" = true -> held (running x) "Security" "AuthorizationKey" <> None) ->
  (ci_eq key "NextTimeOffsetTransitionDateTime" = true ->
     forall t, held (running x) "CostAndPrice" "NextTimeOffsetTransitionDateTime" = Some (JStr t) -> from_rfc3339 t <> None) ->
  exists e o, react w x key text asked = (e, Ret (Accepted, o)).
Proof.
  intros P S A T. unfold react. rewrite S.
  assert (W : forall (r : list effect * result (status * bool)), (exists e, r = (e, Ret (Accepted, true))) -> exists e o, r = (e, Ret (Accepted, o))) by (intros r (e & ->); eauto).
  destruct (ci_eq key "HeartbeatInterval"); [apply W; there "Core" "HeartbeatInterval" (Some 0) (@None Z)|].
  destruct (ci_eq key "MeterValueSampleInterval"); [apply W; there "Core" "MeterValueSampleInterval" (Some 0) (@None Z)|].
  destruct (ci_eq key "ClockAlignedDataInterval"); [apply W; there "Core" "ClockAlignedDataInterval" (Some 0) (@None Z)|].
  destruct (ci_eq key "AuthorizationKey").
  { unfold new_key. rewrite held_lookup. specialize (A eq_refl). destruct (held (running x) "Security" "AuthorizationKey") as [j|] eqn:E; [|congruence].
    assert (D : declared "Security" "AuthorizationKey" (SText (Some 8) None)) by (apply type_declared; vm_compute; reflexivity).
    destruct (proj1 (proj2 P) _ _ _ _ D E) as (k & ->).
    destruct (int_there w x "Security" "SecurityProfile" (Some 0) (Some 3) P) as (z & ->);
      [apply type_declared; vm_compute; reflexivity|apply needed_ok; vm_compute; reflexivity|left; vm_compute; auto|].
    destruct (z =? 0); [eauto|]. destruct (_ || _); eauto. }
  destruct (ci_eq key "ConnectionTimeout"); [apply W; there "Core" "ConnectionTimeOut" (Some 0) (@None Z)|].
  destruct (ci_eq key "TransactionMessageAttempts"); [apply W; there "Core" "TransactionMessageAttempts" (Some 0) (@None Z)|].
  destruct (ci_eq key "TransactionMessageRetryInterval"); [apply W; there "Core" "TransactionMessageRetryInterval" (Some 0) (@None Z)|].
  destruct (ci_eq key "WebSocketPingInterval").
  { rewrite held_lookup. destruct (held (running x) "Core" "WebSocketPingInterval") as [j|] eqn:E; [|eauto].
    assert (D : declared "Core" "WebSocketPingInterval" (SInt (Some 0) None)) by (apply type_declared; vm_compute; reflexivity).
    destruct (proj1 (proj2 P) _ _ _ _ D E) as (z & ->). cbn [to_int].
    apply W. there "Internal" "WebsocketPongTimeout" (@None Z) (@None Z). }
  destruct (ci_eq key "ISO15118CertificateManagementEnabled"); [eauto|].
  destruct (ci_eq key "OcspRequestInterval").
  { destruct (supports x "PnC") eqn:Q; [|eauto]. rewrite held_lookup.
    assert (St : stands_in x "PnC").
    { unfold supports in Q. apply existsb_exists in Q. destruct Q as (q & I & Q). apply String.eqb_eq in Q. subst q. right. left. exact I. }
    assert (N : held (running x) "PnC" "ISO15118CertificateManagementEnabled" <> None).
    { apply (proj1 (proj2 (proj2 P))); [apply needed_ok; vm_compute; reflexivity|exact St]. }
    destruct (held (running x) "PnC" "ISO15118CertificateManagementEnabled") as [j|] eqn:E; [|congruence].
    assert (D : declared "PnC" "ISO15118CertificateManagementEnabled" SBool) by (apply type_declared; vm_compute; reflexivity).
    destruct (proj1 (proj2 P) _ _ _ _ D E) as (b & ->). destruct b; [|eauto].
    apply W. there "Internal" "OcspRequestInterval" (Some 86400) (@None Z). }
  destruct (ci_eq key "NextTimeOffsetTransitionDateTime"); [|eauto].
  rewrite held_lookup. destruct (held (running x) "CostAndPrice" "NextTimeOffsetTransitionDateTime") as [j|] eqn:E; [|eauto].
  assert (D : declared "CostAndPrice" "NextTimeOffsetTransitionDateTime" (SText (Some 1) (Some 40))) by (apply type_declared; vm_compute; reflexivity).
  destruct (proj1 (proj2 P) _ _ _ _ D E) as (t & ->). specialize (T eq_refl t eq_refl).
  destruct (from_rfc3339 t); [eauto|congruence].
Qed.
