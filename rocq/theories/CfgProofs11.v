(** Lemmas for CfgProperties.v: the security profile. *)
From Coq Require Import ZArith List Bool String Ascii Lia.
From Verif Require Import StrModel StrSpec StrProofs StrProperties JsonModel JsonProofs DtModel CfgSchemaLang CfgModel CfgSchema CfgTables CfgApi CfgSpec CfgProofs CfgProofs2 CfgProofs3 CfgProofs4 CfgProofs5 CfgProofs6 CfgProofs7 CfgProofs8 CfgProofs9 CfgProofs10.
Import ListNotations.
Local Open Scope string_scope.
Local Open Scope list_scope.
Local Open Scope Z_scope.

Lemma set_nothing_from w x key text items :
  (forall wr, In (Wanted wr) items -> ci_eq key (w_match wr) = false) -> starts_with "DefaultPriceText" key = false ->
  lookup (running x) "Custom" key = None -> (exists n, In (WNothing n) items /\ ci_eq key n = true) ->
  set_from w x items key text = Ret (Some Accepted, x).
Proof.
  intros A B C. induction items as [|i items IH]; intros (n & I & E); [destruct I|]. cbn [set_from].
  assert (A' : forall wr, In (Wanted wr) items -> ci_eq key (w_match wr) = false) by (intros wr H; apply A; right; exact H).
  destruct i as [wr| | |m].
  - rewrite A by (left; reflexivity). apply IH; [exact A'|]. destruct I as [I|I]; [discriminate I|]. eauto.
  - rewrite B. apply IH; [exact A'|]. destruct I as [I|I]; [discriminate I|]. eauto.
  - rewrite C. apply IH; [exact A'|]. destruct I as [I|I]; [discriminate I|]. eauto.
  - destruct (ci_eq key m) eqn:Q; [reflexivity|]. apply IH; [exact A'|]. destruct I as [I|I]; [injection I as ->; congruence|]. eauto.
Qed.

Lemma nothing_there : existsb (fun i => match i with WNothing n => String.eqb n "SecurityProfile" | _ => false end) writers = true.
Proof. vm_compute. reflexivity. Qed.

Lemma set_profile w x key text : no_shadow x -> ci_eq key "SecurityProfile" = true -> set w x key text = Ret (Some Accepted, x).
Proof.
  intros N E. apply set_nothing_from.
  - intros wr I. destruct (facts wr I) as (t & F). rewrite (ci_replace _ _ _ E), ci_sym. exact (wf_profile _ _ F).
  - apply (starts_ci_other _ _ _ E); vm_compute; reflexivity.
  - rewrite held_lookup. destruct (held (running x) "Custom" key) as [j|] eqn:H; [|reflexivity]. exfalso.
    apply (N _ _ H "Security" "SecurityProfile" true); [apply in_catalogue; vm_compute; reflexivity|]. apply ci_same. exact E.
  - pose proof nothing_there as Q. apply existsb_exists in Q. destruct Q as ([| | |n] & I & Q); try discriminate Q. apply String.eqb_eq in Q. subst n. eauto.
Qed.

Lemma react_profile w x key text asked : ci_eq key "SecurityProfile" = true -> react w x key text asked = new_profile w x text asked.
Proof. intros E. unfold react. rewrite !(ci_replace _ _ _ E). reflexivity. Qed.

Lemma get_profile w x key cur : no_shadow x -> ci_eq key "SecurityProfile" = true -> In "Security" (profiles x) ->
  held (running x) "Security" "SecurityProfile" = Some (JInt cur) -> 0 <= cur <= 3 ->
  exists v, get w x key = Ret (Some (Kv "SecurityProfile" false v)).
Proof.
  intros N E Pr H B. unfold get. rewrite get_from_matches.
  2: apply (starts_ci_other _ _ _ E); vm_compute; reflexivity. 2: apply (starts_ci_other _ _ _ E); vm_compute; reflexivity.
  rewrite (matches_same _ _ _ E).
  assert (M : matches "SecurityProfile" readers = [Reader "SecurityProfile" (Some "Security") "Security" "SecurityProfile" "SecurityProfile" Must KInt ReadWrite]) by (vm_compute; reflexivity).
  rewrite M. cbn [filter here r_profile].
  assert (S : supports x "Security" = true) by (unfold supports; apply existsb_exists; exists "Security"; auto).
  rewrite S. unfold read. cbn [r_section r_key r_kind r_name r_access readonly]. rewrite held_lookup, H. cbn [text_of to_int].
  rewrite wrap_small by (unfold int_max; lia).
  assert (C : cur = 0 \/ cur = 1 \/ cur = 2 \/ cur = 3) by lia. destruct C as [-> |[-> |[-> | ->]]]; eexists; vm_compute; reflexivity.
Qed.

Lemma change_profile w x key text asked cur : no_shadow x -> ci_eq key "SecurityProfile" = true -> In "Security" (profiles x) ->
  held (running x) "Security" "SecurityProfile" = Some (JInt cur) -> 0 <= cur <= 3 ->
  change w x key text asked =
  match new_profile w x text asked with
  | (e, Throws why) => (x, e, Throws why)
  | (e, Ret (s, o)) => (x, e ++ notify w s key text, Ret (s, o))
  end.
Proof.
  intros N E Pr H B. destruct (get_profile w _ _ _ N E Pr H B) as (v & G). unfold change. rewrite G.
  assert (Nk : ci_ne key "AuthorizationKey" = true).
  { destruct (ci_ne key "AuthorizationKey") eqn:Q; [reflexivity|]. apply ne_false in Q. subst key. vm_compute in E. discriminate E. }
  rewrite Nk. cbn [kv_readonly]. rewrite (set_profile _ _ _ _ N E), (react_profile _ _ _ _ _ E).
  destruct (new_profile w x text asked) as [e [[s o]|why]]; reflexivity.
Qed.

Lemma profile_cases w x text asked cur : held (running x) "Security" "SecurityProfile" = Some (JInt cur) -> 0 <= cur <= 3 ->
  (exists p, allowed w x cur text p /\
     new_profile w x text asked = ((if asked then [Respond Accepted] else []) ++ [SwitchProfile p; Disconnect], Ret (Accepted, false))) \/
  ((forall p, ~ allowed w x cur text p) /\
     (new_profile w x text asked = ([], Ret (Rejected, true)) \/ exists why, new_profile w x text asked = ([], Throws why))).
Proof.
  intros H B. unfold new_profile, int_at. rewrite !held_lookup, H. cbn [to_int]. rewrite wrap_small by (unfold int_max; lia).
  destruct (stoi_ws text) as [p|why] eqn:S.
  - assert (Bn : begins_with_number text p) by (apply stoi_ws_prefix; exact S).
    assert (U : forall q, allowed w x cur text q -> q = p).
    { intros q (Q & Rg & _). apply stoi_ws_iff in Q; [congruence|]. unfold int_min, int_max. lia. }
    assert (No : ~ allowed w x cur text p -> forall q, ~ allowed w x cur text q) by (intros X q Q; pose proof (U _ Q); subst; auto).
    destruct (Z.leb_spec p cur) as [L|L]; [right; split; [apply No; intros (_ & Rg & _); lia|auto]|].
    destruct (((p =? 1) || (p =? 2)) && negb (match held (running x) "Security" "AuthorizationKey" with Some _ => true | None => false end)) eqn:K.
    { apply andb_true_iff in K. destruct K as [K1 K2]. apply orb_true_iff in K1. rewrite !Z.eqb_eq in K1.
      right. split; [|auto]. apply No. intros (_ & _ & A & _). apply A; [lia|]. destruct (held (running x) "Security" "AuthorizationKey"); [discriminate K2|reflexivity]. }
    destruct (((p =? 2) || (p =? 3)) && negb (ca_installed w)) eqn:C.
    { apply andb_true_iff in C. destruct C as [C1 C2]. apply orb_true_iff in C1. rewrite !Z.eqb_eq in C1. apply negb_true_iff in C2.
      right. split; [|auto]. apply No. intros (_ & _ & _ & A & _). rewrite A in C2; [discriminate C2|lia]. }
    destruct ((p =? 3) && negb (leaf_ok w)) eqn:D.
    { apply andb_true_iff in D. destruct D as [D1 D2]. rewrite Z.eqb_eq in D1. apply negb_true_iff in D2.
      right. split; [|auto]. apply No. intros (_ & _ & _ & _ & A). rewrite A in D2; [discriminate D2|exact D1]. }
    destruct (Z.ltb_spec 3 p) as [T|T]; [right; split; [apply No; intros (_ & Rg & _); lia|auto]|].
    left. exists p. split; [|reflexivity]. split; [exact Bn|]. split; [lia|]. split; [|split].
    + intros P2. replace ((p =? 1) || (p =? 2)) with true in K by (symmetry; apply orb_true_iff; rewrite !Z.eqb_eq; lia).
      destruct (held (running x) "Security" "AuthorizationKey"); [discriminate|discriminate K].
    + intros P2. replace ((p =? 2) || (p =? 3)) with true in C by (symmetry; apply orb_true_iff; rewrite !Z.eqb_eq; lia).
      destruct (ca_installed w); [reflexivity|discriminate C].
    + intros ->. destruct (leaf_ok w); [reflexivity|discriminate D].
  - right. split.
    + intros p (Q & Rg & _). apply stoi_ws_iff in Q; [congruence|]. unfold int_min, int_max. lia.
    + destruct (String.eqb why "invalid_argument"); eauto.
Qed.

Lemma react_switch w x key text asked e r p : react w x key text asked = (e, r) -> In (SwitchProfile p) e -> ci_eq key "SecurityProfile" = true.
Proof.
  unfold react, with_int, new_key. intros R I.
  repeat match type of R with
         | (if ci_eq ?k "SecurityProfile" then _ else _) = _ => destruct (ci_eq k "SecurityProfile"); [reflexivity|]
         | context [match ?c with _ => _ end] => destruct c
         end; injection R as <- <-; cbn in I; intuition discriminate.
Qed.

Lemma notify_switch w s key text p : ~ In (SwitchProfile p) (notify w s key text).
Proof. unfold notify. destruct s; cbn; try tauto. destruct (existsb _ _); [|destruct (generic w)]; cbn; intuition discriminate. Qed.

Lemma change_switch w x key text asked x' e r p : change w x key text asked = (x', e, r) -> In (SwitchProfile p) e -> ci_eq key "SecurityProfile" = true.
Proof.
  unfold change. intros C I.
  assert (Q : forall s0 x0, set w x key text = Ret (s0, x0) ->
    (match s0 with
     | Some Accepted =>
         let (e0, r0) := react w x0 key text asked in
         match r0 with
         | Ret (s', open) => (x0, e0 ++ notify w s' key text, Ret (s', open))
         | Throws why => (x0, e0, Throws why)
         end
     | Some s' => (x0, [] ++ notify w s' key text, Ret (s', true))
     | None => (x0, [] ++ notify w Rejected key text, Ret (Rejected, true))
     end) = (x', e, r) -> ci_eq key "SecurityProfile" = true).
  { clear C. intros s0 x0 _ H. destruct s0 as [[]|]; try (inversion H; subst; cbn in I; contradiction).
    destruct (react w x0 key text asked) as [e0 [[s' o]|why]] eqn:R; injection H as <- <- <-.
    - apply in_app_iff in I. destruct I as [I|I]; [exact (react_switch _ _ _ _ _ _ _ _ R I)|apply notify_switch in I; destruct I].
    - exact (react_switch _ _ _ _ _ _ _ _ R I). }
  destruct (get w x key) as [k|]; [|injection C as <- <- <-; destruct I].
  destruct (match k with Some _ => true | None => ci_eq key "AuthorizationKey" end);
    [|inversion C; subst; cbn in I; contradiction].
  destruct (ci_ne key "AuthorizationKey").
  - destruct k as [v|]; [|injection C as <- <- <-; destruct I].
    destruct (kv_readonly v); [inversion C; subst; cbn in I; contradiction|].
    destruct (set w x key text) as [[s0 x0]|]; [exact (Q _ _ eq_refl C)|injection C as <- <- <-; destruct I].
  - destruct (set w x key text) as [[s0 x0]|]; [exact (Q _ _ eq_refl C)|injection C as <- <- <-; destruct I].
Qed.

Lemma some_eq {A} (a b : A) : Some a = Some b -> b = a.
Proof. congruence. Qed.

Lemma reached_security custom_ok number x : reached custom_ok number x -> In "Security" (profiles x).
Proof.
  induction 1 as [c u x S C N|w x key text asked x' e r R IH C].
  - destruct (start_inv _ _ _ _ _ S) as (_ & _ & _ & Pr & Co & _). unfold profiles_of in Pr. destruct (lookup c "Core" "SupportedFeatureProfiles") as [[]|]; try discriminate Pr.
    destruct s as [|a s]; [injection Pr as Pr; rewrite <- Pr in Co; discriminate Co|].
    cbv zeta in Pr. remember (boost_split (String a s)) as parts eqn:Hp. clear Hp.
    destruct (forallb _ parts); [|discriminate Pr]. apply some_eq in Pr. rewrite Pr. apply filter_In. split; [apply inb_ok; vm_compute; reflexivity|].
    cbv beta. rewrite (String.eqb_refl "Security"). rewrite orb_true_r. reflexivity.
  - assert (P : profiles x' = profiles x); [|rewrite P; exact IH]. destruct (reached_good _ _ _ R) as (Pp & _ & _).
    destruct (change_inv _ _ _ _ _ _ _ _ C) as [(-> & _)|(v & s0 & G & T & S & _)]; [reflexivity|].
    pose proof (set_is w x key text) as Q. rewrite S in Q. inversion Q as [wr I E W|Pr W|Cu W|Se W|W]; subst; try reflexivity.
    + destruct (facts wr I) as (t & F). unfold as_set in W. destruct (write w x wr text) as [[s x0]|] eqn:Wr; [|discriminate W].
      injection W as _ <-. destruct (write_cases _ _ _ _ _ _ _ F Wr) as [(j & _ & _ & _ & _ & _ & ->)|[(-> & _)|(-> & _)]]; reflexivity.
    + destruct (write_price_cases w x key text Pp) as [(s & W' & _)|[(why & W')|(j & W' & _ & _)]]; rewrite W' in W; cbn [as_set] in W; try discriminate W;
        injection W as _ <-; reflexivity.
    + destruct (write_custom w x key text) as [s x0] eqn:Wc. cbn [as_set] in W. injection W as _ <-.
      destruct (write_custom_cases _ _ _ _ _ _ Wc) as [(-> & _)|(_ & j & -> & _)]; reflexivity.
Qed.
