(** Lemmas for CfgProperties.v: which texts are accepted. *)
From Coq Require Import ZArith List Bool String Ascii Lia.
From Verif Require Import StrModel StrSpec StrProofs StrProperties JsonModel JsonProofs DtModel CfgSchemaLang CfgModel CfgSchema CfgTables CfgApi CfgSpec CfgProofs CfgProofs2 CfgProofs3 CfgProofs4 CfgProofs5 CfgProofs6 CfgProofs7 CfgProofs8 CfgProofs9.
Import ListNotations.
Local Open Scope list_scope.
Local Open Scope string_scope.
Local Open Scope Z_scope.

Definition inb (k : string) (l : list string) : bool := existsb (String.eqb k) l.
Lemma inb_ok k l : inb k l = true <-> In k l.
Proof.
  unfold inb. rewrite existsb_exists. split; [intros (y & I & ->%String.eqb_eq); exact I|intros I; exists k; rewrite String.eqb_refl; auto].
Qed.

(** Keys without a setter of their own among the writable ones. *)
Definition apart : list string := unsettable ++ ["SecurityProfile"; "DefaultPriceText"].

Lemma all_written : forallb (fun e => match e with (s, k, b) =>
    negb b || inb k apart ||
    existsb (fun i => match i with Wanted wr => String.eqb (w_section wr) s && String.eqb (w_key wr) k | _ => false end) writers end) catalogue = true.
Proof. vm_compute. reflexivity. Qed.

Lemma writer_of s k : writable s k -> ~ In k apart -> exists wr, In (Wanted wr) writers /\ w_section wr = s /\ w_key wr = k.
Proof.
  intros W N. pose proof all_written as A. rewrite forallb_forall in A. specialize (A _ W). cbv beta iota in A. cbn [negb orb] in A.
  apply orb_true_iff in A. destruct A as [A|A]; [apply inb_ok in A; contradiction|].
  apply existsb_exists in A. destruct A as ([wr| | |] & I & Q); try discriminate Q. ands Q. apply String.eqb_eq in Q, Q0. eauto.
Qed.

Definition opt_eqb (a : option Z) (b : option nat) : bool :=
  match a, b with Some z, Some n => z =? Z.of_nat n | None, None => true | _, _ => false end.

(** Which key has which rule. *)
Definition named (wr : writer) : bool :=
  let k := w_key wr in
  match w_rule wr with
  | RBool => negb (inb k lenient)
  | RAnyBool => inb k lenient
  | RText lo hi =>
      negb (inb k formed) &&
      (match matches (w_match wr) readers with [r] => match r_access r with ReadOnly => true | _ => false end | _ => false end ||
       match type_of (w_section wr) k with Some (SText a b) => (opt_eqb a lo || match a, lo with Some 0, None => true | _, _ => false end) && opt_eqb b hi | _ => false end)
  | RMeasurands => inb k measurand_keys
  | RTimeOffset => inb k offset_keys
  | RRotation => String.eqb k "ConnectorPhaseRotation"
  | RPurposes => String.eqb k "IgnoredProfilePurposesOffline"
  | REvseIds => String.eqb k "ConnectorEvseIds"
  | RFuture => String.eqb k "NextTimeOffsetTransitionDateTime"
  | RAuthorizationKey => String.eqb k "AuthorizationKey"
  | RReboot => negb (existsb (fun e => match e with (s', k', b) => String.eqb s' (w_section wr) && String.eqb k' k && b end) catalogue)
  | _ => true
  end.
Lemma all_named : forallb (fun i => match i with Wanted wr => named wr | _ => true end) writers = true.
Proof. vm_compute. reflexivity. Qed.
Lemma name_of wr : In (Wanted wr) writers -> named wr = true.
Proof. intros I. pose proof all_named as A. rewrite forallb_forall in A. exact (A _ I). Qed.

Lemma purposes_there : match matches "IgnoredProfilePurposesOffline" readers with [r] => r_need r | _ => Must end = May.
Proof. vm_compute. reflexivity. Qed.

Ltac parts := split; [|split; [|split; [|split; [|split; [|split]]]]].

Lemma accepted_rule w x key wr t r v text :
  proper x -> known_only x -> no_shadow x -> In (Wanted wr) writers -> writer_facts wr t -> reading wr r ->
  writable (w_section wr) (w_key wr) -> ci_eq key (w_match wr) = true ->
  (forall n, held (running x) "Core" "NumberOfConnectors" = Some (JInt n) -> 0 <= n <= int_max) ->
  get w x key = Ret (Some v) -> kv_readonly v = false ->
  ((exists j, apply_rule w x (w_rule wr) text = Ret (Store j Accepted)) <-> acceptable w x (w_key wr) t text).
Proof.
  intros P Kn N I F R Wr E Nc G RO. pose proof (name_of _ I) as Nm. unfold named in Nm. pose proof (wf_rule _ _ F) as Ru.
  pose proof (get_reads w x key _ _ _ N F R E) as Gr. rewrite G in Gr.
  assert (Acc : readonly w (r_access r) = false).
  { destruct (here x r); [|discriminate Gr]. unfold read, type_error in Gr. destruct (lookup _ _ _).
    - destruct (text_of _ _ _ _) as [tx|]; [|discriminate Gr]. destruct (as_value tx); [|discriminate Gr]. injection Gr as ->. exact RO.
    - destruct (r_need r); [discriminate Gr|discriminate Gr| |destruct (section _ _); [discriminate Gr|]|]; injection Gr as ->; exact RO. }
  destruct (w_rule wr) eqn:Rule; cbn [apply_rule rule_fits] in *.
  - destruct t; try discriminate Ru. cbn [acceptable]. apply negb_true_iff in Nm.
    rewrite <- isBool_ok. split.
    + intros (j & A). destruct (isBool text); [auto|discriminate A].
    + intros [H|H]; [apply inb_ok in H; congruence|]. rewrite H. eauto.
  - destruct t; try discriminate Ru. cbn [acceptable]. apply inb_ok in Nm. split; [auto|eauto].
  - assert (Bd : forall z, 0 <= z <= int_max -> (bounds t z <-> lo <= z <= hi)) by (intros z; exact (number_fits _ _ _ _ _ Ru)).
    assert (Np : w_key wr <> phases) by (destruct t; try discriminate Ru; ands Ru; apply negb_true_iff in Ru0; apply String.eqb_neq; exact Ru0).
    assert (Q : (exists j, match is_positive_integer text with
         | Ret (true, z) => Ret (if (z <? lo) || (hi <? z) then Answer Rejected else Store (JInt z) Accepted)
         | Ret (false, _) => Ret (Answer Rejected)
         | Throws _ => Ret (Answer Rejected) end = Ret (Store j Accepted)) <->
         exists z, bounds t z /\ (w_key wr <> phases /\ int_literal z text /\ 0 <= z <= int_max \/ w_key wr = phases /\ begins_with_number text z)).
    { split.
      - intros (j & A). destruct (is_positive_integer text) as [[[|] z]|] eqn:Pi; try discriminate A. apply positive_literal in Pi. destruct Pi as [L B].
        destruct ((z <? lo) || (hi <? z)) eqn:C; [discriminate A|]. apply orb_false_iff in C. destruct C as [C1 C2]. apply Z.ltb_ge in C1, C2.
        exists z. split; [apply Bd; [exact B|lia]|]. auto.
      - intros (z & B & [(_ & L & Rg)|(K & _)]); [|contradiction]. exists (JInt z). apply Bd in B; [|exact Rg].
        replace (is_positive_integer text) with (Ret (true, z)) by (symmetry; apply positive_literal; auto).
        replace ((z <? lo) || (hi <? z)) with false; [reflexivity|]. symmetry. apply orb_false_iff. rewrite !Z.ltb_ge. lia. }
    destruct t; try discriminate Ru; exact Q.
  - destruct t as [| |[a|] [b|]| | |]; try discriminate Ru. ands Ru. apply Z.eqb_eq in Ru, Ru1. apply String.eqb_eq in Ru0. subst a b. cbn [acceptable bounds].
    assert (W : forall z, within (Some 1) (Some 3) z = true <-> 1 <= z <= 3) by (intros z; unfold within; rewrite andb_true_iff, !Z.leb_le; tauto). split.
    + intros (j & A). destruct (stoi_ws text) as [z|] eqn:S; [|discriminate A]. apply stoi_ws_prefix in S.
      destruct ((z <=? 0) || (3 <? z)) eqn:C; [discriminate A|]. apply orb_false_iff in C. destruct C as [C1 C2]. apply Z.leb_gt in C1. apply Z.ltb_ge in C2.
      exists z. split; [apply W; lia|]. auto.
    + intros (z & B & [(K & _)|(_ & L)]); [contradiction|]. apply W in B. exists (JInt z). apply stoi_ws_iff in L; [|unfold int_min, int_max; lia]. rewrite L.
      replace ((z <=? 0) || (3 <? z)) with false; [reflexivity|]. symmetry. apply orb_false_iff. rewrite Z.leb_gt, Z.ltb_ge. lia.
  - ands Nm. apply negb_true_iff in Nm. rewrite (rd_only _ _ R), (wf_type _ _ F) in Nm0.
    apply orb_true_iff in Nm0. destruct Nm0 as [Nm0|Nm0]; [destruct (r_access r); try discriminate Nm0; discriminate Acc|].
    destruct t as [| | |a b| |]; try discriminate Nm0. ands Nm0. cbn [acceptable].
    assert (B : bytes_within a b text <->
      match lo with Some m => Nat.ltb (String.length text) m | None => false end || match hi with Some m => Nat.ltb m (String.length text) | None => false end = false).
    { unfold bytes_within. rewrite orb_false_iff.
      assert (L : (forall m, a = Some m -> m <= Z.of_nat (String.length text)) <-> match lo with Some m => Nat.ltb (String.length text) m | None => false end = false).
      { destruct a as [a|], lo as [lo|]; cbn [opt_eqb] in Nm0; try (cbn in Nm0; destruct a; discriminate Nm0); try discriminate Nm0.
        - rewrite orb_false_r in Nm0 || (destruct a; rewrite ?orb_false_r in Nm0). all: apply Z.eqb_eq in Nm0; rewrite Nat.ltb_ge; split; [intros H; specialize (H _ eq_refl); lia|intros H m Q; injection Q as <-; lia].
        - destruct a; try discriminate Nm0. split; [reflexivity|intros _ m Q; injection Q as <-; lia].
        - split; [reflexivity|discriminate]. }
      assert (U : (forall m, b = Some m -> Z.of_nat (String.length text) <= m) <-> match hi with Some m => Nat.ltb m (String.length text) | None => false end = false).
      { destruct b as [b|], hi as [hi|]; cbn [opt_eqb] in Nm1; try discriminate Nm1.
        - apply Z.eqb_eq in Nm1. rewrite Nat.ltb_ge. split; [intros H; specialize (H _ eq_refl); lia|intros H m Q; injection Q as <-; lia].
        - split; [reflexivity|discriminate]. }
      tauto. }
    assert (Nf : ~ In (w_key wr) formed) by (intros H; apply inb_ok in H; congruence).
    split.
    + intros (j & A). parts; try (intros H; exfalso; apply Nf; first [rewrite H; apply inb_ok; vm_compute; reflexivity|unfold formed; rewrite !in_app_iff; tauto]).
      intros _. apply B. destruct (match lo with Some _ => _ | None => _ end || _); [discriminate A|reflexivity].
    + intros (_ & _ & _ & _ & _ & _ & H). specialize (H Nf). apply B in H. rewrite H. eauto.
  - apply inb_ok in Nm. destruct t; try discriminate Ru. cbn [acceptable]. rewrite <- (measurands_list _ _ Kn). split.
    + intros (j & A). destruct (measurands_supported _ _); [|discriminate A]. parts; auto; intros H; exfalso.
      all: first [rewrite H in Nm; apply inb_ok in Nm; vm_compute in Nm; discriminate Nm
                 |apply H; unfold formed; rewrite !in_app_iff; tauto
                 |revert Nm H; clear; intros Nm H; cbn in Nm, H; intuition congruence].
    + intros (H & _). rewrite (H Nm). eauto.
  - apply String.eqb_eq in Nm. destruct t; try discriminate Ru. cbn [acceptable]. rewrite Nm.
    assert (Hd : exists j tx, lookup (running x) "Internal" "IgnoredProfilePurposesOffline" = Some j /\ text_of w (running x) KPurposeText j = Ret tx /\ (String.length tx <= 500)%nat).
    { destruct (here x r); [|discriminate Gr]. unfold read in Gr. rewrite (rd_kind _ _ R), Rule, (rd_key _ _ R), (rd_section _ _ R), Nm in Gr. cbn [read_as] in Gr.
      assert (Sec : w_section wr = "Internal").
      { pose proof (wf_first _ _ F) as Fi. rewrite (wf_key _ _ F), Nm in Fi. vm_compute in Fi. injection Fi as <-. reflexivity. }
      assert (Nd : r_need r = May).
      { pose proof purposes_there as Q. pose proof (rd_only _ _ R) as O. rewrite (wf_key _ _ F), Nm in O. rewrite O in Q. exact Q. }
      rewrite Sec, Nd in Gr. destruct (lookup _ _ _) as [j|]; [|discriminate Gr].
      destruct (text_of w (running x) KPurposeText j) as [tx|] eqn:Tx; [|discriminate Gr]. exists j, tx. repeat split; auto.
      unfold as_value, too_long in Gr. destruct (Nat.ltb_spec 500 (String.length tx)); [discriminate Gr|assumption]. }
    destruct Hd as (j0 & tx & -> & -> & Le). replace (Nat.ltb 500 (String.length tx)) with false by (symmetry; apply Nat.ltb_ge; exact Le).
    rewrite <- purposes_list. split.
    + intros (j & A). destruct (forallb _ _); [|discriminate A]. parts; auto; intros H; exfalso; revert H; clear; intros H; first [discriminate H|cbn in H; intuition discriminate].
    + intros (_ & _ & _ & H & _). rewrite (H eq_refl). eauto.
  - apply String.eqb_eq in Nm. destruct t; try discriminate Ru. cbn [acceptable]. rewrite Nm.
    assert (Hd : exists n, held (running x) "Core" "NumberOfConnectors" = Some (JInt n)).
    { assert (D : exists lo0 hi0, declared "Core" "NumberOfConnectors" (SInt lo0 hi0)) by (do 2 eexists; apply declared_type; vm_compute; reflexivity).
      destruct D as (lo0 & hi0 & D). assert (Nn : held (running x) "Core" "NumberOfConnectors" <> None).
      { apply (proj1 (proj2 (proj2 P))); [apply needed_ok; vm_compute; reflexivity|left; vm_compute; auto]. }
      destruct (held (running x) "Core" "NumberOfConnectors") as [j|] eqn:H; [|congruence]. destruct (proj1 (proj2 P) _ _ _ _ D H) as (z & ->). eauto. }
    destruct Hd as (n & Hn). unfold number_of_connectors. rewrite held_lookup, Hn. cbn [to_int]. rewrite wrap_small by (apply Nc; exact Hn). split.
    + intros (j & A). destruct (rotation_ok n text) eqn:Q; [|discriminate A]. apply rotation_iff in Q. parts; auto.
      all: try (intros _; exists n; split; [reflexivity|exact Q]).
      all: intros H; exfalso; revert H; clear; intros H; first [discriminate H|cbn in H; intuition discriminate].
    + intros (_ & _ & H & _). destruct (H eq_refl) as (n' & Q & L). injection Q as <-. apply rotation_iff in L. rewrite L. eauto.
  - apply String.eqb_eq in Nm. destruct t; try discriminate Ru. cbn [acceptable]. rewrite Nm, <- evse_ids_list. split.
    + intros (j & A). destruct (evse_ids_ok text) eqn:Q; [|discriminate A]. parts; auto; intros H; exfalso; revert H; clear; intros H; first [discriminate H|cbn in H; intuition discriminate].
    + intros (_ & _ & _ & _ & H & _). rewrite (H eq_refl). eauto.
  - exfalso. apply String.eqb_eq in Nm. pose proof (rd_secret _ _ R) as S. rewrite Nm in S. discriminate S.
  - apply inb_ok in Nm. destruct t; try discriminate Ru. cbn [acceptable]. rewrite <- time_offset_iff. split.
    + intros (j & A). destruct (time_offset_ok text) eqn:Q; [|discriminate A]. parts; auto; intros H; exfalso; revert Nm H; clear; intros Nm H;
        first [rewrite H in Nm; cbn in Nm; intuition discriminate|apply H; unfold formed; rewrite !in_app_iff; tauto|cbn in Nm, H; intuition congruence].
    + intros (_ & H & _). rewrite (H Nm). eauto.
  - destruct t; try discriminate Ru. cbn [acceptable]. split.
    + intros (j & A). destruct (parse text) as [j'|]; [eauto|discriminate A].
    + intros (j & ->). eauto.
  - apply String.eqb_eq in Nm. destruct t; try discriminate Ru. cbn [acceptable]. rewrite Nm. split.
    + intros (j & A). destruct (from_rfc3339 text) as [d|] eqn:Q; [|discriminate A]. destruct (now w <? d) eqn:L; [|discriminate A]. apply Z.ltb_lt in L.
      parts; eauto; intros H; exfalso; revert H; clear; intros H; first [discriminate H|cbn in H; intuition discriminate].
    + intros (_ & _ & _ & _ & _ & H & _). destruct (H eq_refl) as (d & -> & L). apply Z.ltb_lt in L. rewrite L. eauto.
  - exfalso. apply negb_true_iff in Nm. unfold writable in Wr.
    assert (Q : existsb (fun e => match e with (s', k', b) => String.eqb s' (w_section wr) && String.eqb k' (w_key wr) && b end) catalogue = true); [|congruence].
    apply existsb_exists. exists (w_section wr, w_key wr, true). split; [exact Wr|]. rewrite !String.eqb_refl. reflexivity.
Qed.
