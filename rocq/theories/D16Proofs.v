(** Proofs about DataTransfer.req. *)
From Coq Require Import ZArith String List Bool Lia.
From Verif Require Import D16Model D16Spec.
Import ListNotations.
Local Open Scope string_scope.
Local Open Scope list_scope.
Local Open Scope Z_scope.

Lemma reg_other h o v m cb : (forall v' m' c, o <> Register v' m' c) -> registered (o :: h) v m cb <-> registered h v m cb.
Proof.
  intros N. split; [| intros X; apply r_before; auto].
  intros X. inversion X; subst; auto. exfalso. eapply N. reflexivity.
Qed.

Lemma lookup_iff e s h : dt_happened e s h -> forall v m cb, lookup s v m = Some cb <-> registered h v m cb.
Proof.
  induction 1; intros v m cb.
  - cbn. split; [discriminate | inversion 1].
  - destruct o as [v' m' c | | r own gen]; cbn [dt_step fst].
    + unfold lookup, register. cbn [explicit find]. destruct (String.eqb_spec v' v) as [-> | NV]; cbn [andb].
      * destruct (String.eqb_spec m' m) as [-> | NM].
        -- split; [intros X; inversion X; subst; constructor |]. intros X; inversion X; subst; auto. exfalso. match goal with Y : forall _, Register _ _ _ <> _ |- _ => now apply (Y c) end.
        -- fold (lookup s v m). rewrite IHdt_happened. split; [intros X; apply r_before; auto; congruence | intros X; inversion X; subst; auto; congruence].
      * fold (lookup s v m). rewrite IHdt_happened. split; [intros X; apply r_before; auto; congruence | intros X; inversion X; subst; auto; congruence].
    + rewrite reg_other by discriminate. apply IHdt_happened.
    + rewrite reg_other by discriminate. apply IHdt_happened.
Qed.
Lemma general_iff e s h : dt_happened e s h -> general s = true <-> In RegisterGeneral h.
Proof.
  induction 1.
  - cbn. split; [discriminate | tauto].
  - destruct o; cbn [dt_step fst register register_general general In]; rewrite ?IHdt_happened; split; auto; intros [X | X]; auto; discriminate.
Qed.
Lemma knows_iff e s h : dt_happened e s h -> forall v, knows_vendor s v = true <-> exists m cb, registered h v m cb.
Proof.
  intros H v. unfold knows_vendor. rewrite existsb_exists. split.
  - intros (((v', m'), c) & I & E). apply String.eqb_eq in E. subst v'.
    assert (X : exists cb, lookup s v m' = Some cb).
    { unfold lookup. destruct (find _ (explicit s)) as [((v2, m2), c2) | ] eqn:F; [eauto |]. pose proof (find_none _ _ F _ I) as Y. cbn in Y. now rewrite !String.eqb_refl in Y. }
    destruct X as (cb & X). exists m', cb. now apply (lookup_iff e s h H).
  - intros (m & cb & R). apply (lookup_iff e s h H) in R. unfold lookup in R. destruct (find _ (explicit s)) as [((v2, m2), c2) | ] eqn:F; [| discriminate].
    apply find_some in F. destruct F as (I & E). apply andb_true_iff in E. exists (v2, m2, c2). tauto.
Qed.

Lemma fits_b e c : sane e -> Z.of_nat (String.length c) < 9223372036854775808 ->
  match max_chain e with Some m => to_size m <? Z.of_nat (String.length c) | None => false end = false <-> fits e c.
Proof.
  intros (S & _) L. unfold fits. destruct (max_chain e) as [m | ]; [| split; [discriminate | auto]].
  specialize (S m eq_refl). rewrite Z.ltb_ge. unfold to_size.
  assert (M : m mod 18446744073709551616 = if m <? 0 then m + 18446744073709551616 else m).
  { destruct (Z.ltb_spec m 0); [| apply Z.mod_small; lia]. symmetry. apply (Z.mod_unique _ _ (-1)); lia. }
  rewrite M. destruct (Z.ltb_spec m 0).
  - split; [intros _ m' E P; inversion E; lia | lia].
  - split; [intros X m' E P; inversion E; subst; auto | intros X; apply X; auto].
Qed.

Lemma worth_to r : worth r (to_status r).
Proof. destruct r; split; split; intros; try discriminate; auto. Qed.
Lemma worth_fun r s s' : worth r s -> worth r s' -> s = s'.
Proof.
  intros (A & B) (C & D).
  destruct s, s'; auto; exfalso.
  - assert (X : r = IAccepted) by (apply A; auto). apply C in X. discriminate.
  - assert (X : r = IAccepted) by (apply A; auto). apply C in X. discriminate.
  - assert (X : r = IAccepted) by (apply C; auto). apply A in X. discriminate.
  - assert (X : r = WriteError) by (apply D; auto). apply B in X. discriminate.
  - assert (X : r = WriteError) by (apply B; auto). apply D in X. discriminate.
  - assert (X : r = WriteError) by (apply B; auto). apply D in X. discriminate.
Qed.

Lemma subject_dec e : (exists n, subject e n /\ or_else (organization e) (or_else (cpo_name e) "DEFAULT") = n /\ has (cpo_name e) || has (organization e) = true) \/
  ((forall n, ~ subject e n) /\ has (cpo_name e) || has (organization e) = false).
Proof.
  unfold subject. destruct (organization e) as [o | ].
  - left. exists o. cbn. rewrite orb_true_r. auto.
  - destruct (cpo_name e) as [c | ]; cbn.
    + left. exists c. auto.
    + right. split; auto. intros n [X | (_ & X)]; discriminate.
Qed.
Lemma subject_fun e n n' : subject e n -> subject e n' -> n = n'.
Proof. intros [A | (A & B)] [C | (C & D)]; congruence. Qed.
