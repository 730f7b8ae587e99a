(** Proofs about composite schedules of OCPP 2.x. *)

From Coq Require Import ZArith String List Bool Lia Permutation Sorted.
From Verif Require Import P2Model P2Spec P2Proofs P2Proofs2 P2Proofs3 P2Proofs4 Sc2Model Sc2Spec Sc2Spec2
  Sc2Proofs Sc2Proofs2 Sc2Proofs3.
Import ListNotations.
Open Scope Z_scope.

Lemma decides_ext (P Q : profile -> Prop) pu now session t r :
  (forall p, pf_purpose p = pu -> (P p <-> Q p)) ->
  decides P pu now session t r -> decides Q pu now session t r.
Proof.
  intros H. unfold decides. destruct r as [[p c]|].
  - intros (H1 & H2 & H3 & H4). split; [apply H; assumption|]. split; [exact H2|]. split; [exact H3|].
    intros q Hq Hp. apply H4; [apply H; assumption|exact Hp].
  - intros H1 q Hq Hp. apply H1; [apply H; assumption|exact Hp].
Qed.

(** ** the profiles that count *)

Lemma valid_iff st d e ignore q :
  In q (get_valid_profiles_for_evse st d e ignore) <->
  exists x, In x d /\ r_evse x = e /\ fit_for st d SetProfile e (r_p x) /\ spelled_out st e (r_p x) q /\
            ~ In (pf_purpose q) ignore.
Proof.
  unfold get_valid_profiles_for_evse, get_charging_profiles_for_evse. rewrite in_flat_map.
  assert (IP : forall pu, in_purposes pu ignore = true <-> In pu ignore).
  { intros pu. unfold in_purposes. rewrite existsb_exists. split.
    - intros (y & Hy & E). apply purpose_eqb_eq in E. subst. exact Hy.
    - intros H. exists pu. split; [exact H|]. apply purpose_eqb_eq. reflexivity. }
  split.
  - intros (p & Hp & Hq). apply in_map_iff in Hp as (x & <- & Hx). apply filter_In in Hx as [Hx Ex].
    apply Z.eqb_eq in Ex. exists x. split; [exact Hx|]. split; [exact Ex|].
    destruct (conform_and_validate_profile st d (r_p x) e SetProfile) as [r p'] eqn:E.
    destruct r; try (exfalso; exact Hq).
    assert (F : fit_for st d SetProfile e (r_p x)) by (eapply validate_complete; exact E).
    split; [exact F|]. destruct (in_purposes (pf_purpose p') ignore) eqn:I; [destruct Hq|].
    destruct Hq as [<- |[]]. split; [exact (spelled_conformed _ _ _ _ _ _ _ (fit_known _ _ _ _ _ F) E)|].
    rewrite <- IP, I. discriminate.
  - intros (x & Hx & Ex & F & Q & N). exists (r_p x). split.
    + apply in_map. apply filter_In. split; [exact Hx|]. apply Z.eqb_eq. exact Ex.
    + destruct (conform_and_validate_profile st d (r_p x) e SetProfile) as [r p'] eqn:E.
      assert (r = Valid) by (eapply validate_iff; [exact E|exact F]). subst r.
      pose proof (fit_known _ _ _ _ _ F) as K.
      pose proof (spelled_conformed _ _ _ _ _ _ _ K E) as Q'.
      assert (p' = q).
      { destruct Q as [A1 B1], Q' as [A2 B2]. pose proof (ac_iff st e K) as X.
        destruct (get_current_phase_type st (get_evse st e));
          [rewrite A1, A2 by (apply X; reflexivity); reflexivity
          |rewrite B1, B2 by (rewrite <- X; discriminate); reflexivity
          |rewrite B1, B2 by (rewrite <- X; discriminate); reflexivity]. }
      subst p'. destruct (in_purposes (pf_purpose q) ignore) eqn:I; [|left; reflexivity].
      exfalso. apply N, IP. exact I.
Qed.

Lemma ignored_iff st offline pu :
  ~ In pu (purposes_to_ignore st offline) <-> (offline = true -> ~ In pu (s_ignored st)).
Proof.
  unfold purposes_to_ignore. destruct offline; [tauto|]. split; [discriminate|]. intros _ [].
Qed.

Lemma counts_iff st d offline e q :
  counts_for st d offline e q <->
  In q (get_valid_profiles_for_evse st d e (purposes_to_ignore st offline) ++
        get_valid_profiles_for_evse st d 0 (purposes_to_ignore st offline)).
Proof.
  rewrite in_app_iff, !valid_iff. unfold counts_for. setoid_rewrite ignored_iff. split.
  - intros (x & Hx & Ex & F & Q & N). destruct Ex as [Ex|Ex]; [left|right]; rewrite Ex in *; exists x; auto 6.
  - intros [(x & Hx & Ex & F & Q & N)|(x & Hx & Ex & F & Q & N)]; exists x; rewrite Ex; auto 7.
Qed.

Lemma counts_0_iff st d offline q :
  counts_for st d offline 0 q <-> In q (get_valid_profiles_for_evse st d 0 (purposes_to_ignore st offline)).
Proof. rewrite counts_iff, in_app_iff. tauto. Qed.

(** what validation gives *)

Lemma counts_fields st d offline e q : counts_for st d offline e q ->
  exists x, In x d /\ fit_for st d SetProfile (r_evse x) (r_p x) /\ spelled_out st (r_evse x) (r_p x) q /\
            pf_purpose q = pf_purpose (r_p x) /\ pf_kind q = pf_kind (r_p x).
Proof.
  intros (x & Hx & _ & F & Q & _). exists x. split; [exact Hx|]. split; [exact F|]. split; [exact Q|].
  destruct (spelled_fields _ _ _ _ (fit_known _ _ _ _ _ F) Q) as (_ & _ & A & B & _). split; assumption.
Qed.

Lemma counts_not_external st d offline e q : counts_for st d offline e q -> pf_purpose q <> PExternal.
Proof.
  intros H. destruct (counts_fields _ _ _ _ _ H) as (x & Hx & F & _ & P & _). rewrite P. intros E.
  apply (F ExistingChargingStationExternalConstraints). exists x. auto.
Qed.

Lemma counts_max_kind st d offline e q :
  counts_for st d offline e q -> pf_purpose q = PMax -> pf_kind q <> Relative.
Proof.
  intros H. destruct (counts_fields _ _ _ _ _ H) as (x & Hx & F & _ & P & K). rewrite P, K. intros E R.
  apply (F ChargingStationMaxProfileCannotBeRelative). split; assumption.
Qed.

Lemma in_order_sorted l :
  (forall a x y b, l = (a ++ x :: y :: b)%list -> sp_start x < sp_start y) -> ascending sp_start l.
Proof.
  intros H. apply Sorted_StronglySorted; [intros a b c; lia|].
  induction l as [|x l IH]; constructor.
  - apply IH. intros a y z b E. apply (H (x :: a) y z b). rewrite E. reflexivity.
  - destruct l as [|y l]; constructor. apply (H [] x y l). reflexivity.
Qed.

Lemma map_all_phases_split l a x y b : map all_phases l = (a ++ x :: y :: b)%list ->
  exists a' x' y' b', l = (a' ++ x' :: y' :: b')%list /\ sp_start x = sp_start x' /\ sp_start y = sp_start y'.
Proof.
  intros E. apply map_eq_app in E as (a' & r & -> & _ & E). destruct r as [|x' r]; [discriminate|].
  cbn [map] in E. injection E as E1 E. destruct r as [|y' r]; [discriminate|]. cbn [map] in E. injection E as E2 _.
  exists a', x', y', r. subst. split; [reflexivity|]. split; reflexivity.
Qed.

Lemma counts_wf st d offline e q : counts_for st d offline e q ->
  Forall (fun c => sp_start c <= 2147483647) (sc_periods (the_schedule q)) -> wf_schedule (the_schedule q).
Proof.
  intros H B. destruct (counts_fields _ _ _ _ _ H) as (x & Hx & F & [Q1 Q2] & _).
  assert (S0 : pf_scheds (r_p x) <> []) by (intros E; exact (F ChargingProfileEmptyChargingSchedules E)).
  destruct (pf_scheds (r_p x)) as [|s l] eqn:Es; [congruence|]. clear S0.
  assert (I : In s (pf_scheds (r_p x))) by (rewrite Es; left; reflexivity).
  assert (O : forall a x y b, sc_periods s = (a ++ x :: y :: b)%list -> sp_start x < sp_start y).
  { intros a y z b E. destruct (Z_lt_ge_dec (sp_start y) (sp_start z)) as [L|L]; [exact L|exfalso].
    apply (F ChargingSchedulePeriodsOutOfOrder). exists s. split; [exact I|]. exists a, y, z, b. split; [exact E|lia]. }
  assert (Z0 : forall c l, sc_periods s = c :: l -> sp_start c = 0).
  { intros c l0 E. destruct (Z.eq_dec (sp_start c) 0) as [L|L]; [exact L|exfalso].
    apply (F ChargingProfileFirstStartScheduleIsNotZero). exists s. split; [exact I|]. exists c, l0. split; assumption. }
  assert (D : is_ac st (r_evse x) \/ ~ is_ac st (r_evse x)).
  { pose proof (ac_iff st _ (fit_known _ _ _ _ _ F)) as X.
    destruct (get_current_phase_type st (get_evse st (r_evse x))); [left|right|right]; rewrite <- X; congruence. }
  unfold wf_schedule. split; [|split; [|exact B]]; clear B.
  - apply in_order_sorted. intros a y z b E. destruct D as [D|D].
    + rewrite (Q1 D) in E. unfold the_schedule in E. cbn in E.
      apply map_all_phases_split in E as (a' & y' & z' & b' & E & -> & ->). exact (O _ _ _ _ E).
    + rewrite (Q2 D) in E. unfold the_schedule in E. cbn in E. exact (O _ _ _ _ E).
  - destruct D as [D|D]; [rewrite (Q1 D)|rewrite (Q2 D)]; unfold the_schedule; cbn.
    + destruct (sc_periods s) as [|c r]; [exact Logic.I|]. exact (Z0 c r eq_refl).
    + destruct (sc_periods s) as [|c r]; [exact Logic.I|]. exact (Z0 c r eq_refl).
Qed.

Lemma counts_usable st d offline e now en session q :
  counts_for st d offline e q -> sane now en session q -> usable now en session q.
Proof.
  intros H (B & T & N). split; [exact (counts_wf _ _ _ _ _ H B)|]. split; assumption.
Qed.

(** ** sessions do not matter for profiles that are not relative *)

Lemma occurrence_session p now s1 s2 t : pf_kind p <> Relative -> occurrence p now s1 t = occurrence p now s2 t.
Proof. intros H. unfold occurrence. destruct (pf_kind p); congruence. Qed.

Lemma in_force_session p now s1 s2 t : pf_kind p <> Relative -> in_force p now s1 t = in_force p now s2 t.
Proof. intros H. unfold in_force. rewrite (occurrence_session p now s1 s2 t H). reflexivity. Qed.

Lemma sane_session p now en s1 s2 : pf_kind p <> Relative -> sane now en s1 p -> sane now en s2 p.
Proof.
  intros H (A & B & N). split; [exact A|]. split; [exact B|]. unfold near_valid_to in *. destruct (pf_to p); [|exact I].
  intros t s Ht Ho. apply (N t s Ht). rewrite (occurrence_session p now s1 s2 t H). exact Ho.
Qed.

Lemma decides_session (P : profile -> Prop) pu now s1 s2 t r :
  (forall p, P p -> pf_purpose p = pu -> pf_kind p <> Relative) ->
  decides P pu now s1 t r -> decides P pu now s2 t r.
Proof.
  intros H. unfold decides. destruct r as [[p c]|].
  - intros (H1 & H2 & H3 & H4). split; [exact H1|]. split; [exact H2|].
    split; [rewrite (in_force_session p now s2 s1); [exact H3|apply H; assumption]|].
    intros q Hq Hp. rewrite (in_force_session q now s2 s1); [apply H4; assumption|apply H; assumption].
  - intros H1 q Hq Hp. rewrite (in_force_session q now s2 s1); [apply H1; assumption|apply H; assumption].
Qed.

(** ** a demand for nothing does not matter *)

Lemma equalised_nothing ar n : equalised ar n nothing = nothing.
Proof. unfold equalised. destruct n as [k|]; [|reflexivity]. destruct (k =? 1); [reflexivity|]. destruct (1 <? k); reflexivity. Qed.

Lemma strictest_nothing ar b l : strictest ar b (nothing :: l) = strictest ar b l.
Proof.
  unfold strictest. assert (E : strictest_phases (nothing :: l) = strictest_phases l) by reflexivity. rewrite E.
  set (n := strictest_phases l). destruct b; cbn [map]; [rewrite equalised_nothing|]; reflexivity.
Qed.

Lemma per_phase_nothing v l : per_phase v (nothing :: l) = per_phase v l.
Proof. destruct v; reflexivity. Qed.

Lemma equalisable_nothing ar b n l : equalisable ar b n l -> equalisable ar b n (nothing :: l).
Proof.
  intros H E. cbn [map]. rewrite equalised_nothing. constructor; [exact tidy_nothing|]. apply H. exact E.
Qed.
