(** Proofs about Sc2Model.v: validation of profiles. *)

From Coq Require Import ZArith String List Bool Lia.
From Verif Require Import P2Model P2Spec Sc2Model Sc2Spec.
Import ListNotations.
Open Scope Z_scope.

Lemma purpose_iff a b : purpose_eqb a b = true <-> a = b.
Proof. destruct a, b; cbn; split; congruence. Qed.
Lemma purpose_niff a b : purpose_eqb a b = false <-> a <> b.
Proof. destruct a, b; cbn; split; congruence. Qed.
Lemma unit_iff a b : unit_eqb a b = true <-> a = b.
Proof. destruct a, b; cbn; split; congruence. Qed.
Lemma kind_iff a b : kind_eqb a b = true <-> a = b.
Proof. destruct a, b; cbn; split; congruence. Qed.
Lemma kind_niff a b : kind_eqb a b = false <-> a <> b.
Proof. destruct a, b; cbn; split; congruence. Qed.
Lemma mode_iff a b : mode_eqb a b = true <-> a = b.
Proof. destruct a, b; cbn; split; congruence. Qed.
Lemma mode_niff a b : mode_eqb a b = false <-> a <> b.
Proof. destruct a, b; cbn; split; congruence. Qed.
Lemma v21_iff v : is_v21 v = true <-> v = V21.
Proof. destruct v; cbn; split; congruence. Qed.
Lemma v21_niff v : is_v21 v = false <-> v = V201.
Proof. destruct v; cbn; split; congruence. Qed.
Lemma some_iff {A} (o : option A) : is_some o = true <-> o <> None.
Proof. destruct o; cbn; split; congruence. Qed.
Lemma some_niff {A} (o : option A) : is_some o = false <-> o = None.
Proof. destruct o; cbn; split; congruence. Qed.
Lemma opt_is_iff f o : opt_is f o = true <-> exists x, o = Some x /\ f x = true.
Proof.
  destruct o as [x|]; cbn; split.
  - intros H; exists x; auto.
  - intros (y & E & H); injection E as ->; exact H.
  - discriminate.
  - intros (y & E & _); discriminate.
Qed.

Lemma get_evse_iff st id e : get_evse st id = Some e <-> evse_of st id e.
Proof.
  unfold get_evse, evse_of. destruct (Z.leb_spec id 0); split; intros; try discriminate; try lia.
  - split; [lia|assumption].
  - tauto.
Qed.

Lemma evse_exists_iff st id : evse_exists st id = true <-> known st id.
Proof.
  unfold evse_exists, known. rewrite andb_true_iff, !Z.leb_le. split.
  - intros [H1 H2]. destruct (Z.eq_dec id 0) as [->|N]; [left; reflexivity|right].
    destruct (nth_error (s_evses st) (Z.to_nat (id - 1))) as [e|] eqn:E.
    + exists e. split; [lia|exact E].
    + apply nth_error_None in E. lia.
  - intros [->|(e & H1 & H2)]; [lia|].
    assert (Z.to_nat (id - 1) < List.length (s_evses st))%nat by (apply nth_error_Some; congruence). lia.
Qed.

Lemma phases_type_ac n : phases_type n = AC <-> n = 1 \/ n = 3.
Proof.
  unfold phases_type. destruct (Z.eqb_spec n 1), (Z.eqb_spec n 3), (Z.eqb_spec n 0); cbn; split; intros; try discriminate; try lia; auto.
Qed.
Lemma phases_type_dc n : phases_type n = DC <-> n = 0.
Proof.
  unfold phases_type. destruct (Z.eqb_spec n 1), (Z.eqb_spec n 3), (Z.eqb_spec n 0); cbn; split; intros; try discriminate; try lia; auto.
Qed.

Lemma known_cases st id : known st id ->
  (id = 0 /\ get_evse st id = None) \/ (0 < id /\ exists e, get_evse st id = Some e /\ evse_of st id e).
Proof.
  intros [->|(e & H)]; [left; split; reflexivity|right]. split; [apply H|]. exists e. split; [|exact H].
  apply get_evse_iff. exact H.
Qed.

Lemma supply_of_evse st id e n : evse_of st id e -> (supply_of st id n <-> ev_supply e = Some n).
Proof.
  intros [H1 H2]. unfold supply_of. split.
  - intros [[-> _]|(e' & [_ H] & Hn)]; [lia|]. congruence.
  - intros Hn. right. exists e. split; [split; assumption|exact Hn].
Qed.

Lemma supply_of_station st n : supply_of st 0 n <-> n = s_supply st.
Proof.
  unfold supply_of. split; [intros [[_ H]|(e & [H _] & _)]; [exact H|lia]|]. intros H; left; auto.
Qed.

Lemma ac_iff st id : known st id -> (get_current_phase_type st (get_evse st id) = AC <-> is_ac st id).
Proof.
  intros K. unfold is_ac. destruct (known_cases _ _ K) as [[-> E]|(_ & e & E & He)]; rewrite E; cbn.
  - rewrite phases_type_ac, !supply_of_station. intuition congruence.
  - rewrite !(supply_of_evse st id e _ He). destruct (ev_supply e) as [n|].
    + rewrite phases_type_ac. intuition congruence.
    + split; [discriminate|]. intros [H|H]; discriminate.
Qed.

Lemma dc_iff st id : known st id -> (get_current_phase_type st (get_evse st id) = DC <-> is_dc st id).
Proof.
  intros K. unfold is_dc. destruct (known_cases _ _ K) as [[-> E]|(_ & e & E & He)]; rewrite E; cbn.
  - rewrite phases_type_dc, !supply_of_station. intuition congruence.
  - rewrite !(supply_of_evse st id e _ He). destruct (ev_supply e) as [n|].
    + rewrite phases_type_dc. intuition congruence.
    + split; discriminate.
Qed.

Lemma control_iff st id : known st id ->
  (has_dc_input_phase_control st (get_evse st id) = true <-> phases_controllable st id).
Proof.
  intros K. unfold phases_controllable. destruct (known_cases _ _ K) as [[-> E]|(L & e & E & He)]; rewrite E; cbn.
  - rewrite forallb_forall. split.
    + intros H x [[_ Hx]|[Hx _]]; [apply H; exact Hx|lia].
    + intros H x Hx. apply H. left; auto.
  - split.
    + intros H x [[-> _]|[_ Hx]]; [lia|]. destruct He as [_ He]. congruence.
    + intros H. apply H. right. exact He.
Qed.

Lemma mode_of_eq c : value_or (sp_mode c) ChargingOnly = mode_of c.
Proof. reflexivity. Qed.

Lemma mode_allowed_iff pu m : check_operation_modes m pu = true <-> mode_allowed pu m.
Proof.
  unfold check_operation_modes. destruct pu, m; cbn; intuition congruence.
Qed.

Lemma values_fit_iff c : check_limits_and_setpoints c = true <-> values_fit c.
Proof.
  unfold check_limits_and_setpoints, values_fit. cbn zeta. rewrite mode_of_eq.
  rewrite !andb_true_iff.
  assert (H : forall m t x, limits_correct m t x = true <->
     (existsb (limit_type_eqb t) (fst (limits_for m)) = true -> t1 x <> None) /\
     (given x -> existsb (limit_type_eqb t) (fst (limits_for m)) = true \/
                 existsb (limit_type_eqb t) (snd (limits_for m)) = true)).
  { intros m t x. unfold limits_correct, given. destruct (limits_for m) as [req opt]. cbn [fst snd].
    destruct (existsb (limit_type_eqb t) req), (existsb (limit_type_eqb t) opt); cbn;
      destruct (t1 x), (t2 x), (t3 x); cbn; intuition congruence. }
  rewrite !H. clear H.
  unfold may_limit, may_discharge, may_setpoint, may_reactive, must_have.
  destruct (mode_of c); cbn [limits_for fst snd existsb limit_type_eqb orb In];
    intuition (try congruence; try discriminate).
Qed.

Lemma signs_iff c : all_setpoints_signs_equal c = false <-> opposite_signs c.
Proof.
  unfold all_setpoints_signs_equal, opposite_signs. cbn zeta.
  destruct (t1 (sp_set c)) as [a|], (t2 (sp_set c)) as [b|], (t3 (sp_set c)) as [d|]; cbn [is_some opt_is andb orb];
    rewrite negb_false_iff; repeat first [rewrite andb_true_iff|rewrite orb_true_iff|rewrite Z.ltb_lt].
  - split.
    + intros [[H [H1|H1]]|[H [H1|H1]]]; [exists a, b|exists a, d|exists a, b|exists a, d]; repeat split; auto; nia.
    + intros (x & y & E & [E1|E1] & H); injection E as <-; injection E1 as <-.
      * destruct (Z.lt_trichotomy a 0) as [G|[G|G]]; [right|subst; lia|left]; (split; [lia|left; nia]).
      * destruct (Z.lt_trichotomy a 0) as [G|[G|G]]; [right|subst; lia|left]; (split; [lia|right; nia]).
  - split.
    + intros [[H [H1|H1]]|[H [H1|H1]]]; try discriminate; exists a, b; repeat split; auto; nia.
    + intros (x & y & E & [E1|E1] & H); injection E as <-; try discriminate; injection E1 as <-.
      destruct (Z.lt_trichotomy a 0) as [G|[G|G]]; [right|subst; lia|left]; (split; [lia|left; nia]).
  - split.
    + intros [[H H1]|[H H1]]; exists a, d; repeat split; auto; nia.
    + intros (x & y & E & [E1|E1] & H); injection E as <-; try discriminate; injection E1 as <-.
      destruct (Z.lt_trichotomy a 0) as [G|[G|G]]; [right|subst; lia|left]; (split; [lia|nia]).
  - split; [intros H; intuition discriminate|]. intros (x & y & E & [E1|E1] & H); discriminate.
  - split; [intros H; intuition discriminate|]. intros (x & y & E & [E1|E1] & H); discriminate.
  - split; [intros H; intuition discriminate|]. intros (x & y & E & [E1|E1] & H); discriminate.
  - split; [intros H; intuition discriminate|]. intros (x & y & E & [E1|E1] & H); discriminate.
  - split; [intros H; intuition discriminate|]. intros (x & y & E & [E1|E1] & H); discriminate.
Qed.

(** ** Periods *)

Ltac bools := repeat match goal with
  | H : _ && _ = true |- _ => apply andb_true_iff in H; destruct H
  | H : _ || _ = false |- _ => apply orb_false_iff in H; destruct H
  | H : negb _ = true |- _ => apply negb_true_iff in H
  | H : negb _ = false |- _ => apply negb_false_iff in H
  end.

(* where a period stands in its schedule *)
Definition placed (s : sched) (first : bool) (c : csp) (next : option csp) : Prop :=
  (first = true -> exists l, sc_periods s = c :: l) /\
  (forall n, next = Some n -> exists l r, sc_periods s = (l ++ c :: n :: r)%list) /\
  In c (sc_periods s).

Lemma period_sound st d src id p s first c next r :
  known st id -> In s (pf_scheds p) -> placed s first c next ->
  check_period st (get_evse st id) p s first c next = r -> r <> Valid ->
  violates st d src id p r.
Proof.
  intros K Hs (P1 & P2 & P3). unfold check_period. cbn zeta.
  assert (SP : forall Q : sched -> csp -> Prop, Q s c -> some_period p Q) by (intros Q HQ; exists s, c; auto).
  assert (TO : forall o : option Z, is_some o = true -> o <> None) by (intros o; apply some_iff).
  destruct (_ && is_some (sp_touse c)) eqn:B.
  { intros <- _. bools. apply SP. split; [apply TO; assumption|]. intros E. rewrite E in H. discriminate. }
  clear B. destruct (is_some (sp_touse c) && _) eqn:B.
  { intros <- _. bools. split; [assumption|]. apply SP. apply TO; assumption. }
  clear B. destruct (first && _) eqn:B.
  { intros <- _. bools. exists s. split; [exact Hs|]. destruct (P1 H) as [l E]. exists c, l. split; [exact E|].
    apply Z.eqb_neq. assumption. }
  clear B. destruct (match next with Some n => _ | None => _ end) eqn:B.
  { intros <- _. destruct next as [n|]; [|discriminate]. apply Z.leb_le in B.
    destruct (P2 n eq_refl) as (l & q & E). exists s. split; [exact Hs|]. exists l, c, n, q. split; [exact E|lia]. }
  clear B.
  assert (PH : is_some (sp_phases c) || is_some (sp_touse c) = true -> sp_phases c <> None \/ sp_touse c <> None).
  { rewrite orb_true_iff, !some_iff. tauto. }
  destruct (match get_current_phase_type st (get_evse st id) with DC => true | _ => false end) eqn:Edc.
  - assert (Hdc : is_dc st id).
    { apply dc_iff; [exact K|]. destruct (get_current_phase_type _ _); congruence. }
    assert (Eac : (match get_current_phase_type st (get_evse st id) with AC => true | _ => false end) = false).
    { destruct (get_current_phase_type _ _); congruence. }
    rewrite Eac. cbn [andb]. destruct (_ && negb (is_v21 (s_version st))) eqn:B.
    { intros <- _. bools. split; [apply v21_niff; assumption|]. split; [exact Hdc|]. apply SP. auto. }
    clear B. destruct (_ && negb (has_dc_input_phase_control st (get_evse st id))) eqn:B.
    { intros <- _. bools. split; [apply v21_iff; assumption|]. split; [exact Hdc|].
      split; [|apply SP; auto]. rewrite <- control_iff by exact K. congruence. }
    clear B Eac Edc. destruct (is_v21 (s_version st)) eqn:V; [|cbn; congruence]. cbn [negb].
    apply v21_iff in V. rewrite mode_of_eq.
    destruct (_ && negb (mode_eqb (mode_of c) ChargingOnly)) eqn:B.
    { intros <- _. bools. split; [exact V|]. split; [apply purpose_iff; assumption|]. apply SP.
      apply mode_niff; assumption. }
    clear B. destruct (negb (check_operation_modes _ _)) eqn:B.
    { intros <- _. bools. split; [exact V|]. apply SP. rewrite <- mode_allowed_iff. congruence. }
    clear B. destruct (_ && unit_eqb (sc_unit s) UA) eqn:B.
    { intros <- _. bools. right. split; [exact V|]. apply SP. split; [apply mode_iff|apply unit_iff]; assumption. }
    clear B. destruct (_ && negb (s_sleep st)) eqn:B.
    { intros <- _. bools. split; [exact V|]. split; [assumption|]. apply SP.
      destruct (sp_sleep c) as [[]|]; cbn in H; congruence. }
    clear B. destruct (negb (check_limits_and_setpoints c)) eqn:B.
    { intros <- _. bools. split; [exact V|]. apply SP. rewrite <- values_fit_iff. congruence. }
    clear B. destruct (mode_eqb (mode_of c) LocalFrequency && _) eqn:B.
    { intros <- _. bools. split; [exact V|]. apply SP. split; [apply mode_iff; assumption|].
      intros (E1 & n & E2 & E3). rewrite E1, E2 in H0. apply Nat.leb_le in E3. rewrite E3 in H0. discriminate. }
    clear B. destruct (negb (all_setpoints_signs_equal c)) eqn:B; [|congruence].
    intros <- _. bools. split; [exact V|]. apply SP. apply signs_iff. assumption.
  - cbn [andb]. destruct (_ && opt_is _ (sp_phases c)) eqn:B.
    { intros <- _. bools. split.
      - apply ac_iff; [exact K|]. destruct (get_current_phase_type _ _); congruence.
      - apply SP. apply opt_is_iff in H0 as (n & E & L). exists n. split; [exact E|]. apply Z.ltb_lt. exact L. }
    clear B Edc. destruct (is_v21 (s_version st)) eqn:V; [|cbn; congruence]. cbn [negb].
    apply v21_iff in V. rewrite mode_of_eq.
    destruct (_ && negb (mode_eqb (mode_of c) ChargingOnly)) eqn:B.
    { intros <- _. bools. split; [exact V|]. split; [apply purpose_iff; assumption|]. apply SP.
      apply mode_niff; assumption. }
    clear B. destruct (negb (check_operation_modes _ _)) eqn:B.
    { intros <- _. bools. split; [exact V|]. apply SP. rewrite <- mode_allowed_iff. congruence. }
    clear B. destruct (_ && unit_eqb (sc_unit s) UA) eqn:B.
    { intros <- _. bools. right. split; [exact V|]. apply SP. split; [apply mode_iff|apply unit_iff]; assumption. }
    clear B. destruct (_ && negb (s_sleep st)) eqn:B.
    { intros <- _. bools. split; [exact V|]. split; [assumption|]. apply SP.
      destruct (sp_sleep c) as [[]|]; cbn in H; congruence. }
    clear B. destruct (negb (check_limits_and_setpoints c)) eqn:B.
    { intros <- _. bools. split; [exact V|]. apply SP. rewrite <- values_fit_iff. congruence. }
    clear B. destruct (mode_eqb (mode_of c) LocalFrequency && _) eqn:B.
    { intros <- _. bools. split; [exact V|]. apply SP. split; [apply mode_iff; assumption|].
      intros (E1 & n & E2 & E3). rewrite E1, E2 in H0. apply Nat.leb_le in E3. rewrite E3 in H0. discriminate. }
    clear B. destruct (negb (all_setpoints_signs_equal c)) eqn:B; [|congruence].
    intros <- _. bools. split; [exact V|]. apply SP. apply signs_iff. assumption.
Qed.

(* what is the case when nothing is found *)
Definition period_fine (st : station) (id : Z) (p : profile) (s : sched) (first : bool) (c : csp) (next : option csp)
  : Prop :=
  (sp_touse c <> None -> sp_phases c = Some 1) /\
  (sp_touse c <> None -> s_switch st = true) /\
  (first = true -> sp_start c = 0) /\
  (forall n, next = Some n -> sp_start c < sp_start n) /\
  (is_dc st id -> sp_phases c <> None \/ sp_touse c <> None -> s_version st = V21 /\ phases_controllable st id) /\
  (is_ac st id -> forall n, sp_phases c = Some n -> n <= s_supply st) /\
  (s_version st = V21 ->
   (pf_purpose p = PPriority -> mode_of c = ChargingOnly) /\
   mode_allowed (pf_purpose p) (mode_of c) /\
   (mode_of c = LocalFrequency -> sc_unit s <> UA) /\
   (sp_sleep c = Some true -> s_sleep st = true) /\
   values_fit c /\
   (mode_of c = LocalFrequency -> sp_baseline c = true /\ exists n, sp_curve c = Some n /\ (2 <= n)%nat) /\
   ~ opposite_signs c).

Lemma period_complete st id p s first c next :
  known st id -> check_period st (get_evse st id) p s first c next = Valid ->
  period_fine st id p s first c next.
Proof.
  intros K. unfold check_period. cbn zeta. rewrite mode_of_eq.
  destruct (_ && is_some (sp_touse c)) eqn:B1; [discriminate|].
  destruct (is_some (sp_touse c) && _) eqn:B2; [discriminate|].
  destruct (first && _) eqn:B3; [discriminate|].
  destruct (match next with Some n => _ | None => _ end) eqn:B4; [discriminate|].
  destruct (_ && negb (is_v21 (s_version st))) eqn:B5; [discriminate|].
  destruct (_ && negb (has_dc_input_phase_control st (get_evse st id))) eqn:B6; [discriminate|].
  destruct (_ && opt_is _ (sp_phases c)) eqn:B7; [discriminate|].
  intros H. unfold period_fine.
  split; [|split; [|split; [|split; [|split; [|split]]]]].
  - intros T. apply some_iff in T. rewrite T, andb_true_r in B1. bools. apply opt_is_iff in B1 as (n & E & L).
    apply Z.eqb_eq in L. congruence.
  - intros T. apply some_iff in T. rewrite T in B2. cbn in B2. bools. exact B2.
  - intros ->. cbn in B3. bools. apply Z.eqb_eq. exact B3.
  - intros n ->. apply Z.leb_gt in B4. exact B4.
  - intros D T. apply dc_iff in D; [|exact K]. rewrite D in B5, B6.
    assert (T' : is_some (sp_phases c) || is_some (sp_touse c) = true).
    { rewrite orb_true_iff, !some_iff. exact T. }
    rewrite T' in B5, B6. cbn in B5, B6. bools. rewrite B5 in B6. cbn in B6. bools.
    split; [apply v21_iff; exact B5|]. apply control_iff; assumption.
  - intros A n E. apply ac_iff in A; [|exact K]. rewrite A, E in B7. cbn in B7. apply Z.ltb_ge in B7. exact B7.
  - intros V. apply v21_iff in V. rewrite V in H. cbn [negb] in H.
    destruct (_ && negb (mode_eqb (mode_of c) ChargingOnly)) eqn:C1; [discriminate|].
    destruct (negb (check_operation_modes _ _)) eqn:C2; [discriminate|].
    destruct (_ && unit_eqb (sc_unit s) UA) eqn:C3; [discriminate|].
    destruct (_ && negb (s_sleep st)) eqn:C4; [discriminate|].
    destruct (negb (check_limits_and_setpoints c)) eqn:C5; [discriminate|].
    destruct (mode_eqb (mode_of c) LocalFrequency && (_ || _)) eqn:C6; [discriminate|].
    destruct (negb (all_setpoints_signs_equal c)) eqn:C7; [discriminate|]. clear H. bools.
    split; [|split; [|split; [|split; [|split; [|split]]]]].
    + intros P. apply purpose_iff in P. rewrite P in C1. cbn in C1. bools. apply mode_iff. exact C1.
    + apply mode_allowed_iff. exact C2.
    + intros M U. apply mode_iff in M. apply unit_iff in U. rewrite M, U in C3. discriminate.
    + intros S. rewrite S in C4. cbn in C4. bools. exact C4.
    + apply values_fit_iff. exact C5.
    + intros M. apply mode_iff in M. rewrite M in C6. cbn [andb] in C6. bools.
      destruct (sp_curve c) as [n|]; [|discriminate]. apply Nat.leb_le in H. split; [assumption|].
      exists n; auto.
    + rewrite <- signs_iff. congruence.
Qed.

(** ** Schedules *)

Lemma periods_sound st d src id p s r : known st id -> In s (pf_scheds p) ->
  forall l pre first, sc_periods s = (pre ++ l)%list -> (first = true -> pre = []) ->
  check_periods st (get_evse st id) p s first l = r -> r <> Valid -> violates st d src id p r.
Proof.
  intros K Hs. induction l as [|c l IH]; intros pre first E F H N; cbn [check_periods] in H; [congruence|].
  destruct (check_period st (get_evse st id) p s first c (hd_error l)) eqn:C.
  1: { apply (IH (pre ++ [c])%list false); try assumption; [rewrite <- app_assoc; exact E|discriminate]. }
  all: subst r; (eapply period_sound; [exact K|exact Hs| |exact C|discriminate]).
  all: split; [|split].
  all: try (intros ->; rewrite (F eq_refl) in E; cbn in E; exists l; exact E).
  all: try (intros n En; destruct l as [|n' l']; [discriminate|]; injection En as <-; exists pre, l'; exact E).
  all: rewrite E; apply in_app_iff; right; left; reflexivity.
Qed.

Lemma periods_complete st id p s : known st id ->
  forall l first, check_periods st (get_evse st id) p s first l = Valid ->
  forall a c b, l = (a ++ c :: b)%list -> period_fine st id p s (match a with [] => first | _ => false end) c (hd_error b).
Proof.
  intros K. induction l as [|x l IH]; intros first H a c b E; [destruct a; discriminate|].
  cbn [check_periods] in H.
  destruct (check_period st (get_evse st id) p s first x (hd_error l)) eqn:C; try discriminate.
  apply period_complete in C; [|exact K].
  destruct a as [|y a]; cbn in E; injection E as -> E.
  - subst l. exact C.
  - assert (X := IH false H a c b E). destruct a; exact X.
Qed.

Lemma units_iff u l : existsb (unit_eqb u) l = true <-> In u l.
Proof.
  rewrite existsb_exists. split.
  - intros (x & H & E). apply unit_iff in E. subst. exact H.
  - intros H. exists u. split; [exact H|]. apply unit_iff. reflexivity.
Qed.

Lemma purposes_iff u l : in_purposes u l = true <-> In u l.
Proof.
  unfold in_purposes. rewrite existsb_exists. split.
  - intros (x & H & E). apply purpose_iff in E. subst. exact H.
  - intros H. exists u. split; [exact H|]. apply purpose_iff. reflexivity.
Qed.

Lemma schedule_sound st d src id p s r :
  known st id -> In s (pf_scheds p) -> check_schedule st (get_evse st id) p s = r -> r <> Valid ->
  violates st d src id p r.
Proof.
  intros K Hs. unfold check_schedule. cbn zeta.
  assert (SS : forall Q : sched -> Prop, Q s -> some_sched p Q) by (intros Q HQ; exists s; auto).
  destruct (negb (existsb (unit_eqb (sc_unit s)) (s_units st))) eqn:B.
  { intros <- _. bools. left. apply SS. rewrite <- units_iff. congruence. }
  clear B. destruct (match sc_periods s with [] => true | _ => false end) eqn:B.
  { intros <- _. apply SS. destruct (sc_periods s); congruence. }
  clear B. destruct (_ && opt_is _ (sc_delay s)) eqn:B.
  { intros <- _. bools. split; [apply v21_iff; assumption|]. split; [apply purpose_niff; assumption|].
    split; [apply purpose_niff; assumption|]. apply SS. apply opt_is_iff in H0 as (n & E & L).
    exists n. split; [exact E|]. apply Z.ltb_lt; exact L. }
  clear B. destruct (_ && negb (in_purposes (pf_purpose p) (s_extra st))) eqn:B.
  { intros <- _. bools. split; [apply v21_iff; assumption|]. rewrite <- purposes_iff.
    apply orb_true_iff in H1. rewrite !purpose_iff in H1. split; [exact H1|congruence]. }
  clear B. destruct (_ && negb (s_dynamic st)) eqn:B.
  { intros <- _. bools. split; [apply v21_iff; assumption|]. split; [apply kind_iff|]; assumption. }
  clear B. destruct (_ && negb (kind_eqb (pf_kind p) Dynamic)) eqn:B.
  { intros <- _. bools. split; [apply v21_iff; assumption|]. apply orb_true_iff in H1. split; [exact H1|].
    apply kind_niff; assumption. }
  clear B. destruct (_ && negb (s_local st)) eqn:B.
  { intros <- _. bools. split; [apply v21_iff; assumption|]. split; [assumption|]. apply SS.
    destruct (sc_local s) as [[]|]; cbn in H1; congruence. }
  clear B. destruct (_ && negb (s_delay st)) eqn:B.
  { intros <- _. bools. split; [apply v21_iff; assumption|]. split; [assumption|]. apply SS.
    apply some_iff; assumption. }
  clear B. destruct (_ && negb (s_soc st)) eqn:B.
  { intros <- _. bools. split; [apply v21_iff; assumption|]. split; [assumption|]. apply SS. assumption. }
  clear B.
  destruct (check_periods st (get_evse st id) p s true (sc_periods s)) eqn:C.
  1: { destruct (_ && negb (is_some (sc_start s))) eqn:B.
       { intros <- _. bools. apply orb_true_iff in H. rewrite !kind_iff in H. split; [exact H|]. apply SS.
         apply some_niff; assumption. }
       clear B. destruct (_ && is_some (sc_start s)) eqn:B; [|congruence].
       intros <- _. bools. split; [apply kind_iff; assumption|]. apply SS. apply some_iff; assumption. }
  all: intros <- N; apply (periods_sound st d src id p s _ K Hs (sc_periods s) [] true);
    [reflexivity|reflexivity|exact C|discriminate].
Qed.

Lemma schedules_sound st d src id p r : known st id ->
  forall l, (forall s, In s l -> In s (pf_scheds p)) ->
  check_schedules st (get_evse st id) p l = r -> r <> Valid -> violates st d src id p r.
Proof.
  intros K. induction l as [|s l IH]; intros Hl H N; cbn [check_schedules] in H; [congruence|].
  destruct (check_schedule st (get_evse st id) p s) eqn:C.
  1: { apply IH; try assumption. intros x Hx. apply Hl. right; exact Hx. }
  all: subst r; eapply schedule_sound; [exact K|apply Hl; left; reflexivity|exact C|discriminate].
Qed.

(* what is the case when a schedule is found valid *)
Definition schedule_fine (st : station) (id : Z) (p : profile) (s : sched) : Prop :=
  In (sc_unit s) (s_units st) /\ sc_periods s <> [] /\
  (s_version st = V21 ->
   (pf_purpose p <> PTx -> pf_purpose p <> PTxDefault -> forall n, sc_delay s = Some n -> n <= 0) /\
   (pf_purpose p = PPriority \/ pf_purpose p = PLocalGen -> In (pf_purpose p) (s_extra st)) /\
   (pf_kind p = Dynamic -> s_dynamic st = true) /\
   (pf_dynint p = true \/ pf_dyntime p = true -> pf_kind p = Dynamic) /\
   (sc_local s = Some true -> s_local st = true) /\
   (sc_delay s <> None -> s_delay st = true) /\
   (sc_soc s = true -> s_soc st = true)) /\
  (forall a c b, sc_periods s = (a ++ c :: b)%list ->
     period_fine st id p s (match a with [] => true | _ => false end) c (hd_error b)) /\
  (pf_kind p = Absolute \/ pf_kind p = Recurring -> sc_start s <> None) /\
  (pf_kind p = Relative -> sc_start s = None).

Lemma schedule_complete st id p s :
  known st id -> check_schedule st (get_evse st id) p s = Valid -> schedule_fine st id p s.
Proof.
  intros K. unfold check_schedule. cbn zeta.
  destruct (negb (existsb (unit_eqb (sc_unit s)) (s_units st))) eqn:B1; [discriminate|].
  destruct (match sc_periods s with [] => true | _ => false end) eqn:B2; [discriminate|].
  destruct (_ && opt_is _ (sc_delay s)) eqn:B3; [discriminate|].
  destruct (_ && negb (in_purposes (pf_purpose p) (s_extra st))) eqn:B4; [discriminate|].
  destruct (_ && negb (s_dynamic st)) eqn:B5; [discriminate|].
  destruct (_ && negb (kind_eqb (pf_kind p) Dynamic)) eqn:B6; [discriminate|].
  destruct (_ && negb (s_local st)) eqn:B7; [discriminate|].
  destruct (_ && negb (s_delay st)) eqn:B8; [discriminate|].
  destruct (_ && negb (s_soc st)) eqn:B9; [discriminate|].
  destruct (check_periods st (get_evse st id) p s true (sc_periods s)) eqn:C; try discriminate.
  destruct (_ && negb (is_some (sc_start s))) eqn:B10; [discriminate|].
  destruct (_ && is_some (sc_start s)) eqn:B11; [discriminate|]. intros _. bools.
  unfold schedule_fine. split; [apply units_iff; exact B1|]. split; [intros E; rewrite E in B2; discriminate|].
  split; [|split; [|split]].
  - intros V. apply v21_iff in V. rewrite V in *. cbn [andb] in *.
    split; [|split; [|split; [|split; [|split; [|split]]]]].
    + intros N1 N2 n E. apply purpose_niff in N1, N2. rewrite N1, N2, E in B3. cbn in B3. apply Z.ltb_ge in B3. exact B3.
    + intros H. apply purposes_iff. assert (T : purpose_eqb (pf_purpose p) PPriority || purpose_eqb (pf_purpose p) PLocalGen = true)
        by (rewrite orb_true_iff, !purpose_iff; exact H). rewrite T in B4. cbn in B4. bools. exact B4.
    + intros H. apply kind_iff in H. rewrite H in B5. cbn in B5. bools. exact B5.
    + intros H. apply orb_true_iff in H. rewrite H in B6. cbn in B6. bools. apply kind_iff. exact B6.
    + intros H. rewrite H in B7. cbn in B7. bools. exact B7.
    + intros H. apply some_iff in H. rewrite H in B8. cbn in B8. bools. exact B8.
    + intros H. rewrite H in B9. cbn in B9. bools. exact B9.
  - apply periods_complete; assumption.
  - intros H. assert (T : kind_eqb (pf_kind p) Absolute || kind_eqb (pf_kind p) Recurring = true)
      by (rewrite orb_true_iff, !kind_iff; exact H).
    rewrite T in B10. cbn in B10. bools. apply some_iff. exact B10.
  - intros H. apply kind_iff in H. rewrite H in B11. cbn in B11. apply some_niff. exact B11.
Qed.

Lemma schedules_complete st id p : known st id -> forall l,
  check_schedules st (get_evse st id) p l = Valid -> forall s, In s l -> schedule_fine st id p s.
Proof.
  intros K. induction l as [|x l IH]; intros H s Hs; [destruct Hs|]. cbn [check_schedules] in H.
  destruct (check_schedule st (get_evse st id) p x) eqn:C; try discriminate.
  destruct Hs as [->|Hs]; [apply schedule_complete; assumption|apply IH; assumption].
Qed.

(** ** Whole profiles *)

Lemma violates_conformed st d src id p r :
  violates st d src id (conform_validity p) r <-> violates st d src id p r.
Proof.
  assert (E1 : from_of (conform_validity p) = from_of p).
  { unfold from_of, conform_validity. cbn. destruct (pf_from p); reflexivity. }
  assert (E2 : to_of (conform_validity p) = to_of p).
  { unfold to_of, conform_validity. cbn [pf_to]. destruct (pf_to p); reflexivity. }
  destruct r; try reflexivity. unfold violates. rewrite E1, E2. reflexivity.
Qed.

Lemma from_conformed p : pf_from (conform_validity p) = Some (from_of p).
Proof. unfold from_of, conform_validity. cbn. destruct (pf_from p); reflexivity. Qed.
Lemma to_conformed p : pf_to (conform_validity p) = Some (to_of p).
Proof. unfold to_of, conform_validity. cbn [pf_to]. destruct (pf_to p); reflexivity. Qed.

Lemma overlapping_iff d p id :
  is_overlapping_validity_period d (conform_validity p) id = true <->
  violates {| s_version := V21; s_supply := 0; s_units := []; s_extra := []; s_dynamic := false; s_local := false;
              s_delay := false; s_soc := false; s_sleep := false; s_switch := false; s_maxext := None; s_rate := None;
              s_available := false; s_enabled := false; s_ignored := []; s_amps := None; s_watts := None;
              s_phases := None; s_volts := None; s_evses := [] |} d SetProfile id p DuplicateProfileValidityPeriod.
Proof.
  unfold is_overlapping_validity_period, violates. rewrite from_conformed, to_conformed.
  change (pf_purpose (conform_validity p)) with (pf_purpose p).
  change (pf_id (conform_validity p)) with (pf_id p).
  change (pf_stack (conform_validity p)) with (pf_stack p).
  destruct (purpose_eqb (pf_purpose p) PTx) eqn:E.
  - apply purpose_iff in E. split; [discriminate|tauto].
  - apply purpose_niff in E. rewrite existsb_exists. split.
    + intros (x & Hx & H). bools. split; [exact E|]. exists x.
      apply purpose_iff in H. apply Z.eqb_eq in H4, H2. apply Z.eqb_neq in H3.
      repeat (split; [first [assumption|congruence]|]). split.
      * destruct (pf_to (r_p x)) as [u|]; [|discriminate]. exists u. split; [reflexivity|]. apply Z.leb_le. exact H1.
      * intros f Ef. rewrite Ef in H0. apply Z.leb_le. exact H0.
    + intros (_ & x & Hx & P & Ev & Ei & Es & (u & Eu & Lu) & Lf). exists x. split; [exact Hx|].
      rewrite Eu. cbn [ole]. rewrite !andb_true_iff, negb_true_iff, purpose_iff, !Z.eqb_eq, Z.eqb_neq, Z.leb_le.
      repeat split; try assumption. destruct (pf_from (r_p x)) as [f|] eqn:Ef; [|reflexivity].
      apply Z.leb_le. apply Lf. reflexivity.
Qed.

Lemma conflicting_sound st d src id p r :
  verify_no_conflicting_external_constraints_id st d p = r -> r <> Valid -> violates st d src id p r.
Proof.
  unfold verify_no_conflicting_external_constraints_id.
  destruct (_ && _) eqn:B.
  { intros <- _. bools. split; [apply v21_iff; assumption|]. apply opt_is_iff in H0 as (m & E & L).
    exists m. split; [exact E|]. apply Z.leb_le; exact L. }
  destruct (existsb _ d) eqn:X; [|congruence]. intros <- _.
  apply existsb_exists in X as (x & Hx & H). bools. exists x. split; [exact Hx|].
  split; [apply Z.eqb_eq; assumption|apply purpose_iff; assumption].
Qed.

Lemma conflicting_complete st d src id p r :
  verify_no_conflicting_external_constraints_id st d p = Valid -> 
  In r [ChargingProfileIdSmallerThanMaxExternalConstraintsId; ExistingChargingStationExternalConstraints] ->
  ~ violates st d src id p r.
Proof.
  unfold verify_no_conflicting_external_constraints_id.
  destruct (_ && _) eqn:B; [discriminate|]. destruct (existsb _ d) eqn:X; [discriminate|]. intros _ [<-|[<-|[]]].
  - intros (V & m & E & L). apply v21_iff in V. rewrite V, E in B. cbn in B. apply Z.leb_gt in B. lia.
  - intros (x & Hx & E & P). assert (T : existsb (fun r => (pf_id (r_p r) =? pf_id p) && purpose_eqb (pf_purpose (r_p r)) PExternal) d = true).
    { apply existsb_exists. exists x. split; [exact Hx|]. rewrite andb_true_iff, Z.eqb_eq, purpose_iff. auto. }
    congruence.
Qed.

Lemma purpose_sound st d src id p r :
  known st id -> validate_purpose st d p id src = r -> r <> Valid -> violates st d src id p r.
Proof.
  intros K. unfold validate_purpose. destruct (pf_purpose p) eqn:P.
  - congruence.
  - unfold validate_max. rewrite P. cbn [purpose_eqb negb]. destruct (Z.ltb_spec 0 id).
    { intros <- _. split; assumption. }
    destruct (kind_eqb (pf_kind p) Relative) eqn:B; [|congruence].
    intros <- _. apply kind_iff in B. split; assumption.
  - unfold validate_tx_default. destruct (existsb _ _) eqn:X; [|congruence]. intros <- _.
    apply existsb_exists in X as (x & Hx & H). apply filter_In in Hx as [Hx G].
    apply andb_true_iff in G as [G1 G2]. apply andb_true_iff in H as [H1 H2]. apply negb_true_iff in H2.
    split; [exact P|]. exists x. apply purpose_iff in G1. apply Z.eqb_eq in H1. apply Z.eqb_neq in H2.
    repeat (split; [assumption|]). destruct (Z.eqb_spec id 0) as [->|N].
    + apply negb_true_iff, Z.eqb_neq in G2. split; intros; congruence.
    + apply Z.eqb_eq in G2. split; intros; assumption.
  - unfold validate_tx. destruct (Z.leb_spec id 0).
    { intros <- _. split; assumption. }
    destruct (evse_exists st id) eqn:X; cbn [negb].
    2: { intros <- _ K'. apply evse_exists_iff in K'. congruence. }
    destruct src; [|congruence].
    destruct (pf_tx p) as [i|] eqn:Ti; [|intros <- _; repeat split; assumption].
    destruct (get_evse st id) as [e|] eqn:Ge.
    2: { destruct (known_cases _ _ K) as [[? _]|(_ & e & E & _)]; [lia|congruence]. }
    apply get_evse_iff in Ge. destruct (ev_tx e) as [[tid ts]|] eqn:Te.
    2: { intros <- _. split; [exact P|]. split; [reflexivity|]. exists e. split; assumption. }
    destruct (Z.eqb_spec tid i) as [->|N]; cbn [negb].
    2: { intros <- _. split; [exact P|]. split; [reflexivity|]. exists e, (tid, ts).
         split; [assumption|]. split; [assumption|]. cbn. congruence. }
    destruct (existsb _ d) eqn:Y; [|congruence]. intros <- _. split; [exact P|]. split; [reflexivity|].
    apply existsb_exists in Y as (x & Hx & Y). apply andb_true_iff in Y as [Y Y3]. apply andb_true_iff in Y as [Y1 Y2].
    exists x. apply opt_is_iff in Y1 as (y & Ey & Ly). apply negb_true_iff in Y3.
    apply Z.eqb_eq in Ly, Y2. apply Z.eqb_neq in Y3. subst y.
    split; [assumption|]. split; [congruence|]. split; [congruence|]. split; assumption.
  - unfold validate_priority. rewrite P. cbn [purpose_eqb negb]. destruct (existsb _ _) eqn:X; [|congruence].
    intros <- _. apply existsb_exists in X as (x & Hx & X). split; [exact P|]. exists x. split; [exact Hx|].
    apply some_iff; exact X.
  - intros <- _. exact P.
Qed.

Lemma purpose_complete st d src id p r :
  known st id -> validate_purpose st d p id src = Valid ->
  In r [ChargingStationMaxProfileEvseIdGreaterThanZero; ChargingStationMaxProfileCannotBeRelative;
        DuplicateTxDefaultProfileFound;
        TxProfileEvseIdNotGreaterThanZero; TxProfileMissingTransactionId; TxProfileEvseHasNoActiveTransaction;
        TxProfileTransactionNotOnEvse; TxProfileConflictingStackLevel; ChargingSchedulePriorityExtranousDuration;
        InvalidProfileType] -> ~ violates st d src id p r.
Proof.
  intros K H.
  assert (F : forall q, pf_purpose p <> q -> pf_purpose p = q -> False) by (intros; congruence).
  assert (M : pf_purpose p = PMax -> id <= 0 /\ pf_kind p <> Relative).
  { intros P. unfold validate_purpose, validate_max in H. rewrite P in H. cbn [purpose_eqb negb] in H.
    destruct (Z.ltb_spec 0 id); [discriminate|]. destruct (kind_eqb _ _) eqn:B; [discriminate|].
    apply kind_niff in B. auto. }
  assert (D : pf_purpose p = PTxDefault -> forall x, In x d -> pf_purpose (r_p x) = PTxDefault ->
              pf_id (r_p x) <> pf_id p -> pf_stack (r_p x) = pf_stack p -> (r_evse x = 0 <-> id <> 0) -> False).
  { intros P x Hx Px Ix Sx Ex. unfold validate_purpose, validate_tx_default in H. rewrite P in H.
    destruct (existsb _ _) eqn:X; [discriminate|]. apply not_true_iff_false in X. apply X. apply existsb_exists.
    exists x. split.
    - apply filter_In. split; [exact Hx|]. apply purpose_iff in Px. rewrite Px. cbn.
      destruct (Z.eqb_spec id 0) as [->|N].
      + apply negb_true_iff, Z.eqb_neq. intros E. apply Ex in E. congruence.
      + apply Z.eqb_eq. apply Ex. exact N.
    - rewrite andb_true_iff, negb_true_iff, Z.eqb_eq, Z.eqb_neq. auto. }
  assert (T : pf_purpose p = PTx -> 0 < id /\ (src = SetProfile ->
              exists i e ts, pf_tx p = Some i /\ evse_of st id e /\ ev_tx e = Some (i, ts) /\
              forall x, In x d -> pf_tx (r_p x) = Some i -> pf_stack (r_p x) = pf_stack p ->
                pf_id (r_p x) <> pf_id p -> False)).
  { intros P. unfold validate_purpose, validate_tx in H. rewrite P in H.
    destruct (Z.leb_spec id 0); [discriminate|]. split; [lia|]. intros ->.
    destruct (evse_exists st id); [|discriminate]. cbn [negb] in H.
    destruct (pf_tx p) as [i|]; [|discriminate].
    destruct (get_evse st id) as [e|] eqn:Ge; [|discriminate]. apply get_evse_iff in Ge.
    destruct (ev_tx e) as [[tid ts]|]eqn:Te; [|discriminate].
    destruct (Z.eqb_spec tid i) as [->|N]; [|discriminate]. cbn [negb] in H.
    destruct (existsb _ d) eqn:Y; [discriminate|]. exists i, e, ts.
    repeat (split; [assumption || reflexivity|]). intros x Hx Tx Sx Ix. apply not_true_iff_false in Y. apply Y.
    apply existsb_exists. exists x. split; [exact Hx|]. rewrite Tx. cbn.
    rewrite !andb_true_iff, negb_true_iff, !Z.eqb_eq, Z.eqb_neq. auto. }
  assert (Pr : pf_purpose p = PPriority -> forall s, In s (pf_scheds p) -> sc_duration s = None).
  { intros P s Hs. unfold validate_purpose, validate_priority in H. rewrite P in H. cbn [purpose_eqb negb] in H.
    destruct (existsb _ _) eqn:X; [discriminate|]. apply some_niff. apply not_true_iff_false. intros B.
    apply not_true_iff_false in X. apply X. apply existsb_exists. exists s. auto. }
  cbn [In]. intros Hr. repeat destruct Hr as [<-|Hr]; [| | | | | | | | | |destruct Hr].
  - intros [P L]. destruct (M P). lia.
  - intros [P L]. destruct (M P). congruence.
  - intros (P & x & A1 & A2 & A3 & A4 & A5). eapply D; eauto.
  - intros [P L]. destruct (T P). lia.
  - intros (P & S & N). destruct (T P) as (_ & X). destruct (X S) as (i & e & ts & E & _). congruence.
  - intros (P & S & e' & E' & N). destruct (T P) as (_ & X). destruct (X S) as (i & e & ts & E & [_ E1] & E2 & _).
    destruct E' as [_ E']. congruence.
  - intros (P & S & e' & t & E' & Te & N). destruct (T P) as (_ & X).
    destruct (X S) as (i & e & ts & E & [_ E1] & E2 & _). destruct E' as [_ E'].
    assert (e' = e) by congruence. subst e'. assert (t = (i, ts)) by congruence. subst t. cbn in N. congruence.
  - intros (P & S & x & Hx & N & Tx & Sx & Ix). destruct (T P) as (_ & X).
    destruct (X S) as (i & e & ts & E & _ & _ & C). eapply C; eauto. congruence.
  - intros (P & s & Hs & N). apply N. apply Pr; assumption.
  - intros P. cbn in P. unfold validate_purpose in H. rewrite P in H. discriminate.
Qed.

Lemma validate_sound st d src id p r q :
  conform_and_validate_profile st d p id src = (r, q) -> r <> Valid -> violates st d src id p r.
Proof.
  unfold conform_and_validate_profile. cbn zeta. intros E N. injection E as E _.
  destruct (match src with RemoteStart => _ | SetProfile => _ end) eqn:A1.
  all: cbn [andthen] in E;
      try (destruct src; [discriminate A1|]; unfold validate_request_start in A1;
      destruct (purpose_eqb PTx (pf_purpose p)) eqn:B; try discriminate A1; subst r;
      (split; [reflexivity|intros X; rewrite X in B; discriminate B])).
  clear A1. destruct (Z.eqb_spec id 0) as [Z0|Z0].
  2: destruct (evse_exists st id) eqn:X.
  3: { cbn [andthen] in E. subst r. intros K. apply evse_exists_iff in K. congruence. }
  1: assert (K : known st id) by (left; exact Z0).
  2: assert (K : known st id) by (apply evse_exists_iff; exact X).
  all: cbn [andthen] in E;
    match type of E with andthen ?x _ = _ => destruct x eqn:A2 end; cbn [andthen] in E;
    try (subst r; apply violates_conformed; eapply conflicting_sound; [exact A2|discriminate]);
    match type of E with andthen ?x _ = _ => destruct x eqn:A3 end; cbn [andthen] in E;
    try (subst r; apply violates_conformed; unfold validate_profile_schedules in A3;
         change (pf_scheds (conform_validity p)) with (pf_scheds p) in A3;
         destruct (pf_scheds p) eqn:Es;
         [first [discriminate A3 | exact Es]
         |rewrite <- Es in A3; apply (schedules_sound st d src id (conform_validity p) _ K (pf_scheds p));
          [intros; assumption|exact A3|discriminate]]);
    (destruct (is_overlapping_validity_period d (conform_validity p) id) eqn:A4; cbn [andthen] in E;
     [subst r; apply overlapping_iff in A4; exact A4
     |apply violates_conformed; apply purpose_sound; assumption]).
Qed.

Lemma validate_complete st d src id p q :
  conform_and_validate_profile st d p id src = (Valid, q) -> fit_for st d src id p.
Proof.
  unfold conform_and_validate_profile. cbn zeta. intros E. injection E as E _.
  destruct (match src with RemoteStart => _ | SetProfile => _ end) eqn:A1; try discriminate E.
  cbn [andthen] in E.
  assert (K : known st id).
  { destruct (Z.eqb_spec id 0) as [Z0|Z0]; [left; exact Z0|]. apply evse_exists_iff.
    destruct (evse_exists st id); [reflexivity|discriminate E]. }
  assert (E0 : andthen (verify_no_conflicting_external_constraints_id st d (conform_validity p))
     (andthen (validate_profile_schedules st (get_evse st id) (conform_validity p))
      (andthen (if is_overlapping_validity_period d (conform_validity p) id then DuplicateProfileValidityPeriod
                else Valid)
               (validate_purpose st d (conform_validity p) id src))) = Valid).
  { destruct (id =? 0); [exact E|]. destruct (evse_exists st id); [exact E|discriminate E]. }
  clear E. rename E0 into E.
  match type of E with andthen ?x _ = _ => destruct x eqn:A2; try discriminate E end. cbn [andthen] in E.
  match type of E with andthen ?x _ = _ => destruct x eqn:A3; try discriminate E end. cbn [andthen] in E.
  destruct (is_overlapping_validity_period d (conform_validity p) id) eqn:A4; [discriminate E|]. cbn [andthen] in E.
  assert (NE : pf_scheds p <> []).
  { intros N. unfold validate_profile_schedules in A3.
    change (pf_scheds (conform_validity p)) with (pf_scheds p) in A3. rewrite N in A3. discriminate A3. }
  assert (SF : forall s, In s (pf_scheds p) -> schedule_fine st id (conform_validity p) s).
  { unfold validate_profile_schedules in A3. change (pf_scheds (conform_validity p)) with (pf_scheds p) in A3.
    destruct (pf_scheds p) eqn:Es; [congruence|]. apply schedules_complete; assumption. }
  assert (PF : forall s c, In s (pf_scheds p) -> In c (sc_periods s) -> exists f n, period_fine st id p s f c n).
  { intros s c Hs Hc. destruct (SF s Hs) as (_ & _ & _ & X & _).
    apply in_split in Hc as (a & b & Hc). specialize (X a c b Hc). eexists _, _. exact X. }
  intros r V.
  assert (V' := V). apply violates_conformed in V'.
  destruct r; try exact V;
    try (eapply conflicting_complete; [exact A2| |exact V']; cbn; tauto);
    try (eapply purpose_complete; [exact K|exact E| |exact V']; cbn; tauto).
  - exact (V K).
  - destruct V as (s & Hs & V). destruct (SF s Hs) as (_ & X & _). exact (X V).
  - destruct V as (s & Hs & c & l & El & V). destruct (SF s Hs) as (_ & _ & _ & X & _).
    destruct (X [] c l El) as (_ & _ & Y & _). apply V, Y. reflexivity.
  - destruct V as (Ki & s & Hs & V). destruct (SF s Hs) as (_ & _ & _ & _ & X & _). exact (X Ki V).
  - destruct V as (Ki & s & Hs & V). destruct (SF s Hs) as (_ & _ & _ & _ & _ & X). exact (V (X Ki)).
  - destruct V as (V1 & V2 & V3). destruct (pf_scheds p) as [|s l] eqn:Es; [congruence|].
    destruct (SF s (or_introl eq_refl)) as (_ & _ & X & _). destruct (X V1) as (_ & Y & _). exact (V3 (Y V2)).
  - destruct V as (V1 & V2 & V3). destruct (pf_scheds p) as [|s l] eqn:Es; [congruence|].
    destruct (SF s (or_introl eq_refl)) as (_ & _ & X & _). destruct (X V1) as (_ & _ & Y & _). specialize (Y V2). congruence.
  - destruct V as (V1 & V2 & V3). destruct (pf_scheds p) as [|s l] eqn:Es; [congruence|].
    destruct (SF s (or_introl eq_refl)) as (_ & _ & X & _). destruct (X V1) as (_ & _ & _ & Y & _). exact (V3 (Y V2)).
  - destruct V as [(s & Hs & V)|(V0 & s & c & Hs & Hc & V1 & V2)].
    + destruct (SF s Hs) as (X & _). exact (V X).
    + destruct (PF s c Hs Hc) as (f & n & F1 & F2 & F3 & F4 & F5 & F6 & F7).
      destruct (F7 V0) as (_ & _ & G & _). exact (G V1 V2).
  - destruct V as (V1 & V2 & V3 & s & Hs & n & E1 & L). destruct (SF s Hs) as (_ & _ & X & _).
    destruct (X V1) as (Y & _). specialize (Y V2 V3 n E1). lia.
  - destruct V as (V1 & V2 & s & Hs & V3). destruct (SF s Hs) as (_ & _ & X & _).
    destruct (X V1) as (_ & _ & _ & _ & Y & _). specialize (Y V3). congruence.
  - destruct V as (V1 & V2 & s & Hs & V3). destruct (SF s Hs) as (_ & _ & X & _).
    destruct (X V1) as (_ & _ & _ & _ & _ & Y & _). specialize (Y V3). congruence.
  - destruct V as (V1 & V2 & s & Hs & V3). destruct (SF s Hs) as (_ & _ & X & _).
    destruct (X V1) as (_ & _ & _ & _ & _ & _ & Y). specialize (Y V3). congruence.
  - destruct V as (V0 & V1 & s & c & Hs & Hc & V). destruct (PF s c Hs Hc) as (f & n & F1 & F2 & F3 & F4 & F5 & F6 & F7).
    destruct (F7 V0) as (_ & _ & _ & G & _). specialize (G V). congruence.
  - destruct V as (s & Hs & l & a & b & t & El & V). destruct (SF s Hs) as (_ & _ & _ & X & _).
    destruct (X l a (b :: t) El) as (_ & _ & _ & Y & _). specialize (Y b eq_refl). lia.
  - destruct V as (s & c & Hs & Hc & V1 & V2). destruct (PF s c Hs Hc) as (f & n & F1 & _). exact (V2 (F1 V1)).
  - destruct V as (V0 & s & c & Hs & Hc & n & E1 & L). destruct (PF s c Hs Hc) as (f & n' & F1 & F2 & F3 & F4 & F5 & F6 & F7).
    specialize (F6 V0 n E1). lia.
  - destruct V as (V0 & V1 & s & c & Hs & Hc & V). destruct (PF s c Hs Hc) as (f & n & F1 & F2 & F3 & F4 & F5 & F6 & F7).
    destruct (F5 V1 V). congruence.
  - destruct V as (V0 & s & c & Hs & Hc & V). destruct (PF s c Hs Hc) as (f & n & F1 & F2 & F3 & F4 & F5 & F6 & F7).
    specialize (F2 V). congruence.
  - destruct V as (V0 & V1 & s & c & Hs & Hc & V). destruct (PF s c Hs Hc) as (f & n & F1 & F2 & F3 & F4 & F5 & F6 & F7).
    destruct (F7 V0) as (G & _). exact (V (G V1)).
  - destruct V as (V0 & s & c & Hs & Hc & V). destruct (PF s c Hs Hc) as (f & n & F1 & F2 & F3 & F4 & F5 & F6 & F7).
    destruct (F7 V0) as (_ & G & _). exact (V G).
  - destruct V as (V0 & s & c & Hs & Hc & V). destruct (PF s c Hs Hc) as (f & n & F1 & F2 & F3 & F4 & F5 & F6 & F7).
    destruct (F7 V0) as (_ & _ & _ & _ & G & _). exact (V G).
  - destruct V as (V0 & V1 & V2 & s & c & Hs & Hc & V). destruct (PF s c Hs Hc) as (f & n & F1 & F2 & F3 & F4 & F5 & F6 & F7).
    destruct (F5 V1 V) as [_ G]. exact (V2 G).
  - destruct V as (V0 & s & c & Hs & Hc & V1 & V2). destruct (PF s c Hs Hc) as (f & n & F1 & F2 & F3 & F4 & F5 & F6 & F7).
    destruct (F7 V0) as (_ & _ & _ & _ & _ & G & _). exact (V2 (G V1)).
  - destruct V as (V0 & s & c & Hs & Hc & V). destruct (PF s c Hs Hc) as (f & n & F1 & F2 & F3 & F4 & F5 & F6 & F7).
    destruct (F7 V0) as (_ & _ & _ & _ & _ & _ & G). exact (G V).
  - apply not_true_iff_false in A4. apply A4. apply overlapping_iff. exact V.
  - destruct V as (-> & V). unfold validate_request_start in A1.
    destruct (pf_purpose p); try congruence; discriminate A1.
Qed.

Lemma validate_iff st d src id p q r :
  conform_and_validate_profile st d p id src = (r, q) -> (r = Valid <-> fit_for st d src id p).
Proof.
  intros E. split.
  - intros ->. eapply validate_complete; exact E.
  - intros F. destruct (match r with Valid => true | _ => false end) eqn:B; [destruct r; congruence|].
    exfalso. eapply (F r). eapply validate_sound; [exact E|]. intros ->. discriminate B.
Qed.

Lemma spelled_conformed st d src id p q r :
  known st id -> conform_and_validate_profile st d p id src = (r, q) -> spelled_out st id p q.
Proof.
  intros K E. unfold conform_and_validate_profile in E. cbn zeta in E. injection E as _ <-.
  unfold conform_schedules, spelled_out.
  assert (F : forall s, set_periods s (map conform_phases (sc_periods s)) =
                        {| sc_unit := sc_unit s; sc_periods := map all_phases (sc_periods s); sc_soc := sc_soc s;
            sc_start := sc_start s; sc_duration := sc_duration s; sc_local := sc_local s;
            sc_delay := sc_delay s |}).
  { intros s. unfold set_periods. f_equal. apply map_ext. intros c. unfold conform_phases, all_phases.
    destruct c as [? ? ph ? ? ? ? ? ? ? ?]; destruct ph; reflexivity. }
  assert (C : conform_validity p = with_scheds p (pf_scheds p)).
  { unfold with_scheds. rewrite <- from_conformed, <- to_conformed. reflexivity. }
  assert (G : forall l, set_scheds (conform_validity p) l = with_scheds p l).
  { intros l. rewrite C. reflexivity. }
  pose proof (ac_iff st id K) as A.
  destruct (get_current_phase_type st (get_evse st id)) eqn:T.
  all: split; intros H; try (apply A in H; congruence); try exact C.
  all: try (exfalso; apply H, A; congruence).
  rewrite G. f_equal. change (pf_scheds (conform_validity p)) with (pf_scheds p). apply map_ext. exact F.
Qed.
