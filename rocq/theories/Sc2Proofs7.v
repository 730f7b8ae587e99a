(** Proofs about composite schedules of OCPP 2.x: whole schedules. *)

From Coq Require Import ZArith String List Bool Lia Permutation Sorted.
From Verif Require Import P2Model P2Spec P2Proofs P2Proofs2 P2Proofs3 P2Proofs4 Sc2Model Sc2Spec Sc2Spec2
  Sc2Proofs Sc2Proofs2 Sc2Proofs3 Sc2Proofs5 Sc2Proofs6.
Import ListNotations.
Open Scope Z_scope.

Lemma get_evse_of st e ev : evse_of st e ev -> get_evse st e = Some ev /\ e <> 0.
Proof.
  intros [P N]. unfold get_evse. assert (E : e <=? 0 = false) by (apply Z.leb_gt; exact P). rewrite E. split; [exact N|lia].
Qed.

Lemma started_eq ev : tx_start ev = started ev.
Proof. unfold tx_start, started. destruct (ev_tx ev) as [[a b]|]; reflexivity. Qed.

Lemma follows_weaken l now len (r1 r2 : Z -> operiod -> Prop) :
  (forall t x, now <= t < now + len -> r1 t x -> r2 t x) -> 0 < len -> follows l now len r1 -> follows l now len r2.
Proof.
  intros H L (A & B & C). split; [exact A|]. split.
  - intros o Ho. destruct (B o Ho) as (x & R & V). exists x. split; [|exact V]. apply H; [|exact R].
    destruct A as (_ & _ & A & _). specialize (A L). rewrite Forall_forall in A. specialize (A o Ho). lia.
  - intros t Ht. destruct (C t Ht) as (o & x & K & R & V). exists o, x. split; [exact K|]. split; [apply H; assumption|exact V].
Qed.

Lemma in_unit_eq ar st u w :
  expressed ar u (match u with UA => current_limit ar st | UW => power_limit ar st end)
    (default_number_phases st) (supply_voltage ar st) w = in_unit ar st u w.
Proof. reflexivity. Qed.

Section Whole.
  Variable ar : arith.
  Variables sort_date sort_stack : list entry -> list entry.
  Hypothesis sd : sorts sort_date by_start.
  Hypothesis ss : sorts sort_stack by_stack.
  Variables in_now in_end : Z.
  Let now := floor_seconds in_now.
  Let en := floor_seconds in_end.
  Hypothesis window : 0 < en - now <= INT_MAX.
  Variable st : station.
  Variable d : list row.
  Variables offline simulate : bool.
  Notation counts := (counts_for st d offline).
  Notation ignore := (purposes_to_ignore st offline).
  Notation valid e := (get_valid_profiles_for_evse st d e ignore).

  Notation Said := (said in_now in_end).

  Lemma counts_0 e p : counts 0 p -> counts e p.
  Proof. intros (x & A & B & C). exists x. split; [exact A|]. split; [right; tauto|exact C]. Qed.

  Lemma max_sane e session :
    (forall p, counts e p -> sane now en session p) ->
    forall p, counts 0 p -> pf_purpose p = PMax -> sane now en None p.
  Proof.
    intros H p Hp Pp. apply (sane_session p now en session None); [exact (counts_max_kind _ _ _ _ _ Hp Pp)|].
    apply H. apply counts_0. exact Hp.
  Qed.

  Lemma demands_from e ev t w : now <= t < en ->
    (forall p, counts e p -> sane now en (started ev) p) ->
    demands st d offline simulate now e ev t w -> from (counts e) w.
  Proof.
    intros Ht Hs [(_ & _ & ->)|(_ & tx & txd & D1 & D2 & ->)].
    - split; [exact tidy_nothing|left; reflexivity].
    - assert (T : forall pu r, decides (counts e) pu now (started ev) t r -> tidy (wanted_by r)).
      { intros pu r D. destruct r as [[p c]|]; [|exact tidy_nothing]. destruct D as (H1 & _ & H3 & _).
        destruct (Hs p H1) as (_ & T & _). exact (tidy_in_force _ _ _ _ _ T H3). }
      apply override_from; eapply decides_from; eauto.
  Qed.

  Lemma allows_from e session t m :
    (forall p, counts e p -> sane now en session p) ->
    station_allows st d offline now t m -> from (counts e) m.
  Proof.
    intros Hs (r & D & ->). apply (from_weaken (counts 0)); [intros p; apply counts_0|].
    eapply decides_from; [exact D|]. destruct r as [[p c]|]; [|exact tidy_nothing].
    destruct D as (H1 & H2 & H3 & _). destruct (max_sane e session Hs p H1 H2) as (_ & T & _).
    exact (tidy_in_force _ _ _ _ _ T H3).
  Qed.

  (** what an EVSE demands, before the station's limits *)
  Lemma intermediates_said e ev :
    (forall p, counts e p -> sane now en (started ev) p) ->
    exists rules, Forall2 Said (generate_evse_intermediates sort_date sort_stack (valid e) (valid 0) in_now in_end
                                  (started ev) simulate) rules /\
      forall t ws, Forall2 (fun r w => r t w) rules ws ->
        (ws = [nothing] /\ demands st d offline simulate now e ev t nothing) \/
        exists w, ws = [nothing; w] /\ demands st d offline simulate now e ev t w.
  Proof.
    intros Hs. unfold generate_evse_intermediates.
    pose proof (ext_said sort_date sort_stack sd ss in_now in_end window st d offline e (started ev) Hs) as X.
    pose proof (tx_said sort_date sort_stack sd ss in_now in_end window st d offline e (started ev) Hs) as T.
    destruct (is_some (started ev) || simulate) eqn:A.
    - eexists [_; _]. split; [apply Forall2_cons; [exact X|apply Forall2_cons; [exact T|apply Forall2_nil]]|].
      intros t ws F. inversion F as [|r w rs ws1 Hw F1]; subst. inversion F1 as [|r w2 rs ws2 Hw2 F2]; subst. inversion F2; subst.
      right. exists w2. split; [reflexivity|]. right. split; [|exact Hw2].
      apply orb_true_iff in A as [A|A]; [left; destruct (started ev); [discriminate|discriminate A]|right; exact A].
    - eexists [_]. split; [apply Forall2_cons; [exact X|apply Forall2_nil]|].
      intros t ws F. inversion F as [|r w rs ws1 Hw F1]; subst. inversion F1; subst. left. split; [reflexivity|].
      apply orb_false_iff in A as [A B]. left. split; [destruct (started ev); [discriminate A|reflexivity]|]. split; [exact B|reflexivity].
  Qed.

  Theorem evse_follows e ev u :
    evse_of st e ev ->
    (forall p, counts e p -> sane now en (started ev) p) ->
    (s_version st = V21 -> forall p, counts e p -> shareable ar p) ->
    follows (calculate_composite_schedule ar sort_date sort_stack st d in_now in_end e u offline simulate)
      now (en - now)
      (fun t x => exists w m, demands st d offline simulate now e ev t w /\
                              station_allows st d offline now t m /\
                              x = in_unit ar st u (evse_rule ar (s_version st) w m)).
  Proof.
    intros He Hs Hsh. destruct (get_evse_of _ _ _ He) as [G N]. unfold calculate_composite_schedule.
    assert (E0 : e =? 0 = false) by (apply Z.eqb_neq; exact N). rewrite E0, G, started_eq.
    destruct (intermediates_said e ev Hs) as (rules & F & R).
    pose proof (max_said sort_date sort_stack sd ss in_now in_end window st d offline (started ev)
                  (max_sane e (started ev) Hs)) as M.
    set (ms := generate_evse_intermediates sort_date sort_stack (valid e) (valid 0) in_now in_end (started ev) simulate) in *.
    set (mx := generate_profile_from_periods _ _ _ _) in *.
    assert (RW : forall t ws, Forall2 (fun r w => r t w) (rules ++ [station_allows st d offline now])%list ws ->
      exists w m, demands st d offline simulate now e ev t w /\ station_allows st d offline now t m /\
                  (ws = [nothing; m] /\ w = nothing \/ ws = [nothing; w; m])).
    { intros t ws H. apply Forall2_app_inv_l in H as (l1 & l2 & H1 & H2 & ->).
      inversion H2 as [|r m rs ws2 Hm F2]; subst. inversion F2; subst.
      destruct (R t l1 H1) as [(-> & D)|(w & -> & D)].
      - exists nothing, m. split; [exact D|]. split; [exact Hm|]. left. split; reflexivity.
      - exists w, m. split; [exact D|]. split; [exact Hm|]. right. reflexivity. }
    pose proof (lowest_said ar in_now in_end window (s_version st) (ms ++ [mx])%list
      (rules ++ [station_allows st d offline now])%list) as L.
    eapply follows_weaken; [| |apply (final_follows ar in_now in_end); apply L].
    - intros t x Ht (w & (ws & Fw & _ & ->) & ->). destruct (RW t ws Fw) as (w & m & D & A & C).
      exists w, m. split; [exact D|]. split; [exact A|]. rewrite in_unit_eq. f_equal. unfold evse_rule.
      destruct C as [(-> & ->)| ->]; rewrite ?strictest_nothing, ?per_phase_nothing; reflexivity.
    - fold now en. lia.
    - destruct ms; discriminate.
    - apply Forall2_app; [exact F|]. apply Forall2_cons; [exact M|apply Forall2_nil].
    - intros t ws Ht Fw _ P. destruct (s_version st) eqn:V; [discriminate P|].
      refine (from_all_equalised ar (counts e) (per_phase V21 ws) ws (Hsh eq_refl) _ P).
      destruct (RW t ws Fw) as (w & m & D & A & C). pose proof (demands_from e ev t w Ht Hs D) as Fr.
      pose proof (allows_from e (started ev) t m Hs A) as Fm.
      assert (Fn : from (counts e) nothing) by (split; [exact tidy_nothing|left; reflexivity]).
      destruct C as [(-> & _)| ->]; auto.
  Qed.

  (** ** the station *)

  Lemma evse_alone_said e ev :
    (forall p, counts e p -> sane now en (started ev) p) ->
    (s_version st = V21 -> forall p, counts e p -> shareable ar p) ->
    Said (merge_profiles_by_lowest_limit ar (s_version st)
            (generate_evse_intermediates sort_date sort_stack (valid e) (valid 0) in_now in_end
               (started ev) simulate))
         (fun t w => exists x, demands st d offline simulate now e ev t x /\ w = one_by_one ar (s_version st) x).
  Proof.
    intros Hs Hsh. destruct (intermediates_said e ev Hs) as (rules & F & R).
    set (ms := generate_evse_intermediates sort_date sort_stack (valid e) (valid 0) in_now in_end (started ev) simulate) in *.
    assert (RW : forall t ws, Forall2 (fun r w => r t w) rules ws ->
      exists w, demands st d offline simulate now e ev t w /\ (ws = [nothing] /\ w = nothing \/ ws = [nothing; w])).
    { intros t ws H. destruct (R t ws H) as [(-> & D)|(w & -> & D)]; [exists nothing|exists w]; auto. }
    destruct (lowest_said ar in_now in_end window (s_version st) ms rules) as (L1 & L2 & L3).
    - unfold ms, generate_evse_intermediates. discriminate.
    - exact F.
    - intros t ws Ht Fw _ P. destruct (s_version st) eqn:V; [discriminate P|].
      refine (from_all_equalised ar (counts e) (per_phase V21 ws) ws (Hsh eq_refl) _ P).
      destruct (RW t ws Fw) as (w & D & C). pose proof (demands_from e ev t w Ht Hs D) as Fr.
      assert (Fn : from (counts e) nothing) by (split; [exact tidy_nothing|left; reflexivity]).
      destruct C as [(-> & _)| ->]; auto.
    - split; [exact L1|]. split; [exact L2|]. intros t Ht. destruct (L3 t Ht) as (w & (ws & Fw & _ & ->) & Rp).
      destruct (RW t ws Fw) as (w & D & C). eexists. split; [|exact Rp]. exists w. split; [exact D|]. unfold one_by_one.
      destruct C as [(-> & ->)| ->]; rewrite ?strictest_nothing, ?per_phase_nothing; reflexivity.
  Qed.

  Lemma wrep_pay x y w : ipay x = ipay y -> wrep x w -> wrep y w.
  Proof. unfold ipay, wrep. intros E; injection E as -> -> -> -> -> -> ->. tauto. Qed.
  Lemma paired_pay x y w : ipay x = ipay y -> paired x w -> paired y w.
  Proof. unfold ipay, paired. intros E; injection E as E1 E2 E3 E4 E5 E6 E7. rewrite E3, E4. tauto. Qed.
  Lemma uses_three_pay x y : ipay x = ipay y -> uses_three_phase_values x = uses_three_phase_values y.
  Proof. unfold ipay, uses_three_phase_values. intros E; injection E as E1 E2 E3 E4 E5 E6 E7. rewrite E1, E2, E3, E4, E5, E6. reflexivity. Qed.

  Definition all_rules : list (Z -> want -> Prop) :=
    map (fun ie t w => exists x, demands st d offline simulate now (Z.of_nat (fst ie)) (snd ie) t x /\
                                 w = one_by_one ar (s_version st) x)
        (combine (seq 1 (List.length (s_evses st))) (s_evses st)).

  Lemma all_rules_demand t ws :
    Forall2 (fun r w => r t w) all_rules ws ->
    exists xs, all_demand st d offline simulate now t xs /\ ws = map (one_by_one ar (s_version st)) xs.
  Proof.
    unfold all_rules, all_demand. generalize (s_evses st) as es. intros es.
    assert (G : forall es k ws, Forall2 (fun (r : Z -> want -> Prop) w => r t w)
      (map (fun ie t w => exists x, demands st d offline simulate now (Z.of_nat (fst ie)) (snd ie) t x /\
                                 w = one_by_one ar (s_version st) x) (combine (seq (S k) (List.length es)) es)) ws ->
      exists xs, (List.length xs = List.length es /\
        forall i ev w, nth_error es i = Some ev -> nth_error xs i = Some w ->
                 demands st d offline simulate now (Z.of_nat (k + i) + 1) ev t w) /\
        ws = map (one_by_one ar (s_version st)) xs).
    { clear es ws. induction es as [|ev es IH]; intros k ws H.
      - inversion H; subst. exists []. split; [|reflexivity]. split; [reflexivity|]. intros [|i] ev w E; discriminate E.
      - cbn [List.length seq combine map] in H. inversion H as [|r w rs ws1 Hw F1]; subst.
        destruct Hw as (x & Dx & ->). destruct (IH (S k) ws1 F1) as (xs & (X1 & X2) & ->).
        exists (x :: xs). split; [|reflexivity]. split; [cbn; congruence|]. intros [|i] e w E1 E2.
        + cbn in E1, E2. injection E1 as <-. injection E2 as <-. cbn [fst snd] in Dx.
          replace (Z.of_nat (k + 0) + 1) with (Z.of_nat (S k)) by lia. exact Dx.
        + cbn in E1, E2. replace (Z.of_nat (k + S i) + 1) with (Z.of_nat (S k + i) + 1) by lia. eapply X2; eassumption. }
    intros H. exact (G es 0%nat ws H).
  Qed.

  Theorem station_follows u :
    s_evses st <> [] ->
    (forall e ev, evse_of st e ev -> forall p, counts e p -> sane now en (started ev) p) ->
    (s_version st = V21 -> forall e p, counts e p -> shareable ar p) ->
    (forall t ws m, now <= t < en -> all_demand st d offline simulate now t ws ->
                    station_allows st d offline now t m -> addable ar st ws m) ->
    follows (calculate_composite_schedule ar sort_date sort_stack st d in_now in_end 0 u offline simulate)
      now (en - now)
      (fun t x => exists ws m, all_demand st d offline simulate now t ws /\
                               station_allows st d offline now t m /\
                               x = in_unit ar st u (station_rule ar st ws m)).
  Proof.
    intros Hne Hs Hsh Hadd. unfold calculate_composite_schedule. rewrite Z.eqb_refl.
    set (v := s_version st) in *.
    set (session := match rev (s_evses st) with e :: _ => tx_start e | [] => None end).
    assert (Hidx : forall i ev, In (i, ev) (combine (seq 1 (List.length (s_evses st))) (s_evses st)) ->
              evse_of st (Z.of_nat i) ev).
    { assert (G : forall (es : list evse) k i ev, In (i, ev) (combine (seq (S k) (List.length es)) es) ->
                (k < i)%nat /\ nth_error es (i - S k) = Some ev).
      { induction es as [|e0 es IH]; intros k i ev H; [destruct H|]. cbn [List.length seq combine] in H.
        destruct H as [E|H].
        - assert (i = S k /\ ev = e0) as [-> ->] by (split; congruence). split; [lia|].
          replace (S k - S k)%nat with 0%nat by lia. reflexivity.
        - destruct (IH (S k) i ev H) as [A B]. split; [lia|]. replace (i - S k)%nat with (S (i - S (S k)))%nat by lia. exact B. }
      intros i ev H. destruct (G _ 0%nat i ev H) as [A B]. split; [lia|].
      replace (Z.to_nat (Z.of_nat i - 1)) with (i - 1)%nat by lia. exact B. }
    assert (M : Said (generate_profile_from_periods sort_stack
        (calculate_all_profiles sort_date in_now in_end session (valid 0) PMax) in_now in_end) (station_allows st d offline now)).
    { apply max_said; try assumption. destruct (s_evses st) as [|ev0 es] eqn:Ee; [congruence|].
      apply (max_sane 1 (started ev0)). apply (Hs 1 ev0). split; [lia|]. rewrite Ee. reflexivity. }
    set (mx := generate_profile_from_periods _ (calculate_all_profiles _ _ _ session _ _) _ _) in *.
    set (ms := map _ (combine _ _)).
    assert (F : Forall2 Said ms all_rules).
    { unfold ms, all_rules. revert Hidx. generalize (combine (seq 1 (List.length (s_evses st))) (s_evses st)).
      intros l. induction l as [|[i ev] l IH]; intros Hl; [constructor|]. cbn [map]. constructor.
      - cbn [fst snd]. rewrite started_eq. apply evse_alone_said.
        + apply (Hs (Z.of_nat i) ev). apply Hl. left. reflexivity.
        + intros V p Hp. exact (Hsh V _ p Hp).
      - apply IH. intros i' ev' H'. apply Hl. right. exact H'. }
    assert (Mne : ms <> []).
    { unfold ms. destruct (s_evses st); [congruence|discriminate]. }
    clearbody ms mx. clear session Hidx Hsh.
    set (cd := amps_limit ar st). set (wd := watts_limit ar st).
    change (current_limit ar st) with cd. change (power_limit ar st) with wd.
    (* at an offset: the sum *)
    assert (S1 : forall t, now <= t < en -> exists ws, all_demand st d offline simulate now t ws /\
       let x := comb_sum ar v cd wd (map (at_offset (t - now)) ms) in
       (exists m, station_allows st d offline now t m /\ rep (at_offset (t - now) mx) m /\ addable ar st ws m) /\
       wrep x (together ar st ws) /\ paired x (together ar st ws) /\ good x /\ uses_three_phase_values x = true).
    { intros t Ht.
      assert (exists l, Forall2 (fun r w => r t w) all_rules l /\ Forall2 rep (map (at_offset (t - now)) ms) l) as (l & R1 & R2).
      { clear -F Ht. induction F as [|m r ms rules Hx _ IH]; [exists []; split; constructor|].
        destruct IH as (ws & I1 & I2). destruct Hx as (_ & _ & X). destruct (X t Ht) as (w & R1 & R2).
        exists (w :: ws). split; constructor; assumption. }
      destruct (all_rules_demand t l R1) as (xs & D & ->). destruct M as (_ & _ & M).
      destruct (M t Ht) as (m & A & Rm). pose proof (Hadd t xs m Ht D A) as AD.
      exists xs. split; [exact D|]. cbn zeta. split; [exists m; auto|].
      destruct AD as (A1 & A2 & _). apply comb_sum_rep.
      - destruct ms; [congruence|discriminate].
      - exact R2.
      - exact A1.
      - exact A2. }
    unfold merge_profiles_by_summing_limits.
    destruct (combine_ok (comb_sum ar v cd wd) ms (en - now)) as (C1 & C2 & C3).
    { exact Mne. }
    { clear -F. induction F as [|m r ms rules Hx _ IH]; constructor; [apply Hx|exact IH]. }
    { lia. }
    { clear -F. induction F as [|m r ms rules Hx _ IH]; constructor; [apply Hx|exact IH]. }
    { intros o Ho. destruct (S1 (now + o) ltac:(lia)) as (ws & _ & _ & _ & _ & G & _).
      replace (now + o - now) with o in G by lia. exact G. }
    set (sum := combine_list_of_profiles ms (comb_sum ar v cd wd)) in *.
    (* and the lowest of sum and max *)
    assert (S2 : forall t, now <= t < en -> exists ws m, all_demand st d offline simulate now t ws /\
       station_allows st d offline now t m /\
       rep (comb_lowest ar v (map (at_offset (t - now)) [sum; mx])) (station_rule ar st ws m)).
    { intros t Ht. destruct (S1 t Ht) as (ws & D & (m & A & Rm & AD) & W & P & _ & U). cbn zeta in *.
      exists ws, m. split; [exact D|]. split; [exact A|]. cbn [map].
      assert (E : ipay (comb_sum ar v cd wd (map (at_offset (t - now)) ms)) = ipay (at_offset (t - now) sum)).
      { symmetry. apply (C3 (t - now)). lia. }
      apply (wrep_pay _ _ _ E) in W. apply (paired_pay _ _ _ E) in P. rewrite (uses_three_pay _ _ E) in U.
      assert (T : three_of v [at_offset (t - now) sum; at_offset (t - now) mx] =
                  match v with V21 => true | V201 => false end).
      { unfold three_of. cbn [existsb]. rewrite U. destruct v; reflexivity. }
      unfold station_rule. fold v. rewrite <- T. destruct AD as (_ & A2 & A3). apply comb_lowest_rep.
      - constructor; [exact W|]. constructor; [exact (rep_wrep _ _ Rm)|constructor].
      - constructor; [exact P|]. constructor; [|constructor]. destruct Rm as (E1 & E2 & E3 & E4 & _). left. split; assumption.
      - constructor; [exact A2|]. constructor; [exact (rep_tidy _ _ Rm)|constructor].
      - rewrite T. exact A3. }
    destruct M as (M1 & M2 & _).
    destruct (combine_ok (comb_lowest ar v) [sum; mx] (en - now)) as (L1 & L2 & L3).
    { discriminate. }
    { apply Forall_cons; [exact C1|apply Forall_cons; [exact M1|apply Forall_nil]]. }
    { lia. }
    { apply Forall_cons; [exact C2|apply Forall_cons; [exact M2|apply Forall_nil]]. }
    { intros o Ho. destruct (S2 (now + o) ltac:(lia)) as (ws & m & _ & _ & R).
      replace (now + o - now) with o in R by lia. eapply rep_good. exact R. }
    eapply follows_weaken; [| |apply (final_follows ar in_now in_end);
      split; [exact L1|split; [exact L2|]]].
    - intros t x Ht (w & Hw & ->).
      instantiate (1 := fun t w => exists ws m, all_demand st d offline simulate now t ws /\
         station_allows st d offline now t m /\ w = station_rule ar st ws m) in Hw.
      cbv beta in Hw. destruct Hw as (ws & m & D & A & ->). exists ws, m.
      split; [exact D|]. split; [exact A|]. reflexivity.
    - fold now en. lia.
    - intros t Ht. destruct (S2 t Ht) as (ws & m & D & A & R). exists (station_rule ar st ws m).
      split; [exists ws, m; auto|]. eapply rep_pay; [|exact R]. symmetry. apply (L3 (t - now)). fold now. lia.
  Qed.
End Whole.
