(** Proofs about the functions given to a v2 station (CbModel, CbSpec). *)

From Coq Require Import List Bool ZArith Lia.
From Verif Require Import CbModel CbSpec.
Import ListNotations.

Lemma on_iff : forall o, value_or_false o = true <-> is_on o.
Proof. intros [[]|]; unfold is_on; cbn; split; congruence. Qed.
Lemma off_iff : forall o, value_or_false o = false <-> ~ is_on o.
Proof. intros [[]|]; unfold is_on; cbn; split; congruence. Qed.

Lemma v2x_iff : forall d evses, v2x_anywhere d evses = true <-> v2x_somewhere d evses.
Proof.
  intros d evses. unfold v2x_anywhere, v2x_somewhere. rewrite existsb_exists.
  split; intros [e [He Hv]]; exists e; (split; [exact He | apply on_iff; exact Hv]).
Qed.

Lemma v2x_not_iff : forall d evses, v2x_anywhere d evses = false <-> ~ v2x_somewhere d evses.
Proof. intros d evses. rewrite <- v2x_iff. destruct (v2x_anywhere d evses); split; congruence. Qed.

Lemma not_null_iff : forall f, not_null f = true <-> f = Given.
Proof. intros []; cbn; split; congruence. Qed.
Lemma absent_iff : forall o, absent_or_given o = true <-> o <> Some Empty.
Proof. intros [[]|]; cbn; split; congruence. Qed.
Lemma missing_iff : forall o, missing o = false <-> o = Some Given.
Proof. intros [[]|]; cbn; split; congruence. Qed.

Lemma always_iff : forall c,
  always_valid c = true <->
  (forall m, mand c m = Given) /\ (forall o, looked_at o -> opt c o <> Some Empty).
Proof.
  intros c. unfold always_valid. split.
  - intros H. repeat rewrite andb_true_iff in H.
    repeat match goal with H : _ /\ _ |- _ => destruct H end.
    repeat match goal with
    | H : not_null _ = true |- _ => apply not_null_iff in H
    | H : absent_or_given _ = true |- _ => apply absent_iff in H
    end.
    split; [intros []; assumption | intros [] L; cbn in L; try contradiction; assumption].
  - intros [Hm Ho]. repeat rewrite Hm. cbn [not_null andb].
    repeat (apply andb_true_iff; split);
      apply absent_iff; apply Ho; cbn; exact Logic.I.
Qed.

Lemma guard_iff : forall b x, negb (b && x) = true <-> (b = true -> x = false).
Proof. intros [] []; cbn; split; intros; try reflexivity; try discriminate; auto.
  exfalso. specialize (H eq_refl). discriminate. Qed.

Lemma valid_complete : forall c d evses,
  all_callbacks_valid c d evses = true <-> complete c d evses.
Proof.
  intros c d evses. unfold all_callbacks_valid.
  destruct (always_valid c) eqn:Ea.
  - apply always_iff in Ea. destruct Ea as [Hm Ho].
    repeat rewrite andb_true_iff. repeat rewrite guard_iff.
    split.
    + intros [[[[H1 H2] H3] H4] H5]. constructor; try assumption.
      * intros H. apply on_iff in H. apply H1 in H.
        repeat rewrite orb_false_iff in H. repeat rewrite missing_iff in H. tauto.
      * intros H. apply on_iff in H. apply H2 in H. apply missing_iff. exact H.
      * intros H. apply on_iff in H. apply H3 in H. apply missing_iff. exact H.
      * intros H. apply on_iff in H. apply H4 in H.
        repeat rewrite orb_false_iff in H. repeat rewrite missing_iff in H. tauto.
      * intros Hv Hi. apply v2x_iff in Hv. apply on_iff in Hi. apply missing_iff. apply H5.
        rewrite Hv, Hi. reflexivity.
    + intros [_ _ D C T R V].
      assert (G1 : value_or_false (display_available d) = true ->
        missing (opt c ClearDisplay) || missing (opt c GetDisplay) || missing (opt c SetDisplay) = false).
      { intros H. apply on_iff in H. destruct (D H) as [-> [-> ->]]. reflexivity. }
      assert (G2 : value_or_false (cost_available d) = true -> missing (opt c RunningCost) = false).
      { intros H. apply on_iff in H. rewrite (C H). reflexivity. }
      assert (G3 : value_or_false (tariff_available d) = true -> missing (opt c SetDisplay) = false).
      { intros H. apply on_iff in H. rewrite (T H). reflexivity. }
      assert (G4 : value_or_false (reservation_available d) = true ->
        missing (opt c ReserveNow) || missing (opt c CancelReservation) = false).
      { intros H. apply on_iff in H. destruct (R H) as [-> ->]. reflexivity. }
      assert (G5 : v2x_anywhere d evses && value_or_false (iso_available d) = true ->
        missing (opt c UpdateEnergyTransfer) = false).
      { intros H. apply andb_true_iff in H. destruct H as [Hv Hi].
        apply v2x_iff in Hv. apply on_iff in Hi. rewrite (V Hv Hi). reflexivity. }
      tauto.
  - split; [discriminate|]. intros [Hm Ho _ _ _ _ _].
    assert (always_valid c = true) by (apply always_iff; split; assumption). congruence.
Qed.

Lemma construct_some : forall c d evses st,
  construct c d evses = Some st -> complete c d evses /\ st = initialize c d evses.
Proof.
  intros c d evses st H. unfold construct in H.
  destruct (all_callbacks_valid c d evses) eqn:E; [|discriminate].
  injection H as <-. split; [apply valid_complete; exact E | reflexivity].
Qed.

Lemma construct_iff : forall c d evses,
  (exists st, construct c d evses = Some st) <-> complete c d evses.
Proof.
  intros c d evses. rewrite <- valid_complete. unfold construct.
  destruct (all_callbacks_valid c d evses); split; intros H; eauto; try discriminate.
  destruct H as [st H]. discriminate.
Qed.

(** The blocks of a station that was started. *)
Lemma reservation_there : forall c d evses, complete c d evses ->
  (is_on (reservation_available d) /\ reservation (initialize c d evses) = Some (Given, Given, Given)) \/
  (~ is_on (reservation_available d) /\ reservation (initialize c d evses) = None).
Proof.
  intros c d evses H. cbn. destruct (value_or_false (reservation_available d)) eqn:E.
  - apply on_iff in E. left. split; [exact E|].
    destruct (for_reservation _ _ _ H E) as [-> ->]. rewrite (all_plain _ _ _ H). reflexivity.
  - apply off_iff in E. right. auto.
Qed.

Lemma display_there : forall c d evses, complete c d evses ->
  (is_on (display_available d) /\ display (initialize c d evses) = Some (Given, Given, Given)) \/
  (~ is_on (display_available d) /\ display (initialize c d evses) = None).
Proof.
  intros c d evses H. cbn. destruct (value_or_false (display_available d)) eqn:E.
  - apply on_iff in E. left. split; [exact E|].
    destruct (for_display _ _ _ H E) as [-> [-> ->]]. reflexivity.
  - apply off_iff in E. right. auto.
Qed.

Lemma smart_there : forall c d evses, complete c d evses ->
  (is_on (smart_available d) /\ smart (initialize c d evses) = Some (Given, Given)) \/
  (~ is_on (smart_available d) /\ smart (initialize c d evses) = None).
Proof.
  intros c d evses H. cbn. destruct (value_or_false (smart_available d)) eqn:E.
  - apply on_iff in E. left. split; [exact E|]. repeat rewrite (all_plain _ _ _ H). reflexivity.
  - apply off_iff in E. right. auto.
Qed.

Lemma bidirectional_there : forall c d evses, complete c d evses ->
  (v2x_somewhere d evses /\ bidirectional (initialize c d evses) = Some (opt c UpdateEnergyTransfer)) \/
  (~ v2x_somewhere d evses /\ bidirectional (initialize c d evses) = None).
Proof.
  intros c d evses _. cbn. destruct (v2x_anywhere d evses) eqn:E.
  - apply v2x_iff in E. left. auto.
  - apply v2x_not_iff in E. right. auto.
Qed.

Lemma cost_on_iff : forall d, is_cost_enabled d = true <-> cost_on d.
Proof. intros d. unfold is_cost_enabled, cost_on. rewrite andb_true_iff, !on_iff. reflexivity. Qed.
Lemma cost_off_iff : forall d, is_cost_enabled d = false <-> ~ cost_on d.
Proof. intros d. rewrite <- cost_on_iff. destruct (is_cost_enabled d); split; congruence. Qed.
Lemma tariff_on_iff : forall d, is_tariff_enabled d = true <-> tariff_on d.
Proof. intros d. unfold is_tariff_enabled, tariff_on. rewrite andb_true_iff, !on_iff. reflexivity. Qed.
Lemma tariff_off_iff : forall d, is_tariff_enabled d = false <-> ~ tariff_on d.
Proof. intros d. rewrite <- tariff_on_iff. destruct (is_tariff_enabled d); split; congruence. Qed.

Lemma stop_all_given : forall st n, mand (cbs st) StopTransaction = Given ->
  stop_all st n = Calls (repeat (M StopTransaction) n).
Proof.
  intros st n H. induction n as [|n IH]; cbn [stop_all repeat]; [reflexivity|].
  rewrite H, IH. reflexivity.
Qed.

(** Everything that can come of an action. *)
Definition outcome_ok (c : callbacks) (d0 d : dm) (evses : list Z) (a : action) (o : outcome) : Prop :=
  (takes_smart_charging d a /\ ~ is_on (smart_available d0) <-> o = NullBlock) /\
  (forall w, (exists n, w = O n /\ may_call_hollow c d0 d evses a n) <-> o = BadCall w) /\
  ((exists P, block_for d0 evses a = Some P /\ ~ P) <-> o = NotImplemented) /\
  (nothing_to_ask c d0 d evses a <-> o = Rejects) /\
  (forall l, o = Calls l -> expected c d0 d a l).

Lemma ok_calls : forall c d0 d evses a l,
  ~ (takes_smart_charging d a /\ ~ is_on (smart_available d0)) ->
  (forall n, ~ may_call_hollow c d0 d evses a n) ->
  (forall P, block_for d0 evses a = Some P -> ~ ~ P) ->
  ~ nothing_to_ask c d0 d evses a ->
  expected c d0 d a l ->
  outcome_ok c d0 d evses a (Calls l).
Proof.
  intros c d0 d evses a l H1 H2 H3 H4 H5.
  split; [split; [tauto|discriminate]|].
  split; [intros w; split; [intros [n [_ X]]; elim (H2 n X)|discriminate]|].
  split; [split; [intros [P [X Y]]; elim (H3 P X Y)|discriminate]|].
  split; [split; [tauto|discriminate]|].
  intros k [= <-]. exact H5.
Qed.

Lemma ok_null : forall c d0 d evses a,
  takes_smart_charging d a -> ~ is_on (smart_available d0) ->
  (forall n, ~ may_call_hollow c d0 d evses a n) ->
  block_for d0 evses a = None ->
  ~ nothing_to_ask c d0 d evses a ->
  outcome_ok c d0 d evses a NullBlock.
Proof.
  intros c d0 d evses a H0 H1 H2 H3 H4.
  split; [split; [reflexivity|auto]|].
  split; [intros w; split; [intros [n [_ X]]; elim (H2 n X)|discriminate]|].
  split; [split; [intros [P [X Y]]; rewrite H3 in X; discriminate|discriminate]|].
  split; [split; [tauto|discriminate]|]. discriminate.
Qed.

Lemma ok_bad : forall c d0 d evses a m,
  ~ takes_smart_charging d a ->
  may_call_hollow c d0 d evses a m ->
  (forall n, may_call_hollow c d0 d evses a n -> n = m) ->
  (forall P, block_for d0 evses a = Some P -> P) ->
  ~ nothing_to_ask c d0 d evses a ->
  outcome_ok c d0 d evses a (BadCall (O m)).
Proof.
  intros c d0 d evses a m H0 H1 H2 H3 H4.
  split; [split; [tauto|discriminate]|].
  split.
  { intros w; split.
    - intros [n [-> X]]. rewrite (H2 n X). reflexivity.
    - intros [= <-]. exists m. auto. }
  split; [split; [intros [P [X Y]]; elim (Y (H3 P X))|discriminate]|].
  split; [split; [tauto|discriminate]|]. discriminate.
Qed.

Lemma ok_not_implemented : forall c d0 d evses a P,
  ~ takes_smart_charging d a ->
  (forall n, ~ may_call_hollow c d0 d evses a n) ->
  block_for d0 evses a = Some P -> ~ P ->
  ~ nothing_to_ask c d0 d evses a ->
  outcome_ok c d0 d evses a NotImplemented.
Proof.
  intros c d0 d evses a P H0 H2 H3 H3' H4.
  split; [split; [tauto|discriminate]|].
  split; [intros w; split; [intros [n [_ X]]; elim (H2 n X)|discriminate]|].
  split; [split; [reflexivity|exists P; auto]|].
  split; [split; [tauto|discriminate]|]. discriminate.
Qed.

Lemma ok_rejects : forall c d0 d evses a,
  ~ takes_smart_charging d a ->
  (forall n, ~ may_call_hollow c d0 d evses a n) ->
  (forall P, block_for d0 evses a = Some P -> P) ->
  nothing_to_ask c d0 d evses a ->
  outcome_ok c d0 d evses a Rejects.
Proof.
  intros c d0 d evses a H0 H2 H3 H4.
  split; [split; [tauto|discriminate]|].
  split; [intros w; split; [intros [n [_ X]]; elim (H2 n X)|discriminate]|].
  split; [split; [intros [P [X Y]]; elim (Y (H3 P X))|discriminate]|].
  split; [split; auto|]. discriminate.
Qed.

Ltac no_hollow :=
  let n := fresh "n" in let X := fresh "X" in let Y := fresh "Y" in
  intros n [X Y]; cbn in Y; destruct n; try contradiction; try congruence; tauto.
Ltac no_block :=
  let P := fresh "P" in let X := fresh "X" in
  intros P X; cbn in X; first [discriminate | injection X as <-; tauto].

Lemma given_only_call : forall c o, opt c o <> Some Empty ->
  exists l, call_if o (opt c o) = Calls l /\ given_only c o l.
Proof.
  intros c o H. unfold call_if, given_only. destruct (opt c o) as [[]|] eqn:E; cbn.
  - eauto.
  - congruence.
  - eauto.
Qed.

Lemma act_ok : forall c d0 d evses a,
  complete c d0 evses -> outcome_ok c d0 d evses a (act (initialize c d0 evses) d a).
Proof.
  intros c d0 d evses a H.
  pose proof (all_plain _ _ _ H) as Hm.
  pose proof (none_hollow _ _ _ H) as Ho.
  pose proof (reservation_there _ _ _ H) as HR.
  pose proof (display_there _ _ _ H) as HD.
  pose proof (smart_there _ _ _ H) as HS.
  pose proof (bidirectional_there _ _ _ H) as HB.
  assert (Hc : cbs (initialize c d0 evses) = c) by reflexivity.
  remember (initialize c d0 evses) as st eqn:Est. clear Est.
  destruct a as [p|o|al oi n|w|p|t k| | | | |m| | |r| |i| |]; cbn [act].
  - (* plain *)
    rewrite Hc, Hm. cbn [call]. apply ok_calls; cbn; try tauto; try no_hollow; try no_block.
    destruct p; cbn; eexists; split; reflexivity.
  - (* optional *)
    rewrite Hc. assert (L : looked_at (of_optional o)) by (destruct o; exact Logic.I).
    destruct (given_only_call c _ (Ho _ L)) as [l [El Gl]]. rewrite El.
    apply ok_calls; cbn; try tauto; try no_hollow; try no_block.
    exists (of_optional o). split; [destruct o; reflexivity | exact Gl].
  - (* reset *)
    unfold reset_request. rewrite stop_all_given by (rewrite Hc; apply Hm).
    rewrite Hc, !Hm. cbn [call then_].
    assert (X : forall l, expected c d0 d (AReset al oi n) l ->
                outcome_ok c d0 d evses (AReset al oi n) (Calls l)).
    { intros l X. apply ok_calls; cbn; try tauto; try no_hollow; try no_block. }
    destruct al; [|apply X; reflexivity].
    destruct oi, n as [|n]; cbn; apply X; reflexivity.
  - (* finish *)
    unfold finish_transaction. rewrite Hc, Hm.
    destruct (given_only_call c TransactionEvent (Ho TransactionEvent Logic.I)) as [l [El Gl]].
    rewrite El.
    destruct HS as [[S1 S2]|[S1 S2]]; rewrite S2.
    + destruct w; cbn [call then_]; apply ok_calls; cbn; try tauto; try no_hollow; try no_block;
        exists l; split; try exact Gl; reflexivity.
    + cbn [then_]. apply ok_null; cbn; try tauto; try no_hollow.
  - (* remote start *)
    unfold remote_start. rewrite Hc, Hm.
    destruct (value_or_false (smart_enabled d) && p) eqn:E.
    + apply andb_true_iff in E. destruct E as [E1 ->]. apply on_iff in E1.
      destruct HS as [[S1 S2]|[S1 S2]]; rewrite S2; cbn [call then_ app].
      * apply ok_calls; cbn; try tauto; try no_hollow; try no_block.
      * apply ok_null; cbn; try tauto; try no_hollow.
    + cbn [call then_ app].
      assert (~ (p = true /\ is_on (smart_enabled d))).
      { rewrite <- on_iff. destruct p, (value_or_false (smart_enabled d)); cbn in E; intuition congruence. }
      apply ok_calls; cbn; try tauto; try no_hollow; try no_block.
  - (* cost and tariff *)
    unfold cost_and_tariff. rewrite Hc.
    set (k1 := if t && is_tariff_enabled d
               then if negb (is_cost_enabled d)
                    then match opt c TariffMessage with Some Given => [O TariffMessage] | _ => [] end
                    else [] else []).
    assert (E1 : (if t && is_tariff_enabled d
               then if negb (is_cost_enabled d)
                    then match opt c TariffMessage with Some Given => Calls [O TariffMessage] | _ => Calls [] end
                    else Calls [] else Calls []) = Calls k1).
    { unfold k1. destruct (t && is_tariff_enabled d), (negb (is_cost_enabled d)); try reflexivity.
      destruct (opt c TariffMessage) as [[]|]; reflexivity. }
    rewrite E1.
    assert (F1 : k1 = [O TariffMessage] <->
         t = true /\ tariff_on d /\ ~ cost_on d /\ opt c TariffMessage = Some Given).
    { rewrite <- tariff_on_iff, <- cost_off_iff. unfold k1.
      destruct t, (is_tariff_enabled d), (is_cost_enabled d); cbn;
        try (split; [discriminate | intuition congruence]).
      destruct (opt c TariffMessage) as [[]|]; cbn; split; intuition congruence. }
    assert (F2 : k1 = [] \/ k1 = [O TariffMessage]).
    { unfold k1. destruct (t && is_tariff_enabled d), (negb (is_cost_enabled d)); auto.
      destruct (opt c TariffMessage) as [[]|]; auto. }
    clearbody k1.
    destruct (is_cost_enabled d && k) eqn:E2.
    + apply andb_true_iff in E2. destruct E2 as [E2 ->]. apply cost_on_iff in E2.
      destruct (opt c RunningCost) as [[]|] eqn:Er; cbn [call_if call then_].
      * apply ok_calls; cbn; try tauto; try no_hollow; try no_block.
        exists k1, [O RunningCost]. split; [reflexivity|]. split; [exact F1|].
        split; [exact F2|]. split; [tauto|auto].
      * assert (~ is_on (cost_available d0)).
        { intros Ho'. rewrite (for_cost _ _ _ H Ho') in Er. discriminate. }
        apply ok_bad; cbn; try tauto; try no_block.
        -- split; [exact Er|]. cbn. tauto.
        -- intros n [X Y]. cbn in Y. destruct n; try contradiction. reflexivity.
      * apply ok_calls; cbn; try tauto; try no_hollow; try no_block.
        exists k1, []. split; [reflexivity|]. split; [exact F1|].
        split; [exact F2|]. split; [split; [discriminate|intuition congruence]|auto].
    + assert (Hn : ~ (k = true /\ cost_on d)).
      { rewrite <- cost_on_iff. destruct k, (is_cost_enabled d); cbn in E2; intuition congruence. }
      cbn [then_]. apply ok_calls; cbn; try tauto; try no_block.
      * intros n [X Y]. cbn in Y. destruct k; [|contradiction]. destruct n; try contradiction.
        apply Hn. split; [reflexivity|apply Y].
      * exists k1, []. split; [reflexivity|]. split; [exact F1|].
        split; [exact F2|]. split; [split; [discriminate|intuition congruence]|auto].
  - (* cost updated *)
    unfold cost_updated. rewrite Hc.
    destruct (is_cost_enabled d) eqn:E; cbn [negb orb].
    + apply cost_on_iff in E.
      destruct (opt c RunningCost) as [[]|] eqn:Er; cbn [has_value negb call_if call].
      * apply ok_calls; cbn; try tauto; try no_hollow; try no_block.
      * assert (~ is_on (cost_available d0)).
        { intros Ho'. rewrite (for_cost _ _ _ H Ho') in Er. discriminate. }
        apply ok_bad; cbn; try tauto; try no_block.
        -- split; [exact Er|]. cbn. tauto.
        -- intros n [X Y]. cbn in Y. destruct n; try contradiction. reflexivity.
      * apply ok_calls; cbn; try tauto; try no_hollow; try no_block.
    + apply cost_off_iff in E.
      apply ok_calls; cbn; try tauto; try no_hollow; try no_block.
  - (* reserve *)
    unfold reserve_now. destruct HR as [[R1 R2]|[R1 R2]]; rewrite R2; cbn [not_null andb call].
    + destruct (value_or_false (reservation_available d) && value_or_false (reservation_enabled d)) eqn:E.
      * apply andb_true_iff in E. rewrite !on_iff in E.
        apply ok_calls; cbn; try tauto; try no_hollow; try no_block.
      * assert (~ (is_on (reservation_available d) /\ is_on (reservation_enabled d))).
        { rewrite <- !on_iff, <- andb_true_iff. congruence. }
        apply ok_rejects; cbn; try tauto; try no_hollow; try no_block.
    + eapply ok_not_implemented; cbn; try reflexivity; try tauto; try no_hollow.
  - (* cancel *)
    unfold cancel_reservation. destruct HR as [[R1 R2]|[R1 R2]]; rewrite R2; cbn [not_null andb call].
    + destruct (value_or_false (reservation_available d) && value_or_false (reservation_enabled d)) eqn:E.
      * apply andb_true_iff in E. rewrite !on_iff in E.
        apply ok_calls; cbn; try tauto; try no_hollow; try no_block.
      * assert (~ (is_on (reservation_available d) /\ is_on (reservation_enabled d))).
        { rewrite <- !on_iff, <- andb_true_iff. congruence. }
        apply ok_rejects; cbn; try tauto; try no_hollow; try no_block.
    + eapply ok_not_implemented; cbn; try reflexivity; try tauto; try no_hollow.
  - (* check reserved *)
    unfold check_reserved. destruct HR as [[R1 R2]|[R1 R2]]; rewrite R2; cbn [call];
      apply ok_calls; cbn; try tauto; try no_hollow; try no_block.
  - (* display *)
    unfold display_request. destruct HD as [[R1 R2]|[R1 R2]]; rewrite R2.
    + destruct m; cbn [call]; apply ok_calls; cbn; try tauto; try no_hollow; try no_block;
        eexists; split; reflexivity.
    + eapply ok_not_implemented; cbn; try reflexivity; try tauto; try no_hollow.
  - (* profile *)
    unfold profile_request. destruct HS as [[R1 R2]|[R1 R2]]; rewrite R2; cbn [call].
    + apply ok_calls; cbn; try tauto; try no_hollow; try no_block.
    + eapply ok_not_implemented; cbn; try reflexivity; try tauto; try no_hollow.
  - (* needs *)
    unfold ev_charging_needs. destruct HS as [[R1 R2]|[R1 R2]]; rewrite R2.
    + apply ok_calls; cbn; try tauto; try no_hollow; try no_block.
    + apply ok_null; cbn; try tauto; try no_hollow.
  - (* needs response *)
    unfold ev_charging_needs_response. destruct HS as [[R1 R2]|[R1 R2]]; rewrite R2.
    + destruct r; cbn [call]; apply ok_calls; cbn; try tauto; try no_hollow; try no_block.
    + eapply ok_not_implemented; cbn; try reflexivity; try tauto; try no_hollow.
  - (* energy *)
    unfold allowed_energy_transfer. destruct HB as [[R1 R2]|[R1 R2]]; rewrite R2.
    + destruct (opt c UpdateEnergyTransfer) as [[]|] eqn:E; cbn [call].
      * apply ok_calls; cbn; try tauto; try no_hollow; try no_block. intuition congruence.
      * assert (~ is_on (iso_available d0)).
        { intros Hi. rewrite (for_v2x _ _ _ H R1 Hi) in E. discriminate. }
        apply ok_bad; cbn; try tauto; try no_block.
        -- split; [exact E|]. cbn. tauto.
        -- intros n [X Y]. cbn in Y. destruct n; try contradiction. reflexivity.
        -- intuition congruence.
      * apply ok_rejects; cbn; try tauto; try no_hollow; try no_block.
    + eapply ok_not_implemented; cbn; try reflexivity; try tauto; try no_hollow.
  - (* security *)
    unfold security_event. rewrite Hc, Hm. cbn [not_null]. rewrite andb_true_r.
    destruct i; cbn [call]; apply ok_calls; cbn; try tauto; try no_hollow; try no_block.
  - (* connection *)
    unfold connection_changed, call_if. rewrite Hc.
    destruct (opt c ConnectionState) as [[]|] eqn:E; cbn [call].
    + apply ok_calls; cbn; try tauto; try no_hollow; try no_block. left. auto.
    + apply ok_bad; cbn; try tauto; try no_block.
      * split; [exact E|]. cbn. exact Logic.I.
      * intros n [X Y]. cbn in Y. destruct n; try contradiction. reflexivity.
    + apply ok_calls; cbn; try tauto; try no_hollow; try no_block. right. auto.
  - (* network profile *)
    unfold set_network_profile. rewrite Hc.
    destruct (opt c ValidateNetworkProfile) as [[]|] eqn:E; cbn [call].
    + apply ok_calls; cbn; try tauto; try no_hollow; try no_block. congruence.
    + elim (Ho ValidateNetworkProfile Logic.I E).
    + apply ok_rejects; cbn; try tauto; try no_hollow; try no_block.
Qed.

Lemma started_ok : forall c d0 d evses st a,
  construct c d0 evses = Some st -> outcome_ok c d0 d evses a (act st d a).
Proof.
  intros c d0 d evses st a H. apply construct_some in H. destruct H as [H ->].
  apply act_ok. exact H.
Qed.
