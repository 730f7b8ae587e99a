(** Proofs about Sc2Model.v: the rate limit over time, boot, validating a stored profile again. *)

From Coq Require Import ZArith String List Bool Lia.
From Verif Require Import P2Model P2Spec Sc2Model Sc2Spec Sc2Proofs Sc2Proofs2.
Import ListNotations.
Open Scope string_scope.
Open Scope Z_scope.

(** ** The rate limit *)

(* no earlier than [t] and no later than [now] *)
Definition touched (m : purpose -> option Z) (pu : purpose) (t now : Z) : Prop :=
  exists t0, m pu = Some t0 /\ t <= t0 <= now.

Lemma set_touched st s now stored p e s' rep pu t now0 :
  handle_set_charging_profile_req st s now stored p e = (s', rep) ->
  now0 <= now -> t <= now0 -> touched (last_update s) pu t now0 -> touched (last_update s') pu t now.
Proof.
  intros H L L' (t0 & E & A). destruct (set_cases _ _ _ _ _ _ _ _ H) as (_ & X & _).
  destruct (X pu) as [Y|Y]; [exists now|exists t0]; (split; [congruence|lia]).
Qed.

Lemma remote_touched st s now stored eid reserved starts p s' rem cb rep pu t now0 :
  handle_remote_start_transaction_request st s now stored eid reserved starts p = (s', rem, cb, rep) ->
  now0 <= now -> t <= now0 -> touched (last_update s) pu t now0 -> touched (last_update s') pu t now.
Proof.
  intros H L L' (t0 & E & A). destruct (remote_cases _ _ _ _ _ _ _ _ _ _ _ _ H) as [_ C].
  assert (Same : s' = s -> touched (last_update s') pu t now) by (intros ->; exists t0; split; [congruence|lia]).
  destruct eid as [e|]; [|apply Same; apply C].
  destruct (get_evse st e); [|apply Same; apply C].
  destruct C as (_ & code & _ & [(_ & X & _)|(q & a & _ & _ & P & X & _)]); [apply Same; exact X|].
  destruct (add_cases _ _ _ _ _ _ _ _ _ _ X) as [(r & _ & _ & Y & _)|(F & Y & _)]; [apply Same; exact Y|].
  specialize (Y pu). destruct (counts st && _); [exists now|exists t0]; (split; [congruence|lia]).
Qed.

Definition no_boot (o : sc_op) : Prop := match o with OBoot _ => False | _ => True end.

Lemma step_touched st now s o s' out pu t now0 :
  sc_step st now s o = (s', out) -> no_boot o -> now0 <= now -> t <= now0 ->
  touched (last_update s) pu t now0 -> touched (last_update s') pu t now.
Proof.
  intros H N L L' T. destruct o; cbn [sc_step] in H; [| | | |destruct N].
  - destruct (handle_set_charging_profile_req st s now stored p evse_id) as [s1 r] eqn:E. injection H as <- _.
    eapply set_touched; eassumption.
  - destruct (handle_remote_start_transaction_request st s now stored evse_id reserved starts p) as [[[s1 a] b] r] eqn:E.
    injection H as <- _. eapply remote_touched; eassumption.
  - destruct (handle_clear_charging_profile_req s id c) as [[[s1 a] b] r] eqn:E. injection H as <- _.
    assert (X : last_update s1 = last_update s).
    { unfold handle_clear_charging_profile_req in E.
      destruct (clear_charging_profiles_matching_criteria (db s) id c) as [d b'].
      destruct c as [c|]; [destruct (match cc_purpose c with Some PExternal => true | _ => false end)|];
        injection E as <- _ _ _; reflexivity. }
    rewrite X. destruct T as (t0 & T & A). exists t0. split; [exact T|lia].
  - injection H as <- _. destruct T as (t0 & T & A). exists t0. split; [exact T|lia].
Qed.

(* the times are in order *)
Fixpoint in_time (t : Z) (l : list (station * Z * sc_op)) : Prop :=
  match l with [] => True | (_, now, _) :: r => t <= now /\ in_time now r end.

Lemma in_time_app t a b : in_time t (a ++ b)%list -> in_time t a /\ exists t', t <= t' /\ in_time t' b.
Proof.
  revert t. induction a as [|[[st now] o] a IH]; intros t H; cbn in *.
  - split; [exact I|]. exists t. split; [lia|exact H].
  - destruct H as [L H]. destruct (IH now H) as (Ha & t' & L' & Hb). split; [auto|]. exists t'. split; [lia|exact Hb].
Qed.

Lemma run_app a : forall s b s' outs, sc_run s (a ++ b)%list = (s', outs) ->
  exists s1 o1 o2, sc_run s a = (s1, o1) /\ sc_run s1 b = (s', o2) /\ outs = (o1 ++ o2)%list.
Proof.
  induction a as [|[[st now] o] a IH]; intros s b s' outs H; cbn [app sc_run] in *.
  - exists s, [], outs. auto.
  - destruct (sc_step st now s o) as [s1 out]. destruct (sc_run s1 (a ++ b)%list) as [s2 outs'] eqn:E.
    injection H as <- <-. destruct (IH _ _ _ _ E) as (s3 & o1 & o2 & E1 & E2 & ->).
    rewrite E1. exists s3, (out :: o1), o2. auto.
Qed.

Lemma run_touched l : forall s s' outs pu t now0, sc_run s l = (s', outs) ->
  Forall (fun x => no_boot (snd x)) l -> in_time now0 l -> t <= now0 -> touched (last_update s) pu t now0 ->
  exists now1, now0 <= now1 /\ touched (last_update s') pu t now1 /\ forall r, in_time now0 (l ++ r)%list -> in_time now1 r.
Proof.
  induction l as [|[[st now] o] l IH]; intros s s' outs pu t now0 H N T L To; cbn [sc_run] in H.
  - injection H as <- _. exists now0. split; [lia|]. split; [exact To|]. intros r Hr. exact Hr.
  - inversion N as [|? ? N1 N2]; subst. cbn [in_time] in T. destruct T as [T1 T2]. cbn [snd] in N1.
    destruct (sc_step st now s o) as [s1 out] eqn:E1. destruct (sc_run s1 l) as [s2 outs'] eqn:E2.
    injection H as <- _.
    assert (To1 : touched (last_update s1) pu t now) by (eapply step_touched; eassumption).
    destruct (IH _ _ _ pu t now E2 N2 T2 ltac:(lia) To1) as (now1 & L1 & To2 & R).
    exists now1. split; [lia|]. split; [exact To2|]. intros r [_ Hr]. apply R. exact Hr.
Qed.

(** ** Fewer stored profiles, fewer conflicts *)

Lemma violates_mono st d d' src e p r : (forall x, In x d' -> In x d) ->
  violates st d' src e p r -> violates st d src e p r.
Proof.
  intros S. destruct r; try (intros H; exact H).
  - intros (x & Hx & H). exists x. auto.
  - intros (P & So & x & Hx & H). split; [exact P|]. split; [exact So|]. exists x. auto.
  - intros (P & x & Hx & H). split; [exact P|]. exists x. auto.
  - intros (P & x & Hx & H). split; [exact P|]. exists x. auto.
Qed.

Lemma fit_mono st d d' src e p : (forall x, In x d' -> In x d) -> fit_for st d src e p -> fit_for st d' src e p.
Proof. intros S F r V. apply (F r). eapply violates_mono; eassumption. Qed.

(** ** Boot *)

Lemma fst_validate st d p e src : fst (conform_and_validate_profile st d p e src) = Valid <-> fit_for st d src e p.
Proof.
  destruct (conform_and_validate_profile st d p e src) as [r q] eqn:E. cbn [fst]. eapply validate_iff; exact E.
Qed.

Lemma boot_step st d r (d' := match fst (conform_and_validate_profile st d (r_p r) (r_evse r) SetProfile) with
    | Valid => d
    | _ => filter (fun x => negb (pf_id (r_p x) =? pf_id (r_p r))) d
    end) :
  (fit_for st d SetProfile (r_evse r) (r_p r) /\ d' = d) \/
  (~ fit_for st d SetProfile (r_evse r) (r_p r) /\ d' = filter (fun x => negb (pf_id (r_p x) =? pf_id (r_p r))) d).
Proof.
  pose proof (fst_validate st d (r_p r) (r_evse r) SetProfile) as X. subst d'.
  destruct (fst _); [left; split; [apply X|]; reflexivity|..]; right; (split; [rewrite <- X; discriminate|reflexivity]).
Qed.

Lemma boot_shrinks st rows : forall d x, In x (clear_invalid_charging_profiles st d rows) -> In x d.
Proof.
  intros d x H. destruct (boot_by_filter st rows d) as [f E]. rewrite E in H. apply filter_In in H. tauto.
Qed.

Lemma boot_fit st rows : forall d x, In x rows -> In x (clear_invalid_charging_profiles st d rows) ->
  fit_for st (clear_invalid_charging_profiles st d rows) SetProfile (r_evse x) (r_p x).
Proof.
  unfold clear_invalid_charging_profiles. induction rows as [|r rows IH]; intros d x Hx H; [destruct Hx|].
  cbn [fold_left] in *. destruct Hx as [->|Hx].
  2: { apply IH; assumption. }
  destruct (boot_step st d x) as [[F E]|[F E]]; rewrite E in *.
  - eapply fit_mono; [|exact F]. intros y Hy. eapply (boot_shrinks st rows). exact Hy.
  - exfalso. apply (boot_shrinks st rows) in H. apply filter_In in H as [_ H].
    rewrite Z.eqb_refl in H. discriminate.
Qed.

Lemma boot_keeps st rows : forall d x,
  (forall y, In y rows -> pf_id (r_p y) = pf_id (r_p x) -> y = x) -> In x d ->
  fit_for st d SetProfile (r_evse x) (r_p x) -> In x (clear_invalid_charging_profiles st d rows).
Proof.
  unfold clear_invalid_charging_profiles. induction rows as [|r rows IH]; intros d x U Hx F; [exact Hx|].
  cbn [fold_left]. destruct (boot_step st d r) as [[_ E]|[F' E]]; rewrite E.
  - apply IH; [|exact Hx|exact F]. intros y Hy. apply U. right; exact Hy.
  - apply IH.
    + intros y Hy. apply U. right; exact Hy.
    + apply filter_In. split; [exact Hx|]. apply negb_true_iff, Z.eqb_neq. intros Ei.
      assert (r = x) by (apply U; [left; reflexivity|congruence]). subst r. exact (F' F).
    + eapply fit_mono; [|exact F]. intros y Hy. apply filter_In in Hy. tauto.
Qed.

Lemma nodup_ids_inj d x y : NoDup (map (fun r => pf_id (r_p r)) d) -> In x d -> In y d ->
  pf_id (r_p x) = pf_id (r_p y) -> x = y.
Proof.
  induction d as [|a d IH]; intros N Hx Hy E; [destruct Hx|]. cbn in N. inversion N as [|? ? N1 N2]; subst.
  destruct Hx as [->|Hx], Hy as [->|Hy]; [reflexivity| | |auto].
  - exfalso. apply N1. rewrite E. apply (in_map (fun r => pf_id (r_p r))). exact Hy.
  - exfalso. apply N1. rewrite <- E. apply (in_map (fun r => pf_id (r_p r))). exact Hx.
Qed.

(** ** Validating a stored profile again *)

(* the periods that say how many phases, or a supply with three *)
Definition phases_given (st : station) (e : Z) (p : profile) : Prop :=
  is_ac st e -> 3 <= s_supply st \/ ~ some_period p (fun _ c => sp_phases c = None).

Lemma spelled_scheds st e p q : known st e -> spelled_out st e p q ->
  exists g, pf_scheds q = map (fun s => {| sc_unit := sc_unit s; sc_periods := map g (sc_periods s); sc_soc := sc_soc s;
            sc_start := sc_start s; sc_duration := sc_duration s; sc_local := sc_local s;
            sc_delay := sc_delay s |}) (pf_scheds p) /\
            (g = (fun c => c) \/ (is_ac st e /\ g = all_phases)).
Proof.
  intros K [A B]. assert (D : is_ac st e \/ ~ is_ac st e).
  { pose proof (ac_iff st e K) as X. destruct (get_current_phase_type st (get_evse st e)); [left|right|right];
      rewrite <- X; congruence. }
  destruct D as [D|D]; [rewrite (A D)|rewrite (B D)]; cbn [with_scheds pf_scheds].
  - exists all_phases. split; [reflexivity|right; auto].
  - exists (fun c => c). split; [|left; reflexivity].
    rewrite <- (map_id (pf_scheds p)) at 1. apply map_ext. intros []. cbn. rewrite map_id. reflexivity.
Qed.

Lemma dc_not_ac st e : is_dc st e -> is_ac st e -> False.
Proof.
  unfold is_dc, is_ac, supply_of. intros [[-> H]|(x & [L H] & E)] A.
  - destruct A as [[[_ A]|(y & [L _] & _)]|[[_ A]|(y & [L _] & _)]]; lia.
  - destruct A as [[[-> A]|(y & [_ H'] & E')]|[[-> A]|(y & [_ H'] & E')]]; try lia; congruence.
Qed.

Lemma revalidate st d e p q :
  fit_for st d SetProfile e p -> pf_purpose p <> PExternal -> spelled_out st e p q -> phases_given st e p ->
  fit_for st (insert_profile d e q "CSO") SetProfile e q.
Proof.
  intros F NE Q PG. pose proof (fit_known _ _ _ _ _ F) as K.
  destruct (spelled_fields _ _ _ _ K Q) as (I1 & I2 & I3 & I4 & I5 & I6 & I7 & I8 & I9).
  destruct (spelled_scheds _ _ _ _ K Q) as (g & SG & G).
  assert (DI : pf_dynint q = pf_dynint p /\ pf_dyntime q = pf_dyntime p).
  { destruct Q as [A B]. pose proof (ac_iff st e K) as X.
    destruct (get_current_phase_type st (get_evse st e)); [rewrite A by (apply X; reflexivity)|rewrite B by (rewrite <- X; congruence)|rewrite B by (rewrite <- X; congruence)]; auto. }
  destruct DI as [DI DT].
  (* fields of the periods *)
  assert (GF : forall c, sp_start (g c) = sp_start c /\ sp_limit (g c) = sp_limit c /\ sp_touse (g c) = sp_touse c /\
              sp_dis (g c) = sp_dis c /\ sp_set (g c) = sp_set c /\ sp_react (g c) = sp_react c /\ sp_sleep (g c) = sp_sleep c /\
              sp_baseline (g c) = sp_baseline c /\ sp_mode (g c) = sp_mode c /\ sp_curve (g c) = sp_curve c /\
              (sp_phases (g c) = sp_phases c \/ (is_ac st e /\ sp_phases c = None /\ sp_phases (g c) = Some 3))).
  { intros c. destruct G as [->|[A ->]]; [repeat split; auto|]. unfold all_phases; cbn.
    repeat (split; [reflexivity|]). destruct (sp_phases c); cbn; auto. }
  assert (SS : forall P : sched -> Prop, some_sched q P ->
               some_sched p (fun s => P {| sc_unit := sc_unit s; sc_periods := map g (sc_periods s); sc_soc := sc_soc s;
            sc_start := sc_start s; sc_duration := sc_duration s; sc_local := sc_local s; sc_delay := sc_delay s |})).
  { intros P (s & Hs & Ps). rewrite SG in Hs. apply in_map_iff in Hs as (s0 & <- & Hs). exists s0. auto. }
  assert (SP : forall P : sched -> csp -> Prop, some_period q P ->
               some_period p (fun s c => P {| sc_unit := sc_unit s; sc_periods := map g (sc_periods s); sc_soc := sc_soc s;
            sc_start := sc_start s; sc_duration := sc_duration s; sc_local := sc_local s; sc_delay := sc_delay s |} (g c))).
  { intros P (s & c & Hs & Hc & Ps). rewrite SG in Hs. apply in_map_iff in Hs as (s0 & <- & Hs). cbn in Hc.
    apply in_map_iff in Hc as (c0 & <- & Hc). exists s0, c0. auto. }
  assert (MO : forall c, mode_of (g c) = mode_of c).
  { intros c. destruct (GF c) as (_ & _ & _ & _ & _ & _ & _ & _ & E & _). unfold mode_of. rewrite E. reflexivity. }
  assert (VF : forall c, values_fit (g c) <-> values_fit c).
  { intros c. destruct (GF c) as (_ & E1 & _ & E2 & E3 & E4 & _). unfold values_fit. rewrite MO, E1, E2, E3, E4.
    unfold must_have. rewrite E1, E3. reflexivity. }
  assert (OD : forall s : sched, In s (pf_scheds p) -> forall (l : list csp) a b r, map g (sc_periods s) = (l ++ a :: b :: r)%list -> sp_start b <= sp_start a ->
               out_of_order s).
  { intros s _ l a b r E L. apply map_eq_app in E as (l1 & l2 & E1 & E2 & E3).
    apply map_eq_cons in E3 as (a0 & l3 & -> & Ea & E3). apply map_eq_cons in E3 as (b0 & l4 & -> & Eb & E3).
    exists l1, a0, b0, l4. split; [exact E1|]. destruct (GF a0) as (A & _). destruct (GF b0) as (B & _). subst a b. lia. }
  assert (Same : forall f u : Z, from_of q = from_of p /\ to_of q = to_of p).
  { intros _ _. unfold from_of at 1, to_of at 1. rewrite I6, I7. auto. }
  destruct (Same 0 0) as [FQ TQ]. clear Same.
  intros r V. apply (F r). destruct r; cbn [violates] in *.
  - exact V.
  - exact V.
  - destruct V as (x & Hx & E & P). apply in_insert in Hx as [->|[Hx N]]; [cbn in P; congruence|]. congruence.
  - congruence.
  - destruct V as (P & _ & T). split; [congruence|]. split; [reflexivity|congruence].
  - destruct V as (P & L). split; [congruence|exact L].
  - destruct V as (P & _ & x & t & V). split; [congruence|]. split; [reflexivity|]. exists x, t. rewrite <- I5. exact V.
  - destruct V as (P & _ & V). split; [congruence|]. split; [reflexivity|exact V].
  - destruct V as (P & _ & x & Hx & V1 & V2 & V3 & V4). split; [congruence|]. split; [reflexivity|].
    apply in_insert in Hx as [->|[Hx N]]; [cbn in V4; congruence|]. exists x. split; [exact Hx|]. split; [exact V1|].
    split; [congruence|]. split; [congruence|congruence].
  - apply SS in V. destruct V as (s & Hs & V). exists s. split; [exact Hs|]. cbn in V. destruct (sc_periods s); [reflexivity|discriminate].
  - apply SS in V. destruct V as (s & Hs & c & l & El & V). cbn in El. exists s. split; [exact Hs|].
    apply map_eq_cons in El as (c0 & l0 & El & <- & _). exists c0, l0. split; [exact El|]. destruct (GF c0) as (<- & _). exact V.
  - destruct V as (Ki & V). apply SS in V. rewrite <- I4. split; [exact Ki|exact V].
  - destruct V as (Ki & V). apply SS in V. rewrite <- I4. split; [exact Ki|exact V].
  - exact V.
  - rewrite <- I1. exact V.
  - rewrite <- I3. exact V.
  - rewrite <- I4. exact V.
  - rewrite <- I4, <- DI, <- DT. exact V.
  - destruct V as [V|[V1 V]]; [left; apply SS in V; exact V|right]. split; [exact V1|]. apply SP in V.
    destruct V as (s & c & Hs & Hc & V). exists s, c. split; [exact Hs|]. split; [exact Hc|]. rewrite MO in V. exact V.
  - destruct V as (P & V). apply SS in V. split; [congruence|exact V].
  - destruct V as (V1 & V2 & V3 & V). apply SS in V. rewrite <- I3. auto.
  - destruct V as (V1 & V2 & V). apply SS in V. auto.
  - destruct V as (V1 & V2 & V). apply SS in V. auto.
  - destruct V as (V1 & V2 & V). apply SS in V. auto.
  - destruct V as (V1 & V2 & V). apply SP in V. destruct V as (s & c & Hs & Hc & V). destruct (GF c) as (_ & _ & _ & _ & _ & _ & E & _).
    rewrite E in V. split; [exact V1|]. split; [exact V2|]. exists s, c. auto.
  - apply SS in V. destruct V as (s & Hs & l & a & b & r & El & L). exists s. split; [exact Hs|]. eapply OD; eassumption.
  - apply SP in V. destruct V as (s & c & Hs & Hc & V1 & V2). destruct (GF c) as (_ & _ & E & _ & _ & _ & _ & _ & _ & _ & EP).
    exists s, c. split; [exact Hs|]. split; [exact Hc|]. rewrite E in V1. split; [exact V1|].
    destruct EP as [EP|(_ & EP & _)]; congruence.
  - destruct V as (A & V). apply SP in V. destruct V as (s & c & Hs & Hc & n & En & L). split; [exact A|].
    destruct (GF c) as (_ & _ & _ & _ & _ & _ & _ & _ & _ & _ & EP). destruct EP as [EP|(_ & EP & EP')].
    + exists s, c. split; [exact Hs|]. split; [exact Hc|]. exists n. split; [congruence|exact L].
    + exfalso. assert (n = 3) by congruence. subst n. destruct (PG A) as [G3|G3]; [lia|]. apply G3. exists s, c. auto.
  - destruct V as (V1 & V2 & V). apply SP in V. destruct V as (s & c & Hs & Hc & V).
    destruct (GF c) as (_ & _ & E & _ & _ & _ & _ & _ & _ & _ & EP). split; [exact V1|]. split; [exact V2|].
    exists s, c. split; [exact Hs|]. split; [exact Hc|]. rewrite E in V.
    destruct EP as [EP|(A & _)]; [rewrite EP in V; exact V|]. exfalso. eapply dc_not_ac; eassumption.
  - destruct V as (V1 & V). apply SP in V. destruct V as (s & c & Hs & Hc & V). destruct (GF c) as (_ & _ & E & _).
    rewrite E in V. split; [exact V1|]. exists s, c. auto.
  - destruct V as (V1 & V2 & V). apply SP in V. destruct V as (s & c & Hs & Hc & V). rewrite MO in V.
    split; [exact V1|]. split; [congruence|]. exists s, c. auto.
  - destruct V as (V1 & V). apply SP in V. destruct V as (s & c & Hs & Hc & V). rewrite MO, I3 in V.
    split; [exact V1|]. exists s, c. auto.
  - destruct V as (V1 & V). apply SP in V. destruct V as (s & c & Hs & Hc & V). rewrite VF in V.
    split; [exact V1|]. exists s, c. auto.
  - destruct V as (V1 & V2 & V3 & V). apply SP in V. destruct V as (s & c & Hs & Hc & V).
    destruct (GF c) as (_ & _ & E & _ & _ & _ & _ & _ & _ & _ & EP). split; [exact V1|]. split; [exact V2|]. split; [exact V3|].
    exists s, c. split; [exact Hs|]. split; [exact Hc|]. rewrite E in V.
    destruct EP as [EP|(A & _)]; [rewrite EP in V; exact V|]. exfalso. eapply dc_not_ac; eassumption.
  - destruct V as (V1 & V). apply SP in V. destruct V as (s & c & Hs & Hc & V). rewrite MO in V.
    destruct (GF c) as (_ & _ & _ & _ & _ & _ & _ & E1 & _ & E2 & _). rewrite E1, E2 in V.
    split; [exact V1|]. exists s, c. auto.
  - destruct V as (V1 & V). apply SP in V. destruct V as (s & c & Hs & Hc & V). destruct (GF c) as (_ & _ & _ & _ & E & _).
    unfold opposite_signs in V. rewrite E in V. split; [exact V1|]. exists s, c. auto.
  - rewrite <- I3, <- I4. exact V.
  - rewrite <- I3. exact V.
  - destruct V as (P & x & Hx & V1 & V2 & V3 & V4). split; [congruence|].
    apply in_insert in Hx as [->|[Hx N]]; [cbn in V2; congruence|]. exists x. rewrite <- I1, <- I2. auto.
  - destruct V as (P & x & Hx & V1 & V2 & V3 & V4 & V5 & V6). split; [congruence|].
    apply in_insert in Hx as [->|[Hx N]]; [cbn in V3; congruence|]. exists x. rewrite FQ, TQ in *. rewrite <- I1, <- I2, <- I3. repeat (split; [assumption|]). assumption.
  - destruct V as (V & _). discriminate.
  - destruct (pf_scheds q) eqn:E; [|discriminate]. destruct (pf_scheds p); [reflexivity|discriminate SG].
Qed.

Lemma spelled_again st e p q : known st e -> spelled_out st e p q -> spelled_out st e q q.
Proof.
  intros K Q. destruct Q as [A B]. split; intros D.
  - specialize (A D). subst q. unfold with_scheds at 1 2. f_equal. cbn [pf_scheds]. unfold with_scheds; cbn [pf_scheds].
    rewrite map_map. apply map_ext. intros s. cbn. f_equal. rewrite map_map.
    apply map_ext. intros c. unfold all_phases; cbn. destruct (sp_phases c); reflexivity.
  - specialize (B D). subst q. reflexivity.
Qed.
