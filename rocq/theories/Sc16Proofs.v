(** The composite schedules computed by the handler. *)

From Coq Require Import ZArith List Bool Permutation Sorted Lia.
From Coq Require Import ZifyBool.
From Verif Require Import Prof16Model Prof16Spec Prof16Proofs Prof16Proofs2 Sc16Model Sc16Spec
  Prof16Proofs3.
Import ListNotations.
Open Scope Z_scope.

Lemma usable_session now en ts p :
  usable now en (Some ts) p -> usable now en (Some (floor_seconds ts * NS)) p.
Proof. intros (H1 & H2 & H3). split; [exact H1|]. split; [exact H2|]. apply near_session; exact H3. Qed.

Lemma nonrel_occurrence p now s1 s2 t :
  pf_kind p <> Relative -> occurrence p now s1 t = occurrence p now s2 t.
Proof. unfold occurrence. destruct (pf_kind p); congruence. Qed.

Lemma nonrel_in_force p now s1 s2 t :
  pf_kind p <> Relative -> in_force p now s1 t = in_force p now s2 t.
Proof. intros H. unfold in_force. rewrite (nonrel_occurrence p now s1 s2 t H). reflexivity. Qed.

Lemma nonrel_usable p now en s1 s2 :
  pf_kind p <> Relative -> usable now en s1 p -> usable now en s2 p.
Proof.
  intros K (H1 & H2 & H3). split; [exact H1|]. split; [exact H2|]. unfold near_valid_to in *.
  destruct (pf_to p); [|tauto]. intros t s Ht Ho. apply (H3 t s Ht).
  rewrite <- Ho. apply nonrel_occurrence. exact K.
Qed.

Lemma nonrel_decides (P : profile -> Prop) pu now s1 s2 t r :
  (forall p, P p -> pf_purpose p = pu -> pf_kind p <> Relative) ->
  decides P pu now s1 t r -> decides P pu now s2 t r.
Proof.
  intros K. unfold decides. destruct r as [[p c]|].
  - intros (H1 & H2 & H3 & H4). repeat split; try assumption.
    + rewrite <- H3. apply nonrel_in_force. apply K; assumption.
    + intros q Hq Hp Hn. apply H4; try assumption. intros E. apply Hn. rewrite <- E.
      apply nonrel_in_force. apply K; assumption.
  - intros H q Hq Hp. rewrite <- (H q Hq Hp). apply nonrel_in_force. apply K; assumption.
Qed.

Lemma applicable0 h ignore p :
  handler_ok h -> applicable h 0 ignore p ->
  pf_purpose p = PMax /\ pf_kind p <> Relative /\ forall conn, applicable h conn ignore p.
Proof.
  intros (Hm & _) [H1 [H2|[H2 _]]]; [|lia].
  destruct (map_ok_purpose _ _ _ Hm H2) as [E1 E2].
  split; [exact E1|]. split; [exact E2|]. intros conn. split; [exact H1|left; exact H2].
Qed.

Lemma decides_max h conn ignore now s1 s2 t r :
  handler_ok h ->
  decides (applicable h 0 ignore) PMax now s1 t r -> decides (applicable h conn ignore) PMax now s2 t r.
Proof.
  intros Hok H. apply (nonrel_decides _ _ now s1 s2).
  - intros p [_ Hp] Hpu. destruct Hok as (Hm & Hc & _).
    destruct Hp as [Hp|[_ (c & En & [Hp|[Hp _]])]].
    + exact (proj2 (map_ok_purpose _ _ _ Hm Hp)).
    + rewrite Forall_forall in Hc. destruct (Hc c (nth_error_In _ _ En)) as [Hd _].
      rewrite (map_ok_purpose _ _ _ Hd Hp) in Hpu. discriminate.
    + rewrite Forall_forall in Hc. destruct (Hc c (nth_error_In _ _ En)) as [_ Ht].
      rewrite (map_ok_purpose _ _ _ Ht Hp) in Hpu. discriminate.
  - eapply decides_ext; [|exact H]. intros p Hpu. split.
    + intros Hp. apply (applicable0 h ignore p Hok Hp).
    + intros [H1 [H2|[Hpos (c & En & Hp)]]]; [split; [exact H1|left; exact H2]|]. exfalso.
      destruct Hok as (_ & Hc & _). rewrite Forall_forall in Hc.
      destruct (Hc c (nth_error_In _ _ En)) as [Hd Ht].
      destruct Hp as [Hp|[Hp _]].
      * rewrite (map_ok_purpose _ _ _ Hd Hp) in Hpu. discriminate.
      * rewrite (map_ok_purpose _ _ _ Ht Hp) in Hpu. discriminate.
Qed.

Lemma Forall2_len {A B} (R : A -> B -> Prop) l m : Forall2 R l m -> length l = length m.
Proof. induction 1; cbn; congruence. Qed.

Section Top.
  Variable ar : arith.
  Variables sort_date sort_stack : list entry -> list entry.
  Hypothesis sd : sorts sort_date by_start.
  Hypothesis ss : sorts sort_stack by_stack.
  Variables in_now in_end : Z.
  Notation now := (floor_seconds in_now).
  Notation en := (floor_seconds in_end).
  Hypothesis window : 0 < en - now <= INT_MAX.
  Variable h : handler.
  Hypothesis hok : handler_ok h.
  Variable k : ccfg.
  Variable u : runit.
  Variables offline simulate : bool.
  Notation ignore := (if offline then k_offline_ignored k else []).
  Notation dflt := (match u with UA => k_current k | UW => k_power k end).

  (** one connector *)
  Lemma connector_ok evse :
    0 < evse ->
    (forall p, applicable h evse ignore p -> usable now en (session_start h evse) p) ->
    let out := snd (calculate_enhanced_composite_schedule ar sort_date sort_stack k h in_now in_end
                      evse u offline simulate) in
    forall t, now <= t < en ->
      exists o tx txd mx,
        look op_start out (t - now) = Some o /\
        decides (applicable h evse ignore) PTx now (session_start h evse) t tx /\
        decides (applicable h evse ignore) PTxDefault now (session_start h evse) t txd /\
        decides (applicable h evse ignore) PMax now (session_start h evse) t mx /\
        let a := strictest (connector_allows (active (session_start h evse) simulate) tx txd)
                           (allowed_by mx) in
        (op_limit o, op_stack o) = expressed ar u dflt (k_phases k) (k_voltage k) a /\
        op_phases o = a_phases a.
  Proof.
    intros Hpos Hu. cbn zeta. unfold calculate_enhanced_composite_schedule.
    destruct (Z.leb_spec 0 evse) as [_|]; [|lia]. destruct (Z.eqb_spec evse 0) as [|_]; [lia|].
    set (fs := match nth_error (h_conns h) (Z.to_nat evse) with
               | Some c => match session_of c with Some ts => Some (floor_seconds ts * NS) | None => None end
               | None => None end).
    assert (Efs : fs = match session_start h evse with Some ts => Some (floor_seconds ts * NS) | None => None end).
    { unfold fs, session_start. destruct (nth_error (h_conns h) (Z.to_nat evse)) as [c|]; [|reflexivity].
      unfold session_of. destruct (c_tx c) as [[? ?]|]; reflexivity. }
    clearbody fs. subst fs. cbn [snd].
    set (fs := match session_start h evse with Some ts => Some (floor_seconds ts * NS) | None => None end).
    assert (Hact : active fs simulate = active (session_start h evse) simulate).
    { unfold fs. destruct (session_start h evse); reflexivity. }
    assert (Hu' : forall p, applicable h evse ignore p -> usable now en fs p).
    { intros p Hp. specialize (Hu p Hp). unfold fs. destruct (session_start h evse); [|exact Hu].
      apply usable_session; exact Hu. }
    assert (Hdec : forall P pu t r, decides P pu now fs t r -> decides P pu now (session_start h evse) t r).
    { intros P pu t r. unfold fs. destruct (session_start h evse); [apply decides_session|tauto]. }
    assert (Hum : forall p, applicable h 0 ignore p -> usable now en fs p).
    { intros p Hp. apply Hu'. apply (applicable0 h ignore p hok Hp). }
    destruct (max_ok sort_date sort_stack sd ss in_now in_end window h hok ignore fs Hum) as (M1 & M2 & M3).
    set (mm := generate_profile_from_periods sort_stack _ in_now in_end) in *.
    pose proof (intermediates_ok sort_date sort_stack sd ss in_now in_end window h hok ignore evse fs simulate Hu') as HI.
    cbn zeta in HI. set (gi := generate_evse_intermediates _ _ _ _ _ _ _ _) in *.
    rewrite Hact in HI. intros t Ht. destruct (M3 t Ht) as (mx & Dm & Rm).
    destruct HI as [(Ha & ->)|(Ha & m & -> & I1 & I2 & I3)].
    - destruct (lowest_ok in_now in_end window [mm] (fun t' => [match Z.eq_dec t' t with left _ => allowed_by mx | right _ => {|
           a_cur := counts (ip_cur (at_offset (t' - now) mm)) (ip_scur (at_offset (t' - now) mm));
           a_pow := counts (ip_pow (at_offset (t' - now) mm)) (ip_spow (at_offset (t' - now) mm));
           a_phases := ip_phases (at_offset (t' - now) mm) |} end])) as (L1 & L2 & L3).
      + apply Forall_cons; [exact M1|apply Forall_nil].
      + apply Forall_cons; [exact M2|apply Forall_nil].
      + intros t' _. apply Forall2_cons; [|apply Forall2_nil]. destruct (Z.eq_dec t' t) as [->|_].
        * apply rep_wrep. exact Rm.
        * unfold wrep. cbn. tauto.
      + destruct (final_ok ar in_now in_end k u _ L1 L2) as (_ & F). cbn [app].
        specialize (L3 t Ht). cbv beta in L3. destruct (Z.eq_dec t t) as [_|]; [|congruence].
        destruct (F t _ Ht L3) as (o & Ho & E1 & E2). cbn [fold_left] in E1, E2.
        destruct (intermediates_ok sort_date sort_stack sd ss in_now in_end window h hok ignore evse fs true Hu')
          as [(K & _)|(_ & m & _ & _ & _ & I3)].
        { exfalso. unfold active in K, Hact, Ha. destruct fs; [discriminate|discriminate]. }
        destruct (I3 t Ht) as (tx & txd & T1 & T2 & _).
        exists o, tx, txd, mx. split; [exact Ho|]. split; [apply Hdec; exact T1|]. split; [apply Hdec; exact T2|].
        split; [apply (decides_max h evse ignore now fs _ t mx hok Dm)|].
        cbn zeta. rewrite Ha. cbn [connector_allows]. split; assumption.
    - destruct (I3 t Ht) as (tx & txd & T1 & T2 & T3).
      pose (any := fun t' x => {| a_cur := counts (ip_cur (at_offset (t' - now) x)) (ip_scur (at_offset (t' - now) x));
           a_pow := counts (ip_pow (at_offset (t' - now) x)) (ip_spow (at_offset (t' - now) x));
           a_phases := ip_phases (at_offset (t' - now) x) |}).
      destruct (lowest_ok in_now in_end window [m; mm]
                  (fun t' => [match Z.eq_dec t' t with left _ => allowed_by (override tx txd) | right _ => any t' m end;
                              match Z.eq_dec t' t with left _ => allowed_by mx | right _ => any t' mm end])) as (L1 & L2 & L3).
      + apply Forall_cons; [exact I1|apply Forall_cons; [exact M1|apply Forall_nil]].
      + apply Forall_cons; [exact I2|apply Forall_cons; [exact M2|apply Forall_nil]].
      + intros t' _. destruct (Z.eq_dec t' t) as [->|_].
        * apply Forall2_cons; [apply rep_wrep; exact T3|].
          apply Forall2_cons; [apply rep_wrep; exact Rm|apply Forall2_nil].
        * repeat (apply Forall2_cons || apply Forall2_nil); unfold wrep; cbn; tauto.
      + destruct (final_ok ar in_now in_end k u _ L1 L2) as (_ & F). cbn [app].
        specialize (L3 t Ht). cbv beta in L3. destruct (Z.eq_dec t t) as [_|]; [|congruence].
        destruct (F t _ Ht L3) as (o & Ho & E1 & E2). cbn [fold_left] in E1, E2.
        exists o, tx, txd, mx. split; [exact Ho|]. split; [apply Hdec; exact T1|]. split; [apply Hdec; exact T2|].
        split; [apply (decides_max h evse ignore now fs _ t mx hok Dm)|].
        cbn zeta. rewrite Ha. rewrite strictest_none_l in E1, E2. cbn [connector_allows]. split; assumption.
  Qed.

  (** one connector inside the station-wide schedule *)
  Definition part_ok (evse : Z) (session : option Z) (m : list iperiod) : Prop :=
    iprof_ok m /\ within (en - now) m /\
    forall t, now <= t < en ->
      exists tx txd,
        decides (applicable h evse ignore) PTx now session t tx /\
        decides (applicable h evse ignore) PTxDefault now session t txd /\
        rep (at_offset (t - now) m) (connector_allows (active session simulate) tx txd).

  Lemma part evse session :
    (forall p, applicable h evse ignore p -> usable now en session p) ->
    part_ok evse session
      (merge_profiles_by_lowest_limit
         (generate_evse_intermediates sort_date sort_stack (get_valid_profiles h evse ignore)
            (get_valid_profiles h 0 ignore) in_now in_end session simulate)).
  Proof.
    intros Hu.
    pose proof (intermediates_ok sort_date sort_stack sd ss in_now in_end window h hok ignore evse session simulate Hu) as HI.
    pose proof (intermediates_ok sort_date sort_stack sd ss in_now in_end window h hok ignore evse session true Hu) as HT.
    cbn zeta in HI, HT. set (gi := generate_evse_intermediates _ _ _ _ _ _ _ simulate) in *.
    destruct HI as [(Ha & ->)|(Ha & m & -> & I1 & I2 & I3)].
    - destruct (lowest_ok in_now in_end window [] (fun _ => [])) as (L1 & L2 & L3);
        [apply Forall_nil|apply Forall_nil|intros; apply Forall2_nil|].
      split; [exact L1|]. split; [exact L2|]. intros t Ht.
      destruct HT as [(K & _)|(_ & m & _ & _ & _ & I3)].
      { exfalso. unfold active in K. destruct session; discriminate. }
      destruct (I3 t Ht) as (tx & txd & T1 & T2 & _). exists tx, txd.
      split; [exact T1|]. split; [exact T2|]. rewrite Ha. exact (L3 t Ht).
    - destruct (combine_ok comb_lowest [m]) as (C1 & C2 & C3);
        [discriminate|apply Forall_cons; [exact I1|apply Forall_nil]|].
      split; [exact C1|]. split; [apply C2; [lia|apply Forall_cons; [exact I2|apply Forall_nil]]|].
      intros t Ht. destruct (I3 t Ht) as (tx & txd & T1 & T2 & T3). exists tx, txd.
      split; [exact T1|]. split; [exact T2|]. rewrite Ha. cbn [connector_allows].
      apply (rep_pay (comb_lowest (map (at_offset (t - now)) [m]))).
      + symmetry. apply C3. lia.
      + pose proof (comb_lowest_rep [at_offset (t - now) m] [allowed_by (override tx txd)]) as R.
        cbn [fold_left] in R. rewrite strictest_none_l in R. apply R.
        apply Forall2_cons; [apply rep_wrep; exact T3|apply Forall2_nil].
  Qed.

  Lemma evse_loop_ok cs : forall evse,
    (forall i c, nth_error cs i = Some c ->
       forall p, applicable h (evse + Z.of_nat i) ignore p -> usable now en (session_of c) p) ->
    Forall2 (fun ic m => part_ok (fst ic) (session_of (snd ic)) m)
      (combine (map (fun i => evse + Z.of_nat i) (seq 0 (length cs))) cs)
      (evse_loop sort_date sort_stack h ignore (get_valid_profiles h 0 ignore) in_now in_end simulate evse cs).
  Proof.
    induction cs as [|c cs IH]; intros evse Hu; cbn [evse_loop length seq map combine]; [apply Forall2_nil|].
    apply Forall2_cons.
    - cbn [fst snd]. rewrite Z.add_0_r. apply part. intros p Hp. apply (Hu O c eq_refl).
      cbn [Z.of_nat]. rewrite Z.add_0_r. exact Hp.
    - rewrite <- seq_shift, map_map.
      rewrite (map_ext _ (fun i => (evse + 1) + Z.of_nat i)) by (intros; lia).
      apply IH. intros i c' Hn p Hp. apply (Hu (S i) c' Hn).
      replace (evse + Z.of_nat (S i)) with (evse + 1 + Z.of_nat i) by lia. exact Hp.
  Qed.

  (** the whole station *)
  Notation acts := (map (fun c => active (session_of c) simulate) (tl (h_conns h))).
  Definition station_sum (parts : list (option (profile * csp) * option (profile * csp))) : allowed :=
    all_connectors_allow ar k acts parts.

  Lemma station_sum_eq parts :
    allowed_sum ar (k_current k) (k_power k)
      (map (fun cr : connector * (option (profile * csp) * option (profile * csp)) =>
              connector_allows (active (session_of (fst cr)) simulate) (fst (snd cr)) (snd (snd cr)))
           (combine (tl (h_conns h)) parts)) = station_sum parts.
  Proof.
    unfold station_sum, all_connectors_allow. f_equal. revert parts.
    induction (tl (h_conns h)) as [|c cs IH]; intros [|p parts]; cbn [map combine]; try reflexivity.
    f_equal. apply IH.
  Qed.

  Lemma parts_at t ics ms :
    now <= t < en ->
    Forall2 (fun ic m => part_ok (fst ic) (session_of (snd ic)) m) ics ms ->
    exists rs : list (option (profile * csp) * option (profile * csp)),
      Forall2 (fun ic r =>
                 decides (applicable h (fst ic) ignore) PTx now (session_of (snd ic)) t (fst r) /\
                 decides (applicable h (fst ic) ignore) PTxDefault now (session_of (snd ic)) t (snd r))
              ics rs /\
      Forall2 rep (map (at_offset (t - now)) ms)
        (map (fun cr : connector * (option (profile * csp) * option (profile * csp)) =>
                connector_allows (active (session_of (fst cr)) simulate) (fst (snd cr)) (snd (snd cr)))
             (combine (map (fun ic : Z * connector => snd ic) ics) rs)).
  Proof.
    intros Ht H. induction H as [|ic m ics ms Hp _ (rs & R1 & R2)].
    - exists []. split; apply Forall2_nil.
    - destruct Hp as (_ & _ & Hp). destruct (Hp t Ht) as (tx & txd & D1 & D2 & D3).
      exists ((tx, txd) :: rs). split; [apply Forall2_cons; [split; assumption|exact R1]|].
      cbn [map combine]. apply Forall2_cons; [exact D3|exact R2].
  Qed.

  Lemma combine_snd {A B} (f : nat -> A) (l : list B) n :
    map (fun ic : A * B => snd ic) (combine (map f (seq n (length l))) l) = l.
  Proof.
    revert n; induction l as [|b l IH]; intros n; cbn; [reflexivity|]. f_equal. apply IH.
  Qed.

  Lemma station_ok :
    (1 < length (h_conns h))%nat ->
    (forall evse p, applicable h evse ignore p -> usable now en (session_start h evse) p) ->
    let out := snd (calculate_enhanced_composite_schedule ar sort_date sort_stack k h in_now in_end
                      0 u offline simulate) in
    forall t, now <= t < en ->
      exists o parts mx,
        look op_start out (t - now) = Some o /\
        length parts = length (tl (h_conns h)) /\
        (forall i c r, nth_error (tl (h_conns h)) i = Some c -> nth_error parts i = Some r ->
           decides (applicable h (1 + Z.of_nat i) ignore) PTx now (session_of c) t (fst r) /\
           decides (applicable h (1 + Z.of_nat i) ignore) PTxDefault now (session_of c) t (snd r)) /\
        decides (applicable h 0 ignore) PMax now None t mx /\
        let a := strictest (station_sum parts) (allowed_by mx) in
        (op_limit o, op_stack o) = expressed ar u dflt (k_phases k) (k_voltage k) a /\
        op_phases o = a_phases a.
  Proof.
    intros Hlen Hu. cbn zeta. unfold calculate_enhanced_composite_schedule.
    cbn [Z.leb Z.eqb Z.compare]. set (cs := tl (h_conns h)).
    assert (Hcs : cs <> []).
    { unfold cs. destruct (h_conns h) as [|a [|b r]]; cbn in *; [lia|lia|discriminate]. }
    set (fs := match cs with [] => _ | c :: r => session_of (last r c) end).
    assert (Hum : forall p, applicable h 0 ignore p -> usable now en fs p).
    { intros p Hp. destruct (applicable0 h ignore p hok Hp) as (_ & K & _).
      apply (nonrel_usable p now en (session_start h 0) fs K). apply Hu. exact Hp. }
    clearbody fs. cbn [snd].
    destruct (max_ok sort_date sort_stack sd ss in_now in_end window h hok ignore fs Hum) as (M1 & M2 & M3).
    set (mm := generate_profile_from_periods sort_stack _ in_now in_end) in *.
    pose proof (evse_loop_ok cs 1) as HL.
    set (ms := evse_loop sort_date sort_stack h ignore (get_valid_profiles h 0 ignore) in_now in_end simulate 1 cs) in *.
    set (ics := combine (map (fun i => 1 + Z.of_nat i) (seq 0 (length cs))) cs) in *.
    assert (HF : Forall2 (fun ic m => part_ok (fst ic) (session_of (snd ic)) m) ics ms).
    { apply HL. intros i c Hn p Hp. specialize (Hu _ p Hp). revert Hu. unfold session_start.
      replace (Z.to_nat (1 + Z.of_nat i)) with (S i) by lia.
      unfold cs in Hn. destruct (h_conns h) as [|c0 r]; [destruct i; discriminate|]. cbn [tl] in Hn.
      cbn [nth_error]. rewrite Hn. unfold session_of. destruct (c_tx c) as [[? ?]|]; tauto. }
    clear HL.
    assert (Hms : ms <> []).
    { intros E. rewrite E in HF. apply Forall2_len in HF. unfold ics in HF.
      rewrite combine_length, map_length, seq_length in HF. destruct cs; [congruence|cbn in HF; lia]. }
    assert (A1 : Forall iprof_ok ms).
    { clear -HF. induction HF as [|x m xs ms H _ IH]; [apply Forall_nil|apply Forall_cons; [apply H|exact IH]]. }
    assert (A2 : Forall (within (en - now)) ms).
    { clear -HF. induction HF as [|x m xs ms H _ IH]; [apply Forall_nil|apply Forall_cons; [apply H|exact IH]]. }
    destruct (combine_ok (comb_sum ar (k_current k) (k_power k)) ms Hms A1) as (C1 & C2 & C3).
    specialize (C2 (en - now) ltac:(lia) A2).
    change (combine_list_of_profiles ms (comb_sum ar (k_current k) (k_power k)))
      with (merge_profiles_by_summing_limits ar ms (k_current k) (k_power k)) in *.
    set (sm := merge_profiles_by_summing_limits ar ms (k_current k) (k_power k)) in *.
    intros t Ht. destruct (M3 t Ht) as (mx & Dm & Rm).
    destruct (parts_at t ics ms Ht HF) as (rs & R1 & R2).
    unfold ics in R2 at 1. rewrite combine_snd in R2.
    pose proof (comb_sum_wrep ar (k_current k) (k_power k) _ _ R2) as W.
    rewrite station_sum_eq in W.
    pose (any := fun t' x => {| a_cur := counts (ip_cur (at_offset (t' - now) x)) (ip_scur (at_offset (t' - now) x));
           a_pow := counts (ip_pow (at_offset (t' - now) x)) (ip_spow (at_offset (t' - now) x));
           a_phases := ip_phases (at_offset (t' - now) x) |}).
    destruct (lowest_ok in_now in_end window [sm; mm]
                (fun t' => [match Z.eq_dec t' t with left _ => station_sum rs | right _ => any t' sm end;
                            match Z.eq_dec t' t with left _ => allowed_by mx | right _ => any t' mm end])) as (L1 & L2 & L3).
    - apply Forall_cons; [exact C1|apply Forall_cons; [exact M1|apply Forall_nil]].
    - apply Forall_cons; [exact C2|apply Forall_cons; [exact M2|apply Forall_nil]].
    - intros t' _. destruct (Z.eq_dec t' t) as [->|_].
      + apply Forall2_cons; [|apply Forall2_cons; [apply rep_wrep; exact Rm|apply Forall2_nil]].
        assert (E : ipay (at_offset (t - now) sm) =
                    ipay (comb_sum ar (k_current k) (k_power k) (map (at_offset (t - now)) ms)))
          by (apply C3; lia).
        unfold ipay in E. injection E as E1 E2 E3 E4 E5. unfold wrep. rewrite E1, E2, E3, E4, E5. exact W.
      + repeat (apply Forall2_cons || apply Forall2_nil); unfold wrep; cbn; tauto.
    - destruct (final_ok ar in_now in_end k u _ L1 L2) as (_ & F). cbn [app].
      specialize (L3 t Ht). cbv beta in L3. destruct (Z.eq_dec t t) as [_|]; [|congruence].
      destruct (F t _ Ht L3) as (o & Ho & E1 & E2). cbn [fold_left] in E1, E2.
      rewrite strictest_none_l in E1, E2.
      exists o, rs, mx. split; [exact Ho|]. split.
      { apply Forall2_len in R1. unfold ics in R1. rewrite combine_length, map_length, seq_length in R1. lia. }
      split.
      { intros i c r Hc Hr.
        assert (Hi : nth_error ics i = Some (1 + Z.of_nat i, c)).
        { assert (G : forall (f : nat -> Z) (l : list connector) n i c, nth_error l i = Some c ->
             nth_error (combine (map f (seq n (length l))) l) i = Some (f (n + i)%nat, c)).
          { clear. intros f l. induction l as [|x l IH]; intros n [|i] c H; cbn in H; try discriminate.
            - injection H as ->. cbn. rewrite Nat.add_0_r. reflexivity.
            - cbn [map seq combine length nth_error]. rewrite (IH (S n) i c H), Nat.add_succ_comm. reflexivity. }
          unfold ics. rewrite (G (fun i => 1 + Z.of_nat i) cs O i c Hc). reflexivity. }
        set (e := 1 + Z.of_nat i) in *. clearbody e. clear -R1 Hi Hr. revert i Hi Hr. induction R1 as [|ic r' ics rs H _ IH]; intros [|i] Hi Hr; cbn in *; try discriminate.
        - injection Hi as ->. injection Hr as ->. exact H.
        - exact (IH i Hi Hr). }
      split; [apply (decides_max h 0 ignore now fs None t mx hok Dm)|]. cbn zeta. split; assumption.
  Qed.
End Top.

(** ** Well-formedness needs no assumption on the profiles *)

Definition maybe_ok (p : list iperiod) : Prop := p = [] \/ iprof_ok p.

Lemma combine_struct comb ps len :
  Forall maybe_ok ps ->
  iprof_ok (combine_list_of_profiles ps comb) /\
  (0 < len -> Forall (within len) ps -> within len (combine_list_of_profiles ps comb)).
Proof.
  intros H.
  set (ne := fun p : list iperiod => match p with [] => false | _ => true end).
  assert (E : combine_list_of_profiles ps comb = combine_list_of_profiles (filter ne ps) comb).
  { unfold combine_list_of_profiles.
    assert (E1 : iters (filter ne ps) = iters ps).
    { clear H. unfold iters. induction ps as [|[|x r] ps IH]; cbn; [reflexivity|exact IH|]. f_equal. exact IH. }
    assert (E2 : concat (filter ne ps) = concat ps).
    { clear H E1. induction ps as [|[|x r] ps IH]; cbn; [reflexivity|exact IH|]. f_equal. f_equal. exact IH. }
    rewrite E1, E2. reflexivity. }
  rewrite E.
  destruct (filter ne ps) as [|p0 r0] eqn:Ef.
  - unfold combine_list_of_profiles. cbn [iters flat_map]. split.
    + split; [repeat constructor|]. split; [repeat constructor; cbn; unfold INT_MAX; lia|].
      exists (no_limit_period 0), []. split; reflexivity.
    + intros Hl _. repeat constructor; cbn; lia.
  - rewrite <- Ef in *. assert (Hne : filter ne ps <> []) by congruence. clear p0 r0 Ef E.
    destruct (combine_ok comb (filter ne ps) Hne) as (C1 & C2 & _).
    + apply Forall_forall. intros p Hp. apply filter_In in Hp as [Hp Hn].
      rewrite Forall_forall in H. destruct (H p Hp) as [->|K]; [discriminate|exact K].
    + split; [exact C1|]. intros Hl Hw. apply C2; [exact Hl|]. apply Forall_forall. intros p Hp.
      apply filter_In in Hp as [Hp _]. rewrite Forall_forall in Hw. apply Hw; exact Hp.
Qed.

Lemma generate_struct sort_stack es in_now in_end :
  (forall l, length (sort_stack l) = length l) ->
  floor_seconds in_end - floor_seconds in_now <= INT_MAX ->
  let g := generate_profile_from_periods sort_stack es in_now in_end in
  maybe_ok g /\
  (0 < floor_seconds in_end - floor_seconds in_now ->
   within (floor_seconds in_end - floor_seconds in_now) g).
Proof.
  intros Hl Hw. cbn zeta. unfold generate_profile_from_periods.
  set (now := floor_seconds in_now) in *. set (en := floor_seconds in_end) in *.
  destruct es as [|e0 es0] eqn:Ees.
  - split; [right; split; [repeat constructor|]; split; [repeat constructor; cbn; unfold INT_MAX; lia|];
      exists (no_limit_period 0), []; split; reflexivity|]. intros Hp.
    apply Forall_cons; [|apply Forall_nil]. cbn; lia.
  - rewrite <- Ees in *. clear e0 es0 Ees.
    destruct (Z.lt_ge_cases now en) as [Hlt|Hge].
    + assert (Hg : gen_ok (sort_stack es) now en now (generate_loop (2 * length es + 2) (sort_stack es) now en now)).
      { apply generate_loop_ok; [exact Hw|lia|]. etransitivity; [apply left_over_bound|]. rewrite Hl. lia. }
      set (g := generate_loop (2 * length es + 2) (sort_stack es) now en now) in *.
      destruct Hg as (G1 & G2 & G3 & _). split.
      * right. split; [exact G1|]. split.
        -- eapply Forall_impl; [|exact G2]. cbn. intros x Hx. lia.
        -- destruct G3 as (x & r & E & Hx); [lia|]. exists x, r. split; [exact E|lia].
      * intros Hpos. eapply Forall_impl; [|exact G2]. cbn. intros x Hx. lia.
    + split; [left|lia]. rewrite Nat.add_comm. cbn [plus generate_loop].
      destruct (Z.ltb_spec now en); [lia|reflexivity].
Qed.

Lemma composite_struct ar sort_date sort_stack k h in_now in_end evse u offline simulate :
  (forall l, length (sort_stack l) = length l) ->
  floor_seconds in_end - floor_seconds in_now <= INT_MAX ->
  wf_output (floor_seconds in_end - floor_seconds in_now)
    (snd (calculate_enhanced_composite_schedule ar sort_date sort_stack k h in_now in_end evse u
            offline simulate)).
Proof.
  intros Hl Hw. unfold calculate_enhanced_composite_schedule. cbn zeta.
  set (ignore := if offline then k_offline_ignored k else []).
  set (len := floor_seconds in_end - floor_seconds in_now) in *.
  assert (GS : forall es, let g := generate_profile_from_periods sort_stack es in_now in_end in
             maybe_ok g /\ (0 < len -> within len g))
    by (intros es; apply generate_struct; assumption).
  assert (GI : forall a b s sim, Forall (fun g => maybe_ok g /\ (0 < len -> within len g))
             (generate_evse_intermediates sort_date sort_stack a b in_now in_end s sim)).
  { intros a b s sim. unfold generate_evse_intermediates.
    destruct (match s with Some _ => true | None => sim end); [|apply Forall_nil].
    apply Forall_cons; [|apply Forall_nil]. unfold merge_tx_profile_with_tx_default_profile.
    destruct (combine_struct comb_tx [generate_profile_from_periods sort_stack
                   (calculate_all_profiles sort_date in_now in_end s (a ++ b) PTx) in_now in_end;
                 generate_profile_from_periods sort_stack
                   (calculate_all_profiles sort_date in_now in_end s (a ++ b) PTxDefault) in_now in_end] len)
      as [C1 C2].
    - apply Forall_cons; [apply GS|apply Forall_cons; [apply GS|apply Forall_nil]].
    - split; [right; exact C1|]. intros Hp. apply C2; [exact Hp|].
      apply Forall_cons; [apply GS; exact Hp|apply Forall_cons; [apply GS; exact Hp|apply Forall_nil]]. }
  assert (MG : forall comb ps, Forall (fun g => maybe_ok g /\ (0 < len -> within len g)) ps ->
             iprof_ok (combine_list_of_profiles ps comb) /\
             (0 < len -> within len (combine_list_of_profiles ps comb))).
  { intros comb ps H. destruct (combine_struct comb ps len) as [C1 C2].
    - eapply Forall_impl; [|exact H]. cbn. tauto.
    - split; [exact C1|]. intros Hp. apply C2; [exact Hp|]. eapply Forall_impl; [|exact H]. cbn. tauto. }
  assert (EL : forall cs st e, Forall (fun g => maybe_ok g /\ (0 < len -> within len g))
             (evse_loop sort_date sort_stack h ignore st in_now in_end simulate e cs)).
  { induction cs as [|c cs IH]; intros st e; cbn [evse_loop]; [apply Forall_nil|].
    apply Forall_cons; [|apply IH]. destruct (MG comb_lowest _ (GI (get_valid_profiles h e ignore) st (session_of c) simulate)) as [C1 C2].
    split; [right; exact C1|exact C2]. }
  assert (Fin : forall l, iprof_ok l -> (0 < len -> within len l) ->
            wf_output len (convert_intermediate_into_schedule ar l u
               (match u with UA => k_current k | UW => k_power k end) (k_phases k) (k_voltage k))).
  { intros l H1 H2.
    destruct (convert_ok ar u (match u with UA => k_current k | UW => k_power k end) (k_phases k) (k_voltage k) l H1)
      as (C1 & C2 & C3 & C4 & C5).
    split; [exact C1|]. split; [exact C2|]. split; [intros Hp; apply C4; exact (H2 Hp)|exact C3]. }
  assert (Top : forall comb mx, Forall (fun g => maybe_ok g /\ (0 < len -> within len g)) comb ->
            maybe_ok mx /\ (0 < len -> within len mx) ->
            wf_output len (convert_intermediate_into_schedule ar (merge_profiles_by_lowest_limit (comb ++ [mx])) u
               (match u with UA => k_current k | UW => k_power k end) (k_phases k) (k_voltage k))).
  { intros comb mx H1 H2. destruct (MG comb_lowest (comb ++ [mx])) as [C1 C2].
    - apply Forall_app. split; [exact H1|apply Forall_cons; [exact H2|apply Forall_nil]].
    - apply Fin; assumption. }
  destruct (evse =? 0).
  - cbn [snd]. apply Top; [|apply GS]. apply Forall_cons; [|apply Forall_nil].
    destruct (MG (comb_sum ar (k_current k) (k_power k)) _ (EL (tl (h_conns h)) (get_valid_profiles h 0 ignore) 1)) as [C1 C2].
    split; [right; exact C1|exact C2].
  - cbn [snd]. apply Top; [apply GI|apply GS].
Qed.

Lemma composite_window ar sort_date sort_stack k h in_now in_end evse u offline simulate :
  fst (calculate_enhanced_composite_schedule ar sort_date sort_stack k h in_now in_end evse u
         offline simulate) =
  (floor_seconds in_now, elapsed_seconds (floor_seconds in_end) (floor_seconds in_now)).
Proof.
  unfold calculate_enhanced_composite_schedule. cbn zeta. destruct (evse =? 0); reflexivity.
Qed.
