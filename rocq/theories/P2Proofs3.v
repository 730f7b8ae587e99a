(** Proofs about the OCPP 2.x composite schedule, part 3: the values of the merged periods. *)

From Coq Require Import ZArith List Bool Permutation Sorted Lia.
From Coq Require Import ZifyBool.
From Verif Require Import P2Model P2Spec P2Proofs P2Proofs2.
Import ListNotations.
Open Scope Z_scope.

(** ** sentinels *)

Definition BIG : Z := 2 ^ 276.
Definition EPS : Z := 2 ^ 97.

Lemma big_pos : 0 < BIG.
Proof. vm_compute; reflexivity. Qed.
Lemma big_flt : BIG + EPS < FLT_MAX.
Proof. vm_compute; reflexivity. Qed.
Lemma no_limit_far : NO_LIMIT + EPS < 0.
Proof. vm_compute; reflexivity. Qed.
Lemma FLT_MAX_eq : (2 ^ 24 - 1) * 2 ^ 253 = FLT_MAX.
Proof. vm_compute; reflexivity. Qed.
Lemma eps_le : 2 ^ 97 - 2 ^ 43 < EPS.
Proof. vm_compute; reflexivity. Qed.
Lemma eps_pos : 0 < EPS.
Proof. vm_compute; reflexivity. Qed.
Lemma grid_flt : grid FLT_MAX.
Proof. exists ((2 ^ 24 - 1) * 2 ^ 156). vm_compute; reflexivity. Qed.
Lemma grid_no_limit : grid NO_LIMIT.
Proof. exists (- 2 ^ 52). vm_compute; reflexivity. Qed.
Lemma grid_no_dis : grid NO_DISCHARGE.
Proof. exists (- (2 ^ 24 - 1) * 2 ^ 156). vm_compute; reflexivity. Qed.
Lemma no_dis_eq : NO_DISCHARGE = - FLT_MAX.
Proof. reflexivity. Qed.
Lemma no_sp_eq : NO_SETPOINT = FLT_MAX.
Proof. reflexivity. Qed.
Lemma grid_0 : grid 0.
Proof. exists 0. reflexivity. Qed.
Lemma regular_rng x : regular x -> grid x /\ Z.abs x < BIG.
Proof. intros [H1 H2]. split; [exact H1|exact H2]. Qed.
Lemma regular_amps : regular (48 * 2 ^ 149).
Proof. split; [exists (48 * 2 ^ 52); vm_compute; reflexivity|vm_compute; reflexivity]. Qed.
Lemma regular_watts : regular (33120 * 2 ^ 149).
Proof. split; [exists (33120 * 2 ^ 52); vm_compute; reflexivity|vm_compute; reflexivity]. Qed.

Lemma ieq_far a b : EPS <= Z.abs (a - b) -> is_equal a b = false.
Proof. unfold is_equal. pose proof eps_le. intros. destruct (Z.ltb_spec (Z.abs (a - b)) (2 ^ 97 - 2 ^ 43)); [lia|reflexivity]. Qed.

Global Opaque FLT_MAX NO_LIMIT NO_DISCHARGE NO_SETPOINT BIG EPS is_equal.

Ltac facts :=
  pose proof big_pos; pose proof big_flt; pose proof no_limit_far; pose proof no_dis_eq;
  pose proof no_sp_eq; pose proof eps_pos.

Definition okL (x : Z) : Prop := 0 <= x /\ x < BIG.
Definition okD (x : Z) : Prop := x < 0 /\ - BIG < x.
Definition okS (x : Z) : Prop := Z.abs x < BIG.

Definition is_none (o : option Z) : bool := match o with None => true | Some _ => false end.

Lemma no_lim o : opt_ok okL o -> is_equal (value_or o NO_LIMIT) NO_LIMIT = is_none o.
Proof.
  facts. destruct o as [x|]; cbn; [intros [H1' H2']; apply ieq_far; lia|intros _; apply is_equal_refl].
Qed.
Lemma no_dis o : opt_ok okD o -> is_equal (value_or o NO_DISCHARGE) NO_DISCHARGE = is_none o.
Proof.
  facts. destruct o as [x|]; cbn; [intros [H1' H2']; apply ieq_far; lia|intros _; apply is_equal_refl].
Qed.
Lemma no_set o : opt_ok okS o -> is_equal (value_or o NO_SETPOINT) NO_SETPOINT = is_none o.
Proof.
  facts. destruct o as [x|]; cbn; [unfold okS; intros H1'; apply ieq_far; lia|intros _; apply is_equal_refl].
Qed.

(** ** representation *)

Definition ok_want (w : want) : Prop :=
  tri_ok okL (w_cur w) /\ tri_ok okL (w_pow w) /\ tri_ok okD (w_dcur w) /\ tri_ok okD (w_dpow w) /\
  tri_ok okS (w_scur w) /\ tri_ok okS (w_spow w).

Lemma tri_impl (P Q : Z -> Prop) x : (forall v, P v -> Q v) -> tri_ok P x -> tri_ok Q x.
Proof.
  intros H (H1 & H2 & H3). destruct x as [[a|] [b|] [c|]]; cbn in *; repeat split; cbn; auto.
Qed.

Lemma tidy_ok w : tidy w -> ok_want w.
Proof.
  intros (H1 & H2 & H3 & H4 & H5 & H6).
  split; [|split; [|split; [|split; [|split]]]];
    (eapply tri_impl; [|eassumption]); cbn; intros v Hv.
  - destruct Hv as [R Hv]. apply regular_rng in R as [_ R]. unfold okL. lia.
  - destruct Hv as [R Hv]. apply regular_rng in R as [_ R]. unfold okL. lia.
  - destruct Hv as [R Hv]. apply regular_rng in R as [_ R]. unfold okD. lia.
  - destruct Hv as [R Hv]. apply regular_rng in R as [_ R]. unfold okD. lia.
  - apply regular_rng in Hv as [_ R]. exact R.
  - apply regular_rng in Hv as [_ R]. exact R.
Qed.

Definition rep (x : iperiod) (w : want) : Prop :=
  ip_cur x = plim_of (w_cur w) NO_LIMIT /\ ip_pow x = plim_of (w_pow w) NO_LIMIT /\
  ip_dcur x = plim_of (w_dcur w) NO_DISCHARGE /\ ip_dpow x = plim_of (w_dpow w) NO_DISCHARGE /\
  ip_scur x = plim_of (w_scur w) NO_SETPOINT /\ ip_spow x = plim_of (w_spow w) NO_SETPOINT /\
  ip_phases x = w_phases w /\ tidy w.

Lemma rep_pay x y a : ipay x = ipay y -> rep x a -> rep y a.
Proof. unfold ipay, rep. intros E; injection E as -> -> -> -> -> -> ->. tauto. Qed.

Lemma tidy_nothing : tidy nothing.
Proof. unfold tidy, nothing, tri_ok, opt_ok; cbn; tauto. Qed.

Lemma rep_none : rep (no_limit_period 0) nothing.
Proof.
  unfold rep. repeat (split; [reflexivity|]). exact tidy_nothing.
Qed.

Lemma plim_grid (P : Z -> Prop) x none :
  (forall v, P v -> grid v) -> grid none -> tri_ok P x -> grid3 (plim_of x none).
Proof.
  intros HP HN (H1 & H2 & H3). unfold grid3, plim_of. cbn [l1 l2 l3].
  destruct x as [[a|] [b|] [c|]]; cbn in *; auto.
Qed.

Lemma rep_good x w : rep x w -> good x.
Proof.
  intros (E1 & E2 & E3 & E4 & E5 & E6 & _ & H1 & H2 & H3 & H4 & H5 & H6).
  unfold good. rewrite E1, E2, E3, E4, E5, E6.
  split; [|split; [|split; [|split; [|split]]]];
    (eapply plim_grid; [| |eassumption]; [cbn; intros v Hv|]).
  - apply (regular_rng v); tauto.
  - exact grid_no_limit.
  - apply (regular_rng v); tauto.
  - exact grid_no_limit.
  - apply (regular_rng v); tauto.
  - exact grid_no_dis.
  - apply (regular_rng v); tauto.
  - exact grid_no_dis.
  - apply (regular_rng v); tauto.
  - rewrite no_sp_eq. exact grid_flt.
  - apply (regular_rng v); tauto.
  - rewrite no_sp_eq. exact grid_flt.
Qed.

Lemma limit_of_plim c u : entry_limit c u = plim_of (limit_of c u) NO_LIMIT.
Proof.
  unfold entry_limit, limit_of. destruct (sp_limit c) as [[a|] b d]; cbn [t1 is_some negb andb].
  - reflexivity.
  - destruct (sp_mode c) as [[]|]; cbn [value_or mode_eqb]; try reflexivity; destruct u; reflexivity.
Qed.

Lemma limit_of_tidy c u :
  tri_ok (fun x => regular x /\ 0 <= x) (sp_limit c) -> tri_ok (fun x => regular x /\ 0 <= x) (limit_of c u).
Proof.
  intros (H1 & H2 & H3). unfold limit_of. destruct (sp_limit c) as [[a|] b d]; cbn [t1 t2 t3] in *.
  - split; [exact H1|split; [exact H2|exact H3]].
  - assert (D : regular match u with UA => 48 * 2 ^ 149 | UW => 33120 * 2 ^ 149 end /\
                0 <= match u with UA => 48 * 2 ^ 149 | UW => 33120 * 2 ^ 149 end).
    { destruct u; split; [exact regular_amps|vm_compute; discriminate|exact regular_watts|vm_compute; discriminate]. }
    destruct (sp_mode c) as [[]|]; (split; [|split]); cbn [t1 t2 t3 opt_ok]; try assumption; exact D.
Qed.

Lemma wanted_tidy p c :
  tri_ok (fun x => regular x /\ 0 <= x) (sp_limit c) -> tri_ok (fun x => regular x /\ x < 0) (sp_dis c) ->
  tri_ok regular (sp_set c) -> tidy (wanted_by (Some (p, c))).
Proof.
  intros H1 H2 H3. unfold wanted_by.
  pose proof (limit_of_tidy c (sc_unit (the_schedule p)) H1) as HL.
  assert (N : forall P, tri_ok P none3) by (intros P; repeat split).
  destruct (sc_unit (the_schedule p)); unfold tidy;
    cbn [w_cur w_pow w_dcur w_dpow w_scur w_spow]; repeat (split; auto).
Qed.

Lemma rep_entry e p c :
  payload_of e p c -> tidy (wanted_by (Some (p, c))) ->
  rep (period_of_entry 0 e) (wanted_by (Some (p, c))).
Proof.
  intros (H1 & H2 & H3 & H4 & H5 & H6) Ht. unfold rep, period_of_entry.
  unfold wanted_by in *. change the_schedule with pf_sched in *. rewrite H6.
  destruct (sc_unit (pf_sched p)); cbn [ip_cur ip_pow ip_dcur ip_dpow ip_scur ip_spow ip_phases
    w_cur w_pow w_dcur w_dpow w_scur w_spow w_phases]; rewrite H1, H2, H3, H4, limit_of_plim;
    repeat (split; [reflexivity|]); exact Ht.
Qed.

(** ** one purpose *)

Definition usable (now end_ : Z) (session : option Z) (p : profile) : Prop :=
  wf_schedule (the_schedule p) /\ tidy_profile p /\ near_valid_to p now end_ session.

Lemma tidy_in_force now session t p c :
  tidy_profile p -> in_force p now session t = Some c -> tidy (wanted_by (Some (p, c))).
Proof.
  intros Ht Hf. unfold in_force in Hf. destruct (occurrence p now session t) as [s|]; [|discriminate].
  destruct (_ && _); [|discriminate]. apply look_in in Hf as [Hf _].
  unfold tidy_profile in Ht. rewrite Forall_forall in Ht. destruct (Ht c Hf) as (H1 & H2 & H3).
  apply wanted_tidy; assumption.
Qed.

Section Purpose.
  Variables sort_date sort_stack : list entry -> list entry.
  Hypothesis sd : sorts sort_date by_start.
  Hypothesis ss : sorts sort_stack by_stack.
  Variables in_now in_end : Z.
  Let now := floor_seconds in_now.
  Let en := floor_seconds in_end.
  Hypothesis window : 0 < en - now <= INT_MAX.
  Variable session : option Z.
  Variable ps : list profile.
  Variable pu : purpose.
  Hypothesis use : forall p, In p ps -> pf_purpose p = pu -> usable now en session p.

  Lemma purpose_eqb_eq a b : purpose_eqb a b = true <-> a = b.
  Proof. destruct a, b; cbn; split; congruence. Qed.

  Lemma in_all e :
    In e (calculate_all_profiles sort_date in_now in_end session ps pu) <->
    exists p, In p ps /\ pf_purpose p = pu /\ In e (calculate_profile_unsorted in_now in_end session p).
  Proof.
    unfold calculate_all_profiles. destruct (sd (flat_map
      (fun p => if purpose_eqb (pf_purpose p) pu then calculate_profile_unsorted in_now in_end session p else [])
      ps)) as [Hp _].
    split.
    - intros H. apply (Permutation_in _ (Permutation_sym Hp)) in H.
      apply in_flat_map in H as (p & Hin & He). exists p. split; [exact Hin|].
      destruct (purpose_eqb (pf_purpose p) pu) eqn:E; [|destruct He].
      apply purpose_eqb_eq in E. split; assumption.
    - intros (p & Hin & Hpu & He). apply (Permutation_in _ Hp). apply in_flat_map. exists p.
      split; [exact Hin|]. rewrite (proj2 (purpose_eqb_eq _ _) Hpu). exact He.
  Qed.

  Lemma generate_ok :
    let g := generate_profile_from_periods sort_stack
               (calculate_all_profiles sort_date in_now in_end session ps pu) in_now in_end in
    iprof_ok g /\ within (en - now) g /\
    (forall t, now <= t < en ->
       exists r, decides (fun p => In p ps) pu now session t r /\
                 rep (at_offset (t - now) g) (wanted_by r)).
  Proof.
    cbn zeta. unfold generate_profile_from_periods.
    pose proof in_all as Hin.
    set (es := calculate_all_profiles sort_date in_now in_end session ps pu) in *.
    assert (Hnone : forall t, now <= t < en -> (forall e, In e es -> ~ covers e t) ->
              decides (fun p => In p ps) pu now session t None).
    { intros t Ht Hno q Hq Hpu. destruct (in_force q now session t) as [c|] eqn:E; [|reflexivity].
      exfalso. destruct (use q Hq Hpu) as (W & _ & N).
      destruct (in_force_entry in_now in_end session q W N t c Ht E) as (e & He & Hc & _).
      apply (Hno e); [|exact Hc]. apply Hin. exists q. auto. }
    destruct es as [|e0 es0] eqn:Ees.
    - split; [|split].
      + split; [repeat constructor|]. split; [repeat constructor; cbn; unfold INT_MAX; lia|].
        exists (no_limit_period 0), []. split; reflexivity.
      + repeat constructor; cbn; lia.
      + intros t Ht. exists None. split; [apply Hnone; [exact Ht|intros e []]|].
        unfold at_offset. cbn [look]. destruct (ip_start (no_limit_period 0) <=? t - now); exact rep_none.
    - rewrite <- Ees in *. clear e0 es0 Ees.
      fold now en. destruct (ss es) as [Hperm Hsort].
      set (so := sort_stack es) in *.
      assert (Hg : gen_ok so now en now (generate_loop (2 * length es + 2) so now en now)).
      { apply generate_loop_ok; [unfold en, now in *; lia|lia|].
        etransitivity; [apply left_over_bound|]. rewrite (Permutation_length Hperm). lia. }
      set (g := generate_loop (2 * length es + 2) so now en now) in *.
      destruct Hg as (G1 & G2 & G3 & G4).
      split; [|split].
      + split; [exact G1|]. split.
        * eapply Forall_impl; [|exact G2]. cbn. intros x Hx. lia.
        * destruct G3 as (x & r & E & Hx); [lia|]. exists x, r. split; [exact E|lia].
      + eapply Forall_impl; [|exact G2]. cbn. intros x Hx. lia.
      + intros t Ht. destruct (G4 t Ht) as (x & Hlook & [(Hno & Hpay)|(pre & e & post & Eso & Hc & Hpre & Hpay)]).
        * exists None. split.
          -- apply Hnone; [exact Ht|]. intros e He. apply Hno. apply (Permutation_in _ Hperm). exact He.
          -- unfold at_offset. rewrite Hlook. apply (rep_pay (no_limit_period 0)); [symmetry; exact Hpay|exact rep_none].
        * assert (He : In e es).
          { apply (Permutation_in _ (Permutation_sym Hperm)). rewrite Eso. apply in_elt. }
          apply Hin in He as (p & Hp & Hpu & He).
          destruct (use p Hp Hpu) as (W & S & N).
          destruct (entry_in_force in_now in_end session p W N t e Ht He Hc) as (c & Hf & Hpl).
          exists (Some (p, c)). split.
          -- split; [exact Hp|]. split; [exact Hpu|]. split; [exact Hf|].
             intros q Hq Hqpu Hqf. destruct (in_force q now session t) as [cq|] eqn:Eq; [|congruence].
             destruct (use q Hq Hqpu) as (Wq & _ & Nq).
             destruct (in_force_entry in_now in_end session q Wq Nq t cq Ht Eq) as (e' & He' & Hc' & Hpl').
             assert (Hin' : In e' so).
             { apply (Permutation_in _ Hperm). apply Hin. exists q. auto. }
             rewrite Eso in Hin', Hsort.
             assert (Hle : e_stack e' <= e_stack e).
             { apply in_app_or in Hin' as [Hin'|[->|Hin']]; [exfalso; exact (Hpre _ Hin' Hc')|lia|].
               clear -Hsort Hin'. induction pre as [|y pre IH]; cbn [app] in Hsort.
               - inversion Hsort; subst. rewrite Forall_forall in H2. exact (H2 _ Hin').
               - inversion Hsort; subst. apply IH; assumption. }
             destruct Hpl as (_ & _ & _ & _ & P3 & _). destruct Hpl' as (_ & _ & _ & _ & P3' & _). lia.
          -- unfold at_offset. rewrite Hlook. apply (rep_pay (period_of_entry 0 e)); [symmetry; exact Hpay|].
             apply rep_entry; [exact Hpl|]. exact (tidy_in_force _ _ _ _ _ S Hf).
  Qed.
End Purpose.

