(** Proofs about the composite schedule, part 3: the schedule of a connector and of the
    whole station at every instant. *)

From Coq Require Import ZArith List Bool Permutation Sorted Lia.
From Coq Require Import ZifyBool.
From Verif Require Import Prof16Model Prof16Spec Prof16Proofs Prof16Proofs2 Sc16Model Sc16Spec.
Import ListNotations.
Open Scope Z_scope.

Lemma FLT_MAX_eq : (2 ^ 24 - 1) * 2 ^ 253 = FLT_MAX.
Proof. vm_compute; reflexivity. Qed.
Lemma NO_LIMIT_neg : NO_LIMIT < 0.
Proof. vm_compute; reflexivity. Qed.
Lemma FLT_MAX_pos : 0 < FLT_MAX.
Proof. vm_compute; reflexivity. Qed.
Global Opaque FLT_MAX NO_LIMIT.

Definition lim_or (o : option (Z * Z)) : Z := match o with Some (v, _) => v | None => NO_LIMIT end.
Definition stk_or (o : option (Z * Z)) : Z := match o with Some (_, s) => s | None => 0 end.
Definition sane_opt (o : option (Z * Z)) : Prop :=
  match o with Some (v, _) => 0 <= v < FLT_MAX | None => True end.

Definition rep (x : iperiod) (a : allowed) : Prop :=
  ip_cur x = lim_or (a_cur a) /\ ip_scur x = stk_or (a_cur a) /\
  ip_pow x = lim_or (a_pow a) /\ ip_spow x = stk_or (a_pow a) /\
  ip_phases x = a_phases a /\ sane_opt (a_cur a) /\ sane_opt (a_pow a).

Lemma rep_pay x y a : ipay x = ipay y -> rep x a -> rep y a.
Proof. unfold ipay, rep. intros E; injection E as -> -> -> -> ->. tauto. Qed.

Lemma rep_none : rep (no_limit_period 0) allowed_none.
Proof. unfold rep, no_limit_period, allowed_none; cbn. tauto. Qed.

Lemma rep_entry e p c :
  payload_of e p c -> 0 <= sp_limit c < FLT_MAX ->
  rep (period_of_entry 0 e) (allowed_by (Some (p, c))).
Proof.
  intros (H1 & H2 & H3 & H4) Hs. unfold rep, allowed_by, period_of_entry. rewrite H4.
  destruct (sc_unit (pf_sched p)); cbn; rewrite H1, H2, H3; tauto.
Qed.

(** ** one purpose *)

Section Purpose.
  Variables sort_date sort_stack : list entry -> list entry.
  Hypothesis sd : sorts sort_date by_start.
  Hypothesis ss : sorts sort_stack by_stack.
  Variables in_now in_end : Z.
  Let now := floor_seconds in_now.
  Let en := floor_seconds in_end.
  Hypothesis window : 0 < en - now <= INT_MAX.
  Variable session : option Z.
  Variable ps : list profile.
  Variable pu : purpose.
  Hypothesis good : forall p, In p ps -> pf_purpose p = pu -> usable now en session p.

  Lemma purpose_eqb_eq a b : purpose_eqb a b = true <-> a = b.
  Proof. destruct a, b; cbn; split; congruence. Qed.

  Lemma in_all e :
    In e (calculate_all_profiles sort_date in_now in_end session ps pu) <->
    exists p, In p ps /\ pf_purpose p = pu /\ In e (calculate_profile_unsorted in_now in_end session p).
  Proof.
    unfold calculate_all_profiles. destruct (sd (flat_map
      (fun p => if purpose_eqb (pf_purpose p) pu then calculate_profile_unsorted in_now in_end session p else [])
      ps)) as [Hp _].
    split.
    - intros H. apply (Permutation_in _ (Permutation_sym Hp)) in H.
      apply in_flat_map in H as (p & Hin & He). exists p. split; [exact Hin|].
      destruct (purpose_eqb (pf_purpose p) pu) eqn:E; [|destruct He].
      apply purpose_eqb_eq in E. split; assumption.
    - intros (p & Hin & Hpu & He). apply (Permutation_in _ Hp). apply in_flat_map. exists p.
      split; [exact Hin|]. rewrite (proj2 (purpose_eqb_eq _ _) Hpu). exact He.
  Qed.

  Lemma generate_ok :
    let g := generate_profile_from_periods sort_stack
               (calculate_all_profiles sort_date in_now in_end session ps pu) in_now in_end in
    iprof_ok g /\ within (en - now) g /\
    (forall t, now <= t < en ->
       exists r, decides (fun p => In p ps) pu now session t r /\
                 rep (at_offset (t - now) g) (allowed_by r)).
  Proof.
    cbn zeta. unfold generate_profile_from_periods.
    pose proof in_all as Hin.
    set (es := calculate_all_profiles sort_date in_now in_end session ps pu) in *.
    assert (Hnone : forall t, now <= t < en -> (forall e, In e es -> ~ covers e t) ->
              decides (fun p => In p ps) pu now session t None).
    { intros t Ht Hno q Hq Hpu. destruct (in_force q now session t) as [c|] eqn:E; [|reflexivity].
      exfalso. destruct (good q Hq Hpu) as (W & _ & N).
      destruct (in_force_entry in_now in_end session q W N t c Ht E) as (e & He & Hc & _).
      apply (Hno e); [|exact Hc]. apply Hin. exists q. auto. }
    destruct es as [|e0 es0] eqn:Ees.
    - split; [|split].
      + split; [repeat constructor|]. split; [repeat constructor; cbn; unfold INT_MAX; lia|].
        exists (no_limit_period 0), []. split; reflexivity.
      + repeat constructor; cbn; lia.
      + intros t Ht. exists None. split; [apply Hnone; [exact Ht|intros e []]|].
        unfold at_offset. cbn [look]. destruct (ip_start (no_limit_period 0) <=? t - now); exact rep_none.
    - rewrite <- Ees in *. clear e0 es0 Ees.
      fold now en. destruct (ss es) as [Hperm Hsort].
      set (so := sort_stack es) in *.
      assert (Hg : gen_ok so now en now (generate_loop (2 * length es + 2) so now en now)).
      { apply generate_loop_ok; [unfold en, now in *; lia|lia|].
        etransitivity; [apply left_over_bound|]. rewrite (Permutation_length Hperm). lia. }
      set (g := generate_loop (2 * length es + 2) so now en now) in *.
      destruct Hg as (G1 & G2 & G3 & G4).
      split; [|split].
      + split; [exact G1|]. split.
        * eapply Forall_impl; [|exact G2]. cbn. intros x Hx. lia.
        * destruct G3 as (x & r & E & Hx); [lia|]. exists x, r. split; [exact E|lia].
      + eapply Forall_impl; [|exact G2]. cbn. intros x Hx. lia.
      + intros t Ht. destruct (G4 t Ht) as (x & Hlook & [(Hno & Hpay)|(pre & e & post & Eso & Hc & Hpre & Hpay)]).
        * exists None. split.
          -- apply Hnone; [exact Ht|]. intros e He. apply Hno. apply (Permutation_in _ Hperm). exact He.
          -- unfold at_offset. rewrite Hlook. apply (rep_pay (no_limit_period 0)); [symmetry; exact Hpay|exact rep_none].
        * assert (He : In e es).
          { apply (Permutation_in _ (Permutation_sym Hperm)). rewrite Eso. apply in_elt. }
          apply Hin in He as (p & Hp & Hpu & He).
          destruct (good p Hp Hpu) as (W & S & N).
          destruct (entry_in_force in_now in_end session p W N t e Ht He Hc) as (c & Hf & Hpl).
          exists (Some (p, c)). split.
          -- split; [exact Hp|]. split; [exact Hpu|]. split; [exact Hf|].
             intros q Hq Hqpu Hqf. destruct (in_force q now session t) as [cq|] eqn:Eq; [|congruence].
             destruct (good q Hq Hqpu) as (Wq & _ & Nq).
             destruct (in_force_entry in_now in_end session q Wq Nq t cq Ht Eq) as (e' & He' & Hc' & Hpl').
             assert (Hin' : In e' so).
             { apply (Permutation_in _ Hperm). apply Hin. exists q. auto. }
             rewrite Eso in Hin', Hsort.
             assert (Hle : e_stack e' <= e_stack e).
             { apply in_app_or in Hin' as [Hin'|[->|Hin']]; [exfalso; exact (Hpre _ Hin' Hc')|lia|].
               clear -Hsort Hin'. induction pre as [|y pre IH]; cbn [app] in Hsort.
               - inversion Hsort; subst. rewrite Forall_forall in H2. exact (H2 _ Hin').
               - inversion Hsort; subst. apply IH; assumption. }
             destruct Hpl as (_ & _ & P3 & _). destruct Hpl' as (_ & _ & P3' & _). lia.
          -- unfold at_offset. rewrite Hlook. apply (rep_pay (period_of_entry 0 e)); [symmetry; exact Hpay|].
             apply rep_entry; [exact Hpl|]. unfold sane_limits in S. rewrite Forall_forall in S.
             rewrite FLT_MAX_eq in S. apply S.
             unfold in_force in Hf. fold now in Hf. destruct (occurrence p now session t) as [?|]; [|discriminate].
             destruct (_ && _); [|discriminate]. exact (proj1 (look_in _ _ _ _ Hf)).
  Qed.
End Purpose.

(** ** combinators *)

Lemma comb_tx_rep x y a b :
  rep x (allowed_by a) -> rep y (allowed_by b) -> rep (comb_tx [x; y]) (allowed_by (override a b)).
Proof.
  intros Hx Hy. pose proof NO_LIMIT_neg as HN.
  assert (None_case : rep x allowed_none -> ip_cur x = NO_LIMIT /\ ip_pow x = NO_LIMIT)
    by (unfold rep; cbn; tauto).
  assert (Some_case : forall z p c, rep z (allowed_by (Some (p, c))) ->
            negb (ip_cur z =? NO_LIMIT) || negb (ip_pow z =? NO_LIMIT) = true).
  { intros z p c. unfold rep, allowed_by. destruct (sc_unit (pf_sched p)); cbn; lia. }
  cbn [comb_tx]. destruct a as [[p c]|].
  - rewrite (Some_case x p c Hx). cbn [override]. apply (rep_pay x); [reflexivity|exact Hx].
  - destruct (None_case Hx) as [-> ->]. rewrite Z.eqb_refl. cbn [negb orb override].
    destruct b as [[p c]|].
    + rewrite (Some_case y p c Hy). apply (rep_pay y); [reflexivity|exact Hy].
    + unfold rep in Hy. cbn [allowed_by allowed_none lim_or a_cur a_pow] in Hy.
      destruct Hy as (-> & _ & -> & _). rewrite Z.eqb_refl. cbn [negb orb]. exact rep_none.
Qed.

(* the weaker reading used by merge_profiles_by_lowest_limit *)
Definition counts (v s : Z) : option (Z * Z) :=
  if (0 <=? v) && (v <? FLT_MAX) then Some (v, s) else None.
Definition wrep (x : iperiod) (a : allowed) : Prop :=
  a_cur a = counts (ip_cur x) (ip_scur x) /\ a_pow a = counts (ip_pow x) (ip_spow x) /\
  a_phases a = ip_phases x.

Lemma counts_rep o : sane_opt o -> o = counts (lim_or o) (stk_or o).
Proof.
  pose proof NO_LIMIT_neg. unfold counts. destruct o as [[v s]|]; cbn.
  - intros Hs. destruct (Z.leb_spec 0 v), (Z.ltb_spec v FLT_MAX); cbn; try lia. reflexivity.
  - intros _. destruct (Z.leb_spec 0 NO_LIMIT); [lia|reflexivity].
Qed.

Lemma rep_wrep x a : rep x a -> wrep x a.
Proof.
  intros (E1 & E2 & E3 & E4 & E5 & H1 & H2). unfold wrep. rewrite E1, E2, E3, E4, E5.
  split; [|split; [|reflexivity]]; apply counts_rep; assumption.
Qed.

(* accumulator of the loop *)
Definition arep (x : iperiod) (a : allowed) : Prop :=
  (ip_cur x = match a_cur a with Some (v, _) => v | None => FLT_MAX end) /\
  (a_cur a <> None -> ip_scur x = stk_or (a_cur a)) /\
  (ip_pow x = match a_pow a with Some (v, _) => v | None => FLT_MAX end) /\
  (a_pow a <> None -> ip_spow x = stk_or (a_pow a)) /\
  ip_phases x = a_phases a /\ sane_opt (a_cur a) /\ sane_opt (a_pow a).

Lemma lower_step (v s : Z) (o : option (Z * Z)) (v' s' : Z) :
  v = match o with Some (w, _) => w | None => FLT_MAX end ->
  (o <> None -> s = stk_or o) -> sane_opt o ->
  let '(r, rs) := if (0 <=? v') && (v' <? v) then (v', s') else (v, s) in
  let o' := lower o (counts v' s') in
  (r = match o' with Some (w, _) => w | None => FLT_MAX end) /\
  (o' <> None -> rs = stk_or o') /\ sane_opt o'.
Proof.
  intros Hv Hs Hsane. unfold counts. pose proof FLT_MAX_pos.
  destruct o as [[w sw]|]; cbn [stk_or sane_opt] in *.
  - subst v. rewrite (Hs ltac:(discriminate)).
    destruct (Z.leb_spec 0 v'); cbn [andb].
    + destruct (Z.ltb_spec v' w).
      * destruct (Z.ltb_spec v' FLT_MAX); [|lia]. cbn [lower].
        destruct (Z.ltb_spec v' w); [|lia]. cbn. repeat split; lia.
      * destruct (Z.ltb_spec v' FLT_MAX); cbn [lower].
        -- destruct (Z.ltb_spec v' w); [lia|]. cbn. repeat split; lia.
        -- cbn. repeat split; lia.
    + cbn. repeat split; lia.
  - subst v. destruct (Z.leb_spec 0 v'); cbn [andb].
    + destruct (Z.ltb_spec v' FLT_MAX); cbn; repeat split; try lia; congruence.
    + cbn. repeat split; congruence.
Qed.

Lemma lowest_step_rep x a y b :
  arep x a -> wrep y b -> arep (lowest_step x y) (strictest a b).
Proof.
  intros (A1 & A2 & A3 & A4 & A5 & A6 & A7) (B1 & B2 & B3).
  unfold lowest_step, strictest, arep.
  pose proof (lower_step (ip_cur x) (ip_scur x) (a_cur a) (ip_cur y) (ip_scur y) A1 A2 A6) as C.
  pose proof (lower_step (ip_pow x) (ip_spow x) (a_pow a) (ip_pow y) (ip_spow y) A3 A4 A7) as W.
  destruct (if (0 <=? ip_cur y) && (ip_cur y <? ip_cur x) then _ else _) as [c sc].
  destruct (if (0 <=? ip_pow y) && (ip_pow y <? ip_pow x) then _ else _) as [w sw].
  cbn [ip_cur ip_pow ip_scur ip_spow ip_phases a_cur a_pow a_phases].
  rewrite <- B1 in C. rewrite <- B2 in W. cbn zeta in C, W.
  destruct C as (C1 & C2 & C3), W as (W1 & W2 & W3).
  split; [exact C1|]. split; [exact C2|]. split; [exact W1|]. split; [exact W2|]. split; [|split; assumption].
  rewrite A5, B3. destruct (a_phases a) as [m|], (ip_phases y) as [n|]; cbn [opt_min]; try reflexivity.
  destruct (Z.ltb_spec n m); f_equal; lia.
Qed.

Lemma comb_lowest_rep xs aas :
  Forall2 wrep xs aas -> rep (comb_lowest xs) (fold_left strictest aas allowed_none).
Proof.
  intros H. unfold comb_lowest.
  set (x0 := {| ip_start := 0; ip_cur := FLT_MAX; ip_pow := FLT_MAX; ip_scur := 0; ip_spow := 0;
                ip_phases := None |}).
  assert (H0 : arep x0 allowed_none).
  { unfold arep, x0, allowed_none; cbn. repeat split; congruence. }
  assert (G : arep (fold_left lowest_step xs x0) (fold_left strictest aas allowed_none)).
  { clearbody x0. revert H0. generalize allowed_none. revert x0.
    induction H as [|x a xs aas Hx _ IH]; intros x0 a0 H0; cbn [fold_left]; [exact H0|].
    apply IH. apply lowest_step_rep; assumption. }
  destruct G as (A1 & A2 & A3 & A4 & A5 & A6 & A7).
  set (x := fold_left lowest_step xs x0) in *. set (a := fold_left strictest aas allowed_none) in *.
  assert (Side : forall v s (o : option (Z * Z)),
            v = match o with Some (w, _) => w | None => FLT_MAX end ->
            (o <> None -> s = stk_or o) -> sane_opt o ->
            (if v =? FLT_MAX then (NO_LIMIT, 0) else (v, s)) = (lim_or o, stk_or o)).
  { intros v s o E Es Hs. destruct o as [[w sw]|]; cbn in *.
    - subst v. rewrite (Es ltac:(discriminate)). destruct (Z.eqb_spec w FLT_MAX); [lia|reflexivity].
    - subst v. rewrite Z.eqb_refl. reflexivity. }
  rewrite (Side _ _ _ A1 A2 A6), (Side _ _ _ A3 A4 A7).
  unfold rep. cbn. tauto.
Qed.

Lemma strictest_none_l a : strictest allowed_none a = a.
Proof. destruct a; reflexivity. Qed.
Lemma strictest_none_r a : strictest a allowed_none = a.
Proof. destruct a as [c w n]; unfold strictest; cbn. destruct c as [[]|], w as [[]|], n; reflexivity. Qed.

Lemma fold_opt_max_step a b :
  match a, b with
  | None, x => x
  | Some a, Some b => if a <? b then Some b else Some a
  | Some a, None => Some a
  end = opt_max a b.
Proof.
  destruct a as [x|], b as [y|]; cbn; try reflexivity. destruct (Z.ltb_spec x y); f_equal; lia.
Qed.

Lemma comb_sum_spec ar cdef wdef xs aas :
  Forall2 rep xs aas ->
  let x := comb_sum ar cdef wdef xs in
  (ip_cur x, ip_pow x, ip_phases x) = added ar cdef wdef aas /\ ip_scur x = 0 /\ ip_spow x = 0.
Proof.
  intros H. cbn zeta. unfold comb_sum, added.
  set (x0 := {| ip_start := 0; ip_cur := 0; ip_pow := 0; ip_scur := 0; ip_spow := 0; ip_phases := None |}).
  assert (G : forall x0, ip_scur x0 = 0 /\ ip_spow x0 = 0 ->
    let x := fold_left (sum_step ar cdef wdef) xs x0 in
    (ip_cur x, ip_pow x, ip_phases x) =
      (fold_left (fun s a => f_add ar s (value_or cdef (a_cur a))) aas (ip_cur x0),
       fold_left (fun s a => f_add ar s (value_or wdef (a_pow a))) aas (ip_pow x0),
       fold_left (fun s a => opt_max s (a_phases a)) aas (ip_phases x0)) /\
    ip_scur x = 0 /\ ip_spow x = 0).
  2:{ exact (G x0 (conj eq_refl eq_refl)). }
  clear x0. cbn zeta.
  induction H as [|x a xs aas Hx _ IH]; intros x0 H0; cbn [fold_left]; [split; [reflexivity|exact H0]|].
  destruct (IH (sum_step ar cdef wdef x0 x)) as [E ES]; [split; reflexivity|].
  rewrite E. split; [|exact ES]. cbn [sum_step ip_cur ip_pow ip_phases].
  destruct Hx as (E1 & _ & E2 & _ & E3 & S1 & S2). rewrite E1, E2, E3, fold_opt_max_step.
  pose proof NO_LIMIT_neg.
  assert (V : forall d (o : option (Z * Z)), sane_opt o -> (if 0 <=? lim_or o then lim_or o else d) = value_or d o).
  { intros d o Ho. destruct o as [[v s]|]; cbn in *.
    - destruct (Z.leb_spec 0 v); [reflexivity|lia].
    - destruct (Z.leb_spec 0 NO_LIMIT); [lia|reflexivity]. }
  rewrite (V cdef _ S1), (V wdef _ S2). reflexivity.
Qed.

Lemma comb_sum_wrep ar cdef wdef xs aas :
  Forall2 rep xs aas -> wrep (comb_sum ar cdef wdef xs) (allowed_sum ar cdef wdef aas).
Proof.
  intros H. destruct (comb_sum_spec ar cdef wdef xs aas H) as (E & E1 & E2).
  unfold wrep, allowed_sum. rewrite <- E, E1, E2. cbn [a_cur a_pow a_phases].
  unfold as_limit, counts. rewrite FLT_MAX_eq. repeat split.
Qed.

Lemma convert_rep ar u dl dp v x a :
  rep x a ->
  let o := convert_period ar u dl dp v x in
  (op_limit o, op_stack o) = expressed ar u dl dp v a /\ op_phases o = a_phases a.
Proof.
  intros (E1 & E2 & E3 & E4 & E5 & S1 & S2). cbn zeta. unfold convert_period, expressed.
  rewrite E1, E2, E3, E4, E5, FLT_MAX_eq. pose proof NO_LIMIT_neg as HN.
  assert (NE : forall w s, sane_opt (Some (w, s)) -> (w =? NO_LIMIT) = false).
  { cbn. intros w s Hs. destruct (Z.eqb_spec w NO_LIMIT); [lia|reflexivity]. }
  set (tv := f_mul ar v (f_of_int ar (match a_phases a with Some n => n | None => dp end))).
  destruct (a_cur a) as [[c sc]|]; destruct (a_pow a) as [[w sw]|];
    cbn [lim_or stk_or]; rewrite ?(NE _ _ S1), ?(NE _ _ S2), ?Z.eqb_refl; cbn [andb negb];
    destruct u; cbn [lower].
  - destruct (f_div ar w tv <? c); split; reflexivity.
  - destruct (f_mul ar c tv <? w); split; reflexivity.
  - split; reflexivity.
  - destruct (f_mul ar c tv <? FLT_MAX); split; reflexivity.
  - destruct (f_div ar w tv <? FLT_MAX); split; reflexivity.
  - split; reflexivity.
  - split; reflexivity.
  - split; reflexivity.
Qed.

(** ** the handler *)

Lemma in_force_session p now ts t :
  in_force p now (Some (floor_seconds ts * NS)) t = in_force p now (Some ts) t.
Proof.
  unfold in_force, occurrence. destruct (pf_kind p); try reflexivity.
  unfold secs, floor_seconds, NS. rewrite Z.div_mul by lia. reflexivity.
Qed.

Lemma near_session p now en ts :
  near_valid_to p now en (Some ts) -> near_valid_to p now en (Some (floor_seconds ts * NS)).
Proof.
  unfold near_valid_to. destruct (pf_to p); [|tauto]. intros H t s Ht Ho. apply (H t s Ht).
  revert Ho. unfold occurrence. destruct (pf_kind p); try tauto.
  unfold secs, floor_seconds, NS. rewrite Z.div_mul by lia. tauto.
Qed.

Lemma decides_session P pu now ts t r :
  decides P pu now (Some (floor_seconds ts * NS)) t r -> decides P pu now (Some ts) t r.
Proof.
  unfold decides. destruct r as [[p c]|].
  - rewrite in_force_session. intros (H1 & H2 & H3 & H4). repeat split; try assumption.
    intros q Hq Hp Hn. apply H4; try assumption. rewrite in_force_session. exact Hn.
  - intros H q Hq Hp. rewrite <- in_force_session. apply H; assumption.
Qed.

Lemma decides_ext (P Q : profile -> Prop) pu now session t r :
  (forall p, pf_purpose p = pu -> (P p <-> Q p)) ->
  decides P pu now session t r -> decides Q pu now session t r.
Proof.
  intros H. unfold decides. destruct r as [[p c]|].
  - intros (H1 & H2 & H3 & H4). split; [apply H; assumption|]. split; [exact H2|]. split; [exact H3|].
    intros q Hq Hp. apply H4; [apply H; assumption|exact Hp].
  - intros H1 q Hq Hp. apply H1; [apply H; assumption|exact Hp].
Qed.

Lemma not_ignored pu ignore : existsb (purpose_eqb pu) ignore = false <-> ~ In pu ignore.
Proof.
  split.
  - intros H Hin. assert (existsb (purpose_eqb pu) ignore = true); [|congruence].
    apply existsb_exists. exists pu. split; [exact Hin|]. apply purpose_eqb_eq. reflexivity.
  - intros H. destruct (existsb (purpose_eqb pu) ignore) eqn:E; [|reflexivity].
    apply existsb_exists in E as (x & Hx & E). apply purpose_eqb_eq in E. subst. contradiction.
Qed.

Lemma map_ok_purpose P m p : map_ok P m -> In p (map snd m) -> P p.
Proof.
  intros [_ H] Hin. apply in_map_iff in Hin as ((k & q) & <- & Hin).
  rewrite Forall_forall in H. exact (proj2 (H _ Hin)).
Qed.

Lemma get_valid_spec h conn ignore p :
  handler_ok h ->
  (In p (get_valid_profiles h conn ignore) <-> applicable h conn ignore p).
Proof.
  intros (Hm & Hc & _). unfold get_valid_profiles, applicable. cbn zeta. rewrite in_app_iff.
  assert (K : forall pu (l : list profile), (forall q, In q l -> pf_purpose q = pu) ->
            (In p (if negb (existsb (purpose_eqb pu) ignore) then l else []) <->
             ~ In (pf_purpose p) ignore /\ In p l)).
  { intros pu l Hl. destruct (existsb (purpose_eqb pu) ignore) eqn:E; cbn [negb].
    - split; [intros []|]. intros [H Hin]. rewrite (Hl p Hin) in H. apply not_ignored in H. congruence.
    - split; [|tauto]. intros Hin. split; [|exact Hin]. rewrite (Hl p Hin). apply not_ignored. exact E. }
  rewrite (K PMax (map snd (h_max h))).
  2:{ intros q Hq. exact (proj1 (map_ok_purpose _ _ _ Hm Hq)). }
  destruct (Z.ltb_spec 0 conn) as [Hpos|Hneg].
  - destruct (nth_error (h_conns h) (Z.to_nat conn)) as [c|] eqn:En.
    + rewrite Forall_forall in Hc. destruct (Hc c (nth_error_In _ _ En)) as [Hd Ht].
      rewrite in_app_iff, (K PTx), (K PTxDefault).
      * rewrite filter_In. split.
        -- intros [[H1 H2]|[[H1 [H2 H3]]|[H1 H2]]].
           ++ tauto.
           ++ split; [exact H1|]. right. split; [exact Hpos|]. exists c. split; [reflexivity|]. right.
              split; [exact H2|]. intros t Et. rewrite Et in H3. destruct (c_tx c) as [[t' ts]|]; [|discriminate].
              apply Z.eqb_eq in H3 as ->. exists ts; reflexivity.
           ++ split; [exact H1|]. right. split; [exact Hpos|]. exists c. split; [reflexivity|]. left; exact H2.
        -- intros [H1 [H2|[_ (c' & E & [H2|[H2 H3]])]]]; [left; tauto|right..]; injection E as <-.
           ++ right. tauto.
           ++ left. split; [exact H1|]. split; [exact H2|]. destruct (pf_tx p) as [t|]; [|reflexivity].
              destruct (H3 t eq_refl) as (ts & ->). apply Z.eqb_refl.
      * intros q Hq. exact (map_ok_purpose _ _ _ Hd Hq).
      * intros q Hq. apply filter_In in Hq as [Hq _]. exact (map_ok_purpose _ _ _ Ht Hq).
    + split; [|intros [H1 [H2|[_ (c & E & _)]]]; [tauto|discriminate]].
      intros [H|[]]. tauto.
  - split; [|intros [H1 [H2|[H2 _]]]; [tauto|lia]]. intros [H|[]]. tauto.
Qed.

Section Schedules.
  Variable ar : arith.
  Variables sort_date sort_stack : list entry -> list entry.
  Hypothesis sd : sorts sort_date by_start.
  Hypothesis ss : sorts sort_stack by_stack.
  Variables in_now in_end : Z.
  Let now := floor_seconds in_now.
  Let en := floor_seconds in_end.
  Hypothesis window : 0 < en - now <= INT_MAX.
  Variable h : handler.
  Hypothesis hok : handler_ok h.
  Variable ignore : list purpose.

  Notation gen ps session pu :=
    (generate_profile_from_periods sort_stack
       (calculate_all_profiles sort_date in_now in_end session ps pu) in_now in_end).

  Definition merged_tx (ps : list profile) (session : option Z) : list iperiod :=
    merge_tx_profile_with_tx_default_profile (gen ps session PTx) (gen ps session PTxDefault).

  Lemma merged_tx_ok ps session :
    (forall p, In p ps -> usable now en session p) ->
    iprof_ok (merged_tx ps session) /\ within (en - now) (merged_tx ps session) /\
    (forall t, now <= t < en ->
       exists tx txd, decides (fun p => In p ps) PTx now session t tx /\
                      decides (fun p => In p ps) PTxDefault now session t txd /\
                      rep (at_offset (t - now) (merged_tx ps session)) (allowed_by (override tx txd))).
  Proof.
    intros Hu.
    destruct (generate_ok sort_date sort_stack sd ss in_now in_end window session ps PTx) as (X1 & X2 & X3);
      [intros; apply Hu; assumption|].
    destruct (generate_ok sort_date sort_stack sd ss in_now in_end window session ps PTxDefault) as (D1 & D2 & D3);
      [intros; apply Hu; assumption|].
    destruct (combine_ok comb_tx [gen ps session PTx; gen ps session PTxDefault]) as (C1 & C2 & C3).
    { discriminate. } { apply Forall_cons; [exact X1|apply Forall_cons; [exact D1|apply Forall_nil]]. }
    split; [exact C1|]. split; [apply C2; [lia|apply Forall_cons; [exact X2|apply Forall_cons; [exact D2|apply Forall_nil]]]|].
    intros t Ht. destruct (X3 t Ht) as (tx & Htx & Rtx). destruct (D3 t Ht) as (txd & Htxd & Rtxd).
    exists tx, txd. split; [exact Htx|]. split; [exact Htxd|].
    apply (rep_pay (comb_tx [at_offset (t - now) (gen ps session PTx);
                             at_offset (t - now) (gen ps session PTxDefault)])).
    - symmetry. apply (C3 (t - now)). lia.
    - apply comb_tx_rep; assumption.
  Qed.

  Lemma valid_combined_iff evse p pu :
    (pu = PTx \/ pu = PTxDefault) -> pf_purpose p = pu ->
    (In p (get_valid_profiles h evse ignore ++ get_valid_profiles h 0 ignore) <->
     applicable h evse ignore p).
  Proof.
    intros Hpu Hp. rewrite in_app_iff, !get_valid_spec by exact hok.
    split; [|tauto]. intros [H|H]; [exact H|].
    destruct H as [H1 [H2|[H2 _]]]; [|lia]. exfalso.
    destruct hok as (Hm & _). destruct (map_ok_purpose _ _ _ Hm H2) as [E _]. rewrite E in Hp.
    destruct Hpu; congruence.
  Qed.

  Lemma applicable_combined evse p :
    In p (get_valid_profiles h evse ignore ++ get_valid_profiles h 0 ignore) ->
    applicable h evse ignore p.
  Proof.
    rewrite in_app_iff, !get_valid_spec by exact hok. intros [H|[H1 [H2|[H2 _]]]]; [exact H| |lia].
    split; [exact H1|left; exact H2].
  Qed.

  (* the intermediates of one connector, as a list of at most one profile *)
  Lemma intermediates_ok evse session simulate :
    (forall p, applicable h evse ignore p -> usable now en session p) ->
    let l := generate_evse_intermediates sort_date sort_stack (get_valid_profiles h evse ignore)
               (get_valid_profiles h 0 ignore) in_now in_end session simulate in
    (active session simulate = false /\ l = []) \/
    (active session simulate = true /\ exists m, l = [m] /\
       iprof_ok m /\ within (en - now) m /\
       (forall t, now <= t < en ->
          exists tx txd, decides (applicable h evse ignore) PTx now session t tx /\
                         decides (applicable h evse ignore) PTxDefault now session t txd /\
                         rep (at_offset (t - now) m) (allowed_by (override tx txd)))).
  Proof.
    intros Hu. cbn zeta. unfold generate_evse_intermediates, active.
    set (all := get_valid_profiles h evse ignore ++ get_valid_profiles h 0 ignore).
    destruct (match session with Some _ => true | None => simulate end); [right|left; split; reflexivity].
    split; [reflexivity|]. exists (merged_tx all session). split; [reflexivity|].
    destruct (merged_tx_ok all session) as (M1 & M2 & M3).
    { intros p Hp. apply Hu. apply applicable_combined. exact Hp. }
    split; [exact M1|]. split; [exact M2|]. intros t Ht.
    destruct (M3 t Ht) as (tx & txd & H1 & H2 & H3). exists tx, txd.
    split; [|split; [|exact H3]].
    - eapply decides_ext; [|exact H1]. intros p Hp. cbv beta. apply (valid_combined_iff evse p PTx); tauto.
    - eapply decides_ext; [|exact H2]. intros p Hp. cbv beta. apply (valid_combined_iff evse p PTxDefault); tauto.
  Qed.

  Lemma max_ok session :
    (forall p, applicable h 0 ignore p -> usable now en session p) ->
    let m := gen (get_valid_profiles h 0 ignore) session PMax in
    iprof_ok m /\ within (en - now) m /\
    (forall t, now <= t < en ->
       exists r, decides (applicable h 0 ignore) PMax now session t r /\
                 rep (at_offset (t - now) m) (allowed_by r)).
  Proof.
    intros Hu. cbn zeta.
    destruct (generate_ok sort_date sort_stack sd ss in_now in_end window session
                (get_valid_profiles h 0 ignore) PMax) as (X1 & X2 & X3).
    { intros p Hp _. apply Hu. apply get_valid_spec; assumption. }
    split; [exact X1|]. split; [exact X2|]. intros t Ht. destruct (X3 t Ht) as (r & H1 & H2).
    exists r. split; [|exact H2]. eapply decides_ext; [|exact H1]. intros p _. cbv beta. apply get_valid_spec. exact hok.
  Qed.

  (* merging by lowest limit a list of profiles whose values are known *)
  Lemma lowest_ok ms (av : Z -> list allowed) :
    Forall iprof_ok ms -> Forall (within (en - now)) ms ->
    (forall t, now <= t < en -> Forall2 wrep (map (at_offset (t - now)) ms) (av t)) ->
    let l := merge_profiles_by_lowest_limit ms in
    iprof_ok l /\ within (en - now) l /\
    (forall t, now <= t < en ->
       rep (at_offset (t - now) l) (fold_left strictest (av t) allowed_none)).
  Proof.
    intros H1 H2 H3. cbn zeta.
    destruct ms as [|m0 ms0] eqn:Em.
    { split; [|split].
      - split; [repeat constructor|]. split; [repeat constructor; cbn; unfold INT_MAX; lia|].
        exists (no_limit_period 0), []. split; reflexivity.
      - repeat constructor; cbn; lia.
      - intros t Ht. specialize (H3 t Ht). inversion H3. cbn [fold_left].
        unfold at_offset, merge_profiles_by_lowest_limit, combine_list_of_profiles. cbn [iters flat_map look].
        destruct (ip_start (no_limit_period 0) <=? t - now); exact rep_none. }
    rewrite <- Em in *. assert (Hne : ms <> []) by congruence. clear m0 ms0 Em.
    destruct (combine_ok comb_lowest ms Hne H1) as (C1 & C2 & C3).
    split; [exact C1|]. split; [apply C2; [lia|exact H2]|].
    intros t Ht. apply (rep_pay (comb_lowest (map (at_offset (t - now)) ms))).
    - symmetry. apply (C3 (t - now)). lia.
    - apply comb_lowest_rep. apply H3; exact Ht.
  Qed.

  Lemma final_ok k u l :
    iprof_ok l -> within (en - now) l ->
    let out := convert_intermediate_into_schedule ar l u
                 (match u with UA => k_current k | UW => k_power k end) (k_phases k) (k_voltage k) in
    wf_output (en - now) out /\
    (forall t a, now <= t < en -> rep (at_offset (t - now) l) a ->
       exists o, look op_start out (t - now) = Some o /\
         (op_limit o, op_stack o) =
           expressed ar u (match u with UA => k_current k | UW => k_power k end) (k_phases k) (k_voltage k) a /\
         op_phases o = a_phases a).
  Proof.
    intros Hl Hw. cbn zeta.
    destruct (convert_ok ar u (match u with UA => k_current k | UW => k_power k end) (k_phases k) (k_voltage k) l Hl)
      as (C1 & C2 & C3 & C4 & C5).
    split.
    - split; [exact C1|]. split; [exact C2|]. split; [intros _; apply C4; exact Hw|exact C3].
    - intros t a Ht Hr. destruct (C5 (t - now) ltac:(lia)) as (o & Ho & Hp).
      exists o. split; [exact Ho|].
      destruct (convert_rep ar u (match u with UA => k_current k | UW => k_power k end) (k_phases k) (k_voltage k) _ _ Hr)
        as [E1 E2].
      unfold opay in Hp. injection Hp as P1 P2 P3. rewrite P1, P2, P3. split; assumption.
  Qed.
End Schedules.
