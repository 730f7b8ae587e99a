(** Proofs about composite schedules of OCPP 2.x: the stages. *)

From Coq Require Import ZArith String List Bool Lia Permutation Sorted.
From Verif Require Import P2Model P2Spec P2Proofs P2Proofs2 P2Proofs3 P2Proofs4 Sc2Model Sc2Spec Sc2Spec2
  Sc2Proofs Sc2Proofs2 Sc2Proofs3 Sc2Proofs5.
Import ListNotations.
Open Scope Z_scope.

(** ** bringing to the same phases keeps values regular *)

Lemma omin_ok (P : Z -> Prop) a b : opt_ok P a -> opt_ok P b -> opt_ok P (omin a b).
Proof.
  destruct a as [a|], b as [b|]; cbn; auto. intros. destruct (Z.min_spec a b) as [[_ ->]|[_ ->]]; assumption.
Qed.

Lemma on_one_ok (P : Z -> Prop) x : tri_ok P x -> tri_ok P (on_one x).
Proof.
  intros (A & B & C). unfold on_one. destruct (t1 x) eqn:E; [|repeat split; rewrite ?E; assumption].
  split; [|split; exact I]. cbn [t1]. apply omin_ok; [exact A|]. apply omin_ok; assumption.
Qed.

Lemma on_each_ok (P : Z -> Prop) share x :
  tri_ok P x -> tri_ok (fun v => P (share v)) x -> tri_ok P (on_each share x).
Proof.
  intros H (A & _). unfold on_each. destruct x as [[a|] [b|] [c|]]; cbn [t1 t2 t3] in *; auto;
    (split; [|split]; cbn; exact A).
Qed.

Lemma wanted_equalised ar p c n :
  tidy (wanted_by (Some (p, c))) -> In c (sc_periods (the_schedule p)) -> shareable ar p ->
  (forall k, n = Some k -> k <= 3) -> tidy (equalised ar n (wanted_by (Some (p, c)))).
Proof.
  intros T I S N. unfold shareable in S. rewrite Forall_forall in S. destruct (S c I) as [_ Sh].
  destruct n as [k|]; [|exact T]. specialize (N k eq_refl). unfold equalised.
  destruct (k =? 1) eqn:E1; [|destruct (1 <? k) eqn:E2; [|exact T]].
  - destruct T as (A & B & C & D & E & F). unfold tidy. cbn [w_cur w_pow w_dcur w_dpow w_scur w_spow].
    repeat (split; [apply on_one_ok; assumption|]). apply on_one_ok; assumption.
  - apply Z.eqb_neq in E1. apply Z.ltb_lt in E2. assert (K : k = 2 \/ k = 3) by lia.
    assert (Idd : forall P x, tri_ok P x -> tri_ok P (on_each (fun v => v) x)) by (intros; apply on_each_ok; assumption).
    destruct T as (A & B & C & D & E & F). unfold tidy. cbn [w_cur w_pow w_dcur w_dpow w_scur w_spow].
    unfold wanted_by in *. destruct (sc_unit (the_schedule p)) eqn:U; cbn [w_cur w_pow w_dcur w_dpow w_scur w_spow] in *.
    + split; [apply Idd; exact A|]. split; [apply on_each_ok; [exact B|repeat split]|].
      split; [apply Idd; exact C|]. split; [apply on_each_ok; [exact D|repeat split]|].
      split; [apply Idd; exact E|]. apply on_each_ok; [exact F|repeat split].
    + destruct (Sh eq_refl k K) as (S1 & S2 & S3).
      split; [apply Idd; exact A|]. split; [apply on_each_ok; assumption|].
      split; [apply Idd; exact C|]. split; [apply on_each_ok; assumption|].
      split; [apply Idd; exact E|]. apply on_each_ok; assumption.
Qed.

Lemma in_look {A} (f : A -> Z) l o x : look f l o = Some x -> In x l.
Proof.
  revert x. induction l as [|y l IH]; cbn [look]; intros x; [discriminate|].
  destruct (f y <=? o); [|discriminate]. destruct (look f l o) as [z|] eqn:E.
  - intros H. injection H as <-. right. apply IH. reflexivity.
  - intros H. injection H as <-. left. reflexivity.
Qed.

Lemma in_force_in p now session t c : in_force p now session t = Some c -> In c (sc_periods (the_schedule p)).
Proof.
  unfold in_force. destruct (occurrence p now session t); [|discriminate].
  match goal with |- (if ?b then _ else _) = _ -> _ => destruct b end; [|discriminate]. apply in_look.
Qed.

(** a demand of one of the profiles satisfying [P], or none *)
Definition from (P : profile -> Prop) (w : want) : Prop :=
  tidy w /\ (w = nothing \/ exists p c, P p /\ In c (sc_periods (the_schedule p)) /\ w = wanted_by (Some (p, c))).

Lemma from_equalised ar (P : profile -> Prop) n w :
  (forall p, P p -> shareable ar p) -> (forall k, n = Some k -> k <= 3) ->
  from P w -> tidy (equalised ar n w).
Proof.
  intros S N [T [E|(p & c & Hp & Hc & E)]]; rewrite E in *.
  - rewrite equalised_nothing. exact T.
  - apply wanted_equalised; auto.
Qed.

Lemma from_phases ar (P : profile -> Prop) w k :
  (forall p, P p -> shareable ar p) -> from P w -> w_phases w = Some k -> k <= 3.
Proof.
  intros S [T [->|(p & c & Hp & Hc & ->)]]; [discriminate|]. specialize (S p Hp). unfold shareable in S.
  rewrite Forall_forall in S. destruct (S c Hc) as [S1 _]. intros E. apply (S1 k).
  unfold wanted_by in E. destruct (sc_unit (the_schedule p)); exact E.
Qed.

Lemma strictest_phases_bound l k b :
  (forall w j, In w l -> w_phases w = Some j -> j <= b) -> strictest_phases l = Some k -> k <= b.
Proof.
  unfold strictest_phases. intros H.
  assert (G : forall a, (forall j, a = Some j -> j <= b) ->
    fold_left (fun a w => omin a (w_phases w)) l a = Some k -> k <= b).
  { induction l as [|w l IH]; cbn [fold_left]; intros a Ha E; [exact (Ha _ E)|].
    apply (IH ltac:(intros; eapply H; [right|]; eassumption) (omin a (w_phases w))); [|exact E].
    intros j Hj. pose proof (H w) as Hw. destruct a as [x|], (w_phases w) as [y|]; cbn in Hj.
    - injection Hj as <-. specialize (Ha x eq_refl). lia.
    - apply Ha. exact Hj.
    - apply (Hw j); [left; reflexivity|exact Hj].
    - discriminate. }
  apply G. discriminate.
Qed.

Lemma from_all_equalised ar (P : profile -> Prop) b l :
  (forall p, P p -> shareable ar p) -> Forall (from P) l -> equalisable ar b (strictest_phases l) l.
Proof.
  intros S F _. rewrite Forall_forall in F. apply Forall_forall. intros x Hx. apply in_map_iff in Hx as (w & <- & Hw).
  apply (from_equalised ar P); [exact S| |apply F; exact Hw].
  intros k. apply strictest_phases_bound. intros w' j Hw'. apply (from_phases ar P); auto.
Qed.

Lemma decides_from P pu now session t r : decides P pu now session t r -> tidy (wanted_by r) -> from P (wanted_by r).
Proof.
  intros D T. split; [exact T|]. destruct r as [[p c]|]; [right|left; reflexivity].
  destruct D as (H1 & _ & H3 & _). exists p, c. split; [exact H1|]. split; [eapply in_force_in; exact H3|reflexivity].
Qed.

Lemma override_from P a b : from P a -> from P b -> from P (override a b).
Proof.
  intros A B. unfold override. destruct (silent a); [|exact A]. destruct (silent b); [|exact B].
  split; [exact tidy_nothing|left; reflexivity].
Qed.

Lemma from_weaken (P Q : profile -> Prop) w : (forall p, P p -> Q p) -> from P w -> from Q w.
Proof.
  intros H [T [E|(p & c & Hp & Hc & E)]]; split; auto. right. exists p, c. auto.
Qed.

(** ** the stages *)

Section Schedules.
  Variable ar : arith.
  Variables sort_date sort_stack : list entry -> list entry.
  Hypothesis sd : sorts sort_date by_start.
  Hypothesis ss : sorts sort_stack by_stack.
  Variables in_now in_end : Z.
  Let now := floor_seconds in_now.
  Let en := floor_seconds in_end.
  Hypothesis window : 0 < en - now <= INT_MAX.
  Variable st : station.
  Variable d : list row.
  Variable offline : bool.
  Notation ignore := (purposes_to_ignore st offline).
  Notation valid e := (get_valid_profiles_for_evse st d e ignore).
  Notation counts := (counts_for st d offline).

  Notation gen ps session pu :=
    (generate_profile_from_periods sort_stack
       (calculate_all_profiles sort_date in_now in_end session ps pu) in_now in_end).

  Definition said (m : list iperiod) (rule : Z -> want -> Prop) : Prop :=
    iprof_ok m /\ within (en - now) m /\
    forall t, now <= t < en -> exists w, rule t w /\ rep (at_offset (t - now) m) w.

  Lemma gen_said e session pu :
    (forall p, counts e p -> sane now en session p) ->
    said (gen (valid e ++ valid 0)%list session pu)
         (fun t w => exists r, decides (counts e) pu now session t r /\ w = wanted_by r).
  Proof.
    intros Hs.
    destruct (generate_ok sort_date sort_stack sd ss in_now in_end window session (valid e ++ valid 0)%list pu)
      as (X1 & X2 & X3).
    { intros p Hp _. apply counts_iff in Hp. apply (counts_usable st d offline e); auto. }
    split; [exact X1|]. split; [exact X2|]. intros t Ht. destruct (X3 t Ht) as (r & D & R).
    exists (wanted_by r). split; [|exact R]. exists r. split; [|reflexivity].
    eapply decides_ext; [|exact D]. intros p _. cbv beta. symmetry. apply counts_iff.
  Qed.

  Lemma ext_said e session :
    (forall p, counts e p -> sane now en session p) ->
    said (gen (valid e ++ valid 0)%list session PExternal) (fun _ w => w = nothing).
  Proof.
    intros Hs. destruct (gen_said e session PExternal Hs) as (A & B & C).
    split; [exact A|]. split; [exact B|]. intros t Ht. destruct (C t Ht) as (w & (r & D & ->) & R).
    exists (wanted_by r). split; [|exact R]. destruct r as [[p c]|]; [|reflexivity].
    destruct D as (H1 & H2 & _). exfalso. exact (counts_not_external _ _ _ _ _ H1 H2).
  Qed.

  Lemma tx_said e session :
    (forall p, counts e p -> sane now en session p) ->
    said (merge_tx_profile_with_tx_default_profile (gen (valid e ++ valid 0)%list session PTx)
            (gen (valid e ++ valid 0)%list session PTxDefault))
         (fun t w => exists tx txd, decides (counts e) PTx now session t tx /\
            decides (counts e) PTxDefault now session t txd /\ w = override (wanted_by tx) (wanted_by txd)).
  Proof.
    intros Hs.
    destruct (gen_said e session PTx Hs) as (X1 & X2 & X3).
    destruct (gen_said e session PTxDefault Hs) as (D1 & D2 & D3).
    set (a := gen (valid e ++ valid 0)%list session PTx) in *.
    set (b := gen (valid e ++ valid 0)%list session PTxDefault) in *.
    assert (Hrep : forall t, now <= t < en -> exists tx txd, decides (counts e) PTx now session t tx /\
              decides (counts e) PTxDefault now session t txd /\
              rep (comb_tx [at_offset (t - now) a; at_offset (t - now) b]) (override (wanted_by tx) (wanted_by txd))).
    { intros t Ht. destruct (X3 t Ht) as (w & (tx & Dx & ->) & Rx). destruct (D3 t Ht) as (w & (txd & Dd & ->) & Rd).
      exists tx, txd. split; [exact Dx|]. split; [exact Dd|]. apply comb_tx_rep; assumption. }
    destruct (combine_ok comb_tx [a; b] (en - now)) as (C1 & C2 & C3).
    - discriminate.
    - apply Forall_cons; [exact X1|apply Forall_cons; [exact D1|apply Forall_nil]].
    - lia.
    - apply Forall_cons; [exact X2|apply Forall_cons; [exact D2|apply Forall_nil]].
    - intros o Ho. destruct (Hrep (now + o) ltac:(lia)) as (tx & txd & _ & _ & R).
      replace (now + o - now) with o in R by lia. eapply rep_good. exact R.
    - split; [exact C1|]. split; [exact C2|]. intros t Ht. destruct (Hrep t Ht) as (tx & txd & Dx & Dd & R).
      exists (override (wanted_by tx) (wanted_by txd)). split; [exists tx, txd; auto|].
      eapply rep_pay; [|exact R]. symmetry. apply (C3 (t - now)). lia.
  Qed.

  Lemma max_said session :
    (forall p, counts 0 p -> pf_purpose p = PMax -> sane now en None p) ->
    said (gen (valid 0) session PMax) (station_allows st d offline now).
  Proof.
    intros Hs.
    destruct (generate_ok sort_date sort_stack sd ss in_now in_end window session (valid 0) PMax) as (X1 & X2 & X3).
    { intros p Hp Pp. apply counts_0_iff in Hp. apply (counts_usable st d offline 0); [exact Hp|].
      apply (sane_session p now en None session); [exact (counts_max_kind _ _ _ _ _ Hp Pp)|auto]. }
    split; [exact X1|]. split; [exact X2|]. intros t Ht. destruct (X3 t Ht) as (r & D & R).
    exists (wanted_by r). split; [|exact R]. exists r. split; [|reflexivity].
    apply (decides_session (counts 0) PMax now session None).
    - intros p Hp Pp. exact (counts_max_kind _ _ _ _ _ Hp Pp).
    - eapply decides_ext; [|exact D]. intros p _. cbv beta. symmetry. apply counts_0_iff.
  Qed.

  (** merging by lowest limit *)
  Lemma lowest_said v ms (rules : list (Z -> want -> Prop)) :
    ms <> [] -> Forall2 said ms rules ->
    (forall t ws, now <= t < en -> Forall2 (fun r w => r t w) rules ws -> Forall tidy ws ->
       equalisable ar (per_phase v ws) (strictest_phases ws) ws) ->
    said (merge_profiles_by_lowest_limit ar v ms)
         (fun t w => exists ws, Forall2 (fun r w => r t w) rules ws /\ Forall tidy ws /\
                                w = strictest ar (per_phase v ws) ws).
  Proof.
    intros Hne Hm Hq.
    assert (Hrep : forall t, now <= t < en -> exists ws, Forall2 (fun r w => r t w) rules ws /\
              Forall2 rep (map (at_offset (t - now)) ms) ws).
    { intros t Ht. clear -Hm Ht. induction Hm as [|m r ms rules Hx _ IH]; [exists []; split; constructor|].
      destruct IH as (ws & I1 & I2). destruct Hx as (_ & _ & X). destruct (X t Ht) as (w & R1 & R2).
      exists (w :: ws). split; constructor; assumption. }
    assert (Hcomb : forall t, now <= t < en -> exists ws, Forall2 (fun r w => r t w) rules ws /\ Forall tidy ws /\
              rep (comb_lowest ar v (map (at_offset (t - now)) ms)) (strictest ar (per_phase v ws) ws)).
    { intros t Ht. destruct (Hrep t Ht) as (ws & R1 & R2). exists ws. split; [exact R1|].
      assert (T : Forall tidy ws).
      { clear -R2. induction R2; constructor; [eapply rep_tidy; eassumption|assumption]. }
      split; [exact T|]. apply comb_lowest_all; [exact R2|]. apply (Hq t ws Ht R1 T). }
    unfold merge_profiles_by_lowest_limit.
    destruct (combine_ok (comb_lowest ar v) ms (en - now)) as (C1 & C2 & C3).
    - exact Hne.
    - clear -Hm. induction Hm as [|m r ms rules Hx _ IH]; constructor; [apply Hx|exact IH].
    - lia.
    - clear -Hm. induction Hm as [|m r ms rules Hx _ IH]; constructor; [apply Hx|exact IH].
    - intros o Ho. destruct (Hcomb (now + o) ltac:(lia)) as (ws & _ & _ & R).
      replace (now + o - now) with o in R by lia. eapply rep_good. exact R.
    - split; [exact C1|]. split; [exact C2|]. intros t Ht. destruct (Hcomb t Ht) as (ws & R1 & T & R).
      exists (strictest ar (per_phase v ws) ws). split; [exists ws; auto|].
      eapply rep_pay; [|exact R]. symmetry. apply (C3 (t - now)). lia.
  Qed.

  (** the produced schedule *)
  Lemma final_follows u dl dp vo l rule :
    said l rule ->
    follows (convert_intermediate_into_schedule ar l u dl dp vo) now (en - now)
      (fun t x => exists w, rule t w /\ x = expressed ar u dl dp vo w).
  Proof.
    intros (L1 & L2 & L3).
    destruct (convert_ok ar u dl dp vo l L1) as (C1 & C2 & C3 & C4 & C5 & C6).
    set (out := convert_intermediate_into_schedule ar l u dl dp vo) in *.
    assert (R : forall o, In o out -> 0 <= op_start o < en - now).
    { specialize (C4 _ L2). rewrite Forall_forall in C4. exact C4. }
    split; [|split].
    - split; [exact C1|]. split; [exact C2|]. split; [intros _; exact (C4 _ L2)|exact C3].
    - intros o Ho. destruct (L3 (now + op_start o)) as (w & R1 & R2); [specialize (R o Ho); lia|].
      exists (expressed ar u dl dp vo w). split; [exists w; auto|].
      replace (now + op_start o - now) with (op_start o) in R2 by lia.
      destruct (convert_rep ar u dl dp vo _ _ R2) as (E1 & E2 & E3 & E4).
      unfold values. rewrite (C6 o Ho). rewrite E1, E2, E3, E4. reflexivity.
    - intros t Ht. destruct (L3 t) as (w & R1 & R2); [lia|].
      destruct (C5 (t - now) ltac:(lia)) as (y & Y1 & Y2). exists y, (expressed ar u dl dp vo w).
      split; [exact Y1|]. split; [exists w; auto|].
      destruct (convert_rep ar u dl dp vo _ _ R2) as (E1 & E2 & E3 & E4).
      transitivity (first_phase (convert_period ar u dl dp vo (at_offset (t - now) l))); [exact Y2|].
      unfold first_phase. rewrite E1, E2, E3, E4. reflexivity.
  Qed.
End Schedules.
