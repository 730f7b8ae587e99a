(** Proofs about Sc2Model.v: reporting profiles. *)

From Coq Require Import ZArith String List Bool Lia Permutation Sorted.
From Verif Require Import StrModel StrSpec StrProperties P2Model P2Spec Sc2Model Sc2Spec Sc2Proofs Sc2Proofs2.
Import ListNotations.
Open Scope string_scope.
Open Scope Z_scope.

(** ** Each into its own drawer *)

Section Drawers.
  Context {A K : Type} (key : A -> K -> bool).

  Lemma filter_split (f : A -> bool) l : Permutation l (filter f l ++ filter (fun x => negb (f x)) l).
  Proof.
    induction l as [|x l IH]; cbn; [constructor|]. destruct (f x); cbn; [constructor; exact IH|].
    apply Permutation_cons_app. exact IH.
  Qed.

  Lemma drawers ks : forall rows, NoDup ks ->
    (forall r, In r rows -> exists k, In k ks /\ key r k = true) ->
    (forall r k k', In r rows -> In k ks -> In k' ks -> key r k = true -> key r k' = true -> k = k') ->
    Permutation (flat_map (fun k => filter (fun r => key r k) rows) ks) rows.
  Proof.
    induction ks as [|k ks IH]; intros rows N C U; cbn [flat_map].
    - destruct rows as [|r rows]; [constructor|]. destruct (C r (or_introl eq_refl)) as (k & [] & _).
    - inversion N as [|? ? N1 N2]; subst.
      rewrite (filter_split (fun r => key r k) rows) at 2. apply Permutation_app_head.
      set (rows' := filter (fun x => negb (key x k)) rows).
      assert (E : flat_map (fun k => filter (fun r => key r k) rows) ks =
                  flat_map (fun k => filter (fun r => key r k) rows') ks).
      { rewrite !flat_map_concat_map. f_equal. apply map_ext_in. intros k' Hk'.
        unfold rows'. revert U. clear - N1 Hk'. intros U. induction rows as [|r rows IHr]; [reflexivity|]. cbn.
        assert (IH' := IHr ltac:(intros x a b Hx; apply U; right; exact Hx)).
        destruct (key r k') eqn:E', (key r k) eqn:E; cbn; try rewrite E'; try rewrite IH'; try reflexivity.
        exfalso. apply N1. assert (k = k') by (eapply (U r); cbn; auto). congruence. }
      rewrite E. apply IH; [exact N2| |].
      + intros r Hr. apply filter_In in Hr as [Hr B]. destruct (C r Hr) as (k' & [<-|Hk'] & T); [rewrite T in B; discriminate|].
        exists k'. auto.
      + intros r a b Hr Ha Hb. apply filter_In in Hr as [Hr _]. apply U; cbn; auto.
  Qed.
End Drawers.

(** ** The sets *)

Lemma insert_z_in x l y : In y (insert_z x l) <-> y = x \/ In y l.
Proof.
  induction l as [|z l IH]; cbn; [intuition|]. destruct (Z.ltb_spec x z); [cbn; intuition|].
  destruct (Z.ltb_spec z x); cbn; [rewrite IH; intuition|]. assert (x = z) by lia. subst. intuition.
Qed.

Lemma insert_z_sorted x l : StronglySorted Z.lt l -> StronglySorted Z.lt (insert_z x l).
Proof.
  induction l as [|z l IH]; intros S; cbn; [repeat constructor|]. inversion S as [|? ? S1 S2]; subst.
  destruct (Z.ltb_spec x z).
  - constructor; [exact S|]. constructor; [assumption|]. eapply Forall_impl; [|exact S2]. cbn. lia.
  - destruct (Z.ltb_spec z x); [|exact S]. constructor; [apply IH; exact S1|].
    apply Forall_forall. intros y Hy. apply insert_z_in in Hy as [->|Hy]; [assumption|].
    rewrite Forall_forall in S2. apply S2. exact Hy.
Qed.

Definition text_lt (a b : string) : Prop := ci_lt a b = true.

Lemma insert_s_in x l y : In y (insert_s x l) <-> y = x \/ In y l.
Proof.
  destruct ci_order as (Irr & Tr & To).
  induction l as [|z l IH]; cbn; [intuition|]. destruct (ci_lt x z) eqn:E1; [cbn; intuition|].
  destruct (ci_lt z x) eqn:E2; cbn; [rewrite IH; intuition|].
  destruct (To x z) as [H|[H|H]]; try congruence. subst. intuition.
Qed.

Lemma insert_s_sorted x l : StronglySorted text_lt l -> StronglySorted text_lt (insert_s x l).
Proof.
  destruct ci_order as (Irr & Tr & To).
  induction l as [|z l IH]; intros S; cbn; [repeat constructor|]. inversion S as [|? ? S1 S2]; subst.
  destruct (ci_lt x z) eqn:E1.
  - constructor; [exact S|]. constructor; [exact E1|]. eapply Forall_impl; [|exact S2]. intros y Hy. eapply Tr; eassumption.
  - destruct (ci_lt z x) eqn:E2; [|exact S]. constructor; [apply IH; exact S1|].
    apply Forall_forall. intros y Hy. apply insert_s_in in Hy as [->|Hy]; [assumption|].
    rewrite Forall_forall in S2. apply S2. exact Hy.
Qed.

Lemma sorted_nodup {A} (lt : A -> A -> Prop) l : (forall x, ~ lt x x) -> StronglySorted lt l -> NoDup l.
Proof.
  intros Irr. induction l as [|x l IH]; intros S; [constructor|]. inversion S as [|? ? S1 S2]; subst.
  constructor; [|auto]. intros H. rewrite Forall_forall in S2. exact (Irr _ (S2 _ H)).
Qed.

Lemma evses_ok rows : forall acc,
  (forall y, In y (fold_left (fun acc r => insert_z (r_evse r) acc) rows acc) <->
             In y acc \/ exists r, In r rows /\ r_evse r = y) /\
  (StronglySorted Z.lt acc -> StronglySorted Z.lt (fold_left (fun acc r => insert_z (r_evse r) acc) rows acc)).
Proof.
  induction rows as [|r rows IH]; intros acc; cbn [fold_left].
  - split; [|auto]. intros y. split; [auto|]. intros [H|(x & [] & _)]; exact H.
  - destruct (IH (insert_z (r_evse r) acc)) as [I1 I2]. split.
    + intros y. rewrite I1, insert_z_in. split.
      * intros [[->|H]|(x & H & E)]; [right; exists r; cbn; auto|auto|right; exists x; cbn; auto].
      * intros [H|(x & [->|H] & E)]; [auto|left; left; congruence|right; exists x; auto].
    + intros S. apply I2, insert_z_sorted, S.
Qed.

Lemma sources_ok rows : forall acc,
  (forall y, In y (fold_left (fun acc r => insert_s (r_source r) acc) rows acc) <->
             In y acc \/ exists r, In r rows /\ r_source r = y) /\
  (StronglySorted text_lt acc -> StronglySorted text_lt (fold_left (fun acc r => insert_s (r_source r) acc) rows acc)).
Proof.
  induction rows as [|r rows IH]; intros acc; cbn [fold_left].
  - split; [|auto]. intros y. split; [auto|]. intros [H|(x & [] & _)]; exact H.
  - destruct (IH (insert_s (r_source r) acc)) as [I1 I2]. split.
    + intros y. rewrite I1, insert_s_in. split.
      * intros [[->|H]|(x & H & E)]; [right; exists r; cbn; auto|auto|right; exists x; cbn; auto].
      * intros [H|(x & [->|H] & E)]; [auto|left; left; congruence|right; exists x; auto].
    + intros S. apply I2, insert_s_sorted, S.
Qed.

(** ** The rows *)

Lemma matching_ok d evse_id c : exists f, get_charging_profiles_matching_criteria d evse_id c = filter f d /\
  forall r, f r = true <-> matches evse_id c r.
Proof.
  unfold get_charging_profiles_matching_criteria, matches. cbn zeta.
  assert (G : forall r, opt_eq evse_id (r_evse r) && opt_purpose (cr_purpose c) (pf_purpose (r_p r)) &&
                       opt_eq (cr_stack c) (pf_stack (r_p r)) &&
                       match cr_sources c with
                       | Some (x :: xs) => existsb (fun y => String.eqb y (r_source r)) (x :: xs)
                       | _ => true
                       end = true <->
              (forall e, evse_id = Some e -> r_evse r = e) /\
              (forall u, cr_purpose c = Some u -> pf_purpose (r_p r) = u) /\
              (forall n, cr_stack c = Some n -> pf_stack (r_p r) = n) /\
              (forall x l, cr_sources c = Some (x :: l) -> In (r_source r) (x :: l))).
  { intros r. rewrite !andb_true_iff, !opt_eq_iff, opt_purpose_iff.
    assert (X : match cr_sources c with
                       | Some (x :: xs) => existsb (fun y => String.eqb y (r_source r)) (x :: xs)
                       | _ => true
                       end = true <-> (forall x l, cr_sources c = Some (x :: l) -> In (r_source r) (x :: l))).
    { destruct (cr_sources c) as [[|x xs]|]; try (split; [intros _ ? ?; discriminate|reflexivity]).
      rewrite existsb_exists. split.
      - intros (y & Hy & E) x' l [= <- <-]. apply String.eqb_eq in E. congruence.
      - intros H. exists (r_source r). split; [apply H; reflexivity|apply String.eqb_refl]. }
    rewrite X. tauto. }
  destruct (cr_ids c) as [[|i ids]|]; [eexists; split; [reflexivity|exact G]| |eexists; split; [reflexivity|exact G]].
  eexists. split; [reflexivity|]. intros r. cbn beta. rewrite andb_true_iff, opt_eq_iff.
  rewrite existsb_exists. split; intros [H1 H2]; (split; [exact H1|]).
  - destruct H2 as (x & Hx & E). apply Z.eqb_eq in E. subst. exact Hx.
  - exists (pf_id (r_p r)). split; [exact H2|apply Z.eqb_refl].
Qed.

(** ** The reports *)

Lemma finish_reported l : reported (finish l) = reported l.
Proof.
  unfold reported. induction l as [|x [|y l] IH]; [reflexivity|destruct x; reflexivity|].
  change (finish (x :: y :: l)) with (x :: finish (y :: l)). cbn [flat_map]. cbn [flat_map] in IH. rewrite IH. reflexivity.
Qed.

Lemma finish_marked l : l <> [] -> Forall (fun r => rp_tbc r = true) l -> marked (finish l).
Proof.
  induction l as [|x [|y l] IH]; intros N F; [congruence| |].
  - exists [], (set_tbc x false). split; [reflexivity|]. split; [reflexivity|constructor].
  - change (finish (x :: y :: l)) with (x :: finish (y :: l)). inversion F as [|? ? F1 F2]; subst.
    destruct (IH ltac:(discriminate) F2) as (a & z & E & T & Fa).
    exists (x :: a), z. split; [rewrite E; reflexivity|]. split; [exact T|]. constructor; assumption.
Qed.

Lemma finish_forall (P : report -> Prop) l : (forall r b, P r -> P (set_tbc r b)) -> Forall P l -> Forall P (finish l).
Proof.
  intros H. induction l as [|x [|y l] IH]; intros F; [constructor|inversion F; subst; repeat constructor; auto|].
  change (finish (x :: y :: l)) with (x :: finish (y :: l)). inversion F; subst. constructor; [assumption|apply IH; assumption].
Qed.

Lemma reported_app a b : reported (a ++ b)%list = (reported a ++ reported b)%list.
Proof. unfold reported. apply flat_map_app. Qed.

Lemma reported_flat {X} (f : X -> list report) l : reported (flat_map f l) = flat_map (fun x => reported (f x)) l.
Proof. induction l as [|x l IH]; [reflexivity|]. cbn [flat_map]. rewrite reported_app, IH. reflexivity. Qed.

Lemma reported_for req rows e src :
  reported (report_for req rows e src) =
  map (fun r => (e, src, r_p r)) (filter (fun r => (r_evse r =? e) && ci_eq (r_source r) src) rows).
Proof.
  unfold report_for. destruct (filter _ rows) as [|r l] eqn:E; [reflexivity|].
  unfold reported. cbn [flat_map rp_profiles rp_evse rp_source]. rewrite app_nil_r, map_map. reflexivity.
Qed.

Lemma report_for_forall req rows e src :
  Forall (fun r => rp_tbc r = true /\ rp_request r = req /\ rp_profiles r <> []) (report_for req rows e src).
Proof.
  unfold report_for. destruct (filter _ rows) as [|r l] eqn:E; constructor; [|constructor].
  cbn. split; [reflexivity|]. split; [reflexivity|discriminate].
Qed.

Lemma filter_and {A} (f g : A -> bool) l : filter (fun x => f x && g x) l = filter g (filter f l).
Proof. induction l as [|x l IH]; [reflexivity|]. cbn. destruct (f x); cbn; [|exact IH]. destruct (g x); rewrite IH; reflexivity. Qed.

Lemma flat_map_perm {A B} (f g : A -> list B) l :
  (forall x, In x l -> Permutation (f x) (g x)) -> Permutation (flat_map f l) (flat_map g l).
Proof.
  induction l as [|x l IH]; intros H; cbn; [constructor|]. apply Permutation_app; [apply H; left; reflexivity|].
  apply IH. intros y Hy. apply H. right; exact Hy.
Qed.

Lemma map_flat_map {A B C} (h : B -> C) (f : A -> list B) l : map h (flat_map f l) = flat_map (fun x => map h (f x)) l.
Proof. induction l as [|x l IH]; [reflexivity|]. cbn. rewrite map_app, IH. reflexivity. Qed.

Lemma all_reported req rows :
  (forall x y, In x rows -> In y rows -> same_text (r_source x) (r_source y) -> r_source x = r_source y) ->
  let evses := fold_left (fun acc r => insert_z (r_evse r) acc) rows [] in
  let sources := fold_left (fun acc r => insert_s (r_source r) acc) rows [] in
  Permutation (reported (flat_map (fun e => flat_map (fun src => report_for req rows e src) sources) evses))
              (map as_reported rows).
Proof.
  intros U evses sources. destruct (evses_ok rows []) as [E1 E2]. destruct (sources_ok rows []) as [S1 S2].
  fold evses in E1, E2. fold sources in S1, S2.
  assert (NE : NoDup evses) by (apply (sorted_nodup Z.lt); [intros x; lia|apply E2; constructor]).
  assert (NS : NoDup sources).
  { apply (sorted_nodup text_lt); [|apply S2; constructor]. intros x H. unfold text_lt in H.
    destruct ci_order as (Irr & _). rewrite Irr in H. discriminate. }
  rewrite reported_flat.
  assert (X : Permutation (flat_map (fun e => filter (fun r => r_evse r =? e) rows) evses) rows).
  { apply (drawers (fun r e => r_evse r =? e)); [exact NE| |].
    - intros r Hr. exists (r_evse r). split; [apply E1; right; exists r; auto|apply Z.eqb_refl].
    - intros r a b _ _ _ A B. apply Z.eqb_eq in A, B. congruence. }
  apply (Permutation_map as_reported) in X. rewrite map_flat_map in X.
  eapply Permutation_trans; [|exact X]. clear X. apply flat_map_perm. intros e He. rewrite reported_flat.
  set (rows' := filter (fun r => r_evse r =? e) rows).
  assert (Y : Permutation (flat_map (fun s => filter (fun r => ci_eq (r_source r) s) rows') sources) rows').
  { destruct ci_equality as (Q1 & Q2 & Q3 & Q4).
    apply (drawers (fun r s => ci_eq (r_source r) s)); [exact NS| |].
    - intros r Hr. exists (r_source r). split; [|apply Q2]. apply filter_In in Hr as [Hr _]. apply S1. right. exists r. auto.
    - intros r a b Hr Ha Hb A B. apply filter_In in Hr as [Hr _]. apply S1 in Ha, Hb.
      destruct Ha as [[]|(x & Hx & <-)]. destruct Hb as [[]|(y & Hy & <-)]. apply Q1 in A, B.
      rewrite <- (U r x Hr Hx A), <- (U r y Hr Hy B). reflexivity. }
  apply (Permutation_map as_reported) in Y. rewrite map_flat_map in Y.
  eapply Permutation_trans; [|exact Y]. clear Y. apply flat_map_perm. intros s Hs. rewrite reported_for, filter_and. fold rows'.
  erewrite map_ext_in; [apply Permutation_refl|]. intros r Hr. apply filter_In in Hr as [Hr B].
  apply filter_In in Hr as [Hr C]. apply Z.eqb_eq in C. apply S1 in Hs. destruct Hs as [[]|(x & Hx & <-)].
  unfold as_reported. destruct ci_equality as (Q1 & _). apply Q1 in B. rewrite (U r x Hr Hx B), C. reflexivity.
Qed.

Lemma get_cases s req evse_id c status reps :
  handle_get_charging_profiles_req s req evse_id c = (status, reps) ->
  exists f, (forall r, f r = true <-> matches evse_id c r) /\
  let rows := filter f (db s) in
  (rows = [] /\ status = NoProfiles /\ reps = []) \/
  (rows <> [] /\ status = Reporting /\
   Forall (fun r => rp_request r = req /\ rp_profiles r <> []) reps /\
   ((forall x y, In x rows -> In y rows -> same_text (r_source x) (r_source y) -> r_source x = r_source y) ->
    marked reps /\ Permutation (reported reps) (map as_reported rows))).
Proof.
  unfold handle_get_charging_profiles_req. destruct (matching_ok (db s) evse_id c) as (f & E & F). rewrite E.
  intros H. exists f. split; [exact F|]. cbn zeta. destruct (filter f (db s)) as [|x l] eqn:R.
  - injection H as <- <-. left. auto.
  - right. split; [discriminate|]. set (rows := x :: l) in *. cbn zeta in H.
    set (all := flat_map _ _) in H. injection H as <- <-. split; [reflexivity|].
    assert (A : Forall (fun r => rp_tbc r = true /\ rp_request r = req /\ rp_profiles r <> []) all).
    { unfold all. apply Forall_flat_map. apply Forall_forall. intros e _. apply Forall_flat_map.
      apply Forall_forall. intros s0 _. apply report_for_forall. }
    split.
    + apply finish_forall; [intros r b X; exact X|]. eapply Forall_impl; [|exact A]. intros r0 X. apply X.
    + intros U. pose proof (all_reported req rows U) as P. cbn zeta in P. fold all in P. split.
      * apply finish_marked; [|eapply Forall_impl; [|exact A]; intros r0 X; apply X]. intros N. rewrite N in P. cbn in P.
        apply Permutation_nil in P. discriminate.
      * rewrite finish_reported. exact P.
Qed.
