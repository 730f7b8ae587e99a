(** Proofs about the OCPP 2.x composite schedule, part 1: from profiles to entries. *)

From Coq Require Import ZArith List Bool Permutation Sorted Lia.
From Coq Require Import ZifyBool.
From Verif Require Import P2Model P2Spec.
Import ListNotations.
Open Scope Z_scope.

Ltac one_sched := change the_schedule with pf_sched in *.

Lemma clamp_int_id x : - 2147483648 <= x <= INT_MAX -> clamp_int x = x.
Proof.
  unfold clamp_int, INT_MAX; intros H.
  destruct (Z.leb_spec x 2147483647); [|lia].
  rewrite Z.mod_small; lia.
Qed.

Lemma clamp_int_low x : - 2147483648 <= x ->
  clamp_int x <= INT_MAX /\ (x <= INT_MAX -> clamp_int x = x) /\ (INT_MAX < x -> clamp_int x = INT_MAX).
Proof.
  intros H. destruct (Z.le_gt_cases x INT_MAX) as [L|L].
  - rewrite clamp_int_id by lia. lia.
  - unfold clamp_int. destruct (Z.leb_spec x INT_MAX); lia.
Qed.

Lemma secs_floor t : floor_seconds t = secs t.
Proof. reflexivity. Qed.

Lemma recur_seconds_eq r : recur_seconds r = day_or_week r.
Proof. destruct r; reflexivity. Qed.

Lemma day_or_week_pos r : 0 < day_or_week r.
Proof. destruct r; cbn; lia. Qed.

(** ** look *)

Lemma asc_inv {A} (st : A -> Z) x l :
  ascending st (x :: l) -> ascending st l /\ Forall (fun y => st x < st y) l.
Proof. intros H; inversion H; subst; split; assumption. Qed.

Lemma look_none_above {A} (st : A -> Z) l o :
  Forall (fun y => o < st y) l -> look st l o = None.
Proof.
  destruct l as [|y l]; [reflexivity|]; intros H; cbn [look].
  inversion H; subst. destruct (Z.leb_spec (st y) o); [lia|reflexivity].
Qed.

Lemma look_nth {A} (st : A -> Z) l o c :
  ascending st l ->
  (look st l o = Some c <->
   exists i, nth_error l i = Some c /\ st c <= o /\
             (forall c', nth_error l (S i) = Some c' -> o < st c')).
Proof.
  revert c; induction l as [|x l IH]; intros c Ha.
  - split; [discriminate|]. intros (i & H & _); destruct i; discriminate.
  - destruct (asc_inv _ _ _ Ha) as [Hl Hx]. cbn [look].
    destruct (Z.leb_spec (st x) o) as [Hle|Hgt].
    + destruct (look st l o) as [y|] eqn:El.
      * split.
        -- intros E; injection E as <-.
           destruct (proj1 (IH y Hl) eq_refl) as (i & Hi & Ho & Hn).
           exists (S i). cbn [nth_error]. split; [exact Hi|split; [exact Ho|exact Hn]].
        -- intros (i & Hi & Ho & Hn). destruct i as [|i].
           ++ exfalso. pose proof (proj1 (IH y Hl) eq_refl) as (j & Hj & Hoy & _).
              destruct l as [|z l]; [destruct j; discriminate|].
              specialize (Hn z eq_refl).
              assert (st z <= st y).
              { destruct j as [|j]; cbn [nth_error] in Hj; [injection Hj as <-; lia|].
                destruct (asc_inv _ _ _ Hl) as [_ Hz].
                apply nth_error_In in Hj. rewrite Forall_forall in Hz. specialize (Hz _ Hj). lia. }
              lia.
           ++ apply (proj2 (IH c Hl)). exists i. auto.
      * split.
        -- intros E; injection E as <-. exists O. split; [reflexivity|split; [exact Hle|]].
           intros c' Hc'. cbn [nth_error] in Hc'.
           destruct l as [|z l]; [discriminate|]. injection Hc' as <-.
           cbn [look] in El. destruct (Z.leb_spec (st z) o); [|lia].
           destruct (look st l o); discriminate.
        -- intros (i & Hi & Ho & Hn). destruct i as [|i].
           ++ cbn in Hi; injection Hi as <-; reflexivity.
           ++ exfalso. pose proof (proj2 (IH c Hl)) as Q.
              assert (None = Some c) by (apply Q; exists i; auto). discriminate.
    + split; [discriminate|]. intros (i & Hi & Ho & _). exfalso.
      destruct i as [|i]; cbn [nth_error] in Hi; [injection Hi as <-; lia|].
      apply nth_error_In in Hi. rewrite Forall_forall in Hx. specialize (Hx _ Hi). lia.
Qed.

(** ** start times *)

Lemma occurrences_split fuel start fwd end_ pre s rest :
  0 < fwd ->
  occurrences fuel start fwd end_ = pre ++ s :: rest ->
  s = start + fwd * Z.of_nat (length pre) /\ s <= end_ /\
  (hd_error rest = Some (s + fwd) \/
   (rest = [] /\ (end_ < s + fwd \/ (length pre + 1 = fuel)%nat))).
Proof.
  intros Hf. revert start pre; induction fuel as [|f IH]; intros start pre.
  - cbn. destruct pre; discriminate.
  - cbn [occurrences]. destruct (Z.leb_spec start end_) as [Hle|]; [|destruct pre; discriminate].
    destruct pre as [|x pre]; cbn [app].
    + intros E; injection E as <- <-. cbn [length]. split; [lia|split; [exact Hle|]].
      destruct f as [|f]; [right; split; [reflexivity|right; reflexivity]|].
      cbn [occurrences]. destruct (Z.leb_spec (start + fwd) end_); [left; reflexivity|].
      right; split; [reflexivity|left; lia].
    + intros E; injection E as _ E. apply IH in E as (E1 & E2 & E3). cbn [length].
      split; [lia|split; [exact E2|]].
      destruct E3 as [E3|(E3 & [E4|E4])]; [left; exact E3|right..].
      * split; [exact E3|left; exact E4].
      * split; [exact E3|right; lia].
Qed.

Lemma occurrences_has fuel start fwd end_ k :
  0 < fwd -> (k < fuel)%nat -> start + fwd * Z.of_nat k <= end_ ->
  exists pre rest, occurrences fuel start fwd end_ = pre ++ (start + fwd * Z.of_nat k) :: rest.
Proof.
  intros Hf. revert start k; induction fuel as [|f IH]; intros start k Hk Hle; [lia|].
  cbn [occurrences]. destruct (Z.leb_spec start end_); [|nia].
  destruct k as [|k].
  - exists [], (occurrences f (start + fwd) fwd end_). cbn [app].
    f_equal. lia.
  - destruct (IH (start + fwd) k) as (pre & rest & E); [lia|lia|].
    exists (start :: pre), rest. rewrite E. cbn [app].
    replace (start + fwd + fwd * Z.of_nat k) with (start + fwd * Z.of_nat (S k)) by lia.
    reflexivity.
Qed.

(* the go-back computation *)
Definition first_occ (now s P : Z) : Z :=
  let back := Z.rem (now - s) P in
  now - (if back <? 0 then back + P else back).

Lemma first_occ_mod now s P : 0 < P -> first_occ now s P = now - (now - s) mod P.
Proof.
  intros HP. unfold first_occ. cbn zeta.
  pose proof (Z.quot_rem' (now - s) P) as Q.
  pose proof (Z.mod_pos_bound (now - s) P HP) as B.
  destruct (Z.le_gt_cases 0 (now - s)) as [H|H].
  - pose proof (Z.rem_bound_pos (now - s) P H HP).
    destruct (Z.ltb_spec (Z.rem (now - s) P) 0); [lia|].
    rewrite Z.rem_mod_nonneg by lia. reflexivity.
  - assert (H' : - P < Z.rem (now - s) P <= 0) by (apply Z.rem_bound_pos_neg; lia).
    destruct (Z.ltb_spec (Z.rem (now - s) P) 0) as [Hn|Hn].
    + rewrite (Z.mod_unique (now - s) P (Z.quot (now - s) P - 1) (Z.rem (now - s) P + P)); nia.
    + rewrite (Z.mod_unique (now - s) P (Z.quot (now - s) P) (Z.rem (now - s) P)); nia.
Qed.

Lemma mod_of_shift s t P : 0 < P -> forall k, 0 <= t - (s + k * P) < P -> (t - s) mod P = t - (s + k * P).
Proof.
  intros HP k H. symmetry. apply (Z.mod_unique (t - s) P k); lia.
Qed.

Lemma starts_split in_now in_end session p pre s rest t :
  calculate_start in_now in_end session p = pre ++ s :: rest ->
  floor_seconds in_now <= t < floor_seconds in_end ->
  s <= t -> (forall n, hd_error rest = Some n -> t < n) ->
  occurrence p (floor_seconds in_now) session t = Some s.
Proof.
  unfold calculate_start, occurrence. one_sched. intros E Ht Hs Hn.
  assert (Single : forall x, [x] = pre ++ s :: rest -> Some x = Some s).
  { intros x Ex. destruct pre as [|y pre]; cbn in Ex; [injection Ex as <- _; reflexivity|].
    injection Ex as _ Ex. destruct pre; discriminate. }
  destruct (pf_kind p).
  - destruct (sc_start (pf_sched p)) as [x|]; [apply Single; exact E|].
    destruct (pf_from p); apply Single; exact E.
  - destruct (pf_recur p) as [r|]; [|destruct pre; discriminate].
    destruct (sc_start (pf_sched p)) as [x|]; [|destruct pre; discriminate].
    rewrite recur_seconds_eq in E. pose proof (day_or_week_pos r) as HP.
    set (P := day_or_week r) in *. set (now := floor_seconds in_now) in *.
    set (en := floor_seconds in_end) in *.
    change (now - _) with (first_occ now (floor_seconds x) P) in E.
    set (fo := first_occ now (floor_seconds x) P) in *.
    assert (Hfo : fo = now - (now - floor_seconds x) mod P) by (apply first_occ_mod; exact HP).
    pose proof (Z.mod_pos_bound (now - floor_seconds x) P HP) as B.
    pose proof (Z.div_mod (now - floor_seconds x) P ltac:(lia)) as DM.
    apply occurrences_split in E as (E1 & E2 & E3); [|exact HP].
    f_equal. rewrite secs_floor in *.
    assert (Ht' : t < s + P).
    { destruct E3 as [E3|(E3 & [E4|E4])].
      - apply Hn; exact E3.
      - lia.
      - pose proof (Z.div_mod (en - fo) P ltac:(lia)) as D2.
        pose proof (Z.mod_pos_bound (en - fo) P HP) as B2.
        pose proof (Z.div_pos (en - fo) P ltac:(lia) HP) as B3.
        assert (Z.of_nat (length pre) = (en - fo) / P) by lia. nia. }
    rewrite (mod_of_shift (secs x) t P HP ((now - secs x) / P + Z.of_nat (length pre))); nia.
  - destruct session; apply Single; exact E.
  - apply Single; exact E.
Qed.

Lemma starts_has in_now in_end session p s t :
  occurrence p (floor_seconds in_now) session t = Some s ->
  floor_seconds in_now <= t < floor_seconds in_end ->
  s <= t ->
  exists pre rest, calculate_start in_now in_end session p = pre ++ s :: rest /\
                   (forall n, hd_error rest = Some n -> t < n).
Proof.
  unfold calculate_start, occurrence. one_sched. intros E Ht Hs.
  assert (Single : forall x, Some x = Some s -> exists pre rest, [x] = pre ++ s :: rest /\
                   (forall n, hd_error rest = Some n -> t < n)).
  { intros x Ex; injection Ex as <-. exists [], []. split; [reflexivity|discriminate]. }
  destruct (pf_kind p).
  - destruct (sc_start (pf_sched p)) as [x|]; [apply Single; exact E|].
    destruct (pf_from p); apply Single; exact E.
  - destruct (pf_recur p) as [r|]; [|discriminate].
    destruct (sc_start (pf_sched p)) as [x|]; [|discriminate].
    rewrite recur_seconds_eq. pose proof (day_or_week_pos r) as HP.
    set (P := day_or_week r) in *. set (now := floor_seconds in_now) in *.
    set (en := floor_seconds in_end) in *. cbn zeta.
    change (now - (if Z.rem (now - floor_seconds x) P <? 0 then Z.rem (now - floor_seconds x) P + P
                   else Z.rem (now - floor_seconds x) P)) with (first_occ now (floor_seconds x) P).
    set (fo := first_occ now (floor_seconds x) P) in *.
    assert (Hfo : fo = now - (now - floor_seconds x) mod P) by (apply first_occ_mod; exact HP).
    pose proof (Z.mod_pos_bound (now - floor_seconds x) P HP) as B.
    pose proof (Z.div_mod (now - floor_seconds x) P ltac:(lia)) as DM.
    rewrite secs_floor in *. injection E as E.
    pose proof (Z.mod_pos_bound (t - secs x) P HP) as B'.
    pose proof (Z.div_mod (t - secs x) P ltac:(lia)) as DM'.
    set (k := (t - secs x) / P - (now - secs x) / P).
    assert (Hk : 0 <= k) by (unfold k; pose proof (Z.div_le_mono (now - secs x) (t - secs x) P HP); lia).
    assert (Es : s = fo + P * Z.of_nat (Z.to_nat k)) by (rewrite Z2Nat.id by exact Hk; unfold k; nia).
    destruct (occurrences_has (Z.to_nat ((en - fo) / P + 1)) fo P en (Z.to_nat k))
      as (pre & rest & Eo); [exact HP| |lia|].
    + pose proof (Z.div_le_mono (s - fo) (en - fo) P HP ltac:(lia)).
      assert ((s - fo) / P = k).
      { rewrite Es, Z2Nat.id by exact Hk. replace (fo + P * k - fo) with (k * P) by lia.
        apply Z.div_mul; lia. }
      apply Z2Nat.inj_lt; lia.
    + rewrite <- Es in Eo. exists pre, rest. split; [exact Eo|].
      apply occurrences_split in Eo as (_ & _ & E3); [|exact HP].
      intros n Hn. destruct E3 as [E3|(E3 & _)]; [|rewrite E3 in Hn; discriminate].
      rewrite E3 in Hn. injection Hn as <-. lia.
  - destruct session; apply Single; exact E.
  - apply Single; exact E.
Qed.

Lemma starts_next in_now in_end session p pre s rest n :
  calculate_start in_now in_end session p = pre ++ s :: rest ->
  hd_error rest = Some n -> s < n.
Proof.
  unfold calculate_start. intros E Hn.
  assert (Single : forall x, [x] = pre ++ s :: rest -> s < n).
  { intros x Ex. destruct pre as [|y pre]; cbn in Ex; injection Ex as _ Ex; subst; [discriminate|].
    destruct pre; discriminate. }
  destruct (pf_kind p).
  - destruct (sc_start (pf_sched p)) as [x|]; [exact (Single _ E)|].
    destruct (pf_from p); exact (Single _ E).
  - destruct (pf_recur p) as [r|]; [|destruct pre; discriminate].
    destruct (sc_start (pf_sched p)) as [x|]; [|destruct pre; discriminate].
    rewrite recur_seconds_eq in E. pose proof (day_or_week_pos r) as HP.
    apply occurrences_split in E as (_ & _ & [E|[E _]]); [|rewrite E in Hn; discriminate|exact HP].
    rewrite E in Hn; injection Hn as <-. lia.
  - destruct session; exact (Single _ E).
  - exact (Single _ E).
Qed.

(** ** entries *)

Definition covers (e : entry) (t : Z) : Prop := e_start e <= t < e_end e.

Definition payload_of (e : entry) (p : profile) (c : csp) : Prop :=
  e_limit e = entry_limit c (sc_unit (pf_sched p)) /\
  e_dis e = plim_of (sp_dis c) NO_DISCHARGE /\ e_set e = plim_of (sp_set c) NO_SETPOINT /\
  e_phases e = sp_phases c /\ e_stack e = pf_stack p /\ e_unit e = sc_unit (pf_sched p).

Lemma duration_spec p nextp s next o :
  (match nextp with Some c => sp_start c <= 2147483647 | None => True end) ->
  (match next with Some n => s < n | None => True end) ->
  (match pf_to p with Some u => - 2147483648 <= secs u - s | None => True end) ->
  (o < entry_duration p nextp s next <->
   o < match nextp with Some c => sp_start c | None => 2147483647 end /\
   match sc_duration (pf_sched p) with Some d => o < d | None => True end /\
   match next with Some n => o < n - s | None => True end /\
   match pf_to p with Some u => o < secs u - s | None => True end).
Proof.
  intros H1 H2 H3. unfold entry_duration. cbn zeta.
  set (d0 := match nextp with Some c => sp_start c | None => INT_MAX end).
  assert (D0 : d0 <= INT_MAX /\ match nextp with Some c => sp_start c | None => 2147483647 end = d0).
  { unfold d0, INT_MAX in *; destruct nextp; lia. }
  destruct D0 as [D0 ->].
  set (d1 := match sc_duration (pf_sched p) with Some x => if x <? d0 then x else d0 | None => d0 end).
  assert (D1 : d1 <= INT_MAX /\
               (o < d1 <-> o < d0 /\ match sc_duration (pf_sched p) with Some d => o < d | None => True end)).
  { unfold d1; destruct (sc_duration (pf_sched p)) as [x|]; [|tauto].
    destruct (Z.ltb_spec x d0); lia. }
  set (d2 := match next with Some n => if clamp_int (n - s) <? d1 then clamp_int (n - s) else d1 | None => d1 end).
  assert (D2 : d2 <= INT_MAX /\
               (o < d2 <-> o < d1 /\ match next with Some n => o < n - s | None => True end)).
  { unfold d2; destruct next as [n|]; [|tauto].
    destruct (clamp_int_low (n - s) ltac:(lia)) as [C1 C2].
    destruct (Z.ltb_spec (clamp_int (n - s)) d1); lia. }
  destruct D1 as [D1 D1']. destruct D2 as [D2 D2'].
  destruct (pf_to p) as [u|]; rewrite ?secs_floor in *.
  - destruct (clamp_int_low (secs u - s) ltac:(lia)) as [C1 C2].
    destruct (Z.ltb_spec (clamp_int (secs u - s)) d2) as [Hlt|].
    + destruct (sc_duration (pf_sched p)), next; lia.
    + destruct (sc_duration (pf_sched p)), next; lia.
  - destruct (sc_duration (pf_sched p)), next; lia.
Qed.

Lemma validate_spec e p now e' :
  entry_validate e p now = (e', true) ->
  (forall t, covers e' t <->
             covers e t /\ match pf_from p with Some f => secs f <= t | None => True end) /\
  e_limit e' = e_limit e /\ e_dis e' = e_dis e /\ e_set e' = e_set e /\ e_phases e' = e_phases e /\ e_stack e' = e_stack e /\
  e_unit e' = e_unit e.
Proof.
  unfold entry_validate, covers.
  destruct (pf_from p) as [f|]; [rewrite secs_floor|].
  - destruct (Z.ltb_spec (e_start e) (secs f)).
    + destruct (Z.leb_spec (e_end e) (secs f)); cbn [andb]; intros E; injection E as <- E; [discriminate|].
      cbn [set_e_start e_start e_end e_limit e_dis e_set e_phases e_stack e_unit].
      split; [intros t; lia|repeat split].
    + intros E; injection E as <- E. split; [intros t; lia|repeat split].
  - intros E; injection E as <- E. split; [intros t; tauto|repeat split].
Qed.

Lemma validate_total e p now t :
  now <= t -> covers e t -> match pf_from p with Some f => secs f <= t | None => True end ->
  exists e', entry_validate e p now = (e', true).
Proof.
  unfold entry_validate, covers. intros Hn Hc Hf.
  destruct (pf_from p) as [f|]; [rewrite secs_floor|].
  - destruct (Z.ltb_spec (e_start e) (secs f)).
    + destruct (Z.leb_spec (e_end e) (secs f)); [lia|].
      eexists. f_equal. cbn [set_e_start e_start e_end]. lia.
    + eexists. f_equal. lia.
  - eexists. f_equal. lia.
Qed.

Lemma in_entries_of_starts p c nextp now starts e :
  In e (entries_of_starts p c nextp now starts) <->
  exists pre s rest, starts = pre ++ s :: rest /\
    entry_validate (entry_init s (entry_duration p nextp s (hd_error rest)) c p) p now = (e, true).
Proof.
  induction starts as [|s starts IH]; cbn [entries_of_starts].
  - split; [intros []|]. intros (pre & s & rest & E & _). destruct pre; discriminate.
  - destruct (entry_validate _ p now) as [e0 ok] eqn:Ev.
    rewrite in_app_iff, IH. split.
    + intros [H|(pre & s' & rest & E & H)].
      * destruct ok; [|destruct H]. destruct H as [<-|[]].
        exists [], s, starts. split; [reflexivity|exact Ev].
      * exists (s :: pre), s', rest. split; [rewrite E; reflexivity|exact H].
    + intros (pre & s' & rest & E & H). destruct pre as [|x pre]; cbn [app] in E.
      * injection E as <- <-. left. rewrite Ev in H. injection H as -> ->. left; reflexivity.
      * injection E as <- E. right. exists pre, s', rest. split; assumption.
Qed.

Lemma wf_not_bad p i c :
  wf_schedule (pf_sched p) -> nth_error (sc_periods (pf_sched p)) i = Some c ->
  match i with
  | O => negb (sp_start c =? 0)
  | S j => match nth_error (sc_periods (pf_sched p)) j with
           | Some prev => sp_start c <=? sp_start prev
           | None => false
           end
  end = false.
Proof.
  intros (Ha & H0 & _) Hi. destruct i as [|j].
  - destruct (sc_periods (pf_sched p)); [discriminate|]. cbn in Hi; injection Hi as ->. lia.
  - destruct (nth_error (sc_periods (pf_sched p)) j) as [prev|] eqn:Ej; [|reflexivity].
    clear H0. revert j Ej Hi. induction Ha as [|x l Hl IH Hx]; intros j Ej Hi; [destruct j; discriminate|].
    change (nth_error l j = Some c) in Hi.
    destruct j as [|j]; cbn [nth_error] in Ej.
    + injection Ej as ->. rewrite Forall_forall in Hx.
      specialize (Hx c (nth_error_In _ _ Hi)). lia.
    + apply (IH j Ej Hi).
Qed.

Section Entries.
  Variables in_now in_end : Z.
  Variable session : option Z.
  Variable p : profile.
  Let now := floor_seconds in_now.
  Let en := floor_seconds in_end.
  Hypothesis wf : wf_schedule (pf_sched p).
  Hypothesis near : near_valid_to p now en session.

  Lemma near_at pre s rest t :
    calculate_start in_now in_end session p = pre ++ s :: rest ->
    now <= t < en -> s <= t ->
    match pf_to p with Some u => - 2147483648 <= secs u - s | None => True end.
  Proof.
    intros E Ht Hs. unfold near_valid_to in near.
    destruct (pf_to p) as [u|]; [|exact I].
    (* the occurrence at max(s, now) is s itself or, if another start lies before, later *)
    destruct (hd_error rest) as [n|] eqn:En.
    - destruct (Z.lt_ge_cases t n) as [Hlt|Hge].
      + apply (near t s Ht). eapply starts_split; try eassumption.
        intros n' Hn'; rewrite En in Hn'; injection Hn' as <-; exact Hlt.
      + pose proof (starts_next _ _ _ _ _ _ _ _ E En) as Hsn.
        destruct (Z.le_gt_cases now s) as [H|H].
        * apply (near s s); [lia|]. eapply starts_split; try eassumption; [unfold now, en in *; lia|lia|].
          intros n' Hn'; rewrite En in Hn'; injection Hn' as <-; exact Hsn.
        * destruct (Z.lt_ge_cases now n) as [Hnn|Hnn].
          -- apply (near now s); [lia|]. eapply starts_split; try eassumption; [unfold now, en in *; lia|unfold now in *; lia|].
             intros n' Hn'; rewrite En in Hn'; injection Hn' as <-; exact Hnn.
          -- (* the first occurrence is within one recurrence before now *)
             exfalso. clear near. unfold calculate_start in E.
             assert (Single : forall x, [x] = pre ++ s :: rest -> False).
             { intros x Ex. destruct pre as [|y pre]; cbn in Ex; injection Ex as _ Ex; subst;
                 [discriminate|]. destruct pre; discriminate. }
             destruct (pf_kind p).
             ++ destruct (sc_start (pf_sched p)); [exact (Single _ E)|].
                destruct (pf_from p); exact (Single _ E).
             ++ destruct (pf_recur p) as [r|]; [|destruct pre; discriminate].
                destruct (sc_start (pf_sched p)) as [x|]; [|destruct pre; discriminate].
                rewrite recur_seconds_eq in E. pose proof (day_or_week_pos r) as HP.
                set (P := day_or_week r) in *. fold now en in E.
                change (now - _) with (first_occ now (floor_seconds x) P) in E.
                rewrite first_occ_mod in E by exact HP.
                pose proof (Z.mod_pos_bound (now - floor_seconds x) P HP) as B.
                apply occurrences_split in E as (E1 & _ & [E3|[E3 _]]); [|rewrite E3 in En; discriminate|exact HP].
                rewrite E3 in En; injection En as <-. lia.
             ++ destruct session; exact (Single _ E).
             ++ exact (Single _ E).
    - apply (near t s Ht). eapply starts_split; try eassumption.
      intros n' Hn'; rewrite En in Hn'; discriminate.
  Qed.

  Lemma next_small i c : nth_error (sc_periods (pf_sched p)) i = Some c -> sp_start c <= 2147483647.
  Proof.
    intros H. destruct wf as (_ & _ & Hf). rewrite Forall_forall in Hf. apply Hf.
    exact (nth_error_In _ _ H).
  Qed.

  Lemma in_force_entry t c :
    now <= t < en -> in_force p now session t = Some c ->
    exists e, In e (calculate_profile_unsorted in_now in_end session p) /\ covers e t /\
              payload_of e p c.
  Proof.
    intros Ht. unfold in_force. one_sched.
    destruct (occurrence p now session t) as [s|] eqn:Eo; [|discriminate].
    destruct (_ && _) eqn:Ec; [|discriminate]. intros El.
    apply andb_prop in Ec as [Ec Hd]. apply andb_prop in Ec as [Ec Hm].
    apply andb_prop in Ec as [Ec Hs]. apply andb_prop in Ec as [Hf Hv].
    destruct wf as (Ha & _ & _).
    apply (look_nth sp_start _ _ _ Ha) in El as (i & Hi & Hle & Hnext).
    apply Z.leb_le in Hs.
    destruct (starts_has _ _ _ _ _ _ Eo Ht Hs) as (pre & rest & Es & Hn).
    set (nextp := nth_error (sc_periods (pf_sched p)) (S i)) in *.
    assert (Hdur : t - s < entry_duration p nextp s (hd_error rest)).
    { apply duration_spec.
      - destruct nextp as [c'|] eqn:En; [|exact I]. exact (next_small _ _ En).
      - destruct (hd_error rest) as [n|] eqn:En; [|exact I].
        exact (starts_next _ _ _ _ _ _ _ _ Es En).
      - exact (near_at _ _ _ _ Es Ht Hs).
      - split; [|split; [|split]].
        + destruct nextp as [c'|]; [apply Hnext; reflexivity|lia].
        + destruct (sc_duration (pf_sched p)); [lia|exact I].
        + destruct (hd_error rest) as [n|]; [specialize (Hn n eq_refl); lia|exact I].
        + destruct (pf_to p); [lia|exact I]. }
    destruct (validate_total (entry_init s (entry_duration p nextp s (hd_error rest)) c p) p now t)
      as (e & Ev); [lia| | |].
    { unfold covers, entry_init; cbn [e_start e_end]. lia. }
    { destruct (pf_from p); [lia|exact I]. }
    exists e. pose proof (validate_spec _ _ _ _ Ev) as (Hcov & P1 & P2 & P3 & P4 & P5 & P6).
    assert (Hct : covers e t).
    { apply Hcov. split; [unfold covers, entry_init; cbn [e_start e_end]; lia|].
      destruct (pf_from p); [lia|exact I]. }
    split; [|split; [exact Hct|]].
    - unfold calculate_profile_unsorted. apply in_flat_map. exists i. split.
      + apply in_seq. split; [lia|]. apply nth_error_Some. cbn. rewrite Hi. discriminate.
      + apply filter_In. split.
        * unfold calculate_profile_entry. rewrite Hi.
          rewrite (wf_not_bad p i c wf Hi).
          apply in_entries_of_starts. exists pre, s, rest. split; [exact Es|exact Ev].
        * unfold covers in Hct. unfold en, floor_seconds, NS in *.
          pose proof (Z.mul_div_le in_end 1000000000 ltac:(lia)). lia.
    - unfold payload_of. rewrite P1, P2, P3, P4, P5, P6. repeat split.
  Qed.

  Lemma entry_in_force t e :
    now <= t < en -> In e (calculate_profile_unsorted in_now in_end session p) -> covers e t ->
    exists c, in_force p now session t = Some c /\ payload_of e p c.
  Proof.
    intros Ht Hin Hcov. unfold calculate_profile_unsorted in Hin.
    apply in_flat_map in Hin as (i & Hi & Hin). apply filter_In in Hin as [Hin _].
    unfold calculate_profile_entry in Hin.
    destruct (nth_error (sc_periods (pf_sched p)) i) as [c|] eqn:Ei; [|destruct Hin].
    rewrite (wf_not_bad p i c wf Ei) in Hin.
    apply in_entries_of_starts in Hin as (pre & s & rest & Es & Ev).
    set (nextp := nth_error (sc_periods (pf_sched p)) (S i)) in *.
    pose proof (validate_spec _ _ _ _ Ev) as (Hc & P1 & P2 & P3 & P4 & P5 & P6).
    apply Hc in Hcov as [Hcov Hf]. unfold covers, entry_init in Hcov; cbn [e_start e_end] in Hcov.
    destruct wf as (Ha & H0 & _).
    assert (Hge : 0 <= sp_start c).
    { destruct (sc_periods (pf_sched p)) as [|c0 l] eqn:El; [destruct i; discriminate|].
      destruct i as [|i]; cbn in Ei; [injection Ei as <-; lia|].
      destruct (asc_inv _ _ _ Ha) as [_ Hall]. rewrite Forall_forall in Hall.
      specialize (Hall c (nth_error_In _ _ Ei)). lia. }
    assert (Hs : s <= t) by lia.
    assert (Hdur : t - s < entry_duration p nextp s (hd_error rest)) by lia.
    apply duration_spec in Hdur as (D1 & D2 & D3 & D4).
    - exists c. split; [|unfold payload_of; rewrite P1, P2, P3, P4, P5, P6; repeat split].
      assert (Eo : occurrence p now session t = Some s).
      { eapply starts_split; try eassumption. intros n Hn. rewrite Hn in D3. lia. }
      unfold in_force. one_sched. rewrite Eo.
      assert (Hlook : look sp_start (sc_periods (pf_sched p)) (t - s) = Some c).
      { apply look_nth; [exact Ha|]. exists i. split; [exact Ei|split; [lia|]].
        intros c' Hc'. fold nextp in Hc'. rewrite Hc' in D1. exact D1. }
      assert (Hsmall : t - s < 2147483647).
      { destruct nextp as [c'|] eqn:En; [|exact D1]. pose proof (next_small _ _ En). lia. }
      replace (_ && _) with true; [exact Hlook|]. symmetry.
      rewrite !andb_true_iff. repeat split.
      + destruct (pf_from p); lia.
      + destruct (pf_to p); lia.
      + lia.
      + lia.
      + destruct (sc_duration (pf_sched p)); lia.
    - destruct nextp as [c'|] eqn:En; [|exact I]. exact (next_small _ _ En).
    - destruct (hd_error rest) as [n|] eqn:En; [|exact I].
      exact (starts_next _ _ _ _ _ _ _ _ Es En).
    - exact (near_at _ _ _ _ Es Ht Hs).
  Qed.
End Entries.
