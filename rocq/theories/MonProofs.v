(** Proofs about the monitoring updater: each monitor lives as specified. *)
From Coq Require Import ZArith List Bool Lia.
From Verif Require Import MonModel MonSpec.
Import ListNotations.
Local Open Scope Z_scope.

Ltac ands := repeat match goal with |- _ /\ _ => split end.

(** * What holds of every entry *)
Definition good (e : entry) : Prop :=
  n_id (u_mon e) = u_id e /\ Forall (fun x => e_mon x = u_id e) (u_evs e) /\
  (u_kind e = KTrigger ->
   (u_gen e = true -> u_evs e = [] -> u_sent e = true) /\ (u_sent e = true -> u_clear e = false /\ u_told e = true)).
Definition inv (p : upd) : Prop := NoDup (map u_id (p_entries p)) /\ Forall good (p_entries p).

Definition abs (e : entry) : life :=
  match u_kind e with
  | KTrigger => Watching (W (u_mon e) (u_var e) (u_wo e) (u_cur e) (negb (u_clear e)) (negb (u_gen e)) (u_told e) (map report_of (u_evs e)))
  | KPeriodic => Timing (T (u_mon e) (u_var e) (u_last e) (u_next e) (map report_of (u_evs e)))
  end.
Definition life_of (i : Z) (l : list entry) : life := match find_entry i l with Some e => abs e | None => Idle end.

Lemma find_some : forall i l e, find_entry i l = Some e -> In e l /\ u_id e = i.
Proof. intros i l e H. apply find_some in H. destruct H as (A&B). apply Z.eqb_eq in B. auto. Qed.
Lemma find_none : forall i l, find_entry i l = None <-> ~ In i (map u_id l).
Proof.
  intros i l. induction l as [|x l IH]; cbn [find_entry find map].
  - split; auto.
  - unfold find_entry in IH. cbn [In]. destruct (u_id x =? i) eqn:E.
    + apply Z.eqb_eq in E. split; [discriminate|]. intros H. exfalso. apply H. auto.
    + apply Z.eqb_neq in E. rewrite IH. intuition.
Qed.
Lemma find_app : forall i a b, find_entry i (a ++ b) = match find_entry i a with Some e => Some e | None => find_entry i b end.
Proof.
  intros i a b. induction a as [|x a IH]; [reflexivity|]. unfold find_entry in *. cbn [app find]. destruct (u_id x =? i); auto.
Qed.
Lemma put_ids : forall e l, map u_id (put_entry e l) = map u_id l.
Proof.
  intros e l. unfold put_entry. rewrite map_map. apply map_ext_in. intros x _. destruct (u_id x =? u_id e) eqn:E; auto.
  apply Z.eqb_eq in E. auto.
Qed.
Lemma find_put : forall i e l, find_entry i (put_entry e l) =
  if u_id e =? i then (match find_entry i l with Some _ => Some e | None => None end) else find_entry i l.
Proof.
  intros i e l. induction l as [|x l IH].
  - cbn. destruct (u_id e =? i); reflexivity.
  - unfold find_entry, put_entry in *. cbn [map find]. destruct (u_id x =? u_id e) eqn:A.
    + apply Z.eqb_eq in A. rewrite A. destruct (u_id e =? i) eqn:B; auto. 
    + destruct (u_id x =? i) eqn:B; auto. destruct (u_id e =? i) eqn:C; auto.
      apply Z.eqb_eq in B, C. apply Z.eqb_neq in A. congruence.
Qed.
Lemma put_good : forall e l, good e -> Forall good l -> Forall good (put_entry e l).
Proof.
  intros e l G H. unfold put_entry. rewrite Forall_map. eapply Forall_impl; [|exact H]. intros x X. cbn beta.
  destruct (u_id x =? u_id e); auto.
Qed.

(** * Values *)
Lemma triggers_beyond : forall d m a b, d <> OtherType -> triggers d m a b = beyond d m a b.
Proof.
  intros d m a b N. unfold triggers, beyond. destruct d; [|clear N|congruence].
  - destruct (Z.eq_dec a b) as [->|X]; [rewrite Z.eqb_refl; reflexivity|]. apply Z.eqb_neq in X. rewrite X. reflexivity.
  - destruct (n_type m); auto.
    + destruct (n_ref m) as [r|]; auto. rewrite !Z.gtb_ltb.
      destruct (n_value m <? r - b) eqn:X; destruct (n_value m <? b - r) eqn:Y; cbn [orb];
        rewrite ?Z.ltb_lt, ?Z.ltb_ge in *; lia.
    + rewrite Z.gtb_ltb. reflexivity.
    + rewrite Z.gtb_ltb. reflexivity.
Qed.
Lemma wanted_admitted : forall v m, wanted v m = admitted v m.
Proof.
  intros v m. unfold wanted, admitted, is_active. rewrite Z.gtb_ltb, andb_comm. f_equal.
  - rewrite Z.ltb_antisym, negb_involutive. reflexivity.
  - destruct (v_base v), (n_conf m); reflexivity.
Qed.
Lemma next_point_eq : forall now s, s <> 0 -> next_aligned now s = Some (next_point now s).
Proof.
  intros now s N. unfold next_aligned, next_point, ceil_div, hour. destruct (s =? 0) eqn:E; [apply Z.eqb_eq in E; lia|]. clear E.
  pose proof (Z.div_mod now 3600000 ltac:(lia)) as D.
  assert (R : now - now / 3600000 * 3600000 = now mod 3600000) by lia. rewrite R.
  assert (S : now / 3600000 * 3600000 = now - now mod 3600000) by lia. rewrite S. clear R S D.
  pose proof (Z.mod_pos_bound now 3600000 ltac:(lia)) as B.
  set (h := now mod 3600000) in *.
  assert (Q : 0 <= h / 1000 < 3600) by (split; [apply Z.div_pos|apply Z.div_lt_upper_bound]; lia).
  set (q := h / 1000) in *. clearbody q h. f_equal.
  destruct (0 <? s) eqn:P.
  - apply Z.ltb_lt in P.
    pose proof (Z.div_mod q s ltac:(lia)) as D. pose proof (Z.mod_pos_bound q s ltac:(lia)) as Bd.
    destruct (q mod s =? 0) eqn:M.
    + apply Z.eqb_eq in M. rewrite (Z.div_opp_l_z q s) by lia. rewrite Z.opp_involutive.
      assert (q / s * s = q) as -> by lia. destruct (3600 <=? q) eqn:L; [apply Z.leb_le in L; lia|]. lia.
    + apply Z.eqb_neq in M. rewrite (Z.div_opp_l_nz q s) by lia.
      assert (- (- (q / s) - 1) * s = q - q mod s + s) as -> by nia.
      destruct (3600 <=? q - q mod s + s) eqn:L; [apply Z.leb_le in L|apply Z.leb_gt in L]; lia.
  - apply Z.ltb_ge in P.
    pose proof (Z.div_mod q (- s) ltac:(lia)) as D. pose proof (Z.mod_pos_bound q (- s) ltac:(lia)) as Bd.
    assert (E : (- q) / s = q / (- s)).
    { rewrite <- (Z.opp_involutive s) at 1. apply Z.div_opp_opp. lia. }
    rewrite E. assert (- (q / - s) * s = q - q mod (- s)) as -> by nia.
    destruct (3600 <=? q - q mod - s) eqn:L; [apply Z.leb_le in L|apply Z.leb_gt in L]; lia.
Qed.

(** * Looking at a value *)
Lemma shown_app : forall i a b, shown i (a ++ b) = shown i a ++ shown i b.
Proof. intros. apply flat_map_app. Qed.

Lemma new_good : forall m var wo a b, good (mark_triggered m (new_trigger m var wo a b)).
Proof.
  intros. unfold mark_triggered, new_trigger, good. destruct (is_delta (n_type m)); cbn; repeat split; auto; congruence.
Qed.
Lemma abs_new : forall m var wo a b,
  abs (mark_triggered m (new_trigger m var wo a b)) = Watching (W m var wo b true true false []).
Proof. intros. unfold mark_triggered, new_trigger. destruct (is_delta (n_type m)); reflexivity. Qed.
Lemma marked : forall m e (b : bool) x y, u_kind e = KTrigger -> good e -> is_periodic (n_type m) = false ->
  let e1 := set_u_prev x (set_u_cur y e) in
  let e2 := if b then mark_triggered m e1 else mark_normal m e1 in
  good e2 /\ u_id e2 = u_id e /\ u_kind e2 = KTrigger /\
  abs e2 = (if threshold (n_type m)
            then Watching (W (u_mon e) (u_var e) (u_wo e) y b (negb (u_gen e) || negb (eqb b (negb (u_clear e)))) (u_told e) (map report_of (u_evs e)))
            else Watching (W (u_mon e) (u_var e) (u_wo e) y (negb (u_clear e) || b) (negb (u_gen e) || b) (u_told e) (map report_of (u_evs e)))).
Proof.
  intros m [k i mn vr wo pv cu told gen sent clear last next evs] b x y K (G1&G2&G3) N. cbn in K, G1, G2, G3. subst k.
  specialize (G3 eq_refl). destruct G3 as (G3&G4).
  unfold mark_triggered, mark_normal, set_clear. 
  destruct (n_type m); try discriminate N; destruct b, clear; cbn;
    (split; [unfold good; cbn; ands; auto; intros _; ands; intros; auto; try discriminate; try (destruct (G4 H); auto; discriminate)|]);
    ands; auto; rewrite ?orb_true_r, ?orb_false_r; try reflexivity.
Qed.

Lemma evaluate_red : forall m var d wo a b es uid out, is_periodic (n_type m) = false -> d <> OtherType ->
  let trig := beyond d m a b in
  let p0 := Upd es uid Fine (out ++ match d, n_type m with Text, Delta => if trig then [ORef (n_id m) b] else [] | _, _ => [] end) in
  evaluate m var d wo a b (Upd es uid Fine out) =
  match find_entry (n_id m) es with
  | None => if trig then set_entries (es ++ [mark_triggered m (new_trigger m var wo a b)]) p0 else p0
  | Some e =>
      let e1 := set_u_prev a (set_u_cur b e) in
      match u_kind e with
      | KPeriodic => if is_delta (n_type m) && negb trig then set_entries (put_entry e1 es) p0 else set_status Undef p0
      | KTrigger => set_entries (put_entry (if trig then mark_triggered m e1 else mark_normal m e1) es) p0
      end
  end.
Proof.
  intros m var d wo a b es uid out P N. cbv zeta. unfold evaluate. rewrite P, (triggers_beyond d) by auto.
  set (trig := beyond d m a b). clearbody trig.
  destruct d; [| |congruence]; destruct (n_type m); try discriminate P; destruct trig; cbn [is_delta andb add_out p_entries p_uid p_status p_out];
    rewrite ?app_nil_r; destruct (find_entry (n_id m) es) as [e|]; try destruct (u_kind e); reflexivity.
Qed.
Lemma mark_id : forall m var wo a b, u_id (mark_triggered m (new_trigger m var wo a b)) = n_id m.
Proof. intros. unfold mark_triggered, new_trigger. destruct (is_delta (n_type m)); reflexivity. Qed.
Lemma evaluate_ok : forall i m var d wo a b p, inv p -> p_status p = Fine ->
  p_status (evaluate m var d wo a b p) = Fine ->
  inv (evaluate m var d wo a b p) /\ p_uid (evaluate m var d wo a b p) = p_uid p /\
  exists l, p_out (evaluate m var d wo a b p) = p_out p ++ l /\ events_sent l = [] /\ ~ In OThrow l /\
    (if n_id m =? i then look m var d wo a b (life_of i (p_entries p)) else (life_of i (p_entries p), []))
    = (life_of i (p_entries (evaluate m var d wo a b p)), shown i l).
Proof.
  intros i m var d wo a b [es uid st out] (I1&I2) F. cbn in F. subst st. cbn [p_entries p_out p_uid] in *.
  destruct (is_periodic (n_type m)) eqn:P.
  { unfold evaluate. rewrite P. intros _. ands; [split; auto|auto|]. exists []. split; [symmetry; apply app_nil_r|]. cbn. ands; auto. unfold look.
    destruct (n_id m =? i); auto. destruct d, (n_type m); auto; discriminate. }
  destruct (match d with OtherType => true | _ => false end) eqn:ED.
  { destruct d; try discriminate. unfold evaluate. rewrite P. intros _. ands; [split; auto|auto|]. exists [].
    split; [symmetry; apply app_nil_r|]. cbn. ands; auto. destruct (n_id m =? i); auto. }
  assert (N : d <> OtherType) by (intros ->; discriminate).
  rewrite (evaluate_red m var d wo a b es uid out P N). cbv zeta.
  set (l := match d, n_type m with Text, Delta => if beyond d m a b then [ORef (n_id m) b] else [] | _, _ => [] end).
  assert (L1 : events_sent l = [] /\ ~ In OThrow l).
  { unfold l. destruct (beyond d m a b), d, (n_type m); cbn; intuition discriminate. }
  assert (L2 : shown i l = if n_id m =? i then match d, n_type m with Text, Delta => if beyond d m a b then [NewRef b] else [] | _, _ => [] end else []).
  { unfold l. destruct (beyond d m a b), d, (n_type m); cbn; destruct (n_id m =? i); reflexivity. }
  assert (LK : forall s, look m var d wo a b s = (match s with
       | Idle => if beyond d m a b then Watching (W m var wo b true true false []) else Idle
       | Watching w =>
           if threshold (n_type m)
           then Watching (W (w_mon w) (w_var w) (w_wo w) b (beyond d m a b) (w_news w || negb (eqb (beyond d m a b) (w_alarm w))) (w_told w) (w_queue w))
           else Watching (W (w_mon w) (w_var w) (w_wo w) b (w_alarm w || beyond d m a b) (w_news w || beyond d m a b) (w_told w) (w_queue w))
       | Timing t => Timing t
       end, match d, n_type m with Text, Delta => if beyond d m a b then [NewRef b] else [] | _, _ => [] end)).
  { intros s. unfold look. destruct d; [| |congruence]; destruct (n_type m); try discriminate P; reflexivity. }
  clearbody l. set (trig := beyond d m a b) in *. clearbody trig. intros F.
  destruct (find_entry (n_id m) es) as [e|] eqn:FE.
  - apply find_some in FE as FE'. destruct FE' as (In1&Id1).
    pose proof (proj1 (Forall_forall _ _) I2 e In1) as Ge. destruct (u_kind e) eqn:K.
    + destruct (marked m e trig a b K Ge P) as (M1&M2&M3&M4).
      match goal with |- context [set_entries (put_entry ?x _) _] => set (e2 := x) in * end.
      cbn [set_entries p_entries p_out p_uid]. ands.
      * split; cbn [set_entries p_entries]; [rewrite put_ids; auto|apply put_good; auto].
      * reflexivity.
      * exists l. ands; try tauto. rewrite L2, LK. unfold life_of. rewrite find_put.
        assert (u_id e2 = n_id m) as -> by congruence. destruct (n_id m =? i) eqn:EI; [|reflexivity].
        apply Z.eqb_eq in EI. subst i. rewrite FE. unfold abs at 1. rewrite K. cbn [w_mon w_var w_wo w_news w_alarm w_told w_queue].
        rewrite M4. reflexivity.
    + destruct (is_delta (n_type m) && negb trig) eqn:DT; [|discriminate F].
      apply andb_prop in DT. destruct DT as (DT1&DT2). destruct trig; [discriminate|].
      cbn [set_entries p_entries p_out p_uid]. 
      assert (Ge1 : good (set_u_prev a (set_u_cur b e))) by (destruct e; exact Ge).
      ands.
      * split; cbn [set_entries p_entries]; [rewrite put_ids; auto|apply put_good; auto].
      * reflexivity.
      * exists l. ands; try tauto. rewrite L2, LK. unfold life_of. rewrite find_put.
        assert (u_id (set_u_prev a (set_u_cur b e)) = n_id m) as -> by (destruct e; exact Id1).
        destruct (n_id m =? i) eqn:EI; [|reflexivity].
        apply Z.eqb_eq in EI. subst i. rewrite FE. destruct e as [k ? ? ? ? ? ? ? ? ? ? ? ? ?]. cbn in K. subst k. reflexivity.
  - destruct trig; cbn [set_entries p_entries p_out p_uid].
    + ands; auto.
      * split; cbn [set_entries p_entries]; [|apply Forall_app; split; auto; constructor; auto; apply new_good].
        rewrite map_app. cbn [map]. rewrite mark_id.
        apply find_none in FE. apply (NoDup_Add (a := n_id m) (l := map u_id es)).
        { rewrite <- (app_nil_r (map u_id es)) at 1. apply Add_app. } auto.
      * exists l. ands; try tauto. rewrite L2, LK. unfold life_of. rewrite find_app.
        destruct (n_id m =? i) eqn:EI.
        -- apply Z.eqb_eq in EI. subst i. rewrite FE. unfold find_entry. cbn [find].
           rewrite mark_id, Z.eqb_refl, abs_new. reflexivity.
        -- destruct (find_entry i es); auto. unfold find_entry. cbn [find]. rewrite mark_id, EI. reflexivity.
    + ands; auto; [split; auto|]. exists l. ands; try tauto. rewrite L2, LK. unfold life_of.
      destruct (n_id m =? i) eqn:EI; auto. apply Z.eqb_eq in EI. subst i. rewrite FE. reflexivity.
Qed.
