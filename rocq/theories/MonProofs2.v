(** Proofs about the monitoring updater: passes. *)
From Coq Require Import ZArith List Bool Lia.
From Verif Require Import MonModel MonSpec MonProofs.
Import ListNotations.
Local Open Scope Z_scope.

(** * Events of one monitor *)
Lemma filter_same : forall i l, Forall (fun x => e_mon x = i) l -> filter (fun e => e_mon e =? i) l = l.
Proof.
  intros i l H. induction H as [|x l X _ IH]; [reflexivity|]. cbn [filter]. rewrite X, Z.eqb_refl, IH. reflexivity.
Qed.
Lemma filter_other : forall i j l, i <> j -> Forall (fun x => e_mon x = j) l -> filter (fun e => e_mon e =? i) l = [].
Proof.
  intros i j l N H. induction H as [|x l X _ IH]; [reflexivity|]. cbn [filter]. rewrite X.
  destruct (j =? i) eqn:E; [apply Z.eqb_eq in E; congruence|auto].
Qed.
Lemma notice_map : forall l, notice (map report_of l) = match l with [] => [] | _ => [Notice (map report_of l)] end.
Proof. destruct l; reflexivity. Qed.

(** * One iteration *)
Definition result_ok (v : env) (e : entry) (r : option entry) (l : list out) : Prop :=
  (match r with Some e1 => good e1 /\ u_id e1 = u_id e | None => True end) /\ ~ In OThrow l /\
  pass v (abs e) = (match r with Some e1 => abs e1 | None => Idle end, shown (u_id e) l) /\
  (forall j, j <> u_id e -> shown j l = []).

Lemma send_ok : forall v e, good e -> u_kind e = KTrigger ->
  u_gen e = true ->
  forall r l, send v e = (r, l) ->
  l = (if v_offline v then [] else match u_evs e with [] => [] | _ => [OSend (u_evs e)] end) /\
  should_remove r = (u_clear e && (negb (v_offline v) || negb (u_told e))) /\
  (should_remove r = false -> good r /\ u_id r = u_id e /\
   abs r = Watching (W (u_mon e) (u_var e) (u_wo e) (u_cur e) (negb (u_clear e)) false
                       (if v_offline v then u_told e else true) (if v_offline v then map report_of (u_evs e) else []))).
Proof.
  intros v [k i mn vr wo pv cu told gen sent clear last next evs] (G1&G2&G3) K G r l. cbn in K, G, G1, G2, G3. subst k gen.
  destruct (G3 eq_refl) as (G4&G5). clear G3. specialize (G4 eq_refl). unfold send. cbn [u_evs u_kind u_told u_clear].
  destruct (v_offline v); intros E.
  - injection E as <- <-. unfold should_remove. cbn [u_kind u_told u_clear u_sent negb orb].
    assert (X : (negb told && clear) || (told && clear && sent) = clear && negb told).
    { destruct told, clear, sent; cbn; auto. destruct (G5 eq_refl); discriminate. }
    ands; auto. intros Y. ands; auto. unfold good. cbn. ands; auto.
  - destruct evs as [|x evs].
    + injection E as <- <-. specialize (G4 eq_refl). subst sent. destruct (G5 eq_refl) as (-> & ->).
      cbn. ands; auto. intros _. ands; auto. unfold good. cbn. ands; auto.
    + injection E as <- <-. destruct clear; cbn; ands; auto; destruct told; cbn; try discriminate; auto;
        intros _; ands; auto; unfold good; cbn; ands; auto.
Qed.
Lemma meta_trigger : forall v uid e, good e -> u_kind e = KTrigger ->
  exists e1 uid1, process_meta v uid e = Done (e1, uid1) /\ good e1 /\ u_kind e1 = KTrigger /\ u_gen e1 = true /\ u_id e1 = u_id e /\
    u_mon e1 = u_mon e /\ u_var e1 = u_var e /\ u_wo e1 = u_wo e /\ u_cur e1 = u_cur e /\ u_clear e1 = u_clear e /\ u_told e1 = u_told e /\
    map report_of (u_evs e1) = map report_of (u_evs e) ++
      (if negb (u_gen e) then [alarm_report (W (u_mon e) (u_var e) (u_wo e) (u_cur e) (negb (u_clear e)) true true [])] else []).
Proof.
  intros v uid [k i mn vr wo pv cu told gen sent clear last next evs] (G1&G2&G3) K. cbn in K, G1, G2, G3. subst k.
  destruct (G3 eq_refl) as (G4&G5). unfold process_meta. cbn [u_kind u_gen]. destruct gen.
  - eexists _, _. split; [reflexivity|]. cbn. rewrite app_nil_r. ands; auto. unfold good. cbn. ands; auto.
  - eexists _, _. split; [reflexivity|]. cbn. ands; auto.
    + unfold good. cbn. ands; auto.
      * apply Forall_app. split; auto. constructor; auto. destruct (is_delta (n_type mn)); cbn; auto.
      * intros _. ands; auto. intros _ X. destruct evs; discriminate.
    + rewrite map_app. f_equal. cbn [map]. unfold report_of, alarm_report, kind_of.
      destruct mn as [a b ty c d f]; destruct ty, clear; reflexivity.
Qed.
Lemma visit_trigger : forall v per uid e, good e -> u_kind e = KTrigger ->
  exists r uid1 l, visit v per true uid e = match r with Some e1 => Keep e1 uid1 l | None => Erase uid1 l end /\
    result_ok v e r l /\ (forall e1, r = Some e1 -> u_kind e1 = KTrigger).
Proof.
  intros v per uid e G K. unfold visit. rewrite K. cbn [negb]. rewrite wanted_admitted.
  destruct (admitted v (u_mon e)) eqn:A; cbn [negb].
  2:{ exists None, uid, []. split; [reflexivity|]. split; [|discriminate]. unfold result_ok. ands; auto.
      unfold abs, pass, pass_watch. rewrite K. cbn [w_mon]. rewrite A. reflexivity. }
  destruct (meta_trigger v uid e G K) as (e1&uid1&->&G1&K1&Gen&Hi&Hm&Hv&Hw&Hc&Hcl&Ht&Hq).
  destruct (send v e1) as (e2&l) eqn:S.
  destruct (send_ok v e1 G1 K1 Gen e2 l S) as (L&R&B).
  assert (SH : shown (u_id e) l = if v_offline v then [] else notice (map report_of (u_evs e1))).
  { rewrite L. destruct (v_offline v); [reflexivity|]. pose proof (proj1 (proj2 G1)) as F.
    rewrite notice_map. destruct (u_evs e1) as [|x q] eqn:Q; [reflexivity|]. rewrite <- Q in *. rewrite Hi in F.
    unfold shown. cbn [flat_map shows]. rewrite (filter_same _ _ F), notice_map, Q. reflexivity. }
  assert (OT : forall j, j <> u_id e -> shown j l = []).
  { intros j Nj. rewrite L. destruct (v_offline v); [reflexivity|]. pose proof (proj1 (proj2 G1)) as F.
    destruct (u_evs e1) as [|x q] eqn:Q; [reflexivity|]. rewrite <- Q in *. rewrite Hi in F.
    unfold shown. cbn [flat_map shows]. rewrite (filter_other _ _ _ Nj F). reflexivity. }
  assert (NT : ~ In OThrow l).
  { rewrite L. destruct (v_offline v); [auto|]. destruct (u_evs e1); cbn; intuition discriminate. }
  exists (if should_remove e2 then None else Some e2), uid1, l. split; [destruct (should_remove e2); reflexivity|].
  split.
  - unfold result_ok. ands; auto.
    + destruct (should_remove e2); auto. destruct (B eq_refl) as (B1&B2&B3). split; auto. congruence.
    + rewrite SH, Hq. unfold abs at 1. rewrite K. cbn [pass]. unfold pass_watch. cbn [w_mon w_var w_wo w_value w_alarm w_news w_told w_queue].
      rewrite A. destruct (should_remove e2) eqn:SR.
      * symmetry in R. apply andb_prop in R. destruct R as (R1&R2). rewrite Hcl in R1. rewrite R1. cbn [negb orb].
        destruct (v_offline v); cbn [negb orb] in R2.
        -- rewrite Ht in R2. destruct (u_told e); [discriminate|]. reflexivity.
        -- destruct (u_gen e); reflexivity.
      * destruct (B eq_refl) as (B1&B2&B3). rewrite B3, Hq, Hm, Hv, Hw, Hc, Hcl, Ht. rewrite Hcl, Ht in R.
        destruct (v_offline v); cbn [negb orb] in R.
        -- destruct (u_clear e), (u_told e); try discriminate R; cbn [negb orb]; destruct (u_gen e); reflexivity.
        -- destruct (u_clear e); [discriminate R|]. cbn [negb]. destruct (u_gen e); reflexivity.
  - intros e3 E. destruct (should_remove e2) eqn:SR; [discriminate|]. injection E as <-. destruct (B eq_refl) as (B1&B2&B3).
    unfold abs in B3. destruct (u_kind e2); [reflexivity|discriminate].
Qed.
Lemma visit_periodic : forall v trg uid e, good e -> u_kind e = KPeriodic ->
  (wanted v (u_mon e) = false /\ visit v true trg uid e = Stay (set_u_evs [] e)) \/
  (exists e1 uid1, visit v true trg uid e = Leave e1 uid1) \/ visit v true trg uid e = Break \/
  (exists e1 uid1 l, visit v true trg uid e = Keep e1 uid1 l /\ result_ok v e (Some e1) l /\ u_kind e1 = KPeriodic).
Proof.
  intros v trg uid e G K. unfold visit. rewrite K. cbn [negb].
  destruct (wanted v (u_mon e)) eqn:A; cbn [negb]; [|left; auto]. right.
  unfold process_meta. rewrite K.
  destruct (due v e) as [(e1&b)|(e1&b)|] eqn:D; [|left; eauto|right; left; reflexivity].
  assert (HD : b = match n_type (u_mon e) with Periodic => v_steady v >? u_last e + 1000 * n_value (u_mon e) | _ => v_clock v >? u_next e end /\
     e1 = (if b then match n_type (u_mon e) with Periodic => set_u_last (v_steady v) e | _ => set_u_next (next_point (v_clock v) (n_value (u_mon e))) e end else e)).
  { unfold due in D. destruct (n_type (u_mon e)) eqn:NT; try discriminate D.
    - destruct (n_value (u_mon e) * 1000 <? v_steady v - u_last e) eqn:X; injection D as <- <-;
        rewrite Z.gtb_ltb; split; auto; symmetry; [apply Z.ltb_lt in X; apply Z.ltb_lt; lia|apply Z.ltb_ge in X; apply Z.ltb_ge; lia].
    - destruct (u_next e <? v_clock v) eqn:X.
      + destruct (Z.eq_dec (n_value (u_mon e)) 0) as [Y|Y].
        * rewrite Y in D. discriminate D.
        * rewrite (next_point_eq _ _ Y) in D. injection D as <- <-. rewrite Z.gtb_ltb, X. auto.
      + injection D as <- <-. rewrite Z.gtb_ltb, X. auto. }
  destruct HD as (Hb&He).
  assert (ID : u_id e1 = u_id e /\ u_kind e1 = KPeriodic /\ u_evs e1 = u_evs e /\ u_mon e1 = u_mon e /\ u_var e1 = u_var e).
  { rewrite He. destruct e; cbn in *; destruct b; [destruct (n_type u_mon)|]; cbn; auto. }
  destruct ID as (I1&I2&I3&I4&I5). destruct G as (G1&G2&_).
  assert (KEY : forall e2 uid2 q,
    u_id e2 = u_id e -> u_kind e2 = KPeriodic -> u_mon e2 = u_mon e -> u_var e2 = u_var e -> u_last e2 = u_last e1 -> u_next e2 = u_next e1 ->
    u_evs e2 = u_evs e ++ q -> Forall (fun x => e_mon x = u_id e) q ->
    map report_of q = (if b then match v_value v (u_var e) with Some x => [timed_report (T (u_mon e) (u_var e) 0 0 []) x] | None => [] end else []) ->
    exists e3 uid3 l, (let '(e4, l0) := send v e2 in if should_remove e4 then Erase uid2 l0 else Keep e4 uid2 l0) = Keep e3 uid3 l /\
      result_ok v e (Some e3) l /\ u_kind e3 = KPeriodic).
  { intros e2 uid2 q E1 E2 E3 E4 E5 E6 E7 E8 E9.
    assert (F : Forall (fun x => e_mon x = u_id e) (u_evs e2)) by (rewrite E7; apply Forall_app; auto).
    set (e3 := if v_offline v then e2 else match u_evs e2 with [] => e2 | _ => set_u_evs [] e2 end).
    set (l := if v_offline v then [] else match u_evs e2 with [] => [] | _ => [OSend (u_evs e2)] end).
    assert (S : send v e2 = (e3, l)).
    { unfold send, e3, l. rewrite E2. destruct (v_offline v); auto. destruct (u_evs e2); auto. }
    assert (E3' : u_id e3 = u_id e /\ u_kind e3 = KPeriodic /\ u_mon e3 = u_mon e /\ u_var e3 = u_var e /\ u_last e3 = u_last e1 /\ u_next e3 = u_next e1 /\
                  u_evs e3 = if v_offline v then u_evs e2 else []).
    { unfold e3. destruct (v_offline v); [ands; auto|]. destruct (u_evs e2) eqn:Q; destruct e2; cbn in *; ands; auto. }
    destruct E3' as (X1&X2&X3&X4&X5&X6&X7).
    exists e3, uid2, l. rewrite S. unfold should_remove. rewrite X2. split; [reflexivity|]. split; [|auto].
    unfold result_ok. ands; auto.
    - unfold good. rewrite X1, X2, X3, X7. ands; auto; [|discriminate]. destruct (v_offline v); auto.
    - unfold l. destruct (v_offline v); [auto|]. destruct (u_evs e2); cbn; intuition discriminate.
    - assert (SH : shown (u_id e) l = if v_offline v then [] else notice (map report_of (u_evs e2))).
      { unfold l. destruct (v_offline v); [reflexivity|]. rewrite notice_map. destruct (u_evs e2) as [|x r] eqn:Q; [reflexivity|].
        rewrite <- Q in *. unfold shown. cbn [flat_map shows]. rewrite (filter_same _ _ F), notice_map, Q. reflexivity. }
      rewrite SH. unfold abs. rewrite K, X2, X3, X4, X5, X6, X7. cbn [pass]. unfold pass_timed.
      cbn [t_mon t_var t_last t_next t_queue]. rewrite <- Hb, E7, He.
      assert (M : map report_of (u_evs e ++ q) = map report_of (u_evs e) ++
        (if b then match v_value v (u_var e) with Some x => [timed_report (T (u_mon e) (u_var e) 0 0 []) x] | None => [] end else []))
        by (rewrite map_app, E9; reflexivity).
      clear - K M.
      destruct (v_offline v); rewrite ?M; clear M; destruct b; rewrite ?app_nil_r; try reflexivity;
        destruct e as [? ? mn ? ? ? ? ? ? ? ? ? ? ?]; destruct mn as [? ? ty ? ? ?]; destruct ty; reflexivity.
    - intros j Nj. unfold l. destruct (v_offline v); [reflexivity|]. destruct (u_evs e2) as [|x r] eqn:Q; [reflexivity|].
      rewrite <- Q in *. unfold shown. cbn [flat_map shows]. rewrite (filter_other _ _ _ Nj F). reflexivity. }
  destruct b.
  - rewrite I5. destruct (v_value v (u_var e)) as [x|] eqn:V; [|left; eauto]. right. right.
    apply (KEY _ (uid + 1) [create_event uid (Some x) (u_var e1) (u_mon e1)]); try (destruct e1; cbn in *; congruence).
    + constructor; auto. cbn. congruence.
    + cbn. unfold report_of, timed_report, create_event, kind_of. cbn. rewrite I4, I5. destruct (n_type (u_mon e)); reflexivity.
  - right. right. apply (KEY e1 uid []); auto. rewrite app_nil_r. auto.
Qed.
