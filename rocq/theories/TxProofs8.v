(** Availability: requests. *)
From Coq Require Import ZArith List Bool Lia.
From Verif Require Import TxModel TxSpec TxProofs TxProofs2 TxProofs4 TxProofs5 TxProofs6 TxProofs7.
From Verif Require CsmModel CsmSpec CsmProofs CsmProofs2 CsmProofs3.
Import ListNotations.
Local Open Scope Z_scope.
Import CsmModel (opstat, Operative, Inoperative).

(** ** Nothing throws *)
Lemma ready_of : forall f w, smooth f -> (forall v, w_prog v = Running -> fine v (f v)) -> respects off f -> ready w ->
  ready (f w) /\ off w (f w).
Proof.
  intros f w S F O (H&B&E&P). destruct (S w B P) as (B1&P1). destruct (F w P) as (F1&_). specialize (O w P).
  split; [|exact O]. split; [|auto]. apply (off_keep 0 _ _ O H).
Qed.
Lemma ready_set : forall t v p w w1, wellset t v p w w1 -> ready w1 /\ w_con w1 = w_con w /\ w_tx w1 = w_tx w /\ w_sched w1 = w_sched w.
Proof. intros t v p w w1 (A&B&C&D&_). auto. Qed.
Lemma ready_conns : forall e v p l w, ready w -> known_evse (w_con w) e -> (forall c, In c l -> known_connector (w_con w) e c) ->
  let w1 := foreach l (fun c => set_conn_operative e c v p) w in
  ready w1 /\ w_con w1 = w_con w /\ w_tx w1 = w_tx w /\ w_sched w1 = w_sched w.
Proof.
  induction l as [|c q IH]; intros w R K C; [cbn; auto|]. cbv zeta. cbn [foreach].
  destruct (ready_set _ _ _ _ _ (set_conn_go e c v p w R K (C c (or_introl eq_refl)))) as (A1&A2&A3&A4).
  rewrite seqw_run by apply A1. destruct (IH (set_conn_operative e c v p w) A1) as (B1&B2&B3&B4).
  - rewrite A2. exact K.
  - intros c1 I. rewrite A2. apply C. right. exact I.
  - ands; auto; congruence.
Qed.
Lemma in_connectors : forall w e c, In c (CsmModel.ids (ncon w e)) -> known_connector (w_con w) e c.
Proof. intros w e c I. apply CsmProofs.in_ids in I. exact I. Qed.
Lemma ready_connectors : forall e w, ready w -> known_evse (w_con w) e ->
  let w1 := connectors_unavailable e w in
  ready w1 /\ w_con w1 = w_con w /\ w_tx w1 = w_tx w /\ w_sched w1 = w_sched w.
Proof.
  intros e w R K. unfold connectors_unavailable. apply ready_conns; auto. intros c I. apply in_connectors. exact I.
Qed.
Lemma ready_emit : forall o w, ready w -> ready (emit o w) /\ off w (emit o w) /\ w_tx (emit o w) = w_tx w.
Proof.
  intros o w R. split; [|split; [apply off_emit|]].
  - destruct R as (H&B&F&P). rewrite emit_alive by exact B. split; [exact H|cbn; auto].
  - rewrite emit_alive by apply R. reflexivity.
Qed.
Lemma ready_finish_reset : forall e w, ready w -> known_evse (w_con w) e ->
  let w1 := finish_reset e w in ready w1 /\ w_con w1 = w_con w /\ w_tx w1 = w_tx w /\ w_sched w1 = w_sched w.
Proof.
  intros e w R K. unfold finish_reset. cbv zeta. match goal with |- context [seqw ?f _ w] => set (f1 := f) end.
  assert (A : ready (f1 w) /\ w_con (f1 w) = w_con w /\ w_tx (f1 w) = w_tx w /\ w_sched (f1 w) = w_sched w).
  { unfold f1. match goal with |- context [if ?b then _ else _] => destruct b end; [apply ready_connectors; assumption|]. cbn. auto. }
  rewrite seqw_run by apply A. destruct A as (A1&A2&A3&A4).
  match goal with |- ready ((if ?b then _ else _) _) /\ _ => destruct b end; [|auto].
  assert (X : forall v rids rs, ready v -> ready (set_w_rids rids (set_w_rs rs v))) by (intros v rids rs R1; exact R1).
  destruct (w_rids w).
  - rewrite <- seq_assoc. destruct (ready_emit (OReset None OnIdle) _ A1) as (B1&(B2&_&B3)&B4). rewrite seqw_run by apply B1.
    rewrite seqw_run by apply B1. cbn. ands; auto; try congruence.
  - rewrite <- seq_assoc. destruct (ready_emit (OReset (Some e) OnIdle) _ A1) as (B1&(B2&_&B3)&B4). rewrite seqw_run by apply B1.
    set (w2 := emit (OReset (Some e) OnIdle) (f1 w)) in *. rewrite <- seq_assoc. rewrite seqw_run by apply B1.
    set (w3 := set_w_rids _ _). set (w4 := (fun w => match w_rids w with [] => set_w_rs false w | _ => w end) w3).
    assert (C : ready w4 /\ w_con w4 = w_con w2 /\ w_tx w4 = w_tx w2 /\ w_sched w4 = w_sched w2).
    { unfold w4. destruct (w_rids w3); ands; try reflexivity; exact B1. }
    destruct C as (C1&C2&C3&C4). rewrite seqw_run by apply C1. fold w4. cbn. ands; try congruence. exact C1.
Qed.
Lemma tx_release : forall e w, w_budget w = None -> w_prog w = Running -> forall f, f <> e -> busy_of (release_transaction e w) f = busy_of w f.
Proof.
  intros e w B P f N. destruct (release_effect e w B P) as (_&(_&_&_&_&_&_&X)). rewrite X. unfold update.
  destruct (f =? e) eqn:E; [apply Z.eqb_eq in E; congruence|reflexivity].
Qed.
Lemma ready_ending : forall e reason tr tok cs w, ready w -> known_evse (w_con w) e ->
  let w1 := ending e reason tr tok cs w in ready w1 /\ w_con w1 = w_con w /\ w_sched w1 = w_sched w.
Proof.
  intros e reason tr tok cs w R K. cbv zeta. unfold ending.
  destruct (ready_of (set_charging e cs) w) as (R1&O1);
    [apply smooth_set_charging|intros v P; apply set_charging_quiet; exact P|intros v _; apply off_charging|exact R|].
  destruct (ready_of (close_transaction e reason) _ (smooth_close e reason) (fun v P => proj1 (close_quiet e reason v P)) (fun v _ => off_close e reason v) R1) as (R2&O2).
  set (tk := match tr with StopAuthorized => tok | _ => None end).
  destruct (ready_of (send_event e Ended tr None tk) _ (smooth_send e Ended tr None tk) (fun v P => send_fine e Ended tr None tk v P) (off_send e Ended tr None tk) R2) as (R3&O3).
  destruct (ready_of (release_transaction e) _
     (fun v B P => conj (proj1 (proj2 (release_effect e v B P))) (proj1 (release_effect e v B P)))
     (fun v P => release_fine e v P) (off_release e) R3) as (R4&O4).
  rewrite <- seq_assoc, <- seq_assoc, <- seq_assoc.
  rewrite seqw_run by apply R1. rewrite seqw_run by apply R2. rewrite seqw_run by apply R3. rewrite seqw_run by apply R4.
  pose proof (off_trans _ _ _ (off_trans _ _ _ (off_trans _ _ _ O1 O2) O3) O4) as (C1&_&C3).
  destruct (ready_finish_reset e _ R4) as (R5&C5&_&S5); [rewrite C1; exact K|]. ands; auto; congruence.
Qed.
Lemma entry_target : forall w k r p, coh w -> map_get k (w_sched w) = Some (r, p) ->
  exists_target (w_con w) (q_evse r) /\ k = target_key (q_evse r).
Proof. intros w k r p (_&_&F) G. rewrite Forall_forall in F. exact (F _ (get_in _ _ _ _ G)). Qed.
Lemma check_here : forall t w, exists_target (w_con w) t -> check_target t w = w.
Proof.
  intros t w E. unfold check_target. destruct t as [[e c]|]; [|reflexivity]. unfold get_evse. rewrite evse_ok_known.
  assert (K : known_evse (w_con w) e) by (destruct c; cbn in E; tauto). rewrite (proj2 (knownb _ _) K). reflexivity.
Qed.
Lemma notify_go : forall w, ready w -> ready (notify_all_unavailable w) /\ off w (notify_all_unavailable w) /\ w_tx (notify_all_unavailable w) = w_tx w.
Proof.
  intros w R. unfold notify_all_unavailable. destruct (_ && _); [apply ready_emit; exact R|].
  split; [exact R|]. split; [apply off_refl|reflexivity].
Qed.
(** A scheduled request without transactions to wait for is executed. *)
Lemma scheduled_go : forall k r p w, ready w -> map_get k (w_sched w) = Some (r, p) -> affected_active w (q_evse r) = false ->
  let w1 := handle_scheduled k w in
  ready w1 /\ w_con w1 = w_con w /\ w_tx w1 = w_tx w /\ w_sched w1 = map_erase k (w_sched w) /\
  status_of (w_csm w1) (q_evse r) = q_op r /\
  (forall t, t <> q_evse r -> status_of (w_csm w1) t = status_of (w_csm w) t) /\
  (p = true -> stored (w_csm w1) (q_evse r) = Some (q_op r)).
Proof.
  intros k r p w R G A. unfold handle_scheduled. rewrite G. destruct (entry_target w k r p (proj1 R) G) as (ET&_).
  rewrite seqw_run by (rewrite check_here by exact ET; apply R). rewrite check_here by exact ET. rewrite A.
  destruct (execute_go r p w R ET) as (B1&B2&B3&B4&B5&B6&B7&_). rewrite seqw_run by apply B1.
  set (w1 := execute r p w) in *.
  assert (R2 : ready (set_w_sched (map_erase k (w_sched w1)) w1)).
  { destruct B1 as ((H1&H2&H3)&B). split; [|exact B]. split; [exact H1|]. split; [exact H2|]. apply erase_ok. exact H3. }
  rewrite seqw_run by apply R2. destruct (notify_go _ R2) as (R3&(N1&N2&N3)&N4).
  set (w2 := notify_all_unavailable _) in *. cbn [w_con w_tx w_sched w_csm set_w_sched] in N1, N2, N3, N4. rewrite N1, N2, N3, N4. rewrite B4. ands; auto.
Qed.
Lemma scheduled_ready : forall k w, ready w -> ready (handle_scheduled k w) /\ w_con (handle_scheduled k w) = w_con w.
Proof.
  intros k w R. destruct (map_get k (w_sched w)) as [[r p]|] eqn:G.
  - destruct (affected_active w (q_evse r)) eqn:A.
    + destruct (entry_target w k r p (proj1 R) G) as (ET&_). rewrite (keep_waiting k w r p G ET A). auto.
    + destruct (scheduled_go k r p w R G A) as (B1&B2&_). auto.
  - unfold handle_scheduled. rewrite G. auto.
Qed.
(** Its effect on the status of components of other slots. *)
Lemma scheduled_other : forall k w t, ready w -> k <> target_key t -> status_of (w_csm (handle_scheduled k w)) t = status_of (w_csm w) t.
Proof.
  intros k w t R N. destruct (map_get k (w_sched w)) as [[r p]|] eqn:G.
  - destruct (entry_target w k r p (proj1 R) G) as (ET&K). destruct (affected_active w (q_evse r)) eqn:A.
    + rewrite (keep_waiting k w r p G ET A). reflexivity.
    + destruct (scheduled_go k r p w R G A) as (_&_&_&_&_&B&_). apply B. intros ->. congruence.
  - unfold handle_scheduled. rewrite G. reflexivity.
Qed.
Lemma affected_waits : forall w t, affected_active w t = true <-> waits_for (w_con w) (busy_of w) t.
Proof.
  intros w t. unfold affected_active, waits_for. destruct t as [[e c]|]; [reflexivity|].
  rewrite any_active_busy. unfold any_busy. rewrite existsb_exists. split; intros (e&I&B); exists e; (split; [|exact B]).
  - rewrite <- evses_ids in I. apply in_evses. exact I.
  - rewrite <- evses_ids. apply in_evses. exact I.
Qed.

(** ** A request that waits *)
Definition held (r : areq) (w : world) : Prop :=
  coh w /\ exists_target (w_con w) (q_evse r) /\ map_get (target_key (q_evse r)) (w_sched w) = Some (r, true).
Lemma key_pos : forall con t, exists_target con t -> match t with None => target_key t = 0 | Some (e, _) => target_key t = e /\ known_evse con e end.
Proof. intros con t E. destruct t as [[e [c|]]|]; cbn in *; tauto. Qed.
Lemma stored_keep : forall k w w1 t, (forall c, CsmModel.s_db (w_csm w1) k c = CsmModel.s_db (w_csm w) k c) -> k = target_key t ->
  stored (w_csm w1) t = stored (w_csm w) t.
Proof. intros k w w1 t H ->. rewrite !stored_idx. destruct t as [[e [c|]]|]; cbn; apply H. Qed.
Lemma held_of_keep : forall r w w1, held r w -> keep (target_key (q_evse r)) w w1 -> held r w1 /\ stored (w_csm w1) (q_evse r) = stored (w_csm w) (q_evse r).
Proof.
  intros r w w1 (H&E&G) K. destruct (K H) as (A&B&C&D). split; [|exact (stored_keep _ w w1 _ D eq_refl)].
  split; [exact A|]. split; [rewrite B; exact E|congruence].
Qed.
Lemma step_alive : forall k w, is_restart (c_op k) = false -> c_crash k = None ->
  step w k = exec (c_op k) (set_w_prog Running (set_w_budget (c_crash k) (set_w_fail (c_fail k) w))).
Proof.
  intros k w NR C. apply smooth_alive with (w1 := exec (c_op k) (set_w_prog Running (set_w_budget (c_crash k) (set_w_fail (c_fail k) w)))); [reflexivity|].
  pose proof (exec_effect (c_op k) (set_w_prog Running (set_w_budget (c_crash k) (set_w_fail (c_fail k) w))) NR C eq_refl) as X.
  apply X.
Qed.
Lemma held_step : forall r w k, held r w -> is_restart (c_op k) = false -> c_crash k = None -> ~ replaces (w_con w) (q_evse r) (c_op k) ->
  waits_for (w_con (step w k)) (busy_of (step w k)) (q_evse r) ->
  held r (step w k) /\ stored (w_csm (step w k)) (q_evse r) = stored (w_csm w) (q_evse r).
Proof.
  intros r w k H NR C NP WF. destruct (step_effect k w NR C) as (_&_&_&WC&T).
  rewrite step_alive in * by assumption.
  set (w0 := set_w_prog Running (set_w_budget (c_crash k) (set_w_fail (c_fail k) w))) in *.
  assert (H0 : held r w0) by exact H. change (stored (w_csm w) (q_evse r)) with (stored (w_csm w0) (q_evse r)).
  destruct H0 as (CO&ET&G). pose proof (key_pos _ _ ET) as KP.
  assert (D : spares (target_key (q_evse r)) (w_con w0) (c_op k) \/ exists e reason tr tok cs, c_op k = OFinish e reason tr tok cs).
  { destruct (c_op k); try (left; exact I); try discriminate.
    - right. eauto 10.
    - left. cbn [spares replaces] in NP |- *. intros ET0 X. pose proof (key_pos _ _ ET0) as KQ.
      apply NP. split; [exact ET0|].
      destruct (q_evse r) as [[e c]|], (q_evse r0) as [[e0 c0]|]; cbn [target_key same_slot] in *; auto; unfold known_evse in *; lia.
    - cbn in NP. tauto. }
  destruct D as [D|(e&reason&tr&tok&cs&O)].
  - apply held_of_keep; [split; [exact CO|auto]|]. apply keep_exec; [reflexivity|exact D].
  - rewrite O in *. cbn [exec] in *. rewrite finished_eq in * by reflexivity.
    destruct (known_evseb (w_con w0) e) eqn:KE; [|apply held_of_keep; [split; auto|apply off_keep; apply off_throw]].
    destruct (active w0 e); [|split; [split; auto|reflexivity]].
    apply knownb in KE.
    destruct (q_evse r) as [[f c]|] eqn:Q.
    + destruct KP as (KP&KF). cbn in WF. rewrite T in WF. cbn [track] in WF. change (w_con w) with (w_con w0) in WF.
      rewrite (proj2 (knownb _ _) KE) in WF. unfold update in WF. destruct (f =? e) eqn:FE; [discriminate|]. apply Z.eqb_neq in FE.
      rewrite <- Q in *. apply held_of_keep; [split; auto|]. rewrite Q in KP. rewrite Q.
      match goal with |- keep ?k ?w ((?f ;; ?g) ?w) => apply (keeps_seq k f g) end; [| |reflexivity].
      * apply keeps_seq; [apply keep_ending|apply keep_scheduled; cbn; congruence].
      * apply keep_scheduled. cbn. unfold known_evse in KF. lia.
    +
      set (v := (ending e reason tr tok cs;; handle_scheduled e) w0) in *.
      assert (KV : keep 0 w0 v).
      { unfold v. match goal with |- keep ?k ?w ((?f ;; ?g) ?w) => apply (keeps_seq k f g) end; [apply keep_ending| |reflexivity].
        apply keep_scheduled. unfold known_evse in KE. lia. }
      assert (HV : held r v /\ stored (w_csm v) None = stored (w_csm w0) None).
      { rewrite <- Q. apply held_of_keep; [split; [exact CO|]; rewrite Q; auto|]. rewrite Q. exact KV. }
      cbv zeta in *. destruct (w_prog v) eqn:PV;
        try (rewrite (seqw_stop (ending e reason tr tok cs;; handle_scheduled e)) by (fold v; congruence); exact HV).
      rewrite !(seqw_run (ending e reason tr tok cs;; handle_scheduled e) (handle_scheduled 0) w0 PV). fold v.
      assert (EQ : handle_scheduled 0 v = v).
      { destruct HV as ((C1&E1&G1)&_). apply (keep_waiting 0 v r true); [rewrite Q in G1; exact G1|exact E1|].
        rewrite Q. apply affected_waits.
        assert (BV : w_budget v = None).
        { assert (X : fine w0 v); [|apply X; exact C]. unfold v. unfold ending.
          assert (SQ : forall f g, (forall x, w_prog x = Running -> fine x (f x)) -> (forall x, w_prog x = Running -> fine x (g x)) ->
             forall x, w_prog x = Running -> fine x ((f ;; g) x)).
          { intros f g F1 G2 x PX. unfold seqw. destruct (w_prog (f x)) eqn:QX; try (apply F1; exact PX).
            exact (fine_trans _ _ _ (F1 x PX) (G2 _ QX)). }
          apply SQ; [|intros x PX; apply sched_quiet; exact PX|reflexivity].
          apply SQ; [|intros x PX; apply finish_reset_quiet; exact PX].
          apply SQ; [|intros x PX; apply release_fine; exact PX].
          apply SQ; [|intros x PX; apply send_fine; exact PX].
          apply SQ; [intros x PX; apply set_charging_quiet; exact PX|intros x PX; apply close_quiet; exact PX]. }
        pose proof (calm_sched 0 v PV BV) as CL. destruct CL as (_&_&CC&_&_&_&CB); [congruence|].
        rewrite (seqw_run (ending e reason tr tok cs;; handle_scheduled e) (handle_scheduled 0) w0 PV) in WF. fold v in WF.
        destruct WF as (x&K1&K2). exists x. rewrite CC in K1. rewrite CB in K2. auto. }
      rewrite EQ. exact HV.
Qed.
Lemma waits_ext : forall con f g t, (forall x, f x = g x) -> waits_for con f t -> waits_for con g t.
Proof. intros con f g t E. unfold waits_for. destruct t as [[e c]|]; [rewrite E; auto|]. intros (e&K&B). exists e. rewrite <- E. auto. Qed.
Lemma through_ext : forall h con f g t, (forall x, f x = g x) -> waits_through con f t h -> waits_through con g t h.
Proof.
  induction h as [|k q IH]; intros con f g t E; cbn [waits_through]; [auto|]. intros (A&B).
  pose proof (track_ext con f g (c_op k) E) as E1. split; [eapply waits_ext; eauto|eapply IH; eauto].
Qed.
Lemma held_run : forall h r w, held r w -> no_restarts h -> no_crashes h -> Forall (fun k => ~ replaces (w_con w) (q_evse r) (c_op k)) h ->
  waits_through (w_con w) (busy_of w) (q_evse r) h ->
  held r (run w h) /\ stored (w_csm (run w h)) (q_evse r) = stored (w_csm w) (q_evse r) /\ w_con (run w h) = w_con w.
Proof.
  induction h as [|k q IH]; intros r w H NR NC NP WT; [auto|]. inversion NR; inversion NC; inversion NP; subst.
  cbn [waits_through] in WT. destruct WT as (W1&W2). change (run w (k :: q)) with (run (step w k) q).
  destruct (step_effect k w H2 H6) as (_&_&_&WC&T).
  destruct (held_step r w k H H2 H6 H10) as (A&B); [rewrite WC; eapply waits_ext; [intros x; symmetry; apply T|exact W1]|].
  rewrite <- WC in H11. destruct (IH r (step w k) A H3 H7 H11) as (C&D&E); [rewrite WC; eapply through_ext; [intros x; symmetry; apply T|exact W2]|].
  split; [exact C|]. split; congruence.
Qed.
(** The end of the last transaction it waits for. *)
Lemma held_done : forall r w k, held r w -> is_restart (c_op k) = false -> c_crash k = None -> c_fail k = [] ->
  waits_for (w_con w) (busy_of w) (q_evse r) -> ~ waits_for (w_con w) (busy_of (step w k)) (q_evse r) ->
  status_of (w_csm (step w k)) (q_evse r) = q_op r /\ stored (w_csm (step w k)) (q_evse r) = Some (q_op r) /\
  map_get (target_key (q_evse r)) (w_sched (step w k)) = None.
Proof.
  intros r w k H NR C F W1 W2. destruct (step_effect k w NR C) as (_&_&_&WC&T).
  assert (O : exists e reason tr tok cs, c_op k = OFinish e reason tr tok cs /\ known_evse (w_con w) e /\ busy_of w e = true).
  { destruct (c_op k) eqn:O; try (exfalso; apply W2; eapply waits_ext; [intros x; symmetry; apply T|exact W1]).
    - exfalso. apply W2. cbn [track] in T. destruct (_ && _); [|eapply waits_ext; [intros x; symmetry; apply T|exact W1]].
      unfold waits_for in *. destruct (q_evse r) as [[f c0]|].
      + rewrite T. unfold update. destruct (f =? e); auto.
      + destruct W1 as (f&K&B). exists f. split; [exact K|]. rewrite T. unfold update. destruct (f =? e); auto.
    - cbn [track] in T. destruct (known_evseb (w_con w) e) eqn:KE; [|exfalso; apply W2; eapply waits_ext; [intros x; symmetry; apply T|exact W1]].
      apply knownb in KE. destruct (busy_of w e) eqn:BE; [exists e, reason, tr, tok, cs; auto|].
      exfalso. apply W2. apply (waits_ext _ (busy_of w)); [|exact W1]. intros x. rewrite T. unfold update.
      destruct (x =? e) eqn:Q; [apply Z.eqb_eq in Q; congruence|reflexivity]. }
  destruct O as (e&reason&tr&tok&cs&O&KE&BE). rewrite step_alive in * by assumption.
  set (w0 := set_w_prog Running (set_w_budget (c_crash k) (set_w_fail (c_fail k) w))) in *.
  assert (R0 : ready w0) by (split; [apply H|]; cbn; auto).
  rewrite O in *. cbn [exec] in *. pose proof (finished_effect e reason tr tok cs w0 C eq_refl) as FE.
  rewrite finished_eq in * by reflexivity. change (w_con w) with (w_con w0) in *.
  rewrite (proj2 (knownb _ _) KE) in *. assert (AC : active w0 e = true) by exact BE. rewrite AC in *.
  destruct (ready_ending e reason tr tok cs w0 R0 KE) as (R1&C1&S1). cbv zeta in *.
  rewrite <- seq_assoc in *. rewrite seqw_run in * by apply R1. set (v := ending e reason tr tok cs w0) in *.
  destruct (scheduled_ready e v R1) as (R2&C2). rewrite seqw_run in * by apply R2.
  set (x := handle_scheduled e v) in *. destruct (scheduled_ready 0 x R2) as (R3&C3).
  destruct H as (CO&ET&G). change (w_sched w) with (w_sched w0) in G. pose proof (key_pos _ _ ET) as KP.
  (* busy after each part *)
  assert (BX : forall f, busy_of (handle_scheduled 0 x) f = busy_of x f).
  { destruct (calm_sched 0 x (proj2 (proj2 (proj2 R2))) (proj1 (proj2 R2))) as (_&_&_&_&_&_&Q); [destruct R2 as (_&_&_&P2); congruence|exact Q]. }
  assert (BV : forall f, busy_of x f = busy_of v f).
  { destruct (calm_sched e v (proj2 (proj2 (proj2 R1))) (proj1 (proj2 R1))) as (_&_&_&_&_&_&Q); [destruct R1 as (_&_&_&P2); congruence|exact Q]. }
  destruct (q_evse r) as [[f c]|] eqn:Q.
  - destruct KP as (KP&KF). cbn in KP.
    assert (f = e).
    { destruct (Z.eq_dec f e) as [|N]; [assumption|]. exfalso. apply W2. cbn. rewrite T. cbn [track]. change (w_con w) with (w_con w0).
      rewrite (proj2 (knownb _ _) KE). unfold update. apply Z.eqb_neq in N. rewrite N. exact W1. }
    subst f. cbn [target_key] in *.
    assert (AV : affected_active v (q_evse r) = false).
    { rewrite Q. cbn. assert (X : busy_of v e = false); [|exact X]. rewrite <- BV, <- BX.
      destruct (busy_of (handle_scheduled 0 x) e) eqn:Z1; [exfalso; apply W2; exact Z1|reflexivity]. }
    assert (GV : map_get e (w_sched v) = Some (r, true)) by (rewrite S1; exact G).
    destruct (scheduled_go e r true v R1 GV AV) as (_&_&_&X4&X5&_&X7). fold x in X4, X5, X7. rewrite Q in X5, X7.
    assert (N0 : e <> 0) by (unfold known_evse in KE; lia).
    ands.
    + rewrite scheduled_other; [exact X5|exact R2|cbn; congruence].
    + rewrite <- (X7 eq_refl). eapply stored_keep; [|reflexivity]. cbn [target_key].
      apply (keep_scheduled e 0 N0 x (proj2 (proj2 (proj2 R2))) (proj1 R2)).
    + destruct (keep_scheduled e 0 N0 x (proj2 (proj2 (proj2 R2))) (proj1 R2)) as (_&_&Y&_). rewrite Y, X4, get_erase, Z.eqb_refl. reflexivity.
  - cbn [target_key] in *. assert (N0 : 0 <> e) by (unfold known_evse in KE; lia).
    destruct (keep_scheduled 0 e N0 v (proj2 (proj2 (proj2 R1))) (proj1 R1)) as (_&_&Y&_). fold x in Y.
    assert (GX : map_get 0 (w_sched x) = Some (r, true)) by (rewrite Y, S1; exact G).
    assert (AX : affected_active x (q_evse r) = false).
    { rewrite Q. destruct (affected_active x None) eqn:Z1; [|reflexivity]. exfalso. apply W2. apply affected_waits in Z1.
      rewrite C2, C1 in Z1. eapply waits_ext; [|exact Z1]. intros y. symmetry. apply BX. }
    destruct (scheduled_go 0 r true x R2 GX AX) as (_&_&_&X4&X5&_&X7). rewrite Q in X5, X7.
    ands; [exact X5|exact (X7 eq_refl)|]. rewrite X4, get_erase, Z.eqb_refl. reflexivity.
Qed.

(** ** Answers *)
Lemma valid_request : forall r w, ready w -> exists_target (w_con w) (q_evse r) ->
  handle_change_availability r w = change_availability_valid r w.
Proof.
  intros r w R ET. unfold handle_change_availability. destruct (q_evse r) as [[e c]|] eqn:Q; [|reflexivity].
  assert (K : known_evse (w_con w) e) by (destruct c; cbn in ET; tauto).
  destruct R as ((H1&(U&NE&NC)&_)&_&_&P).
  assert (OK : evse_ok w e = true) by (rewrite evse_ok_known; apply knownb; exact K). rewrite OK.
  assert (V : is_valid_evse w e c = true).
  { unfold is_valid_evse. apply andb_true_iff. split.
    - unfold does_evse_exist, nev. apply andb_true_iff. unfold known_evse in K. rewrite !Z.leb_le. lia.
    - destruct c as [c|]; [|reflexivity]. cbn in ET. destruct ET as (_&KC). unfold known_connector in KC. unfold u32.
      apply Z.leb_le. pose proof (Z.mod_le c 4294967296). unfold ncon. lia. }
  rewrite V. replace (match c with Some _ => negb true | None => false end) with false by (destruct c; reflexivity).
  rewrite andb_false_r. cbn [negb].
  rewrite seqw_run by (rewrite (check_here (Some (e, c)) w) by exact ET; exact P). rewrite (check_here (Some (e, c)) w) by exact ET.
  assert (CS : check_state (Some (e, c)) w = w).
  { unfold check_state. destruct c as [c|].
    - replace (CsmModel.check_conn (w_csm w) e c) with CsmModel.Ok; [reflexivity|].
      symmetry. apply CsmProofs2.check_conn_ok. unfold CsmSpec.has_conn, CsmSpec.has_evse. rewrite NE, (NC e K). split; [exact K|apply ET].
    - replace (CsmModel.check_evse (w_csm w) e) with true; [reflexivity|].
      symmetry. apply CsmProofs2.check_evse_iff. unfold CsmSpec.has_evse. rewrite NE. exact K. }
  rewrite seqw_run by (rewrite CS; exact P). rewrite CS. reflexivity.
Qed.

(** The three outcomes of a request for a component that exists. *)
Definition at_once (w : world) (r : areq) : bool :=
  negb (affected_active w (q_evse r)) || in_state w r || ((target_key (q_evse r) =? 0) && is_operative (q_op r)).
Definition slot_set (w : world) (r : areq) : world :=
  set_w_sched (if at_once w r then map_erase (target_key (q_evse r)) (w_sched w)
               else map_put (target_key (q_evse r)) (r, true) (w_sched w)) w.
Lemma slot_ready : forall r w, ready w -> exists_target (w_con w) (q_evse r) -> ready (slot_set w r).
Proof.
  intros r w ((H1&H2&H3)&B) ET. split; [|exact B]. split; [exact H1|]. split; [exact H2|]. cbn.
  destruct (at_once w r); [apply erase_ok; exact H3|]. apply put_ok; [exact H3|]. split; [exact ET|reflexivity].
Qed.
Lemma request_start : forall r w, ready w -> exists_target (w_con w) (q_evse r) ->
  let w1 := emit (OAvResp (if at_once w r then Accepted else Scheduled)) (slot_set w r) in
  ready w1 /\ w_con w1 = w_con w /\ w_tx w1 = w_tx w /\ w_csm w1 = w_csm w /\ w_sched w1 = w_sched (slot_set w r) /\
  vis [OAvResp (if at_once w r then Accepted else Scheduled)] w w1 /\
  change_availability_valid r w =
   (if negb (affected_active w (q_evse r)) then execute r true w1
      else if at_once w r then w1
      else if target_key (q_evse r) =? 0 then
        foreach (evses w1) (fun e w => if active w e then w else set_evse_operative e Inoperative false w) w1
      else
        (get_evse (target_key (q_evse r)) ;;
         (fun w => foreach (CsmModel.ids (ncon w (target_key (q_evse r))))
                     (fun c w => if active_on w (target_key (q_evse r)) c then w
                                 else set_conn_operative (target_key (q_evse r)) c Inoperative false w) w)) w1).
Proof.
  intros r w R ET. pose proof (slot_ready r w R ET) as R1. cbv zeta.
  destruct (ready_emit (OAvResp (if at_once w r then Accepted else Scheduled)) (slot_set w r) R1) as (R2&(O1&O2&O3)&O4).
  ands; auto.
  - rewrite emit_alive by apply R1. exists [OAvResp (if at_once w r then Accepted else Scheduled)]. split; reflexivity.
  - unfold change_availability_valid. cbv zeta. fold (at_once w r). fold (slot_set w r).
    rewrite seqw_run by apply R. fold (slot_set w r). rewrite seqw_run by apply R2. reflexivity.
Qed.
Lemma vis_eq : forall o w w1, vis o w w1 -> visible (added w w1) = o.
Proof. intros o w w1 (l&L&V). exact (added_vis _ _ _ _ L V). Qed.
Lemma avail_step : forall r w k, coh w -> c_op k = OAvail r -> c_fail k = [] -> c_crash k = None -> exists_target (w_con w) (q_evse r) ->
  let w0 := set_w_prog Running (set_w_budget (c_crash k) (set_w_fail (c_fail k) w)) in
  ready w0 /\ step w k = change_availability_valid r w0.
Proof.
  intros r w k H O F C ET w0. assert (R : ready w0) by (split; [exact H|]; cbn; auto). split; [exact R|].
  rewrite step_alive by (rewrite ?O; auto). fold w0. rewrite O. cbn [exec]. apply valid_request; assumption.
Qed.
(** Executed at once. *)
Lemma request_now : forall r w k, coh w -> c_op k = OAvail r -> c_fail k = [] -> c_crash k = None -> exists_target (w_con w) (q_evse r) ->
  ~ waits_for (w_con w) (busy_of w) (q_evse r) ->
  visible (added w (step w k)) = [OAvResp Accepted] /\
  status_of (w_csm (step w k)) (q_evse r) = q_op r /\ stored (w_csm (step w k)) (q_evse r) = Some (q_op r) /\
  map_get (target_key (q_evse r)) (w_sched (step w k)) = None /\
  (forall t, t <> q_evse r -> status_of (w_csm (step w k)) t = status_of (w_csm w) t).
Proof.
  intros r w k H O F C ET NW. destruct (avail_step r w k H O F C ET) as (R&->).
  set (w0 := set_w_prog Running (set_w_budget (c_crash k) (set_w_fail (c_fail k) w))) in *.
  assert (A : affected_active w0 (q_evse r) = false) by (apply not_true_is_false; rewrite affected_waits; exact NW).
  destruct (request_start r w0 R ET) as (R1&C1&T1&S1&D1&V1&->).
  assert (AO : at_once w0 r = true) by (unfold at_once; rewrite A; reflexivity). rewrite AO in *. rewrite A. cbn [negb].
  set (w1 := emit _ _) in *. destruct (execute_go r true w1 R1) as (R2&C2&T2&D2&X1&X2&X3&X4); [rewrite C1; exact ET|].
  ands; auto.
  - exact (vis_eq _ w0 _ (vis_trans _ _ _ [] _ V1 X4)).
  - rewrite D2, D1. unfold slot_set. rewrite AO. cbn [w_sched set_w_sched]. rewrite get_erase, Z.eqb_refl. reflexivity.
  - intros t N. rewrite X2 by exact N. rewrite S1. reflexivity.
Qed.
(** Nothing to do: the component has that status already. *)
Lemma request_same : forall r w k, coh w -> c_op k = OAvail r -> c_fail k = [] -> c_crash k = None -> exists_target (w_con w) (q_evse r) ->
  waits_for (w_con w) (busy_of w) (q_evse r) -> status_of (w_csm w) (q_evse r) = q_op r ->
  visible (added w (step w k)) = [OAvResp Accepted] /\ w_csm (step w k) = w_csm w /\
  map_get (target_key (q_evse r)) (w_sched (step w k)) = None.
Proof.
  intros r w k H O F C ET WF ST. destruct (avail_step r w k H O F C ET) as (R&->).
  set (w0 := set_w_prog Running (set_w_budget (c_crash k) (set_w_fail (c_fail k) w))) in *.
  assert (A : affected_active w0 (q_evse r) = true) by (apply affected_waits; exact WF).
  destruct (request_start r w0 R ET) as (R1&C1&T1&S1&D1&V1&->).
  assert (AO : at_once w0 r = true).
  { unfold at_once, in_state. change (w_csm w0) with (w_csm w). rewrite A. cbn [negb orb].
    change (match q_evse r with None => CsmModel.s_cs (w_csm w) | Some (e, None) => CsmModel.s_ev (w_csm w) e
            | Some (e, Some c) => CsmModel.c_op (CsmModel.s_con (w_csm w) e c) end) with (status_of (w_csm w) (q_evse r)).
    rewrite ST. destruct (q_op r); reflexivity. }
  rewrite AO in *. rewrite A. cbn [negb]. ands; auto.
  - exact (vis_eq _ w0 _ V1).
  - rewrite D1. unfold slot_set. rewrite AO. cbn [w_sched set_w_sched]. rewrite get_erase, Z.eqb_refl. reflexivity.
Qed.
Lemma vis_set_evse : forall e s p w, w_prog w = Running -> vis [] w (set_evse_operative e s p w).
Proof.
  intros e s p w P. unfold set_evse_operative. apply vis_seq; [exact P|intros; apply vis_get|].
  intros v _. destruct (pop_fail v) as [f v1] eqn:E. destruct (pop_fail v1) as [f2 v2] eqn:E2. apply pop_out in E, E2.
  exact (vis_from _ _ v2 _ (eq_trans E2 E) (vis_csm _ _)).
Qed.
(** Put off. *)
Lemma request_later : forall r w k, coh w -> c_op k = OAvail r -> c_fail k = [] -> c_crash k = None -> exists_target (w_con w) (q_evse r) ->
  waits_for (w_con w) (busy_of w) (q_evse r) -> status_of (w_csm w) (q_evse r) <> q_op r -> (q_evse r = None -> q_op r = Inoperative) ->
  visible (added w (step w k)) = [OAvResp Scheduled] /\ held r (step w k) /\
  stored (w_csm (step w k)) (q_evse r) = stored (w_csm w) (q_evse r).
Proof.
  intros r w k H O F C ET WF ST NO. destruct (avail_step r w k H O F C ET) as (R&->).
  set (w0 := set_w_prog Running (set_w_budget (c_crash k) (set_w_fail (c_fail k) w))) in *.
  assert (A : affected_active w0 (q_evse r) = true) by (apply affected_waits; exact WF).
  destruct (request_start r w0 R ET) as (R1&C1&T1&S1&D1&V1&->).
  pose proof (key_pos _ _ ET) as KP.
  assert (AO : at_once w0 r = false).
  { unfold at_once, in_state. change (w_csm w0) with (w_csm w). rewrite A. cbn [negb orb].
    change (match q_evse r with None => CsmModel.s_cs (w_csm w) | Some (e, None) => CsmModel.s_ev (w_csm w) e
            | Some (e, Some c) => CsmModel.c_op (CsmModel.s_con (w_csm w) e c) end) with (status_of (w_csm w) (q_evse r)).
    apply orb_false_iff. split.
    - destruct (q_op r), (status_of (w_csm w) (q_evse r)); cbn in *; congruence.
    - destruct (q_evse r) as [[e c]|]; [|rewrite (NO eq_refl); reflexivity].
      apply andb_false_iff. left. apply Z.eqb_neq. cbn in *. unfold known_evse in KP. lia. }
  rewrite AO in *. rewrite A. cbn [negb]. set (w1 := emit _ _) in *.
  assert (H1 : held r w1).
  { split; [apply R1|]. split; [rewrite C1; exact ET|]. rewrite D1. unfold slot_set. rewrite AO. cbn [w_sched set_w_sched].
    rewrite get_put, Z.eqb_refl. reflexivity. }
  match goal with |- visible (added w ?x) = _ /\ _ => set (w2 := x) end.
  assert (K : keep (target_key (q_evse r)) w1 w2 /\ vis [] w1 w2).
  { unfold w2. assert (P1 : w_prog w1 = Running) by apply R1. destruct (_ =? 0); split.
    - match goal with |- keep ?k ?v (foreach ?l ?f ?v) => apply (keeps_foreach k _ l f); [|exact P1] end.
      intros e _ x PX. destruct (active x e); [apply keep_refl|]. apply keep_set_evse; [discriminate|exact PX].
    - apply vis_foreach; [exact P1|]. intros e x PX. destruct (active x e); [apply vis_refl|]. apply vis_set_evse. exact PX.
    - kseq; [intros x _; apply off_keep; apply off_get|]. intros x PX.
      match goal with |- keep ?k x (foreach ?l ?f x) => apply (keeps_foreach k _ l f); [|exact PX] end.
      intros c _ y PY. destruct (active_on y _ c); [apply keep_refl|]. apply keep_set_conn; [discriminate|exact PY].
    - apply vis_seq; [exact P1|intros; apply vis_get|]. intros x PX. apply vis_foreach; [exact PX|].
      intros c y PY. destruct (active_on y _ c); [apply vis_refl|]. apply vis_set_conn. exact PY. }
  destruct K as (K1&K2). destruct (held_of_keep _ _ _ H1 K1) as (A1&A2). ands; auto.
  - exact (vis_eq _ w0 _ (vis_trans _ _ _ [] _ V1 K2)).
  - rewrite A2, S1. reflexivity.
Qed.

(** Requests for components that do not exist. *)
Lemma request_unknown : forall r w k, coh w -> c_op k = OAvail r -> c_crash k = None -> ~ exists_target (w_con w) (q_evse r) ->
  w_csm (step w k) = w_csm w /\ w_sched (step w k) = w_sched w /\
  (visible (added w (step w k)) = [] \/ visible (added w (step w k)) = [OAvResp Rejected]).
Proof.
  intros r w k H O C NE. rewrite step_alive by (rewrite ?O; auto). rewrite O. cbn [exec].
  set (w0 := set_w_prog Running (set_w_budget (c_crash k) (set_w_fail (c_fail k) w))).
  change (w_csm w) with (w_csm w0). change (w_sched w) with (w_sched w0). change (added w) with (added w0).
  assert (TH : visible (added w0 (throw w0)) = []) by (apply vis_eq; exists []; cbn; rewrite app_nil_r; split; reflexivity).
  unfold handle_change_availability. destruct (q_evse r) as [[e c]|] eqn:Q; [|exfalso; apply NE; exact I].
  destruct (_ && _); [ands; auto|]. destruct (negb _).
  - rewrite emit_alive by exact C. ands; auto. right. apply vis_eq. exists [OAvResp Rejected]. split; reflexivity.
  - rewrite seq_assoc. assert (P0 : w_prog w0 = Running) by reflexivity. pose proof (coh_checks w0 e c H P0) as CC.
    set (f := check_target (Some (e, c)) ;; check_state (Some (e, c))) in *.
    assert (NR : w_prog (f w0) <> Running) by (intros X; destruct (CC X) as (Y&_); apply NE; exact Y).
    rewrite seqw_stop by exact NR.
    assert (G : f w0 = throw w0 \/ f w0 = w0).
    { unfold f. unfold seqw, check_target, get_evse. destruct (evse_ok w0 e); [|left; reflexivity]. rewrite P0. unfold check_state.
      destruct c as [c|]; [destruct (CsmModel.check_conn _ _ _)|destruct (CsmModel.check_evse _ _)]; auto. }
    destruct G as [-> | ->]; ands; auto; left; apply vis_eq; apply vis_refl.
Qed.

(** What happens to the other components while a request waits. *)
Lemma idle_evses_go : forall l w, ready w -> (forall e, In e l -> known_evse (w_con w) e) ->
  let w1 := foreach l (fun e w => if active w e then w else set_evse_operative e Inoperative false w) w in
  ready w1 /\ w_con w1 = w_con w /\ w_tx w1 = w_tx w /\
  (forall e, In e l -> busy_of w e = false -> status_of (w_csm w1) (Some (e, None)) = Inoperative) /\
  (forall t, (forall e, In e l -> busy_of w e = false -> t <> Some (e, None)) -> status_of (w_csm w1) t = status_of (w_csm w) t).
Proof.
  induction l as [|e q IH]; intros w R K; [cbn; ands; auto; intros; contradiction|]. cbv zeta. cbn [foreach].
  set (v := if active w e then w else set_evse_operative e Inoperative false w).
  assert (X : ready v /\ w_con v = w_con w /\ w_tx v = w_tx w /\
     (busy_of w e = false -> status_of (w_csm v) (Some (e, None)) = Inoperative) /\
     (forall t, (busy_of w e = false -> t <> Some (e, None)) -> status_of (w_csm v) t = status_of (w_csm w) t)).
  { unfold v. change (active w e) with (busy_of w e). destruct (busy_of w e) eqn:B; [ands; auto; discriminate|].
    destruct (set_evse_go e Inoperative false w R (K e (or_introl eq_refl))) as (X1&X2&X3&_&X5&X6&_). ands; auto. }
  destruct X as (X1&X2&X3&X4&X5). rewrite seqw_run by apply X1. cbv beta. fold v.
  destruct (IH v X1) as (Y1&Y2&Y3&Y4&Y5). { intros f I. rewrite X2. apply K. right. exact I. }
  assert (BE : forall f, busy_of v f = busy_of w f) by (intros f; unfold busy_of; rewrite X3; reflexivity).
  ands; auto; try congruence.
  - intros f I B. destruct (in_dec Z.eq_dec f q) as [J|J]; [apply Y4; [exact J|rewrite BE; exact B]|].
    destruct I as [-> |I]; [|contradiction]. rewrite Y5; [apply X4; exact B|]. intros g J1 _ E. inversion E; subst. contradiction.
  - intros t N. rewrite Y5 by (intros f J B; apply N; [right; exact J|rewrite <- BE; exact B]).
    apply X5. intros B. apply N; [left; reflexivity|exact B].
Qed.
Lemma idle_connectors_go : forall e l w, ready w -> known_evse (w_con w) e -> (forall c, In c l -> known_connector (w_con w) e c) ->
  let w1 := foreach l (fun c w => if active_on w e c then w else set_conn_operative e c Inoperative false w) w in
  ready w1 /\ w_con w1 = w_con w /\ w_tx w1 = w_tx w /\
  (forall c, In c l -> active_on w e c = false -> status_of (w_csm w1) (Some (e, Some c)) = Inoperative) /\
  (forall t, (forall c, In c l -> active_on w e c = false -> t <> Some (e, Some c)) -> status_of (w_csm w1) t = status_of (w_csm w) t).
Proof.
  induction l as [|c q IH]; intros w R K KC; [cbn; ands; auto; intros; contradiction|]. cbv zeta. cbn [foreach].
  set (v := if active_on w e c then w else set_conn_operative e c Inoperative false w).
  assert (X : ready v /\ w_con v = w_con w /\ w_tx v = w_tx w /\
     (active_on w e c = false -> status_of (w_csm v) (Some (e, Some c)) = Inoperative) /\
     (forall t, (active_on w e c = false -> t <> Some (e, Some c)) -> status_of (w_csm v) t = status_of (w_csm w) t)).
  { unfold v. destruct (active_on w e c) eqn:B; [ands; auto; discriminate|].
    destruct (set_conn_go e c Inoperative false w R K (KC c (or_introl eq_refl))) as (X1&X2&X3&_&X5&X6&_). ands; auto. }
  destruct X as (X1&X2&X3&X4&X5). rewrite seqw_run by apply X1. cbv beta. fold v.
  destruct (IH v X1) as (Y1&Y2&Y3&Y4&Y5). { rewrite X2. exact K. } { intros f I. rewrite X2. apply KC. right. exact I. }
  assert (BE : forall f, active_on v e f = active_on w e f) by (intros f; unfold active_on, has_connector, ncon; rewrite X3, X2; reflexivity).
  ands; auto; try congruence.
  - intros f I B. destruct (in_dec Z.eq_dec f q) as [J|J]; [apply Y4; [exact J|rewrite BE; exact B]|].
    destruct I as [-> |I]; [|contradiction]. rewrite Y5; [apply X4; exact B|]. intros g J1 _ E. inversion E; subst. contradiction.
  - intros t N. rewrite Y5 by (intros f J B; apply N; [right; exact J|rewrite <- BE; exact B]).
    apply X5. intros B. apply N; [left; reflexivity|exact B].
Qed.
Lemma active_uses : forall w e c, known_connector (w_con w) e c -> (active_on w e c = true <-> uses w e c).
Proof.
  intros w e c K. unfold active_on, uses. rewrite has_connector_known.
  assert (KB : known_connectorb (w_con w) e c = true) by (unfold known_connectorb, known_connector in *; rewrite andb_true_iff, !Z.leb_le; exact K).
  rewrite KB. destruct (w_tx w e) as [t|]; [|split; [discriminate|intros (t&E&_); discriminate]].
  rewrite Z.eqb_eq. split; [intros E; exists t; auto|intros (t1&E&F); injection E as E; rewrite E; exact F].
Qed.
Lemma request_others : forall r w k, coh w -> c_op k = OAvail r -> c_fail k = [] -> c_crash k = None -> exists_target (w_con w) (q_evse r) ->
  waits_for (w_con w) (busy_of w) (q_evse r) -> status_of (w_csm w) (q_evse r) <> q_op r -> (q_evse r = None -> q_op r = Inoperative) ->
  (forall t, put_out w (q_evse r) t -> status_of (w_csm (step w k)) t = Inoperative) /\
  (forall t, ~ put_out w (q_evse r) t -> status_of (w_csm (step w k)) t = status_of (w_csm w) t).
Proof.
  intros r w k H O F C ET WF ST NO. destruct (avail_step r w k H O F C ET) as (R&->).
  set (w0 := set_w_prog Running (set_w_budget (c_crash k) (set_w_fail (c_fail k) w))) in *.
  assert (A : affected_active w0 (q_evse r) = true) by (apply affected_waits; exact WF).
  destruct (request_start r w0 R ET) as (R1&C1&T1&S1&D1&V1&->).
  pose proof (key_pos _ _ ET) as KP.
  assert (AO : at_once w0 r = false).
  { unfold at_once, in_state. change (w_csm w0) with (w_csm w). rewrite A. cbn [negb orb].
    change (match q_evse r with None => CsmModel.s_cs (w_csm w) | Some (e, None) => CsmModel.s_ev (w_csm w) e
            | Some (e, Some c) => CsmModel.c_op (CsmModel.s_con (w_csm w) e c) end) with (status_of (w_csm w) (q_evse r)).
    apply orb_false_iff. split.
    - destruct (q_op r), (status_of (w_csm w) (q_evse r)); cbn in *; congruence.
    - destruct (q_evse r) as [[e c]|]; [|rewrite (NO eq_refl); reflexivity].
      apply andb_false_iff. left. apply Z.eqb_neq. cbn in *. unfold known_evse in KP. lia. }
  rewrite AO in *. rewrite A. cbn [negb]. set (w1 := emit _ _) in *.
  assert (BE : forall f, busy_of w1 f = busy_of w f) by (intros f; unfold busy_of; rewrite T1; reflexivity).
  assert (AE : forall e f, active_on w1 e f = active_on w e f) by (intros e f; unfold active_on, has_connector, ncon; rewrite T1, C1; reflexivity).
  change (w_csm w) with (w_csm w0). rewrite <- S1.
  destruct (q_evse r) as [[e cc]|] eqn:Q; cbn [target_key] in *.
  - destruct KP as (_&KE). destruct (e =? 0) eqn:E0; [apply Z.eqb_eq in E0; unfold known_evse in KE; lia|].
    assert (K1 : known_evse (w_con w1) e) by (rewrite C1; exact KE).
    assert (GE : get_evse e w1 = w1) by (exact (check_here (Some (e, None)) w1 K1)).
    rewrite seqw_run by (rewrite GE; apply R1). rewrite GE.
    destruct (idle_connectors_go e (CsmModel.ids (ncon w1 e)) w1 R1 K1 (fun c I => in_connectors _ _ _ I)) as (_&_&_&Y4&Y5).
    split; intros t P.
    + destruct P as (c&KC&NU&->). apply Y4.
      * apply CsmProofs.in_ids. unfold ncon. rewrite C1. exact KC.
      * apply not_true_is_false. rewrite AE, active_uses by exact KC. exact NU.
    + apply Y5. intros c I B E. apply P. exists c. subst t. ands; auto.
      * apply CsmProofs.in_ids in I. unfold ncon in I. rewrite C1 in I. exact I.
      * apply CsmProofs.in_ids in I. unfold ncon in I. rewrite C1 in I. rewrite <- active_uses by exact I. rewrite <- AE, B. discriminate.
  - cbn [Z.eqb]. destruct (idle_evses_go (evses w1) w1 R1) as (_&_&_&Y4&Y5); [intros e I; apply in_evses; exact I|].
    split; intros t P.
    + destruct P as (e&KE&NB&->). apply Y4; [apply in_evses; rewrite C1; exact KE|]. rewrite BE. exact NB.
    + apply Y5. intros e I B E. apply P. exists e. subst t. ands; auto; [apply in_evses in I; rewrite C1 in I; exact I|rewrite <- BE; exact B].
Qed.

Lemma busy_ext : forall h con f g, (forall x, f x = g x) -> forall x, busy_after con f h x = busy_after con g h x.
Proof.
  induction h as [|k q IH]; intros con f g E x; [apply E|]. cbn. apply (IH con). apply track_ext. exact E.
Qed.
Lemma busy_run : forall h w, no_restarts h -> no_crashes h -> forall x, busy_of (run w h) x = busy_after (w_con w) (busy_of w) h x.
Proof.
  induction h as [|k q IH]; intros w NR NC x; [reflexivity|]. inversion NR; inversion NC; subst.
  destruct (step_effect k w H1 H5) as (_&_&_&WC&T). change (run w (k :: q)) with (run (step w k) q).
  rewrite (IH (step w k) H2 H6), WC. apply (busy_ext q (w_con w)). exact T.
Qed.
Lemma waits_last : forall h con busy t, waits_for con busy t -> waits_through con busy t h -> waits_for con (busy_after con busy h) t.
Proof.
  induction h as [|k q IH]; intros con busy t W H; [exact W|]. destruct H as (H1&H2). exact (IH _ _ _ H1 H2).
Qed.
Lemma request_history : forall r w k0 h k, coh w -> c_op k0 = OAvail r -> c_fail k0 = [] -> c_crash k0 = None ->
  exists_target (w_con w) (q_evse r) -> waits_for (w_con w) (busy_of w) (q_evse r) -> status_of (w_csm w) (q_evse r) <> q_op r ->
  (q_evse r = None -> q_op r = Inoperative) ->
  no_restarts h -> no_crashes h -> Forall (fun k => ~ replaces (w_con w) (q_evse r) (c_op k)) h ->
  waits_through (w_con w) (busy_of w) (q_evse r) h ->
  is_restart (c_op k) = false -> c_crash k = None -> c_fail k = [] ->
  ~ waits_for (w_con w) (track (w_con w) (busy_after (w_con w) (busy_of w) h) (c_op k)) (q_evse r) ->
  stored (w_csm (run (step w k0) h)) (q_evse r) = stored (w_csm w) (q_evse r) /\
  let w2 := step (run (step w k0) h) k in
  status_of (w_csm w2) (q_evse r) = q_op r /\ stored (w_csm w2) (q_evse r) = Some (q_op r).
Proof.
  intros r w k0 h k H O F C ET WF ST NO NR NC NP WT KR KC KF ND.
  destruct (request_later r w k0 H O F C ET WF ST NO) as (_&HD&SD).
  assert (R0 : is_restart (c_op k0) = false) by (rewrite O; reflexivity).
  destruct (step_effect k0 w R0 C) as (_&_&_&WC&T). rewrite O in T. cbn [track] in T.
  destruct (held_run h r (step w k0) HD NR NC) as (H1&S1&C1).
  - rewrite WC. exact NP.
  - rewrite WC. eapply through_ext; [intros x; symmetry; apply T|exact WT].
  - split; [congruence|]. cbv zeta.
    assert (B1 : forall x, busy_of (run (step w k0) h) x = busy_after (w_con w) (busy_of w) h x).
    { intros x. rewrite busy_run by assumption. rewrite WC. apply busy_ext. exact T. }
    destruct (held_done r (run (step w k0) h) k H1 KR KC KF) as (A1&A2&_).
    + rewrite C1, WC. eapply waits_ext; [intros x; symmetry; apply B1|]. apply waits_last; assumption.
    + rewrite C1, WC. intros X. apply ND. destruct (step_effect k (run (step w k0) h) KR KC) as (_&_&_&_&T2).
      rewrite C1, WC in T2. eapply waits_ext; [|exact X]. intros x. rewrite T2. apply track_ext. exact B1.
    + split; assumption.
Qed.
