(** An EVSE that waits for the end of its transaction to become inoperative. *)
From Coq Require Import ZArith List Bool Lia.
From Verif Require Import TxModel TxSpec TxProofs TxProofs2 TxProofs4 TxProofs5 TxProofs6 TxProofs7 TxProofs8 FwModel FwSpec FwProofs.
From Verif Require CsmModel.
Import ListNotations.
Local Open Scope Z_scope.
Import CsmModel (Operative, Inoperative).

Definition awaiting (e : Z) (w : world) : Prop :=
  coh w /\ known_evse (w_con w) e /\ busy_of w e = true /\ map_get e (w_sched w) = Some (Areq (Some (e, None)) Inoperative, false).
Lemma awaiting_prepared : forall e w w1, known_evse (w_con w) e -> busy_of w e = true -> prepared w w1 ->
  awaiting e w1 /\ w_con w1 = w_con w.
Proof.
  intros e w w1 K B (P1&P2&P3&P4&P5&P6&_). split; [|exact P2]. split; [apply P1|]. rewrite P2. split; [exact K|].
  split; [unfold busy_of in *; rewrite P3; exact B|]. apply P6; assumption.
Qed.
Lemma awaiting_keep : forall e w w1, awaiting e w -> keep e w w1 -> busy_of w1 e = true -> awaiting e w1 /\ w_con w1 = w_con w.
Proof.
  intros e w w1 (A&B&C&D) K B1. destruct (K A) as (K1&K2&K3&_). split; [|exact K2]. split; [exact K1|]. rewrite K2, K3. auto.
Qed.
Lemma awaiting_step : forall e w k, awaiting e w -> is_restart (c_op k) = false -> c_crash k = None ->
  ~ replaces (w_con w) (Some (e, None)) (c_op k) -> (forall a b c d, c_op k <> OFinish e a b c d) ->
  awaiting e (step w k) /\ w_con (step w k) = w_con w.
Proof.
  intros e w k H NR C NP NF. destruct (step_effect k w NR C) as (_&_&_&WC&T).
  assert (BE : busy_of (step w k) e = true).
  { rewrite T. destruct H as (_&_&B&_). destruct (c_op k); cbn [track]; auto.
    - destruct (_ && _); [|exact B]. unfold update. destruct (e =? _); auto.
    - destruct (known_evseb _ _); [|exact B]. unfold update. destruct (e =? _) eqn:Q; [|exact B]. apply Z.eqb_eq in Q. subst. exfalso. eapply NF. reflexivity. }
  rewrite step_alive in * by assumption.
  set (w0 := set_w_prog Running (set_w_budget (c_crash k) (set_w_fail (c_fail k) w))) in *.
  assert (H0 : awaiting e w0) by exact H. change (w_con w) with (w_con w0) in *.
  apply awaiting_keep; [exact H0| |exact BE].
  assert (KE : known_evse (w_con w0) e) by apply H0.
  assert (D : spares e (w_con w0) (c_op k) \/ exists f reason tr tok cs, c_op k = OFinish f reason tr tok cs).
  { destruct (c_op k); try (left; exact I); try discriminate.
    - right. eauto 10.
    - left. cbn [spares replaces] in NP |- *. intros ET0 X. pose proof (key_pos _ _ ET0) as KQ.
      apply NP. split; [exact ET0|].
      destruct (q_evse r) as [[e0 c0]|]; cbn [target_key same_slot] in *; auto; unfold known_evse in *; lia.
    - cbn in NP. tauto. }
  destruct D as [D|(f&reason&tr&tok&cs&O)]; [apply keep_exec; [reflexivity|exact D]|].
  rewrite O in *. cbn [exec] in *. rewrite finished_eq in * by reflexivity.
  destruct (known_evseb (w_con w0) f) eqn:KF; [|apply off_keep; apply off_throw].
  destruct (active w0 f); [|intros X; auto].
  assert (FE : f <> e) by (intros ->; eapply NF; reflexivity).
  match goal with |- keep ?k ?w ((?f ;; ?g) ?w) => apply (keeps_seq k f g) end; [| |reflexivity].
  - apply keeps_seq; [apply keep_ending|apply keep_scheduled; congruence].
  - apply keep_scheduled. unfold known_evse in KE. lia.
Qed.
Lemma awaiting_report : forall e f id s, awaiting e (f_w f) ->
  awaiting e (f_w (fst (fstep f (Report id s)))) /\ w_con (f_w (fst (fstep f (Report id s)))) = w_con (f_w f).
Proof.
  intros e f id s A. cbn [fstep]. unfold on_status. destruct (_ && ((id =? -1) || _)); [auto|].
  assert (X : exists w1 o1, (if ends s then do_tx ORestore (f_w f) else (f_w f, [])) = (w1, o1) /\ awaiting e w1 /\ w_con w1 = w_con (f_w f)).
  { destruct (ends s); [|eauto]. unfold do_tx. eexists _, _. split; [reflexivity|]. rewrite step_alive by reflexivity. cbn [c_op c_fail c_crash exec].
    set (w0 := set_w_prog Running (set_w_budget None (set_w_fail [] (f_w f)))). assert (R : ready w0) by (split; [apply A|]; cbn; auto).
    destruct (restored_all w0 R) as (P1&P2&P3&_&_&_&P7&_). destruct A as (A1&A2&A3&A4). split; [|exact P2].
    split; [apply P1|]. rewrite P2. split; [exact A2|]. split; [unfold busy_of in *; rewrite P3; exact A3|]. rewrite P7. exact A4. }
  destruct X as (w1 & o1 & -> & B & C). destruct (fstatus_eqb (f_before f) s); [|cbn; auto].
  assert (X : awaiting e (fst (do_tx OFirmware w1)) /\ w_con (fst (do_tx OFirmware w1)) = w_con w1).
  { unfold do_tx. cbn [fst]. rewrite step_alive by reflexivity. cbn [c_op c_fail c_crash exec].
    set (w0 := set_w_prog Running (set_w_budget None (set_w_fail [] w1))). assert (R : ready w0) by (split; [apply B|]; cbn; auto).
    apply (awaiting_prepared e w0); [apply B|apply B|apply prepared_firmware; exact R]. }
  destruct (do_tx OFirmware w1) as [w2 o2]. cbn in *. rewrite <- C. exact X.
Qed.
Lemma alive_restarts : forall w k, is_restart (c_op k) = false -> c_crash k = None -> restarts w k = false.
Proof.
  intros w k NR C. unfold restarts.
  pose proof (exec_effect (c_op k) (set_w_prog Running (set_w_budget (c_crash k) (set_w_fail (c_fail k) w))) NR C eq_refl) as X.
  destruct X as (_ & X & _). destruct (c_op k); try discriminate NR; destruct (w_prog _); try reflexivity; exfalso; apply X; reflexivity.
Qed.
Lemma awaiting_run : forall e h f, awaiting e (f_w f) ->
  Forall (fun o => match o with Other c => is_restart (c_op c) = false /\ c_crash c = None
      /\ ~ replaces (w_con (f_w f)) (Some (e, None)) (c_op c) /\ (forall a b c0 d, c_op c <> OFinish e a b c0 d)
    | _ => True end) h ->
  awaiting e (f_w (fstate f h)) /\ w_con (f_w (fstate f h)) = w_con (f_w f).
Proof.
  intros e h. induction h as [|o q IH]; intros f A F; [auto|]. inversion F as [|? ? F1 F2]; subst. cbn [fstate].
  assert (X : awaiting e (f_w (fst (fstep f o))) /\ w_con (f_w (fst (fstep f o))) = w_con (f_w f)).
  { destruct o as [id s| |r c sg a|c]; [apply awaiting_report; exact A|auto|auto|].
    destruct F1 as (F3 & F4 & F5 & F6). cbn [fstep]. rewrite alive_restarts by assumption. cbn [fst f_w]. apply awaiting_step; assumption. }
  destruct X as (X1 & X2). rewrite <- X2 in F2. destruct (IH _ X1 F2) as (Y1 & Y2). split; [exact Y1|congruence].
Qed.
Lemma awaiting_done : forall e f reason tr tok cs, awaiting e (f_w f) ->
  let g := fst (fstep f (Other (Call (OFinish e reason tr tok cs) [] None))) in
  status_of (w_csm (f_w g)) (Some (e, None)) = Inoperative /\ busy_of (f_w g) e = false.
Proof.
  intros e f reason tr tok cs A. cbv zeta. cbn [fstep]. rewrite alive_restarts by reflexivity. cbn [fst f_w].
  set (w := f_w f) in *. destruct (step_effect (Call (OFinish e reason tr tok cs) [] None) w eq_refl eq_refl) as (_&_&_&WC&T).
  destruct A as (CO & KE & BE & G).
  assert (B1 : busy_of (step w (Call (OFinish e reason tr tok cs) [] None)) e = false).
  { rewrite T. cbn [c_op track]. rewrite (proj2 (knownb _ _) KE). unfold update. rewrite Z.eqb_refl. reflexivity. }
  split; [|exact B1]. rewrite step_alive in * by reflexivity. cbn [c_op c_fail c_crash exec] in *.
  set (w0 := set_w_prog Running (set_w_budget None (set_w_fail [] w))) in *.
  assert (R0 : ready w0) by (split; [exact CO|]; cbn; auto).
  rewrite finished_eq in * by reflexivity. change (w_con w) with (w_con w0) in *. change (w_sched w) with (w_sched w0) in G.
  rewrite (proj2 (knownb _ _) KE) in *. assert (AC : active w0 e = true) by exact BE. rewrite AC in *.
  destruct (ready_ending e reason tr tok cs w0 R0 KE) as (R1&C1&S1). cbv zeta in *.
  rewrite <- seq_assoc in *. rewrite seqw_run in * by apply R1. set (v := ending e reason tr tok cs w0) in *.
  destruct (scheduled_ready e v R1) as (R2&C2). rewrite seqw_run in * by apply R2.
  set (x := handle_scheduled e v) in *.
  assert (BX : forall f, busy_of (handle_scheduled 0 x) f = busy_of x f).
  { destruct (calm_sched 0 x (proj2 (proj2 (proj2 R2))) (proj1 (proj2 R2))) as (_&_&_&_&_&_&Q); [destruct R2 as (_&_&_&P2); congruence|exact Q]. }
  assert (BV : forall f, busy_of x f = busy_of v f).
  { destruct (calm_sched e v (proj2 (proj2 (proj2 R1))) (proj1 (proj2 R1))) as (_&_&_&_&_&_&Q); [destruct R1 as (_&_&_&P2); congruence|exact Q]. }
  assert (AV : affected_active v (Some (e, None)) = false).
  { cbn. assert (X : busy_of v e = false); [|exact X]. rewrite <- BV, <- BX. exact B1. }
  assert (GV : map_get e (w_sched v) = Some (Areq (Some (e, None)) Inoperative, false)) by (rewrite S1; exact G).
  destruct (scheduled_go e (Areq (Some (e, None)) Inoperative) false v R1 GV AV) as (_&_&_&_&X5&_&_). fold x in X5. cbn [q_evse q_op] in X5.
  rewrite scheduled_other; [exact X5|exact R2|cbn; unfold known_evse in KE; lia].
Qed.
