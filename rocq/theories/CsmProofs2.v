(** Availability: invariant of the announced statuses, calls of each operation, persistence. *)
From Coq Require Import List ZArith Bool Lia.
From Verif Require Import CsmModel CsmSpec CsmProofs.
Import ListNotations.
Open Scope Z_scope.

(** The announced statuses are the effective ones. *)
Definition synced (s : st) : Prop :=
  s_lcs s = s_cs s /\
  (forall e, has_evse s e -> s_lev s e = evse_effective s e) /\
  (forall e c, has_conn s e c -> s_lcon s e c = conn_effective s e c).

(** Nothing that concerns availability changes. *)
Definition same_eff (s s' : st) : Prop :=
  s_up s' = s_up s /\ s_db s' = s_db s /\ s_cs s' = s_cs s /\ s_nev s' = s_nev s /\ s_ncon s' = s_ncon s /\
  s_ev s' = s_ev s /\ (forall e c, c_op (s_con s' e c) = c_op (s_con s e c)) /\
  s_lcs s' = s_lcs s /\ s_lev s' = s_lev s /\ s_lcon s' = s_lcon s.
Definition same_cb (s s' : st) : Prop := s_cbcs s' = s_cbcs s /\ s_cbev s' = s_cbev s /\ s_cbcon s' = s_cbcon s.
Definition only_notes (o : list out) : Prop := forall x, In x o -> exists e c v t d, x = ONote e c v t d.

Lemma only_notes_calls : forall o, only_notes o ->
  cs_calls o = [] /\ (forall e, evse_calls e o = []) /\ (forall e c, conn_calls e c o = []).
Proof.
  induction o as [|x q IH]; intros H; [repeat split; reflexivity|].
  destruct (H x (or_introl eq_refl)) as (e & c & v & t & d & ->).
  assert (Hq : only_notes q) by (intros y Hy; apply H; right; exact Hy).
  destruct (IH Hq) as (A & B & C). repeat split; auto.
Qed.

Lemma same_eff_refl : forall s, same_eff s s.
Proof. intros. repeat split; reflexivity. Qed.
Lemma same_eff_trans : forall a b c, same_eff a b -> same_eff b c -> same_eff a c.
Proof.
  intros a b c (A0&A1&A2&A3&A4&A5&A6&A7&A8&A9) (B0&B1&B2&B3&B4&B5&B6&B7&B8&B9).
  repeat split; try congruence.
Qed.
Lemma same_cb_trans : forall a b c, same_cb a b -> same_cb b c -> same_cb a c.
Proof. intros a b c (A0&A1&A2) (B0&B1&B2). repeat split; congruence. Qed.

Lemma same_eff_eff : forall s s', same_eff s s' ->
  (forall e, evse_effective s' e = evse_effective s e) /\ (forall e c, conn_effective s' e c = conn_effective s e c).
Proof.
  intros s s' (A0&A1&A2&A3&A4&A5&A6&A7&A8&A9). unfold conn_effective, evse_effective. rewrite A2, A5.
  split; [reflexivity|]. intros. rewrite A6. reflexivity.
Qed.
Lemma same_eff_synced : forall s s', same_eff s s' -> synced s -> synced s'.
Proof.
  intros s s' H (S1 & S2 & S3). destruct (same_eff_eff _ _ H) as [F1 F2].
  destruct H as (A0&A1&A2&A3&A4&A5&A6&A7&A8&A9). unfold synced, has_conn, has_evse.
  rewrite A3, A4, A7, A8, A9, A2. repeat split; [exact S1| |].
  - intros. rewrite F1. apply S2. assumption.
  - intros. rewrite F2. apply S3. assumption.
Qed.

Lemma fupd2_same : forall A (f : Z -> Z -> A) i j v, fupd2 f i j v i j = v.
Proof. intros. unfold fupd2. rewrite !Z.eqb_refl. reflexivity. Qed.

Lemma send_status_frame : forall b t e c d s s' o, send_status b t e c d s = (s', o) ->
  same_eff s s' /\ same_cb s s' /\ only_notes o /\ s_con s' = s_con s.
Proof.
  intros b t e c d s s' o H. unfold send_status in H.
  destruct (negb b || _); [destruct d|]; inversion H; subst; clear H;
    repeat split; try reflexivity; intros x I; try (destruct I as [<-|[]]; eauto 8); destruct I.
Qed.
Lemma upd_conn_frame : forall f e c s, (forall k, c_op (f k) = c_op k) ->
  same_eff s (upd_conn f e c s) /\ same_cb s (upd_conn f e c s).
Proof.
  intros f e c s H. repeat split; try reflexivity. intros e' c'. cbn. unfold fupd2.
  destruct (Z.eqb_spec e' e); cbn [andb]; [|reflexivity]. destruct (Z.eqb_spec c' c); [|reflexivity].
  subst. apply H.
Qed.

Lemma send_loop : forall b (d : Z -> bool) e l s s' o,
  loop (fun c => send_status b false e c (d c)) l s = (s', o) ->
  same_eff s s' /\ same_cb s s' /\ only_notes o /\ s_con s' = s_con s.
Proof.
  induction l as [|c q IH]; intros s s' o H; cbn [loop] in H.
  - inversion H; subst. repeat split; try reflexivity. intros x [].
  - destruct (send_status b false e c (d c) s) as [s1 o1] eqn:E1.
    destruct (loop _ q s1) as [s2 o2] eqn:E2. inversion H; subst; clear H.
    destruct (send_status_frame _ _ _ _ _ _ _ _ E1) as (A1 & A2 & A3 & A4).
    destruct (IH _ _ _ E2) as (B1 & B2 & B3 & B4).
    repeat match goal with |- _ /\ _ => split end.
    + eapply same_eff_trans; eassumption.
    + eapply same_cb_trans; eassumption.
    + intros x I. apply in_app_or in I. destruct I; auto.
    + congruence.
Qed.
Lemma send_all_frame : forall b d l s s' o,
  loop (fun e s => loop (fun c => send_status b false e c (d e c)) (ids (s_ncon s e)) s) l s = (s', o) ->
  same_eff s s' /\ same_cb s s' /\ only_notes o /\ s_con s' = s_con s.
Proof.
  induction l as [|c q IH]; intros s s' o H; cbn [loop] in H.
  - inversion H; subst. repeat split; try reflexivity. intros x [].
  - destruct (loop (fun c0 => send_status b false c c0 (d c c0)) (ids (s_ncon s c)) s) as [s1 o1] eqn:E1.
    destruct (loop _ q s1) as [s2 o2] eqn:E2. inversion H; subst; clear H.
    destruct (send_loop _ (d c) _ _ _ _ _ E1) as (A1 & A2 & A3 & A4).
    destruct (IH _ _ _ E2) as (B1 & B2 & B3 & B4).
    repeat match goal with |- _ /\ _ => split end.
    + eapply same_eff_trans; eassumption.
    + eapply same_cb_trans; eassumption.
    + intros x I. apply in_app_or in I. destruct I; auto.
    + congruence.
Qed.

(** Operations that only concern the connector status or callback registration. *)
Definition avail_op (o : op) : bool :=
  match o with
  | SetCs _ _ _ | SetEvse _ _ _ _ _ | SetConn _ _ _ _ _ | RestoreConn _ _ | TriggerAll | Restart _ => true
  | _ => false
  end.
Lemma notify_ops_frame : forall s o s' out r, avail_op o = false -> step s o = (s', out, r) ->
  same_eff s s' /\ only_notes out /\ r <> DbError.
Proof.
  intros s o s' out r A H.
  assert (R : same_eff s s /\ only_notes [] /\ NoObject <> DbError).
  { split; [apply same_eff_refl|split; [intros x []|discriminate]]. }
  assert (RR : forall r, r <> DbError -> same_eff s s /\ only_notes [] /\ r <> DbError).
  { intros. split; [apply same_eff_refl|split; [intros x []|assumption]]. }
  assert (CK : forall e c, check_conn s e c <> DbError).
  { intros. unfold check_conn. destruct (negb (check_evse s e)); [discriminate|].
    destruct ((c <=? 0) || (s_ncon s e <? c)); discriminate. }
  assert (FL : forall f e c d, (forall k, c_op (f k) = c_op k) -> set_flag f e c d s = (s', out, r) ->
            same_eff s s' /\ only_notes out /\ r <> DbError).
  { intros f e c d Hf E. unfold set_flag in E. specialize (CK e c).
    destruct (check_conn s e c); try (inversion E; subst; apply RR; assumption).
    destruct (send_status true false e c d (upd_conn f e c s)) as [s1 o1] eqn:S. inversion E; subst; clear E.
    destruct (send_status_frame _ _ _ _ _ _ _ _ S) as (A1 & A2 & A3 & _).
    destruct (upd_conn_frame f e c s Hf) as (B1 & _).
    split; [eapply same_eff_trans; eassumption|]. split; [assumption|discriminate]. }
  destruct o; try discriminate A; cbn [step] in H; (destruct (negb (s_up s)); [inversion H; subst; exact R|]);
    try (eapply FL; [|exact H]; reflexivity).
  - unfold set_occupied in H. specialize (CK e c).
    destruct (check_conn s e c); try (inversion H; subst; apply RR; assumption).
    destruct (upd_conn_frame (with_occupied b) e c s (fun k => eq_refl)) as (B1 & _).
    destruct (negb (c_reserved _)).
    + destruct (send_status true false e c d (upd_conn (with_occupied b) e c s)) as [s1 o1] eqn:S.
      inversion H; subst; clear H.
      destruct (send_status_frame _ _ _ _ _ _ _ _ S) as (A1 & A2 & A3 & _).
      split; [eapply same_eff_trans; eassumption|]. split; [assumption|discriminate].
    + inversion H; subst. split; [exact B1|]. split; [intros x []|discriminate].
  - destruct (send_status_all false d s) as [s1 o1] eqn:S. inversion H; subst.
    destruct (send_all_frame _ _ _ _ _ _ S) as (A1 & A2 & A3 & _). split; [assumption|]. split; [assumption|discriminate].
  - destruct (send_status_all true d s) as [s1 o1] eqn:S. inversion H; subst.
    destruct (send_all_frame _ _ _ _ _ _ S) as (A1 & A2 & A3 & _). split; [assumption|]. split; [assumption|discriminate].
  - unfold send_one in H. specialize (CK e c).
    destruct (check_conn s e c); try (inversion H; subst; apply RR; assumption).
    destruct (send_status false true e c d s) as [s1 o1] eqn:S. inversion H; subst; clear H.
    destruct (send_status_frame _ _ _ _ _ _ _ _ S) as (A1 & A2 & A3 & _).
    split; [assumption|]. split; [assumption|discriminate].
  - inversion H; subst. split; [repeat split; reflexivity|]. split; [intros x []|discriminate].
  - inversion H; subst. split; [repeat split; reflexivity|]. split; [intros x []|discriminate].
  - inversion H; subst. split; [repeat split; reflexivity|]. split; [intros x []|discriminate].
Qed.

Lemma check_evse_iff : forall s e, check_evse s e = true <-> has_evse s e.
Proof.
  intros. unfold check_evse, has_evse. rewrite negb_true_iff, orb_false_iff, Z.leb_gt, Z.ltb_ge. lia.
Qed.
Lemma check_conn_ok : forall s e c, check_conn s e c = Ok <-> has_conn s e c.
Proof.
  intros. unfold check_conn, has_conn. destruct (check_evse s e) eqn:E; cbn [negb].
  - apply check_evse_iff in E. destruct ((c <=? 0) || (s_ncon s e <? c)) eqn:R.
    + apply orb_true_iff in R. rewrite Z.leb_le, Z.ltb_lt in R. split; [discriminate|lia].
    + apply orb_false_iff in R. rewrite Z.leb_gt, Z.ltb_ge in R. split; [intros _; split; [exact E|lia]|reflexivity].
  - split; [discriminate|]. intros [H _]. apply check_evse_iff in H. congruence.
Qed.

(** What a step must call, in terms of the effective statuses before and after. *)
Definition calls_ok (s s' : st) (o : list out) : Prop :=
  cs_calls o = (if s_cbcs s && negb (opstat_eqb (s_cs s) (s_cs s')) then [s_cs s'] else []) /\
  (forall e, evse_calls e o =
     if mem e (ids (s_nev s)) && s_cbev s && negb (opstat_eqb (evse_effective s e) (evse_effective s' e))
     then [evse_effective s' e] else []) /\
  (forall e c, conn_calls e c o =
     if mem e (ids (s_nev s)) && mem c (ids (s_ncon s e)) && s_cbcon s
        && negb (opstat_eqb (conn_effective s e c) (conn_effective s' e c))
     then [conn_effective s' e c] else []).

Lemma quiet_calls_ok : forall s s' o, same_eff s s' ->
  cs_calls o = [] -> (forall e, evse_calls e o = []) -> (forall e c, conn_calls e c o = []) -> calls_ok s s' o.
Proof.
  intros s s' o H A B C. destruct (same_eff_eff _ _ H) as [F1 F2]. destruct H as (_ & _ & E & _).
  unfold calls_ok. rewrite A, E, opstat_eqb_refl, andb_false_r. split; [reflexivity|]. split; intros.
  - rewrite B, F1, opstat_eqb_refl, andb_false_r. reflexivity.
  - rewrite C, F2, opstat_eqb_refl, andb_false_r. reflexivity.
Qed.

Lemma mem_ids : forall e n, mem e (ids n) = true <-> 1 <= e <= n.
Proof. intros. rewrite mem_in, in_ids. reflexivity. Qed.

(** A change of individual statuses followed by the right trigger. [s1] is [s] with changed individual statuses. *)
Definition same_rest (s s1 : st) : Prop :=
  s_nev s1 = s_nev s /\ s_ncon s1 = s_ncon s /\ s_lcs s1 = s_lcs s /\ s_lev s1 = s_lev s /\ s_lcon s1 = s_lcon s /\
  s_up s1 = s_up s /\ same_cb s s1.

Lemma eff_down : forall s e c, evse_effective s e = Inoperative -> conn_effective s e c = Inoperative.
Proof. intros s e c H. unfold conn_effective. rewrite H. reflexivity. Qed.

Lemma trigger_cs_ok : forall s s1 s2 o, synced s -> same_rest s s1 ->
  s_ev s1 = s_ev s -> (forall e c, c_op (s_con s1 e c) = c_op (s_con s e c)) ->
  trigger_cs true s1 = (s2, o) -> synced s2 /\ calls_ok s s2 o /\ core s2 = core s1.
Proof.
  intros s s1 s2 o (S1 & S2 & S3) (R1 & R2 & R3 & R4 & R5 & R6 & (K1 & K2 & K3)) E1 E2 H.
  assert (P1 : s_cs s1 = s_cs s -> forall e, evse_effective s1 e = evse_effective s e)
    by (intros P e; unfold evse_effective; rewrite P, E1; reflexivity).
  assert (P2 : forall e c, evse_effective s1 e = evse_effective s e -> conn_effective s1 e c = conn_effective s e c).
  { intros e c P. unfold conn_effective. rewrite P, E2. reflexivity. }
  destruct (trigger_cs_spec _ _ _ _ H) as (C & A1 & A2 & A3 & A4 & A5 & A6 & A7).
  - intros _ P e Re. rewrite R3, S1 in P. rewrite R4, P1 by congruence. apply S2. unfold has_evse. lia.
  - intros _ e Re P c Rc. rewrite R4 in P. rewrite R5.
    rewrite S2 in P by (unfold has_evse; lia). rewrite P2 by congruence. apply S3. unfold has_conn, has_evse.
    rewrite <- R1, <- R2. lia.
  - destruct (core_eff _ _ C) as [F1 F2].
    assert (N1 : s_nev s2 = s_nev s1) by (unfold core in C; congruence).
    assert (N2 : s_ncon s2 = s_ncon s1) by (unfold core in C; congruence).
    assert (N3 : s_cs s2 = s_cs s1) by (unfold core in C; congruence).
    split; [|split; [|exact C]].
    + unfold synced, has_conn, has_evse. rewrite N1, N2. split; [congruence|]. split.
      * intros e Re. rewrite A2, F1. replace (mem e (ids (s_nev s1))) with true by (symmetry; apply mem_ids; exact Re).
        reflexivity.
      * intros e c [Re Rc]. rewrite A3, F2.
        replace (mem e (ids (s_nev s1))) with true by (symmetry; apply mem_ids; exact Re).
        replace (mem c (ids (s_ncon s1 e))) with true by (symmetry; apply mem_ids; exact Rc). reflexivity.
    + unfold calls_ok. rewrite N3, A4, K1, R3, S1. split; [reflexivity|]. split.
      * intros e. rewrite A6, F1, R1, K2, R4. destruct (mem e (ids (s_nev s))) eqn:M; cbn [andb]; [|reflexivity].
        rewrite S2 by (apply mem_ids; exact M). reflexivity.
      * intros e c. rewrite A7, F2, R1, R2, K3, R5. destruct (mem e (ids (s_nev s))) eqn:M; cbn [andb]; [|reflexivity].
        destruct (mem c (ids (s_ncon s e))) eqn:M2; cbn [andb]; [|reflexivity].
        rewrite S3 by (split; apply mem_ids; assumption). reflexivity.
Qed.

Lemma trigger_evse_ok : forall s s1 s2 o e0, synced s -> same_rest s s1 -> has_evse s e0 ->
  s_cs s1 = s_cs s -> (forall e, e <> e0 -> s_ev s1 e = s_ev s e) -> (forall e c, c_op (s_con s1 e c) = c_op (s_con s e c)) ->
  trigger_evse true e0 s1 = (s2, o) -> synced s2 /\ calls_ok s s2 o /\ core s2 = core s1.
Proof.
  intros s s1 s2 o e0 (S1 & S2 & S3) (R1 & R2 & R3 & R4 & R5 & R6 & (K1 & K2 & K3)) HE0 E0 E1 E2 H.
  assert (P1 : forall e, e <> e0 -> evse_effective s1 e = evse_effective s e)
    by (intros e P; unfold evse_effective; rewrite E0, E1 by exact P; reflexivity).
  assert (P2 : forall e c, evse_effective s1 e = evse_effective s e -> conn_effective s1 e c = conn_effective s e c).
  { intros e c P. unfold conn_effective. rewrite P, E2. reflexivity. }
  destruct (trigger_evse_spec _ _ _ _ _ H) as (C & A1 & A2 & A3 & A4 & A5 & A6 & A7).
  - intros _ P c Rc. rewrite R4 in P. rewrite S2 in P by exact HE0. rewrite R5, P2 by congruence.
    apply S3. split; [exact HE0|rewrite <- R2; exact Rc].
  - destruct (core_eff _ _ C) as [F1 F2].
    assert (N1 : s_nev s2 = s_nev s1) by (unfold core in C; congruence).
    assert (N2 : s_ncon s2 = s_ncon s1) by (unfold core in C; congruence).
    assert (N3 : s_cs s2 = s_cs s1) by (unfold core in C; congruence).
    split; [|split; [|exact C]].
    + unfold synced, has_conn, has_evse. rewrite N1, N2, R1, R2. split; [congruence|]. split.
      * intros e Re. rewrite A2, F1. destruct (Z.eqb_spec e e0); [subst; reflexivity|].
        rewrite R4, P1 by assumption. apply S2. exact Re.
      * intros e c [Re Rc]. rewrite A3, F2. destruct (Z.eqb_spec e e0) as [->|]; cbn [andb].
        -- rewrite R2. replace (mem c (ids (s_ncon s e0))) with true by (symmetry; apply mem_ids; exact Rc). reflexivity.
        -- rewrite R5, P2 by (apply P1; assumption). apply S3. split; assumption.
    + unfold calls_ok. rewrite N3, A4, E0, opstat_eqb_refl, andb_false_r. split; [reflexivity|].
      assert (M0 : mem e0 (ids (s_nev s)) = true) by (apply mem_ids; exact HE0).
      split.
      * intros e. rewrite A6, F1, K2, R4. destruct (Z.eqb_spec e e0) as [->|]; cbn [andb].
        -- rewrite M0, S2 by exact HE0. reflexivity.
        -- rewrite P1 by assumption. rewrite opstat_eqb_refl, andb_false_r. reflexivity.
      * intros e c. rewrite A7, F2, R2, K3, R5. destruct (Z.eqb_spec e e0) as [->|]; cbn [andb].
        -- rewrite M0. cbn [andb]. destruct (mem c (ids (s_ncon s e0))) eqn:M2; cbn [andb]; [|reflexivity].
           rewrite S3 by (split; [exact HE0|apply mem_ids; assumption]). reflexivity.
        -- rewrite P2 by (apply P1; assumption). rewrite opstat_eqb_refl, andb_false_r. reflexivity.
Qed.

Lemma trigger_conn_ok : forall s s1 s2 o e0 c0, synced s -> same_rest s s1 -> has_conn s e0 c0 ->
  s_cs s1 = s_cs s -> s_ev s1 = s_ev s ->
  (forall e c, ~ (e = e0 /\ c = c0) -> c_op (s_con s1 e c) = c_op (s_con s e c)) ->
  trigger_conn true e0 c0 s1 = (s2, o) -> synced s2 /\ calls_ok s s2 o /\ core s2 = core s1.
Proof.
  intros s s1 s2 o e0 c0 (S1 & S2 & S3) (R1 & R2 & R3 & R4 & R5 & R6 & (K1 & K2 & K3)) HC0 E0 E1 E2 H.
  assert (P1 : forall e, evse_effective s1 e = evse_effective s e)
    by (intros e; unfold evse_effective; rewrite E0, E1; reflexivity).
  assert (P2 : forall e c, ~ (e = e0 /\ c = c0) -> conn_effective s1 e c = conn_effective s e c).
  { intros e c P. unfold conn_effective. rewrite P1, E2 by exact P. reflexivity. }
  destruct (trigger_conn_spec _ _ _ _ _ _ H) as (C & A1 & A2 & A3 & A4).
  destruct (core_eff _ _ C) as [F1 F2].
  assert (N1 : s_nev s2 = s_nev s1) by (unfold core in C; congruence).
  assert (N2 : s_ncon s2 = s_ncon s1) by (unfold core in C; congruence).
  assert (N3 : s_cs s2 = s_cs s1) by (unfold core in C; congruence).
  assert (X : forall e c, (e =? e0) && (c =? c0) = false -> ~ (e = e0 /\ c = c0)).
  { intros e c Q [-> ->]. rewrite !Z.eqb_refl in Q. discriminate. }
  split; [|split; [|exact C]].
  - unfold synced, has_conn, has_evse. rewrite N1, N2, R1, R2. split; [congruence|]. split.
    + intros e Re. rewrite A2, F1, R4, P1. apply S2. exact Re.
    + intros e c [Re Rc]. rewrite A3, F2. destruct ((e =? e0) && (c =? c0)) eqn:Q.
      * apply andb_true_iff in Q. destruct Q as [Q1 Q2]. apply Z.eqb_eq in Q1, Q2. subst. reflexivity.
      * rewrite R5, P2 by (apply X; exact Q). apply S3. split; assumption.
  - unfold calls_ok. rewrite N3, E0, opstat_eqb_refl, andb_false_r.
    rewrite A4, K3, R5. rewrite S3 by exact HC0. unfold need. cbn [negb orb].
    split; [destruct (s_cbcon s && _); reflexivity|]. split.
    + intros e. rewrite F1, P1, opstat_eqb_refl, andb_false_r. destruct (s_cbcon s && _); reflexivity.
    + intros e c. rewrite F2.
      destruct ((e =? e0) && (c =? c0)) eqn:Q.
      * apply andb_true_iff in Q. destruct Q as [Q1 Q2]. apply Z.eqb_eq in Q1, Q2. subst.
        destruct HC0 as [H1 H2]. rewrite (proj2 (mem_ids e0 (s_nev s)) H1), (proj2 (mem_ids c0 (s_ncon s e0)) H2).
        cbn [andb]. destruct (s_cbcon s && _); [|reflexivity].
        unfold conn_calls. cbn [flat_map]. rewrite !Z.eqb_refl. reflexivity.
      * rewrite (P2 e c) by (apply X; exact Q). rewrite opstat_eqb_refl, andb_false_r.
        destruct (s_cbcon s && _); [|reflexivity]. unfold conn_calls. cbn [flat_map].
        rewrite (Z.eqb_sym e0 e), (Z.eqb_sym c0 c), Q. reflexivity.
Qed.

Lemma same_rest_db : forall s s1 t, same_rest s s1 -> same_rest s (set_s_db t s1).
Proof. intros s s1 t H. exact H. Qed.

Lemma persist_if : forall (b : bool) t s, (if b then set_s_db t s else s) = set_s_db (if b then t else s_db s) s.
Proof. intros [] t s; [reflexivity|]. destruct s; reflexivity. Qed.

Lemma set_cs_ok : forall s v p db s' o r, synced s -> set_cs v p db s = (s', o, r) ->
  synced s' /\ calls_ok s s' o /\ r = Ok /\
  core s' = core (set_s_db (if p && db then insert_availability 0 0 v true (s_db s) else s_db s) (set_s_cs v s)).
Proof.
  intros s v p db s' o r S H. unfold set_cs in H. rewrite persist_if in H.
  destruct (trigger_cs true _) as [s2 o2] eqn:T. inversion H; subst; clear H.
  match type of T with trigger_cs true ?x = _ => set (s1 := x) in * end.
  assert (SR : same_rest s s1) by (repeat split).
  destruct (trigger_cs_ok s s1 _ _ S SR eq_refl (fun _ _ => eq_refl) T) as (A & B & C).
  auto.
Qed.

Lemma set_evse_ok : forall s e v p d1 d2 s' o r, synced s -> set_evse e v p d1 d2 s = (s', o, r) ->
  (r = EvseOutOfRange /\ ~ has_evse s e /\ s' = s /\ o = []) \/
  (has_evse s e /\
   core s' = core (set_s_db (if p && (d1 || d2) then insert_availability e 0 v true (s_db s) else s_db s)
                     (set_s_ev (fupd (s_ev s) e v) s)) /\
   ((r = Ok /\ p && negb d2 = false /\ synced s' /\ calls_ok s s' o) \/
    (r = DbError /\ p && negb d2 = true /\ o = []))).
Proof.
  intros s e v p d1 d2 s' o r S H. unfold set_evse in H.
  destruct (check_evse s e) eqn:C; cbn [negb] in H.
  - apply check_evse_iff in C. right. rewrite persist_if in H.
    destruct (p && negb d2) eqn:D.
    + inversion H; subst; clear H. split; [exact C|]. split; [reflexivity|]. right. auto.
    + destruct (trigger_evse true e _) as [s2 o2] eqn:T. inversion H; subst; clear H.
      match type of T with trigger_evse true e ?x = _ => set (s1 := x) in * end.
      assert (SR : same_rest s s1) by (repeat split).
      assert (EV : forall e', e' <> e -> s_ev s1 e' = s_ev s e').
      { intros e' N. unfold s1. cbn. unfold fupd. destruct (Z.eqb_spec e' e); [contradiction|reflexivity]. }
      destruct (trigger_evse_ok s s1 _ _ e S SR C eq_refl EV (fun _ _ => eq_refl) T) as (A & B & K).
      split; [exact C|]. split; [exact K|]. left. auto.
  - left. inversion H; subst. repeat split; auto. intros X. apply check_evse_iff in X. congruence.
Qed.

Lemma check_conn_cases : forall s e c, check_conn s e c = Ok \/ check_conn s e c = EvseOutOfRange \/
  check_conn s e c = ConnectorOutOfRange.
Proof.
  intros. unfold check_conn. destruct (negb (check_evse s e)); auto.
  destruct ((c <=? 0) || (s_ncon s e <? c)); auto.
Qed.

Lemma set_conn_ok : forall s e c v p db s' o r, synced s -> set_conn e c v p db s = (s', o, r) ->
  (r <> Ok /\ r <> DbError /\ ~ has_conn s e c /\ s' = s /\ o = []) \/
  (r = Ok /\ has_conn s e c /\
   core s' = core (set_s_db (if p && db then insert_availability e c v true (s_db s) else s_db s)
                     (upd_conn (with_op v) e c s)) /\
   synced s' /\ calls_ok s s' o).
Proof.
  intros s e c v p db s' o r S H. unfold set_conn in H. pose proof (check_conn_ok s e c) as CK.
  pose proof (check_conn_cases s e c) as CC. rewrite persist_if in H.
  destruct (check_conn s e c) eqn:C;
    try (inversion H; subst; left; split; [discriminate|]; split;
         [destruct CC as [X|[X|X]]; congruence|]; split; [intros X; apply CK in X; discriminate|auto]).
  right. destruct (trigger_conn true e c _) as [s2 o2] eqn:T. inversion H; subst; clear H.
  assert (HC : has_conn s e c) by (apply CK; reflexivity).
  match type of T with trigger_conn true e c ?x = _ => set (s1 := x) in * end.
  assert (SR : same_rest s s1) by (repeat split).
  assert (EV : forall e' c', ~ (e' = e /\ c' = c) -> c_op (s_con s1 e' c') = c_op (s_con s e' c')).
  { intros e' c' N. unfold s1. cbn. unfold fupd2. destruct (Z.eqb_spec e' e); cbn [andb]; [|reflexivity].
    destruct (Z.eqb_spec c' c); [|reflexivity]. exfalso. apply N. split; assumption. }
  destruct (trigger_conn_ok s s1 _ _ e c S SR HC eq_refl eq_refl EV T) as (A & B & K).
  repeat split; try assumption; try apply HC; try apply A; try apply B.
Qed.

(** ** Boot *)

Definition row (t : table) (e c : Z) : opstat := match t e c with Some v => v | None => Operative end.
Lemma insert_default_row : forall t e c e' c', row (insert_availability e c Operative false t) e' c' = row t e' c'.
Proof.
  intros. unfold row, insert_availability. destruct ((e' =? e) && (c' =? c)) eqn:Q; [|reflexivity].
  apply andb_true_iff in Q. destruct Q as [Q1 Q2]. apply Z.eqb_eq in Q1, Q2. subst. destruct (t e c); reflexivity.
Qed.

Lemma init_conn_loop : forall e l t con t2 con2, fold_left (init_conn e) l (t, con) = (t2, con2) ->
  (forall e' c', row t2 e' c' = row t e' c') /\
  (forall e' c', con2 e' c' =
    if (e' =? e) && mem c' l then Conn (row t e' c') false false false false else con e' c') /\
  (forall c', mem c' l = true -> t2 e c' <> None) /\ (forall e' c', t e' c' <> None -> t2 e' c' <> None).
Proof.
  induction l as [|c q IH]; intros t con t2 con2 H.
  - inversion H; subst. repeat split; auto; intros; try discriminate. rewrite andb_false_r. reflexivity.
  - cbn [fold_left] in H. unfold init_conn at 2 in H.
    destruct (IH _ _ _ _ H) as (A & B & C & D). clear IH H.
    split; [|split; [|split]].
    + intros. rewrite A. apply insert_default_row.
    + intros e' c'. rewrite B. cbn [mem existsb]. fold (mem c' q). rewrite !insert_default_row.
      destruct (Z.eqb_spec e' e) as [->|]; cbn [andb].
      * destruct (Z.eqb_spec c' c) as [->|]; cbn [orb].
        -- destruct (mem c q); [reflexivity|]. rewrite fupd2_same. f_equal.
           change (row (insert_availability e c Operative false t) e c = row t e c). apply insert_default_row.
        -- destruct (mem c' q); [reflexivity|]. unfold fupd2. rewrite Z.eqb_refl.
           destruct (Z.eqb_spec c' c); [contradiction|]. reflexivity.
      * unfold fupd2. destruct (Z.eqb_spec e' e); [contradiction|]. reflexivity.
    + intros c' M. cbn [mem existsb] in M. fold (mem c' q) in M. destruct (mem c' q) eqn:Mq; [apply C; exact Mq|].
      rewrite orb_false_r in M. apply Z.eqb_eq in M. subst. apply D. unfold insert_availability.
      rewrite !Z.eqb_refl. cbn. destruct (t e c); discriminate.
    + intros e' c' N. apply D. unfold insert_availability. destruct ((e' =? e) && (c' =? c)) eqn:Q; [|exact N].
      destruct (t e c); discriminate.
Qed.

Lemma init_evses_spec : forall str l t ev ncon con t2 ev2 ncon2 con2 fine,
  init_evses str l (t, ev, ncon, con) = ((t2, ev2, ncon2, con2), fine) ->
  (forall e c, row t2 e c = row t e c) /\ (forall e c, t e c <> None -> t2 e c <> None) /\
  (fine = true -> forall e, if mem e l then
       (exists n, str e = Some n /\ ncon2 e = Z.max 0 n) /\ ev2 e = row t e 0 /\ t2 e 0 <> None /\
       (forall c, 1 <= c <= ncon2 e -> con2 e c = Conn (row t e c) false false false false /\ t2 e c <> None)
     else ev2 e = ev e /\ ncon2 e = ncon e /\ forall c, con2 e c = con e c) /\
  (fine = true <-> forall e, In e l -> str e <> None).
Proof.
  induction l as [|e0 q IH]; intros t ev ncon con t2 ev2 ncon2 con2 fine H.
  - cbn [init_evses] in H. inversion H; subst. repeat split; auto.
  - cbn [init_evses] in H. unfold init_evse in H. destruct (str e0) as [n|] eqn:E.
    + destruct (fold_left (init_conn e0) (ids n) (insert_availability e0 0 Operative false t, con)) as [t1 con1] eqn:F.
      destruct (init_conn_loop _ _ _ _ _ _ F) as (A1 & A2 & A3 & A4).
      destruct (IH _ _ _ _ _ _ _ _ _ H) as (B1 & B2 & B3 & B4).
      assert (ROW : forall e c, row t1 e c = row t e c) by (intros; rewrite A1; apply insert_default_row).
      split; [intros; rewrite B1; apply ROW|]. split; [|split].
      * intros e c N. apply B2, A4. unfold insert_availability. destruct ((e =? e0) && (c =? 0)); [|exact N].
        destruct (t e0 0); discriminate.
      * intros Hf e. specialize (B3 Hf e). cbn [mem existsb]. fold (mem e q).
        destruct (mem e q) eqn:Mq.
        -- rewrite orb_true_r. destruct B3 as (X1 & X2 & X3 & X4). split; [exact X1|].
           rewrite ROW in X2. split; [exact X2|]. split; [exact X3|].
           intros c Rc. destruct (X4 c Rc) as [Y1 Y2]. rewrite ROW in Y1. auto.
        -- rewrite orb_false_r. destruct B3 as (X1 & X2 & X3). destruct (Z.eqb_spec e e0) as [->|NE].
           ++ unfold fupd in X1, X2. rewrite Z.eqb_refl in X1, X2.
              assert (NC : ncon2 e0 = Z.max 0 n).
              { rewrite X2. unfold ids. rewrite map_length, seq_length. lia. }
              split; [exists n; auto|]. split.
              { rewrite X1. change (row (insert_availability e0 0 Operative false t) e0 0 = row t e0 0).
                apply insert_default_row. }
              split.
              { apply B2, A4. unfold insert_availability. rewrite !Z.eqb_refl. cbn. destruct (t e0 0); discriminate. }
              intros c Rc. rewrite X3, A2, Z.eqb_refl, insert_default_row. cbn [andb].
              assert (M : mem c (ids n) = true) by (apply mem_ids; lia).
              rewrite M. split; [reflexivity|]. apply B2, A3. exact M.
           ++ unfold fupd in X1, X2. destruct (Z.eqb_spec e e0); [contradiction|].
              split; [exact X1|]. split; [exact X2|]. intros c. rewrite X3, A2.
              destruct (Z.eqb_spec e e0); [contradiction|]. reflexivity.
      * rewrite B4. split; intros X e.
        -- intros [<-|I]; [congruence|apply X; exact I].
        -- intros I. apply X. right. exact I.
    + inversion H; subst. split; [auto|]. split; [auto|]. split; [discriminate|].
      split; [discriminate|]. intros X. exfalso. apply (X e0); [left; reflexivity|exact E].
Qed.

(** What a new object looks like. *)
Lemma boot_spec : forall m t s r, boot m t = (s, r) ->
  (forall e c, row (s_db s) e c = row t e c) /\ (forall e c, t e c <> None -> s_db s e c <> None) /\
  (r = Ok <-> forall e, 1 <= e <= Z.of_nat (length m) -> lookup_structure m e <> None) /\
  (r = Ok \/ r = InvalidArgument) /\ s_up s = (match r with Ok => true | _ => false end) /\
  synced s /\ s_cbcs s = false /\ s_cbev s = false /\ s_cbcon s = false /\
  s_cs s = row t 0 0 /\ s_nev s = Z.of_nat (length m) /\ s_db s 0 0 <> None /\
  (forall e c, s_rep s e c = to_connector_status (s_con s e c)) /\
  (r = Ok -> forall e, has_evse s e ->
     (exists n, lookup_structure m e = Some n /\ s_ncon s e = Z.max 0 n) /\ s_ev s e = row t e 0 /\ s_db s e 0 <> None /\
     (forall c, has_conn s e c -> s_con s e c = Conn (row t e c) false false false false /\ s_db s e c <> None)).
Proof.
  intros m t s r H. unfold boot in H.
  destruct (init_evses _ _ _) as [[[[t1 ev] ncon] con] fine] eqn:I.
  destruct (init_evses_spec _ _ _ _ _ _ _ _ _ _ _ I) as (A1 & A2 & A3 & A4). inversion H; subst; clear H.
  assert (R0 : forall e c, row t1 e c = row t e c) by (intros; rewrite A1; apply insert_default_row).
  split; [exact R0|]. split.
  { intros e c N. apply A2. unfold insert_availability. destruct ((e =? 0) && (c =? 0)); [|exact N].
    destruct (t 0 0); discriminate. }
  split.
  { split.
    - intros X e Re. destruct fine; [|discriminate]. apply (proj1 A4 eq_refl). apply in_ids. exact Re.
    - intros X. assert (F : fine = true) by (apply A4; intros e Ie; apply X, in_ids; exact Ie). subst fine. reflexivity. }
  split; [destruct fine; auto|]. split; [destruct fine; reflexivity|].
  split. { split; [reflexivity|]. split; intros; reflexivity. }
  split; [reflexivity|]. split; [reflexivity|]. split; [reflexivity|].
  split.
  { change (row (insert_availability 0 0 Operative false t) 0 0 = row t 0 0). apply insert_default_row. }
  split; [reflexivity|].
  split.
  { apply A2. unfold insert_availability. cbn. destruct (t 0 0); discriminate. }
  split; [reflexivity|].
  intros HOk e Re. destruct fine; [|discriminate]. specialize (A3 eq_refl e).
  assert (M : mem e (ids (Z.of_nat (length m))) = true) by (apply mem_ids; exact Re).
  rewrite M in A3. destruct A3 as (X1 & X2 & X3 & X4). rewrite insert_default_row in X2.
  split; [exact X1|]. split; [exact X2|]. split; [exact X3|].
  intros c [_ Rc]. destruct (X4 c Rc) as [Y1 Y2]. rewrite insert_default_row in Y1. auto.
Qed.
