(** Resets: histories. *)
From Coq Require Import ZArith List Bool Lia.
From Verif Require Import TxModel TxSpec TxProofs TxProofs2 TxProofs4.
From Verif Require CsmModel.
Import ListNotations.
Local Open Scope Z_scope.

Lemma added_app : forall w w1 l, w_out w1 = w_out w ++ l -> added w w1 = l.
Proof. intros w w1 l E. unfold added. rewrite E, skipn_app, skipn_all, Nat.sub_diag. reflexivity. Qed.
Lemma run_effect : forall h w, no_restarts h -> no_crashes h -> exists l, w_out (run w h) = w_out w ++ l.
Proof.
  induction h as [|k q IH]; intros w R C; [exists []; rewrite app_nil_r; reflexivity|]. inversion R; inversion C; subst.
  destruct (step_effect k w H1 H5) as (l&L&_). destruct (IH (step w k) H2 H6) as (m&M).
  exists (l ++ m). change (run w (k :: q)) with (run (step w k) q). rewrite M, L, app_assoc. reflexivity.
Qed.
Lemma run_added : forall k q w, no_restarts (k :: q) -> no_crashes (k :: q) ->
  added w (run w (k :: q)) = added w (step w k) ++ added (step w k) (run (step w k) q).
Proof.
  intros k q w R C. inversion R; inversion C; subst. destruct (step_effect k w H1 H5) as (l&L&_).
  destruct (run_effect q (step w k) H2 H6) as (m&M). change (run w (k :: q)) with (run (step w k) q).
  rewrite (added_app _ _ _ L), (added_app _ _ _ M). apply added_app. rewrite M, L, app_assoc. reflexivity.
Qed.

(** ** A reset of an EVSE with a transaction *)
Lemma idle_app : forall e a b, idle_resets e (a ++ b) = (idle_resets e a + idle_resets e b)%nat.
Proof.
  induction a as [|[[f|] []] q IH]; intros b; cbn; try apply IH; [reflexivity|].
  destruct (f =? e); cbn; rewrite IH; reflexivity.
Qed.
Lemma track_ext : forall con f g o, (forall e, f e = g e) -> forall e, track con f o e = track con g o e.
Proof.
  intros con f g o H e. destruct o; cbn; auto; [destruct (_ && _)|destruct (known_evseb _ _)]; auto; unfold update; destruct (_ =? _); auto.
Qed.
Lemma ends_ext : forall h con f g e, (forall x, f x = g x) -> ends con f e h = ends con g e h.
Proof.
  induction h as [|k q IH]; intros con f g e H; cbn [ends]; [reflexivity|].
  rewrite (IH con (track con f (c_op k)) (track con g (c_op k)) e (track_ext con f g (c_op k) H)).
  destruct (c_op k); try reflexivity. rewrite H. reflexivity.
Qed.
Lemma in_existsb : forall e l, existsb (Z.eqb e) l = true <-> In e l.
Proof.
  intros e l. rewrite existsb_exists. split; [intros (x&I&E); apply Z.eqb_eq in E; congruence|].
  intros I. exists e. split; [exact I|apply Z.eqb_refl].
Qed.
Lemma in_insert : forall e f l, In e (set_insert f l) <-> e = f \/ In e l.
Proof.
  intros e f l. unfold set_insert. destruct (existsb (Z.eqb f) l) eqn:E.
  - apply in_existsb in E. split; [auto|]. intros [-> |I]; auto.
  - rewrite in_app_iff. cbn. intuition.
Qed.
Lemma in_erase : forall e f l, In e (set_erase f l) <-> In e l /\ e <> f.
Proof.
  intros e f l. unfold set_erase. rewrite filter_In. rewrite negb_true_iff, Z.eqb_neq. reflexivity.
Qed.
Local Arguments set_erase : simpl never.
Local Arguments set_insert : simpl never.
(** One step, for EVSE [e] of which no reset is requested. *)
Lemma mach_waiting : forall con busy rs rids o e rs1 rids1 l, rs = true -> In e rids -> asks_reset_of e o = false ->
  rmach con busy rs rids o = (rs1, rids1, l) ->
  let fin := match o with OFinish e1 _ _ _ _ => (e1 =? e) && known_evseb con e && busy e | _ => false end in
  if fin then idle_resets e l = 1%nat /\ ~ In e rids1 else idle_resets e l = 0%nat /\ rs1 = true /\ In e rids1.
Proof.
  intros con busy rs rids o e rs1 rids1 l -> I A H fin. unfold fin. clear fin.
  destruct o; cbn [rmach] in H; try (inversion H; subst; auto; fail).
  - destruct (known_evseb con e0 && busy e0) eqn:K.
    + unfold on_end in H. destruct rids as [|a q]; [contradiction|].
      destruct (e0 =? e) eqn:Q.
      * apply Z.eqb_eq in Q. subst e0. cbn [andb]. rewrite K.
        destruct (existsb (Z.eqb e) (a :: q)) eqn:EX; [|apply in_existsb in I; congruence].
        inversion H; subst. split; [cbn; rewrite Z.eqb_refl; reflexivity|]. rewrite in_erase. tauto.
      * cbn [andb]. apply Z.eqb_neq in Q. destruct (existsb (Z.eqb e0) (a :: q)).
        -- inversion H; subst. cbn [idle_resets]. apply Z.eqb_neq in Q. rewrite Q. apply Z.eqb_neq in Q.
           assert (J : In e (set_erase e0 (a :: q))) by (apply in_erase; auto).
           destruct (set_erase e0 (a :: q)); [contradiction|]. auto.
        -- inversion H; subst. auto.
    + inversion H; subst. destruct (e0 =? e) eqn:Q; cbn [andb]; [|auto]. apply Z.eqb_eq in Q. subst e0. rewrite K. auto.
  - unfold on_request in H. destruct (_ && permitted _ _ _); [|inversion H; subst; auto].
    destruct (waits con busy e0 && _).
    + inversion H; subst. split; [reflexivity|]. split; [reflexivity|]. destruct e0; [apply in_insert; auto|exact I].
    + inversion H; subst. split; [|auto]. destruct e0; reflexivity.
Qed.
Lemma mach_none : forall con busy rs rids o e rs1 rids1 l, ~ In e rids -> asks_reset_of e o = false ->
  rmach con busy rs rids o = (rs1, rids1, l) -> idle_resets e l = 0%nat /\ ~ In e rids1.
Proof.
  intros con busy rs rids o e rs1 rids1 l I A H.
  destruct o; cbn [rmach] in H; try (inversion H; subst; auto; fail).
  - destruct (known_evseb con e0 && busy e0); [|inversion H; subst; auto].
    unfold on_end in H. destruct rs; [|inversion H; subst; auto]. destruct rids as [|a q].
    + destruct (any_busy _ _); inversion H; subst; auto.
    + destruct (existsb (Z.eqb e0) (a :: q)) eqn:EX; inversion H; subst; [|auto].
      split; [|rewrite in_erase; tauto]. cbn. destruct (e0 =? e) eqn:Q; [|reflexivity]. apply Z.eqb_eq in Q. subst e0.
      apply in_existsb in EX. contradiction.
  - unfold on_request in H. destruct (_ && permitted _ _ _); [|inversion H; subst; auto].
    destruct (waits con busy e0 && _).
    + inversion H; subst. split; [reflexivity|]. destruct e0 as [f|]; [|exact I]. rewrite in_insert.
      cbn in A. apply Z.eqb_neq in A. intros [X|X]; [congruence|contradiction].
    + inversion H; subst. split; [|auto]. destruct e0; reflexivity.
Qed.
Lemma none_run : forall h w e, no_restarts h -> no_crashes h -> Forall (fun k => asks_reset_of e (c_op k) = false) h ->
  ~ In e (w_rids w) -> idle_resets e (resets (added w (run w h))) = 0%nat.
Proof.
  induction h as [|k q IH]; intros w e R C A N.
  - unfold added. cbn [run fold_left]. rewrite skipn_all. reflexivity.
  - rewrite run_added by assumption. inversion R; inversion C; inversion A; subst.
    destruct (step_effect k w H1 H5) as (l&L&M&_). rewrite (added_app _ _ _ L). rewrite resets_app, idle_app.
    symmetry in M. destruct (mach_none _ _ _ _ _ e _ _ _ N H9 M) as (X&Y). rewrite X. cbn. apply IH; assumption.
Qed.
Lemma waiting_run : forall h w e, no_restarts h -> no_crashes h -> Forall (fun k => asks_reset_of e (c_op k) = false) h ->
  w_rs w = true -> In e (w_rids w) ->
  idle_resets e (resets (added w (run w h))) = if ends (w_con w) (busy_of w) e h then 1%nat else 0%nat.
Proof.
  induction h as [|k q IH]; intros w e R C A RS N.
  - unfold added. cbn [run fold_left]. rewrite skipn_all. reflexivity.
  - rewrite run_added by assumption. inversion R; inversion C; inversion A; subst.
    destruct (step_effect k w H1 H5) as (l&L&M&W&T). rewrite (added_app _ _ _ L). rewrite resets_app, idle_app.
    symmetry in M. pose proof (mach_waiting _ _ _ _ _ e _ _ _ RS N H9 M) as X. cbv zeta in X. cbn [ends].
    destruct (match c_op k with OFinish _ _ _ _ _ => _ | _ => _ end); cbn [orb].
    + destruct X as (X1&X2). rewrite X1. rewrite none_run; auto.
    + destruct X as (X1&X2&X3). rewrite X1. cbn [Nat.add]. rewrite IH by assumption.
      rewrite W. rewrite (ends_ext q _ _ _ e T). reflexivity.
Qed.
Lemma asked : forall w k e allow, known_evse (w_con w) e -> busy_of w e = true -> allow <> Some false ->
  c_op k = OResetReq (Some e) OnIdle true allow -> c_crash k = None ->
  w_rs (step w k) = true /\ In e (w_rids (step w k)) /\ resets (added w (step w k)) = [] /\
  w_con (step w k) = w_con w /\ (forall f, busy_of (step w k) f = busy_of w f).
Proof.
  intros w k e allow K B A O C. destruct (step_effect k w) as (l&L&M&W&T); [rewrite O; reflexivity|exact C|].
  rewrite O in M, T. cbn [rmach] in M. unfold on_request, waits in M.
  assert (K1 : known_evseb (w_con w) e = true) by (unfold known_evse in K; unfold known_evseb; apply andb_true_iff; rewrite !Z.leb_le; lia).
  assert (P1 : permitted (Some e) true allow = true) by (destruct allow as [[]|]; try reflexivity; congruence).
  rewrite K1, P1, B in M. cbn in M. inversion M. rewrite (added_app _ _ _ L). rewrite H0, H1, H2.
  split; [reflexivity|]. split; [apply in_insert; auto|]. split; [reflexivity|]. split; [exact W|exact T].
Qed.

(** ** Safety *)
Lemma only_when_idle : forall w k r, c_crash k = None -> In (r, OnIdle) (resets (added w (step w k))) ->
  is_restart (c_op k) = false ->
  exists e reason tr tok cs, c_op k = OFinish e reason tr tok cs /\ busy_of w e = true /\ busy_of (step w k) e = false /\
    known_evse (w_con w) e /\
    match r with Some f => f = e | None => forall f, known_evse (w_con w) f -> busy_of (step w k) f = false end.
Proof.
  intros w k r C I NR. destruct (step_effect k w NR C) as (l&L&M&W&T). rewrite (added_app _ _ _ L) in I. symmetry in M.
  destruct (c_op k) eqn:O; cbn [rmach] in M; try (inversion M as [[M1 M2 M3]]; rewrite <- M3 in I; contradiction).
  - destruct (known_evseb (w_con w) e && busy_of w e) eqn:K; [|inversion M as [[M1 M2 M3]]; rewrite <- M3 in I; contradiction].
    apply andb_true_iff in K. destruct K as (K&B). exists e, reason, tr, tok, cs.
    assert (BE : busy_of (step w k) e = false) by (rewrite T; cbn [track]; rewrite K; unfold update; rewrite Z.eqb_refl; reflexivity).
    split; [reflexivity|]. split; [exact B|]. split; [exact BE|].
    split. { unfold known_evseb in K. unfold known_evse. apply andb_true_iff in K. rewrite !Z.leb_le in K. lia. }
    unfold on_end in M. destruct (w_rs w); [|inversion M as [[M1 M2 M3]]; rewrite <- M3 in I; contradiction].
    destruct (w_rids w) as [|a q].
    + destruct (any_busy _ _) eqn:AB; inversion M as [[M1 M2 M3]]; rewrite <- M3 in I; [contradiction|].
      destruct I as [I|[]]. inversion I; subst r. intros f KF. rewrite T. cbn [track]. rewrite K.
      unfold any_busy in AB. destruct (update (busy_of w) e false f) eqn:U; [|reflexivity].
      assert (X : existsb (update (busy_of w) e false) (evse_ids (w_con w)) = true).
      { apply existsb_exists. exists f. split; [|exact U]. unfold evse_ids. apply in_map_iff. exists (Z.to_nat f).
        unfold known_evse in KF. split; [lia|]. apply in_seq. lia. }
      congruence.
    + destruct (existsb (Z.eqb e) (a :: q)); inversion M as [[M1 M2 M3]]; rewrite <- M3 in I; [|contradiction].
      destruct I as [I|[]]. inversion I. reflexivity.
  - exfalso. unfold on_request in M. destruct (_ && permitted _ _ _); [|inversion M as [[M1 M2 M3]]; rewrite <- M3 in I; contradiction].
    destruct (waits _ _ _ && _); inversion M as [[M1 M2 M3]]; rewrite <- M3 in I; [contradiction|].
    destruct I as [I|[]]. discriminate.
Qed.

(** ** The intended machine *)
Definition linked (con : list Z) (s : rspec) (busy : Z -> bool) (rs : bool) (rids : list Z) : Prop :=
  (forall f, a_busy s f = busy f) /\ (forall f, a_evse s f = existsb (Z.eqb f) rids) /\
  rs = a_station s || match rids with [] => false | _ => true end /\ (a_station s = true -> rids = []) /\
  (forall f, In f rids -> known_evseb con f = true).
Lemma known_in : forall con f, known_evseb con f = true -> In f (evse_ids con).
Proof.
  intros con f K. unfold known_evseb in K. apply andb_true_iff in K. rewrite !Z.leb_le in K.
  unfold evse_ids. apply in_map_iff. exists (Z.to_nat f). split; [lia|]. apply in_seq. lia.
Qed.
Lemma linked_step : forall con s busy rs rids o rs1 rids1 l, linked con s busy rs rids -> plain_request con s o = true ->
  rmach con busy rs rids o = (rs1, rids1, l) ->
  l = snd (rs_step con s o) /\ linked con (fst (rs_step con s o)) (track con busy o) rs1 rids1.
Proof.
  intros con s busy rs rids o rs1 rids1 l (L1&L2&L3&L4&L5) PL H.
  assert (TR : forall f, track con (a_busy s) o f = track con busy o f) by (apply track_ext; exact L1).
  assert (AB : any_busy con (a_busy s) = any_busy con busy) by (apply any_busy_ext; exact L1).
  assert (LK : linked con (RS (track con (a_busy s) o) (a_station s) (a_evse s)) (track con busy o) rs rids)
    by (split; [exact TR|split; [exact L2|split; [exact L3|split; [exact L4|exact L5]]]]).
  destruct o; cbn [rmach rs_step] in *;
    try (inversion H; subst rs1 rids1 l; split; [reflexivity|exact LK]).
  - (* finish *)
    rewrite L1. destruct (known_evseb con e && busy e) eqn:K.
    + apply andb_true_iff in K. destruct K as (K&B). cbn [track] in *. rewrite K in *. rewrite L2. unfold on_end in H. rewrite L3 in H.
      destruct (existsb (Z.eqb e) rids) eqn:EX.
      * destruct rids as [|a q]; [discriminate|]. rewrite orb_true_r in H. inversion H; subst rs1 rids1 l. cbn [fst snd]. split; [reflexivity|]. split; [exact TR|].
        assert (ST : a_station s = false) by (destruct (a_station s); [discriminate (L4 eq_refl)|reflexivity]).
        split; [|split; [|split]].
        -- intros f. cbn [a_evse]. unfold update. destruct (f =? e) eqn:Q.
           ++ apply Z.eqb_eq in Q. subst f. symmetry. apply not_true_iff_false. rewrite in_existsb, in_erase. tauto.
           ++ rewrite L2. apply Z.eqb_neq in Q. apply eq_true_iff_eq. rewrite !in_existsb, in_erase. tauto.
        -- cbn [a_station]. rewrite ST. reflexivity.
        -- cbn [a_station]. congruence.
        -- intros f I. apply in_erase in I. apply L5. tauto.
      * destruct rids as [|a q].
        -- rewrite orb_false_r in H. destruct (a_station s) eqn:ST; cbn [andb].
           ++ rewrite (any_busy_ext con (update (a_busy s) e false) (update busy e false)) by exact TR.
              destruct (any_busy con (update busy e false)); cbn [negb]; inversion H; subst rs1 rids1 l; cbn [fst snd].
              ** split; [reflexivity|]. split; [exact TR|]. ands; auto.
              ** split; [reflexivity|]. split; [exact TR|]. ands; auto.
           ++ inversion H; subst rs1 rids1 l. split; [reflexivity|]. split; [exact TR|]. ands; auto.
        -- rewrite orb_true_r in H.
           assert (ST : a_station s = false) by (destruct (a_station s); [discriminate (L4 eq_refl)|reflexivity]).
           rewrite ST. cbn [andb]. inversion H; subst rs1 rids1 l. split; [reflexivity|]. split; [exact TR|].
           ands; auto; cbn; discriminate.
    + inversion H; subst rs1 rids1 l. split; [reflexivity|]. cbn [fst]. split; [|ands; auto].
      intros f. rewrite L1. cbn [track]. destruct (known_evseb con e) eqn:KE; [|reflexivity]. cbn in K. unfold update.
      destruct (f =? e) eqn:Q; [|reflexivity]. apply Z.eqb_eq in Q. congruence.
  - (* request *)
    unfold on_request in H. cbn [track] in *.
    assert (LS : linked con s busy rs rids) by (split; [exact L1|ands; auto]).
    destruct e as [e|].
    + destruct (known_evseb con e && permitted (Some e) allowed allow) eqn:K.
      2:{ inversion H; subst rs1 rids1 l. split; [reflexivity|exact LS]. }
      destruct ty.
      * rewrite andb_false_r in H. inversion H; subst rs1 rids1 l. split; [reflexivity|exact LS].
      * cbn [plain_request] in PL. rewrite K in PL. cbn [negb orb] in PL. rewrite L1 in *. unfold waits in H.
        destruct (busy e) eqn:BE; cbn [orb andb] in H.
        -- inversion H; subst rs1 rids1 l. split; [reflexivity|]. apply negb_true_iff in PL. cbn [fst]. split; [exact L1|].
           apply andb_true_iff in K. destruct K as (K&_). split; [|split; [|split]].
           ++ intros f. cbn [a_evse]. unfold update. rewrite L2. apply eq_true_iff_eq. rewrite in_existsb, in_insert.
              destruct (f =? e) eqn:Q; [apply Z.eqb_eq in Q|apply Z.eqb_neq in Q; rewrite in_existsb]; intuition congruence.
           ++ cbn [a_station]. rewrite PL. cbn [orb]. assert (I : In e (set_insert e rids)) by (apply in_insert; auto).
              destruct (set_insert e rids); [contradiction|reflexivity].
           ++ cbn [a_station]. congruence.
           ++ intros f I. apply in_insert in I. destruct I as [-> |I]; auto.
        -- rewrite AB in PL. apply negb_true_iff in PL. rewrite PL in H. inversion H; subst rs1 rids1 l. split; [reflexivity|exact LS].
    + cbn [andb] in H. destruct (permitted None allowed allow) eqn:K.
      2:{ inversion H; subst rs1 rids1 l. split; [reflexivity|exact LS]. }
      destruct ty.
      * rewrite andb_false_r in H. inversion H; subst rs1 rids1 l. split; [reflexivity|exact LS].
      * cbn [plain_request] in PL. rewrite K, AB in PL. cbn [andb] in PL. unfold waits in H. rewrite AB.
        destruct (any_busy con busy); cbn [andb negb orb] in *.
        -- inversion H; subst rs1 rids1 l. split; [reflexivity|]. cbn [fst].
           assert (E : rids = []).
           { destruct rids as [|a q]; [reflexivity|]. exfalso. apply negb_true_iff in PL.
             assert (X : existsb (a_evse s) (evse_ids con) = true); [|congruence]. apply existsb_exists. exists a.
             split; [apply known_in; apply L5; left; reflexivity|]. rewrite L2. cbn. rewrite Z.eqb_refl. reflexivity. }
           split; [exact L1|]. split; [exact L2|]. split; [reflexivity|]. split; [auto|exact L5].
        -- inversion H; subst rs1 rids1 l. split; [reflexivity|exact LS].
Qed.
Lemma linked_ext : forall con s b b1 rs rids, linked con s b rs rids -> (forall e, b1 e = b e) -> linked con s b1 rs rids.
Proof. intros con s b b1 rs rids (A1&A2) E. split; [|exact A2]. intros f. rewrite E. apply A1. Qed.
Lemma refinement : forall h w s, no_restarts h -> no_crashes h -> plain (w_con w) s h = true ->
  linked (w_con w) s (busy_of w) (w_rs w) (w_rids w) ->
  resets (added w (run w h)) = snd (rs_run (w_con w) s h).
Proof.
  induction h as [|k q IH]; intros w s R C PL L.
  - unfold added. cbn [run fold_left]. rewrite skipn_all. reflexivity.
  - rewrite run_added by assumption. inversion R; inversion C; subst. cbn [plain] in PL. apply andb_true_iff in PL.
    destruct PL as (P1&P2). destruct (step_effect k w H1 H5) as (l&O&M&W&T). rewrite (added_app _ _ _ O), resets_app.
    symmetry in M. destruct (linked_step _ _ _ _ _ _ _ _ _ L P1 M) as (X1&X2). cbn [rs_run].
    destruct (rs_step (w_con w) s (c_op k)) as [s1 l1] eqn:E. cbn [fst snd] in *.
    rewrite <- W in P2. rewrite (IH (step w k) s1); auto.
    + rewrite W, X1. destruct (rs_run (w_con w) s1 q) as [s2 l2]. reflexivity.
    + rewrite W. eapply linked_ext; [exact X2|exact T].
Qed.

(** ** What a reset request puts out *)
Definition vis (outs : list out) (w w1 : world) : Prop := exists l, w_out w1 = w_out w ++ l /\ visible l = outs.
Lemma vis_refl : forall w, vis [] w w.
Proof. intros w. exists []. rewrite app_nil_r. split; reflexivity. Qed.
Lemma visible_app : forall a b, visible (a ++ b) = visible a ++ visible b.
Proof. intros. apply filter_app. Qed.
Lemma vis_trans : forall a b o p c, vis o a b -> vis p b c -> vis (o ++ p) a c.
Proof.
  intros a b o p c (l&L&E) (m&M&F). exists (l ++ m). rewrite M, L, app_assoc, visible_app, E, F. split; reflexivity.
Qed.
Lemma vis_seq : forall f g w, w_prog w = Running -> (forall v, w_prog v = Running -> vis [] v (f v)) ->
  (forall v, w_prog v = Running -> vis [] v (g v)) -> vis [] w ((f ;; g) w).
Proof.
  intros f g w P F G. unfold seqw. specialize (F w P). destruct (w_prog (f w)) eqn:Q; try exact F.
  exact (vis_trans _ _ [] [] _ F (G _ Q)).
Qed.
Lemma vis_foreach : forall A (l : list A) f w, w_prog w = Running -> (forall x v, w_prog v = Running -> vis [] v (f x v)) ->
  vis [] w (foreach l f w).
Proof.
  induction l as [|x q IH]; intros f w P F; [apply vis_refl|]. cbn [foreach]. apply vis_seq; auto.
Qed.
Lemma visible_av : forall l, visible (map OAv l) = [].
Proof. induction l; cbn; auto. Qed.
Lemma vis_csm : forall o w, vis [] w (csm o w).
Proof.
  intros o w. unfold csm, durable.
  assert (X : forall v, w_out v = w_out w -> vis [] w (let '(s, outs, r) := CsmModel.step (w_csm v) o in
    set_w_prog (match r with CsmModel.Ok => w_prog v | _ => Threw end) (set_w_out (w_out v ++ map OAv outs) (set_w_csm s v)))).
  { intros v E. destruct (CsmModel.step (w_csm v) o) as [[s outs] r]. exists (map OAv outs). cbn. rewrite E, visible_av. auto. }
  destruct (w_budget w) as [[|n]|]; [exists []; cbn; rewrite app_nil_r; auto|apply X; reflexivity|apply X; reflexivity].
Qed.
Lemma vis_get : forall e w, vis [] w (get_evse e w).
Proof. intros. unfold get_evse. destruct (evse_ok w e); exists []; cbn; rewrite app_nil_r; auto. Qed.
Lemma pop_out : forall w b w1, pop_fail w = (b, w1) -> w_out w1 = w_out w.
Proof. intros w b w1 H. unfold pop_fail in H. destruct (w_fail w); inversion H; reflexivity. Qed.
Lemma vis_from : forall o w v w1, w_out v = w_out w -> vis o v w1 -> vis o w w1.
Proof. intros o w v w1 E (l&L&F). exists l. rewrite <- E. auto. Qed.
Lemma vis_set_conn : forall e c s p w, w_prog w = Running -> vis [] w (set_conn_operative e c s p w).
Proof.
  intros e c s p w P. unfold set_conn_operative. apply vis_seq; [exact P|intros; apply vis_get|].
  intros v _. destruct (negb (has_connector v e c)); [exists []; cbn; rewrite app_nil_r; auto|].
  destruct (pop_fail v) as [f v1] eqn:E. apply pop_out in E. eapply vis_from; [exact E|apply vis_csm].
Qed.
Lemma vis_connectors : forall e w, w_prog w = Running -> vis [] w (connectors_unavailable e w).
Proof. intros. unfold connectors_unavailable. apply vis_foreach; auto. intros. apply vis_set_conn. assumption. Qed.
Lemma stops_out : forall l w, w_budget w = None -> w_prog w = Running ->
  w_out (foreach l (fun e => emit (OStopTx e ImmediateReset)) w) = w_out w ++ map (fun e => OStopTx e ImmediateReset) l.
Proof.
  induction l as [|x q IH]; intros w B P; cbn [foreach map]; [rewrite app_nil_r; reflexivity|].
  destruct (smooth_emit (OStopTx x ImmediateReset) w B P) as (B1&P1). rewrite seqw_run by exact P1.
  rewrite IH by assumption. rewrite emit_alive by exact B. cbn [w_out set_w_out]. rewrite <- app_assoc. reflexivity.
Qed.
Lemma visible_stops : forall l, visible (map (fun e => OStopTx e ImmediateReset) l) = map (fun e => OStopTx e ImmediateReset) l.
Proof. induction l; cbn; [|unfold visible in IHl; rewrite IHl]; auto. Qed.
Lemma request_outputs : forall ev ty allowed allow w, w_budget w = None -> w_prog w = Running ->
  vis (if match ev with Some e => known_evseb (w_con w) e | None => true end then
         let ok := permitted ev allowed allow in
         let a := reset_answer (w_con w) (busy_of w) ev ty ok in
         OResetResp a ::
         (match ty, ok with
          | Immediate, true =>
              map (fun e => OStopTx e ImmediateReset)
                match ev with
                | Some e => if busy_of w e then [e] else filter (busy_of w) (evse_ids (w_con w))
                | None => filter (busy_of w) (evse_ids (w_con w))
                end
          | _, _ => []
          end) ++
         match a with Accepted => [OReset ev Immediate] | _ => [] end
       else []) w (handle_reset ev ty allowed allow w).
Proof.
  intros ev ty allowed allow w B P. unfold handle_reset.
  assert (KN : match ev with Some e => known_evseb (w_con w) e | None => true end = true \/
               exists e, ev = Some e /\ known_evseb (w_con w) e = false).
  { destruct ev as [e|]; [|auto]. destruct (known_evseb (w_con w) e) eqn:K; eauto. }
  destruct KN as [KN|(e&->&KN)].
  2:{ rewrite KN. assert (GE : get_evse e w = throw w) by (unfold get_evse; rewrite evse_ok_known, KN; reflexivity).
      rewrite seqw_stop by (rewrite GE; discriminate). rewrite GE. exists []. cbn. rewrite app_nil_r. auto. }
  rewrite KN.
  assert (G : (match ev with Some e => get_evse e | None => skip end) w = w).
  { destruct ev as [e|]; [|reflexivity]. unfold get_evse. rewrite evse_ok_known, KN. reflexivity. }
  rewrite seqw_run by (rewrite G; exact P). rewrite G. cbv beta zeta.
  set (own := match ev with Some e => active w e | None => false end).
  set (busy := if own then match ev with Some e => [e] | None => [] end else filter (active w) (evses w)).
  set (idle := if own then [] else filter (fun e => negb (active w e)) (evses w)).
  assert (BU : busy = match ev with
                | Some e => if busy_of w e then [e] else filter (busy_of w) (evse_ids (w_con w))
                | None => filter (busy_of w) (evse_ids (w_con w))
                end).
  { unfold busy, own. rewrite evses_ids. destruct ev; [unfold busy_of at 1; unfold active at 1; destruct (w_tx w z)|]; reflexivity. }
  assert (ACT : match busy with [] => false | _ => true end =
    any_busy (w_con w) (busy_of w) || match ev with Some e => busy_of w e | None => false end).
  { rewrite BU. destruct ev as [e|].
    - destruct (busy_of w e); [rewrite orb_true_r; reflexivity|rewrite orb_false_r; apply filter_existsb].
    - rewrite orb_false_r. apply filter_existsb. }
  assert (OK : allowed && match ev with None => true | Some _ => match allow with Some b => b | None => true end end = permitted ev allowed allow).
  { unfold permitted. destruct ev, allow; reflexivity. }
  rewrite OK, ACT. rewrite <- BU. unfold reset_answer. set (act := _ || _) in *.
  assert (RS : forall v a rest, w_budget v = None -> w_prog v = Running -> w_out v = w_out w -> forall o,
     (forall v1, w_budget v1 = None -> w_prog v1 = Running -> vis o v1 (rest v1)) ->
     vis (OResetResp a :: o) w ((emit (OResetResp a) ;; rest) v)).
  { intros v a rest VB VP VO o H. destruct (smooth_emit (OResetResp a) v VB VP) as (B1&P1). rewrite seqw_run by exact P1.
    apply (vis_from _ w v); [exact VO|]. apply (vis_trans _ (emit (OResetResp a) v) [OResetResp a] o); [|apply H; assumption].
    rewrite emit_alive by exact VB. exists [OResetResp a]. split; reflexivity. }
  destruct (permitted ev allowed allow); cbn [andb].
  2:{ rewrite seqw_run by exact P. change (skip w) with w. destruct ty; cbn [app]; apply RS; auto;
      intros v1 _ P1; rewrite seqw_run by exact P1; apply vis_refl. }
  destruct ty.
  - rewrite andb_false_r. cbn [negb]. rewrite seqw_run by exact P. change (skip w) with w. apply RS; auto.
    intros v1 B1 P1.
    assert (ST : smooth (if act then foreach busy (fun e => emit (OStopTx e ImmediateReset)) else skip))
      by (destruct act; [apply stop_each|apply smooth_skip]).
    destruct (ST v1 B1 P1) as (B2&P2). rewrite seqw_run by exact P2.
    eapply (vis_trans _ ((if act then foreach busy (fun e => emit (OStopTx e ImmediateReset)) else skip) v1)).
    + destruct act.
      * eexists. split; [apply stops_out; assumption|apply visible_stops].
      * destruct busy; [|discriminate ACT]. apply vis_refl.
    + rewrite emit_alive by exact B2. exists [OReset ev Immediate]. split; reflexivity.
  - rewrite andb_true_r. destruct act eqn:AC; cbn [negb app].
    + assert (P1 : w_prog (schedule_reset ev w) = Running) by (destruct ev; exact P).
      rewrite seqw_run by exact P1. apply RS; auto; [destruct ev; exact B|destruct ev; reflexivity|].
      intros v1 _ P2. apply vis_seq; auto.
      * intros v VP. apply vis_foreach; auto. intros. apply vis_connectors. assumption.
      * intros. apply vis_refl.
    + rewrite seqw_run by exact P. change (skip w) with w. apply RS; auto. intros v1 B1 P1. rewrite seqw_run by exact P1.
      change (skip v1) with v1. rewrite emit_alive by exact B1. exists [OReset ev Immediate]. split; reflexivity.
Qed.
Lemma added_vis : forall w w1 l o, w_out w1 = w_out w ++ l -> visible l = o -> visible (added w w1) = o.
Proof. intros w w1 l o L V. rewrite (added_app _ _ _ L). exact V. Qed.
Lemma smooth_alive : forall k w w1, exec (c_op k) (set_w_prog Running (set_w_budget (c_crash k) (set_w_fail (c_fail k) w))) = w1 ->
  w_prog w1 <> Dead -> step w k = w1.
Proof. intros k w w1 E N. unfold step. cbv zeta. rewrite E. destruct (w_prog w1); congruence. Qed.
Lemma reset_step_outputs : forall w k ev ty allowed allow, c_op k = OResetReq ev ty allowed allow -> c_crash k = None ->
  visible (added w (step w k)) =
    if match ev with Some e => known_evseb (w_con w) e | None => true end then
      let ok := permitted ev allowed allow in
      let a := reset_answer (w_con w) (busy_of w) ev ty ok in
      OResetResp a ::
      (match ty, ok with
       | Immediate, true =>
           map (fun e => OStopTx e ImmediateReset)
             match ev with
             | Some e => if busy_of w e then [e] else filter (busy_of w) (evse_ids (w_con w))
             | None => filter (busy_of w) (evse_ids (w_con w))
             end
       | _, _ => []
       end) ++
      match a with Accepted => [OReset ev Immediate] | _ => [] end
    else [].
Proof.
  intros w k ev ty allowed allow O C. set (w0 := set_w_prog Running (set_w_budget (c_crash k) (set_w_fail (c_fail k) w))).
  assert (B : w_budget w0 = None) by exact C. assert (P : w_prog w0 = Running) by reflexivity.
  pose proof (request_effect ev ty allowed allow w0 B P) as (_&ND&_).
  destruct (request_outputs ev ty allowed allow w0 B P) as (l&L&V).
  rewrite (smooth_alive k w (handle_reset ev ty allowed allow w0)); [|rewrite O; reflexivity|exact ND].
  eapply added_vis; [exact L|exact V].
Qed.

(** ** A reset of the station *)
Lemma idle_ext : forall h con f g, (forall x, f x = g x) -> becomes_idle con f h = becomes_idle con g h.
Proof.
  induction h as [|k q IH]; intros con f g E; [reflexivity|]. cbn [becomes_idle].
  rewrite (IH con _ _ (track_ext con f g (c_op k) E)), (any_busy_ext con _ _ (track_ext con f g (c_op k) E)). reflexivity.
Qed.
Lemma plain_no_requests : forall h con s, Forall (fun k => is_reset_request (c_op k) = false) h -> plain con s h = true.
Proof.
  induction h as [|k q IH]; intros con s F; [reflexivity|]. inversion F; subst. cbn [plain]. rewrite IH by assumption.
  destruct (c_op k); try reflexivity. discriminate.
Qed.
Lemma rs_none : forall h con s, Forall (fun k => is_reset_request (c_op k) = false) h -> a_station s = false ->
  (forall f, a_evse s f = false) -> snd (rs_run con s h) = [].
Proof.
  induction h as [|k q IH]; intros con s F S E; [reflexivity|]. inversion F; subst. cbn [rs_run].
  assert (X : snd (rs_step con s (c_op k)) = [] /\ a_station (fst (rs_step con s (c_op k))) = false /\
    forall f, a_evse (fst (rs_step con s (c_op k))) f = false).
  { destruct (c_op k); try discriminate; cbn; auto. rewrite E, S. cbn. destruct (_ && _); cbn; auto. }
  destruct (rs_step con s (c_op k)) as [s1 l1]. destruct X as (X1&X2&X3). cbn [fst snd] in *. subst l1.
  specialize (IH con s1 H2 X2 X3). destruct (rs_run con s1 q) as [s2 l2]. exact IH.
Qed.
Lemma rs_station : forall h con s, Forall (fun k => is_reset_request (c_op k) = false) h -> a_station s = true ->
  (forall f, a_evse s f = false) -> any_busy con (a_busy s) = true ->
  snd (rs_run con s h) = if becomes_idle con (a_busy s) h then [(None, OnIdle)] else [].
Proof.
  induction h as [|k q IH]; intros con s F S E B; [reflexivity|]. inversion F; subst. cbn [rs_run becomes_idle].
  assert (X : forall f, a_busy (fst (rs_step con s (c_op k))) f = track con (a_busy s) (c_op k) f).
  { intros f. destruct (c_op k); try discriminate; try reflexivity. cbn [rs_step track].
    destruct (known_evseb con e) eqn:K; cbn [andb]; [|reflexivity].
    destruct (a_busy s e) eqn:BE.
    - destruct (a_evse s e); [reflexivity|]. destruct (a_station s && _); reflexivity.
    - unfold update. cbn [fst]. destruct (f =? e) eqn:Q; [|reflexivity]. apply Z.eqb_eq in Q. congruence. }
  assert (Y : (any_busy con (track con (a_busy s) (c_op k)) = true /\ snd (rs_step con s (c_op k)) = [] /\
               a_station (fst (rs_step con s (c_op k))) = true) \/
              (any_busy con (track con (a_busy s) (c_op k)) = false /\ snd (rs_step con s (c_op k)) = [(None, OnIdle)] /\
               a_station (fst (rs_step con s (c_op k))) = false)).
  { destruct (c_op k); try discriminate; cbn [rs_step track fst snd a_station]; auto.
    - left. split; [|auto]. destruct (_ && _); [|exact B]. unfold any_busy in *. apply existsb_exists in B. destruct B as (x&I&BX).
      apply existsb_exists. exists x. split; [exact I|]. unfold update. destruct (x =? e); auto.
    - destruct (known_evseb con e) eqn:K; cbn [andb]; [|left; auto].
      destruct (a_busy s e) eqn:BE; cbn [fst snd].
      + rewrite E, S. cbn [andb]. destruct (any_busy con (update (a_busy s) e false)) eqn:A; cbn; auto.
      + left. split; [|auto]. rewrite <- B. apply any_busy_ext. intros x. unfold update. destruct (x =? e) eqn:Q; [|reflexivity].
        apply Z.eqb_eq in Q. congruence. }
  assert (Z1 : forall f, a_evse (fst (rs_step con s (c_op k))) f = false).
  { destruct (c_op k); try discriminate; cbn; auto. rewrite E. destruct (_ && _); cbn; [|auto]. destruct (_ && _); cbn; auto. }
  destruct (rs_step con s (c_op k)) as [s1 l1]. cbn [fst snd] in *.
  destruct Y as [(Y1&Y2&Y3)|(Y1&Y2&Y3)]; rewrite Y1, Y2; cbn [negb orb].
  - rewrite <- (idle_ext q con _ _ X).
    assert (BS : any_busy con (a_busy s1) = true) by (rewrite <- Y1; apply any_busy_ext; exact X).
    specialize (IH con s1 H2 Y3 Z1 BS). destruct (rs_run con s1 q). exact IH.
  - pose proof (rs_none q con s1 H2 Y3 Z1) as R. destruct (rs_run con s1 q). cbn [snd] in *. rewrite R. reflexivity.
Qed.
Lemma station_run : forall w k ev allow h, c_op k = OResetReq None OnIdle ev allow -> permitted None ev allow = true ->
  any_busy (w_con w) (busy_of w) = true -> w_rids w = [] -> c_crash k = None ->
  no_crashes h -> no_restarts h -> Forall (fun k => is_reset_request (c_op k) = false) h ->
  resets (added (step w k) (run (step w k) h)) = if becomes_idle (w_con w) (busy_of w) h then [(None, OnIdle)] else [].
Proof.
  intros w k ev allow h O P B E C NC NR NQ. destruct (step_effect k w) as (l&L&M&W&T); [rewrite O; reflexivity|exact C|].
  rewrite O in M, T. cbn [rmach] in M. unfold on_request, waits in M. rewrite P, B, E in M. cbn in M.
  assert (M1 : w_rs (step w k) = true) by congruence. assert (M2 : w_rids (step w k) = []) by congruence.
  rewrite (refinement h (step w k) (RS (busy_of w) true (fun _ => false))); auto.
  - rewrite W. rewrite rs_station; [reflexivity|exact NQ|reflexivity|reflexivity|exact B].
  - apply plain_no_requests. exact NQ.
  - split; [intros f; rewrite T; reflexivity|]. cbn. rewrite M1, M2. ands; auto.
Qed.
