(** Proofs about the availability and connector status bookkeeping. *)
From Coq Require Import List ZArith Bool Lia FinFun.
From Verif Require Import CsmModel CsmSpec.
Import ListNotations.
Open Scope Z_scope.

Lemma opstat_eqb_eq : forall a b, opstat_eqb a b = true <-> a = b.
Proof. intros [] []; split; intros; try reflexivity; discriminate. Qed.
Lemma opstat_eqb_refl : forall a, opstat_eqb a a = true.
Proof. intros []; reflexivity. Qed.
Lemma cstat_eqb_eq : forall a b, cstat_eqb a b = true <-> a = b.
Proof. intros [] []; split; intros; try reflexivity; discriminate. Qed.

Lemma in_ids : forall n i, In i (ids n) <-> 1 <= i <= n.
Proof.
  intros n i. unfold ids. rewrite in_map_iff. split.
  - intros [x [<- H]]. apply in_seq in H. lia.
  - intros H. exists (Z.to_nat i). rewrite in_seq. lia.
Qed.
Lemma nodup_ids : forall n, NoDup (ids n).
Proof.
  intros n. unfold ids. apply FinFun.Injective_map_NoDup; [|apply seq_NoDup].
  intros a b H. lia.
Qed.
Definition mem (x : Z) (l : list Z) : bool := existsb (Z.eqb x) l.
Lemma mem_in : forall x l, mem x l = true <-> In x l.
Proof.
  intros x l. unfold mem. rewrite existsb_exists. split.
  - intros [y [H E]]. apply Z.eqb_eq in E. subst. exact H.
  - intros H. exists x. split; [exact H|apply Z.eqb_refl].
Qed.
Lemma mem_false : forall x l, mem x l = false <-> ~ In x l.
Proof. intros. rewrite <- mem_in. destruct (mem x l); split; intros; try congruence. Qed.

Lemma cs_calls_app : forall a b, cs_calls (a ++ b) = cs_calls a ++ cs_calls b.
Proof. intros. apply flat_map_app. Qed.
Lemma evse_calls_app : forall e a b, evse_calls e (a ++ b) = evse_calls e a ++ evse_calls e b.
Proof. intros. apply flat_map_app. Qed.
Lemma conn_calls_app : forall e c a b, conn_calls e c (a ++ b) = conn_calls e c a ++ conn_calls e c b.
Proof. intros. apply flat_map_app. Qed.
Lemma notes_app : forall e c a b, notes e c (a ++ b) = notes e c a ++ notes e c b.
Proof. intros. apply flat_map_app. Qed.

(** Everything the callbacks do not touch. *)
Definition core (s : st) :=
  (s_db s, s_up s, s_cs s, s_nev s, s_ncon s, s_ev s, s_con s, s_rep s, (s_cbcs s, s_cbev s, s_cbcon s)).
Definition need (b : bool) (old new : opstat) : bool := negb b || negb (opstat_eqb old new).

Lemma core_eff : forall s s', core s = core s' ->
  (forall e, evse_effective s e = evse_effective s' e) /\ (forall e c, conn_effective s e c = conn_effective s' e c).
Proof.
  intros s s' H. unfold core in H.
  assert (A : s_cs s = s_cs s') by congruence. assert (B : s_ev s = s_ev s') by congruence.
  assert (C : s_con s = s_con s') by congruence.
  unfold conn_effective, evse_effective. rewrite A, B, C. split; reflexivity.
Qed.

Lemma trigger_conn_spec : forall b e c s s2 o, trigger_conn b e c s = (s2, o) ->
  core s2 = core s /\ s_lcs s2 = s_lcs s /\ s_lev s2 = s_lev s /\
  (forall e' c', s_lcon s2 e' c' = if (e' =? e) && (c' =? c) then conn_effective s e c else s_lcon s e' c') /\
  o = (if s_cbcon s && need b (s_lcon s e c) (conn_effective s e c) then [OConn e c (conn_effective s e c)] else []).
Proof.
  intros b e c s s2 o H. unfold trigger_conn in H. unfold need.
  destruct (negb b || negb (opstat_eqb (s_lcon s e c) (conn_effective s e c))) eqn:N; inversion H; subst; clear H.
  - repeat split; try reflexivity. destruct (s_cbcon s); reflexivity.
  - apply orb_false_iff in N. destruct N as [_ N]. apply negb_false_iff, opstat_eqb_eq in N.
    repeat split; try reflexivity.
    + intros. destruct ((e' =? e) && (c' =? c)) eqn:E; [|reflexivity].
      apply andb_true_iff in E. destruct E as [E1 E2]. apply Z.eqb_eq in E1, E2. subst. exact N.
    + rewrite andb_false_r. reflexivity.
Qed.

Definition only_conn (e : Z) (o : list out) : Prop := forall x, In x o -> exists c v, x = OConn e c v.

Lemma conn_loop : forall b e l s s2 o, NoDup l -> loop (trigger_conn b e) l s = (s2, o) ->
  core s2 = core s /\ s_lcs s2 = s_lcs s /\ s_lev s2 = s_lev s /\
  (forall e' c', s_lcon s2 e' c' = if (e' =? e) && mem c' l then conn_effective s e c' else s_lcon s e' c') /\
  (forall e' c', conn_calls e' c' o =
     if (e' =? e) && mem c' l && s_cbcon s && need b (s_lcon s e c') (conn_effective s e c')
     then [conn_effective s e c'] else []) /\
  only_conn e o.
Proof.
  induction l as [|c q IH]; intros s s2 o ND H.
  - inversion H; subst. repeat split; try reflexivity; intros.
    + rewrite andb_false_r. reflexivity.
    + rewrite andb_false_r. reflexivity.
    + intros x [].
  - cbn [loop] in H. destruct (trigger_conn b e c s) as [s1 o1] eqn:T.
    destruct (loop (trigger_conn b e) q s1) as [s3 o3] eqn:L. inversion H; subst; clear H.
    inversion ND as [|? ? Nc Nq]; subst.
    destruct (trigger_conn_spec _ _ _ _ _ _ T) as (C1 & A1 & A2 & A3 & A4).
    destruct (IH _ _ _ Nq L) as (D1 & B1 & B2 & B3 & B4 & B5).
    destruct (core_eff _ _ C1) as [F1 F2].
    assert (CB : s_cbcon s1 = s_cbcon s) by (unfold core in C1; congruence).
    repeat match goal with |- _ /\ _ => split end; try congruence.
    + intros e' c'. rewrite B3, A3, F2. cbn [mem existsb]. fold (mem c' q).
      destruct (Z.eqb_spec e' e); cbn [andb]; [subst|reflexivity].
      destruct (Z.eqb_spec c' c) as [->|]; cbn [orb andb]; [|reflexivity].
      destruct (mem c q); reflexivity.
    + intros e' c'. rewrite conn_calls_app, B4, A3, F2, CB. cbn [mem existsb]. fold (mem c' q).
      destruct (Z.eqb_spec c' c) as [->|NE]; cbn [orb andb].
      * assert (M : mem c q = false) by (apply mem_false; exact Nc). rewrite M.
        rewrite andb_false_r. cbn [andb]. rewrite app_nil_r, A4.
        destruct (Z.eqb_spec e' e) as [->|NE]; cbn [andb].
        -- destruct (s_cbcon s && need b (s_lcon s e c) (conn_effective s e c)); [|reflexivity].
           unfold conn_calls. cbn [flat_map]. rewrite !Z.eqb_refl. reflexivity.
        -- destruct (s_cbcon s && need b (s_lcon s e c) (conn_effective s e c)); [|reflexivity].
           unfold conn_calls. cbn [flat_map]. destruct (Z.eqb_spec e e'); [congruence|]. reflexivity.
      * rewrite andb_false_r. assert (Z0 : conn_calls e' c' o1 = []).
        { rewrite A4. destruct (s_cbcon s && _); [|reflexivity]. unfold conn_calls. cbn [flat_map].
          destruct (Z.eqb_spec c c'); [congruence|]. rewrite andb_false_r. reflexivity. }
        rewrite Z0. reflexivity.
    + intros x I. apply in_app_or in I. destruct I as [I|I]; [|apply B5; exact I].
      rewrite A4 in I. destruct (s_cbcon s && _); [|destruct I]. destruct I as [<-|[]]. eauto.
Qed.

Lemma only_conn_nil : forall e o, only_conn e o -> cs_calls o = [] /\ forall e', evse_calls e' o = [].
Proof.
  intros e o. induction o as [|x q IH]; intros H; [split; reflexivity|].
  destruct (H x (or_introl eq_refl)) as (c & v & ->).
  assert (Hq : only_conn e q) by (intros y Hy; apply H; right; exact Hy).
  destruct (IH Hq) as [A B]. split; [exact A|intros e'; apply B].
Qed.
Lemma only_conn_notes : forall e o, only_conn e o -> forall e' c', notes e' c' o = [].
Proof.
  intros e o. induction o as [|x q IH]; intros H e' c'; [reflexivity|].
  destruct (H x (or_introl eq_refl)) as (c & v & ->).
  apply IH. intros y Hy; apply H; right; exact Hy.
Qed.

(** ** One EVSE *)

Lemma trigger_evse_spec : forall b e s s2 o, trigger_evse b e s = (s2, o) ->
  (b = true -> s_lev s e = evse_effective s e -> forall c, 1 <= c <= s_ncon s e -> s_lcon s e c = conn_effective s e c) ->
  core s2 = core s /\ s_lcs s2 = s_lcs s /\
  (forall e', s_lev s2 e' = if e' =? e then evse_effective s e else s_lev s e') /\
  (forall e' c', s_lcon s2 e' c' =
     if (e' =? e) && mem c' (ids (s_ncon s e)) then conn_effective s e c' else s_lcon s e' c') /\
  cs_calls o = [] /\ (forall e' c', notes e' c' o = []) /\
  (forall e', evse_calls e' o =
     if (e' =? e) && s_cbev s && need b (s_lev s e) (evse_effective s e) then [evse_effective s e] else []) /\
  (forall e' c', conn_calls e' c' o =
     if (e' =? e) && mem c' (ids (s_ncon s e)) && s_cbcon s && need b (s_lcon s e c') (conn_effective s e c')
     then [conn_effective s e c'] else []).
Proof.
  intros b e s s2 o H HS. unfold trigger_evse in H.
  change (negb b || negb (opstat_eqb (s_lev s e) (evse_effective s e))) with
    (need b (s_lev s e) (evse_effective s e)) in H.
  destruct (need b (s_lev s e) (evse_effective s e)) eqn:N.
  - destruct (loop (trigger_conn b e) (ids (s_ncon s e)) (set_s_lev (fupd (s_lev s) e (evse_effective s e)) s))
      as [s3 o3] eqn:L.
    inversion H; subst; clear H.
    destruct (conn_loop _ _ _ _ _ _ (nodup_ids _) L) as (C & A1 & A2 & A3 & A4 & A5).
    destruct (only_conn_nil _ _ A5) as [A6 A7].
    set (s1 := set_s_lev (fupd (s_lev s) e (evse_effective s e)) s) in *.
    assert (CS : core s1 = core s) by reflexivity.
    destruct (core_eff _ _ CS) as [F1 F2].
    repeat match goal with |- _ /\ _ => split end.
    + congruence.
    + exact A1.
    + intros e'. rewrite A2. reflexivity.
    + intros e' c'. rewrite A3, F2. reflexivity.
    + rewrite cs_calls_app, A6. destruct (s_cbev s); reflexivity.
    + intros e' c'. rewrite notes_app, (only_conn_notes _ _ A5). destruct (s_cbev s); reflexivity.
    + intros e'. rewrite evse_calls_app, A7, app_nil_r. destruct (s_cbev s); unfold evse_calls; cbn [flat_map].
      * rewrite (Z.eqb_sym e e'). destruct (e' =? e); reflexivity.
      * rewrite andb_false_r. reflexivity.
    + intros e' c'. rewrite conn_calls_app, A4, F2.
      replace (conn_calls e' c' (if s_cbev s then [OEvse e (evse_effective s e)] else [])) with (@nil opstat)
        by (destruct (s_cbev s); reflexivity).
      reflexivity.
  - inversion H; subst; clear H. unfold need in N. apply orb_false_iff in N. destruct N as [N1 N2].
    apply negb_false_iff in N1, N2. apply opstat_eqb_eq in N2. specialize (HS N1 N2). subst b.
    repeat match goal with |- _ /\ _ => split end; try reflexivity; intros.
    + destruct (Z.eqb_spec e' e); [subst; exact N2|reflexivity].
    + destruct (Z.eqb_spec e' e); cbn [andb]; [subst|reflexivity].
      destruct (mem c' (ids (s_ncon s2 e))) eqn:M; [|reflexivity].
      apply HS. apply in_ids. apply mem_in. exact M.
    + rewrite andb_false_r. reflexivity.
    + destruct (Z.eqb_spec e' e); cbn [andb]; [subst|reflexivity].
      destruct (mem c' (ids (s_ncon s2 e))) eqn:M; [|reflexivity].
      rewrite HS by (apply in_ids; apply mem_in; exact M). unfold need. rewrite opstat_eqb_refl.
      rewrite andb_false_r. reflexivity.
Qed.

Lemma evse_loop : forall b l s s2 o, NoDup l -> loop (trigger_evse b) l s = (s2, o) ->
  (b = true -> forall e, In e l -> s_lev s e = evse_effective s e ->
    forall c, 1 <= c <= s_ncon s e -> s_lcon s e c = conn_effective s e c) ->
  core s2 = core s /\ s_lcs s2 = s_lcs s /\
  (forall e', s_lev s2 e' = if mem e' l then evse_effective s e' else s_lev s e') /\
  (forall e' c', s_lcon s2 e' c' =
     if mem e' l && mem c' (ids (s_ncon s e')) then conn_effective s e' c' else s_lcon s e' c') /\
  cs_calls o = [] /\ (forall e' c', notes e' c' o = []) /\
  (forall e', evse_calls e' o =
     if mem e' l && s_cbev s && need b (s_lev s e') (evse_effective s e') then [evse_effective s e'] else []) /\
  (forall e' c', conn_calls e' c' o =
     if mem e' l && mem c' (ids (s_ncon s e')) && s_cbcon s && need b (s_lcon s e' c') (conn_effective s e' c')
     then [conn_effective s e' c'] else []).
Proof.
  induction l as [|e q IH]; intros s s2 o ND H HS.
  - inversion H; subst. repeat split; reflexivity.
  - cbn [loop] in H. destruct (trigger_evse b e s) as [s1 o1] eqn:T.
    destruct (loop (trigger_evse b) q s1) as [s3 o3] eqn:L. inversion H; subst; clear H.
    inversion ND as [|? ? Nc Nq]; subst.
    destruct (trigger_evse_spec _ _ _ _ _ T (fun hb => HS hb e (or_introl eq_refl)))
      as (C1 & A1 & A2 & A3 & A4 & A5 & A6 & A7).
    destruct (core_eff _ _ C1) as [F1 F2].
    assert (CC : s_ncon s1 = s_ncon s) by (unfold core in C1; congruence).
    assert (CB : s_cbcon s1 = s_cbcon s) by (unfold core in C1; congruence).
    assert (CE : s_cbev s1 = s_cbev s) by (unfold core in C1; congruence).
    assert (HS1 : b = true -> forall e', In e' q -> s_lev s1 e' = evse_effective s1 e' ->
      forall c, 1 <= c <= s_ncon s1 e' -> s_lcon s1 e' c = conn_effective s1 e' c).
    { intros hb e' I E c R. rewrite F2, A3. rewrite CC in R.
      assert (NE : e' <> e) by (intros ->; contradiction).
      rewrite A2, F1 in E. destruct (Z.eqb_spec e' e); [contradiction|]. cbn [andb].
      apply HS; auto. right; exact I. }
    destruct (IH _ _ _ Nq L HS1) as (D1 & B1 & B2 & B3 & B4 & B5 & B6 & B7).
    assert (Me : mem e q = false) by (apply mem_false; exact Nc).
    assert (MC : forall e', mem e' (e :: q) = (e' =? e) || mem e' q) by reflexivity.
    repeat match goal with |- _ /\ _ => split end; try congruence.
    + intros e'. rewrite B2, A2, F1, MC. destruct (Z.eqb_spec e' e) as [->|]; cbn [orb]; [rewrite Me|]; reflexivity.
    + intros e' c'. rewrite B3, A3, F2, CC, MC.
      destruct (Z.eqb_spec e' e) as [->|]; cbn [orb andb]; [rewrite Me|]; reflexivity.
    + rewrite cs_calls_app, A4, B4. reflexivity.
    + intros e' c'. rewrite notes_app, A5, B5. reflexivity.
    + intros e'. rewrite evse_calls_app, A6, B6, A2, F1, CE, MC.
      destruct (Z.eqb_spec e' e) as [->|]; cbn [orb andb]; [rewrite Me|]; cbn [andb]; [apply app_nil_r|reflexivity].
    + intros e' c'. rewrite conn_calls_app, A7, B7, A3, F2, CB, CC, MC.
      destruct (Z.eqb_spec e' e) as [->|]; cbn [orb andb]; [rewrite Me|]; cbn [andb]; [apply app_nil_r|reflexivity].
Qed.

Lemma trigger_cs_spec : forall b s s2 o, trigger_cs b s = (s2, o) ->
  (b = true -> s_lcs s = s_cs s -> forall e, 1 <= e <= s_nev s -> s_lev s e = evse_effective s e) ->
  (b = true -> forall e, 1 <= e <= s_nev s -> s_lev s e = evse_effective s e ->
    forall c, 1 <= c <= s_ncon s e -> s_lcon s e c = conn_effective s e c) ->
  core s2 = core s /\ s_lcs s2 = s_cs s /\
  (forall e', s_lev s2 e' = if mem e' (ids (s_nev s)) then evse_effective s e' else s_lev s e') /\
  (forall e' c', s_lcon s2 e' c' =
     if mem e' (ids (s_nev s)) && mem c' (ids (s_ncon s e')) then conn_effective s e' c' else s_lcon s e' c') /\
  cs_calls o = (if s_cbcs s && need b (s_lcs s) (s_cs s) then [s_cs s] else []) /\
  (forall e' c', notes e' c' o = []) /\
  (forall e', evse_calls e' o =
     if mem e' (ids (s_nev s)) && s_cbev s && need b (s_lev s e') (evse_effective s e')
     then [evse_effective s e'] else []) /\
  (forall e' c', conn_calls e' c' o =
     if mem e' (ids (s_nev s)) && mem c' (ids (s_ncon s e')) && s_cbcon s
        && need b (s_lcon s e' c') (conn_effective s e' c')
     then [conn_effective s e' c'] else []).
Proof.
  intros b s s2 o H H1 H2. unfold trigger_cs in H.
  change (negb b || negb (opstat_eqb (s_lcs s) (s_cs s))) with (need b (s_lcs s) (s_cs s)) in H.
  destruct (need b (s_lcs s) (s_cs s)) eqn:N.
  - destruct (loop (trigger_evse b) (ids (s_nev s)) (set_s_lcs (s_cs s) s)) as [s3 o3] eqn:L.
    inversion H; subst; clear H.
    set (s1 := set_s_lcs (s_cs s) s) in *.
    assert (CS : core s1 = core s) by reflexivity. destruct (core_eff _ _ CS) as [F1 F2].
    destruct (evse_loop _ _ _ _ _ (nodup_ids _) L) as (C & A1 & A2 & A3 & A4 & A5 & A6 & A7).
    { intros hb e I E c R. rewrite F2. rewrite F1 in E. apply in_ids in I. apply H2; auto. }
    repeat match goal with |- _ /\ _ => split end.
    + congruence.
    + exact A1.
    + intros e'. rewrite A2, F1. reflexivity.
    + intros e' c'. rewrite A3, F2. reflexivity.
    + rewrite cs_calls_app, A4, app_nil_r. destruct (s_cbcs s); reflexivity.
    + intros e' c'. rewrite notes_app, A5. destruct (s_cbcs s); reflexivity.
    + intros e'. rewrite evse_calls_app, A6, F1. destruct (s_cbcs s); reflexivity.
    + intros e' c'. rewrite conn_calls_app, A7, F2. destruct (s_cbcs s); reflexivity.
  - inversion H; subst; clear H. unfold need in N. apply orb_false_iff in N. destruct N as [N1 N2].
    apply negb_false_iff in N1, N2. apply opstat_eqb_eq in N2. specialize (H1 N1 N2). specialize (H2 N1). subst b.
    assert (R : forall e, mem e (ids (s_nev s2)) = true -> 1 <= e <= s_nev s2)
      by (intros e M; apply in_ids, mem_in; exact M).
    assert (R2 : forall e c, mem c (ids (s_ncon s2 e)) = true -> 1 <= c <= s_ncon s2 e)
      by (intros e c M; apply in_ids, mem_in; exact M).
    repeat match goal with |- _ /\ _ => split end; try reflexivity; intros; try assumption.
    + destruct (mem e' (ids (s_nev s2))) eqn:M; auto.
    + destruct (mem e' (ids (s_nev s2))) eqn:M; cbn [andb]; auto.
      destruct (mem c' (ids (s_ncon s2 e'))) eqn:M2; auto.
    + rewrite andb_false_r. reflexivity.
    + destruct (mem e' (ids (s_nev s2))) eqn:M; cbn [andb]; auto.
      rewrite H1 by auto. unfold need. rewrite opstat_eqb_refl, andb_false_r. reflexivity.
    + destruct (mem e' (ids (s_nev s2))) eqn:M; cbn [andb]; auto.
      destruct (mem c' (ids (s_ncon s2 e'))) eqn:M2; cbn [andb]; auto.
      rewrite H2 by auto. unfold need. rewrite opstat_eqb_refl, andb_false_r. reflexivity.
Qed.
