(** Connector status reports. *)
From Coq Require Import List ZArith Bool Lia.
From Verif Require Import CsmModel CsmSpec CsmProofs CsmProofs2 CsmProofs3.
Import ListNotations.
Open Scope Z_scope.

Lemma status_spec : forall k, has_status k (to_connector_status k).
Proof. intros [? [] [] [] []]; cbn; auto. Qed.
Lemma status_unique : forall k v, has_status k v -> v = to_connector_status k.
Proof.
  intros [? [] [] [] []] [] H; cbn in H; try reflexivity;
    repeat match goal with H : _ /\ _ |- _ => destruct H end; discriminate.
Qed.

Definition status_of (s : st) (e c : Z) : cstat := to_connector_status (s_con s e c).
Definition sends (w : option (bool * bool * bool)) (old now : cstat) : list (cstat * bool * bool) :=
  match w with
  | None => []
  | Some (b, t, d) => if negb b || negb (cstat_eqb old now) then [(now, t, d)] else []
  end.
Definition rep_after (w : option (bool * bool * bool)) (old now : cstat) : cstat :=
  match w with
  | None => old
  | Some (b, t, d) => if (negb b || negb (cstat_eqb old now)) && d then now else old
  end.

Lemma send_status_spec : forall b t e c d s s' o, send_status b t e c d s = (s', o) ->
  (forall e' c', notes e' c' o =
     sends (if (e' =? e) && (c' =? c) then Some (b, t, d) else None) (s_rep s e' c') (status_of s' e' c')) /\
  (forall e' c', s_rep s' e' c' =
     rep_after (if (e' =? e) && (c' =? c) then Some (b, t, d) else None) (s_rep s e' c') (status_of s' e' c')).
Proof.
  intros b t e c d s s' o H.
  destruct (send_status_frame _ _ _ _ _ _ _ _ H) as (_ & _ & _ & CE).
  unfold send_status in H. unfold status_of. rewrite CE. clear CE.
  destruct (negb b || negb (cstat_eqb (s_rep s e c) (to_connector_status (s_con s e c)))) eqn:N.
  - split; intros e' c'.
    + inversion H; subst. unfold notes. cbn [flat_map]. rewrite (andb_sym_eqb e e').
      destruct ((e' =? e) && (c' =? c)) eqn:Q; [|reflexivity].
      apply andb_true_iff in Q. destruct Q as [Q1 Q2]. apply Z.eqb_eq in Q1, Q2. subst. cbn. rewrite N. reflexivity.
    + destruct ((e' =? e) && (c' =? c)) eqn:Q.
      * pose proof Q as Q0. apply andb_true_iff in Q. destruct Q as [Q1 Q2]. apply Z.eqb_eq in Q1, Q2. subst.
        cbn. rewrite N. destruct d; inversion H; subst; cbn; [rewrite fupd2_same|]; reflexivity.
      * destruct d; inversion H; subst; cbn; [unfold fupd2; rewrite Q|]; reflexivity.
  - inversion H; subst. split; intros e' c'; (destruct ((e' =? e) && (c' =? c)) eqn:Q; [|reflexivity]);
      apply andb_true_iff in Q; destruct Q as [Q1 Q2]; apply Z.eqb_eq in Q1, Q2; subst; cbn; rewrite N; reflexivity.
Qed.

Lemma send_loop_spec : forall b (d : Z -> bool) e l s s' o, NoDup l ->
  loop (fun c => send_status b false e c (d c)) l s = (s', o) ->
  (forall e' c', notes e' c' o =
     sends (if (e' =? e) && mem c' l then Some (b, false, d c') else None) (s_rep s e' c') (status_of s' e' c')) /\
  (forall e' c', s_rep s' e' c' =
     rep_after (if (e' =? e) && mem c' l then Some (b, false, d c') else None) (s_rep s e' c') (status_of s' e' c')).
Proof.
  induction l as [|c q IH]; intros s s' o ND H; cbn [loop] in H.
  - inversion H; subst. split; intros; rewrite andb_false_r; reflexivity.
  - destruct (send_status b false e c (d c) s) as [s1 o1] eqn:E1.
    destruct (loop _ q s1) as [s2 o2] eqn:E2. inversion H; subst; clear H.
    inversion ND as [|? ? Nc Nq]; subst.
    destruct (send_status_frame _ _ _ _ _ _ _ _ E1) as (_ & _ & _ & C1).
    destruct (send_loop _ _ _ _ _ _ _ E2) as (_ & _ & _ & C2).
    destruct (send_status_spec _ _ _ _ _ _ _ _ E1) as (A1 & A2).
    destruct (IH _ _ _ Nq E2) as (B1 & B2).
    assert (ST : forall e' c', status_of s1 e' c' = status_of s' e' c') by (intros; unfold status_of; rewrite C2; reflexivity).
    assert (M0 : mem c q = false) by (apply mem_false; exact Nc).
    split; intros e' c'.
    + rewrite notes_app, A1, B1, A2, ST. cbn [mem existsb]. fold (mem c' q).
      destruct (Z.eqb_spec e' e); cbn [andb]; [|reflexivity].
      destruct (Z.eqb_spec c' c) as [->|]; cbn [orb]; [|reflexivity]. rewrite M0. cbn [sends]. apply app_nil_r.
    + rewrite B2, A2, ST. cbn [mem existsb]. fold (mem c' q).
      destruct (Z.eqb_spec e' e); cbn [andb]; [|reflexivity].
      destruct (Z.eqb_spec c' c) as [->|]; cbn [orb]; [|reflexivity]. rewrite M0. reflexivity.
Qed.

Lemma send_all_spec : forall b d l s s' o, NoDup l ->
  loop (fun e s => loop (fun c => send_status b false e c (d e c)) (ids (s_ncon s e)) s) l s = (s', o) ->
  (forall e' c', notes e' c' o =
     sends (if mem e' l && mem c' (ids (s_ncon s e')) then Some (b, false, d e' c') else None)
       (s_rep s e' c') (status_of s' e' c')) /\
  (forall e' c', s_rep s' e' c' =
     rep_after (if mem e' l && mem c' (ids (s_ncon s e')) then Some (b, false, d e' c') else None)
       (s_rep s e' c') (status_of s' e' c')).
Proof.
  induction l as [|e q IH]; intros s s' o ND H; cbn [loop] in H.
  - inversion H; subst. split; intros; reflexivity.
  - destruct (loop (fun c0 => send_status b false e c0 (d e c0)) (ids (s_ncon s e)) s) as [s1 o1] eqn:E1.
    destruct (loop _ q s1) as [s2 o2] eqn:E2. inversion H; subst; clear H.
    inversion ND as [|? ? Nc Nq]; subst.
    destruct (send_loop _ _ _ _ _ _ _ E1) as (F1 & _ & _ & C1).
    destruct (send_all_frame _ _ _ _ _ _ E2) as (_ & _ & _ & C2).
    destruct (send_loop_spec _ _ _ _ _ _ _ (nodup_ids _) E1) as (A1 & A2).
    destruct (IH _ _ _ Nq E2) as (B1 & B2).
    assert (ST : forall e' c', status_of s1 e' c' = status_of s' e' c') by (intros; unfold status_of; rewrite C2; reflexivity).
    assert (M0 : mem e q = false) by (apply mem_false; exact Nc).
    destruct F1 as (_&_&_&_&N2&_).
    split; intros e' c'.
    + rewrite notes_app, A1, B1, A2, ST, N2. cbn [mem existsb]. fold (mem e' q).
      destruct (Z.eqb_spec e' e) as [->|]; cbn [andb orb]; [|reflexivity]. rewrite M0. cbn [sends andb]. apply app_nil_r.
    + rewrite B2, A2, ST, N2. cbn [mem existsb]. fold (mem e' q).
      destruct (Z.eqb_spec e' e) as [->|]; cbn [andb orb]; [|reflexivity]. rewrite M0. reflexivity.
Qed.

Lemma avail_notes : forall s o s' out r, avail_op o = true -> is_restart o = false -> step s o = (s', out, r) ->
  (forall e c, notes e c out = []) /\ s_rep s' = s_rep s /\ s_up s' = s_up s /\
  s_nev s' = s_nev s /\ s_ncon s' = s_ncon s /\
  (forall e c, c_faulted (s_con s' e c) = c_faulted (s_con s e c) /\ c_unavail (s_con s' e c) = c_unavail (s_con s e c) /\
     c_occupied (s_con s' e c) = c_occupied (s_con s e c) /\ c_reserved (s_con s' e c) = c_reserved (s_con s e c)).
Proof.
  intros s o s' out r A NR H.
  assert (K : forall o0, core s' = core o0 -> s_rep o0 = s_rep s -> s_up o0 = s_up s -> s_nev o0 = s_nev s ->
     s_ncon o0 = s_ncon s ->
     (forall e c, c_faulted (s_con o0 e c) = c_faulted (s_con s e c) /\ c_unavail (s_con o0 e c) = c_unavail (s_con s e c) /\
     c_occupied (s_con o0 e c) = c_occupied (s_con s e c) /\ c_reserved (s_con o0 e c) = c_reserved (s_con s e c)) ->
     s_rep s' = s_rep s /\ s_up s' = s_up s /\ s_nev s' = s_nev s /\ s_ncon s' = s_ncon s /\
  (forall e c, c_faulted (s_con s' e c) = c_faulted (s_con s e c) /\ c_unavail (s_con s' e c) = c_unavail (s_con s e c) /\
     c_occupied (s_con s' e c) = c_occupied (s_con s e c) /\ c_reserved (s_con s' e c) = c_reserved (s_con s e c))).
  { intros o0 C X1 X2 X3 X4 X5. destruct (core_db _ _ C) as (D1 & D2 & D3 & D4 & D5 & D6).
    split; [congruence|]. split; [congruence|]. split; [congruence|]. split; [congruence|]. rewrite D4. exact X5. }
  assert (Z0 : forall (s0 : st) e c, c_faulted (s_con s0 e c) = c_faulted (s_con s0 e c) /\
     c_unavail (s_con s0 e c) = c_unavail (s_con s0 e c) /\
     c_occupied (s_con s0 e c) = c_occupied (s_con s0 e c) /\ c_reserved (s_con s0 e c) = c_reserved (s_con s0 e c))
    by (intros; auto).
  assert (W : forall v e0 c0 e c, c_faulted (s_con (upd_conn (with_op v) e0 c0 s) e c) = c_faulted (s_con s e c) /\
     c_unavail (s_con (upd_conn (with_op v) e0 c0 s) e c) = c_unavail (s_con s e c) /\
     c_occupied (s_con (upd_conn (with_op v) e0 c0 s) e c) = c_occupied (s_con s e c) /\
     c_reserved (s_con (upd_conn (with_op v) e0 c0 s) e c) = c_reserved (s_con s e c)).
  { intros. unfold upd_conn. cbn. unfold fupd2. destruct (Z.eqb_spec e e0); cbn [andb]; [|auto].
    destruct (Z.eqb_spec c c0); [subst|]; auto. }
  assert (TN : forall b s0, forall e c, notes e c (snd (trigger_cs b s0)) = []).
  { intros b s0 e c. unfold trigger_cs. destruct (negb b || _); [|reflexivity].
    assert (L : forall l s1, notes e c (snd (loop (trigger_evse b) l s1)) = []).
    { induction l as [|x q IH]; intros s1; [reflexivity|]. cbn [loop].
      assert (E : notes e c (snd (trigger_evse b x s1)) = []).
      { unfold trigger_evse. destruct (negb b || _); [|reflexivity].
        destruct (loop (trigger_conn b x) (ids (s_ncon s1 x)) _) as [s3 o3] eqn:L.
        destruct (conn_loop _ _ _ _ _ _ (nodup_ids _) L) as (_&_&_&_&_&OC). cbn [snd].
        rewrite notes_app, (only_conn_notes _ _ OC). destruct (s_cbev s1); reflexivity. }
      destruct (trigger_evse b x s1) as [s2 o2]. cbn [snd] in E. specialize (IH s2).
      destruct (loop (trigger_evse b) q s2) as [s3 o3]. cbn [snd] in *. rewrite notes_app, E, IH. reflexivity. }
    specialize (L (ids (s_nev s0)) (set_s_lcs (s_cs s0) s0)).
    destruct (loop _ _ _) as [s2 o2]. cbn [snd] in *. rewrite notes_app, L. destruct (s_cbcs s0); reflexivity. }
  assert (TE : forall b x s1 e c, notes e c (snd (trigger_evse b x s1)) = []).
  { intros. unfold trigger_evse. destruct (negb b || _); [|reflexivity].
    destruct (loop (trigger_conn b x) (ids (s_ncon s1 x)) _) as [s3 o3] eqn:L.
    destruct (conn_loop _ _ _ _ _ _ (nodup_ids _) L) as (_&_&_&_&_&OC). cbn [snd].
    rewrite notes_app, (only_conn_notes _ _ OC). destruct (s_cbev s1); reflexivity. }
  assert (TC : forall b x y s1 e c, notes e c (snd (trigger_conn b x y s1)) = []).
  { intros. unfold trigger_conn. destruct (negb b || _); [|reflexivity]. cbn [snd]. destruct (s_cbcon s1); reflexivity. }
  assert (SC : forall e0 c0 v p db, set_conn e0 c0 v p db s = (s', out, r) -> forall e c, notes e c out = []).
  { intros e0 c0 v p db E e c. unfold set_conn in E. destruct (check_conn s e0 c0); try (inversion E; subst; reflexivity).
    match type of E with (trigger_conn true e0 c0 ?x, _) = _ => specialize (TC true e0 c0 x e c) end.
    destruct (trigger_conn true e0 c0 _) as [s2 o2]. inversion E; subst. exact TC. }
  destruct o; try discriminate A; try discriminate NR; cbn [step] in H;
    (destruct (negb (s_up s)) eqn:U; [inversion H; subst; split; [reflexivity|apply (K s'); auto]|]).
  - pose proof (set_cs_core _ _ _ _ _ _ _ H) as (_ & C). split; [|apply (K _ C); auto].
    intros e c. unfold set_cs in H. match type of H with (trigger_cs true ?x, _) = _ => specialize (TN true x e c) end.
    destruct (trigger_cs true _) as [s2 o2]. inversion H; subst. exact TN.
  - destruct (set_evse_core _ _ _ _ _ _ _ _ _ H) as [(_ & _ & -> & ->)|(_ & C & _)].
    { split; [reflexivity|apply (K s); auto]. }
    split; [|apply (K _ C); auto]. intros e' c'. unfold set_evse in H.
    destruct (negb (check_evse s e)); [inversion H; reflexivity|].
    destruct (persist && negb db2); [inversion H; reflexivity|].
    match type of H with (trigger_evse true e ?x, _) = _ => specialize (TE true e x e' c') end.
    destruct (trigger_evse true e _) as [s2 o2]. inversion H; subst. exact TE.
  - split; [apply (SC _ _ _ _ _ H)|].
    destruct (set_conn_core _ _ _ _ _ _ _ _ _ H) as [(_ & _ & _ & -> & ->)|(_ & _ & C)]; [apply (K s); auto|].
    apply (K _ C); auto. intros e' c'. apply W.
  - destruct (restore_cases _ _ _ _ _ _ H) as [(_ & -> & -> & _)|(v & _ & HC & H2)].
    { split; [reflexivity|apply (K s); auto]. }
    split; [apply (SC _ _ _ _ _ H2)|].
    destruct (set_conn_core _ _ _ _ _ _ _ _ _ H2) as [(_ & _ & _ & -> & ->)|(_ & _ & C)]; [apply (K s); auto|].
    apply (K _ C); auto. intros e' c'. apply W.
  - pose proof (trigger_cs_core false s) as C. specialize (TN false s). destruct (trigger_cs false s) as [s2 o2].
    inversion H; subst. cbn [fst snd] in *. split; [exact TN|]. apply (K _ C); auto.
Qed.

Definition flags_of (k : conn) : bool * bool * bool * bool := (c_faulted k, c_reserved k, c_occupied k, c_unavail k).

Lemma flags_status : forall k k', flags_of k = flags_of k' -> to_connector_status k = to_connector_status k'.
Proof.
  intros k k' H. unfold flags_of in H. inversion H. unfold to_connector_status.
  repeat match goal with H : _ = _ |- _ => rewrite H; clear H end. reflexivity.
Qed.

(** One step that is not a restart. *)
Lemma step_reports : forall s o s' out r, is_restart o = false -> s_up s = true -> step s o = (s', out, r) ->
  s_up s' = true /\ s_nev s' = s_nev s /\ s_ncon s' = s_ncon s /\
  forall e c, has_conn s e c ->
    flags_of (s_con s' e c) = flags_after e c (flags_of (s_con s e c)) (o, out, r) /\
    notes e c out = sends (due (c_reserved (s_con s e c)) e c o) (s_rep s e c) (status_of s' e c) /\
    s_rep s' e c = rep_after (due (c_reserved (s_con s e c)) e c o) (s_rep s e c) (status_of s' e c).
Proof.
  intros s o s' out r NR U H.
  destruct (avail_op o) eqn:A.
  - destruct (avail_notes _ _ _ _ _ A NR H) as (N & R & U' & N1 & N2 & F).
    split; [congruence|]. split; [exact N1|]. split; [exact N2|]. intros e c HC.
    assert (FO : flags_of (s_con s' e c) = flags_of (s_con s e c)).
    { destruct (F e c) as (X1 & X2 & X3 & X4). unfold flags_of. rewrite X1, X2, X3, X4. reflexivity. }
    rewrite N, R, FO. destruct (flags_of (s_con s e c)) as [[[? ?] ?] ?].
    destruct o; try discriminate A; try discriminate NR; repeat split.
  - destruct (notify_ops_frame _ _ _ _ _ A H) as (SE & _ & _). destruct SE as (X0&_&_&X3&X4&_).
    split; [congruence|]. split; [exact X3|]. split; [exact X4|]. clear X0 X3 X4.
    intros e c HC.
    assert (CK : forall e0 c0, check_conn s e0 c0 <> Ok -> (e0 =? e) && (c0 =? c) = false).
    { intros e0 c0 N. destruct ((e0 =? e) && (c0 =? c)) eqn:Q; [|reflexivity]. exfalso. apply N.
      apply andb_true_iff in Q. destruct Q as [Q1 Q2]. apply Z.eqb_eq in Q1, Q2. subst. apply check_conn_ok. exact HC. }
    assert (UC : forall f e0 c0 e1 c1, s_con (upd_conn f e0 c0 s) e1 c1 =
                 if (e0 =? e1) && (c0 =? c1) then f (s_con s e1 c1) else s_con s e1 c1).
    { intros. unfold upd_conn. cbn. unfold fupd2. rewrite (andb_sym_eqb e1).
      destruct ((e0 =? e1) && (c0 =? c1)) eqn:Q; [|reflexivity].
      apply andb_true_iff in Q. destruct Q as [Q1 Q2]. apply Z.eqb_eq in Q1, Q2. subst. reflexivity. }
    assert (FLG : forall f e0 c0 d, set_flag f e0 c0 d s = (s', out, r) ->
      s_con s' e c = (if (e0 =? e) && (c0 =? c) then f (s_con s e c) else s_con s e c) /\
      notes e c out = sends (if (e0 =? e) && (c0 =? c) then Some (true, false, d) else None) (s_rep s e c) (status_of s' e c) /\
      s_rep s' e c = rep_after (if (e0 =? e) && (c0 =? c) then Some (true, false, d) else None) (s_rep s e c) (status_of s' e c) /\
      ((e0 =? e) && (c0 =? c) = true -> r = Ok)).
    { intros f e0 c0 d E. unfold set_flag in E. specialize (CK e0 c0). destruct (check_conn s e0 c0) eqn:CC;
        try (inversion E; subst; rewrite CK by discriminate; repeat split; discriminate).
      destruct (send_status true false e0 c0 d (upd_conn f e0 c0 s)) as [s1 o1] eqn:S. inversion E; subst; clear E.
      destruct (send_status_frame _ _ _ _ _ _ _ _ S) as (_ & _ & _ & C1).
      destruct (send_status_spec _ _ _ _ _ _ _ _ S) as (A1 & A2).
      rewrite A1, A2, C1, UC, (andb_sym_eqb e). repeat split. }
    unfold flags_of.
    assert (FF : forall (b : bool) f r0 o0 x, s_con s' e c = (if b then f (s_con s e c) else s_con s e c) ->
       (b = true -> r0 = Ok) -> flags_of (f (s_con s e c)) = x ->
       (b = true -> flags_after e c (flags_of (s_con s e c)) (o0, out, Ok) = x) ->
       (b = false -> flags_after e c (flags_of (s_con s e c)) (o0, out, r0) = (flags_of (s_con s e c))) ->
       flags_of (s_con s' e c) = flags_after e c (flags_of (s_con s e c)) (o0, out, r0)).
    { intros b f r0 o0 x E1 E2 E3 E4 E5. rewrite E1. destruct b; [rewrite E2, E4 by reflexivity; exact E3|].
      rewrite E5 by reflexivity. reflexivity. }
    unfold flags_of in FF.
    destruct o; try discriminate A; cbn [step] in H; rewrite U in H; cbn [negb] in H.
    + (* SetOccupied *)
      unfold set_occupied in H. specialize (CK e0 c0). destruct (check_conn s e0 c0) eqn:CC;
        try (inversion H; subst; cbn [due flags_after]; rewrite CK by discriminate; cbn [andb]; repeat split).
      cbn [flags_after due]. rewrite UC, !Z.eqb_refl in H. cbn [andb with_occupied c_reserved] in H.
      destruct (negb (c_reserved (s_con s e0 c0))) eqn:RS.
      * destruct (send_status true false e0 c0 d (upd_conn (with_occupied b) e0 c0 s)) as [s1 o1] eqn:S.
        inversion H; subst; clear H.
        destruct (send_status_frame _ _ _ _ _ _ _ _ S) as (_ & _ & _ & C1).
        destruct (send_status_spec _ _ _ _ _ _ _ _ S) as (A1 & A2).
        rewrite A1, A2, C1, UC, (andb_sym_eqb e).
        destruct ((e0 =? e) && (c0 =? c)) eqn:Q; cbn [andb].
        -- apply andb_true_iff in Q. destruct Q as [Q1 Q2]. apply Z.eqb_eq in Q1, Q2. subst. rewrite RS.
           repeat split.
        -- repeat split.
      * inversion H; subst; clear H. rewrite UC.
        destruct ((e0 =? e) && (c0 =? c)) eqn:Q; cbn [andb].
        -- apply andb_true_iff in Q. destruct Q as [Q1 Q2]. apply Z.eqb_eq in Q1, Q2. subst. rewrite RS.
           repeat split.
        -- repeat split.
    + destruct (FLG _ _ _ _ H) as (E1 & E2 & E3 & E4). cbn [due]. split; [|split; assumption].
      eapply (FF _ (with_reserved b)); [exact E1|exact E4|reflexivity| |]; intros Q; cbn [flags_after]; rewrite Q.
      * reflexivity.
      * destruct r; reflexivity.
    + destruct (FLG _ _ _ _ H) as (E1 & E2 & E3 & E4). cbn [due]. split; [|split; assumption].
      eapply (FF _ (with_faulted b)); [exact E1|exact E4|reflexivity| |]; intros Q; cbn [flags_after]; rewrite Q.
      * reflexivity.
      * destruct r; reflexivity.
    + destruct (FLG _ _ _ _ H) as (E1 & E2 & E3 & E4). cbn [due]. split; [|split; assumption].
      eapply (FF _ (with_unavail b)); [exact E1|exact E4|reflexivity| |]; intros Q; cbn [flags_after]; rewrite Q.
      * reflexivity.
      * destruct r; reflexivity.
    + destruct (send_status_all false d s) as [s1 o1] eqn:S. inversion H; subst; clear H.
      destruct (send_all_frame _ _ _ _ _ _ S) as (_ & _ & _ & C1).
      destruct (send_all_spec _ _ _ _ _ _ (nodup_ids _) S) as (A1 & A2).
      rewrite A1, A2, C1. destruct HC as [H1 H2].
      rewrite (proj2 (mem_ids e (s_nev s)) H1), (proj2 (mem_ids c (s_ncon s e)) H2). cbn [andb due flags_after].
      repeat split.
    + destruct (send_status_all true d s) as [s1 o1] eqn:S. inversion H; subst; clear H.
      destruct (send_all_frame _ _ _ _ _ _ S) as (_ & _ & _ & C1).
      destruct (send_all_spec _ _ _ _ _ _ (nodup_ids _) S) as (A1 & A2).
      rewrite A1, A2, C1. destruct HC as [H1 H2].
      rewrite (proj2 (mem_ids e (s_nev s)) H1), (proj2 (mem_ids c (s_ncon s e)) H2). cbn [andb due flags_after].
      repeat split.
    + unfold send_one in H. specialize (CK e0 c0). destruct (check_conn s e0 c0) eqn:CC;
        try (inversion H; subst; cbn [due flags_after]; rewrite CK by discriminate; repeat split).
      destruct (send_status false true e0 c0 d s) as [s1 o1] eqn:S. inversion H; subst; clear H.
      destruct (send_status_frame _ _ _ _ _ _ _ _ S) as (_ & _ & _ & C1).
      destruct (send_status_spec _ _ _ _ _ _ _ _ S) as (A1 & A2).
      rewrite A1, A2, C1, (andb_sym_eqb e). cbn [due flags_after]. repeat split.
    + inversion H; subst. cbn. repeat split.
    + inversion H; subst. cbn. repeat split.
    + inversion H; subst. cbn. repeat split.
Qed.

Lemma sends_due : forall w old now, due_notes w old now (sends w old now).
Proof.
  intros [[[b t] d]|] old now; [|reflexivity]. cbn. destruct (cstat_eqb old now) eqn:E.
  - apply cstat_eqb_eq in E. destruct b; cbn; split; intros X; auto; [exfalso; apply X; auto|].
    destruct X; discriminate.
  - rewrite orb_true_r. split; intros X; [|reflexivity]. destruct X as [_ X]. apply cstat_eqb_eq in X. congruence.
Qed.

Lemma rep_view : forall w old now,
  rep_after w old now = fold_left (fun a n => match n with (v, _, true) => v | _ => a end) (sends w old now) old.
Proof.
  intros [[[b t] d]|] old now; [|reflexivity]. cbn. destruct (negb b || _); [|reflexivity]. destruct d; reflexivity.
Qed.

(** ** Histories without restart *)

Definition no_restart (ops : list op) : Prop := Forall (fun o => is_restart o = false) ops.

Lemma run_view : forall ops s s' h, no_restart ops -> s_up s = true -> run s ops = (s', h) ->
  s_up s' = true /\ s_nev s' = s_nev s /\ s_ncon s' = s_ncon s /\
  forall e c, has_conn s e c ->
    s_rep s' e c = csms_view e c (outs_of h) (s_rep s e c) /\
    flags_of (s_con s' e c) = fold_left (flags_after e c) h (flags_of (s_con s e c)).
Proof.
  induction ops as [|o q IH]; intros s s' h NR U H.
  - inversion H; subst. repeat split; auto.
  - rewrite run_cons in H. destruct (step s o) as [[s1 o1] r1] eqn:E.
    destruct (run s1 q) as [s2 h2] eqn:R. inversion H; subst; clear H.
    inversion NR as [|? ? NR1 NR2]; subst.
    destruct (step_reports _ _ _ _ _ NR1 U E) as (U1 & N1 & N2 & A).
    destruct (IH _ _ _ NR2 U1 R) as (U2 & M1 & M2 & B).
    split; [exact U2|]. split; [congruence|]. split; [congruence|]. intros e c HC.
    destruct (A e c HC) as (A1 & A2 & A3).
    assert (HC1 : has_conn s1 e c) by (unfold has_conn, has_evse in *; rewrite N1, N2; exact HC).
    destruct (B e c HC1) as (B1 & B2). split.
    + rewrite B1. cbn [outs_of flat_map]. unfold csms_view. rewrite notes_app, fold_left_app.
      f_equal. rewrite A3, rep_view. cbn [fst snd]. rewrite A2. reflexivity.
    + rewrite B2, A1. reflexivity.
Qed.

Definition report_inv (k : conn) (rep : cstat) : Prop :=
  rep = to_connector_status k \/ reserved_exception k rep.

Lemma in_notes : forall e c o v t d, In (v, t, d) (notes e c o) -> In (ONote e c v t d) o.
Proof.
  induction o as [|x q IH]; intros v t d H; [destruct H|]. unfold notes in H. cbn [flat_map] in H.
  apply in_app_or in H. destruct H as [H|H]; [|right; apply IH; exact H]. left.
  destruct x; try destruct H. destruct ((e0 =? e) && (c0 =? c)) eqn:Q; [|destruct H].
  apply andb_true_iff in Q. destruct Q as [Q1 Q2]. apply Z.eqb_eq in Q1, Q2. subst.
  destruct H as [H|[]]. inversion H; subst. reflexivity.
Qed.

Lemma step_report_inv : forall s o s' out r, is_restart o = false -> s_up s = true -> step s o = (s', out, r) ->
  all_delivered out -> forall e c, has_conn s e c ->
  report_inv (s_con s e c) (s_rep s e c) -> report_inv (s_con s' e c) (s_rep s' e c).
Proof.
  intros s o s' out r NR U H AD e c HC INV.
  destruct (step_reports _ _ _ _ _ NR U H) as (_ & _ & _ & A). destruct (A e c HC) as (A1 & A2 & A3). clear A.
  assert (DEL : forall v t d, In (v, t, d) (notes e c out) -> d = true).
  { intros v t d I. apply in_notes in I. eapply AD. exact I. }
  rewrite A2 in DEL. rewrite A3.
  destruct (due (c_reserved (s_con s e c)) e c o) as [[[b t] d]|] eqn:D.
  - left. cbn [rep_after sends] in *. change (status_of s' e c) with (to_connector_status (s_con s' e c)) in *.
    destruct (negb b || negb (cstat_eqb (s_rep s e c) (to_connector_status (s_con s' e c)))) eqn:N.
    + rewrite (DEL _ _ _ (or_introl eq_refl)). reflexivity.
    + apply orb_false_iff in N. destruct N as [_ N]. apply negb_false_iff, cstat_eqb_eq in N. exact N.
  - cbn [rep_after].
    (* the flags are unchanged, or this is a plug-in or plug-out of the reserved connector *)
    assert (CASE : flags_of (s_con s' e c) = flags_of (s_con s e c) \/
                   (c_reserved (s_con s e c) = true /\
                    c_faulted (s_con s' e c) = c_faulted (s_con s e c) /\ c_unavail (s_con s' e c) = c_unavail (s_con s e c) /\
                    c_reserved (s_con s' e c) = true)).
    { rewrite A1. destruct (flags_of (s_con s e c)) as [[[ft rs] oc] un] eqn:FO.
      destruct o; try discriminate NR; try (left; reflexivity); try discriminate D.
      - cbn [due flags_after] in *. destruct ((e0 =? e) && (c0 =? c)) eqn:Q; cbn [andb] in D.
        + destruct (c_reserved (s_con s e c)) eqn:RS; [|discriminate D]. destruct r; try (left; reflexivity).
          right. unfold flags_of in *. repeat split; congruence.
        + left. destruct r; reflexivity.
      - cbn [due flags_after] in *. destruct ((e0 =? e) && (c0 =? c)); [discriminate D|]. left. destruct r; reflexivity.
      - cbn [due flags_after] in *. destruct ((e0 =? e) && (c0 =? c)); [discriminate D|]. left. destruct r; reflexivity.
      - cbn [due flags_after] in *. destruct ((e0 =? e) && (c0 =? c)); [discriminate D|]. left. destruct r; reflexivity. }
    destruct CASE as [FE|(RS & E1 & E2 & E3)].
    + destruct INV as [INV|INV].
      * left. rewrite INV. apply flags_status. symmetry. exact FE.
      * right. unfold reserved_exception, flags_of in *. inversion FE. destruct INV as (I1 & I2 & I3 & I4).
        repeat split; try congruence.
    + assert (R2 : c_faulted (s_con s e c) = false /\ c_unavail (s_con s e c) = false ->
                   (s_rep s e c = Occupied \/ s_rep s e c = Reserved) -> report_inv (s_con s' e c) (s_rep s e c)).
      { intros [X1 X2] X3. right. repeat split; try congruence. }
      destruct INV as [INV|(I1 & I2 & I3 & I4)]; [|apply R2; auto].
      unfold to_connector_status in INV. rewrite RS in INV.
      destruct (c_faulted (s_con s e c)) eqn:FT.
      { left. rewrite INV. unfold to_connector_status. rewrite E1. reflexivity. }
      destruct (c_unavail (s_con s e c)) eqn:UN.
      { left. rewrite INV. unfold to_connector_status. rewrite E1, E2. reflexivity. }
      apply R2; [auto|]. destruct (c_occupied (s_con s e c)); auto.
Qed.

Lemma all_delivered_app : forall a b, all_delivered (a ++ b) -> all_delivered a /\ all_delivered b.
Proof.
  intros a b H. split; intros e c v t d I; apply (H e c v t d), in_or_app; auto.
Qed.

Lemma run_report_inv : forall ops s s' h, no_restart ops -> s_up s = true -> run s ops = (s', h) ->
  all_delivered (outs_of h) -> forall e c, has_conn s e c ->
  report_inv (s_con s e c) (s_rep s e c) -> report_inv (s_con s' e c) (s_rep s' e c).
Proof.
  induction ops as [|o q IH]; intros s s' h NR U H AD e c HC INV.
  - inversion H; subst. exact INV.
  - rewrite run_cons in H. destruct (step s o) as [[s1 o1] r1] eqn:E.
    destruct (run s1 q) as [s2 h2] eqn:R. inversion H; subst; clear H.
    inversion NR as [|? ? NR1 NR2]; subst.
    cbn [outs_of flat_map fst snd] in AD. destruct (all_delivered_app _ _ AD) as [AD1 AD2].
    destruct (step_reports _ _ _ _ _ NR1 U E) as (U1 & N1 & N2 & _).
    assert (HC1 : has_conn s1 e c) by (unfold has_conn, has_evse in *; rewrite N1, N2; exact HC).
    exact (IH _ _ _ NR2 U1 R AD2 e c HC1 (step_report_inv _ _ _ _ _ NR1 U E AD1 e c HC INV)).
Qed.

(** ** Registration of the callbacks *)

Definition cbs (s : st) : bool * bool * bool := (s_cbcs s, s_cbev s, s_cbcon s).
Lemma core_cbs : forall s s', core s = core s' -> cbs s = cbs s'.
Proof. intros s s' H. unfold core in H. unfold cbs. congruence. Qed.
Lemma same_cb_cbs : forall s s', same_cb s s' -> cbs s' = cbs s.
Proof. intros s s' (A & B & C). unfold cbs. rewrite A, B, C. reflexivity. Qed.

Lemma step_cbs : forall s o s' out r, is_restart o = false -> s_up s = true -> step s o = (s', out, r) ->
  cbs s' = (match o with RegisterCs => true | _ => s_cbcs s end,
            match o with RegisterEvse => true | _ => s_cbev s end,
            match o with RegisterConn => true | _ => s_cbcon s end).
Proof.
  intros s o s' out r NR U H.
  assert (K : cbs s' = cbs s -> cbs s' = (s_cbcs s, s_cbev s, s_cbcon s)) by auto.
  assert (FL : forall f e c d, set_flag f e c d s = (s', out, r) -> cbs s' = cbs s).
  { intros f e c d E. unfold set_flag in E. destruct (check_conn s e c); try (inversion E; reflexivity).
    destruct (send_status true false e c d (upd_conn f e c s)) as [s1 o1] eqn:S. inversion E; subst.
    destruct (send_status_frame _ _ _ _ _ _ _ _ S) as (_ & A & _). apply (same_cb_cbs _ _ A). }
  destruct o; try discriminate NR; cbn [step] in H; rewrite U in H; cbn [negb] in H;
    try (apply K; eapply FL; exact H); try (apply K; clear K).
  - apply (core_cbs _ _ (proj2 (set_cs_core _ _ _ _ _ _ _ H))).
  - destruct (set_evse_core _ _ _ _ _ _ _ _ _ H) as [(_ & _ & -> & _)|(_ & C & _)]; [reflexivity|apply (core_cbs _ _ C)].
  - destruct (set_conn_core _ _ _ _ _ _ _ _ _ H) as [(_ & _ & _ & -> & _)|(_ & _ & C)]; [reflexivity|apply (core_cbs _ _ C)].
  - destruct (restore_cases _ _ _ _ _ _ H) as [(_ & -> & _)|(v & _ & _ & H2)]; [reflexivity|].
    destruct (set_conn_core _ _ _ _ _ _ _ _ _ H2) as [(_ & _ & _ & -> & _)|(_ & _ & C)]; [reflexivity|apply (core_cbs _ _ C)].
  - unfold set_occupied in H. destruct (check_conn s e c); try (inversion H; reflexivity).
    destruct (negb _); [|inversion H; reflexivity].
    destruct (send_status _ _ _ _ _ _) as [s1 o1] eqn:S. inversion H; subst.
    destruct (send_status_frame _ _ _ _ _ _ _ _ S) as (_ & A & _). apply (same_cb_cbs _ _ A).
  - pose proof (trigger_cs_core false s) as C. destruct (trigger_cs false s). inversion H; subst. apply (core_cbs _ _ C).
  - destruct (send_status_all false d s) as [s1 o1] eqn:S. inversion H; subst.
    destruct (send_all_frame _ _ _ _ _ _ S) as (_ & A & _). apply (same_cb_cbs _ _ A).
  - destruct (send_status_all true d s) as [s1 o1] eqn:S. inversion H; subst.
    destruct (send_all_frame _ _ _ _ _ _ S) as (_ & A & _). apply (same_cb_cbs _ _ A).
  - unfold send_one in H. destruct (check_conn s e c); try (inversion H; reflexivity).
    destruct (send_status _ _ _ _ _ _) as [s1 o1] eqn:S. inversion H; subst.
    destruct (send_status_frame _ _ _ _ _ _ _ _ S) as (_ & A & _). apply (same_cb_cbs _ _ A).
  - inversion H; reflexivity.
  - inversion H; reflexivity.
  - inversion H; reflexivity.
Qed.

Lemma run_cbs : forall ops s s' h, no_restart ops -> s_up s = true -> run s ops = (s', h) ->
  (s_cbcs s' = true <-> s_cbcs s = true \/ In RegisterCs ops) /\
  (s_cbev s' = true <-> s_cbev s = true \/ In RegisterEvse ops) /\
  (s_cbcon s' = true <-> s_cbcon s = true \/ In RegisterConn ops).
Proof.
  induction ops as [|o q IH]; intros s s' h NR U H.
  - inversion H; subst. cbn [In]. tauto.
  - rewrite run_cons in H. destruct (step s o) as [[s1 o1] r1] eqn:E.
    destruct (run s1 q) as [s2 h2] eqn:R. inversion H; subst; clear H.
    inversion NR as [|? ? NR1 NR2]; subst.
    destruct (step_reports _ _ _ _ _ NR1 U E) as (U1 & _).
    pose proof (step_cbs _ _ _ _ _ NR1 U E) as C. unfold cbs in C. injection C as C1 C2 C3.
    destruct (IH _ _ _ NR2 U1 R) as (A1 & A2 & A3). rewrite A1, A2, A3, C1, C2, C3.
    cbn [In]. destruct o; repeat split; intros X; intuition congruence.
Qed.
