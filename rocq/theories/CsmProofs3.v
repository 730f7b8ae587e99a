(** Availability and connector status: histories. *)
From Coq Require Import List ZArith Bool Lia.
From Verif Require Import CsmModel CsmSpec CsmProofs CsmProofs2.
Import ListNotations.
Open Scope Z_scope.

(** ** One step *)

Lemma restore_cases : forall e c s s' o r, restore_conn e c s = (s', o, r) ->
  (r = Ok /\ s' = s /\ o = [] /\ (has_conn s e c -> s_db s e c = None)) \/
  (exists v, s_db s e c = Some v /\ has_conn s e c /\ set_conn e c v false false s = (s', o, r)).
Proof.
  intros e c s s' o r H. unfold restore_conn, get_conn_persisted, get_availability in H.
  pose proof (check_conn_ok s e c) as CK.
  destruct (check_conn s e c) eqn:C;
    try (inversion H; subst; left; repeat split; auto; intros X; apply CK in X; discriminate).
  destruct (s_db s e c) as [v|] eqn:D.
  - right. exists v. split; [reflexivity|]. split; [apply CK; reflexivity|exact H].
  - left. inversion H; subst. auto.
Qed.

Lemma step_synced_calls : forall s o s' out r, synced s -> step s o = (s', out, r) -> r <> DbError ->
  synced s' /\ (o <> TriggerAll -> is_restart o = false -> calls_ok s s' out).
Proof.
  intros s o s' out r S H ND.
  assert (Q : same_eff s s -> calls_ok s s []) by (intros X; apply quiet_calls_ok; auto).
  specialize (Q (same_eff_refl s)).
  destruct (avail_op o) eqn:A.
  - destruct o; try discriminate A; cbn [step] in H.
    + destruct (negb (s_up s)); [inversion H; subst; auto|].
      destruct (set_cs_ok _ _ _ _ _ _ _ S H) as (X1 & X2 & _). auto.
    + destruct (negb (s_up s)); [inversion H; subst; auto|].
      destruct (set_evse_ok _ _ _ _ _ _ _ _ _ S H) as [(_ & _ & -> & ->)|(_ & _ & [(_ & _ & X1 & X2)|(X & _)])];
        [auto|auto|congruence].
    + destruct (negb (s_up s)); [inversion H; subst; auto|].
      destruct (set_conn_ok _ _ _ _ _ _ _ _ _ S H) as [(_ & _ & _ & -> & ->)|(_ & _ & _ & X1 & X2)]; auto.
    + destruct (negb (s_up s)); [inversion H; subst; auto|].
      destruct (restore_cases _ _ _ _ _ _ H) as [(_ & -> & -> & _)|(v & _ & _ & H2)]; [auto|].
      destruct (set_conn_ok _ _ _ _ _ _ _ _ _ S H2) as [(_ & _ & _ & -> & ->)|(_ & _ & _ & X1 & X2)]; auto.
    + destruct (negb (s_up s)); [inversion H; subst; auto|].
      destruct (trigger_cs false s) as [s2 o2] eqn:T. inversion H; subst; clear H. split; [|congruence].
      destruct (trigger_cs_spec _ _ _ _ T) as (C & A1 & A2 & A3 & _); try discriminate.
      destruct (core_eff _ _ C) as [F1 F2].
      unfold core in C. assert (N1 : s_nev s' = s_nev s) by congruence.
      assert (N2 : s_ncon s' = s_ncon s) by congruence. assert (N3 : s_cs s' = s_cs s) by congruence.
      unfold synced, has_conn, has_evse. rewrite N1, N2. split; [congruence|]. split.
      * intros e Re. rewrite A2, F1. rewrite (proj2 (mem_ids e (s_nev s)) Re). reflexivity.
      * intros e c [Re Rc]. rewrite A3, F2.
        rewrite (proj2 (mem_ids e (s_nev s)) Re), (proj2 (mem_ids c (s_ncon s e)) Rc). reflexivity.
    + destruct (boot structure (s_db s)) as [s2 r2] eqn:B. inversion H; subst; clear H.
      destruct (boot_spec _ _ _ _ B) as (_ & _ & _ & _ & _ & X & _). split; [exact X|discriminate].
  - destruct (notify_ops_frame _ _ _ _ _ A H) as (X1 & X2 & _). split; [eapply same_eff_synced; eassumption|].
    intros _ _. destruct (only_notes_calls _ X2) as (Y1 & Y2 & Y3). apply quiet_calls_ok; assumption.
Qed.

Lemma evse_effective_says : forall s e, says (evse_effective s e) (evse_on s e).
Proof.
  intros. unfold says, evse_on, evse_effective. destruct (s_cs s), (s_ev s e); split; intros; try discriminate; auto;
    destruct H; discriminate.
Qed.
Lemma conn_effective_says : forall s e c, says (conn_effective s e c) (conn_on s e c).
Proof.
  intros. unfold says, conn_on, evse_on, conn_effective, evse_effective.
  destruct (s_cs s), (s_ev s e), (c_op (s_con s e c)); split; intros; try discriminate; auto;
    destruct H as [[? ?] ?]; discriminate.
Qed.

Lemma announced_intro : forall (reg : bool) a b P Q calls, says a P -> says b Q ->
  calls = (if reg && negb (opstat_eqb a b) then [b] else []) -> announced reg P Q calls.
Proof.
  intros reg a b P Q calls HP HQ E. unfold announced. destruct reg; [|exact E]. cbn [andb] in E.
  assert (X : a = b <-> (P <-> Q)).
  { unfold says in *. destruct a, b; split; intros X; try reflexivity; try discriminate.
    - split; intros; [apply HQ|apply HP]; reflexivity.
    - assert (K : Inoperative = Operative) by (apply HQ, X, HP; reflexivity). discriminate.
    - assert (K : Inoperative = Operative) by (apply HP, X, HQ; reflexivity). discriminate.
    - split; intros Y; [apply HP in Y|apply HQ in Y]; discriminate. }
  split; intros Y.
  - apply X in Y. subst b. rewrite opstat_eqb_refl in E. exact E.
  - destruct (opstat_eqb a b) eqn:O; [apply opstat_eqb_eq, X in O; contradiction|].
    exists b. split; [exact E|exact HQ].
Qed.

Lemma step_announces : forall s o s' out r, synced s -> step s o = (s', out, r) -> r <> DbError ->
  o <> TriggerAll -> is_restart o = false ->
  announced (s_cbcs s) (s_cs s = Operative) (s_cs s' = Operative) (cs_calls out) /\
  (forall e, has_evse s e -> announced (s_cbev s) (evse_on s e) (evse_on s' e) (evse_calls e out)) /\
  (forall e c, has_conn s e c -> announced (s_cbcon s) (conn_on s e c) (conn_on s' e c) (conn_calls e c out)) /\
  (forall e, ~ has_evse s e -> evse_calls e out = []) /\
  (forall e c, ~ has_conn s e c -> conn_calls e c out = []).
Proof.
  intros s o s' out r S H ND NT NR.
  destruct (step_synced_calls _ _ _ _ _ S H ND) as [_ C]. destruct (C NT NR) as (A & B & D).
  repeat match goal with |- _ /\ _ => split end.
  - eapply announced_intro; [| |exact A]; unfold says; reflexivity.
  - intros e He. eapply announced_intro; [apply evse_effective_says|apply evse_effective_says|].
    rewrite B. rewrite (proj2 (mem_ids e (s_nev s)) He). reflexivity.
  - intros e c [He Hc]. eapply announced_intro; [apply conn_effective_says|apply conn_effective_says|].
    rewrite D. rewrite (proj2 (mem_ids e (s_nev s)) He), (proj2 (mem_ids c (s_ncon s e)) Hc). reflexivity.
  - intros e He. rewrite B. destruct (mem e (ids (s_nev s))) eqn:M; [|reflexivity].
    apply mem_ids in M. contradiction.
  - intros e c He. rewrite D. destruct (mem e (ids (s_nev s))) eqn:M; [|reflexivity].
    destruct (mem c (ids (s_ncon s e))) eqn:M2; [|reflexivity].
    exfalso. apply He. split; apply mem_ids; assumption.
Qed.

Lemma trigger_all_calls : forall s s' out r, s_up s = true -> step s TriggerAll = (s', out, r) ->
  r = Ok /\ cs_calls out = (if s_cbcs s then [s_cs s] else []) /\
  (forall e, has_evse s e -> exists v, says v (evse_on s e) /\ evse_calls e out = if s_cbev s then [v] else []) /\
  (forall e c, has_conn s e c -> exists v, says v (conn_on s e c) /\ conn_calls e c out = if s_cbcon s then [v] else []) /\
  core s' = core s.
Proof.
  intros s s' out r U H. cbn [step] in H. rewrite U in H. cbn [negb] in H.
  destruct (trigger_cs false s) as [s2 o2] eqn:T. inversion H; subst; clear H.
  destruct (trigger_cs_spec _ _ _ _ T) as (C & A1 & A2 & A3 & A4 & A5 & A6 & A7); try discriminate.
  unfold need in *. cbn [negb orb] in *.
  repeat match goal with |- _ /\ _ => split end.
  - reflexivity.
  - rewrite A4, andb_true_r. reflexivity.
  - intros e He. exists (evse_effective s e). split; [apply evse_effective_says|].
    rewrite A6, (proj2 (mem_ids e (s_nev s)) He), andb_true_r. reflexivity.
  - intros e c [He Hc]. exists (conn_effective s e c). split; [apply conn_effective_says|].
    rewrite A7, (proj2 (mem_ids e (s_nev s)) He), (proj2 (mem_ids c (s_ncon s e)) Hc), andb_true_r. reflexivity.
  - exact C.
Qed.

(** ** Reachable states *)

Lemma run_cons : forall s o q, run s (o :: q) =
  (let '(s1, out1, r1) := step s o in let '(s2, h) := run s1 q in (s2, (o, out1, r1) :: h)).
Proof. reflexivity. Qed.

Lemma run_synced : forall ops s s' h, synced s -> run s ops = (s', h) -> no_db_error h -> synced s'.
Proof.
  induction ops as [|o q IH]; intros s s' h S H N.
  - inversion H; subst. exact S.
  - rewrite run_cons in H. destruct (step s o) as [[s1 o1] r1] eqn:E.
    destruct (run s1 q) as [s2 h2] eqn:R. inversion H; subst; clear H.
    inversion N as [|? ? N1 N2]; subst. cbn [snd] in N1.
    destruct (step_synced_calls _ _ _ _ _ S E N1) as [S1 _]. exact (IH _ _ _ S1 R N2).
Qed.

Lemma run_app : forall a b s s' h, run s (a ++ b) = (s', h) ->
  exists s1 h1 h2, run s a = (s1, h1) /\ run s1 b = (s', h2) /\ h = h1 ++ h2.
Proof.
  induction a as [|o q IH]; intros b s s' h H.
  - exists s, [], h. repeat split. exact H.
  - cbn [app] in H. rewrite run_cons in H. destruct (step s o) as [[s1 o1] r1] eqn:E.
    destruct (run s1 (q ++ b)) as [s2 h2] eqn:R. inversion H; subst; clear H.
    destruct (IH _ _ _ _ R) as (s3 & h3 & h4 & A & B & ->).
    exists s3, ((o, o1, r1) :: h3), h4. rewrite run_cons, E, A. repeat split. exact B.
Qed.

(** ** Individual statuses and the database *)

Definition individual (s : st) (e c : Z) : opstat :=
  if c =? 0 then (if e =? 0 then s_cs s else s_ev s e) else c_op (s_con s e c).
Definition exists_comp (s : st) (e c : Z) : Prop :=
  (e = 0 /\ c = 0) \/ (has_evse s e /\ c = 0) \/ has_conn s e c.
Definition rows_present (s : st) : Prop := forall e c, exists_comp s e c -> s_db s e c <> None.

Lemma same_eff_individual : forall s s' e c, same_eff s s' -> individual s' e c = individual s e c.
Proof.
  intros s s' e c (A0&A1&A2&A3&A4&A5&A6&A7&A8&A9). unfold individual. rewrite A2, A5, A6. reflexivity.
Qed.

Lemma core_individual : forall s s', core s = core s' -> forall e c, individual s e c = individual s' e c.
Proof.
  intros s s' H e c. unfold core in H. unfold individual.
  assert (A : s_cs s = s_cs s') by congruence. assert (B : s_ev s = s_ev s') by congruence.
  assert (C : s_con s = s_con s') by congruence. rewrite A, B, C. reflexivity.
Qed.
Lemma core_db : forall s s', core s = core s' -> s_db s = s_db s' /\ s_nev s = s_nev s' /\ s_ncon s = s_ncon s' /\
  s_con s = s_con s' /\ s_rep s = s_rep s' /\ s_up s = s_up s'.
Proof. intros s s' H. unfold core in H. repeat split; congruence. Qed.

Lemma insert_row : forall e c v t e' c',
  row (insert_availability e c v true t) e' c' = if (e' =? e) && (c' =? c) then v else row t e' c'.
Proof. intros. unfold row, insert_availability. destruct ((e' =? e) && (c' =? c)); reflexivity. Qed.
Lemma insert_present : forall e c v b t e' c', t e' c' <> None -> insert_availability e c v b t e' c' <> None.
Proof.
  intros. unfold insert_availability. destruct ((e' =? e) && (c' =? c)); [|assumption].
  destruct b; [discriminate|]. destruct (t e c); discriminate.
Qed.

Definition row_after (e c : Z) (old : opstat) (x : event) : opstat :=
  match persisted_by x with
  | Some (e', c', v) => if (e' =? e) && (c' =? c) then v else old
  | None => old
  end.

Lemma individual_set_db : forall t s e c, individual (set_s_db t s) e c = individual s e c.
Proof. reflexivity. Qed.
Lemma individual_set_cs : forall v s e c,
  individual (set_s_cs v s) e c = if (e =? 0) && (c =? 0) then v else individual s e c.
Proof. intros. unfold individual. destruct (c =? 0), (e =? 0); reflexivity. Qed.
Lemma individual_set_ev : forall v e0 s e c, has_evse s e0 ->
  individual (set_s_ev (fupd (s_ev s) e0 v) s) e c = if (e =? e0) && (c =? 0) then v else individual s e c.
Proof.
  intros v e0 s e c H. unfold individual, has_evse in *. cbn. unfold fupd.
  destruct (Z.eqb_spec c 0); [|rewrite andb_false_r; reflexivity]. rewrite andb_true_r.
  destruct (Z.eqb_spec e 0); destruct (Z.eqb_spec e e0); try reflexivity. lia.
Qed.
Lemma individual_set_con : forall v e0 c0 s e c, has_conn s e0 c0 ->
  individual (upd_conn (with_op v) e0 c0 s) e c = if (e =? e0) && (c =? c0) then v else individual s e c.
Proof.
  intros v e0 c0 s e c [_ H]. unfold individual, upd_conn. cbn. unfold fupd2.
  destruct (Z.eqb_spec c 0).
  - destruct (Z.eqb_spec c c0); [lia|]. rewrite andb_false_r. reflexivity.
  - destruct (Z.eqb_spec e e0); cbn [andb]; [|reflexivity]. destruct (Z.eqb_spec c c0); reflexivity.
Qed.

Lemma individual_after_error : forall e c a b o out r, r <> Ok -> r <> DbError ->
  individual_after e c a b (o, out, r) = a.
Proof. intros e c a b o out r A B. destruct o, r; try reflexivity; congruence. Qed.
Lemma persisted_by_error : forall o out r, r <> Ok -> r <> DbError -> persisted_by (o, out, r) = None.
Proof.
  intros o out r A B. destruct o; try reflexivity.
  - destruct persist, db, r; try reflexivity; congruence.
  - destruct persist, db1, db2, r; try reflexivity; congruence.
  - destruct persist, db, r; try reflexivity; congruence.
Qed.

Lemma andb_sym_eqb : forall a b c d, (a =? b) && (c =? d) = (b =? a) && (d =? c).
Proof. intros. rewrite (Z.eqb_sym a b), (Z.eqb_sym c d). reflexivity. Qed.

Definition avail_inv (s : st) : Prop := s_up s = true -> rows_present s.

(** The database does not depend on whether the callbacks are in sync, so the triggers are looked at directly. *)
Lemma conn_loop_core : forall b e l s, core (fst (loop (trigger_conn b e) l s)) = core s.
Proof.
  induction l as [|c q IH]; intros s; [reflexivity|]. cbn [loop].
  destruct (trigger_conn b e c s) as [s1 o1] eqn:T.
  destruct (trigger_conn_spec _ _ _ _ _ _ T) as (C & _). specialize (IH s1).
  destruct (loop (trigger_conn b e) q s1) as [s2 o2]. cbn [fst] in *. congruence.
Qed.
Lemma trigger_evse_core : forall b e s, core (fst (trigger_evse b e s)) = core s.
Proof.
  intros. unfold trigger_evse. destruct (negb b || _); [|reflexivity].
  pose proof (conn_loop_core b e (ids (s_ncon s e)) (set_s_lev (fupd (s_lev s) e (evse_effective s e)) s)) as H.
  destruct (loop _ _ _) as [s2 o2]. exact H.
Qed.
Lemma evse_loop_core : forall b l s, core (fst (loop (trigger_evse b) l s)) = core s.
Proof.
  induction l as [|c q IH]; intros s; [reflexivity|]. cbn [loop].
  pose proof (trigger_evse_core b c s) as C. destruct (trigger_evse b c s) as [s1 o1].
  specialize (IH s1). destruct (loop (trigger_evse b) q s1) as [s2 o2]. cbn [fst] in *. congruence.
Qed.
Lemma trigger_cs_core : forall b s, core (fst (trigger_cs b s)) = core s.
Proof.
  intros. unfold trigger_cs. destruct (negb b || _); [|reflexivity].
  pose proof (evse_loop_core b (ids (s_nev s)) (set_s_lcs (s_cs s) s)) as H.
  destruct (loop _ _ _) as [s2 o2]. exact H.
Qed.
Lemma trigger_conn_core : forall b e c s, core (fst (trigger_conn b e c s)) = core s.
Proof. intros. unfold trigger_conn. destruct (negb b || _); reflexivity. Qed.

Lemma set_cs_core : forall s v p db s' o r, set_cs v p db s = (s', o, r) -> r = Ok /\
  core s' = core (set_s_db (if p && db then insert_availability 0 0 v true (s_db s) else s_db s) (set_s_cs v s)).
Proof.
  intros s v p db s' o r H. unfold set_cs in H. rewrite persist_if in H.
  match type of H with (trigger_cs true ?x, _) = _ => pose proof (trigger_cs_core true x) as C end.
  destruct (trigger_cs true _) as [s2 o2]. inversion H; subst; auto.
Qed.
Lemma set_evse_core : forall s e v p d1 d2 s' o r, set_evse e v p d1 d2 s = (s', o, r) ->
  (r = EvseOutOfRange /\ ~ has_evse s e /\ s' = s /\ o = []) \/
  (has_evse s e /\
   core s' = core (set_s_db (if p && (d1 || d2) then insert_availability e 0 v true (s_db s) else s_db s)
                     (set_s_ev (fupd (s_ev s) e v) s)) /\
   r = if p && negb d2 then DbError else Ok).
Proof.
  intros s e v p d1 d2 s' o r H. unfold set_evse in H.
  destruct (check_evse s e) eqn:C; cbn [negb] in H.
  - apply check_evse_iff in C. right. rewrite persist_if in H. destruct (p && negb d2).
    + inversion H; subst; auto.
    + match type of H with (trigger_evse true e ?x, _) = _ => pose proof (trigger_evse_core true e x) as K end.
      destruct (trigger_evse true e _) as [s2 o2]. inversion H; subst; auto.
  - left. inversion H; subst. repeat split; auto. intros X. apply check_evse_iff in X. congruence.
Qed.
Lemma set_conn_core : forall s e c v p db s' o r, set_conn e c v p db s = (s', o, r) ->
  (r <> Ok /\ r <> DbError /\ ~ has_conn s e c /\ s' = s /\ o = []) \/
  (r = Ok /\ has_conn s e c /\
   core s' = core (set_s_db (if p && db then insert_availability e c v true (s_db s) else s_db s)
                     (upd_conn (with_op v) e c s))).
Proof.
  intros s e c v p db s' o r H. unfold set_conn in H. pose proof (check_conn_ok s e c) as CK.
  pose proof (check_conn_cases s e c) as CC. rewrite persist_if in H.
  destruct (check_conn s e c) eqn:C;
    try (inversion H; subst; left; split; [discriminate|]; split;
         [destruct CC as [X|[X|X]]; congruence|]; split; [intros X; apply CK in X; discriminate|auto]).
  right. match type of H with (trigger_conn true e c ?x, _) = _ => pose proof (trigger_conn_core true e c x) as K end.
  destruct (trigger_conn true e c _) as [s2 o2]. inversion H; subst.
  split; [reflexivity|]. split; [apply CK; reflexivity|exact K].
Qed.

Lemma step_individual : forall s o s' out r, avail_inv s -> step s o = (s', out, r) ->
  avail_inv s' /\
  (forall e c, row (s_db s') e c = row_after e c (row (s_db s) e c) (o, out, r)) /\
  (s_up s' = true -> forall e c, exists_comp s' e c ->
     individual s' e c = individual_after e c (individual s e c) (row (s_db s') e c) (o, out, r)).
Proof.
  intros s o s' out r INV H.
  assert (SAME : forall r, r <> Ok -> r <> DbError -> avail_inv s /\
    (forall e c, row (s_db s) e c = row_after e c (row (s_db s) e c) (o, [], r)) /\
    (s_up s = true -> forall e c, exists_comp s e c ->
       individual s e c = individual_after e c (individual s e c) (row (s_db s) e c) (o, [], r))).
  { intros r0 N1 N2. split; [exact INV|]. split; intros.
    - unfold row_after. rewrite persisted_by_error by assumption. reflexivity.
    - rewrite individual_after_error by assumption. reflexivity. }
  assert (PRES : forall s1 : st, s_nev s1 = s_nev s -> s_ncon s1 = s_ncon s -> s_up s1 = s_up s ->
    (forall e c, s_db s e c <> None -> s_db s1 e c <> None) -> avail_inv s1).
  { intros s1 N1 N2 N3 N4 U e c X. apply N4. rewrite N3 in U. apply (INV U).
    unfold exists_comp, has_conn, has_evse in *. rewrite N1, N2 in X. exact X. }
  destruct (avail_op o) eqn:A.
  - destruct o; try discriminate A; cbn [step] in H.
    + destruct (negb (s_up s)) eqn:U; [inversion H; subst; apply SAME; discriminate|].
      destruct (set_cs_core _ _ _ _ _ _ _ H) as (-> & C).
      destruct (core_db _ _ C) as (D1 & D2 & D3 & _ & _ & D4). split; [|split].
      * apply PRES; try assumption. intros. rewrite D1. cbn. destruct (persist && db); [|assumption].
        apply insert_present; assumption.
      * intros e c. rewrite D1. cbn [s_db set_s_db]. unfold row_after, persisted_by.
        destruct persist, db; cbn [andb]; try reflexivity. rewrite insert_row, andb_sym_eqb. reflexivity.
      * intros _ e c X. rewrite (core_individual _ _ C), individual_set_db, individual_set_cs.
        unfold individual_after. destruct ((e =? 0) && (c =? 0)); reflexivity.
    + destruct (negb (s_up s)) eqn:U; [inversion H; subst; apply SAME; discriminate|].
      destruct (set_evse_core _ _ _ _ _ _ _ _ _ H) as [(-> & _ & -> & ->)|(HE & C & R)]; [apply SAME; discriminate|].
      destruct (core_db _ _ C) as (D1 & D2 & D3 & _ & _ & D4). split; [|split].
      * apply PRES; try assumption. intros. rewrite D1. cbn. destruct (persist && (db1 || db2)); [|assumption].
        apply insert_present; assumption.
      * intros e' c'. rewrite D1. cbn [s_db set_s_db]. unfold row_after, persisted_by. subst r.
        destruct persist, db1, db2; cbn [andb negb orb]; try reflexivity; rewrite insert_row, andb_sym_eqb; reflexivity.
      * intros _ e' c' X. rewrite (core_individual _ _ C), individual_set_db, individual_set_ev by exact HE.
        subst r. unfold individual_after. destruct (persist && negb db2); reflexivity.
    + destruct (negb (s_up s)) eqn:U; [inversion H; subst; apply SAME; discriminate|].
      destruct (set_conn_core _ _ _ _ _ _ _ _ _ H) as [(N1 & N2 & _ & -> & ->)|(-> & HC & C)];
        [apply SAME; assumption|].
      destruct (core_db _ _ C) as (D1 & D2 & D3 & _ & _ & D4). split; [|split].
      * apply PRES; try assumption. intros. rewrite D1. cbn. destruct (persist && db); [|assumption].
        apply insert_present; assumption.
      * intros e' c'. rewrite D1. cbn [s_db set_s_db]. unfold row_after, persisted_by.
        destruct persist, db; cbn [andb]; try reflexivity. rewrite insert_row, andb_sym_eqb. reflexivity.
      * intros _ e' c' X. rewrite (core_individual _ _ C), individual_set_db, individual_set_con by exact HC.
        reflexivity.
    + destruct (negb (s_up s)) eqn:U; [inversion H; subst; apply SAME; discriminate|].
      apply negb_false_iff in U.
      destruct (restore_cases _ _ _ _ _ _ H) as [(-> & -> & -> & NR)|(v & DV & HC & H2)].
      * split; [exact INV|]. split; [reflexivity|]. intros _ e' c' X. unfold individual_after.
        destruct ((e' =? e) && (c' =? c) && (0 <? c')) eqn:Q; [|reflexivity]. exfalso.
        apply andb_true_iff in Q. destruct Q as [Q Q3]. apply Z.ltb_lt in Q3.
        apply andb_true_iff in Q. destruct Q as [Q1 Q2]. apply Z.eqb_eq in Q1, Q2. subst e' c'.
        destruct X as [[-> ->]|[[HE ->]|HC]]; [lia|lia|].
        apply (INV U e c); [right; right; exact HC|]. apply NR. exact HC.
      * destruct (set_conn_core _ _ _ _ _ _ _ _ _ H2) as [(N1 & N2 & X & _)|(-> & _ & C)]; [contradiction|].
        destruct (core_db _ _ C) as (D1 & D2 & D3 & _ & _ & D4). cbn in D1. split; [|split].
        -- apply PRES; try assumption. intros. rewrite D1. assumption.
        -- intros. rewrite D1. reflexivity.
        -- intros _ e' c' X. rewrite (core_individual _ _ C), individual_set_db, individual_set_con by exact HC.
           unfold individual_after. destruct ((e' =? e) && (c' =? c)) eqn:Q; [|reflexivity].
           apply andb_true_iff in Q. destruct Q as [Q1 Q2]. apply Z.eqb_eq in Q1, Q2. subst e' c'.
           cbn [andb]. replace (0 <? c) with true by (symmetry; apply Z.ltb_lt; destruct HC; lia).
           unfold row. rewrite D1, DV. reflexivity.
    + destruct (negb (s_up s)) eqn:U; [inversion H; subst; apply SAME; discriminate|].
      pose proof (trigger_cs_core false s) as C. destruct (trigger_cs false s) as [s2 o2].
      inversion H; subst; clear H. cbn [fst] in C. destruct (core_db _ _ C) as (D1 & D2 & D3 & _ & _ & D4).
      split; [|split].
      * apply PRES; try assumption. intros. rewrite D1. assumption.
      * intros. rewrite D1. reflexivity.
      * intros _ e' c' X. rewrite (core_individual _ _ C). reflexivity.
    + destruct (boot structure (s_db s)) as [s2 r2] eqn:B. inversion H; subst; clear H.
      destruct (boot_spec _ _ _ _ B) as (B1 & B2 & B3 & B4 & B5 & B6 & B7 & B8 & B9 & B10 & B11 & B12 & B13 & B14).
      split; [|split].
      * intros U e c X. assert (R : r = Ok) by (destruct r; try reflexivity; congruence).
        destruct X as [[-> ->]|[[HE ->]|HC]]; [exact B12| |].
        -- destruct (B14 R e HE) as (_ & _ & Y & _). exact Y.
        -- destruct (B14 R e (proj1 HC)) as (_ & _ & _ & Y). apply (Y c HC).
      * intros e c. rewrite B1. unfold row_after, persisted_by. reflexivity.
      * intros U e c X. assert (R : r = Ok) by (destruct r; try reflexivity; congruence). rewrite R.
        cbn [individual_after]. rewrite B1. unfold individual.
        destruct X as [[-> ->]|[[HE ->]|HC]]; [exact B10| |].
        -- destruct (B14 R e HE) as (_ & Y & _). cbn. unfold has_evse in HE.
           destruct (Z.eqb_spec e 0); [lia|]. exact Y.
        -- destruct (B14 R e (proj1 HC)) as (_ & _ & _ & Y). destruct (Y c HC) as [Y1 _]. destruct HC as [HC1 HC2].
           destruct (Z.eqb_spec c 0); [lia|]. rewrite Y1. reflexivity.
  - destruct (notify_ops_frame _ _ _ _ _ A H) as (X1 & X2 & X3).
    pose proof X1 as (A0&A1&A2&A3&A4&A5&A6&A7&A8&A9). split; [|split].
    + apply PRES; try assumption. intros. rewrite A1. assumption.
    + intros. rewrite A1. unfold row_after. destruct o; try discriminate A; reflexivity.
    + intros _ e c _. rewrite (same_eff_individual _ _ e c X1). destruct o; try discriminate A; destruct r; reflexivity.
Qed.

(** ** Persistence over histories *)

Lemma fold_row : forall e c h a, fold_left (fun a x => row_after e c a x) h a =
  fold_left (fun a x => match persisted_by x with
                        | Some (e', c', v) => if (e' =? e) && (c' =? c) then v else a
                        | None => a end) h a.
Proof. intros e c h. induction h as [|x q IH]; intros a; [reflexivity|]. cbn [fold_left]. apply IH. Qed.

Lemma run_rows : forall ops s s' h, avail_inv s -> run s ops = (s', h) ->
  avail_inv s' /\ forall e c, row (s_db s') e c = fold_left (fun a x => row_after e c a x) h (row (s_db s) e c).
Proof.
  induction ops as [|o q IH]; intros s s' h I H.
  - inversion H; subst. split; [exact I|reflexivity].
  - rewrite run_cons in H. destruct (step s o) as [[s1 o1] r1] eqn:E.
    destruct (run s1 q) as [s2 h2] eqn:R. inversion H; subst; clear H.
    destruct (step_individual _ _ _ _ _ I E) as (I1 & A & _).
    destruct (IH _ _ _ I1 R) as (I2 & B). split; [exact I2|]. intros. rewrite B, A. reflexivity.
Qed.

Lemma boot_avail_inv : forall m t s r, boot m t = (s, r) -> avail_inv s.
Proof.
  intros m t s r B.
  destruct (boot_spec _ _ _ _ B) as (B1 & B2 & B3 & B4 & B5 & B6 & B7 & B8 & B9 & B10 & B11 & B12 & B13 & B14).
  intros U e c X. assert (R : r = Ok) by (destruct r; try reflexivity; congruence).
  destruct X as [[-> ->]|[[HE ->]|HC]]; [exact B12| |].
  - destruct (B14 R e HE) as (_ & _ & Y & _). exact Y.
  - destruct (B14 R e (proj1 HC)) as (_ & _ & _ & Y). apply (Y c HC).
Qed.

Lemma history_rows : forall m s0 r0 ops s h, boot m empty_table = (s0, r0) -> run s0 ops = (s, h) ->
  forall e c, row (s_db s) e c = last_persisted e c h.
Proof.
  intros m s0 r0 ops s h B R e c.
  destruct (run_rows _ _ _ _ (boot_avail_inv _ _ _ _ B) R) as [_ H]. rewrite H.
  destruct (boot_spec _ _ _ _ B) as (B1 & _). rewrite B1. rewrite fold_row. reflexivity.
Qed.

Lemma restart_restores : forall m s0 r0 ops s h, boot m empty_table = (s0, r0) -> run s0 ops = (s, h) ->
  forall m2 s2 out r, step s (Restart m2) = (s2, out, r) ->
  (r = Ok <-> forall e, 1 <= e <= Z.of_nat (length m2) -> exists n, lookup_structure m2 e = Some n) /\
  (r = Ok ->
    s_cs s2 = last_persisted 0 0 h /\ s_nev s2 = Z.of_nat (length m2) /\
    forall e, has_evse s2 e ->
      (exists n, lookup_structure m2 e = Some n /\ s_ncon s2 e = Z.max 0 n) /\
      s_ev s2 e = last_persisted e 0 h /\
      forall c, has_conn s2 e c -> s_con s2 e c = Conn (last_persisted e c h) false false false false).
Proof.
  intros m s0 r0 ops s h B R m2 s2 out r H. cbn [step] in H.
  destruct (boot m2 (s_db s)) as [s3 r3] eqn:B2'. inversion H; subst; clear H.
  pose proof (history_rows _ _ _ _ _ _ B R) as HR.
  destruct (boot_spec _ _ _ _ B2') as (B1 & B2 & B3 & B4 & B5 & B6 & B7 & B8 & B9 & B10 & B11 & B12 & B13 & B14).
  split.
  - rewrite B3. split; intros X e Re.
    + specialize (X e Re). destruct (lookup_structure m2 e) as [n|]; [eauto|congruence].
    + destruct (X e Re) as [n E]. congruence.
  - intros ->. rewrite B10, HR. split; [reflexivity|]. split; [exact B11|].
    intros e He. destruct (B14 eq_refl e He) as (Y1 & Y2 & _ & Y4). rewrite HR in Y2.
    split; [exact Y1|]. split; [exact Y2|]. intros c Hc. destruct (Y4 c Hc) as [Y5 _]. rewrite HR in Y5. exact Y5.
Qed.

(** ** Refused calls *)

Lemma refused_unchanged : forall s o s' out r, step s o = (s', out, r) ->
  r = EvseOutOfRange \/ r = ConnectorOutOfRange \/ r = NoObject -> s' = s /\ out = [].
Proof.
  intros s o s' out r H D.
  assert (FL : forall f e c d, set_flag f e c d s = (s', out, r) -> s' = s /\ out = []).
  { intros f e c d E. unfold set_flag in E. destruct (check_conn s e c); try solve [inversion E; auto].
    destruct (send_status _ _ _ _ _ _). inversion E; subst. destruct D as [D|[D|D]]; discriminate. }
  destruct (is_restart o) eqn:IR.
  { destruct o; try discriminate IR. cbn [step] in H.
    destruct (boot structure (s_db s)) as [s3 r3] eqn:B. inversion H; subst.
    destruct (boot_spec _ _ _ _ B) as (_ & _ & _ & B4 & _). destruct D as [D|[D|D]], B4; congruence. }
  destruct o; try discriminate IR; cbn [step] in H; (destruct (negb (s_up s)); [inversion H; auto|]);
    try (eapply FL; exact H); try (inversion H; subst; destruct D as [D|[D|D]]; discriminate).
  - destruct (set_evse_core _ _ _ _ _ _ _ _ _ H) as [(_ & _ & -> & ->)|(_ & _ & ->)]; [auto|].
    destruct (persist && negb db2); destruct D as [D|[D|D]]; discriminate.
  - destruct (set_conn_core _ _ _ _ _ _ _ _ _ H) as [(_ & _ & _ & -> & ->)|(-> & _)]; [auto|].
    destruct D as [D|[D|D]]; discriminate.
  - destruct (restore_cases _ _ _ _ _ _ H) as [(_ & -> & -> & _)|(v & _ & HC & H2)]; [auto|].
    destruct (set_conn_core _ _ _ _ _ _ _ _ _ H2) as [(_ & _ & X & _)|(-> & _)]; [contradiction|].
    destruct D as [D|[D|D]]; discriminate.
  - unfold set_occupied in H. destruct (check_conn s e c); try solve [inversion H; auto].
    destruct (negb _); [destruct (send_status _ _ _ _ _ _)|]; inversion H; subst; destruct D as [D|[D|D]]; discriminate.
  - unfold send_one in H. destruct (check_conn s e c); try solve [inversion H; auto].
    destruct (send_status _ _ _ _ _ _). inversion H; subst. destruct D as [D|[D|D]]; discriminate.
Qed.
