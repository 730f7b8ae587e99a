(** Sequence numbers: the instances of [TxProofs2], and the case of failing statements. *)
From Coq Require Import ZArith List Bool Lia.
From Verif Require Import TxModel TxSpec TxProofs TxProofs2.
From Verif Require CsmModel.
Import ListNotations.
Local Open Scope Z_scope.

(** ** Lists of numbers *)
Lemma counting_app : forall l n m, counting n l -> m = n + Z.of_nat (length l) -> counting n (l ++ [m]).
Proof.
  induction l as [|x q IH]; intros n m H E; cbn in *; [split; [lia|exact I]|].
  destruct H as (H1&H2). split; [exact H1|]. apply IH; [exact H2|]. lia.
Qed.
Lemma increasing_app : forall l m, increasing l -> Forall (fun x => x < m) l -> increasing (l ++ [m]).
Proof.
  induction l as [|x q IH]; intros m H F; cbn in *; [auto|]. inversion F; subst. destruct H as (H1&H4).
  split; [|apply IH; assumption]. destruct q as [|y r]; cbn; [exact H2|exact H1].
Qed.

(** Events of a transaction that can go on. *)
Definition going (l : list evkind) : Prop :=
  match l with [] => True | k :: q => k = Started /\ Forall (fun k => k = Updated) q end.
Lemma after_updates : forall q, Forall (fun k => k = Updated) q -> after_start q /\ after_start (q ++ [Ended]).
Proof.
  induction q as [|k r IH]; intros H; cbn; [auto|]. inversion H; subst. destruct (IH H3). auto.
Qed.
Lemma going_life : forall l, going l -> life l.
Proof. intros [|k q]; cbn; [auto|]. intros (H1&H2). split; [exact H1|]. apply after_updates. exact H2. Qed.

Definition Rc (n : Z) (l : list (Z * evkind)) : Prop :=
  counting 0 (map fst l) /\ n = Z.of_nat (length l) /\ going (map snd l).
Definition Sc (l : list (Z * evkind)) : Prop := counting 0 (map fst l) /\ life (map snd l).

Lemma consecutive : forall con resume txcb allcb h id, different_ids h -> no_failures h -> no_crashes h ->
  Z.of_nat (length (w_out (run (init con resume txcb allcb) h))) + Z.of_nat (length h) < 2147483646 ->
  counting 0 (map fst (events id (w_out (run (init con resume txcb allcb) h)))) /\
  life (map snd (events id (w_out (run (init con resume txcb allcb) h)))).
Proof.
  intros con resume txcb allcb h id D F C L.
  apply (all_numbers false Rc Sc).
  - split; [exact I|]. split; [reflexivity|exact I].
  - split; exact I.
  - intros n l (A1&A2&A3). split; [exact A1|apply going_life; exact A3].
  - intros n l (A1&A2&A3). lia.
  - intros n l k (A1&A2&A3) [K|K] [NE|NE]; try discriminate. unfold Rc. rewrite !map_app, app_length.
    split; [apply counting_app; [exact A1|rewrite map_length; exact A2]|]. split; [cbn; lia|].
    destruct l as [|p q]; cbn in *; [split; [apply K; reflexivity|constructor]|].
    destruct A3 as (A3&A4). split; [exact A3|]. apply Forall_app. split; [exact A4|]. constructor; [|constructor].
    destruct k; try congruence. destruct K as (K&_). discriminate (K eq_refl).
  - intros n l (A1&A2&A3) [K|K]; [discriminate|]. unfold Sc. rewrite !map_app.
    split; [apply counting_app; [exact A1|rewrite map_length; exact A2]|].
    destruct l as [|p q]; cbn in *; [destruct K as (_&K); discriminate (K eq_refl)|].
    destruct A3 as (A3&A4). split; [exact A3|]. apply after_updates. exact A4.
  - discriminate.
  - apply Forall_forall. intros k I. split; [exact (proj1 (Forall_forall _ _) F k I)|]. intros _. exact (proj1 (Forall_forall _ _) C k I).
  - exact D.
  - exact L.
Qed.

Definition Ri (n : Z) (l : list (Z * evkind)) : Prop :=
  increasing (map fst l) /\ Forall (fun x => x < n) (map fst l) /\ 0 <= n.
Lemma growing : forall con resume txcb allcb h id, different_ids h -> no_failures h ->
  Z.of_nat (length (w_out (run (init con resume txcb allcb) h))) + Z.of_nat (length h) < 2147483646 ->
  increasing (map fst (events id (w_out (run (init con resume txcb allcb) h)))).
Proof.
  intros con resume txcb allcb h id D F L.
  assert (AP : forall n l k, Ri n l -> Ri (n + 1) (l ++ [(n, k)])).
  { intros n l k (A1&A2&A3). unfold Ri. rewrite map_app. cbn. split; [apply increasing_app; assumption|]. split; [|lia].
    apply Forall_app. split; [eapply Forall_impl; [|exact A2]; cbn; intros; lia|]. constructor; [lia|constructor]. }
  apply (all_numbers true Ri (fun l => increasing (map fst l))).
  - unfold Ri. cbn. split; [exact I|]. split; [constructor|lia].
  - exact I.
  - intros n l (A1&_). exact A1.
  - intros n l (_&_&A). exact A.
  - intros n l k A _ _. apply AP. exact A.
  - intros n l A _. apply (AP n l Ended A).
  - intros _ n l (A1&A2&A3). split; [exact A1|]. split; [|lia]. eapply Forall_impl; [|exact A2]. cbn. intros. lia.
  - apply Forall_forall. intros k I. split; [exact (proj1 (Forall_forall _ _) F k I)|]. discriminate.
  - exact D.
  - exact L.
Qed.

(** ** Failing statements *)
Definition bound : Z := 2147483646.
Definition nums (l : list (Z * evkind)) : Prop := counting 0 (map fst l).
Definition mem (used : list Z) (w : world) : Prop :=
  w_budget w = None /\ w_prog w <> Dead /\
  (olen w < bound ->
   (forall e t, w_tx w e = Some t -> In (t_id t) used /\ t_seq t = Z.of_nat (length (events (t_id t) (w_out w)))) /\
   (forall e f t u, w_tx w e = Some t -> w_tx w f = Some u -> t_id t = t_id u -> e = f) /\
   (forall id, nums (events id (w_out w))) /\ (forall id, ~ In id used -> events id (w_out w) = [])).
Lemma events_len : forall id l, (length (events id l) <= length l)%nat.
Proof. induction l as [|o q IH]; cbn; [lia|]. destruct o; try lia. destruct (v_id v =? id); cbn; lia. Qed.
Lemma mem_quiet : forall used w w1, quiet w w1 -> mem used w -> mem used w1.
Proof.
  intros used w w1 (F&Q1&Q2&Q3) (B&P&M). destruct F as (F1&F2&_&_&F5). destruct (F2 B) as (B1&P1). split; [exact B1|].
  split; [auto|]. intros L. destruct M as (M1&M2&M3&M4); [unfold olen in *; lia|].
  assert (K : forall e t, w_tx w1 e = Some t -> exists t0, w_tx w e = Some t0 /\ t_id t0 = t_id t /\ t_seq t0 = t_seq t).
  { intros e t T. specialize (Q2 e). rewrite T in Q2. destruct (w_tx w e) as [t0|]; [|discriminate].
    exists t0. cbn in Q2. inversion Q2. split; [reflexivity|split; congruence]. }
  split; [|split; [|split]].
  - intros e t T. destruct (K e t T) as (t0&K1&K2&K3). rewrite <- K2, <- K3, Q3. apply (M1 e t0 K1).
  - intros e f t u T U E. destruct (K e t T) as (t0&K1&K2&K3). destruct (K f u U) as (u0&L1&L2&L3).
    eapply (M2 e f t0 u0); eauto. congruence.
  - intros id. rewrite Q3. apply M3.
  - intros id N. rewrite Q3. apply M4. exact N.
Qed.
Lemma mem_quietly : forall f used w, quietly f -> w_prog w = Running -> mem used w -> mem used (f w).
Proof. intros f used w Q P M. eapply mem_quiet; [apply Q; exact P|exact M]. Qed.
Lemma mem_qseq : forall used w f g, quietly f -> w_prog w = Running -> mem used w ->
  (w_prog (f w) = Running -> quiet w (f w) -> mem used (f w) -> mem used (g (f w))) -> mem used ((f ;; g) w).
Proof.
  intros used w f g Q P G K. pose proof (mem_quietly _ _ _ Q P G) as G1.
  destruct (prog_dec (f w)) as [P1|P1]; [rewrite seq_go by exact P1; apply K; auto|rewrite seq_stop by exact P1; exact G1].
Qed.
Lemma mem_then : forall used w f g, mem used (f w) -> quietly g -> mem used ((f ;; g) w).
Proof.
  intros used w f g G Q. destruct (prog_dec (f w)) as [P|P]; [rewrite seq_go by exact P|rewrite seq_stop by exact P; exact G].
  apply mem_quietly; auto.
Qed.
Lemma statement_memory : forall f w, w_budget w = None ->
  let w1 := fst (statement f w) in
  w_budget w1 = None /\ w_prog w1 = w_prog w /\ w_tx w1 = w_tx w /\ w_out w1 = w_out w.
Proof.
  intros f w B w1. unfold w1, statement, pop_fail. clear w1. destruct (w_fail w) as [|[] q]; cbn; auto;
    destruct (f (w_rows w)); cbn; auto; unfold durable; cbn; rewrite B; cbn; auto.
Qed.
Lemma emit_memory : forall o w, w_budget w = None ->
  w_budget (emit o w) = None /\ w_prog (emit o w) = w_prog w /\ w_tx (emit o w) = w_tx w /\ w_out (emit o w) = w_out w ++ [o].
Proof. intros o w B. unfold emit, durable. rewrite B. cbn. auto. Qed.
Lemma events_app : forall id a b, events id (a ++ b) = events id a ++ events id b.
Proof. induction a as [|o q IH]; intros b; cbn; [reflexivity|]. destruct o; auto. destruct (v_id v =? id); cbn; rewrite IH; reflexivity. Qed.
Lemma req_memory : forall v w, w_budget w = None -> w_prog w = Running ->
  let w1 := transaction_event_req v w in
  w_budget w1 = None /\ w_prog w1 = Running /\ w_tx w1 = w_tx w /\ (length (w_out w) + 1 <= length (w_out w1))%nat /\
  (forall id, events id (w_out w1) = events id (w_out w) ++ if v_id v =? id then [(v_seq v, v_kind v)] else []).
Proof.
  intros v w B P w1. unfold w1, transaction_event_req. clear w1.
  assert (H : forall v1 w, v_id v1 = v_id v -> v_seq v1 = v_seq v -> v_kind v1 = v_kind v -> w_budget w = None -> w_prog w = Running ->
    forall b : bool, let w1 := (emit (OTx v1) ;; (if b then emit (OTxCallback v) else skip)) w in
    w_budget w1 = None /\ w_prog w1 = Running /\ w_tx w1 = w_tx w /\ (length (w_out w) + 1 <= length (w_out w1))%nat /\
    (forall id, events id (w_out w1) = events id (w_out w) ++ if v_id v =? id then [(v_seq v, v_kind v)] else [])).
  { clear. intros v1 w E1 E2 E3 B P b w1. unfold w1. clear w1. destruct (emit_memory (OTx v1) w B) as (X1&X2&X3&X4).
    rewrite P in X2. rewrite seq_go by exact X2. destruct b.
    - destruct (emit_memory (OTxCallback v) (emit (OTx v1) w) X1) as (Y1&Y2&Y3&Y4).
      rewrite Y4, X4, !app_length. split; [exact Y1|]. split; [congruence|]. split; [congruence|]. split; [cbn; lia|].
      intros id. rewrite !events_app. cbn. rewrite app_nil_r, E1, E2, E3. destruct (v_id v =? id); reflexivity.
    - unfold skip. rewrite X4, app_length. split; [exact X1|]. split; [exact X2|]. split; [exact X3|]. split; [cbn; lia|].
      intros id. rewrite !events_app. cbn. rewrite E1, E2, E3. destruct (v_id v =? id); reflexivity. }
  destruct (find _ _) as [p|]; [|apply H; auto].
  match goal with |- context [(_ ;; _) ?u] => exact (H (TxEv (v_kind v) (v_id v) (v_seq v) RemoteStart (v_cs v) (v_reason v)
    (Some (snd (snd p))) (v_evse v) (v_tok v)) u eq_refl eq_refl eq_refl B P (w_txcb w)) end.
Qed.
Lemma send_memory : forall e k tr ev tok w t, w_prog w = Running -> w_budget w = None -> w_tx w e = Some t ->
  0 <= t_seq t < 2147483647 ->
  let w1 := send_event e k tr ev tok w in
  w_budget w1 = None /\ w_prog w1 = Running /\ w_tx w1 = CsmModel.fupd (w_tx w) e (Some (bumped t)) /\
  (length (w_out w) + 1 <= length (w_out w1))%nat /\
  (forall id, events id (w_out w1) = events id (w_out w) ++ evt t k id).
Proof.
  intros e k tr ev tok w t P F T B w1. unfold w1, send_event. clear w1. rewrite T.
  assert (SQ : seq_no_result w e = t_seq t).
  { unfold seq_no_result. rewrite T. rewrite (i32_small (t_seq t + 1)) by lia. rewrite i32_small by lia. lia. }
  rewrite SQ. set (v := TxEv _ _ _ _ _ _ _ _ _).
  assert (G : w_budget (get_seq_no e w) = None /\ w_prog (get_seq_no e w) = Running /\ w_out (get_seq_no e w) = w_out w /\
    w_tx (get_seq_no e w) = CsmModel.fupd (w_tx w) e (Some (bumped t))).
  { unfold get_seq_no. rewrite T. rewrite (i32_small (t_seq t + 1)) by lia.
    change (t_seq (with_seq (t_seq t + 1) t)) with (t_seq t + 1). fold (bumped t). destruct (t_db t).
    - set (w2 := put_tx e _ w).
      destruct (statement_memory (update_seq (t_id t) (t_seq t + 1)) w2 F) as (C1&C2&C3&C4). rewrite C1, C2, C3, C4. auto.
    - cbn. auto. }
  destruct G as (G1&G2&G3&G4). rewrite seq_go by exact G2.
  destruct (req_memory v _ G1 G2) as (H1&H2&H3&H4&H5). split; [exact H1|]. split; [exact H2|]. split; [congruence|].
  split; [rewrite <- G3; exact H4|]. intros id. rewrite H5, G3. reflexivity.
Qed.
(** Sending an event; [gone]: the transaction is released right after. *)
Lemma mem_send : forall used w e k tr ev tok, w_prog w = Running -> mem used w -> mem used (send_event e k tr ev tok w).
Proof.
  intros used w e k tr ev tok P (B&ND&M). destruct (w_tx w e) as [t|] eqn:T.
  2:{ unfold send_event. rewrite T. split; [exact B|]. split; [exact ND|exact M]. }
  destruct (Z_lt_dec (olen w) bound) as [L|L].
  - destruct (M L) as (M1&M2&M3&M4). destruct (M1 e t T) as (U1&U2). pose proof (events_len (t_id t) (w_out w)) as EL.
    assert (Bd : 0 <= t_seq t < 2147483647) by (unfold olen, bound in L; lia).
    destruct (send_memory e k tr ev tok w t P B T Bd) as (S1&S2&S3&S4&S5).
    set (w1 := send_event e k tr ev tok w) in *. split; [exact S1|]. split; [congruence|]. intros _. rewrite S3.
    split; [|split; [|split]].
    + intros f u. unfold CsmModel.fupd. destruct (f =? e) eqn:Q.
      * intros X. inversion X; subst u. change (t_id (bumped t)) with (t_id t). change (t_seq (bumped t)) with (t_seq t + 1).
        split; [exact U1|]. rewrite S5, evt_same, app_length. cbn. lia.
      * intros X. destruct (M1 f u X) as (V1&V2). split; [exact V1|]. rewrite S5.
        rewrite evt_other, app_nil_r; [exact V2|]. intros Z. apply Z.eqb_neq in Q. apply Q. eapply M2; eauto.
    + intros f g u v U V E. unfold CsmModel.fupd in U, V. destruct (f =? e) eqn:Q1; destruct (g =? e) eqn:Q2;
        repeat match goal with H : (_ =? _) = true |- _ => apply Z.eqb_eq in H | H : (_ =? _) = false |- _ => apply Z.eqb_neq in H end.
      * congruence.
      * inversion U; subst u. cbn in E. assert (e = g) by (eapply M2; eauto). congruence.
      * inversion V; subst v. cbn in E. assert (f = e) by (eapply M2; eauto). congruence.
      * eapply M2; eauto.
    + intros id. rewrite S5. destruct (Z.eq_dec id (t_id t)) as [-> |NE].
      * rewrite evt_same. unfold nums. rewrite map_app. apply counting_app; [apply M3|]. rewrite map_length. cbn. lia.
      * rewrite evt_other, app_nil_r by exact NE. apply M3.
    + intros id N. rewrite S5, (M4 id N), evt_other; [reflexivity|]. intros ->. contradiction.
  - pose proof (send_fine e k tr ev tok w P) as (_&F2&_&_&F5). destruct (F2 B) as (F3&F4). split; [exact F3|]. split; [auto|].
    intros X. exfalso. apply L. unfold olen in *. lia.
Qed.
Lemma mem_smaller : forall used w w1, mem used w -> w_budget w1 = None -> w_prog w1 <> Dead -> w_out w1 = w_out w ->
  (forall e t, w_tx w1 e = Some t -> w_tx w e = Some t) -> mem used w1.
Proof.
  intros used w w1 (B&P&M) B1 P1 E T. split; [exact B1|]. split; [exact P1|]. intros L. unfold olen in *. rewrite E in *.
  destruct (M L) as (M1&M2&M3&M4). split; [|split; [|split]]; eauto.
Qed.
Lemma pop_memory : forall w, let w1 := snd (pop_fail w) in
  w_budget w1 = w_budget w /\ w_prog w1 = w_prog w /\ w_tx w1 = w_tx w /\ w_out w1 = w_out w /\ w_con w1 = w_con w /\ w_resume w1 = w_resume w.
Proof. intros w w1. unfold w1, pop_fail. destruct (w_fail w); cbn; auto 10. Qed.
Lemma mem_release : forall used w e, w_prog w = Running -> mem used w -> mem used (release_transaction e w).
Proof.
  intros used w e P G. pose proof G as (B&_). unfold release_transaction. destruct (w_tx w e) as [t|]; [|exact G].
  pose proof (pop_memory w) as (A1&A2&A3&A4&_). destruct (pop_fail w) as [b w1]. cbn [snd] in *.
  assert (H : exists w2, (if b then w1 else fst (statement (delete_row (t_id t)) w1)) = w2 /\ w_budget w2 = None /\
     w_prog w2 = Running /\ w_tx w2 = w_tx w /\ w_out w2 = w_out w).
  { destruct b; [exists w1; intuition congruence|]. rewrite B in A1.
    destruct (statement_memory (delete_row (t_id t)) w1 A1) as (C1&C2&C3&C4). eexists. split; [reflexivity|]. intuition congruence. }
  destruct H as (w2&H0&H1&H2&H3&H4). unfold seqw. rewrite H0, H2.
  eapply mem_smaller; [exact G|exact H1|cbn; congruence|exact H4|]. cbn. unfold CsmModel.fupd. intros f u.
  destruct (f =? e); [discriminate|]. rewrite H3. auto.
Qed.
Lemma delete_db_memory : forall e w, w_budget w = None -> w_prog w = Running ->
  let w1 := delete_database_transaction e w in
  w_budget w1 = None /\ w_prog w1 = Running /\ w_tx w1 = w_tx w /\ w_out w1 = w_out w.
Proof.
  intros e w B P w1. unfold w1, delete_database_transaction, transaction_get. clear w1.
  pose proof (pop_memory w) as (A1&A2&A3&A4&_). destruct (pop_fail w) as [b w1]. cbn [snd] in *.
  assert (B1 : w_budget w1 = None) by congruence.
  destruct b; cbv beta iota; [intuition congruence|]. destruct (find _ _) as [r|]; [|intuition congruence].
  destruct (statement_memory (delete_row (r_id r)) w1 B1) as (C1&C2&C3&C4). intuition congruence.
Qed.
Lemma mem_open : forall used w e cc id tok cs, w_prog w = Running -> mem used w -> ~ In id used ->
  mem (id :: used) (open_transaction e cc id tok cs w).
Proof.
  intros used w e cc id tok cs P G N. pose proof G as (B&_&M).
  assert (W : forall w1, mem used w1 -> mem (id :: used) w1).
  { intros w1 (B1&P1&M1). split; [exact B1|]. split; [exact P1|]. intros L. destruct (M1 L) as (X1&X2&X3&X4).
    split; [|split; [exact X2|split; [exact X3|]]].
    - intros f t T. destruct (X1 f t T). split; [right; assumption|assumption].
    - intros i Ni. apply X4. intros I. apply Ni. right. exact I. }
  unfold open_transaction. destruct (negb _).
  { apply W. eapply mem_quiet; [apply throw_quiet; exact P|exact G]. }
  set (t := Tx id cc 0 cs _ None None (w_resume w) false). set (w1 := put_tx e (Some t) w).
  assert (K : forall w2, w_budget w2 = None -> w_prog w2 <> Dead -> w_tx w2 = w_tx w1 -> w_out w2 = w_out w -> mem (id :: used) w2).
  { intros w2 B2 P2 T2 O2. split; [exact B2|]. split; [exact P2|]. unfold olen. rewrite O2, T2. intros L.
    destruct (M L) as (M1&M2&M3&M4). split; [|split; [|split; [exact M3|]]].
    - intros f u. cbn. unfold CsmModel.fupd. destruct (f =? e).
      + intros X. inversion X; subst u. cbn. split; [auto|]. rewrite (M4 id N). reflexivity.
      + intros X. destruct (M1 f u X) as (V1&V2). split; [right; exact V1|exact V2].
    - intros f g u v. cbn. unfold CsmModel.fupd. destruct (f =? e) eqn:Q1; destruct (g =? e) eqn:Q2;
        repeat match goal with H : (_ =? _) = true |- _ => apply Z.eqb_eq in H end.
      + congruence.
      + intros X Y E. inversion X; subst u. cbn in E. exfalso. apply N. rewrite E. apply (M1 g v Y).
      + intros X Y E. inversion Y; subst v. cbn in E. exfalso. apply N. rewrite <- E. apply (M1 f u X).
      + apply M2.
    - intros i Ni. apply M4. intros I. apply Ni. right. exact I. }
  assert (B1 : w_budget w1 = None) by exact B.
  assert (P1 : w_prog w1 = Running) by exact P.
  destruct (w_resume w); [|apply K; auto; congruence].
  pose proof (statement_memory (insert_row (row_of_tx e t)) w1 B1) as S1. unfold insert_tx at 1.
  destruct (statement (insert_row (row_of_tx e t)) w1) as [w2 ok]. cbn [fst] in S1. destruct S1 as (C1&C2&C3&C4).
  destruct ok; [apply K; auto; congruence|].
  assert (P2 : w_prog w2 = Running) by congruence.
  destruct (delete_db_memory e w2 C1 P2) as (D1&D2&D3&D4). set (w3 := delete_database_transaction e w2) in *.
  rewrite seq_go by exact D2. fold w3. cbv beta. unfold insert_tx.
  pose proof (statement_memory (insert_row (row_of_tx e t)) w3 D1) as S3.
  destruct (statement (insert_row (row_of_tx e t)) w3) as [w4 ok]. cbn [fst] in S3. destruct S3 as (E1&E2&E3&E4).
  assert (X2 : w_tx w4 = w_tx w1) by congruence.
  assert (X3 : w_out w4 = w_out w) by (rewrite E4, D4, C4; reflexivity).
  destruct ok; apply K; cbn; auto; congruence.
Qed.
Lemma mem_foreach : forall A (l : list A) f used,
  (forall a w, w_prog w = Running -> mem used w -> mem used (f a w)) ->
  forall w, w_prog w = Running -> mem used w -> mem used (foreach l f w).
Proof.
  induction l as [|a q IH]; intros f used H w P G; cbn [foreach]; [exact G|].
  unfold seqw. pose proof (H a w P G) as G1. destruct (w_prog (f a w)) eqn:E; auto.
Qed.
Lemma mem_exec : forall o used w, w_prog w = Running -> mem used w -> is_restart o = false ->
  (forall id, In id (ids_of o) -> ~ In id used) -> mem (ids_of o ++ used) (exec o w).
Proof.
  intros o used w P G NR N. destruct o; cbn [exec ids_of app].
  - assert (Ni : ~ In id used) by (apply N; left; reflexivity). unfold on_started.
    assert (W : forall w1, mem used w1 -> mem (id :: used) w1).
    { intros w1 (B1&P1&M1). split; [exact B1|]. split; [exact P1|]. intros L. destruct (M1 L) as (X1&X2&X3&X4).
      split; [|split; [exact X2|split; [exact X3|]]].
      - intros f t T. destruct (X1 f t T). split; [right; assumption|assumption].
      - intros i Nj. apply X4. intros I. apply Nj. right. exact I. }
    pose proof (mem_quietly _ _ _ (get_evse_quiet e) P G) as G1.
    destruct (prog_dec (get_evse e w)) as [P1|P1]; [rewrite seq_go by exact P1|rewrite seq_stop by exact P1; auto].
    pose proof (mem_open used _ e c id tok cs P1 G1 Ni) as G2.
    match goal with |- mem _ ((?f ;; ?g) ?v) =>
      destruct (prog_dec (f v)) as [P2|P2]; [rewrite seq_go by exact P2|rewrite seq_stop by exact P2; exact G2] end.
    apply mem_qseq; [apply set_remote_quiet|exact P2|exact G2|]. intros. apply mem_send; assumption.
  - apply mem_qseq; [apply get_evse_quiet|exact P|exact G|]. intros P1 _ G1. cbv beta.
    destruct (negb _); [exact G1|].
    apply mem_qseq; [apply set_charging_quiet|exact P1|exact G1|]. intros P2 _ G2.
    apply mem_qseq; [apply close_quiet|exact P2|exact G2|]. intros P3 _ G3.
    rewrite seq_assoc. apply mem_then.
    + pose proof (mem_send used _ e Ended tr None match tr with StopAuthorized => tok | _ => None end P3 G3) as G4.
      match goal with |- mem _ ((?f ;; ?g) ?v) =>
        destruct (prog_dec (f v)) as [P4|P4]; [rewrite seq_go by exact P4|rewrite seq_stop by exact P4; exact G4] end.
      apply mem_release; assumption.
    + apply quietly_seq; [apply finish_reset_quiet|]. apply quietly_seq; apply sched_quiet.
  - apply mem_qseq; [apply get_evse_quiet|exact P|exact G|]. intros P1 _ G1. cbv beta.
    destruct (w_tx (get_evse e w) e) as [t|]; [|exact G1]. destruct (t_tok t); [exact G1|].
    apply mem_qseq; [apply set_tok_quiet|exact P1|exact G1|]. intros. apply mem_send; auto.
  - apply mem_qseq; [apply get_evse_quiet|exact P|exact G|]. intros P1 _ G1. cbv beta.
    destruct (w_tx (get_evse e w) e) as [t|]; [|exact G1]. destruct (t_cs t =? cs); [exact G1|].
    apply mem_qseq; [apply set_charging_quiet|exact P1|exact G1|]. intros. apply mem_send; auto.
  - unfold on_meter_timer. destruct (w_tx w e); [|exact G]. apply mem_send; auto.
  - apply mem_qseq; [destruct e; [apply get_evse_quiet|apply quietly_skip]|exact P|exact G|]. intros P1 _ G1. cbv beta zeta.
    apply mem_qseq; [apply emit_quiet; reflexivity|exact P1|exact G1|]. intros P2 _ G2.
    match goal with |- context [if ?b then _ else skip] => destruct b end; [|exact G2].
    apply mem_foreach; auto. intros. apply mem_send; auto.
  - apply mem_quietly; auto. apply handle_reset_quiet.
  - apply mem_quietly; auto. apply change_quiet.
  - apply mem_quietly; auto. apply firmware_quiet.
  - apply mem_quietly; auto. apply restore_quiet.
  - apply mem_quietly; auto. apply plain_quiet. intros v. cbn. auto 10.
  - apply mem_quietly; auto. apply response_quiet.
  - apply mem_quietly; auto. apply status_quiet.
  - eapply mem_smaller; [exact G|apply G|apply G|reflexivity|auto].
  - discriminate.
Qed.
Lemma mem_step : forall k used w, mem used w -> c_crash k = None -> is_restart (c_op k) = false ->
  (forall id, In id (ids_of (c_op k)) -> ~ In id used) -> mem (ids_of (c_op k) ++ used) (step w k).
Proof.
  intros k used w G C R N. unfold step. set (w0 := set_w_prog Running _).
  assert (G0 : mem used w0).
  { eapply mem_smaller; [exact G|exact C|discriminate|reflexivity|auto]. }
  pose proof (mem_exec (c_op k) used w0 eq_refl G0 R N) as G1. pose proof G1 as (_&P1&_).
  destruct (w_prog (exec (c_op k) w0)); [exact G1|exact G1|congruence].
Qed.
Lemma mem_run : forall h used w, mem used w -> no_crashes h -> no_restarts h -> NoDup (started_ids h) ->
  (forall id, In id (started_ids h) -> ~ In id used) -> exists used1, mem used1 (run w h).
Proof.
  induction h as [|k q IH]; intros used w G C R ND N; [exists used; exact G|].
  inversion C; inversion R; subst. assert (NI : forall id, In id (ids_of (c_op k)) -> ~ In id used).
  { intros id I. apply N. cbn. destruct (c_op k); cbn in I; try contradiction. destruct I as [-> |[]]. left. reflexivity. }
  apply (IH (ids_of (c_op k) ++ used) (step w k)); auto.
  - apply mem_step; auto.
  - cbn in ND. destruct (c_op k); auto. inversion ND; auto.
  - intros id I J. apply in_app_or in J. destruct J as [J|J].
    + cbn in ND. destruct (c_op k); cbn in J; try contradiction. destruct J as [-> |[]]. inversion ND; contradiction.
    + apply (N id); [|exact J]. cbn. destruct (c_op k); auto. right. exact I.
Qed.
Lemma mem_init : forall con resume txcb allcb, mem [] (init con resume txcb allcb).
Proof.
  intros con resume txcb allcb. unfold init, boot. set (w0 := W _ _ _ _ _ _ _ _ _ _ _ _ _ _ _). cbv zeta.
  set (w1 := W _ _ _ _ _ _ _ _ _ _ _ _ _ _ _).
  assert (H : forall l w, w_rows w = [] -> w_budget w = None -> w_prog w = Running -> w_fail w = [] -> foreach l construct_evse w = w).
  { induction l as [|e q IH]; intros w R B P F; [reflexivity|]. cbn [foreach].
    assert (E : construct_evse e w = w).
    { unfold construct_evse, try_resume_transaction, delete_database_transaction, transaction_get, pop_fail. rewrite F, R. destruct (w_resume w); reflexivity. }
    rewrite seq_go by (rewrite E; exact P). rewrite E. apply IH; assumption. }
  rewrite H by reflexivity. split; [reflexivity|]. split; [discriminate|]. intros _. cbn.
  split; [discriminate|]. split; [discriminate|]. split; [intros; exact I|reflexivity].
Qed.
Lemma failing : forall con resume txcb allcb h id, different_ids h -> no_crashes h -> no_restarts h ->
  Z.of_nat (length (w_out (run (init con resume txcb allcb) h))) < 2147483646 ->
  counting 0 (map fst (events id (w_out (run (init con resume txcb allcb) h)))).
Proof.
  intros con resume txcb allcb h id D C R L.
  destruct (mem_run h [] _ (mem_init con resume txcb allcb) C R D) as (u&(_&_&U)); [auto|].
  destruct U as (_&_&U&_); [exact L|]. apply U.
Qed.
