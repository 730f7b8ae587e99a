(** Sequence numbers of transaction events. *)
From Coq Require Import ZArith List Bool Lia.
From Verif Require Import TxModel TxSpec TxProofs.
From Verif Require CsmModel.
Import ListNotations.
Local Open Scope Z_scope.

Lemma i32_small : forall z, -2147483648 <= z < 2147483648 -> i32 z = z.
Proof. intros z H. unfold i32. rewrite Z.mod_small by lia. lia. Qed.

(** What a statement that does not fail by itself can do. *)
Lemma statement_ok : forall f w w1 b, statement f w = (w1, b) -> w_fail w = [] -> w_prog w = Running ->
  fine w w1 /\ w_tx w1 = w_tx w /\ w_out w1 = w_out w /\ w_remote w1 = w_remote w /\ w_txcb w1 = w_txcb w /\
  ((b = false /\ f (w_rows w) = None /\ w_rows w1 = w_rows w /\ w_prog w1 = Running) \/
   (exists l, b = true /\ f (w_rows w) = Some l /\
      ((w_prog w1 = Running /\ w_rows w1 = l) \/ (w_prog w1 = Dead /\ w_rows w1 = w_rows w)))).
Proof.
  intros f w w1 b H F P. unfold statement, pop_fail in H. rewrite F in H.
  destruct (f (w_rows w)) as [l|] eqn:L; inversion H; subst; clear H.
  - unfold durable. destruct (w_budget w) as [[|n]|] eqn:B; cbn;
      (split; [unfold fine; cbn; intuition (first [congruence|lia|auto])|]);
      repeat (split; [reflexivity|]); right; exists l; auto 10.
  - split; [apply fine_refl|]. auto 10.
Qed.

Definition evt (t : tx) (k : evkind) (id : Z) : list (Z * evkind) := if t_id t =? id then [(t_seq t, k)] else [].
Lemma emit_tx : forall v w, w_prog w = Running ->
  fine w (emit (OTx v) w) /\ w_tx (emit (OTx v) w) = w_tx w /\ w_rows (emit (OTx v) w) = w_rows w /\
  ((w_prog (emit (OTx v) w) = Running /\ length (w_out (emit (OTx v) w)) = S (length (w_out w)) /\
    (forall id, events id (w_out (emit (OTx v) w)) =
                events id (w_out w) ++ if v_id v =? id then [(v_seq v, v_kind v)] else [])) \/
   (w_prog (emit (OTx v) w) = Dead /\ w_out (emit (OTx v) w) = w_out w)).
Proof.
  intros v w P. unfold emit, durable. destruct (w_budget w) as [[|n]|] eqn:B; cbn.
  - split; [unfold fine; cbn; intuition (first [congruence|lia])|]. auto.
  - split; [unfold fine; cbn; rewrite app_length; intuition (first [congruence|lia])|].
    split; [reflexivity|]. split; [reflexivity|]. left. split; [exact P|]. split; [rewrite app_length; cbn; lia|].
    intros id. rewrite events_app. reflexivity.
  - split; [unfold fine; cbn; rewrite app_length; intuition (first [congruence|lia])|].
    split; [reflexivity|]. split; [reflexivity|]. left. split; [exact P|]. split; [rewrite app_length; cbn; lia|].
    intros id. rewrite events_app. reflexivity.
Qed.

(** A callback after a message may still kill the process, nothing else. *)
Lemma emit_silent : forall o w, silent o = true -> w_prog w = Running ->
  fine w (emit o w) /\ w_tx (emit o w) = w_tx w /\ w_rows (emit o w) = w_rows w /\
  (forall id, events id (w_out (emit o w)) = events id (w_out w)) /\
  (w_prog (emit o w) = Running \/ w_prog (emit o w) = Dead).
Proof.
  intros o w S P. pose proof (emit_quiet o S w P) as (A&_&_&B). split; [exact A|].
  unfold emit, durable in *. destruct (w_budget w) as [[|n]|]; cbn in *; auto.
Qed.

Lemma req_ok : forall v w, w_prog w = Running ->
  let w1 := transaction_event_req v w in
  fine w w1 /\ w_tx w1 = w_tx w /\ w_rows w1 = w_rows w /\
  ((w_prog w1 = Running \/ w_prog w1 = Dead) /\ (S (length (w_out w)) <= length (w_out w1))%nat /\
    (forall id, events id (w_out w1) = events id (w_out w) ++ if v_id v =? id then [(v_seq v, v_kind v)] else []) \/
   (w_prog w1 = Dead /\ w_out w1 = w_out w)).
Proof.
  intros v w P w1. unfold w1, transaction_event_req. clear w1.
  assert (K : forall v1 (b : bool) w0, w_prog w0 = Running -> v_id v1 = v_id v -> v_seq v1 = v_seq v -> v_kind v1 = v_kind v ->
    let w1 := (emit (OTx v1) ;; (if b then emit (OTxCallback v) else skip)) w0 in
    fine w0 w1 /\ w_tx w1 = w_tx w0 /\ w_rows w1 = w_rows w0 /\
    ((w_prog w1 = Running \/ w_prog w1 = Dead) /\ (S (length (w_out w0)) <= length (w_out w1))%nat /\
      (forall id, events id (w_out w1) = events id (w_out w0) ++ if v_id v =? id then [(v_seq v, v_kind v)] else []) \/
     (w_prog w1 = Dead /\ w_out w1 = w_out w0))).
  { intros v1 b w0 P0 I1 I2 I3. destruct (emit_tx v1 w0 P0) as (A1&A2&A3&A4). unfold seqw.
    destruct A4 as [(B1&B2&B3)|(B1&B2)]; rewrite B1; cbv beta iota zeta.
    - rewrite <- I1, <- I2, <- I3. set (w2 := emit (OTx v1) w0) in *. destruct b.
      + destruct (emit_silent (OTxCallback v) w2 eq_refl B1) as (C1&C2&C3&C4&C5).
        split; [eapply fine_trans; eauto|]. split; [congruence|]. split; [congruence|]. left.
        split; [exact C5|]. split; [destruct C1 as (_&_&_&_&C1); lia|]. intros id. rewrite C4. apply B3.
      + unfold skip. split; [exact A1|]. split; [exact A2|]. split; [exact A3|]. left. split; [auto|]. split; [lia|exact B3].
    - split; [exact A1|]. split; [exact A2|]. split; [exact A3|]. right. auto. }
  destruct (find _ _) as [p|].
  - set (w0 := set_w_remote _ w).
    match goal with |- context [emit (OTx ?v1)] => destruct (K v1 (w_txcb w) w0 P eq_refl eq_refl eq_refl) as (C1&C2&C3&C4) end.
    split; [|auto]. eapply fine_trans; [|exact C1]. unfold w0, fine; cbn; intuition.
  - apply K; auto.
Qed.

(** Sending an event for the transaction of an EVSE. *)
Definition bumped (t : tx) : tx := with_seq (t_seq t + 1) t.
Definition bump_rows (t : tx) (l : list row) : list row :=
  if t_db t then map (fun r => if r_id r =? t_id t then Row (r_id r) (r_evse r) (r_conn r) (t_seq t + 1) (r_cs r) (r_tok r) else r) l
  else l.
Lemma send_event_ok : forall e k tr ev tok w t, w_prog w = Running -> w_fail w = [] -> w_tx w e = Some t ->
  0 <= t_seq t < 2147483647 ->
  let w1 := send_event e k tr ev tok w in
  fine w w1 /\
  ((w_prog w1 <> Dead -> w_prog w1 = Running /\ w_tx w1 = CsmModel.fupd (w_tx w) e (Some (bumped t))) /\
   w_rows w1 = bump_rows t (w_rows w) /\
   (forall id, events id (w_out w1) = events id (w_out w) ++ evt t k id) /\
   (S (length (w_out w)) <= length (w_out w1))%nat
   \/ w_prog w1 = Dead /\ w_out w1 = w_out w /\ (w_rows w1 = w_rows w \/ w_rows w1 = bump_rows t (w_rows w))).
Proof.
  intros e k tr ev tok w t P F T B w1. unfold w1, send_event. clear w1. rewrite T.
  assert (SQ : seq_no_result w e = t_seq t).
  { unfold seq_no_result. rewrite T. rewrite (i32_small (t_seq t + 1)) by lia. rewrite i32_small by lia. lia. }
  rewrite SQ. set (v := TxEv _ _ _ _ _ _ _ _ _).
  assert (G : exists w2, get_seq_no e w = w2 /\ fine w w2 /\ w_out w2 = w_out w /\
    w_tx w2 = CsmModel.fupd (w_tx w) e (Some (bumped t)) /\
    ((w_prog w2 = Running /\ w_rows w2 = bump_rows t (w_rows w)) \/ (w_prog w2 = Dead /\ w_rows w2 = w_rows w))).
  { unfold get_seq_no. rewrite T. rewrite (i32_small (t_seq t + 1)) by lia. unfold bump_rows.
    change (t_seq (with_seq (t_seq t + 1) t)) with (t_seq t + 1). fold (bumped t). destruct (t_db t).
    - destruct (statement _ _) as [w2 b] eqn:S. destruct (statement_ok _ _ _ _ S F P) as (C1&C2&C3&C4&C5&C6).
      exists w2. split; [reflexivity|]. split; [eapply fine_trans; [|exact C1]; unfold fine; cbn; intuition|].
      split; [exact C3|]. split; [exact C2|]. destruct C6 as [(D1&D2&_)|(l&D1&D2&D3)]; [discriminate D2|].
      cbn in D2. inversion D2; subst. destruct D3 as [(X&Y)|(X&Y)]; auto.
    - eexists. split; [reflexivity|]. split; [unfold fine; cbn; intuition|]. auto. }
  destruct G as (w2&G1&G2&G3&G4&G5). unfold seqw. rewrite G1. destruct G5 as [(H1&H2)|(H1&H2)]; rewrite H1.
  - destruct (req_ok v w2 H1) as (C1&C2&C3&C4). set (w3 := transaction_event_req v w2) in *.
    split; [eapply fine_trans; eauto|]. destruct C4 as [(D1&D2&D3)|(D1&D2)].
    + left. split; [intros N; split; [destruct D1; congruence|congruence]|]. split; [congruence|]. split.
      * intros id. rewrite D3, G3. reflexivity.
      * rewrite <- G3. exact D2.
    + right. split; [exact D1|]. split; [congruence|]. right. congruence.
  - split; [exact G2|]. right. split; [exact H1|]. split; [exact G3|]. left. exact H2.
Qed.

Section Numbers.
(** [cr]: may the process crash in the middle of a call? [R n l]: [l] are the events of a transaction whose next number is
    [n]; [S l]: [l] may be all events of a transaction. *)
Variable cr : bool.
Variable R : Z -> list (Z * evkind) -> Prop.
Variable S : list (Z * evkind) -> Prop.
Definition okind (k : evkind) (l : list (Z * evkind)) : Prop := cr = true \/ (k = Started <-> l = []).
Hypothesis R_nil : R 0 [].
Hypothesis S_nil : S [].
Hypothesis R_S : forall n l, R n l -> S l.
Hypothesis R_pos : forall n l, R n l -> 0 <= n.
Hypothesis R_app : forall n l k, R n l -> okind k l -> (k <> Ended \/ cr = true) -> R (n + 1) (l ++ [(n, k)]).
Hypothesis S_end : forall n l, R n l -> okind Ended l -> S (l ++ [(n, Ended)]).
Hypothesis R_skip : cr = true -> forall n l, R n l -> R (n + 1) l.

Definition olen (w : world) : Z := Z.of_nat (length (w_out w)).
(** [x]: a transaction that has not sent its first event yet. *)
Definition num_ok (x : option Z) (used : list Z) (c : Z) (w : world) (id n : Z) : Prop :=
  In id used /\ R n (events id (w_out w)) /\ n <= olen w + c /\
  (cr = false -> x <> Some id -> events id (w_out w) <> []).
Definition row_ok x used c w (r : row) : Prop := num_ok x used c w (r_id r) (r_seq r).
Definition dinv x used c w : Prop :=
  NoDup (map r_id (w_rows w)) /\ NoDup (map r_evse (w_rows w)) /\ (forall r, In r (w_rows w) -> row_ok x used c w r) /\
  (forall id, S (events id (w_out w))) /\ (forall id, ~ In id used -> events id (w_out w) = []).
Definition minv x used c w : Prop :=
  (forall e t, w_tx w e = Some t -> num_ok x used c w (t_id t) (t_seq t) /\
     (forall r, In r (w_rows w) -> r_id r = t_id t -> t_db t = true /\ r_evse r = e)) /\
  (forall e f t u, w_tx w e = Some t -> w_tx w f = Some u -> t_id t = t_id u -> e = f).
Definition base w : Prop := w_fail w = [] /\ (cr = false -> w_budget w = None /\ w_prog w <> Dead).
Definition small (c : Z) (w : world) : Prop := olen w + c < 2147483646.
Definition good x used c w : Prop :=
  base w /\ (small c w -> dinv x used (c + 1) w /\ (w_prog w <> Dead -> dinv x used c w /\ minv x used c w)).

Lemma base_fine : forall w w1, base w -> fine w w1 -> w_prog w = Running -> base w1.
Proof.
  intros w w1 (A&B) (F1&F2&_) P. split; [auto|]. intros C. destruct (B C) as (B1&B2). destruct (F2 B1); auto.
Qed.
Lemma fine_olen : forall w w1, fine w w1 -> olen w <= olen w1.
Proof. intros w w1 (_&_&_&_&F). unfold olen. lia. Qed.
Lemma dead_cr : forall w, base w -> w_prog w = Dead -> cr = true.
Proof. intros w (_&B) D. destruct cr; auto. destruct (B eq_refl). contradiction. Qed.

Lemma num_mono : forall x used c w w1 id n, num_ok x used c w id n -> events id (w_out w1) = events id (w_out w) ->
  olen w <= olen w1 -> num_ok x used c w1 id n.
Proof. intros x used c w w1 id n (A1&A2&A3&A4) E L. unfold num_ok. rewrite E. intuition lia. Qed.
Lemma num_c : forall x used c w id n, num_ok x used c w id n -> num_ok x used (c + 1) w id n.
Proof. intros x used c w id n (A1&A2&A3&A4). unfold num_ok. intuition lia. Qed.
Lemma dinv_c : forall x used c w, dinv x used c w -> dinv x used (c + 1) w.
Proof.
  intros x used c w (A1&A2&A3&A4&A5). repeat match goal with |- _ /\ _ => split end; auto. split; [auto|].
  split; [auto|]. split; [|auto]. intros r I. apply num_c. apply A3. exact I.
Qed.

Lemma tkey_inj : forall a b, tkey a = tkey b -> t_id a = t_id b /\ t_conn a = t_conn b /\ t_seq a = t_seq b /\ t_db a = t_db b.
Proof. unfold tkey. intros a b E. inversion E. auto. Qed.
Lemma rkey_inj : forall a b, rkey a = rkey b -> r_id a = r_id b /\ r_evse a = r_evse b /\ r_conn a = r_conn b /\ r_seq a = r_seq b.
Proof. unfold rkey. intros a b E. inversion E. auto. Qed.
Lemma rkeys_in : forall l l1 r, map rkey l1 = map rkey l -> In r l1 ->
  exists r0, In r0 l /\ rkey r0 = rkey r.
Proof.
  intros l l1 r E I. assert (In (rkey r) (map rkey l1)) as K by (apply in_map; exact I).
  rewrite E in K. apply in_map_iff in K. destruct K as (r0&A&B). eauto.
Qed.
Lemma rkeys_ids : forall l l1, map rkey l1 = map rkey l -> map r_id l1 = map r_id l /\ map r_evse l1 = map r_evse l.
Proof.
  induction l as [|r q IH]; intros [|r1 q1] E; try discriminate; [auto|]. cbn in E. inversion E; subst.
  destruct (IH q1) as (A&B); [assumption|]. cbn. split; congruence.
Qed.
Lemma dinv_quiet : forall x used c w w1, quiet w w1 -> dinv x used c w -> dinv x used c w1.
Proof.
  intros x used c w w1 (F&Q1&Q2&Q3) (A1&A2&A3&A4&A5). destruct (rkeys_ids _ _ Q1) as (K1&K2).
  unfold dinv. rewrite K1, K2. split; [auto|]. split; [auto|]. split; [|split; intros; rewrite Q3; auto].
  intros r I. destruct (rkeys_in _ _ _ Q1 I) as (r0&I0&E0). destruct (rkey_inj _ _ E0) as (R1&R2&R3&R4). unfold row_ok. rewrite <- R1, <- R4.
  eapply num_mono; [apply A3; exact I0|apply Q3|apply fine_olen; exact F].
Qed.
Lemma minv_quiet : forall x used c w w1, quiet w w1 -> minv x used c w -> minv x used c w1.
Proof.
  intros x used c w w1 (F&Q1&Q2&Q3) (A1&A2).
  assert (K : forall e t, w_tx w1 e = Some t -> exists t0, w_tx w e = Some t0 /\ tkey t0 = tkey t).
  { intros e t T. specialize (Q2 e). rewrite T in Q2. destruct (w_tx w e) as [t0|]; [|discriminate].
    exists t0. cbn in Q2. inversion Q2. unfold tkey. split; congruence. }
  split.
  - intros e t T. destruct (K e t T) as (t0&T0&E0). destruct (tkey_inj _ _ E0) as (R1&R2&R3&R4). destruct (A1 e t0 T0) as (B1&B2). split.
    + rewrite <- R1, <- R3. eapply num_mono; [exact B1|apply Q3|apply fine_olen; exact F].
    + intros r I E. destruct (rkeys_in _ _ _ Q1 I) as (r0&I0&E1). destruct (rkey_inj _ _ E1) as (U1&U2&U3&U4). rewrite <- R4, <- U2. apply B2; [exact I0|congruence].
  - intros e f t u T U E. destruct (K e t T) as (t0&T0&E0). destruct (K f u U) as (u0&U0&E1).
    destruct (tkey_inj _ _ E0) as (R1&_). destruct (tkey_inj _ _ E1) as (R2&_). eapply A2; eauto. congruence.
Qed.
Lemma good_quiet : forall x used c w w1, quiet w w1 -> w_prog w = Running -> good x used c w -> good x used c w1.
Proof.
  intros x used c w w1 Q P (B&G). pose proof (proj1 Q) as F. split; [eapply base_fine; eauto|]. intros Sm.
  assert (Sm0 : small c w) by (unfold small in *; pose proof (fine_olen _ _ F); lia).
  destruct (G Sm0) as (G1&G2). split; [eapply dinv_quiet; eauto|]. intros _.
  destruct G2 as (G2&G3); [congruence|]. split; [eapply dinv_quiet; eauto|eapply minv_quiet; eauto].
Qed.
Lemma good_quietly : forall x used c w f, quietly f -> w_prog w = Running -> good x used c w -> good x used c (f w).
Proof. intros. eapply good_quiet; eauto. Qed.

Lemma bump_in : forall t l r, In r (bump_rows t l) ->
  (In r l /\ (t_db t = true -> r_id r <> t_id t)) \/
  (t_db t = true /\ r_id r = t_id t /\ r_seq r = t_seq t + 1 /\ exists r0, In r0 l /\ r_id r0 = t_id t /\ r_evse r0 = r_evse r).
Proof.
  intros t l r I. unfold bump_rows in I. destruct (t_db t); [|left; split; [exact I|discriminate]].
  apply in_map_iff in I. destruct I as (r0&E&I). destruct (r_id r0 =? t_id t) eqn:K.
  - apply Z.eqb_eq in K. right. subst r. cbn. repeat split; auto. exists r0. auto.
  - apply Z.eqb_neq in K. left. subst r. auto.
Qed.
Lemma bump_keys : forall t l, map r_id (bump_rows t l) = map r_id l /\ map r_evse (bump_rows t l) = map r_evse l.
Proof.
  intros t l. unfold bump_rows. destruct (t_db t); [|auto]. rewrite !map_map.
  split; apply map_ext; intros r; destruct (r_id r =? t_id t); reflexivity.
Qed.

Lemma evt_other : forall t k id, id <> t_id t -> evt t k id = [].
Proof. intros t k id N. unfold evt. destruct (Z.eqb_spec (t_id t) id); congruence. Qed.
Lemma evt_same : forall t k, evt t k (t_id t) = [(t_seq t, k)].
Proof. intros t k. unfold evt. rewrite Z.eqb_refl. reflexivity. Qed.

(** Sending an event that does not end the transaction. *)
Lemma num_app : forall x x1 used c w w1 t k, num_ok x used c w (t_id t) (t_seq t) ->
  okind k (events (t_id t) (w_out w)) -> (k <> Ended \/ cr = true) ->
  events (t_id t) (w_out w1) = events (t_id t) (w_out w) ++ evt t k (t_id t) -> olen w + 1 <= olen w1 ->
  num_ok x1 used c w1 (t_id t) (t_seq t + 1).
Proof.
  intros x x1 used c w w1 t k (A1&A2&A3&A4) K NE E L. unfold num_ok. rewrite E, evt_same.
  split; [exact A1|]. split; [apply R_app; auto|]. split; [lia|]. intros _ _ X. destruct (events (t_id t) (w_out w)); discriminate.
Qed.
Lemma num_other : forall x x1 used c w w1 t k id n, num_ok x used c w id n -> id <> t_id t ->
  (x = x1 \/ x = Some (t_id t)) ->
  events id (w_out w1) = events id (w_out w) ++ evt t k id -> olen w <= olen w1 -> num_ok x1 used c w1 id n.
Proof.
  intros x x1 used c w w1 t k id n (A1&A2&A3&A4) N X E L. unfold num_ok.
  rewrite E, evt_other, app_nil_r by exact N. split; [exact A1|]. split; [exact A2|]. split; [lia|].
  intros C Y. apply A4; [exact C|]. destruct X; congruence.
Qed.
Lemma dinv_sent : forall x x1 used c w w1 t k, dinv x used c w -> num_ok x used c w (t_id t) (t_seq t) ->
  (forall r, In r (w_rows w) -> r_id r = t_id t -> t_db t = true) ->
  okind k (events (t_id t) (w_out w)) -> (k <> Ended \/ cr = true) -> (x = x1 \/ x = Some (t_id t)) ->
  w_rows w1 = bump_rows t (w_rows w) ->
  (forall id, events id (w_out w1) = events id (w_out w) ++ evt t k id) -> olen w + 1 <= olen w1 -> dinv x1 used c w1.
Proof.
  intros x x1 used c w w1 t k (A1&A2&A3&A4&A5) N D K NE X Rw E L. destruct (bump_keys t (w_rows w)) as (B1&B2).
  unfold dinv. rewrite Rw, B1, B2. split; [exact A1|]. split; [exact A2|].
  assert (NA : num_ok x1 used c w1 (t_id t) (t_seq t + 1)) by (eapply num_app; eauto).
  split.
  - intros r I. apply bump_in in I. destruct I as [(I&J)|(J1&J2&J3&_)].
    + destruct (Z.eq_dec (r_id r) (t_id t)) as [Q|Q]; [exfalso; exact (J (D r I Q) Q)|].
      eapply num_other; [apply A3; exact I|exact Q|exact X|apply E|lia].
    + unfold row_ok. rewrite J2, J3. exact NA.
  - split.
    + intros id. destruct (Z.eq_dec id (t_id t)) as [->|Q].
      * destruct NA as (_&NA&_). eapply R_S. exact NA.
      * rewrite E, evt_other, app_nil_r by exact Q. apply A4.
    + intros id Nu. destruct N as (N1&_). rewrite E, evt_other; [rewrite app_nil_r; apply A5; exact Nu|congruence].
Qed.
Lemma dinv_skip : forall x used c w w1 t, cr = true -> dinv x used c w -> num_ok x used c w (t_id t) (t_seq t) ->
  (forall r, In r (w_rows w) -> r_id r = t_id t -> t_db t = true) ->
  (w_rows w1 = w_rows w \/ w_rows w1 = bump_rows t (w_rows w)) -> w_out w1 = w_out w -> dinv x used (c + 1) w1.
Proof.
  intros x used c w w1 t C (A1&A2&A3&A4&A5) N D Rw E. destruct (bump_keys t (w_rows w)) as (B1&B2).
  assert (M : forall id n, num_ok x used c w id n -> num_ok x used (c + 1) w1 id n).
  { intros id n X. apply num_c. eapply num_mono; [exact X|rewrite E; reflexivity|unfold olen; rewrite E; lia]. }
  unfold dinv. destruct Rw as [Rw|Rw]; rewrite Rw, E.
  - split; [exact A1|]. split; [exact A2|]. split; [|auto]. intros r I. apply M. apply A3. exact I.
  - rewrite B1, B2. split; [exact A1|]. split; [exact A2|]. split; [|auto]. intros r I. apply bump_in in I.
    destruct I as [(I&J)|(J1&J2&J3&_)]; [apply M; apply A3; exact I|]. unfold row_ok. rewrite J2, J3.
    destruct N as (N1&N2&N3&N4). unfold num_ok. unfold olen in *. rewrite E. split; [exact N1|]. split; [apply R_skip; auto|].
    split; [lia|]. intros F. congruence.
Qed.

Lemma good_send : forall x x1 used c w e k tr ev tok t, w_prog w = Running -> good x used c w -> w_tx w e = Some t ->
  (x = x1 \/ x = Some (t_id t)) -> (small c w -> okind k (events (t_id t) (w_out w))) -> (k <> Ended \/ cr = true) ->
  good x1 used c (send_event e k tr ev tok w).
Proof.
  intros x x1 used c w e k tr ev tok t P (B&G) T X K NE.
  destruct (Z_lt_dec (olen w + c) 2147483646) as [Sm|Sm].
  - destruct (G Sm) as (G1&G2). destruct G2 as (D&(M1&M2)); [congruence|]. destruct (M1 e t T) as (N1&N2).
    assert (Bd : 0 <= t_seq t < 2147483647) by (destruct N1 as (_&Rn&Le&_); pose proof (R_pos _ _ Rn); lia).
    destruct (send_event_ok e k tr ev tok w t P (proj1 B) T Bd) as (F&[(A1&A2&A3&A4)|(A1&A2&A3)]).
    + set (w1 := send_event e k tr ev tok w) in *. split; [eapply base_fine; eauto|]. intros Sm1.
      assert (L : olen w + 1 <= olen w1) by (unfold olen; lia).
      assert (D1 : dinv x1 used c w1).
      { eapply dinv_sent; eauto. intros r I E. apply (N2 r I E). }
      split; [apply dinv_c; exact D1|]. intros ND. split; [exact D1|]. destruct (A1 ND) as (A5&A6). split.
      * intros f u U. rewrite A6 in U. unfold CsmModel.fupd in U. rewrite A2. destruct (f =? e) eqn:Q.
        -- inversion U; subst u. apply Z.eqb_eq in Q. subst f. change (t_id (bumped t)) with (t_id t).
           change (t_seq (bumped t)) with (t_seq t + 1). split; [eapply num_app; eauto|].
           intros r I E. apply bump_in in I. cbn in E. destruct I as [(I&J)|(J1&J2&J3&r0&J4&J5&J6)].
           ++ destruct (N2 r I E) as (N3&N4). exfalso. exact (J N3 E).
           ++ destruct (N2 r0 J4 J5). cbn. split; congruence.
        -- apply Z.eqb_neq in Q. destruct (M1 f u U) as (N3&N4).
           assert (NI : t_id u <> t_id t) by (intros Z; apply Q; eapply M2; eauto).
           split; [eapply num_other; [exact N3|exact NI|exact X|apply A3|lia]|].
           intros r I E. apply bump_in in I. destruct I as [(I&J)|(J1&J2&J3&r0&J4&J5&J6)]; [apply N4; auto|]. congruence.
      * intros f g u v U V E. rewrite A6 in U, V. unfold CsmModel.fupd in U, V.
        destruct (f =? e) eqn:Q1; destruct (g =? e) eqn:Q2;
          repeat match goal with H : (_ =? _) = true |- _ => apply Z.eqb_eq in H | H : (_ =? _) = false |- _ => apply Z.eqb_neq in H end.
        -- congruence.
        -- inversion U; subst u. cbn in E. assert (e = g) by (eapply M2; eauto). congruence.
        -- inversion V; subst v. cbn in E. assert (f = e) by (eapply M2; eauto). congruence.
        -- eapply M2; eauto.
    + set (w1 := send_event e k tr ev tok w) in *. assert (B1 : base w1) by (eapply base_fine; eauto).
      split; [exact B1|]. intros Sm1. split; [|congruence]. pose proof (dead_cr _ B1 A1) as C.
      assert (D1 : dinv x used (c + 1) w1).
      { eapply dinv_skip; eauto. intros r I E. apply (N2 r I E). }
      destruct D1 as (D1&D2&D3&D4&D5). split; [exact D1|]. split; [exact D2|]. split; [|auto].
      intros r I. destruct (D3 r I) as (E1&E2&E3&E4). unfold row_ok, num_ok. split; [exact E1|]. split; [exact E2|].
      split; [exact E3|]. congruence.
  - (* too many events: nothing to show but the frame *)
    assert (F : fine w (send_event e k tr ev tok w)).
    { clear - P T. unfold send_event. rewrite T. set (v := TxEv _ _ _ _ _ _ _ _ _).
      assert (H : forall w, w_prog w = Running -> fine w (get_seq_no e w)).
      { clear. intros w P. unfold get_seq_no. destruct (w_tx w e) as [t|]; [|apply fine_refl].
        set (w1 := put_tx e _ w). assert (fine w w1) by (unfold w1, fine; cbn; intuition).
        destruct (t_db t); [|exact H]. eapply fine_trans; [exact H|]. unfold statement.
        destruct (pop_fail w1) as [b w2] eqn:E. destruct (pop_quiet _ _ _ E) as ((Q&_)&_). destruct b; [exact Q|].
        unfold update_seq. eapply fine_trans; [exact Q|]. cbn. unfold durable. destruct (w_budget w2) as [[|n]|] eqn:B;
          unfold fine; cbn; intuition (first [congruence|lia]). }
      apply (respects_seq fine fine_trans); [exact H| |exact P]. intros w2 P2. apply req_ok. exact P2. }
    split; [eapply base_fine; eauto|]. intros Sm1. exfalso. apply Sm. pose proof (fine_olen _ _ F). unfold small in Sm1. lia.
Qed.

(** Weakening. *)
Lemma num_weak : forall x x1 used used1 c w id n, incl used used1 -> (x = None \/ x = x1 \/ cr = true) ->
  num_ok x used c w id n -> num_ok x1 used1 c w id n.
Proof.
  intros x x1 used used1 c w id n I X (A1&A2&A3&A4). unfold num_ok. split; [apply I; exact A1|]. split; [exact A2|].
  split; [exact A3|]. intros C Y. apply A4; [exact C|]. destruct X as [-> |[-> |X]]; congruence.
Qed.
Lemma dinv_weak : forall x x1 used used1 c w, incl used used1 -> (x = None \/ x = x1 \/ cr = true) ->
  dinv x used c w -> dinv x1 used1 c w.
Proof.
  intros x x1 used used1 c w I X (A1&A2&A3&A4&A5). split; [exact A1|]. split; [exact A2|]. split; [|split; [exact A4|]].
  - intros r J. eapply num_weak; [exact I|exact X|apply A3; exact J].
  - intros id N. apply A5. intros J. apply N. apply I. exact J.
Qed.
Lemma minv_weak : forall x x1 used used1 c w, incl used used1 -> (x = None \/ x = x1 \/ cr = true) ->
  minv x used c w -> minv x1 used1 c w.
Proof.
  intros x x1 used used1 c w I X (A1&A2). split; [|exact A2]. intros e t T. destruct (A1 e t T) as (B1&B2).
  split; [|exact B2]. eapply num_weak; eauto.
Qed.
Lemma good_weak : forall x x1 used used1 c w, incl used used1 -> (x = None \/ x = x1 \/ cr = true) ->
  good x used c w -> good x1 used1 c w.
Proof.
  intros x x1 used used1 c w I X (B&G). split; [exact B|]. intros Sm. destruct (G Sm) as (G1&G2).
  split; [eapply dinv_weak; eauto|]. intros N. destruct (G2 N) as (G3&G4).
  split; [eapply dinv_weak; eauto|eapply minv_weak; eauto].
Qed.

(** Fewer rows. *)
Lemma NoDup_map_filter : forall A (f : A -> Z) p l, NoDup (map f l) -> NoDup (map f (filter p l)).
Proof.
  intros A f p l. induction l as [|a q IH]; intros H; cbn; [constructor|]. inversion H; subst.
  destruct (p a); cbn; [|auto]. constructor; [|auto]. intros I. apply H2. apply in_map_iff in I.
  destruct I as (b&E&J). apply filter_In in J. apply in_map_iff. exists b. tauto.
Qed.
Lemma dinv_fewer : forall x used c w w1 p, dinv x used c w -> w_rows w1 = filter p (w_rows w) -> w_out w1 = w_out w ->
  dinv x used c w1.
Proof.
  intros x used c w w1 p (A1&A2&A3&A4&A5) Rw E. unfold dinv. rewrite Rw, E.
  split; [apply NoDup_map_filter; exact A1|]. split; [apply NoDup_map_filter; exact A2|]. split; [|auto].
  intros r I. apply filter_In in I. eapply num_mono; [apply A3; tauto|rewrite E; reflexivity|unfold olen; rewrite E; lia].
Qed.
Lemma dinv_same : forall x used c w w1, dinv x used c w -> w_rows w1 = w_rows w -> w_out w1 = w_out w -> dinv x used c w1.
Proof.
  intros x used c w w1 (A1&A2&A3&A4&A5) Rw E. unfold dinv. rewrite Rw, E. repeat (split; [assumption|]). split; [|auto].
  intros r I. eapply num_mono; [apply A3; exact I|rewrite E; reflexivity|unfold olen; rewrite E; lia].
Qed.
Lemma minv_fewer : forall x used c w w1 p, minv x used c w -> w_rows w1 = filter p (w_rows w) -> w_out w1 = w_out w ->
  (forall e t, w_tx w1 e = Some t -> w_tx w e = Some t) -> minv x used c w1.
Proof.
  intros x used c w w1 p (A1&A2) Rw E T. split.
  - intros e t H. destruct (A1 e t (T e t H)) as (B1&B2). split.
    + eapply num_mono; [exact B1|rewrite E; reflexivity|unfold olen; rewrite E; lia].
    + intros r I. rewrite Rw in I. apply filter_In in I. apply B2. tauto.
  - intros e f t u H H1. apply A2; auto.
Qed.
Lemma filter_all : forall A (l : list A), filter (fun _ => true) l = l.
Proof. induction l as [|a q IH]; cbn; [reflexivity|]. rewrite IH. reflexivity. Qed.

(** Deleting a row, whatever its outcome. *)
Lemma good_delete : forall x used c w id, w_prog w = Running -> good x used c w ->
  good x used c (fst (statement (delete_row id) w)) /\
  w_tx (fst (statement (delete_row id) w)) = w_tx w /\ fine w (fst (statement (delete_row id) w)) /\
  w_out (fst (statement (delete_row id) w)) = w_out w /\
  (w_prog (fst (statement (delete_row id) w)) = Running /\
     w_rows (fst (statement (delete_row id) w)) = filter (fun r => negb (r_id r =? id)) (w_rows w) \/
   w_prog (fst (statement (delete_row id) w)) = Dead /\ w_rows (fst (statement (delete_row id) w)) = w_rows w).
Proof.
  intros x used c w id P (B&G). destruct (statement (delete_row id) w) as [w1 b] eqn:E. cbn [fst].
  destruct (statement_ok _ _ _ _ E (proj1 B) P) as (C1&C2&C3&C4&C5&C6).
  destruct C6 as [(X1&X2&_)|(l&X1&X2&X3)]; [discriminate X2|]. inversion X2; subst l.
  split; [|split; [exact C2|split; [exact C1|split; [exact C3|]]]].
  - split; [eapply base_fine; eauto|]. intros Sm. assert (Sm0 : small c w) by (unfold small, olen in *; rewrite <- C3; exact Sm).
    destruct (G Sm0) as (G1&G2). destruct G2 as (G2&G3); [congruence|]. destruct X3 as [(Y1&Y2)|(Y1&Y2)].
    + split; [eapply dinv_fewer; eauto|]. intros _. split; [eapply dinv_fewer; eauto|]. eapply minv_fewer; eauto.
      rewrite C2. auto.
    + split; [eapply dinv_same; eauto|]. intros N. congruence.
  - destruct X3 as [(Y1&Y2)|(Y1&Y2)]; auto.
Qed.
Lemma get_pure : forall e w, w_fail w = [] ->
  transaction_get e w = (find (fun r => r_evse r =? e) (w_rows w), w).
Proof. intros e w F. unfold transaction_get, pop_fail. rewrite F. reflexivity. Qed.

Lemma good_delete_db : forall x used c w e, w_prog w = Running -> good x used c w ->
  good x used c (delete_database_transaction e w).
Proof.
  intros x used c w e P G. unfold delete_database_transaction. rewrite (get_pure e w (proj1 (proj1 G))).
  destruct (find _ _) as [r|]; [|exact G]. apply good_delete; assumption.
Qed.

(** Resuming the transaction of a row. *)
Lemma nodup_same : forall (l : list row) r s, NoDup (map r_id l) -> In r l -> In s l -> r_id r = r_id s -> r = s.
Proof.
  induction l as [|a q IH]; intros r s N I J E; [contradiction|]. inversion N; subst.
  destruct I as [->|I], J as [->|J]; auto.
  - exfalso. apply H1. rewrite E. apply in_map. exact J.
  - exfalso. apply H1. rewrite <- E. apply in_map. exact I.
Qed.
Lemma good_resume : forall used c w e, w_prog w = Running -> good None used c w ->
  good None used c (try_resume_transaction e w).
Proof.
  intros used c w e P G. unfold try_resume_transaction. rewrite (get_pure e w (proj1 (proj1 G))).
  destruct (find _ _) as [r|] eqn:F; [|exact G]. destruct (has_connector w e (r_conn r)); [|apply good_delete; assumption].
  apply find_some in F. destruct F as (F1&F2). apply Z.eqb_eq in F2. destruct G as (B&G).
  split; [destruct B as (B1&B2); split; [exact B1|exact B2]|]. intros Sm.
  destruct (G Sm) as (G1&G2). destruct G2 as (D&(M1&M2)); [congruence|].
  assert (KD : forall c, dinv None used c w -> dinv None used c (put_tx e (Some (tx_of_row r)) w))
    by (intros; eapply dinv_same; eauto).
  split; [apply KD; exact G1|]. intros _. split; [apply KD; exact D|]. destruct D as (D1&D2&D3&D4&D5).
  assert (X : forall f u, w_tx w f = Some u -> t_id u = r_id r -> f = e).
  { intros f u U E. destruct (M1 f u U) as (_&N). destruct (N r F1 (eq_sym E)). congruence. }
  split.
  - intros f u U. cbn in U. unfold CsmModel.fupd in U. destruct (f =? e) eqn:Q.
    + inversion U; subst u. apply Z.eqb_eq in Q. subst f. split; [apply (D3 r F1)|]. intros s I E. cbn in E.
      assert (s = r) by (eapply nodup_same; eauto). subst s. auto.
    + apply (M1 f u U).
  - intros f g u v U V E. cbn in U, V. unfold CsmModel.fupd in U, V.
    destruct (f =? e) eqn:Q1; destruct (g =? e) eqn:Q2;
      repeat match goal with H : (_ =? _) = true |- _ => apply Z.eqb_eq in H | H : (_ =? _) = false |- _ => apply Z.eqb_neq in H end.
    + congruence.
    + inversion U; subst u. cbn in E. symmetry in E. pose proof (X g v V E). congruence.
    + inversion V; subst v. cbn in E. pose proof (X f u U E). congruence.
    + eapply M2; eauto.
Qed.
Lemma good_construct : forall used c w e, w_prog w = Running -> good None used c w -> good None used c (construct_evse e w).
Proof.
  intros used c w e P G. unfold construct_evse. destruct (w_resume w); [apply good_resume|apply good_delete_db]; assumption.
Qed.
Lemma good_seq : forall x y z used used1 used2 c f g w, good x used c w ->
  (good x used c w -> good y used1 c (f w)) ->
  (w_prog (f w) = Running -> good y used1 c (f w) -> good z used2 c (g (f w))) ->
  (w_prog (f w) <> Running -> good y used1 c (f w) -> good z used2 c (f w)) -> good z used2 c ((f ;; g) w).
Proof. intros. unfold seqw. destruct (w_prog (f w)) eqn:E; auto; apply H2; auto; discriminate. Qed.
Lemma good_foreach : forall A (l : list A) f used c,
  (forall a w, w_prog w = Running -> good None used c w -> good None used c (f a w)) ->
  forall w, w_prog w = Running -> good None used c w -> good None used c (foreach l f w).
Proof.
  induction l as [|a q IH]; intros f used c H w P G; cbn [foreach]; [exact G|].
  unfold seqw. pose proof (H a w P G) as G1. destruct (w_prog (f a w)) eqn:E; auto.
Qed.
Lemma good_boot : forall used c w, base w -> (small c w -> dinv None used c w) ->
  (cr = false -> w_budget w = None) -> good None used c (boot w).
Proof.
  intros used c w (B1&_) D Bu. unfold boot. apply good_foreach; [intros; apply good_construct; assumption|reflexivity|].
  set (w0 := W _ _ _ _ _ _ _ _ _ _ _ _ _ _ _). split.
  - split; [exact B1|]. intros C. split; [exact (Bu C)|discriminate].
  - intros Sm. assert (D0 : dinv None used c w0) by (eapply dinv_same; [apply D; exact Sm|reflexivity|reflexivity]).
    split; [apply dinv_c; exact D0|]. intros _. split; [exact D0|]. split; intros; discriminate.
Qed.

(** Opening. *)
Lemma fresh_row : forall x used c w id r, dinv x used c w -> ~ In id used -> In r (w_rows w) -> r_id r <> id.
Proof. intros x used c w id r (_&_&D&_) N I E. apply N. rewrite <- E. apply (D r I). Qed.
Lemma insert_fresh : forall x used c w w1 id e cc cs b, dinv x used c w -> ~ In id used ->
  (forall r, In r (w_rows w) -> r_evse r <> e) -> (x = None \/ cr = true) -> 0 <= c ->
  w_out w1 = w_out w -> w_rows w1 = w_rows w ++ [Row id e cc 0 cs b] -> dinv (Some id) (id :: used) c w1.
Proof.
  intros x used c w w1 id e cc cs b D N Ne X C0 E Rw. pose proof D as (A1&A2&A3&A4&A5). unfold dinv. rewrite Rw, E, !map_app.
  assert (ND : forall (f : row -> Z) l r, NoDup (map f l) -> (forall s, In s l -> f s <> f r) -> NoDup (map f l ++ map f [r])).
  { clear. intros f l r. induction l as [|a q IH]; intros H K; cbn; [constructor; [intros []|constructor]|].
    inversion H; subst. constructor; [|apply IH; auto; intros s I; apply K; right; exact I].
    intros I. apply in_app_or in I. destruct I as [I|[I|[]]]; [contradiction|]. apply (K a); [left; reflexivity|congruence]. }
  split; [apply ND; [exact A1|]; intros s I; eapply fresh_row; eauto|].
  split; [apply ND; [exact A2|]; exact Ne|].
  split; [|split; [exact A4|intros i Ni; apply A5; intros I; apply Ni; right; exact I]].
  intros r I. apply in_app_or in I. destruct I as [I|[I|[]]].
  - apply (num_weak x (Some id) used (id :: used)); [intros j; right; assumption| |].
    { destruct X; auto. }
    eapply num_mono; [apply A3; exact I|rewrite E; reflexivity|unfold olen; rewrite E; lia].
  - subst r. unfold row_ok, num_ok. cbn. rewrite E, (A5 id N). split; [auto|]. split; [exact R_nil|].
    split; [unfold olen; lia|]. intros _ F. congruence.
Qed.
Lemma good_open : forall used c w e cc id tok cs, w_prog w = Running -> good None used c w -> ~ In id used -> 0 <= c ->
  let w1 := open_transaction e cc id tok cs w in
  fine w w1 /\ w_out w1 = w_out w /\
  (w_prog w1 = Threw /\ good None used c w1 \/
   good (Some id) (id :: used) c w1 /\ (w_prog w1 = Dead \/
     w_prog w1 = Running /\ exists t, w_tx w1 e = Some t /\ t_id t = id)).
Proof.
  intros used c w e cc id tok cs P G N C0 w1. unfold w1, open_transaction. clear w1.
  destruct (negb (has_connector w e cc)).
  { split; [apply throw_quiet; exact P|]. split; [reflexivity|]. left. split; [reflexivity|].
    eapply good_quiet; [apply throw_quiet; exact P|exact P|exact G]. }
  set (t := Tx id cc 0 cs _ None None (w_resume w) false). set (w1 := put_tx e (Some t) w).
  pose proof G as (B&G0).
  assert (Dt : forall c w2, 0 <= c -> w_out w2 = w_out w -> dinv None used c w ->
             num_ok (Some id) (id :: used) c w2 id 0).
  { intros c1 w2 C1 E (_&_&_&_&A5). unfold num_ok. rewrite E, (A5 id N). split; [left; reflexivity|]. split; [exact R_nil|].
    split; [unfold olen; lia|]. congruence. }
  (* the memory part once the rows are known *)
  assert (MM : forall w2, w_out w2 = w_out w -> w_tx w2 = w_tx w1 -> small c w ->
     (forall r, In r (w_rows w2) -> In r (w_rows w) \/ (r_id r = id /\ r_evse r = e /\ w_resume w = true)) ->
     minv (Some id) (id :: used) c w2).
  { intros w2 E T Sm Rr. destruct (G0 Sm) as (G1&G2). destruct G2 as (D&(M1&M2)); [congruence|]. split.
    - intros f u U. rewrite T in U. cbn in U. unfold CsmModel.fupd in U. destruct (f =? e) eqn:Q.
      + inversion U; subst u. apply Z.eqb_eq in Q. subst f. split; [apply Dt; auto|]. intros r I Er. cbn in Er.
        destruct (Rr r I) as [J|(J1&J2&J3)]; [|cbn; auto]. exfalso. eapply fresh_row; eauto.
      + destruct (M1 f u U) as (N1&N2). split.
        * apply (num_weak None (Some id) used); [intros j; right; assumption|auto|].
          eapply num_mono; [exact N1|rewrite E; reflexivity|unfold olen; rewrite E; lia].
        * intros r I Er. destruct (Rr r I) as [J|(J1&J2&J3)]; [apply N2; auto|]. exfalso. apply N. destruct N1 as (N1&_). congruence.
    - intros f g u v U V E1. rewrite T in U, V. cbn in U, V. unfold CsmModel.fupd in U, V.
      destruct (f =? e) eqn:Q1; destruct (g =? e) eqn:Q2;
        repeat match goal with H : (_ =? _) = true |- _ => apply Z.eqb_eq in H | H : (_ =? _) = false |- _ => apply Z.eqb_neq in H end.
      + congruence.
      + inversion U; subst u. cbn in E1. destruct (M1 g v V) as ((N1&_)&_). exfalso. apply N. congruence.
      + inversion V; subst v. cbn in E1. destruct (M1 f u U) as ((N1&_)&_). exfalso. apply N. congruence.
      + eapply M2; eauto. }
  assert (F1 : fine w w1) by (unfold w1, fine; cbn; intuition).
  (* dead processes *)
  assert (Dead_ok : forall w2, fine w w2 -> w_out w2 = w_out w -> w_prog w2 = Dead ->
     (exists p, w_rows w2 = filter p (w_rows w)) -> good (Some id) (id :: used) c w2).
  { intros w2 F E Pd (p&Rw). split; [eapply base_fine; eauto|]. intros Sm.
    assert (Sm0 : small c w) by (unfold small, olen in *; rewrite <- E; exact Sm). destruct (G0 Sm0) as (G1&_).
    split; [|congruence]. apply (dinv_weak None (Some id) used); [intros j; right; assumption|auto|]. eapply dinv_fewer; eauto. }
  destruct (w_resume w) eqn:RS.
  2:{ split; [exact F1|]. split; [reflexivity|]. right. split.
      - split; [eapply base_fine; eauto|]. intros Sm. destruct (G0 Sm) as (G1&G2). destruct G2 as (D&M); [congruence|].
        assert (KD : forall c, dinv None used c w -> dinv (Some id) (id :: used) c w1).
        { intros c1 D1. apply (dinv_weak None (Some id) used); [intros j; right; assumption|auto|]. eapply dinv_same; eauto. }
        split; [apply KD; exact G1|]. intros _. split; [apply KD; exact D|]. apply MM; auto.
      - right. split; [exact P|]. exists t. cbn. unfold CsmModel.fupd. rewrite Z.eqb_refl. auto. }
  (* success of an insertion *)
  assert (Ins : forall w3 w4 ok, insert_tx e t w3 = (w4, ok) -> w_prog w3 = Running -> fine w w3 -> w_tx w3 = w_tx w1 ->
     w_out w3 = w_out w -> (exists p, w_rows w3 = filter p (w_rows w)) -> w_fail w3 = [] ->
     ok = true -> fine w w4 /\ w_out w4 = w_out w /\
       (good (Some id) (id :: used) c w4 /\ (w_prog w4 = Dead \/ w_prog w4 = Running /\ exists t, w_tx w4 e = Some t /\ t_id t = id))).
  { intros w3 w4 ok I P3 F3 T3 E3 (p&R3) Fl Ok. unfold insert_tx in I.
    destruct (statement_ok _ _ _ _ I Fl P3) as (C1&C2&C3&_&_&C6). subst ok.
    destruct C6 as [(X&_)|(l&_&X2&X3)]; [discriminate|]. unfold insert_row in X2.
    destruct (existsb _ (w_rows w3)) eqn:EX; [discriminate|]. inversion X2; subst l.
    assert (F4 : fine w w4) by exact (fine_trans _ _ _ F3 C1). assert (E4 : w_out w4 = w_out w) by congruence.
    split; [exact F4|]. split; [exact E4|]. destruct X3 as [(Y1&Y2)|(Y1&Y2)].
    - split.
      + split; [eapply base_fine; eauto|]. intros Sm. assert (Sm0 : small c w) by (unfold small, olen in *; rewrite <- E4; exact Sm).
        destruct (G0 Sm0) as (G1&G2). destruct G2 as (D&M); [congruence|].
        assert (Ne : forall r, In r (w_rows w3) -> r_evse r <> e).
        { intros r J Z. assert (EX1 : existsb (fun x => (r_id x =? r_id (row_of_tx e t)) || (r_evse x =? r_evse (row_of_tx e t))) (w_rows w3) = true).
          { apply existsb_exists. exists r. split; [exact J|]. cbn. rewrite Z, Z.eqb_refl. apply orb_true_r. }
          congruence. }
        assert (KD : forall c, 0 <= c -> dinv None used c w -> dinv (Some id) (id :: used) c w4).
        { intros c1 C1' D1. eapply (insert_fresh None used c1 w3 w4); [eapply dinv_fewer; eauto|exact N|exact Ne|auto|exact C1'|congruence|exact Y2]. }
        split; [apply KD; [lia|exact G1]|]. intros _. split; [apply KD; [lia|exact D]|]. apply MM; auto; [congruence|].
        intros r J. rewrite Y2 in J. apply in_app_or in J. destruct J as [J|[J|[]]].
        * left. rewrite R3 in J. apply filter_In in J. tauto.
        * right. subst r. cbn. auto.
      + right. split; [exact Y1|]. exists t. rewrite C2, T3. cbn. unfold CsmModel.fupd. rewrite Z.eqb_refl. auto.
    - split; [|auto]. apply Dead_ok; auto. exists p. congruence. }
  destruct (insert_tx e t w1) as [w2 ok] eqn:I1.
  assert (R1 : exists p, w_rows w1 = filter p (w_rows w)) by (exists (fun _ => true); rewrite filter_all; reflexivity).
  destruct ok.
  { destruct (Ins w1 w2 true I1 P F1 eq_refl eq_refl R1 (proj1 B) eq_refl) as (Z1&Z2&Z3). split; [exact Z1|]. split; [exact Z2|].
    right. exact Z3. }
  unfold insert_tx in I1. destruct (statement_ok _ _ _ _ I1 (proj1 B) P) as (C1&C2&C3&_&_&C6).
  destruct C6 as [(_&X2&X3&X4)|(l&X&_)]; [|discriminate].
  assert (F2 : fine w w2) by exact (fine_trans _ _ _ F1 C1).
  assert (Fl2 : w_fail w2 = []) by (destruct F2 as (F2&_); apply F2; exact (proj1 B)).
  (* the row in the way *)
  unfold seqw, delete_database_transaction. rewrite (get_pure e w2 Fl2).
  destruct (find (fun r => r_evse r =? e) (w_rows w2)) as [r|] eqn:Fi.
  - destruct (statement (delete_row (r_id r)) w2) as [w3 b] eqn:I3. cbn [fst].
    destruct (statement_ok _ _ _ _ I3 Fl2 X4) as (K1&K2&K3&_&_&K6).
    destruct K6 as [(_&Y2&_)|(l&_&Y2&Y3)]; [discriminate Y2|]. inversion Y2; subst l.
    assert (F3 : fine w w3) by exact (fine_trans _ _ _ F2 K1). assert (E3 : w_out w3 = w_out w).
    { rewrite K3, C3. reflexivity. }
    destruct Y3 as [(Y4&Y5)|(Y4&Y5)].
    + rewrite Y4. destruct (insert_tx e t w3) as [w4 ok] eqn:I4.
      assert (Fl3 : w_fail w3 = []) by (destruct F3 as (F3&_); apply F3; exact (proj1 B)).
      destruct ok.
      * assert (R3 : exists p, w_rows w3 = filter p (w_rows w)) by (eexists; rewrite Y5, X3; reflexivity).
        assert (T3 : w_tx w3 = w_tx w1) by congruence.
        destruct (Ins w3 w4 true I4 Y4 F3 T3 E3 R3 Fl3 eq_refl) as (Z1&Z2&Z3).
        split; [exact Z1|]. split; [exact Z2|]. right. exact Z3.
      * (* cannot fail again, unless the invariant does not apply *)
        unfold insert_tx in I4. destruct (statement_ok _ _ _ _ I4 Fl3 Y4) as (L1&L2&L3&_&_&L6).
        destruct L6 as [(_&M2&M3&M4)|(l&M1&_)]; [|discriminate].
        assert (F4 : fine w w4) by exact (fine_trans _ _ _ F3 L1).
        assert (F5 : fine w (throw w4)).
        { eapply fine_trans; [exact F4|]. apply throw_quiet. exact M4. }
        split; [exact F5|]. split; [cbn; congruence|]. left. split; [reflexivity|]. split; [eapply base_fine; eauto|].
        intros Sm. exfalso.
        assert (Sm0 : small c w).
        { unfold small, olen in *. cbn in Sm. rewrite L3, E3 in Sm. exact Sm. }
        destruct (G0 Sm0) as (G1&G2). destruct G2 as (D&M); [congruence|].
        unfold insert_row in M2. destruct (existsb _ (w_rows w3)) eqn:EX; [|discriminate].
        apply existsb_exists in EX. destruct EX as (s&J1&J2). rewrite Y5 in J1. apply filter_In in J1. destruct J1 as (J1&J3).
        rewrite X3 in J1. cbn in J2. apply orb_true_iff in J2.
        apply find_some in Fi. destruct Fi as (Fi1&Fi2). rewrite X3 in Fi1. apply Z.eqb_eq in Fi2.
        destruct J2 as [J2|J2]; apply Z.eqb_eq in J2.
        -- eapply fresh_row; eauto.
        -- assert (s = r).
           { clear - D J1 Fi1 J2 Fi2. destruct D as (_&D&_). cbn in J1, Fi1. revert D J1 Fi1.
             generalize (w_rows w). induction l as [|a q IH]; intros D I J; [contradiction|]. inversion D; subst.
             destruct I as [->|I], J as [->|J]; auto.
             - exfalso. apply H1. rewrite J2. apply in_map. exact J.
             - exfalso. apply H1. rewrite <- J2. apply in_map. exact I. }
           subst s. rewrite Z.eqb_refl in J3. discriminate.
    + rewrite Y4. split; [exact F3|]. split; [exact E3|]. right. split; [|auto].
      apply Dead_ok; auto. exists (fun _ => true). rewrite filter_all. rewrite Y5, X3. reflexivity.
  - (* nothing to delete although the insertion failed: impossible *)
    rewrite X4. destruct (insert_tx e t w2) as [w4 ok] eqn:I4. unfold insert_tx in I4.
    destruct (statement_ok _ _ _ _ I4 Fl2 X4) as (L1&L2&L3&_&_&L6).
    assert (X2' : insert_row (row_of_tx e t) (w_rows w2) = None) by (rewrite X3; exact X2).
    destruct L6 as [(M1&M2&M3&M4)|(l&M1&M2&_)]; [|congruence]. subst ok.
    assert (F4 : fine w w4) by exact (fine_trans _ _ _ F2 L1).
    assert (F5 : fine w (throw w4)) by (eapply fine_trans; [exact F4|]; apply throw_quiet; exact M4).
    split; [exact F5|]. split; [cbn; rewrite L3, C3; reflexivity|]. left. split; [reflexivity|]. split; [eapply base_fine; eauto|].
    intros Sm. exfalso.
    assert (Sm0 : small c w) by (unfold small, olen in *; cbn in Sm; rewrite L3, C3 in Sm; exact Sm).
    destruct (G0 Sm0) as (G1&G2). destruct G2 as (D&M); [congruence|].
    unfold insert_row in X2'. destruct (existsb _ (w_rows w2)) eqn:EX; [|discriminate].
    apply existsb_exists in EX. destruct EX as (s&J1&J2). cbn in J2. apply orb_true_iff in J2.
    destruct J2 as [J2|J2].
    + apply Z.eqb_eq in J2. rewrite X3 in J1. eapply fresh_row; eauto.
    + pose proof (find_none _ _ Fi s J1) as Q. cbn in Q. congruence.
Qed.

Lemma seq_stop : forall f g w, w_prog (f w) <> Running -> (f ;; g) w = f w.
Proof. intros f g w N. unfold seqw. destruct (w_prog (f w)); congruence. Qed.
Lemma seq_go : forall f g w, w_prog (f w) = Running -> (f ;; g) w = g (f w).
Proof. intros f g w N. unfold seqw. rewrite N. reflexivity. Qed.
Lemma prog_dec : forall w, w_prog w = Running \/ w_prog w <> Running.
Proof. intros w. destruct (w_prog w); auto; right; discriminate. Qed.
Lemma quiet_tx : forall w w1 e t, quiet w w1 -> w_tx w e = Some t -> exists t1, w_tx w1 e = Some t1 /\ t_id t1 = t_id t.
Proof.
  intros w w1 e t (_&_&Q&_) T. specialize (Q e). rewrite T in Q. destruct (w_tx w1 e) as [t1|]; [|discriminate].
  exists t1. split; [reflexivity|]. cbn in Q. inversion Q. reflexivity.
Qed.

Lemma good_qseq : forall x used c w f g, quietly f -> w_prog w = Running -> good x used c w ->
  (w_prog (f w) = Running -> quiet w (f w) -> good x used c (f w) -> good x used c (g (f w))) -> good x used c ((f ;; g) w).
Proof.
  intros x used c w f g Q P G K. pose proof (good_quietly _ _ _ _ _ Q P G) as G1.
  destruct (prog_dec (f w)) as [P1|P1]; [rewrite seq_go by exact P1; apply K; auto|rewrite seq_stop by exact P1; exact G1].
Qed.

Lemma good_started : forall used c w e cc id tr tok rid cs, w_prog w = Running -> good None used c w -> ~ In id used -> 0 <= c ->
  good None (id :: used) c (on_started e cc id tr tok rid cs w).
Proof.
  intros used c w e cc id tr tok rid cs P G N C0.
  assert (W : forall w, good None used c w -> good None (id :: used) c w)
    by (intros; eapply good_weak; eauto; intros j; right; assumption).
  unfold on_started. pose proof (good_quietly _ _ _ _ _ (get_evse_quiet e) P G) as G1.
  destruct (prog_dec (get_evse e w)) as [P1|P1]; [rewrite seq_go by exact P1|rewrite seq_stop by exact P1; auto].
  destruct (good_open used c (get_evse e w) e cc id tok cs P1 G1 N C0) as (F&O&H).
  set (w2 := open_transaction e cc id tok cs (get_evse e w)) in *.
  destruct H as [(H1&H2)|(H1&[H2|(H2&t&H3&H4)])].
  - rewrite seq_stop by (fold w2; congruence). auto.
  - rewrite seq_stop by (fold w2; congruence). fold w2. apply (good_weak (Some id) None (id :: used)); [intros j; auto| |exact H1].
    right. right. apply (dead_cr w2); [apply H1|exact H2].
  - rewrite seq_go by exact H2. fold w2. pose proof (set_remote_quiet e rid w2 H2) as Q.
    pose proof (good_quiet _ _ _ _ _ Q H2 H1) as G3. destruct (quiet_tx _ _ _ _ Q H3) as (t1&T1&I1).
    destruct (prog_dec (set_remote e rid w2)) as [P3|P3].
    2:{ exfalso. apply P3. unfold set_remote. rewrite H3. exact H2. }
    rewrite seq_go by exact P3.
    eapply (good_send (Some id) None); [exact P3|exact G3|exact T1|right; congruence| |left; discriminate].
    intros Sm. right. rewrite I1, H4. destruct Q as (_&_&_&Q). rewrite Q, O.
    assert (Sm1 : small c (get_evse e w)).
    { unfold small in *. assert (olen (get_evse e w) <= olen (set_remote e rid w2)); [|lia].
      unfold set_remote. rewrite H3. unfold olen. cbn. rewrite O. lia. }
    destruct G1 as (_&G1). destruct (G1 Sm1) as ((_&_&_&_&D)&_). rewrite (D id N). tauto.
Qed.

Lemma good_drop : forall x used c w e, good x used c w -> good x used c (put_tx e None w).
Proof.
  intros x used c w e ((B1&B2)&G). split; [split; [exact B1|exact B2]|]. intros Sm. destruct (G Sm) as (G1&G2).
  split; [eapply dinv_same; eauto|]. intros P. destruct (G2 P) as (D&M). split; [eapply dinv_same; eauto|].
  eapply (minv_fewer x used c w _ (fun _ => true)); [exact M|rewrite filter_all; reflexivity|reflexivity|].
  intros f t. cbn. unfold CsmModel.fupd. destruct (f =? e); [discriminate|auto].
Qed.
Lemma good_release : forall x used c w e, w_prog w = Running -> good x used c w -> good x used c (release_transaction e w).
Proof.
  intros x used c w e P G. unfold release_transaction. destruct (w_tx w e) as [t|]; [|exact G].
  unfold pop_fail. rewrite (proj1 (proj1 G)). destruct (good_delete x used c w (t_id t) P G) as (G1&_&_&_&H).
  unfold seqw at 1. cbv beta. destruct (w_prog (fst (statement (delete_row (t_id t)) w))); auto. apply good_drop. exact G1.
Qed.
Lemma statement_fine : forall f w, w_prog w = Running -> fine w (fst (statement f w)).
Proof.
  intros f w P. unfold statement. destruct (pop_fail w) as [b w2] eqn:E. destruct (pop_quiet _ _ _ E) as ((Q&_)&_).
  destruct b; [exact Q|]. destruct (f (w_rows w2)) as [l|]; [|exact Q]. eapply fine_trans; [exact Q|]. cbn [fst].
  unfold durable. destruct (w_budget w2) as [[|n]|] eqn:B; unfold fine; cbn; intuition (first [congruence|lia]).
Qed.
Lemma send_fine : forall e k tr ev tok w, w_prog w = Running -> fine w (send_event e k tr ev tok w).
Proof.
  intros e k tr ev tok w P. unfold send_event. destruct (w_tx w e) as [t|] eqn:T; [|apply fine_refl].
  unfold seqw. set (w2 := get_seq_no e w).
  assert (F : fine w w2).
  { unfold w2, get_seq_no. rewrite T. destruct (t_db t); [|unfold fine; cbn; intuition].
    eapply fine_trans; [|apply statement_fine; exact P]. unfold fine; cbn; intuition. }
  destruct (w_prog w2) eqn:P2; auto. eapply fine_trans; [exact F|]. apply req_ok. exact P2.
Qed.
Lemma release_fine : forall e w, w_prog w = Running -> fine w (release_transaction e w).
Proof.
  intros e w P. unfold release_transaction. destruct (w_tx w e) as [t|]; [|apply fine_refl].
  destruct (pop_fail w) as [b w1] eqn:F. destruct (pop_quiet _ _ _ F) as ((Q&_)&P1&_). eapply fine_trans; [exact Q|].
  assert (P2 : w_prog w1 = Running) by congruence.
  unfold seqw. cbv beta. set (w2 := if b then w1 else _).
  assert (F2 : fine w1 w2) by (unfold w2; destruct b; [apply fine_refl|apply statement_fine; exact P2]).
  destruct (w_prog w2) eqn:P3; exact F2.
Qed.
Lemma good_ended : forall used c w e tr ev tok t, w_prog w = Running -> good None used c w -> w_tx w e = Some t ->
  good None used c ((send_event e Ended tr ev tok ;; release_transaction e) w).
Proof.
  intros used c w e tr ev tok t P G T. assert (C : cr = true \/ cr = false) by (case cr; auto). destruct C as [C|C].
  - pose proof (good_send None None used c w e Ended tr ev tok t P G T (or_introl eq_refl) (fun _ => or_introl C) (or_intror C)) as G1.
    destruct (prog_dec (send_event e Ended tr ev tok w)) as [P1|P1];
      [rewrite seq_go by exact P1; apply good_release; auto|rewrite seq_stop by exact P1; exact G1].
  - pose proof G as (B&G0). destruct (proj2 B C) as (Bu&_). pose proof (send_fine e Ended tr ev tok w P) as F1.
    pose proof (seq_stop (send_event e Ended tr ev tok) (release_transaction e) w) as Q1.
    pose proof (seq_go (send_event e Ended tr ev tok) (release_transaction e) w) as Q2.
    pose proof (send_event_ok e Ended tr ev tok w t P (proj1 B) T) as SE. cbv zeta in SE.
    revert F1 Q1 Q2 SE. generalize ((send_event e Ended tr ev tok ;; release_transaction e) w) as w9.
    generalize (send_event e Ended tr ev tok w) as w1. intros w1 w9 F1 Q1 Q2 SE.
    assert (B1 : base w1) by (eapply base_fine; eauto).
    destruct (prog_dec w1) as [P1|P1].
    2:{ rewrite (Q1 P1). destruct (Z_lt_dec (olen w + c) 2147483646) as [Sm|Sm].
        - exfalso. destruct (G0 Sm) as (G1&G2). destruct G2 as (D&(M1&M2)); [congruence|]. destruct (M1 e t T) as (N1&N2).
          assert (Bd : 0 <= t_seq t < 2147483647) by (destruct N1 as (_&Rn&Le&_); pose proof (R_pos _ _ Rn); lia).
          destruct (proj2 B1 C) as (_&ND).
          destruct (SE Bd) as (F&[(A1&A2&A3&A4)|(A1&A2&A3)]); [|congruence]. destruct (A1 ND). congruence.
        - split; [exact B1|]. intros Sm1. exfalso. apply Sm. unfold small in Sm1. pose proof (fine_olen _ _ F1). lia. }
    rewrite (Q2 P1). clear w9 Q1 Q2. pose proof (release_fine e w1 P1) as F2.
    assert (B2 : base (release_transaction e w1)) by (eapply base_fine; eauto).
    split; [exact B2|]. intros Sm2.
    assert (Sm : small c w) by (unfold small in *; pose proof (fine_olen _ _ F1); pose proof (fine_olen _ _ F2); lia).
    destruct (G0 Sm) as (G1&G2). destruct G2 as (D&(M1&M2)); [congruence|]. destruct (M1 e t T) as (N1&N2).
    assert (Bd : 0 <= t_seq t < 2147483647) by (destruct N1 as (_&Rn&Le&_); pose proof (R_pos _ _ Rn); unfold small in Sm; lia).
    destruct (SE Bd) as (F&[(A1&A2&A3&A4)|(A1&A2&A3)]); [|congruence].
    assert (X3 : exists w3, release_transaction e w1 = w3 /\ w_out w3 = w_out w1 /\
      w_rows w3 = filter (fun r => negb (r_id r =? t_id t)) (w_rows w1) /\ w_tx w3 = CsmModel.fupd (w_tx w1) e None).
    { destruct A1 as (A5&A6); [congruence|]. unfold release_transaction. rewrite A6. unfold CsmModel.fupd at 1.
      rewrite Z.eqb_refl. unfold pop_fail. rewrite (proj1 B1). change (t_id (bumped t)) with (t_id t). cbv beta.
      destruct (statement (delete_row (t_id t)) w1) as [w2 b] eqn:I2.
      destruct (statement_ok _ _ _ _ I2 (proj1 B1) P1) as (K1&K2&K3&_&_&K6).
      destruct K6 as [(_&Y2&_)|(l&_&Y2&Y3)]; [discriminate Y2|]. inversion Y2; subst l.
      destruct Y3 as [(Y4&Y5)|(Y4&Y5)].
      2:{ exfalso. destruct K1 as (_&K1&_). destruct (proj2 B1 C) as (Bu1&_). destruct (K1 Bu1) as (_&K). rewrite P1 in K.
          apply K; [discriminate|exact Y4]. }
      exists (put_tx e None w2). rewrite seq_go; cbn [fst]; rewrite ?I2; cbn [fst]; [|exact Y4].
      split; [reflexivity|]. split; [exact K3|]. split; [exact Y5|]. cbn. rewrite K2, A6. reflexivity. }
    destruct A1 as (A5&A6); [congruence|]. destruct X3 as (w3&E3&O3&R3&T3). rewrite E3. clear E3.
    assert (L : olen w + 1 <= olen w3) by (unfold olen; rewrite O3; lia).
    assert (RR : forall r, In r (w_rows w3) -> In r (w_rows w) /\ r_id r <> t_id t).
    { intros r I. rewrite R3 in I. apply filter_In in I. destruct I as (I&J). rewrite A2 in I. apply bump_in in I.
      apply negb_true_iff, Z.eqb_neq in J. destruct I as [(I&_)|(_&I&_)]; [auto|congruence]. }
    pose proof D as (D1&D2&D3&D4&D5). destruct (bump_keys t (w_rows w)) as (U1&U2).
    assert (DD : dinv None used c w3).
    { unfold dinv. rewrite R3, A2. split; [apply NoDup_map_filter; rewrite U1; exact D1|].
      split; [apply NoDup_map_filter; rewrite U2; exact D2|]. split; [|split].
      - intros r I. rewrite <- A2, <- R3 in I. destruct (RR r I) as (I1&I2').
        eapply num_other; [apply D3; exact I1|exact I2'|left; reflexivity|rewrite O3; apply A3|lia].
      - intros id. rewrite O3, A3. destruct (Z.eq_dec id (t_id t)) as [->|NE].
        + rewrite evt_same. destruct N1 as (N1&Rn&_&Ne). apply S_end; [exact Rn|]. right. split; [discriminate|].
          intros Z. exfalso. apply (Ne C); [discriminate|exact Z].
        + rewrite evt_other, app_nil_r by exact NE. apply D4.
      - intros id Ni. rewrite O3, A3. rewrite (D5 id Ni). rewrite evt_other; [reflexivity|]. intros ->. apply Ni. apply N1. }
    split; [apply dinv_c; exact DD|]. intros _. split; [exact DD|]. split.
    + intros f u U. rewrite T3, A6 in U. unfold CsmModel.fupd in U.
      destruct (f =? e) eqn:Q; [discriminate|]. destruct (M1 f u U) as (V1&V2). apply Z.eqb_neq in Q.
      assert (NI : t_id u <> t_id t) by (intros Z; apply Q; eapply M2; eauto).
      split; [eapply num_other; [exact V1|exact NI|left; reflexivity|rewrite O3; apply A3|lia]|].
      intros r I E. destruct (RR r I) as (I1&_). apply V2; assumption.
    + intros f g u v U V E. rewrite T3, A6 in U, V.
      unfold CsmModel.fupd in U, V. destruct (f =? e) eqn:Q; [discriminate|]. destruct (g =? e) eqn:Q1; [discriminate|].
      eapply M2; eauto.
Qed.

Lemma good_update : forall used c w e tr ev tok, w_prog w = Running -> good None used c w ->
  good None used c (send_event e Updated tr ev tok w).
Proof.
  intros used c w e tr ev tok P G. destruct (w_tx w e) as [t|] eqn:T; [|unfold send_event; rewrite T; exact G].
  eapply (good_send None None); [exact P|exact G|exact T|auto| |left; discriminate].
  intros Sm. unfold okind. assert (C : cr = true \/ cr = false) by (case cr; auto). destruct C as [C|C]; [auto|right].
  split; [discriminate|]. intros E. exfalso. destruct G as (_&G). destruct (G Sm) as (_&G2).
  destruct G2 as (_&(M1&_)); [congruence|]. destruct (M1 e t T) as ((_&_&_&N)&_). apply (N C); [discriminate|exact E].
Qed.
Lemma seq_assoc : forall f g h w, (f ;; (g ;; h)) w = ((f ;; g) ;; h) w.
Proof. intros f g h w. unfold seqw. destruct (w_prog (f w)) eqn:E; try rewrite E; reflexivity. Qed.
Lemma good_then : forall x used c w f g, good x used c (f w) -> quietly g -> good x used c ((f ;; g) w).
Proof.
  intros x used c w f g G Q. destruct (prog_dec (f w)) as [P|P]; [rewrite seq_go by exact P|rewrite seq_stop by exact P; exact G].
  apply good_quietly; auto.
Qed.
Lemma good_finished : forall used c w e reason tr tok cs, w_prog w = Running -> good None used c w ->
  good None used c (on_finished e reason tr tok cs w).
Proof.
  intros used c w e reason tr tok cs P G. unfold on_finished.
  apply good_qseq; [apply get_evse_quiet|exact P|exact G|]. intros P1 _ G1. revert P1 G1.
  generalize (get_evse e w) as v. clear w P G. intros w P G. cbv beta. destruct (active w e) eqn:A; cbn [negb]; [|exact G].
  unfold active in A. destruct (w_tx w e) as [t|] eqn:T; [|discriminate].
  pose proof (set_charging_quiet e cs w P) as Q1. destruct (quiet_tx _ _ _ _ Q1 T) as (t1&T1&_).
  apply good_qseq; [apply set_charging_quiet|exact P|exact G|]. intros P1 _ G1.
  pose proof (close_quiet e reason _ P1) as Q2. destruct (quiet_tx _ _ _ _ Q2 T1) as (t2&T2&_).
  apply good_qseq; [apply close_quiet|exact P1|exact G1|]. intros P2 _ G2.
  rewrite seq_assoc. apply good_then.
  - eapply good_ended; eauto.
  - apply quietly_seq; [apply finish_reset_quiet|]. apply quietly_seq; apply sched_quiet.
Qed.
Lemma good_config : forall x used c w b, good x used c w -> good x used c (set_w_resume b w).
Proof.
  intros x used c w b ((B1&B2)&G). split; [split; [exact B1|exact B2]|]. intros Sm. destruct (G Sm) as (G1&G2).
  split; [eapply dinv_same; eauto|]. intros P. destruct (G2 P) as (D&M). split; [eapply dinv_same; eauto|].
  eapply (minv_fewer x used c w _ (fun _ => true)); [exact M|rewrite filter_all; reflexivity|reflexivity|auto].
Qed.
Definition ids_of (o : op) : list Z := match o with OStart _ _ id _ _ _ _ => [id] | _ => [] end.
Lemma good_exec : forall o used c w, w_prog w = Running -> good None used c w -> 0 <= c ->
  (forall id, In id (ids_of o) -> ~ In id used) -> good None (ids_of o ++ used) c (exec o w).
Proof.
  intros o used c w P G C N. destruct o; cbn [exec ids_of app].
  - apply good_started; auto. apply N. left. reflexivity.
  - apply good_finished; auto.
  - apply good_qseq; [apply get_evse_quiet|exact P|exact G|]. intros P1 _ G1. cbv beta.
    destruct (w_tx (get_evse e w) e) as [t|]; [|exact G1]. destruct (t_tok t); [exact G1|].
    apply good_qseq; [apply set_tok_quiet|exact P1|exact G1|]. intros. apply good_update; auto.
  - apply good_qseq; [apply get_evse_quiet|exact P|exact G|]. intros P1 _ G1. cbv beta.
    destruct (w_tx (get_evse e w) e) as [t|]; [|exact G1]. destruct (t_cs t =? cs); [exact G1|].
    apply good_qseq; [apply set_charging_quiet|exact P1|exact G1|]. intros. apply good_update; auto.
  - unfold on_meter_timer. destruct (w_tx w e); [|exact G]. apply good_update; auto.
  - apply good_qseq; [destruct e; [apply get_evse_quiet|apply quietly_skip]|exact P|exact G|]. intros P1 _ G1. cbv beta zeta.
    apply good_qseq; [apply emit_quiet; reflexivity|exact P1|exact G1|]. intros P2 _ G2.
    match goal with |- context [if ?b then _ else skip] => destruct b end; [|exact G2].
    apply good_foreach; auto. intros. apply good_update; auto.
  - apply good_quietly; auto. apply handle_reset_quiet.
  - apply good_quietly; auto. apply change_quiet.
  - apply good_quietly; auto. apply firmware_quiet.
  - apply good_quietly; auto. apply restore_quiet.
  - apply good_quietly; auto. apply plain_quiet. intros v. cbn. auto 10.
  - apply good_quietly; auto. apply response_quiet.
  - apply good_quietly; auto. apply status_quiet.
  - apply good_config. exact G.
  - pose proof G as (B&G0). apply good_boot.
    + exact B.
    + intros Sm. destruct (G0 Sm) as (_&G2). apply G2. congruence.
    + intros F. apply B. exact F.
Qed.

(** Between two calls. *)
Definition between (used : list Z) (c : Z) (w : world) : Prop :=
  w_prog w <> Dead /\ (small c w -> dinv None used c w /\ minv None used c w).
Lemma foreach_fine : forall A (l : list A) f,
  (forall a w, w_prog w = Running -> fine w (f a w)) -> forall w, w_prog w = Running -> fine w (foreach l f w).
Proof.
  induction l as [|a q IH]; intros f H w P; cbn [foreach]; [apply fine_refl|].
  unfold seqw. destruct (w_prog (f a w)) eqn:E; auto. eapply fine_trans; [apply H; exact P|]. apply IH; auto.
Qed.
Lemma get_fine : forall e w r w1, transaction_get e w = (r, w1) -> fine w w1 /\ w_prog w1 = w_prog w.
Proof.
  intros e w r w1 H. unfold transaction_get in H. destruct (pop_fail w) as [b w2] eqn:F.
  destruct (pop_quiet _ _ _ F) as ((Q&_)&P1&_). destruct b; inversion H; subst; auto.
Qed.
Lemma construct_fine : forall e w, w_prog w = Running -> fine w (construct_evse e w).
Proof.
  intros e w P. unfold construct_evse. destruct (w_resume w).
  - unfold try_resume_transaction. destruct (transaction_get e w) as [r w1] eqn:E. destruct (get_fine _ _ _ _ E) as (F&P1).
    destruct r as [r|]; [|exact F]. destruct (has_connector w1 e (r_conn r)); [exact F|].
    eapply fine_trans; [exact F|]. apply statement_fine. congruence.
  - unfold delete_database_transaction. destruct (transaction_get e w) as [r w1] eqn:E. destruct (get_fine _ _ _ _ E) as (F&P1).
    destruct r as [r|]; [|exact F]. eapply fine_trans; [exact F|]. apply statement_fine. congruence.
Qed.
Lemma boot_fine : forall w, (w_budget w = None -> w_prog (boot w) <> Dead) /\ (length (w_out w) <= length (w_out (boot w)))%nat.
Proof.
  intros w. unfold boot. set (w0 := W _ _ _ _ _ _ _ _ _ _ _ _ _ _ _).
  destruct (foreach_fine _ (evses w) construct_evse construct_fine w0 eq_refl) as (_&F2&_&_&F5).
  split; [|exact F5]. intros B. destruct (F2 B) as (_&F3). apply F3. discriminate.
Qed.

Definition call_ok (k : call) : Prop := c_fail k = [] /\ (cr = false -> c_crash k = None).
Lemma between_step : forall k used c w, call_ok k -> between used c w -> 0 <= c ->
  (forall id, In id (ids_of (c_op k)) -> ~ In id used) -> between (ids_of (c_op k) ++ used) (c + 1) (step w k).
Proof.
  intros k used c w (K1&K2) (D&M) C N. unfold step.
  set (w0 := set_w_prog Running (set_w_budget (c_crash k) (set_w_fail (c_fail k) w))).
  assert (G0 : good None used c w0).
  { split.
    - split; [exact K1|]. intros F. split; [apply K2; exact F|discriminate].
    - intros Sm. destruct (M Sm) as (M1&M2).
      assert (D0 : dinv None used c w0) by (eapply dinv_same; eauto). split; [apply dinv_c; exact D0|]. intros _.
      split; [exact D0|]. eapply (minv_fewer None used c w _ (fun _ => true)); [exact M2|rewrite filter_all; reflexivity|reflexivity|auto]. }
  pose proof (good_exec (c_op k) used c w0 eq_refl G0 C N) as (B1&G1).
  set (u1 := ids_of (c_op k) ++ used) in *. set (w1 := exec (c_op k) w0) in *.
  assert (CC : forall u w, minv None u c w -> minv None u (c + 1) w).
  { clear. intros u w (A1&A2). split; [|exact A2]. intros e t T. destruct (A1 e t T). split; [apply num_c|]; assumption. }
  destruct (w_prog w1) eqn:P1.
  - split; [congruence|]. intros Sm. assert (Sm0 : small c w1) by (unfold small in *; lia). destruct (G1 Sm0) as (G2&G3).
    destruct G3 as (G3&G4); [congruence|]. auto.
  - split; [congruence|]. intros Sm. assert (Sm0 : small c w1) by (unfold small in *; lia). destruct (G1 Sm0) as (G2&G3).
    destruct G3 as (G3&G4); [congruence|]. auto.
  - set (w2 := set_w_budget None (set_w_fail [] w1)).
    assert (B2 : good None u1 (c + 1) (boot w2)).
    { apply good_boot.
      - split; [reflexivity|]. intros F. destruct (proj2 B1 F) as (_&X). congruence.
      - intros Sm. assert (Sm0 : small c w1) by (unfold small, olen in *; cbn in Sm; lia). destruct (G1 Sm0) as (G2&_).
        eapply dinv_same; eauto.
      - reflexivity. }
    destruct (boot_fine w2) as (F1&F2). split; [apply F1; reflexivity|]. intros Sm. apply B2; [exact Sm|].
    apply F1. reflexivity.
Qed.
Lemma between_run : forall h used c w, Forall call_ok h -> between used c w -> 0 <= c -> NoDup (started_ids h) ->
  (forall id, In id (started_ids h) -> ~ In id used) -> exists used1, between used1 (c + Z.of_nat (length h)) (run w h).
Proof.
  induction h as [|k q IH]; intros used c w H B C ND N.
  - exists used. cbn [length run fold_left]. replace (c + Z.of_nat 0) with c by lia. exact B.
  - inversion H; subst. assert (NI : forall id, In id (ids_of (c_op k)) -> ~ In id used).
    { intros id I. apply N. cbn. destruct (c_op k); cbn in I; try contradiction. destruct I as [->|[]]. left. reflexivity. }
    pose proof (between_step k used c w H2 B C NI) as B1.
    destruct (IH (ids_of (c_op k) ++ used) (c + 1) (step w k)) as (u&U); auto; [lia| | |].
    + cbn in ND. destruct (c_op k); auto. inversion ND; auto.
    + intros id I J. apply in_app_or in J. destruct J as [J|J].
      * cbn in ND. destruct (c_op k); cbn in J; try contradiction. destruct J as [->|[]]. inversion ND; contradiction.
      * apply (N id); [|exact J]. cbn. destruct (c_op k); auto. right. exact I.
    + exists u. change (run w (k :: q)) with (run (step w k) q).
      replace (c + Z.of_nat (length (k :: q))) with (c + 1 + Z.of_nat (length q)) by (cbn [length]; lia). exact U.
Qed.
Lemma between_init : forall con resume txcb allcb, between [] 0 (init con resume txcb allcb).
Proof.
  intros con resume txcb allcb. unfold init. set (w0 := W _ _ _ _ _ _ _ _ _ _ _ _ _ _ _).
  assert (G : good None [] 0 (boot w0)).
  { apply good_boot; [|intros _|reflexivity].
    - split; [reflexivity|]. intros _. split; [reflexivity|discriminate].
    - unfold dinv. cbn. split; [constructor|]. split; [constructor|]. split; [intros r []|]. split; [intros _; exact S_nil|reflexivity]. }
  destruct (boot_fine w0) as (F&_). split; [apply F; reflexivity|]. intros Sm. apply G; [exact Sm|apply F; reflexivity].
Qed.
Lemma all_numbers : forall con resume txcb allcb h id, Forall call_ok h -> different_ids h ->
  Z.of_nat (length (w_out (run (init con resume txcb allcb) h))) + Z.of_nat (length h) < 2147483646 ->
  S (events id (w_out (run (init con resume txcb allcb) h))).
Proof.
  intros con resume txcb allcb h id H D L.
  destruct (between_run h [] 0 _ H (between_init con resume txcb allcb)) as (u&(_&U)); [lia|exact D|auto|].
  destruct U as (U&_); [unfold small, olen; lia|]. apply U.
Qed.
End Numbers.
