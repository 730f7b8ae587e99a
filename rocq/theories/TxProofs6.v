(** Availability: what the calls leave alone, and when a scheduled request is executed. *)
From Coq Require Import ZArith List Bool Lia.
From Verif Require Import TxModel TxSpec TxProofs TxProofs2 TxProofs4 TxProofs5.
From Verif Require CsmModel CsmSpec CsmProofs CsmProofs2 CsmProofs3.
Import ListNotations.
Local Open Scope Z_scope.
Import CsmModel (opstat, Operative, Inoperative).

(** ** Maps *)
Lemma get_put : forall A k k1 (v : A) m, map_get k (map_put k1 v m) = if k =? k1 then Some v else map_get k m.
Proof.
  induction m as [|[a b] q IH]; unfold map_get in *; cbn [map_put].
  - cbn. rewrite (Z.eqb_sym k1 k). destruct (k =? k1); reflexivity.
  - destruct (k1 <? a) eqn:L.
    + cbn. rewrite (Z.eqb_sym k1 k). destruct (k =? k1); reflexivity.
    + destruct (k1 =? a) eqn:E.
      * apply Z.eqb_eq in E. subst a. cbn. rewrite (Z.eqb_sym k1 k). destruct (k =? k1); reflexivity.
      * cbn. destruct (a =? k) eqn:Q.
        -- apply Z.eqb_eq in Q. apply Z.eqb_neq in E. subst a.
           destruct (k =? k1) eqn:Z1; [apply Z.eqb_eq in Z1; congruence|reflexivity].
        -- exact IH.
Qed.
Lemma get_erase : forall A k k1 (m : list (Z * A)), map_get k (map_erase k1 m) = if k =? k1 then None else map_get k m.
Proof.
  induction m as [|[a b] q IH]; unfold map_get, map_erase in *; cbn [filter find fst].
  - destruct (k =? k1); reflexivity.
  - destruct (a =? k1) eqn:E; cbn [negb].
    + apply Z.eqb_eq in E. subst a. rewrite IH. destruct (k =? k1) eqn:Q; [reflexivity|].
      rewrite (Z.eqb_sym k1 k), Q. reflexivity.
    + cbn [find fst]. destruct (a =? k) eqn:Q; [|exact IH]. apply Z.eqb_eq in Q. subst a. rewrite E. reflexivity.
Qed.
Lemma in_put : forall A k1 (v : A) m p, In p (map_put k1 v m) -> p = (k1, v) \/ In p m.
Proof.
  induction m as [|[a b] q IH]; intros p; cbn [map_put].
  - intros [<- |[]]; auto.
  - destruct (k1 <? a); [intros [<- |I]; auto|]. destruct (k1 =? a).
    + intros [<- |I]; auto. right. right. exact I.
    + intros [<- |I]; [right; left; reflexivity|]. destruct (IH p I); auto. right. right. assumption.
Qed.
Lemma get_in : forall A k (m : list (Z * A)) v, map_get k m = Some v -> In (k, v) m.
Proof.
  intros A k m v H. unfold map_get in H. destruct (find _ m) as [[a b]|] eqn:F; [|discriminate].
  apply find_some in F. destruct F as (I&E). cbn in *. apply Z.eqb_eq in E. inversion H; subst. exact I.
Qed.

(** ** Coherence *)
Definition csm_coh (con : list Z) (s : CsmModel.st) : Prop :=
  CsmModel.s_up s = true /\ CsmModel.s_nev s = Z.of_nat (length con) /\
  forall e, known_evse con e -> CsmModel.s_ncon s e = nth (Z.to_nat (e - 1)) con 0.
Definition entry_ok (con : list Z) (p : Z * (areq * bool)) : Prop :=
  exists_target con (q_evse (fst (snd p))) /\ fst p = target_key (q_evse (fst (snd p))).
Definition coh (w : world) : Prop :=
  Forall (fun n => 0 <= n) (w_con w) /\ csm_coh (w_con w) (w_csm w) /\ Forall (entry_ok (w_con w)) (w_sched w).

Definition av_op (o : CsmModel.op) : bool :=
  match o with CsmModel.SetCs _ _ _ | CsmModel.SetEvse _ _ _ _ _ | CsmModel.SetConn _ _ _ _ _ | CsmModel.RestoreConn _ _ => true | _ => false end.
Definition touched (o : CsmModel.op) : option Z :=
  match o with
  | CsmModel.SetCs _ true _ => Some 0
  | CsmModel.SetEvse e _ true _ _ => Some e
  | CsmModel.SetConn e _ _ true _ => Some e
  | _ => None
  end.
Lemma core_coh : forall con s s1, CsmProofs.core s1 = CsmProofs.core s -> csm_coh con s -> csm_coh con s1.
Proof.
  unfold CsmProofs.core. intros con s s1 E (A&B&C). inversion E. split; [congruence|]. split; [congruence|]. intros. rewrite H4. auto.
Qed.
Lemma insert_other : forall e c v t e1 c1, e1 <> e -> CsmModel.insert_availability e c v true t e1 c1 = t e1 c1.
Proof.
  intros. unfold CsmModel.insert_availability. destruct ((e1 =? e) && (c1 =? c)) eqn:Q; [|reflexivity].
  apply andb_true_iff in Q. destruct Q as (Q&_). apply Z.eqb_eq in Q. congruence.
Qed.
Lemma core_db_of : forall s1 t s2, CsmProofs.core s1 = CsmProofs.core (CsmModel.set_s_db t s2) -> CsmModel.s_db s1 = t.
Proof. unfold CsmProofs.core. intros s1 t s2 E. inversion E. reflexivity. Qed.
Lemma set_conn_frame : forall con s e c v p db s1 outs r k, csm_coh con s -> CsmModel.set_conn e c v p db s = (s1, outs, r) ->
  (p = true -> e <> k) -> csm_coh con s1 /\ (forall c1, CsmModel.s_db s1 k c1 = CsmModel.s_db s k c1).
Proof.
  intros con s e c v p db s1 outs r k A H T. destruct (CsmProofs3.set_conn_core _ _ _ _ _ _ _ _ _ H) as [(_&_&_&E&_)|(_&_&E)].
  - subst s1. auto.
  - split; [eapply core_coh; [exact E|exact A]|]. intros c1. rewrite (core_db_of _ _ _ E).
    destruct p; [|reflexivity]. destruct db; [|reflexivity]. cbn [andb]. apply insert_other. intros X. apply T; congruence.
Qed.
Lemma step_frame : forall con s o s1 outs r k, av_op o = true -> csm_coh con s -> CsmModel.step s o = (s1, outs, r) -> touched o <> Some k ->
  csm_coh con s1 /\ (forall c, CsmModel.s_db s1 k c = CsmModel.s_db s k c).
Proof.
  intros con s o s1 outs r k AV A H T. assert (U : CsmModel.s_up s = true) by apply A.
  destruct o; try discriminate; cbn [CsmModel.step] in H; rewrite U in H; cbn [negb] in H.
  - destruct (CsmProofs3.set_cs_core _ _ _ _ _ _ _ H) as (_&E). split; [eapply core_coh; [exact E|exact A]|].
    intros c. rewrite (core_db_of _ _ _ E). destruct persist; [|reflexivity]. destruct db; [|reflexivity]. cbn [andb].
    apply insert_other. cbn in T. congruence.
  - destruct (CsmProofs3.set_evse_core _ _ _ _ _ _ _ _ _ H) as [(_&_&E&_)|(_&E&_)]; [subst s1; auto|].
    split; [eapply core_coh; [exact E|exact A]|]. intros c. rewrite (core_db_of _ _ _ E).
    destruct persist; [|reflexivity]. cbn [andb]. destruct (db1 || db2); [|reflexivity].
    apply insert_other. cbn in T. congruence.
  - eapply set_conn_frame; [exact A|exact H|]. intros ->. cbn in T. congruence.
  - unfold CsmModel.restore_conn in H. destruct (CsmModel.get_conn_persisted s e c) as [[] v] eqn:G; try (inversion H; subst; auto; fail).
    eapply set_conn_frame; [exact A|exact H|discriminate].
Qed.

(** ** What does not touch slot [k] *)
Definition keep (k : Z) (w w1 : world) : Prop :=
  coh w -> coh w1 /\ w_con w1 = w_con w /\ map_get k (w_sched w1) = map_get k (w_sched w) /\
           forall c, CsmModel.s_db (w_csm w1) k c = CsmModel.s_db (w_csm w) k c.
Lemma keep_refl : forall k w, keep k w w.
Proof. intros k w H. auto. Qed.
Lemma keep_trans : forall k a b c, keep k a b -> keep k b c -> keep k a c.
Proof.
  intros k a b c A B H. destruct (A H) as (A1&A2&A3&A4). destruct (B A1) as (B1&B2&B3&B4).
  ands; try congruence.
Qed.
Definition keeps (k : Z) : (world -> world) -> Prop := respects (keep k).
Lemma keeps_seq : forall k f g, keeps k f -> keeps k g -> keeps k (f ;; g).
Proof. intros k. apply respects_seq. apply keep_trans. Qed.
Lemma keeps_skip : forall k, keeps k skip.
Proof. intros k. apply respects_skip. apply keep_refl. Qed.
Lemma keeps_foreach : forall k A (l : list A) f, (forall x, In x l -> keeps k (f x)) -> keeps k (foreach l f).
Proof. intros k. apply respects_foreach; [apply keep_refl|apply keep_trans]. Qed.
Lemma keeps_if : forall k (b : bool) f g, keeps k f -> keeps k g -> keeps k (if b then f else g).
Proof. intros k [] f g F G; assumption. Qed.
Ltac kseq := match goal with |- keep ?k ?w ((?f ;; ?g) ?w) => apply (keeps_seq k f g) end; [| |assumption].
(** Functions that do not deal with availability. *)
Definition off (w w1 : world) : Prop := w_con w1 = w_con w /\ w_csm w1 = w_csm w /\ w_sched w1 = w_sched w.
Lemma off_keep : forall k w w1, off w w1 -> keep k w w1.
Proof. intros k w w1 (A&B&C) (H1&H2&H3). rewrite B, C, A. ands; auto. unfold coh. rewrite A, B, C. auto. Qed.
Lemma off_refl : forall w, off w w.
Proof. intros w. unfold off. auto. Qed.
Lemma off_trans : forall a b c, off a b -> off b c -> off a c.
Proof. unfold off. intros a b c (A1&A2&A3) (B1&B2&B3). ands; congruence. Qed.
Notation offly := (respects off).
Lemma offly_seq : forall f g, offly f -> offly g -> offly (f ;; g).
Proof. apply respects_seq. apply off_trans. Qed.
Lemma offly_skip : offly skip.
Proof. apply respects_skip. apply off_refl. Qed.
Lemma offly_foreach : forall A (l : list A) f, (forall x, In x l -> offly (f x)) -> offly (foreach l f).
Proof. apply respects_foreach; [apply off_refl|apply off_trans]. Qed.
Lemma offly_if : forall (b : bool) f g, offly f -> offly g -> offly (if b then f else g).
Proof. intros [] f g F G; assumption. Qed.
Lemma offly_keeps : forall k f, offly f -> keeps k f.
Proof. intros k f F w P. apply off_keep. apply F. exact P. Qed.
Lemma off_emit : forall o w, off w (emit o w).
Proof. intros o w. unfold emit, durable. destruct (w_budget w) as [[|n]|]; unfold off; cbn; auto. Qed.
Lemma off_throw : forall w, off w (throw w).
Proof. intros. unfold off. cbn. auto. Qed.
Lemma off_get : forall e w, off w (get_evse e w).
Proof. intros. unfold get_evse. destruct (evse_ok w e); [apply off_refl|apply off_throw]. Qed.
Lemma off_pop : forall w b w1, pop_fail w = (b, w1) -> off w w1 /\ w_prog w1 = w_prog w.
Proof. intros w b w1 H. unfold pop_fail in H. destruct (w_fail w); inversion H; subst; unfold off; cbn; auto. Qed.
Lemma off_statement : forall f w, off w (fst (statement f w)).
Proof.
  intros f w. unfold statement. destruct (pop_fail w) as [b w1] eqn:E. destruct (off_pop _ _ _ E) as (O&_).
  destruct b; [exact O|]. destruct (f (w_rows w1)); [|exact O]. cbn [fst]. eapply off_trans; [exact O|].
  unfold durable. destruct (w_budget w1) as [[|n]|]; unfold off; cbn; auto.
Qed.
Lemma off_tget : forall e w r w1, transaction_get e w = (r, w1) -> off w w1.
Proof. intros e w r w1 H. unfold transaction_get in H. destruct (pop_fail w) as [b w2] eqn:E. inversion H; subst. eapply off_pop; eauto. Qed.
Lemma off_delete : forall e w, off w (delete_database_transaction e w).
Proof.
  intros e w. unfold delete_database_transaction. destruct (transaction_get e w) as [[r|] w1] eqn:E; apply off_tget in E; [|exact E].
  eapply off_trans; [exact E|apply off_statement].
Qed.
Lemma off_put : forall e v w, off w (put_tx e v w).
Proof. intros. unfold off. cbn. auto. Qed.
Lemma off_seqno : forall e w, off w (get_seq_no e w).
Proof.
  intros e w. unfold get_seq_no. destruct (w_tx w e); [|apply off_refl]. cbv zeta.
  match goal with |- context [put_tx e ?v w] => pose proof (off_put e v w) as Q end.
  destruct (t_db t); [|exact Q]. eapply off_trans; [exact Q|apply off_statement].
Qed.
Lemma off_settok : forall e w, off w (set_id_token_sent e w).
Proof.
  intros e w. unfold set_id_token_sent. destruct (w_tx w e); [|apply off_refl]. cbv zeta.
  match goal with |- context [put_tx e ?v w] => pose proof (off_put e v w) as Q end.
  destruct (t_db t); [|exact Q]. eapply off_trans; [exact Q|apply off_statement].
Qed.
Lemma off_req : forall v, offly (transaction_event_req v).
Proof.
  intros v w P. unfold transaction_event_req.
  assert (X : forall a b w1, w_prog w1 = Running -> off w1 ((emit a ;; (if w_txcb w then emit b else skip)) w1)).
  { intros a b w1 P1. match goal with |- off _ ((?f ;; ?g) _) => apply (offly_seq f g) end; [intros x _; apply off_emit| |exact P1].
    apply offly_if; [intros x _; apply off_emit|apply offly_skip]. }
  destruct (find _ _) as [p|]; [|apply X; exact P]. refine (off_trans _ _ _ _ (X _ _ _ _)); [|exact P]. unfold off. cbn. auto.
Qed.
Lemma off_send : forall e k tr ev tok, offly (send_event e k tr ev tok).
Proof.
  intros e k tr ev tok w P. unfold send_event. destruct (w_tx w e); [|apply off_refl].
  match goal with |- off _ ((?f ;; ?g) _) => apply (offly_seq f g) end; [intros x _; apply off_seqno|apply off_req|exact P].
Qed.
Lemma off_open : forall e c id tok cs, offly (open_transaction e c id tok cs).
Proof.
  intros e c id tok cs w P. unfold open_transaction. destruct (negb (has_connector w e c)); [apply off_throw|]. cbv zeta.
  set (t := Tx _ _ _ _ _ _ _ _ _). destruct (w_resume w); [|apply off_put].
  unfold insert_tx. pose proof (off_statement (insert_row (row_of_tx e t)) (put_tx e (Some t) w)) as O.
  pose proof (statement_fine (insert_row (row_of_tx e t)) (put_tx e (Some t) w) P) as FI.
  assert (PR : forall f v, snd (statement f v) = false -> w_prog (fst (statement f v)) = w_prog v).
  { intros f v. unfold statement. destruct (pop_fail v) as [b v1] eqn:E. destruct (off_pop _ _ _ E) as (_&Q).
    destruct b; [intros _; exact Q|]. destruct (f (w_rows v1)); cbn; [discriminate|intros _; exact Q]. }
  specialize (PR (insert_row (row_of_tx e t)) (put_tx e (Some t) w)).
  destruct (statement _ _) as [w2 []]; cbn [fst snd] in *; [exact (off_trans _ _ _ (off_put e (Some t) w) O)|].
  refine (off_trans _ _ _ (off_put e (Some t) w) _). refine (off_trans _ _ _ O _).
  match goal with |- off _ ((?f ;; ?g) _) => apply (offly_seq f g) end; [intros x _; apply off_delete| |rewrite (PR eq_refl); exact P].
  intros x _. pose proof (off_statement (insert_row (row_of_tx e t)) x) as O3. destruct (statement _ x) as [w4 []]; cbn [fst] in *; [exact O3|].
  refine (off_trans _ _ _ O3 _). apply off_throw.
Qed.
Lemma off_release : forall e, offly (release_transaction e).
Proof.
  intros e w P. unfold release_transaction. destruct (w_tx w e); [|apply off_refl].
  destruct (pop_fail w) as [b w1] eqn:E. destruct (off_pop _ _ _ E) as (O&Q). refine (off_trans _ _ _ O _).
  match goal with |- off _ ((?f ;; ?g) _) => apply (offly_seq f g) end; [| |congruence].
  - intros x _. destruct b; [apply off_refl|apply off_statement].
  - intros x _. apply off_put.
Qed.
Lemma off_charging : forall e cs w, off w (set_charging e cs w).
Proof. intros. unfold set_charging. destruct (w_tx w e); [apply off_put|apply off_refl]. Qed.
Lemma off_remote : forall e cs w, off w (set_remote e cs w).
Proof. intros. unfold set_remote. destruct (w_tx w e); [apply off_put|apply off_refl]. Qed.
Lemma off_close : forall e cs w, off w (close_transaction e cs w).
Proof. intros. unfold close_transaction. destruct (w_tx w e); [apply off_put|apply off_refl]. Qed.
Lemma off_max : forall e w, off w (set_max e w).
Proof. intros. unfold set_max. destruct (w_tx w e); [apply off_put|apply off_refl]. Qed.

(** ** The component state manager *)
Lemma keep_csm : forall k o w, av_op o = true -> touched o <> Some k -> keep k w (csm o w).
Proof.
  intros k o w AV T H. unfold csm, durable.
  assert (X : forall v, off w v -> keep k w (let '(s, outs, r) := CsmModel.step (w_csm v) o in
    set_w_prog (match r with CsmModel.Ok => w_prog v | _ => Threw end) (set_w_out (w_out v ++ map OAv outs) (set_w_csm s v)))).
  { intros v O H0. destruct H0 as (A1&A2&A3). destruct O as (O1&O2&O3). rewrite O2.
    destruct (CsmModel.step (w_csm w) o) as [[s outs] r] eqn:E.
    destruct (step_frame (w_con w) (w_csm w) o s outs r k AV A2 E T) as (S1&S2). unfold coh. cbn. rewrite O1, O3. ands; auto. }
  destruct (w_budget w) as [[|n]|].
  - apply off_keep; [|exact H]. unfold off. cbn. auto.
  - apply X; [|exact H]. unfold off. cbn. auto.
  - apply X; [apply off_refl|exact H].
Qed.
Lemma keep_set_cs : forall k v p, (p = true -> k <> 0) -> keeps k (set_cs_operative v p).
Proof.
  intros k v p T w P. unfold set_cs_operative. destruct (pop_fail w) as [b w1] eqn:E. destruct (off_pop _ _ _ E) as (O&_).
  eapply keep_trans; [apply off_keep; exact O|]. apply keep_csm; [reflexivity|]. destruct p; cbn; [|discriminate]. specialize (T eq_refl). congruence.
Qed.
Lemma keep_set_evse : forall k e v p, (p = true -> k <> e) -> keeps k (set_evse_operative e v p).
Proof.
  intros k e v p T. apply keeps_seq; [intros w P; apply off_keep; apply off_get|]. intros w P.
  destruct (pop_fail w) as [b w1] eqn:E. destruct (off_pop _ _ _ E) as (O&_). destruct (pop_fail w1) as [b2 w2] eqn:E2. destruct (off_pop _ _ _ E2) as (O2&_).
  eapply keep_trans; [apply off_keep; exact O|]. eapply keep_trans; [apply off_keep; exact O2|].
  apply keep_csm; [reflexivity|]. destruct p; cbn; [|discriminate]. specialize (T eq_refl). congruence.
Qed.
Lemma keep_set_conn : forall k e c v p, (p = true -> k <> e) -> keeps k (set_conn_operative e c v p).
Proof.
  intros k e c v p T. apply keeps_seq; [intros w P; apply off_keep; apply off_get|]. intros w P.
  destruct (negb (has_connector w e c)); [apply off_keep; apply off_throw|].
  destruct (pop_fail w) as [b w1] eqn:E. destruct (off_pop _ _ _ E) as (O&_). eapply keep_trans; [apply off_keep; exact O|].
  apply keep_csm; [reflexivity|]. destruct p; cbn; [|discriminate]. specialize (T eq_refl). congruence.
Qed.
Lemma keep_connectors : forall k e, keeps k (connectors_unavailable e).
Proof.
  intros k e w P. unfold connectors_unavailable.
  match goal with |- keep k w (foreach ?l ?f w) => apply (keeps_foreach k _ l f); [|exact P] end.
  intros c _. apply keep_set_conn. discriminate.
Qed.
Lemma keep_notify : forall k w, keep k w (notify_all_unavailable w).
Proof. intros. apply off_keep. unfold notify_all_unavailable. destruct (_ && _); [apply off_emit|apply off_refl]. Qed.
Lemma keep_execute : forall k r p, k <> target_key (q_evse r) -> keeps k (execute r p).
Proof.
  intros k r p N w P. unfold execute. destruct (q_evse r) as [[e [c|]]|]; cbn in N.
  - apply keep_set_conn; auto.
  - apply keep_set_evse; auto.
  - apply keep_set_cs; auto.
Qed.
Lemma keep_resched : forall k (f : list (Z * (areq * bool)) -> list (Z * (areq * bool))) w,
  (coh w -> Forall (entry_ok (w_con w)) (f (w_sched w))) -> map_get k (f (w_sched w)) = map_get k (w_sched w) ->
  keep k w (set_w_sched (f (w_sched w)) w).
Proof. intros k f w F G H. unfold coh. cbn. destruct H as (H1&H2&H3). ands; auto. apply F. split; auto. Qed.
Lemma erase_ok : forall con k m, Forall (entry_ok con) m -> Forall (entry_ok con) (map_erase k m).
Proof. intros con k m F. rewrite Forall_forall in *. intros p I. apply filter_In in I. apply F. tauto. Qed.
Lemma put_ok : forall con k v m, Forall (entry_ok con) m -> entry_ok con (k, v) -> Forall (entry_ok con) (map_put k v m).
Proof. intros con k v m F E. rewrite Forall_forall in *. intros p I. apply in_put in I. destruct I as [-> |I]; auto. Qed.
Lemma keep_erase : forall k k1 w, k <> k1 -> keep k w (set_w_sched (map_erase k1 (w_sched w)) w).
Proof.
  intros k k1 w N. apply (keep_resched k (map_erase k1) w).
  - intros (_&_&H). apply erase_ok. exact H.
  - rewrite get_erase. destruct (k =? k1) eqn:E; [apply Z.eqb_eq in E; congruence|reflexivity].
Qed.
Lemma keep_check_target : forall k t w, keep k w (check_target t w).
Proof. intros. apply off_keep. unfold check_target. destruct t as [[e c]|]; [apply off_get|apply off_refl]. Qed.
Lemma keep_scheduled : forall k k1, k <> k1 -> keeps k (handle_scheduled k1).
Proof.
  intros k k1 N w P H. unfold handle_scheduled. destruct (map_get k1 (w_sched w)) as [[r p]|] eqn:G; [|apply keep_refl; exact H].
  assert (EO : entry_ok (w_con w) (k1, (r, p))).
  { destruct H as (_&_&F). rewrite Forall_forall in F. apply F. apply get_in. exact G. }
  destruct EO as (_&K). cbn in K. refine ((_ : keep k w _) H). kseq.
  - intros v _. apply keep_check_target.
  - intros v PV. destruct (affected_active v (q_evse r)); [apply keep_refl|]. kseq.
    + apply keep_execute. congruence.
    + apply keeps_seq; [intros x _; apply keep_erase; exact N|]. intros x _. apply keep_notify.
Qed.
(** A request that has to wait is not executed. *)
Lemma keep_waiting : forall k w r p, map_get k (w_sched w) = Some (r, p) -> exists_target (w_con w) (q_evse r) ->
  affected_active w (q_evse r) = true -> handle_scheduled k w = w.
Proof.
  intros k w r p G E A. unfold handle_scheduled. rewrite G.
  assert (C : check_target (q_evse r) w = w).
  { unfold check_target. destruct (q_evse r) as [[e c]|]; [|reflexivity]. unfold get_evse. rewrite evse_ok_known.
    assert (K : known_evse (w_con w) e) by (destruct c; cbn in E; tauto).
    assert (X : known_evseb (w_con w) e = true) by (unfold known_evse in K; unfold known_evseb; apply andb_true_iff; rewrite !Z.leb_le; lia).
    rewrite X. reflexivity. }
  unfold seqw. rewrite C. destruct (w_prog w); try reflexivity. rewrite A. reflexivity.
Qed.
Lemma keep_finish_reset : forall k e, keeps k (finish_reset e).
Proof.
  intros k e w P. unfold finish_reset. kseq.
  - apply keeps_if; [apply keep_connectors|apply keeps_skip].
  - apply offly_keeps. apply offly_if; [|apply offly_skip]. apply offly_seq; [|intros x _; unfold off; cbn; auto].
    destruct (w_rids w).
    + apply offly_seq; [intros x _; apply off_emit|intros x _; unfold off; cbn; auto].
    + apply offly_seq; [intros x _; apply off_emit|]. apply offly_seq; [intros x _; unfold off; cbn; auto|].
      intros x _. destruct (w_rids x); unfold off; cbn; auto.
Qed.
Lemma keep_reset : forall k ev ty a b, keeps k (handle_reset ev ty a b).
Proof.
  intros k ev ty a b. apply keeps_seq; [apply offly_keeps; destruct ev; [intros x _; apply off_get|apply offly_skip]|].
  intros w P. cbv zeta. kseq.
  - apply offly_keeps. apply offly_if; [|apply offly_skip]. intros x _. destruct ev; unfold off; cbn; auto.
  - apply keeps_seq; [apply offly_keeps; intros x _; apply off_emit|]. apply keeps_seq.
    + apply keeps_if; [|apply keeps_skip]. destruct ty; apply keeps_foreach; intros x _;
        [apply offly_keeps; intros y _; apply off_emit|apply keep_connectors].
    + apply offly_keeps. apply offly_if; [intros x _; apply off_emit|apply offly_skip].
Qed.
Lemma keep_change_valid : forall k r w, k <> target_key (q_evse r) -> exists_target (w_con w) (q_evse r) -> w_prog w = Running ->
  keep k w (change_availability_valid r w).
Proof.
  intros k r w N ET P. unfold change_availability_valid. set (act := affected_active w (q_evse r)). cbv zeta.
  set (now := _ || _). set (w1 := set_w_sched (if now then map_erase (target_key (q_evse r)) (w_sched w) else map_put (target_key (q_evse r)) (r, true) (w_sched w)) w).
  assert (K1 : keep k w w1).
  { apply (keep_resched k (fun m => if now then map_erase (target_key (q_evse r)) m else map_put (target_key (q_evse r)) (r, true) m)).
    - intros (_&_&F). destruct now; [apply erase_ok; exact F|]. apply put_ok; [exact F|]. split; [exact ET|reflexivity].
    - destruct now; [rewrite get_erase|rewrite get_put]; (destruct (k =? _) eqn:E; [apply Z.eqb_eq in E; congruence|reflexivity]). }
  rewrite seqw_run by exact P. refine (keep_trans _ _ _ _ K1 _). fold w1.
  assert (P1 : w_prog w1 = Running) by exact P. revert P1. generalize w1. clear - N. intros w1 P1.
  kseq; [apply offly_keeps; intros x _; apply off_emit|]. intros v PV.
  destruct (negb act); [apply keep_execute; [exact N|exact PV]|]. destruct now; [apply keep_refl|]. destruct (_ =? 0).
  - match goal with |- keep k v (foreach ?l ?f v) => apply (keeps_foreach k _ l f); [|exact PV] end.
    intros e _ x PX. destruct (active x e); [apply keep_refl|]. apply keep_set_evse; [discriminate|exact PX].
  - kseq; [intros x _; apply off_keep; apply off_get|]. intros x PX.
    match goal with |- keep k x (foreach ?l ?f x) => apply (keeps_foreach k _ l f); [|exact PX] end.
    intros c _ y PY. destruct (active_on y _ c); [apply keep_refl|]. apply keep_set_conn; [discriminate|exact PY].
Qed.
Lemma coh_checks : forall w e c, coh w -> w_prog w = Running ->
  w_prog ((check_target (Some (e, c)) ;; check_state (Some (e, c))) w) = Running ->
  exists_target (w_con w) (Some (e, c)) /\ (check_target (Some (e, c)) ;; check_state (Some (e, c))) w = w.
Proof.
  intros w e c (H1&(U&NE&NC)&_) P. unfold seqw, check_target, get_evse. rewrite evse_ok_known.
  destruct (known_evseb (w_con w) e) eqn:K; [|cbn; discriminate]. rewrite P.
  assert (KE : known_evse (w_con w) e) by (unfold known_evseb in K; unfold known_evse; apply andb_true_iff in K; rewrite !Z.leb_le in K; lia).
  unfold check_state. destruct c as [c|].
  - destruct (CsmModel.check_conn (w_csm w) e c) eqn:CC; try (cbn; discriminate). intros _. split; [|reflexivity].
    apply CsmProofs2.check_conn_ok in CC. destruct CC as (_&CC). rewrite (NC e KE) in CC. split; [exact KE|exact CC].
  - destruct (CsmModel.check_evse (w_csm w) e); [|cbn; discriminate]. intros _. split; [exact KE|reflexivity].
Qed.
Lemma keep_change : forall k r w, w_prog w = Running -> (exists_target (w_con w) (q_evse r) -> k <> target_key (q_evse r)) ->
  keep k w (handle_change_availability r w).
Proof.
  intros k r w P N H. unfold handle_change_availability. destruct (q_evse r) as [[e c]|] eqn:E.
  2:{ apply keep_change_valid; auto; rewrite E; auto; try exact I. apply N. exact I. }
  destruct (_ && _); [apply off_keep; [apply off_throw|exact H]|].
  destruct (negb _); [apply off_keep; [apply off_emit|exact H]|].
  rewrite seq_assoc. pose proof (coh_checks w e c H P) as C. refine ((_ : keep k w _) H). unfold seqw at 1.
  destruct (w_prog ((check_target (Some (e, c));; check_state (Some (e, c))) w)) eqn:Q.
  - destruct (C eq_refl) as (ET&->). apply keep_change_valid; auto; rewrite E; auto.
  - assert (O : offly (check_target (Some (e, c)) ;; check_state (Some (e, c)))).
    { apply offly_seq; [intros x _; apply off_get|]. intros x _. unfold check_state. destruct c.
      - destruct (CsmModel.check_conn _ _ _); solve [apply off_refl|apply off_throw].
      - destruct (CsmModel.check_evse _ _); solve [apply off_refl|apply off_throw]. }
    apply off_keep. apply O; exact P.
  - assert (O : offly (check_target (Some (e, c)) ;; check_state (Some (e, c)))).
    { apply offly_seq; [intros x _; apply off_get|]. intros x _. unfold check_state. destruct c.
      - destruct (CsmModel.check_conn _ _ _); solve [apply off_refl|apply off_throw].
      - destruct (CsmModel.check_evse _ _); solve [apply off_refl|apply off_throw]. }
    apply off_keep. apply O; exact P.
Qed.
