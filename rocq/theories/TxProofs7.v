(** Availability: coherence of all stations, and histories. *)
From Coq Require Import ZArith List Bool Lia.
From Verif Require Import TxModel TxSpec TxProofs TxProofs2 TxProofs4 TxProofs5 TxProofs6.
From Verif Require CsmModel CsmSpec CsmProofs CsmProofs2 CsmProofs3.
Import ListNotations.
Local Open Scope Z_scope.
Import CsmModel (opstat, Operative, Inoperative).
Notation offly := (respects off).

Lemma knownb : forall con e, known_evseb con e = true <-> known_evse con e.
Proof. intros. unfold known_evseb, known_evse. rewrite andb_true_iff, !Z.leb_le. reflexivity. Qed.
Lemma in_evses : forall w e, In e (evses w) <-> known_evse (w_con w) e.
Proof. intros w e. unfold evses. rewrite CsmProofs.in_ids. reflexivity. Qed.

Lemma keep_firmware : forall k w, w_prog w = Running -> ~ known_evse (w_con w) k -> keep k w (firmware_unavailable w).
Proof.
  intros k w P N. unfold firmware_unavailable. destruct (negb (any_active w)).
  - kseq; [|intros x _; apply keep_notify]. apply keeps_foreach. intros e _ v PV. destruct (active v e); [apply keep_refl|].
    apply keep_connectors; exact PV.
  - assert (X : forall l v, (forall e, In e l -> known_evse (w_con w) e) -> w_prog v = Running -> w_con v = w_con w ->
      keep k v (foreach l (fun e w => if active w e
        then set_w_sched (map_put e (Areq (Some (e, None)) Inoperative, false) (w_sched w)) w
        else connectors_unavailable e w) v)).
    { induction l as [|e q IH]; intros v K PV CV; [apply keep_refl|]. cbn [foreach]. unfold seqw.
      set (v1 := (if active v e then _ else _)).
      assert (K1 : keep k v v1).
      { unfold v1. destruct (active v e); [|apply keep_connectors; exact PV].
        apply (keep_resched k (map_put e (Areq (Some (e, None)) Inoperative, false)) v).
        - intros (_&_&F). apply put_ok; [exact F|]. split; [|reflexivity]. cbn. rewrite CV. apply K. left. reflexivity.
        - rewrite get_put. destruct (k =? e) eqn:Q; [|reflexivity]. apply Z.eqb_eq in Q. subst. exfalso. apply N. apply K. left. reflexivity. }
      assert (C1 : w_con v1 = w_con w).
      { unfold v1. destruct (active v e); [exact CV|]. pose proof (connectors_quiet e v PV) as ((_&_&C&_)&_). congruence. }
      cbv zeta. destruct (w_prog v1) eqn:Q; try exact K1. refine (keep_trans _ _ _ _ K1 _). apply IH; auto.
      intros e1 I. apply K. right. exact I. }
    apply X; auto. intros e I. apply in_evses. exact I.
Qed.
Lemma keep_restore : forall k, keeps k restore_all.
Proof.
  intros k w P. unfold restore_all.
  match goal with |- keep k w (foreach ?l ?f w) => apply (keeps_foreach k _ l f); [|exact P] end. intros e _ v PV.
  match goal with |- keep k v (foreach ?l ?f v) => apply (keeps_foreach k _ l f); [|exact PV] end.
  intros c _ x _. apply keep_csm; [reflexivity|discriminate].
Qed.
Lemma off_started : forall e c id tr tok rid cs, offly (on_started e c id tr tok rid cs).
Proof.
  intros. apply offly_seq; [intros x _; apply off_get|]. apply offly_seq; [apply off_open|].
  apply offly_seq; [intros x _; apply off_remote|apply off_send].
Qed.
Definition ending (e reason : Z) (tr : trig) (tok : option Z) (cs : Z) : world -> world :=
  (((set_charging e cs ;; close_transaction e reason) ;;
    send_event e Ended tr None (match tr with StopAuthorized => tok | _ => None end)) ;; release_transaction e) ;; finish_reset e.
Lemma finished_eq : forall e reason tr tok cs w, w_prog w = Running ->
  on_finished e reason tr tok cs w =
    if known_evseb (w_con w) e then
      if active w e then ((ending e reason tr tok cs ;; handle_scheduled e) ;; handle_scheduled 0) w else w
    else throw w.
Proof.
  intros e reason tr tok cs w P. unfold on_finished. unfold get_evse. unfold seqw at 1. rewrite evse_ok_known.
  destruct (known_evseb (w_con w) e); [|reflexivity]. rewrite P. destruct (active w e); [|reflexivity]. cbn [negb].
  unfold ending. rewrite !seq_assoc. reflexivity.
Qed.
Lemma keep_ending : forall k e reason tr tok cs, keeps k (ending e reason tr tok cs).
Proof.
  intros. unfold ending. apply keeps_seq; [|apply keep_finish_reset]. apply offly_keeps.
  apply offly_seq; [|apply off_release]. apply offly_seq; [|apply off_send].
  apply offly_seq; [intros x _; apply off_charging|intros x _; apply off_close].
Qed.
Definition spares (k : Z) (con : list Z) (o : op) : Prop :=
  match o with
  | OFinish e _ _ _ _ => k <> e /\ k <> 0
  | OAvail r => exists_target con (q_evse r) -> k <> target_key (q_evse r)
  | OFirmware => ~ known_evse con k
  | ORestart => False
  | _ => True
  end.
Lemma keep_exec : forall k o w, w_prog w = Running -> spares k (w_con w) o -> keep k w (exec o w).
Proof.
  intros k o w P S. destruct o; cbn [exec] in *; cbn [spares] in S.
  - apply off_keep. apply off_started. exact P.
  - rewrite finished_eq by exact P. destruct (known_evseb (w_con w) e); [|apply off_keep; apply off_throw].
    destruct (active w e); [|apply keep_refl]. destruct S. kseq; [|apply keep_scheduled; assumption].
    apply keeps_seq; [apply keep_ending|apply keep_scheduled; assumption].
  - apply off_keep. unfold on_authorized. match goal with |- off _ ((?f ;; ?g) _) => apply (offly_seq f g) end; [intros x _; apply off_get| |exact P].
    intros x PX. destruct (w_tx x e); [|apply off_refl]. destruct (t_tok t); [apply off_refl|].
    match goal with |- off _ ((?f ;; ?g) _) => apply (offly_seq f g) end; [intros y _; apply off_settok|apply off_send|exact PX].
  - apply off_keep. unfold on_charging. match goal with |- off _ ((?f ;; ?g) _) => apply (offly_seq f g) end; [intros x _; apply off_get| |exact P].
    intros x PX. destruct (w_tx x e); [|apply off_refl]. destruct (t_cs t =? cs); [apply off_refl|].
    match goal with |- off _ ((?f ;; ?g) _) => apply (offly_seq f g) end; [intros y _; apply off_charging|apply off_send|exact PX].
  - apply off_keep. unfold on_meter_timer. destruct (w_tx w e); [apply off_send; exact P|apply off_refl].
  - apply off_keep. unfold trigger_event. match goal with |- off _ ((?f ;; ?g) _) => apply (offly_seq f g) end; [| |exact P].
    + intros x _. destruct e; [apply off_get|apply off_refl].
    + intros x PX. cbv zeta. match goal with |- off _ ((?f ;; ?g) _) => apply (offly_seq f g) end; [intros y _; apply off_emit| |exact PX].
      apply offly_if; [|apply offly_skip]. apply offly_foreach. intros y _. apply off_send.
  - apply keep_reset. exact P.
  - apply keep_change; assumption.
  - apply keep_firmware; assumption.
  - apply keep_restore. exact P.
  - apply off_keep. unfold off. cbn. auto.
  - apply off_keep. unfold on_response. destruct (v_kind v), info as [[]|], (v_tok v); try apply off_refl;
      (destruct (transaction_evseid w (v_id v)); [|apply off_refl]; destruct stop; [apply off_emit|]; destruct maxe; [apply off_max|apply off_emit]).
  - apply off_keep. apply off_emit.
  - apply off_keep. unfold off. cbn. auto.
  - contradiction.
Qed.

(** ** All stations are coherent *)
Lemma lookup_combine : forall con n e, 1 <= e <= Z.of_nat (length con) ->
  CsmModel.lookup_structure (combine (map Z.of_nat (seq n (length con))) con) (Z.of_nat n + e - 1) = Some (nth (Z.to_nat (e - 1)) con 0).
Proof.
  induction con as [|a q IH]; intros n e R; [cbn in R; lia|]. cbn [length seq map combine].
  unfold CsmModel.lookup_structure. cbn [find fst].
  destruct (Z.of_nat n =? Z.of_nat n + e - 1) eqn:E.
  - apply Z.eqb_eq in E. replace e with 1 by lia. reflexivity.
  - apply Z.eqb_neq in E. cbn [length] in R. specialize (IH (S n) (e - 1)). unfold CsmModel.lookup_structure in IH.
    replace (Z.of_nat n + e - 1) with (Z.of_nat (S n) + (e - 1) - 1) by lia. rewrite IH by lia.
    replace (Z.to_nat (e - 1)) with (S (Z.to_nat (e - 1 - 1))) by lia. reflexivity.
Qed.
Lemma structure_lookup : forall w e, known_evse (w_con w) e ->
  CsmModel.lookup_structure (structure w) e = Some (nth (Z.to_nat (e - 1)) (w_con w) 0).
Proof.
  intros w e K. unfold structure, evses, CsmModel.ids, nev. rewrite Nat2Z.id.
  pose proof (lookup_combine (w_con w) 1 e K) as L. replace (Z.of_nat 1 + e - 1) with e in L by lia. exact L.
Qed.
Lemma structure_length : forall w, length (structure w) = length (w_con w).
Proof.
  intros w. unfold structure, evses, CsmModel.ids, nev. rewrite Nat2Z.id, combine_length, map_length, seq_length. lia.
Qed.
Lemma boot_csm : forall w, Forall (fun n => 0 <= n) (w_con w) -> forall t, csm_coh (w_con w) (fst (CsmModel.boot (structure w) t)).
Proof.
  intros w F t. destruct (CsmModel.boot (structure w) t) as [s r] eqn:E. cbn [fst].
  destruct (CsmProofs2.boot_spec _ _ _ _ E) as (_&_&RO&_&U&_&_&_&_&_&N&_&_&H).
  rewrite structure_length in *.
  assert (R : r = CsmModel.Ok). { apply RO. intros e K. rewrite structure_lookup by exact K. discriminate. }
  subst r. split; [exact U|]. split; [exact N|]. intros e K. destruct (H eq_refl e) as ((n&L&NC)&_).
  { unfold CsmSpec.has_evse. rewrite N. exact K. }
  rewrite structure_lookup in L by exact K. inversion L; subst n. rewrite NC.
  assert (P : 0 <= nth (Z.to_nat (e - 1)) (w_con w) 0).
  { rewrite Forall_forall in F. apply F. apply nth_In. unfold known_evse in K. lia. }
  lia.
Qed.
Lemma off_construct : forall e w, off w (construct_evse e w).
Proof.
  intros e w. unfold construct_evse. destruct (w_resume w); [|apply off_delete].
  unfold try_resume_transaction. destruct (transaction_get e w) as [[r|] w1] eqn:G; apply off_tget in G; [|exact G].
  refine (off_trans _ _ _ G _). destruct (has_connector w1 e (r_conn r)); [apply off_put|apply off_statement].
Qed.
Lemma boot_coh : forall w, Forall (fun n => 0 <= n) (w_con w) -> coh (boot w) /\ w_con (boot w) = w_con w.
Proof.
  intros w F. unfold boot. match goal with |- context [foreach ?l construct_evse ?x] => assert (O : off x (foreach l construct_evse x)) end.
  { apply (offly_foreach _ _ construct_evse); [|reflexivity]. intros x _ v _. apply off_construct. }
  destruct O as (O1&O2&O3). unfold coh. rewrite O1, O2, O3. cbn. ands; auto. exact (boot_csm w F _).
Qed.
Lemma exec_coh : forall o w, w_prog w = Running -> coh w -> coh (exec o w) /\ w_con (exec o w) = w_con w.
Proof.
  intros o w P H. assert (D : is_restart o = true \/ exists k, spares k (w_con w) o).
  { destruct o; try (right; exists 0; exact I).
    - right. exists (if e =? -1 then -2 else -1). cbn. destruct (e =? -1) eqn:E; [apply Z.eqb_eq in E|apply Z.eqb_neq in E]; lia.
    - right. exists (if target_key (q_evse r) =? -1 then -2 else -1). cbn. destruct (_ =? -1) eqn:E; [apply Z.eqb_eq in E|apply Z.eqb_neq in E]; lia.
    - right. exists (-1). cbn. unfold known_evse. lia.
    - left. reflexivity. }
  destruct D as [R|(k&S)].
  - destruct o; try discriminate. apply boot_coh. apply H.
  - destruct (keep_exec k o w P S H) as (A&B&_). auto.
Qed.
Lemma step_coh : forall k w, coh w -> coh (step w k) /\ w_con (step w k) = w_con w.
Proof.
  intros k w H. unfold step. cbv zeta. set (w0 := set_w_prog Running (set_w_budget (c_crash k) (set_w_fail (c_fail k) w))).
  assert (H0 : coh w0) by exact H. destruct (exec_coh (c_op k) w0 eq_refl H0) as (A&B).
  destruct (w_prog (exec (c_op k) w0)); try (split; [exact A|exact B]).
  destruct (boot_coh (set_w_budget None (set_w_fail [] (exec (c_op k) w0)))) as (C&D); [apply A|].
  split; [exact C|]. rewrite D. exact B.
Qed.
Lemma run_coh : forall h w, coh w -> coh (run w h) /\ w_con (run w h) = w_con w.
Proof.
  induction h as [|k q IH]; intros w H; [split; [exact H|reflexivity]|]. change (run w (k :: q)) with (run (step w k) q).
  destruct (step_coh k w H) as (A&B). destruct (IH _ A) as (C&D). split; [exact C|congruence].
Qed.
Lemma reachable_coh : forall w, reachable w -> coh w.
Proof.
  intros w (con&resume&txcb&allcb&h&F&->). apply run_coh. apply boot_coh. exact F.
Qed.

(** ** Setting a status *)
Definition ready (w : world) : Prop := coh w /\ w_budget w = None /\ w_fail w = [] /\ w_prog w = Running.
Definition idx (t : option (Z * option Z)) : Z * Z := match t with None => (0, 0) | Some (e, None) => (e, 0) | Some (e, Some c) => (e, c) end.
Lemma stored_idx : forall s t, stored s t = CsmModel.s_db s (fst (idx t)) (snd (idx t)).
Proof. intros s [[e [c|]]|]; reflexivity. Qed.
Definition wellset (t : option (Z * option Z)) (v : opstat) (p : bool) (w w1 : world) : Prop :=
  ready w1 /\ w_con w1 = w_con w /\ w_tx w1 = w_tx w /\ w_sched w1 = w_sched w /\
  status_of (w_csm w1) t = v /\ (forall t1, t1 <> t -> status_of (w_csm w1) t1 = status_of (w_csm w) t1) /\
  (p = true -> stored (w_csm w1) t = Some v) /\ vis [] w w1.
Lemma core_status : forall s s1 t, CsmProofs.core s1 = CsmProofs.core s -> status_of s1 t = status_of s t /\ stored s1 t = stored s t.
Proof. unfold CsmProofs.core. intros s s1 t E. inversion E. destruct t as [[e [c|]]|]; cbn; split; congruence. Qed.
Lemma pop_none : forall w, w_fail w = [] -> pop_fail w = (false, w).
Proof. intros w E. unfold pop_fail. rewrite E. reflexivity. Qed.
Lemma insert_same : forall e c v t, CsmModel.insert_availability e c v true t e c = Some v.
Proof. intros. unfold CsmModel.insert_availability. rewrite !Z.eqb_refl. reflexivity. Qed.
Lemma csm_set : forall o t v p w s outs, ready w -> av_op o = true -> CsmModel.step (w_csm w) o = (s, outs, CsmModel.Ok) ->
  status_of s t = v -> (forall t1, t1 <> t -> status_of s t1 = status_of (w_csm w) t1) -> (p = true -> stored s t = Some v) ->
  wellset t v p w (csm o w).
Proof.
  intros o t v p w s outs (H&B&F&P) AV E S1 S2 S3.
  assert (C : coh (csm o w)).
  { assert (X : exists k, touched o <> Some k).
    { destruct (touched o) as [z|]; [exists (z + 1); intros Q; inversion Q; lia|exists 0; discriminate]. }
    destruct X as (k&X). apply (keep_csm k o w AV X H). }
  pose proof (vis_csm o w) as V. revert C V. unfold csm, durable. rewrite B, E. intros C V. split; [split; [exact C|]; cbn; auto|].
  cbn. ands; auto.
Qed.
Lemma fupd_eq : forall A (f : Z -> A) i v, CsmModel.fupd f i v i = v.
Proof. intros. unfold CsmModel.fupd. rewrite Z.eqb_refl. reflexivity. Qed.
Lemma fupd_ne : forall A (f : Z -> A) i v j, j <> i -> CsmModel.fupd f i v j = f j.
Proof. intros. unfold CsmModel.fupd. destruct (j =? i) eqn:E; [apply Z.eqb_eq in E; congruence|reflexivity]. Qed.
Lemma set_cs_go : forall v p w, ready w -> wellset None v p w (set_cs_operative v p w).
Proof.
  intros v p w R. unfold set_cs_operative. rewrite pop_none by apply R. cbn [negb].
  destruct (CsmModel.step (w_csm w) (CsmModel.SetCs v p true)) as [[s outs] r] eqn:E.
  assert (U : CsmModel.s_up (w_csm w) = true) by apply R.
  pose proof E as E1. cbn [CsmModel.step] in E1. rewrite U in E1. cbn [negb] in E1.
  destruct (CsmProofs3.set_cs_core _ _ _ _ _ _ _ E1) as (-> & C).
  eapply csm_set; [exact R|reflexivity|exact E| | |].
  - destruct (core_status _ _ None C) as (X&_). rewrite X. reflexivity.
  - intros t1 N. destruct (core_status _ _ t1 C) as (X&_). rewrite X. destruct t1 as [[e [c|]]|]; try reflexivity. congruence.
  - intros ->. destruct (core_status _ _ None C) as (_&X). rewrite X. reflexivity.
Qed.
Lemma set_evse_go : forall e v p w, ready w -> known_evse (w_con w) e -> wellset (Some (e, None)) v p w (set_evse_operative e v p w).
Proof.
  intros e v p w R K. unfold set_evse_operative, get_evse. unfold seqw at 1. rewrite evse_ok_known, (proj2 (knownb _ _) K).
  rewrite (proj2 (proj2 (proj2 R))). rewrite pop_none by apply R. rewrite pop_none by apply R. cbn [negb].
  destruct (CsmModel.step (w_csm w) (CsmModel.SetEvse e v p true true)) as [[s outs] r] eqn:E.
  assert (U : CsmModel.s_up (w_csm w) = true) by apply R.
  pose proof E as E1. cbn [CsmModel.step] in E1. rewrite U in E1. cbn [negb] in E1.
  destruct (CsmProofs3.set_evse_core _ _ _ _ _ _ _ _ _ E1) as [(_&N&_)|(_&C&RR)].
  { exfalso. apply N. unfold CsmSpec.has_evse. destruct R as ((_&(_&NE&_)&_)&_). rewrite NE. exact K. }
  rewrite andb_false_r in RR. subst r. cbn [orb] in C. rewrite andb_true_r in C.
  eapply csm_set; [exact R|reflexivity|exact E| | |].
  - destruct (core_status _ _ (Some (e, None)) C) as (X&_). rewrite X. cbn. apply fupd_eq.
  - intros t1 N. destruct (core_status _ _ t1 C) as (X&_). rewrite X. destruct t1 as [[e1 [c|]]|]; try reflexivity.
    cbn. apply fupd_ne. congruence.
  - intros ->. destruct (core_status _ _ (Some (e, None)) C) as (_&X). rewrite X. cbn. apply insert_same.
Qed.
Lemma set_conn_go : forall e c v p w, ready w -> known_evse (w_con w) e -> known_connector (w_con w) e c ->
  wellset (Some (e, Some c)) v p w (set_conn_operative e c v p w).
Proof.
  intros e c v p w R K KC. unfold set_conn_operative, get_evse. unfold seqw at 1. rewrite evse_ok_known, (proj2 (knownb _ _) K).
  rewrite (proj2 (proj2 (proj2 R))). rewrite has_connector_known.
  assert (KB : known_connectorb (w_con w) e c = true) by (unfold known_connectorb, known_connector in *; rewrite andb_true_iff, !Z.leb_le; exact KC).
  rewrite KB. cbn [negb]. rewrite pop_none by apply R. cbn [negb].
  destruct (CsmModel.step (w_csm w) (CsmModel.SetConn e c v p true)) as [[s outs] r] eqn:E.
  assert (U : CsmModel.s_up (w_csm w) = true) by apply R.
  pose proof E as E1. cbn [CsmModel.step] in E1. rewrite U in E1. cbn [negb] in E1.
  destruct (CsmProofs3.set_conn_core _ _ _ _ _ _ _ _ _ E1) as [(_&_&N&_)|(RR&_&C)].
  { exfalso. apply N. unfold CsmSpec.has_conn, CsmSpec.has_evse. destruct R as ((_&(_&NE&NC)&_)&_). rewrite NE, (NC e K). split; [exact K|exact KC]. }
  subst r. rewrite andb_true_r in C.
  eapply csm_set; [exact R|reflexivity|exact E| | |].
  - destruct (core_status _ _ (Some (e, Some c)) C) as (X&_). rewrite X. cbn. rewrite CsmProofs2.fupd2_same. reflexivity.
  - intros t1 N. destruct (core_status _ _ t1 C) as (X&_). rewrite X. destruct t1 as [[e1 [c1|]]|]; try reflexivity.
    cbn. unfold CsmModel.fupd2. destruct ((e1 =? e) && (c1 =? c)) eqn:Q; [|reflexivity].
    apply andb_true_iff in Q. destruct Q as (Q1&Q2). apply Z.eqb_eq in Q1, Q2. subst. congruence.
  - intros ->. destruct (core_status _ _ (Some (e, Some c)) C) as (_&X). rewrite X. cbn. apply insert_same.
Qed.
Lemma execute_go : forall r p w, ready w -> exists_target (w_con w) (q_evse r) -> wellset (q_evse r) (q_op r) p w (execute r p w).
Proof.
  intros r p w R E. unfold execute. destruct (q_evse r) as [[e [c|]]|]; cbn in E.
  - apply set_conn_go; tauto.
  - apply set_evse_go; assumption.
  - apply set_cs_go; assumption.
Qed.
