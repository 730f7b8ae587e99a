(** The contents of TransactionEvent messages. *)
From Coq Require Import ZArith List Bool Lia.
From Verif Require Import TxModel TxSpec TxSpec2 TxProofs TxProofs4 TxProofs5 TxProofs6 TxProofs7 TxProofs8.
From Verif Require CsmModel.
Import ListNotations.
Local Open Scope Z_scope.
Import CsmModel (Operative, Inoperative).

(** ** Maps with sorted keys *)
Fixpoint above {A} (k : Z) (m : list (Z * A)) : Prop :=
  match m with [] => True | (k1, _) :: q => k < k1 /\ above k1 q end.
Definition sorted {A} (m : list (Z * A)) : Prop := match m with [] => True | (k, _) :: q => above k q end.
Lemma above_less : forall A (m : list (Z * A)) j k, j <= k -> above k m -> above j m.
Proof. intros A [|[k1 v] q] j k L H; cbn in *; [exact H|]. intuition lia. Qed.
Lemma above_sorted : forall A (m : list (Z * A)) k, above k m -> sorted m.
Proof. intros A [|[k1 v] q] k H; cbn in *; tauto. Qed.
Lemma above_in : forall A (m : list (Z * A)) k p, above k m -> In p m -> k < fst p.
Proof.
  induction m as [|[k1 v] q IH]; intros k p H I; cbn in *; [contradiction|]. destruct I as [<- |I]; [cbn; lia|].
  destruct H as (L&H). specialize (IH k1 p H I). lia.
Qed.
Lemma above_put : forall A (m : list (Z * A)) k j v, j < k -> above j m -> above j (map_put k v m).
Proof.
  induction m as [|[k1 v1] q IH]; intros k j v L H; cbn in *; [auto|]. destruct H as (L1&H).
  destruct (k <? k1) eqn:E; [apply Z.ltb_lt in E; cbn; auto|]. apply Z.ltb_ge in E.
  destruct (k =? k1) eqn:Q; [apply Z.eqb_eq in Q; subst; cbn; auto|]. apply Z.eqb_neq in Q. cbn. split; [exact L1|]. apply IH; [lia|exact H].
Qed.
Lemma sorted_put : forall A (m : list (Z * A)) k v, sorted m -> sorted (map_put k v m).
Proof.
  intros A [|[k1 v1] q] k v H; [exact I|]. cbn [map_put]. cbn [sorted] in H.
  destruct (k <? k1) eqn:E; [apply Z.ltb_lt in E; cbn; auto|]. apply Z.ltb_ge in E.
  destruct (k =? k1) eqn:Q; [apply Z.eqb_eq in Q; subst; exact H|]. apply Z.eqb_neq in Q. cbn. apply above_put; [lia|exact H].
Qed.
Lemma above_erase : forall A (m : list (Z * A)) k j, above j m -> above j (map_erase k m).
Proof.
  induction m as [|[k1 v1] q IH]; intros k j H; cbn in *; [exact I|]. destruct H as (L&H).
  destruct (negb (k1 =? k)); cbn; [split; [exact L|apply IH; exact H]|]. apply IH. apply (above_less _ q j k1); [lia|exact H].
Qed.
Lemma sorted_erase : forall A (m : list (Z * A)) k, sorted m -> sorted (map_erase k m).
Proof.
  intros A [|[k1 v1] q] k H; [exact I|]. cbn. destruct (negb (k1 =? k)); cbn; [apply above_erase; exact H|].
  apply (above_sorted _ _ k1). apply above_erase. exact H.
Qed.
(** The first matching entry. *)
Lemma get_cons : forall A k k1 (v : A) q, map_get k ((k1, v) :: q) = if k1 =? k then Some v else map_get k q.
Proof. intros. unfold map_get. cbn. destruct (k1 =? k); reflexivity. Qed.
Lemma get_above : forall A (m : list (Z * A)) k j, j <= k -> above k m -> map_get j m = None.
Proof.
  induction m as [|[k1 v1] q IH]; intros k j L H; [reflexivity|]. cbn in H. destruct H as (L1&H). rewrite get_cons.
  destruct (k1 =? j) eqn:E; [apply Z.eqb_eq in E; lia|]. apply (IH k1); [lia|exact H].
Qed.
Lemma find_remote : forall tok ev m, sorted m -> (forall e c, ev = Some (e, c) -> 0 < e) ->
  find (remote_matches (Some tok) ev) m =
  match waits_under (fun k => map_get k m) 0 tok, ev with
  | Some rid, _ => Some (0, (tok, rid))
  | None, Some (e, _) => match waits_under (fun k => map_get k m) e tok with Some rid => Some (e, (tok, rid)) | None => None end
  | None, None => None
  end.
Proof.
  intros tok ev m. induction m as [|[k [t rid]] q IH]; intros S P; [destruct ev as [[e c]|]; reflexivity|].
  assert (S1 : sorted q) by (apply (above_sorted _ _ k); exact S). specialize (IH S1 P). cbn [sorted] in S.
  cbn [find]. unfold remote_matches at 1. cbn [fst snd].
  destruct (t =? tok) eqn:T; cbn [andb].
  2:{ rewrite IH. unfold waits_under. rewrite !get_cons.
      assert (X : forall j, match (if k =? j then Some (t, rid) else map_get j q) with Some (t0, r0) => if t0 =? tok then Some r0 else None | None => None end =
                            match map_get j q with Some (t0, r0) => if t0 =? tok then Some r0 else None | None => None end).
      { intros j. destruct (k =? j) eqn:E; [|reflexivity]. apply Z.eqb_eq in E. subst j. rewrite T.
        rewrite (get_above _ q k k) by (try lia; exact S). reflexivity. }
      rewrite X. destruct ev as [[e c]|]; [|reflexivity]. rewrite get_cons, X. reflexivity. }
  apply Z.eqb_eq in T. subst t. unfold waits_under in *. rewrite !get_cons.
  destruct (k =? 0) eqn:K0; cbn [orb].
  - apply Z.eqb_eq in K0. subst k. rewrite Z.eqb_refl. reflexivity.
  - destruct ev as [[e c]|]; [|exact IH]. rewrite !get_cons. rewrite (Z.eqb_sym k e).
    destruct (e =? k) eqn:EK; [|exact IH]. apply Z.eqb_eq in EK. subst k.
    assert (PE : 0 < e) by (eapply P; reflexivity).
    rewrite (get_above _ q e 0) by (try lia; exact S). rewrite Z.eqb_refl. reflexivity.
Qed.

(** ** Calls that send no message *)
Definition hush (w w1 : world) : Prop :=
  (forall e, view w1 e = view w e) /\ w_remote w1 = w_remote w /\ w_txcb w1 = w_txcb w /\ w_con w1 = w_con w /\
  exists l, w_out w1 = w_out w ++ l /\ told l = [].
Lemma told_app : forall a b, told (a ++ b) = told a ++ told b.
Proof. induction a as [|o q IH]; intros b; cbn; [reflexivity|]. destruct o; cbn; rewrite ?IH; reflexivity. Qed.
Lemma hush_refl : forall w, hush w w.
Proof. intros w. unfold hush. ands; auto. exists []. rewrite app_nil_r. auto. Qed.
Lemma hush_trans : forall a b c, hush a b -> hush b c -> hush a c.
Proof.
  intros a b c (A1&A2&A3&A4&l&A5&A6) (B1&B2&B3&B4&m&B5&B6). unfold hush. ands; [intros e; rewrite B1; apply A1|congruence|congruence|congruence|].
  exists (l ++ m). rewrite B5, A5, app_assoc, told_app, A6, B6. auto.
Qed.
Notation hushed := (respects hush).
Lemma hushed_seq : forall f g, hushed f -> hushed g -> hushed (f ;; g).
Proof. apply respects_seq. apply hush_trans. Qed.
Lemma hushed_skip : hushed skip.
Proof. apply respects_skip. apply hush_refl. Qed.
Lemma hushed_foreach : forall A (l : list A) f, (forall x, In x l -> hushed (f x)) -> hushed (foreach l f).
Proof. apply respects_foreach; [apply hush_refl|apply hush_trans]. Qed.
Lemma hushed_if : forall (b : bool) f g, hushed f -> hushed g -> hushed (if b then f else g).
Proof. intros [] f g F G; assumption. Qed.
(** Same world as far as messages go. *)
Lemma hush_same : forall w w1, w_tx w1 = w_tx w -> w_remote w1 = w_remote w -> w_txcb w1 = w_txcb w -> w_con w1 = w_con w ->
  w_out w1 = w_out w -> hush w w1.
Proof.
  intros w w1 A B C D E. unfold hush. ands; auto.
  - intros e. unfold view. rewrite A. reflexivity.
  - exists []. rewrite app_nil_r. auto.
Qed.
Lemma hush_throw : forall w, hush w (throw w).
Proof. intros. apply hush_same; reflexivity. Qed.
Lemma hush_get : forall e w, hush w (get_evse e w).
Proof. intros. unfold get_evse. destruct (evse_ok w e); [apply hush_refl|apply hush_throw]. Qed.
Lemma hush_emit : forall o w, told [o] = [] -> hush w (emit o w).
Proof.
  intros o w T. unfold emit, durable. assert (X : forall v, w_tx v = w_tx w -> w_remote v = w_remote w -> w_txcb v = w_txcb w -> w_con v = w_con w ->
    w_out v = w_out w -> hush w (set_w_out (w_out v ++ [o]) v)).
  { intros v A B C D E. unfold hush. cbn. ands; auto.
    - intros e. unfold view. cbn. rewrite A. reflexivity.
    - exists [o]. rewrite E. auto. }
  destruct (w_budget w) as [[|n]|]; [apply hush_same; reflexivity|apply X; reflexivity|apply X; reflexivity].
Qed.
Lemma told_av : forall l, told (map OAv l) = [].
Proof. induction l; cbn; auto. Qed.
Lemma hush_csm : forall o w, hush w (csm o w).
Proof.
  intros o w. unfold csm, durable. assert (X : forall v, w_tx v = w_tx w -> w_remote v = w_remote w -> w_txcb v = w_txcb w -> w_con v = w_con w ->
    w_out v = w_out w -> hush w (let '(s, outs, r) := CsmModel.step (w_csm v) o in
    set_w_prog (match r with CsmModel.Ok => w_prog v | _ => Threw end) (set_w_out (w_out v ++ map OAv outs) (set_w_csm s v)))).
  { intros v A B C D E. destruct (CsmModel.step (w_csm v) o) as [[s outs] r]. unfold hush. cbn. ands; auto.
    - intros e. unfold view. cbn. rewrite A. reflexivity.
    - exists (map OAv outs). rewrite E, told_av. auto. }
  destruct (w_budget w) as [[|n]|]; [apply hush_same; reflexivity|apply X; reflexivity|apply X; reflexivity].
Qed.
Lemma hush_pop : forall w b w1, pop_fail w = (b, w1) -> hush w w1.
Proof. intros w b w1 H. unfold pop_fail in H. destruct (w_fail w); inversion H; subst; [apply hush_refl|apply hush_same; reflexivity]. Qed.
Lemma hush_set_cs : forall v p w, hush w (set_cs_operative v p w).
Proof. intros. unfold set_cs_operative. destruct (pop_fail w) as [f w1] eqn:E. apply hush_pop in E. eapply hush_trans; [exact E|apply hush_csm]. Qed.
Lemma hush_set_evse : forall e v p, hushed (set_evse_operative e v p).
Proof.
  intros e v p w P. unfold set_evse_operative. apply hushed_seq; [intros x _; apply hush_get| |exact P]. intros x _.
  destruct (pop_fail x) as [f w1] eqn:E. apply hush_pop in E. destruct (pop_fail w1) as [f2 w2] eqn:E2. apply hush_pop in E2.
  eapply hush_trans; [exact E|]. eapply hush_trans; [exact E2|apply hush_csm].
Qed.
Lemma hush_set_conn : forall e c v p, hushed (set_conn_operative e c v p).
Proof.
  intros e c v p w P. unfold set_conn_operative. apply hushed_seq; [intros x _; apply hush_get| |exact P]. intros x _.
  destruct (negb _); [apply hush_throw|]. destruct (pop_fail x) as [f w1] eqn:E. apply hush_pop in E.
  eapply hush_trans; [exact E|apply hush_csm].
Qed.
Lemma hush_connectors : forall e, hushed (connectors_unavailable e).
Proof. intros e w P. unfold connectors_unavailable. apply hushed_foreach; [|exact P]. intros c _. apply hush_set_conn. Qed.
Lemma hush_execute : forall r p, hushed (execute r p).
Proof.
  intros r p w P. unfold execute. destruct (q_evse r) as [[e [c|]]|]; [apply hush_set_conn|apply hush_set_evse|apply hush_set_cs]; exact P.
Qed.
Lemma hush_notify : forall w, hush w (notify_all_unavailable w).
Proof. intros. unfold notify_all_unavailable. destruct (_ && _); [apply hush_emit; reflexivity|apply hush_refl]. Qed.
Lemma hush_check : forall t w, hush w (check_target t w).
Proof. intros [[e c]|] w; [apply hush_get|apply hush_refl]. Qed.
Lemma hush_scheduled : forall k, hushed (handle_scheduled k).
Proof.
  intros k w P. unfold handle_scheduled. destruct (map_get k (w_sched w)) as [[r p]|]; [|apply hush_refl].
  apply hushed_seq; [intros x _; apply hush_check| |exact P]. intros x PX. destruct (affected_active x (q_evse r)); [apply hush_refl|].
  apply hushed_seq; [apply hush_execute| |exact PX]. apply hushed_seq; [intros y _; apply hush_same; reflexivity|intros y _; apply hush_notify].
Qed.
Lemma hush_state : forall t w, hush w (check_state t w).
Proof.
  intros [[e [c|]]|] w; unfold check_state; [destruct (CsmModel.check_conn _ _ _)|destruct (CsmModel.check_evse _ _)|]; solve [apply hush_refl|apply hush_throw].
Qed.
Lemma hush_change : forall r, hushed (handle_change_availability r).
Proof.
  assert (V : forall r, hushed (change_availability_valid r)).
  { intros r w P. unfold change_availability_valid. cbv zeta. apply hushed_seq; [intros x _; apply hush_same; reflexivity| |exact P].
    apply hushed_seq; [intros x _; apply hush_emit; reflexivity|]. intros x PX.
    destruct (negb _); [apply hush_execute; exact PX|]. destruct (_ || _); [apply hush_refl|]. destruct (_ =? 0).
    - apply hushed_foreach; [|exact PX]. intros e _ y PY. destruct (active y e); [apply hush_refl|]. apply hush_set_evse. exact PY.
    - apply hushed_seq; [intros y _; apply hush_get| |exact PX]. intros y PY. apply hushed_foreach; [|exact PY].
      intros c _ z PZ. destruct (active_on _ _ c); [apply hush_refl|]. apply hush_set_conn. exact PZ. }
  intros r w P. unfold handle_change_availability. destruct (q_evse r) as [[e c]|]; [|apply V; exact P].
  destruct (_ && _); [apply hush_throw|]. destruct (negb _); [apply hush_emit; reflexivity|].
  apply hushed_seq; [intros x _; apply hush_check| |exact P]. apply hushed_seq; [intros x _; apply hush_state|apply V].
Qed.
Lemma hush_finish_reset : forall e, hushed (finish_reset e).
Proof.
  intros e w P. unfold finish_reset. apply hushed_seq; [apply hushed_if; [apply hush_connectors|apply hushed_skip]| |exact P].
  apply hushed_if; [|apply hushed_skip]. apply hushed_seq; [|intros x _; apply hush_same; reflexivity]. destruct (w_rids w).
  - apply hushed_seq; [intros x _; apply hush_emit; reflexivity|intros x _; apply hush_same; reflexivity].
  - apply hushed_seq; [intros x _; apply hush_emit; reflexivity|]. apply hushed_seq; [intros x _; apply hush_same; reflexivity|].
    intros x _. destruct (w_rids x); [apply hush_same; reflexivity|apply hush_refl].
Qed.
Lemma hush_reset : forall ev ty a b, hushed (handle_reset ev ty a b).
Proof.
  intros ev ty a b. apply hushed_seq; [destruct ev; [intros x _; apply hush_get|apply hushed_skip]|].
  intros w P. cbv zeta. apply hushed_seq; [| |exact P].
  - apply hushed_if; [|apply hushed_skip]. intros x _. destruct ev; apply hush_same; reflexivity.
  - apply hushed_seq; [intros x _; apply hush_emit; reflexivity|]. apply hushed_seq.
    + apply hushed_if; [|apply hushed_skip]. destruct ty; apply hushed_foreach; intros x _;
        [intros y _; apply hush_emit; reflexivity|apply hush_connectors].
    + apply hushed_if; [intros x _; apply hush_emit; reflexivity|apply hushed_skip].
Qed.
Lemma hush_firmware : hushed firmware_unavailable.
Proof.
  intros w P. unfold firmware_unavailable. destruct (negb _).
  - apply hushed_seq; [|intros x _; apply hush_notify|exact P]. apply hushed_foreach. intros e _ x PX.
    destruct (active x e); [apply hush_refl|apply hush_connectors; exact PX].
  - apply hushed_foreach; [|exact P]. intros e _ x PX. destruct (active x e); [apply hush_same; reflexivity|apply hush_connectors; exact PX].
Qed.
Lemma hush_restore : hushed restore_all.
Proof.
  intros w P. unfold restore_all. apply hushed_foreach; [|exact P]. intros e _ x PX. apply hushed_foreach; [|exact PX].
  intros c _ y _. apply hush_csm.
Qed.
Lemma hush_put : forall e t t1 w, w_tx w e = Some t ->
  (t_id t1, t_conn t1, t_cs t1, t_tok t1, t_reason t1, t_remote t1) = (t_id t, t_conn t, t_cs t, t_tok t, t_reason t, t_remote t) ->
  hush w (put_tx e (Some t1) w).
Proof.
  intros e t t1 w T E. injection E as E1 E2 E3 E4 E5 E6. unfold hush, put_tx. cbn. ands; auto.
  - intros f. unfold view. cbn. unfold CsmModel.fupd. destruct (f =? e) eqn:Q; [|reflexivity]. apply Z.eqb_eq in Q. subst f. rewrite T. congruence.
  - exists []. rewrite app_nil_r. auto.
Qed.
Lemma hush_statement : forall f w, hush w (fst (statement f w)).
Proof.
  intros f w. unfold statement. destruct (pop_fail w) as [b w1] eqn:E. apply hush_pop in E. destruct b; [exact E|].
  destruct (f (w_rows w1)); [|exact E]. cbn [fst]. eapply hush_trans; [exact E|]. unfold durable.
  destruct (w_budget w1) as [[|n]|]; apply hush_same; reflexivity.
Qed.
Lemma hush_seq_no : forall e w, hush w (get_seq_no e w).
Proof.
  intros e w. unfold get_seq_no. destruct (w_tx w e) as [t|] eqn:T; [|apply hush_refl]. cbv zeta.
  assert (P : hush w (put_tx e (Some (with_seq (i32 (t_seq t + 1)) t)) w)) by (eapply hush_put; [exact T|reflexivity]).
  destruct (t_db t); [|exact P]. eapply hush_trans; [exact P|apply hush_statement].
Qed.
Lemma hush_response : forall v info stop maxe w, hush w (on_response v info stop maxe w).
Proof.
  assert (M : forall e w, hush w (set_max e w)).
  { intros e w. unfold set_max. destruct (w_tx w e) as [t|] eqn:T; [|apply hush_refl]. eapply hush_put; [exact T|reflexivity]. }
  assert (X : forall (v : txev) (info : option bool) (stop maxe : bool) (w : world), hush w (match info, v_tok v with
      | None, _ | Some true, _ | _, None => w
      | Some false, Some _ => match transaction_evseid w (v_id v) with
        | None => w | Some e => if stop then emit (OStopTx e DeAuthorized) w else if maxe then set_max e w else emit (OPause e) w end end)).
  { intros v info stop maxe w. destruct info as [[]|]; try apply hush_refl. destruct (v_tok v); [|apply hush_refl].
    destruct (transaction_evseid w (v_id v)); [|apply hush_refl]. destruct stop; [apply hush_emit; reflexivity|].
    destruct maxe; [apply M|apply hush_emit; reflexivity]. }
  intros v info stop maxe w. unfold on_response. destruct (v_kind v); try apply hush_refl; apply X.
Qed.

(** ** Calls that send messages *)
Definition speaks (s : talk) (l : list (bool * content)) (w w1 : world) : Prop :=
  same_talk (talk_of w1) s /\ sorted (w_remote w1) /\ w_txcb w1 = w_txcb w /\ w_con w1 = w_con w /\
  exists x, w_out w1 = w_out w ++ x /\ told x = l.
Lemma same_trans : forall a b c, same_talk a b -> same_talk b c -> same_talk a c.
Proof. intros a b c (A&B) (C&D). split; intros x; [rewrite A; apply C|rewrite B; apply D]. Qed.
Lemma hush_talk : forall w w1, hush w w1 -> same_talk (talk_of w1) (talk_of w).
Proof. intros w w1 (A&B&_). split; cbn; [exact A|]. intros k. unfold pending. rewrite B. reflexivity. Qed.
Lemma speaks_hush : forall s l w w1 w2, speaks s l w w1 -> hush w1 w2 -> speaks s l w w2.
Proof.
  intros s l w w1 w2 (A&B&C&D&x&E&F) H. pose proof (hush_talk _ _ H) as T. destruct H as (_&H2&H3&H4&y&H5&H6).
  unfold speaks. ands; try congruence.
  - eapply same_trans; eauto.
  - exists (x ++ y). rewrite H5, E, app_assoc, told_app, F, H6, app_nil_r. auto.
Qed.
Lemma hush_speaks : forall s l w w1 w2, hush w w1 -> speaks s l w1 w2 -> speaks s l w w2.
Proof.
  intros s l w w1 w2 (_&_&H3&H4&y&H5&H6) (A&B&C&D&x&E&F). unfold speaks. ands; auto; try congruence.
  exists (y ++ x). rewrite E, H5, app_assoc, told_app, F, H6. auto.
Qed.
Lemma speaks_same : forall s s1 l w w1, speaks s l w w1 -> same_talk s s1 -> speaks s1 l w w1.
Proof. intros s s1 l w w1 (A&B) S. split; [eapply same_trans; eauto|exact B]. Qed.
Lemma silent : forall w w1, sorted (w_remote w) -> hush w w1 -> speaks (talk_of w) [] w w1.
Proof.
  intros w w1 S H. pose proof (hush_talk _ _ H) as T. destruct H as (_&H2&H3&H4&H5). unfold speaks. ands; auto. congruence.
Qed.
Lemma emit2 : forall v v1 (cb : bool) w, w_budget w = None -> w_prog w = Running ->
  let w1 := (emit (OTx v1) ;; (if cb then emit (OTxCallback v) else skip)) w in
  w_prog w1 = Running /\ w_budget w1 = None /\ w_tx w1 = w_tx w /\ w_remote w1 = w_remote w /\ w_txcb w1 = w_txcb w /\ w_con w1 = w_con w /\
  exists x, w_out w1 = w_out w ++ x /\ told x = (true, content_of v1) :: (if cb then [(false, content_of v)] else []).
Proof.
  intros v v1 cb w B P. cbv zeta. rewrite seqw_run by (rewrite emit_alive by exact B; exact P). rewrite emit_alive by exact B.
  destruct cb.
  - rewrite emit_alive by exact B. cbn. ands; auto. exists [OTx v1; OTxCallback v]. rewrite <- app_assoc. auto.
  - cbn. ands; auto. exists [OTx v1]. auto.
Qed.
Lemma req_speaks : forall v w, w_budget w = None -> w_prog w = Running -> sorted (w_remote w) -> (forall e c, v_evse v = Some (e, c) -> 0 < e) ->
  let w1 := transaction_event_req v w in
  w_prog w1 = Running /\ w_budget w1 = None /\ w_tx w1 = w_tx w /\
  speaks (Talk (view w) (fst (deliver (w_txcb w) (pending w) (content_of v)))) (snd (deliver (w_txcb w) (pending w) (content_of v))) w w1.
Proof.
  intros v w B P S EV. cbv zeta. unfold transaction_event_req.
  assert (N : forall w0, w0 = (emit (OTx v) ;; (if w_txcb w then emit (OTxCallback v) else skip)) w ->
     w_prog w0 = Running /\ w_budget w0 = None /\ w_tx w0 = w_tx w /\
     speaks (Talk (view w) (pending w)) ((true, content_of v) :: (if w_txcb w then [(false, content_of v)] else [])) w w0).
  { intros w0 ->. destruct (emit2 v v (w_txcb w) w B P) as (A1&A2&A3&A4&A5&A6&A7). ands; auto. unfold speaks. ands; auto; try congruence.
    split; intros x; cbn; [unfold view; rewrite A3|unfold pending; rewrite A4]; reflexivity. }
  assert (M : forall k rid w0, w0 = (emit (OTx (TxEv (v_kind v) (v_id v) (v_seq v) RemoteStart (v_cs v) (v_reason v) (Some rid) (v_evse v) (v_tok v))) ;;
       (if w_txcb w then emit (OTxCallback v) else skip)) (set_w_remote (map_erase k (w_remote w)) w) ->
     w_prog w0 = Running /\ w_budget w0 = None /\ w_tx w0 = w_tx w /\
     speaks (Talk (view w) (put (pending w) k None))
       ((true, Content (v_kind v) (v_id v) RemoteStart (v_cs v) (v_reason v) (Some rid) (v_evse v) (v_tok v)) :: (if w_txcb w then [(false, content_of v)] else [])) w w0).
  { intros k rid w0 ->. destruct (emit2 v (TxEv (v_kind v) (v_id v) (v_seq v) RemoteStart (v_cs v) (v_reason v) (Some rid) (v_evse v) (v_tok v)) (w_txcb w)
      (set_w_remote (map_erase k (w_remote w)) w) B P) as (A1&A2&A3&A4&A5&A6&x&A7&A8).
    split; [exact A1|]. split; [exact A2|]. split; [exact A3|]. unfold speaks. ands; auto.
    - split; intros y; cbn; [unfold view; rewrite A3; reflexivity|]. unfold pending. rewrite A4. cbn. rewrite get_erase. unfold put. reflexivity.
    - rewrite A4. apply sorted_erase. exact S.
    - exists x. split; [exact A7|exact A8]. }
  unfold deliver. cbn [content_of m_tok m_evse m_kind m_id m_cs m_reason]. destruct (v_tok v) as [tok|] eqn:T.
  - rewrite (find_remote tok (v_evse v) (w_remote w) S EV). change (fun k => map_get k (w_remote w)) with (pending w).
    destruct (waits_under (pending w) 0 tok) as [rid|].
    + cbn [fst snd]. apply M. cbn [snd fst]. reflexivity.
    + destruct (v_evse v) as [[e c]|].
      * destruct (waits_under (pending w) e tok) as [rid|].
        -- cbn [fst snd]. apply M. reflexivity.
        -- cbn [fst snd]. apply N. reflexivity.
      * cbn [fst snd]. apply N. reflexivity.
  - assert (F : find (remote_matches None (v_evse v)) (w_remote w) = None).
    { clear. induction (w_remote w) as [|p q IH]; cbn; auto. }
    rewrite F. cbn [fst snd]. apply N. reflexivity.
Qed.
Lemma seq_no_alive : forall e w, w_budget w = None -> w_prog w = Running -> w_prog (get_seq_no e w) = Running /\ w_budget (get_seq_no e w) = None.
Proof.
  intros e w B P. unfold get_seq_no. destruct (w_tx w e) as [t|]; [|auto]. cbv zeta. destruct (t_db t); [|auto].
  unfold statement. destruct (pop_fail _) as [b w1] eqn:E. unfold pop_fail in E. cbn [w_fail put_tx set_w_tx] in E.
  assert (X : w_prog w1 = Running /\ w_budget w1 = None) by (destruct (w_fail w); inversion E; cbn; auto).
  destruct b; [exact X|]. cbn [update_seq fst]. unfold durable. destruct X as (X1&X2). rewrite X2. cbn. auto.
Qed.
Lemma send_speaks : forall e k tr ev tok t w, w_budget w = None -> w_prog w = Running -> sorted (w_remote w) ->
  (forall f c, ev = Some (f, c) -> 0 < f) -> w_tx w e = Some t ->
  let m := Content k (t_id t) tr (t_cs t) (t_reason t) (t_remote t) ev tok in
  let w1 := send_event e k tr ev tok w in
  w_prog w1 = Running /\ w_budget w1 = None /\
  speaks (Talk (view w) (fst (deliver (w_txcb w) (pending w) m))) (snd (deliver (w_txcb w) (pending w) m)) w w1.
Proof.
  intros e k tr ev tok t w B P S EV T. cbv zeta. unfold send_event. rewrite T.
  destruct (seq_no_alive e w B P) as (P1&B1). pose proof (hush_seq_no e w) as H. rewrite seqw_run by exact P1.
  set (w1 := get_seq_no e w) in *. set (v := TxEv k (t_id t) (seq_no_result w e) tr (t_cs t) (t_reason t) (t_remote t) ev tok).
  assert (S1 : sorted (w_remote w1)) by (destruct H as (_&H&_); rewrite H; exact S).
  destruct (req_speaks v w1 B1 P1 S1 EV) as (A1&A2&A3&A4). ands; auto.
  eapply hush_speaks; [exact H|]. destruct H as (H1&H2&H3&_).
  assert (PE : pending w1 = pending w) by (unfold pending; rewrite H2; reflexivity). rewrite H3, PE in A4.
  eapply speaks_same; [exact A4|]. split; cbn; [exact H1|reflexivity].
Qed.
Lemma hush_alive_set : forall e cs w, w_prog (set_charging e cs w) = w_prog w /\ w_budget (set_charging e cs w) = w_budget w.
Proof. intros. unfold set_charging. destruct (w_tx w e); auto. Qed.
Lemma same_sym : forall a b, same_talk a b -> same_talk b a.
Proof. intros a b (A&B). split; intros x; symmetry; auto. Qed.
Lemma update_speaks : forall e tr tok w, w_budget w = None -> w_prog w = Running -> sorted (w_remote w) ->
  let w1 := send_event e Updated tr None tok w in
  w_prog w1 = Running /\ w_budget w1 = None /\
  speaks (fst (update_msg (w_txcb w) e tr tok (talk_of w))) (snd (update_msg (w_txcb w) e tr tok (talk_of w))) w w1.
Proof.
  intros e tr tok w B P S. cbv zeta. destruct (w_tx w e) as [t|] eqn:T.
  - destruct (send_speaks e Updated tr None tok t w B P S ltac:(intros; discriminate) T) as (A1&A2&A3). ands; auto.
    unfold update_msg. cbn [talk_of t_view t_pend].
    assert (V : view w e = Some (KTx (t_id t) (t_conn t) (t_cs t) (t_tok t) (t_reason t) (t_remote t))) by (unfold view; rewrite T; reflexivity).
    rewrite V. cbn [k_id k_cs k_reason k_remote].
    destruct (deliver _ _ _) as [p l]. cbn [fst snd] in *. exact A3.
  - unfold send_event. rewrite T. ands; auto. unfold update_msg. cbn [talk_of t_view].
    assert (V : view w e = None) by (unfold view; rewrite T; reflexivity). rewrite V. cbn [fst snd].
    apply silent; [exact S|apply hush_refl].
Qed.
Lemma deliver_ext : forall cb p q m, (forall k, p k = q k) ->
  snd (deliver cb p m) = snd (deliver cb q m) /\ forall k, fst (deliver cb p m) k = fst (deliver cb q m) k.
Proof.
  intros cb p q m E. unfold deliver. destruct m as [mk i tr cs r rm ev tk]. cbn [m_kind m_id m_trig m_cs m_reason m_remote m_evse m_tok].
  destruct tk as [tok|]; [|auto].
  assert (W : forall k, waits_under p k tok = waits_under q k tok) by (intros k; unfold waits_under; rewrite E; reflexivity).
  assert (U : forall j k, put p j None k = put q j None k) by (intros j k; unfold put; rewrite E; reflexivity).
  rewrite (W 0). destruct (waits_under q 0 tok); [cbn; auto|]. destruct ev as [[e c]|]; [|cbn; auto]. rewrite (W e).
  destruct (waits_under q e tok); cbn; auto.
Qed.
Lemma update_ext : forall cb e tr tok a b, same_talk a b ->
  snd (update_msg cb e tr tok a) = snd (update_msg cb e tr tok b) /\ same_talk (fst (update_msg cb e tr tok a)) (fst (update_msg cb e tr tok b)).
Proof.
  intros cb e tr tok a b (V&P). unfold update_msg. rewrite V. destruct (t_view b e) as [t|]; [|cbn; split; auto; split; auto].
  destruct (deliver_ext cb _ _ (Content Updated (k_id t) tr (k_cs t) (k_reason t) (k_remote t) None tok) P) as (A&B).
  destruct (deliver cb (t_pend a) _) as [p1 l1], (deliver cb (t_pend b) _) as [p2 l2]. cbn [fst snd] in *. split; [exact A|]. split; auto.
Qed.
Lemma all_ext : forall cb tr l a b, same_talk a b ->
  snd (update_all cb tr l a) = snd (update_all cb tr l b) /\ same_talk (fst (update_all cb tr l a)) (fst (update_all cb tr l b)).
Proof.
  induction l as [|e q IH]; intros a b S; [cbn; auto|]. cbn [update_all]. destruct (update_ext cb e tr None a b S) as (A&B).
  destruct (update_msg cb e tr None a) as [a1 x1], (update_msg cb e tr None b) as [b1 y1]. cbn [fst snd] in *.
  destruct (IH a1 b1 B) as (C&D). destruct (update_all cb tr q a1), (update_all cb tr q b1). cbn [fst snd] in *. split; [congruence|exact D].
Qed.
Lemma all_speaks : forall tr l w, w_budget w = None -> w_prog w = Running -> sorted (w_remote w) ->
  let w1 := foreach l (fun e => send_event e Updated tr None None) w in
  speaks (fst (update_all (w_txcb w) tr l (talk_of w))) (snd (update_all (w_txcb w) tr l (talk_of w))) w w1.
Proof.
  induction l as [|e q IH]; intros w B P S; [cbn; apply silent; [exact S|apply hush_refl]|]. cbv zeta. cbn [foreach update_all].
  destruct (update_speaks e tr None w B P S) as (P1&B1&A). rewrite seqw_run by exact P1. set (w1 := send_event e Updated tr None None w) in *.
  destruct (update_msg (w_txcb w) e tr None (talk_of w)) as [s1 a] eqn:U. cbn [fst snd] in A. destruct A as (A1&A2&A3&A4&x&A5&A6).
  specialize (IH w1 B1 P1 A2). cbv zeta in IH. rewrite A3 in IH. destruct (all_ext (w_txcb w) tr q (talk_of w1) s1 A1) as (X&Y).
  destruct (update_all (w_txcb w) tr q (talk_of w1)) as [s2 b], (update_all (w_txcb w) tr q s1) as [s3 c]. cbn [fst snd] in *. subst c.
  eapply speaks_same; [|exact Y]. destruct IH as (I1&I2&I3&I4&y&I5&I6). unfold speaks. ands; auto; try congruence.
  exists (x ++ y). rewrite I5, A5, app_assoc, told_app, A6, I6. auto.
Qed.

(** ** Calls *)
Lemma seq_inv : forall f g w, w_prog ((f ;; g) w) = Running -> w_prog (f w) = Running /\ (f ;; g) w = g (f w).
Proof. intros f g w. unfold seqw. destruct (w_prog (f w)) eqn:E; auto; intros X; congruence. Qed.
(** The transaction of [e] becomes [k]; nothing is said. *)
Definition turned (e : Z) (k : option known_tx) (w w1 : world) : Prop :=
  (forall x, view w1 x = put (view w) e k x) /\ w_remote w1 = w_remote w /\ w_txcb w1 = w_txcb w /\ w_con w1 = w_con w /\
  (exists l, w_out w1 = w_out w ++ l /\ told l = []) /\ w_budget w1 = None /\ w_prog w1 = Running.
Lemma turned_hush : forall e k w w1 w2, turned e k w w1 -> hush w1 w2 -> w_budget w2 = None -> w_prog w2 = Running -> turned e k w w2.
Proof.
  intros e k w w1 w2 (A1&A2&A3&A4&(l&A5&A6)&_&_) (B1&B2&B3&B4&m&B5&B6) B P. unfold turned.
  ands; [intros x; rewrite B1; apply A1|congruence|congruence|congruence| |exact B|exact P].
  exists (l ++ m). rewrite B5, A5, app_assoc, told_app, A6, B6. auto.
Qed.
Lemma turned_twice : forall e k1 k2 w w1 w2, turned e k1 w w1 -> turned e k2 w1 w2 -> turned e k2 w w2.
Proof.
  intros e k1 k2 w w1 w2 (A1&A2&A3&A4&(l&A5&A6)&_&_) (B1&B2&B3&B4&(m&B5&B6)&B&P). unfold turned.
  ands; [|congruence|congruence|congruence| |exact B|exact P].
  - intros x. rewrite B1. unfold put. destruct (x =? e) eqn:E; [reflexivity|]. rewrite A1. unfold put. rewrite E. reflexivity.
  - exists (l ++ m). rewrite B5, A5, app_assoc, told_app, A6, B6. auto.
Qed.
Definition kview (t : tx) : known_tx := KTx (t_id t) (t_conn t) (t_cs t) (t_tok t) (t_reason t) (t_remote t).
Lemma view_some : forall w e t, w_tx w e = Some t -> view w e = Some (kview t).
Proof. intros w e t T. unfold view. rewrite T. reflexivity. Qed.
Lemma put_turned : forall e v w, w_budget w = None -> w_prog w = Running ->
  turned e (match v with Some t => Some (kview t) | None => None end) w (put_tx e v w).
Proof.
  intros e v w B P. unfold turned. ands; try reflexivity; [|exists []; rewrite app_nil_r; split; reflexivity|exact B|exact P].
  intros x. unfold view, put, put_tx. cbn. unfold CsmModel.fupd. destruct (x =? e); [destruct v|]; reflexivity.
Qed.
Lemma charging_turned : forall e cs t w, w_budget w = None -> w_prog w = Running -> w_tx w e = Some t ->
  turned e (Some (KTx (t_id t) (t_conn t) cs (t_tok t) (t_reason t) (t_remote t))) w (set_charging e cs w).
Proof. intros e cs t w B P T. unfold set_charging. rewrite T. exact (put_turned e (Some _) w B P). Qed.
Lemma remote_turned : forall e rid t w, w_budget w = None -> w_prog w = Running -> w_tx w e = Some t ->
  turned e (Some (KTx (t_id t) (t_conn t) (t_cs t) (t_tok t) (t_reason t) rid)) w (set_remote e rid w).
Proof. intros e rid t w B P T. unfold set_remote. rewrite T. exact (put_turned e (Some _) w B P). Qed.
Lemma close_turned : forall e r t w, w_budget w = None -> w_prog w = Running -> w_tx w e = Some t ->
  turned e (Some (KTx (t_id t) (t_conn t) (t_cs t) (t_tok t) (Some r) (t_remote t))) w (close_transaction e r w).
Proof. intros e r t w B P T. unfold close_transaction. rewrite T. exact (put_turned e (Some _) w B P). Qed.
Lemma pop_alive : forall w b w1, pop_fail w = (b, w1) -> w_budget w1 = w_budget w /\ w_prog w1 = w_prog w.
Proof. intros w b w1 H. unfold pop_fail in H. destruct (w_fail w); inversion H; subst; auto. Qed.
Lemma statement_alive : forall f w, w_budget w = None -> w_prog w = Running ->
  w_budget (fst (statement f w)) = None /\ w_prog (fst (statement f w)) = Running.
Proof.
  intros f w B P. unfold statement. destruct (pop_fail w) as [b w1] eqn:E. destruct (pop_alive _ _ _ E) as (X&Y).
  destruct b; cbn [fst]; [split; congruence|]. destruct (f (w_rows w1)); cbn [fst]; [|split; congruence].
  unfold durable. rewrite X, B. cbn. split; congruence.
Qed.
Lemma tok_turned : forall e t w, w_budget w = None -> w_prog w = Running -> w_tx w e = Some t ->
  turned e (Some (KTx (t_id t) (t_conn t) (t_cs t) true (t_reason t) (t_remote t))) w (set_id_token_sent e w).
Proof.
  intros e t w B P T. unfold set_id_token_sent. rewrite T. cbv zeta.
  assert (X := put_turned e (Some (Tx (t_id t) (t_conn t) (t_seq t) (t_cs t) true (t_reason t) (t_remote t) (t_db t) (t_max t))) w B P).
  destruct (t_db t); [|exact X]. cbv iota in X. pose proof X as (_&_&_&_&_&XB&XP).
  destruct (statement_alive (update_tok (t_id t) true) _ XB XP) as (Y&Z). eapply turned_hush; [exact X|apply hush_statement|exact Y|exact Z].
Qed.
Lemma release_turned : forall e w, w_budget w = None -> w_prog w = Running -> turned e None w (release_transaction e w).
Proof.
  intros e w B P. unfold release_transaction. destruct (w_tx w e) as [t|] eqn:T.
  - destruct (pop_fail w) as [b w1] eqn:E. destruct (pop_alive _ _ _ E) as (X&Y). apply hush_pop in E.
    assert (Q : hush w ((fun w => if b then w else fst (statement (delete_row (t_id t)) w)) w1) /\
      w_budget ((fun w => if b then w else fst (statement (delete_row (t_id t)) w)) w1) = None /\
      w_prog ((fun w => if b then w else fst (statement (delete_row (t_id t)) w)) w1) = Running).
    { cbv beta. destruct b; [ands; auto; congruence|]. destruct (statement_alive (delete_row (t_id t)) w1 ltac:(congruence) ltac:(congruence)) as (U&V).
      ands; auto. eapply hush_trans; [exact E|apply hush_statement]. }
    destruct Q as (Q1&Q2&Q3). rewrite seqw_run by exact Q3. match goal with |- turned _ _ _ (put_tx e None ?v) => set (w2 := v) in * end.
    destruct (put_turned e None w2 Q2 Q3) as (A1&A2&A3&A4&(l&A5&A6)&A7). destruct Q1 as (B1&B2&B3&B4&m&B5&B6). unfold turned.
    ands; [|congruence|congruence|congruence| |tauto|tauto].
    + intros x. rewrite A1. unfold put. destruct (x =? e); [reflexivity|apply B1].
    + exists (m ++ l). rewrite A5, B5, app_assoc, told_app, A6, B6. auto.
  - unfold turned. ands; auto; [|exists []; rewrite app_nil_r; auto]. intros x. unfold put. destruct (x =? e) eqn:E; [|reflexivity].
    apply Z.eqb_eq in E. subst x. unfold view. rewrite T. reflexivity.
Qed.
Lemma delete_alive : forall e w, w_budget w = None -> w_prog w = Running ->
  hush w (delete_database_transaction e w) /\ w_budget (delete_database_transaction e w) = None /\ w_prog (delete_database_transaction e w) = Running.
Proof.
  intros e w B P. unfold delete_database_transaction, transaction_get. destruct (pop_fail w) as [b w1] eqn:E.
  destruct (pop_alive _ _ _ E) as (X&Y). apply hush_pop in E.
  destruct (if b then None else find (fun r => r_evse r =? e) (w_rows w1)); [|ands; auto; congruence].
  destruct (statement_alive (delete_row (r_id r)) w1 ltac:(congruence) ltac:(congruence)) as (U&V). ands; auto.
  eapply hush_trans; [exact E|apply hush_statement].
Qed.
Lemma open_turned : forall e c id tok cs w, w_budget w = None -> w_prog w = Running -> w_prog (open_transaction e c id tok cs w) = Running ->
  turned e (Some (KTx id c cs (match tok with Some _ => true | None => false end) None None)) w (open_transaction e c id tok cs w) /\
  exists t, w_tx (open_transaction e c id tok cs w) e = Some t /\
    kview t = KTx id c cs (match tok with Some _ => true | None => false end) None None.
Proof.
  intros e c id tok cs w B P H.
  assert (G : turned e (Some (KTx id c cs (match tok with Some _ => true | None => false end) None None)) w (open_transaction e c id tok cs w)).
  { unfold open_transaction in *. destruct (negb _); [discriminate|]. cbv zeta in *.
    set (t := Tx id c 0 cs _ None None (w_resume w) false) in *.
    assert (X : turned e (Some (kview t)) w (put_tx e (Some t) w)) by exact (put_turned e (Some t) w B P).
    change (KTx id c cs _ None None) with (kview t).
    destruct (w_resume w); [|exact X]. pose proof X as (_&_&_&_&_&XB&XP). set (w1 := put_tx e (Some t) w) in *.
    destruct (statement_alive (insert_row (row_of_tx e t)) w1 XB XP) as (U&V). pose proof (hush_statement (insert_row (row_of_tx e t)) w1) as HS.
    unfold insert_tx in *. destruct (statement (insert_row (row_of_tx e t)) w1) as [w2 ok]. cbn [fst] in *.
    assert (X2 : turned e (Some (kview t)) w w2) by (eapply turned_hush; eauto). destruct ok; [exact X2|].
    pose proof H as H0. apply seq_inv in H. destruct H as (H1&H2). rewrite H2 in H0 |- *. clear H2. destruct (delete_alive e w2 U V) as (D1&D2&D3).
    set (w3 := delete_database_transaction e w2) in *.
    assert (X3 : turned e (Some (kview t)) w w3) by (eapply turned_hush; eauto).
    destruct (statement_alive (insert_row (row_of_tx e t)) w3 D2 D3) as (U3&V3). pose proof (hush_statement (insert_row (row_of_tx e t)) w3) as HS3.
    destruct (statement (insert_row (row_of_tx e t)) w3) as [w4 ok2]. cbn [fst] in *.
    assert (X4 : turned e (Some (kview t)) w w4) by (eapply turned_hush; eauto). destruct ok2; [exact X4|].
    discriminate H0. }
  split; [exact G|]. destruct G as (G&_). specialize (G e). unfold put in G. rewrite Z.eqb_refl in G. unfold view in G.
  destruct (w_tx (open_transaction e c id tok cs w) e) as [t|]; [|discriminate]. exists t. split; [reflexivity|]. injection G. intros. unfold kview. congruence.
Qed.
Lemma turned_talk : forall e k w w1, turned e k w w1 -> same_talk (talk_of w1) (Talk (put (view w) e k) (pending w)).
Proof. intros e k w w1 (A&B&_). split; cbn; [exact A|]. intros x. unfold pending. rewrite B. reflexivity. Qed.
Lemma turned_speaks : forall e k s l w w1 w2, turned e k w w1 -> speaks s l w1 w2 -> speaks s l w w2.
Proof.
  intros e k s l w w1 w2 (_&_&H3&H4&(y&H5&H6)&_) (A&B&C&D&x&E&F). unfold speaks. ands; auto; try congruence.
  exists (y ++ x). rewrite E, H5, app_assoc, told_app, F, H6. auto.
Qed.
Lemma turned_tx : forall e k w w1, turned e (Some k) w w1 -> exists t, w_tx w1 e = Some t /\ kview t = k.
Proof.
  intros e k w w1 (G&_). specialize (G e). unfold put in G. rewrite Z.eqb_refl in G. unfold view in G.
  destruct (w_tx w1 e) as [t|]; [|discriminate]. exists t. split; [reflexivity|]. injection G as <-. reflexivity.
Qed.
Lemma get_alive : forall e w, w_prog w = Running -> w_prog (get_evse e w) = Running -> get_evse e w = w /\ known_evseb (w_con w) e = true.
Proof.
  intros e w P H. unfold get_evse in *. rewrite <- evse_ok_known. destruct (evse_ok w e); [auto|discriminate].
Qed.
Lemma known_pos : forall con e, known_evseb con e = true -> 0 < e.
Proof. intros con e K. apply knownb in K. destruct K. lia. Qed.
Lemma update_turned : forall e k tr tok w w1, turned e (Some k) w w1 -> sorted (w_remote w) ->
  let s := Talk (put (view w) e (Some k)) (pending w) in
  speaks (fst (update_msg (w_txcb w) e tr tok s)) (snd (update_msg (w_txcb w) e tr tok s)) w (send_event e Updated tr None tok w1).
Proof.
  intros e k tr tok w w1 T S. cbv zeta. pose proof T as (_&T2&T3&_&_&TB&TP). assert (S1 : sorted (w_remote w1)) by congruence.
  destruct (update_speaks e tr tok w1 TB TP S1) as (_&_&A). rewrite T3 in A. apply (turned_speaks _ _ _ _ _ _ _ T) in A.
  destruct (update_ext (w_txcb w) e tr tok _ _ (turned_talk _ _ _ _ T)) as (X&Y). rewrite X in A. eapply speaks_same; [exact A|exact Y].
Qed.
Lemma start_says : forall e c id tr tok rid cs w, w_budget w = None -> w_prog w = Running -> sorted (w_remote w) ->
  let w1 := on_started e c id tr tok rid cs w in w_prog w1 = Running ->
  let r := say (w_con w) (w_txcb w) (talk_of w) (OStart e c id tr tok rid cs) in speaks (fst r) (snd r) w w1.
Proof.
  intros e c id tr tok rid cs w B P S. cbv zeta. unfold on_started. intros H. pose proof H as H0.
  apply seq_inv in H. destruct H as (H1&H2). rewrite H2 in *. clear H2. destruct (get_alive e w P H1) as (G&K). rewrite G in *. clear G H1.
  pose proof H0 as H. apply seq_inv in H. destruct H as (H1&H2). rewrite H2 in *. clear H2.
  destruct (open_turned e c id tok cs w B P H1) as (T1&t&T2&T3). set (w1 := open_transaction e c id tok cs w) in *.
  pose proof T1 as (_&_&_&_&_&B1&P1).
  assert (T4 := remote_turned e rid t w1 B1 P1 T2). set (w2 := set_remote e rid w1) in *. pose proof T4 as (_&_&_&_&_&B2&P2).
  rewrite seqw_run by exact P2. fold w2. pose proof (turned_twice _ _ _ _ _ _ T1 T4) as T.
  destruct (turned_tx _ _ _ _ T4) as (u&U1&U2). pose proof T as (_&E2&E3&_).
  destruct (send_speaks e Started tr (Some (e, c)) tok u w2 B2 P2 ltac:(congruence)) as (_&_&A).
  { intros f d Q. injection Q as <- <-. eapply known_pos; eauto. }
  { exact U1. }
  unfold kview in T3, U2. injection T3 as I1 I2 I3 I4 I5 I6. injection U2 as J1 J2 J3 J4 J5 J6.
  rewrite J1, J3, J5, J6, I1, I3, I5 in A. rewrite E3 in A.
  assert (PE : pending w2 = pending w) by (unfold pending; rewrite E2; reflexivity). rewrite PE in A.
  apply (turned_speaks _ _ _ _ _ _ _ T) in A. cbn [say talk_of t_view t_pend].
  destruct (deliver (w_txcb w) (pending w) _) as [p l]. cbn [fst snd] in *. eapply speaks_same; [exact A|].
  split; [|reflexivity]. intros x. cbn [t_view]. destruct T as (T&_). rewrite T. rewrite I1, I2, I3, I4, I5. reflexivity.
Qed.
Lemma finish_says : forall e reason tr tok cs w, w_budget w = None -> w_prog w = Running -> sorted (w_remote w) ->
  let w1 := on_finished e reason tr tok cs w in w_prog w1 = Running ->
  let r := say (w_con w) (w_txcb w) (talk_of w) (OFinish e reason tr tok cs) in speaks (fst r) (snd r) w w1.
Proof.
  intros e reason tr tok cs w B P S. cbv zeta. unfold on_finished. intros H. pose proof H as H0.
  apply seq_inv in H. destruct H as (H1&H2). rewrite H2 in *. clear H2. destruct (get_alive e w P H1) as (G&K). rewrite G in *. clear G H1.
  unfold active in *. cbn [say talk_of t_view t_pend]. destruct (w_tx w e) as [t|] eqn:T; cbn [negb] in *.
  - rewrite (view_some _ _ _ T). unfold kview. cbn [k_id k_remote].
    assert (T1 := charging_turned e cs t w B P T). pose proof T1 as (_&_&_&_&_&B1&P1). rewrite seqw_run in * by exact P1.
    set (w1 := set_charging e cs w) in *. destruct (turned_tx _ _ _ _ T1) as (t1&Q1&Q2).
    assert (T2 := close_turned e reason t1 w1 B1 P1 Q1). pose proof T2 as (_&_&_&_&_&B2&P2). rewrite seqw_run in * by exact P2.
    set (w2 := close_transaction e reason w1) in *. destruct (turned_tx _ _ _ _ T2) as (t2&R1&R2).
    pose proof (turned_twice _ _ _ _ _ _ T1 T2) as TT. pose proof TT as (V&E2&E3&_).
    destruct (send_speaks e Ended tr None (match tr with StopAuthorized => tok | _ => None end) t2 w2 B2 P2 ltac:(congruence) ltac:(intros; discriminate) R1) as (P3&B3&A).
    rewrite seqw_run in * by exact P3. set (w3 := send_event e Ended tr None _ w2) in *.
    unfold kview in Q2, R2. injection Q2 as I1 I2 I3 I4 I5 I6. injection R2 as J1 J2 J3 J4 J5 J6.
    rewrite J1, J3, J5, J6, I1, I3, I6 in A. rewrite E3 in A.
    assert (PE : pending w2 = pending w) by (unfold pending; rewrite E2; reflexivity). rewrite PE in A.
    apply (turned_speaks _ _ _ _ _ _ _ TT) in A.
    assert (T4 := release_turned e w3 B3 P3). pose proof T4 as (_&_&_&_&_&B4&P4). rewrite seqw_run in * by exact P4.
    set (w4 := release_transaction e w3) in *.
    match goal with |- speaks _ _ _ ?x => assert (HU : hush w4 x) end.
    { apply (hushed_seq (finish_reset e) (handle_scheduled e ;; handle_scheduled 0)); [apply hush_finish_reset| |exact P4].
      apply hushed_seq; apply hush_scheduled. }
    destruct (deliver (w_txcb w) (pending w) _) as [p l]. cbn [fst snd] in *.
    eapply speaks_hush; [|exact HU]. destruct A as ((A1&A2)&A3&A4&A5&x&A6&A7). destruct T4 as (V4&F2&F3&F4&(y&F5&F6)&_). unfold speaks.
    ands; try congruence.
    + split; cbn in *.
      * intros z. rewrite V4. unfold put. destruct (z =? e) eqn:ZE; [reflexivity|]. rewrite A1, V. unfold put. rewrite ZE. reflexivity.
      * intros z. unfold pending. rewrite F2. apply A2.
    + exists (x ++ y). rewrite F5, A6, app_assoc, told_app, A7, F6, app_nil_r. auto.
  - assert (N : view w e = None) by (unfold view; rewrite T; reflexivity). rewrite N. apply silent; [exact S|apply hush_refl].
Qed.
Lemma update_all_silent : forall cb tr l s, (forall e, In e l -> t_view s e = None) -> update_all cb tr l s = (s, []).
Proof.
  induction l as [|e q IH]; intros s H; [reflexivity|]. cbn [update_all]. unfold update_msg at 1. rewrite (H e (or_introl eq_refl)).
  rewrite IH by (intros x X; apply H; right; exact X). reflexivity.
Qed.
Lemma emit_goes : forall o w, w_budget w = None -> w_prog w = Running -> w_budget (emit o w) = None /\ w_prog (emit o w) = Running.
Proof. intros o w B P. unfold emit, durable. rewrite B. cbn. auto. Qed.
Lemma trigger_says : forall ev w, w_budget w = None -> w_prog w = Running -> sorted (w_remote w) ->
  let w1 := trigger_event ev w in w_prog w1 = Running ->
  let r := say (w_con w) (w_txcb w) (talk_of w) (OTrigger ev) in speaks (fst r) (snd r) w w1.
Proof.
  intros ev w B P S. cbv zeta. unfold trigger_event. intros H. pose proof H as H0.
  apply seq_inv in H. destruct H as (H1&H2). rewrite H2 in *. clear H2.
  assert (G : (match ev with Some e => get_evse e | None => skip end) w = w).
  { destruct ev as [e|]; [|reflexivity]. apply get_alive; auto. }
  rewrite G in *. clear G H1.
  set (ok := match ev with Some e => active w e | None => any_active w end) in *.
  destruct (emit_goes (OTrigResp (if ok then Accepted else Rejected)) w B P) as (B1&P1).
  assert (HE := hush_emit (OTrigResp (if ok then Accepted else Rejected)) w eq_refl).
  rewrite seqw_run by exact P1. set (w1 := emit (OTrigResp (if ok then Accepted else Rejected)) w) in *. clear H0.
  destruct ok eqn:OK.
  - pose proof HE as (_&E2&E3&E4&_). assert (S1 : sorted (w_remote w1)) by congruence.
    assert (A := all_speaks Trigger (match ev with Some e => [e] | None => evses w end) w1 B1 P1 S1). cbv zeta in A.
    eapply hush_speaks; [exact HE|]. rewrite E3 in A.
    destruct (all_ext (w_txcb w) Trigger (match ev with Some e => [e] | None => evses w end) _ _ (hush_talk _ _ HE)) as (X&Y). rewrite X in A.
    apply (fun a => speaks_same _ _ _ _ _ a Y) in A.
    destruct ev as [e|]; cbn [say].
    + cbn [update_all] in A. destruct (update_msg (w_txcb w) e Trigger None (talk_of w)) as [s1 l1]. cbn [fst snd] in *. rewrite app_nil_r in A. exact A.
    + rewrite evses_ids in *. exact A.
  - subst ok. unfold skip.
    assert (Z : say (w_con w) (w_txcb w) (talk_of w) (OTrigger ev) = (talk_of w, [])).
    { destruct ev as [e|]; cbn [say].
      - unfold update_msg. cbn [talk_of t_view]. assert (N : view w e = None) by (unfold view; unfold active in OK; destruct (w_tx w e); [discriminate|reflexivity]).
        rewrite N. reflexivity.
      - apply update_all_silent. intros e I. cbn. unfold view. unfold any_active in OK. rewrite evses_ids in OK.
        assert (N : active w e = false). { destruct (active w e) eqn:Q; [|reflexivity]. rewrite <- OK. symmetry. apply existsb_exists. eauto. }
        unfold active in N. destruct (w_tx w e); [discriminate|reflexivity]. }
    rewrite Z. apply silent; auto.
Qed.
(** A call that returns normally says what the specification says. *)
Lemma exec_says : forall o w, o <> ORestart -> w_budget w = None -> w_prog w = Running -> sorted (w_remote w) -> w_prog (exec o w) = Running ->
  let r := say (w_con w) (w_txcb w) (talk_of w) o in speaks (fst r) (snd r) w (exec o w).
Proof.
  intros o w NR B P S H. cbv zeta. destruct o; cbn [exec] in *.
  - apply start_says; auto.
  - apply finish_says; auto.
  - unfold on_authorized in *. pose proof H as H0. apply seq_inv in H0. destruct H0 as (H1&H2). rewrite H2. clear H2.
    destruct (get_alive e w P H1) as (G&_). rewrite G in *. cbn [say talk_of t_view t_pend]. destruct (w_tx w e) as [t|] eqn:T.
    + rewrite (view_some _ _ _ T). unfold kview. cbn [k_id k_conn k_cs k_tok k_reason k_remote]. destruct (t_tok t); [apply silent; [exact S|apply hush_refl]|].
      assert (T1 := tok_turned e t w B P T). pose proof T1 as (_&_&_&_&_&_&P1). rewrite seqw_run by exact P1. apply update_turned; auto.
    + assert (N : view w e = None) by (unfold view; rewrite T; reflexivity). rewrite N. apply silent; [exact S|apply hush_refl].
  - unfold on_charging in *. pose proof H as H0. apply seq_inv in H0. destruct H0 as (H1&H2). rewrite H2. clear H2.
    destruct (get_alive e w P H1) as (G&_). rewrite G in *. cbn [say talk_of t_view t_pend]. destruct (w_tx w e) as [t|] eqn:T.
    + rewrite (view_some _ _ _ T). unfold kview. cbn [k_id k_conn k_cs k_tok k_reason k_remote]. destruct (t_cs t =? cs); [apply silent; [exact S|apply hush_refl]|].
      assert (T1 := charging_turned e cs t w B P T). pose proof T1 as (_&_&_&_&_&_&P1). rewrite seqw_run by exact P1. apply update_turned; auto.
    + assert (N : view w e = None) by (unfold view; rewrite T; reflexivity). rewrite N. apply silent; [exact S|apply hush_refl].
  - unfold on_meter_timer in *. cbn [say]. destruct (w_tx w e) as [t|] eqn:T.
    + apply update_speaks; auto.
    + unfold update_msg. cbn [talk_of t_view]. assert (N : view w e = None) by (unfold view; rewrite T; reflexivity). rewrite N. apply silent; [exact S|apply hush_refl].
  - apply trigger_says; auto.
  - apply silent; [exact S|apply hush_reset; exact P].
  - apply silent; [exact S|apply hush_change; exact P].
  - apply silent; [exact S|apply hush_firmware; exact P].
  - apply silent; [exact S|apply hush_restore; exact P].
  - cbn [say fst snd]. unfold speaks. cbn. ands; auto; [|apply sorted_put; exact S|exists []; rewrite app_nil_r; auto].
    split; [reflexivity|]. intros k. cbn. unfold pending. cbn. rewrite get_put. reflexivity.
  - apply silent; [exact S|apply hush_response].
  - apply silent; [exact S|]. unfold get_transaction_status. apply hush_emit. destruct id; reflexivity.
  - apply silent; [exact S|apply hush_same; reflexivity].
  - congruence.
Qed.

(** ** Histories *)
Definition ordered (w w1 : world) : Prop := sorted (w_remote w) -> sorted (w_remote w1).
Lemma ordered_refl : forall w, ordered w w.
Proof. intros w H. exact H. Qed.
Lemma ordered_trans : forall a b c, ordered a b -> ordered b c -> ordered a c.
Proof. unfold ordered. auto. Qed.
Lemma ordered_same : forall w w1, w_remote w1 = w_remote w -> ordered w w1.
Proof. intros w w1 E H. rewrite E. exact H. Qed.
Lemma ordered_hush : forall w w1, hush w w1 -> ordered w w1.
Proof. intros w w1 (_&E&_). apply ordered_same. exact E. Qed.
Definition orderly (f : world -> world) : Prop := forall w, w_prog w = Running -> ordered w (f w).
Lemma orderly_seq : forall f g, orderly f -> orderly g -> orderly (f ;; g).
Proof. apply respects_seq. apply ordered_trans. Qed.
Lemma orderly_foreach : forall A (l : list A) f, (forall x, In x l -> orderly (f x)) -> orderly (foreach l f).
Proof. apply respects_foreach; [apply ordered_refl|apply ordered_trans]. Qed.
Lemma ordered_put : forall e v w, ordered w (put_tx e v w).
Proof. intros. apply ordered_same. reflexivity. Qed.
Lemma ordered_emit : forall o w, ordered w (emit o w).
Proof. intros. apply ordered_same. unfold emit, durable. destruct (w_budget w) as [[|n]|]; reflexivity. Qed.
Lemma ordered_statement : forall f w, ordered w (fst (statement f w)).
Proof. intros. apply ordered_hush, hush_statement. Qed.
Lemma ordered_open : forall e c id tok cs, orderly (open_transaction e c id tok cs).
Proof.
  intros e c id tok cs w P. unfold open_transaction. destruct (negb _); [apply ordered_hush, hush_throw|]. cbv zeta.
  set (t := Tx id c 0 cs _ None None (w_resume w) false). destruct (w_resume w); [|apply ordered_put]. unfold insert_tx.
  assert (X := ordered_trans _ _ _ (ordered_put e (Some t) w) (ordered_statement (insert_row (row_of_tx e t)) _)).
  assert (PS : w_prog (fst (statement (insert_row (row_of_tx e t)) (put_tx e (Some t) w))) = Running \/
               snd (statement (insert_row (row_of_tx e t)) (put_tx e (Some t) w)) = true).
  { unfold statement. destruct (pop_fail _) as [b w1] eqn:E. destruct (pop_alive _ _ _ E) as (_&Y). cbn in Y.
    destruct b; [left; cbn; congruence|]. destruct (insert_row _ _); [right; reflexivity|left; cbn; congruence]. }
  destruct (statement _ _) as [w2 ok]. cbn [fst snd] in *. destruct ok; [exact X|]. destruct PS as [PS|PS]; [|discriminate].
  eapply ordered_trans; [exact X|]. apply orderly_seq; [| |exact PS].
  - intros y _. unfold delete_database_transaction, transaction_get. destruct (pop_fail y) as [b y1] eqn:E. apply hush_pop, ordered_hush in E.
    destruct (if b then None else _); [|exact E]. eapply ordered_trans; [exact E|apply ordered_statement].
  - intros y _. assert (Y := ordered_statement (insert_row (row_of_tx e t)) y). destruct (statement _ y) as [y1 ok]. cbn [fst] in Y.
    destruct ok; [exact Y|]. eapply ordered_trans; [exact Y|apply ordered_hush, hush_throw].
Qed.
Lemma ordered_req : forall v, orderly (transaction_event_req v).
Proof.
  intros v w P. unfold transaction_event_req.
  assert (X : forall a b, orderly (emit a ;; (if w_txcb w then emit b else skip))).
  { intros a b. apply orderly_seq; [intros y _; apply ordered_emit|]. destruct (w_txcb w); [intros y _; apply ordered_emit|intros y _; apply ordered_refl]. }
  destruct (find _ _) as [p|]; [|apply X; exact P].
  apply ordered_trans with (set_w_remote (map_erase (fst p) (w_remote w)) w); [intros H; apply sorted_erase; exact H|]. apply X. exact P.
Qed.
Lemma ordered_send : forall e k tr ev tok, orderly (send_event e k tr ev tok).
Proof.
  intros e k tr ev tok w P. unfold send_event. destruct (w_tx w e); [|apply ordered_refl].
  apply orderly_seq; [intros y _; apply ordered_hush, hush_seq_no|apply ordered_req|exact P].
Qed.
Lemma ordered_get : forall e, orderly (get_evse e).
Proof. intros e w _. apply ordered_hush, hush_get. Qed.
Lemma ordered_release : forall e, orderly (release_transaction e).
Proof.
  intros e w P. unfold release_transaction. destruct (w_tx w e); [|apply ordered_refl]. destruct (pop_fail w) as [b w1] eqn:E.
  destruct (pop_alive _ _ _ E) as (_&Y). apply hush_pop, ordered_hush in E. eapply ordered_trans; [exact E|].
  apply orderly_seq; [|intros y _; apply ordered_put|congruence]. intros y _. destruct b; [apply ordered_refl|apply ordered_statement].
Qed.
Lemma ordered_exec : forall o, is_restart o = false -> orderly (exec o).
Proof.
  intros o NR w P. destruct o; cbn [exec]; try discriminate.
  - unfold on_started. apply orderly_seq; [apply ordered_get| |exact P]. apply orderly_seq; [apply ordered_open|].
    apply orderly_seq; [|apply ordered_send]. intros y _. unfold set_remote. destruct (w_tx y e); [apply ordered_put|apply ordered_refl].
  - unfold on_finished. apply orderly_seq; [apply ordered_get| |exact P]. intros x PX. destruct (negb _); [apply ordered_refl|].
    apply orderly_seq; [| |exact PX]; [intros y _; unfold set_charging; destruct (w_tx y e); [apply ordered_put|apply ordered_refl]|].
    apply orderly_seq; [intros y _; unfold close_transaction; destruct (w_tx y e); [apply ordered_put|apply ordered_refl]|].
    apply orderly_seq; [apply ordered_send|]. apply orderly_seq; [apply ordered_release|].
    intros y PY. apply ordered_hush. apply hushed_seq; [apply hush_finish_reset| |exact PY]. apply hushed_seq; apply hush_scheduled.
  - unfold on_authorized. apply orderly_seq; [apply ordered_get| |exact P]. intros x PX. destruct (w_tx x e); [|apply ordered_refl].
    destruct (t_tok t); [apply ordered_refl|]. apply orderly_seq; [|apply ordered_send|exact PX]. intros y _. unfold set_id_token_sent.
    destruct (w_tx y e); [|apply ordered_refl]. cbv zeta. destruct (t_db t0); [|apply ordered_put].
    eapply ordered_trans; [apply ordered_put|apply ordered_statement].
  - unfold on_charging. apply orderly_seq; [apply ordered_get| |exact P]. intros x PX. destruct (w_tx x e); [|apply ordered_refl].
    destruct (t_cs t =? cs); [apply ordered_refl|]. apply orderly_seq; [|apply ordered_send|exact PX]. intros y _. unfold set_charging.
    destruct (w_tx y e); [apply ordered_put|apply ordered_refl].
  - unfold on_meter_timer. destruct (w_tx w e); [apply ordered_send; exact P|apply ordered_refl].
  - unfold trigger_event. apply orderly_seq; [destruct e; [apply ordered_get|intros y _; apply ordered_refl]| |exact P]. intros x PX.
    cbv zeta. apply orderly_seq; [intros y _; apply ordered_emit| |exact PX].
    match goal with |- orderly (if ?b then _ else _) => destruct b end; [|intros y _; apply ordered_refl].
    apply orderly_foreach. intros y _. apply ordered_send.
  - apply ordered_hush, hush_reset; exact P.
  - apply ordered_hush, hush_change; exact P.
  - apply ordered_hush, hush_firmware; exact P.
  - apply ordered_hush, hush_restore; exact P.
  - intros H. apply sorted_put. exact H.
  - apply ordered_hush, hush_response.
  - apply ordered_emit.
  - apply ordered_same. reflexivity.
Qed.
Lemma sorted_boot : forall w, sorted (w_remote (boot w)).
Proof.
  intros w. unfold boot. apply orderly_foreach; [|reflexivity|exact I]. intros e _ x _. unfold construct_evse.
  assert (G : forall r (y : world), transaction_get e x = (r, y) -> ordered x y).
  { unfold transaction_get. intros r y H. destruct (pop_fail x) as [b x1] eqn:E. apply hush_pop, ordered_hush in E. injection H as _ <-. exact E. }
  destruct (w_resume x).
  - unfold try_resume_transaction. destruct (transaction_get e x) as [r y]. specialize (G _ _ eq_refl). destruct r as [r|]; [|exact G].
    destruct (has_connector y e (r_conn r)); (eapply ordered_trans; [exact G|]); [apply ordered_put|apply ordered_statement].
  - unfold delete_database_transaction. destruct (transaction_get e x) as [r y]. specialize (G _ _ eq_refl). destruct r as [r|]; [|exact G].
    eapply ordered_trans; [exact G|apply ordered_statement].
Qed.
Lemma sorted_step : forall w k, sorted (w_remote w) -> sorted (w_remote (step w k)).
Proof.
  intros w k H. unfold step. cbv zeta.
  match goal with |- context [exec (c_op k) ?x] => set (w0 := x) end.
  assert (S : sorted (w_remote (exec (c_op k) w0))).
  { destruct (is_restart (c_op k)) eqn:R; [|apply ordered_exec; [exact R|reflexivity|exact H]]. destruct (c_op k); try discriminate. apply sorted_boot. }
  destruct (w_prog (exec (c_op k) w0)); auto. apply sorted_boot.
Qed.
Lemma sorted_run : forall h w, sorted (w_remote w) -> sorted (w_remote (run w h)).
Proof. induction h as [|k q IH]; intros w H; [exact H|]. apply IH, sorted_step, H. Qed.
Lemma step_says : forall w k, c_crash k = None -> is_restart (c_op k) = false -> sorted (w_remote w) -> w_prog (step w k) = Running ->
  let r := say (w_con w) (w_txcb w) (talk_of w) (c_op k) in speaks (fst r) (snd r) w (step w k).
Proof.
  intros w k C NR S H. rewrite step_alive in * by assumption.
  match type of H with context [exec (c_op k) ?x] => set (w0 := x) in * end.
  assert (NO : c_op k <> ORestart) by (intros E; rewrite E in NR; discriminate).
  assert (X := exec_says (c_op k) w0 NO). cbv zeta in *. specialize (X ltac:(first [reflexivity|exact C]) eq_refl S H).
  exact X.
Qed.
Lemma say_ext : forall con cb o a b, same_talk a b ->
  snd (say con cb a o) = snd (say con cb b o) /\ same_talk (fst (say con cb a o)) (fst (say con cb b o)).
Proof.
  intros con cb o a b S. pose proof S as (V&P).
  assert (PU : forall e k p q, (forall x, p x = q x) -> forall x, put p e k x = put (A:=option known_tx) q e k x).
  { intros e k p q E x. unfold put. rewrite E. reflexivity. }
  assert (N : snd (a, @nil (bool * content)) = snd (b, @nil (bool * content)) /\ same_talk (fst (a, @nil (bool * content))) (fst (b, @nil (bool * content)))) by (split; auto).
  destruct o; cbn [say]; try exact N.
  - destruct (deliver_ext cb _ _ (Content Started id tr cs None rid (Some (e, c)) tok) P) as (X&Y).
    destruct (deliver cb (t_pend a) _) as [p1 l1], (deliver cb (t_pend b) _) as [p2 l2]. cbn [fst snd] in *. split; [exact X|].
    split; cbn; [apply PU; exact V|exact Y].
  - rewrite V. destruct (t_view b e) as [t|]; [|exact N].
    destruct (deliver_ext cb _ _ (Content Ended (k_id t) tr cs (Some reason) (k_remote t) None (match tr with StopAuthorized => tok | _ => None end)) P) as (X&Y).
    destruct (deliver cb (t_pend a) _) as [p1 l1], (deliver cb (t_pend b) _) as [p2 l2]. cbn [fst snd] in *. split; [exact X|].
    split; cbn; [apply PU; exact V|exact Y].
  - rewrite V. destruct (t_view b e) as [t|]; [|exact N]. destruct (k_tok t); [exact N|]. apply update_ext. split; cbn; [apply PU; exact V|exact P].
  - rewrite V. destruct (t_view b e) as [t|]; [|exact N]. destruct (k_cs t =? cs); [exact N|]. apply update_ext. split; cbn; [apply PU; exact V|exact P].
  - apply update_ext. exact S.
  - destruct e; [apply update_ext|apply all_ext]; exact S.
  - cbn [fst snd]. split; [reflexivity|]. split; cbn; [exact V|]. intros x. unfold put. rewrite P. reflexivity.
Qed.
Lemma say_all_ext : forall con cb h a b, same_talk a b ->
  snd (say_all con cb a h) = snd (say_all con cb b h) /\ same_talk (fst (say_all con cb a h)) (fst (say_all con cb b h)).
Proof.
  induction h as [|k q IH]; intros a b S; [split; auto|]. cbn [say_all]. destruct (say_ext con cb (c_op k) a b S) as (A&B).
  destruct (say con cb a (c_op k)) as [a1 x1], (say con cb b (c_op k)) as [b1 y1]. cbn [fst snd] in *.
  destruct (IH a1 b1 B) as (C&D). destruct (say_all con cb a1 q), (say_all con cb b1 q). cbn [fst snd] in *. split; [congruence|exact D].
Qed.
Lemma run_says : forall h w, no_crashes h -> no_restarts h -> sorted (w_remote w) -> returning w h ->
  let r := say_all (w_con w) (w_txcb w) (talk_of w) h in speaks (fst r) (snd r) w (run w h).
Proof.
  induction h as [|k q IH]; intros w C R S H; [cbn; apply silent; [exact S|apply hush_refl]|]. cbv zeta. cbn [say_all].
  inversion C as [|k1 q1 C1 C2]; subst. inversion R as [|k1 q1 R1 R2]; subst. cbn in H. destruct H as (H1&H2).
  assert (A := step_says w k C1 R1 S H1). cbv zeta in A. change (run w (k :: q)) with (run (step w k) q).
  destruct (say (w_con w) (w_txcb w) (talk_of w) (c_op k)) as [s1 l1]. cbn [fst snd] in A. destruct A as (A1&A2&A3&A4&x&A5&A6).
  specialize (IH (step w k) C2 R2 A2 H2). cbv zeta in IH. rewrite A3, A4 in IH.
  destruct (say_all_ext (w_con w) (w_txcb w) q _ _ A1) as (X&Y).
  destruct (say_all (w_con w) (w_txcb w) (talk_of (step w k)) q) as [s2 b], (say_all (w_con w) (w_txcb w) s1 q) as [s3 c]. cbn [fst snd] in *. subst c.
  eapply speaks_same; [|exact Y]. destruct IH as (I1&I2&I3&I4&y&I5&I6). unfold speaks. ands; auto; try congruence.
  exists (x ++ y). rewrite I5, A5, app_assoc, told_app, A6, I6. auto.
Qed.
