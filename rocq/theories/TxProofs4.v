(** Resets: what every call does to the scheduled resets, the running transactions and the reset callbacks. *)
From Coq Require Import ZArith List Bool Lia.
From Verif Require Import TxModel TxSpec TxProofs TxProofs2.
From Verif Require CsmModel.
Import ListNotations.
Local Open Scope Z_scope.

Ltac ands := repeat match goal with |- _ /\ _ => split end.
Ltac none := exists (@nil out); rewrite app_nil_r; split; reflexivity.

(** No crash: what is left alone by everything that is not a reset and neither starts nor ends a transaction. *)
Definition calm (w w1 : world) : Prop :=
  w_budget w = None -> w_prog w <> Dead ->
  w_budget w1 = None /\ w_prog w1 <> Dead /\ w_con w1 = w_con w /\ w_rs w1 = w_rs w /\ w_rids w1 = w_rids w /\
  (exists l, w_out w1 = w_out w ++ l /\ resets l = []) /\ (forall e, busy_of w1 e = busy_of w e).
Lemma calm_refl : forall w, calm w w.
Proof. intros w B P. ands; auto. none. Qed.
Lemma resets_app : forall a b, resets (a ++ b) = resets a ++ resets b.
Proof. induction a as [|o q IH]; intros b; cbn; [reflexivity|]. destruct o; rewrite ?IH; reflexivity. Qed.
Lemma calm_trans : forall a b c, calm a b -> calm b c -> calm a c.
Proof.
  intros a b c A B X Y. destruct (A X Y) as (A1&A2&A3&A4&A5&(l&A6&A7)&A8).
  destruct (B A1 A2) as (B1&B2&B3&B4&B5&(m&B6&B7)&B8).
  split; [exact B1|]. split; [exact B2|]. split; [congruence|]. split; [congruence|]. split; [congruence|]. split.
  - exists (l ++ m). rewrite B6, A6, app_assoc. split; [reflexivity|]. rewrite resets_app, A7, B7. reflexivity.
  - intros e. rewrite B8. apply A8.
Qed.
Notation calmly := (respects calm).
Lemma calmly_seq : forall f g, calmly f -> calmly g -> calmly (f ;; g).
Proof. apply respects_seq. apply calm_trans. Qed.
Lemma calmly_skip : calmly skip.
Proof. apply respects_skip. apply calm_refl. Qed.
Lemma calmly_foreach : forall A (l : list A) f, (forall x, In x l -> calmly (f x)) -> calmly (foreach l f).
Proof. apply respects_foreach; [apply calm_refl|apply calm_trans]. Qed.
Lemma calm_plain : forall (g : world -> world), (forall w, w_budget (g w) = w_budget w /\ w_prog (g w) = w_prog w /\
  w_con (g w) = w_con w /\ w_rs (g w) = w_rs w /\ w_rids (g w) = w_rids w /\ w_out (g w) = w_out w /\
  (forall e, busy_of (g w) e = busy_of w e)) -> calmly g.
Proof.
  intros g G w _ B P. destruct (G w) as (A1&A2&A3&A4&A5&A6&A7). rewrite A1, A2, A3, A4, A5, A6.
  ands; auto. none.
Qed.
Ltac calmplain := apply calm_plain; intros; cbn; auto 10.
Lemma if_calm : forall (b : bool) f g, calmly f -> calmly g -> calmly (if b then f else g).
Proof. intros [] f g F G; assumption. Qed.
Definition no_reset (o : out) : bool := match o with OReset _ _ => false | _ => true end.
Lemma calm_emit : forall o, no_reset o = true -> calmly (emit o).
Proof.
  intros o N w P B D. unfold emit, durable. rewrite B. cbn. ands; auto.
  exists [o]. split; [reflexivity|]. destruct o; try discriminate; reflexivity.
Qed.
Lemma calm_throw : calmly throw.
Proof. intros w P B D. cbn. ands; auto; [discriminate|]. none. Qed.
Lemma calm_pop : forall w b w1, pop_fail w = (b, w1) -> calm w w1 /\ w_prog w1 = w_prog w /\ w_budget w1 = w_budget w.
Proof.
  intros w b w1 H. unfold pop_fail in H. destruct (w_fail w); inversion H; subst; [split; [apply calm_refl|auto]|].
  split; [|auto]. intros B D. cbn. ands; auto. none.
Qed.
Lemma resets_av : forall l, resets (map OAv l) = [].
Proof. induction l; auto. Qed.
Lemma calm_csm : forall o, calmly (csm o).
Proof.
  intros o w P B D. unfold csm, durable. rewrite B. destruct (CsmModel.step (w_csm w) o) as [[s outs] r]. cbn.
  split; [auto|]. split; [rewrite P; destruct r; discriminate|]. ands; auto.
  exists (map OAv outs). split; [reflexivity|apply resets_av].
Qed.
Lemma calm_get_evse : forall e, calmly (get_evse e).
Proof. intros e w P. unfold get_evse. destruct (evse_ok w e); [apply calm_refl|apply calm_throw; exact P]. Qed.
Lemma calm_set_cs : forall v p, calmly (set_cs_operative v p).
Proof.
  intros v p w P. unfold set_cs_operative. destruct (pop_fail w) as [f w1] eqn:F. destruct (calm_pop _ _ _ F) as (C&P1&_).
  eapply calm_trans; [exact C|]. apply calm_csm. congruence.
Qed.
Lemma calm_set_evse : forall e v p, calmly (set_evse_operative e v p).
Proof.
  intros e v p. apply calmly_seq; [apply calm_get_evse|]. intros w P.
  destruct (pop_fail w) as [f w1] eqn:F. destruct (calm_pop _ _ _ F) as (C&P1&_).
  destruct (pop_fail w1) as [f2 w2] eqn:F2. destruct (calm_pop _ _ _ F2) as (C2&P2&_).
  eapply calm_trans; [exact C|]. eapply calm_trans; [exact C2|]. apply calm_csm. congruence.
Qed.
Lemma calm_set_conn : forall e c v p, calmly (set_conn_operative e c v p).
Proof.
  intros e c v p. apply calmly_seq; [apply calm_get_evse|]. intros w P. destruct (negb _); [apply calm_throw; exact P|].
  destruct (pop_fail w) as [f w1] eqn:F. destruct (calm_pop _ _ _ F) as (C&P1&_).
  eapply calm_trans; [exact C|]. apply calm_csm. congruence.
Qed.
Lemma calm_connectors : forall e, calmly (connectors_unavailable e).
Proof.
  intros e w P. unfold connectors_unavailable.
  match goal with |- calm w (foreach ?l ?f w) => apply (calmly_foreach _ l f); [|exact P] end. intros c _. apply calm_set_conn.
Qed.
Lemma calm_notify : calmly notify_all_unavailable.
Proof. intros w P. unfold notify_all_unavailable. destruct (_ && _); [apply calm_emit; auto|apply calm_refl]. Qed.
Lemma calm_execute : forall r p, calmly (execute r p).
Proof.
  intros r p w P. unfold execute. destruct (q_evse r) as [[e [c|]]|];
    [apply calm_set_conn|apply calm_set_evse|apply calm_set_cs]; exact P.
Qed.
Lemma calm_sched : forall k, calmly (handle_scheduled k).
Proof.
  intros k w P. unfold handle_scheduled. destruct (map_get k (w_sched w)) as [[r p]|]; [|apply calm_refl].
  revert P. revert w. apply calmly_seq.
  - intros w P. unfold check_target. destruct (q_evse r) as [[e c]|]; [apply calm_get_evse; exact P|apply calm_refl].
  - intros w P. destruct (affected_active w (q_evse r)); [apply calm_refl|]. revert P. revert w.
    apply calmly_seq; [apply calm_execute|]. apply calmly_seq; [calmplain|apply calm_notify].
Qed.
Lemma calm_change_valid : forall r, calmly (change_availability_valid r).
Proof.
  intros r w P. unfold change_availability_valid. set (act := affected_active w (q_evse r)).
  set (now := _ || _). revert P. generalize act now. clear act now. intros act now. revert w.
  apply calmly_seq; [calmplain|]. apply calmly_seq; [apply calm_emit; auto|]. intros w P.
  destruct (negb act); [apply calm_execute; exact P|]. destruct now; [apply calm_refl|].
  destruct (_ =? 0).
  - match goal with |- calm w (foreach ?l ?f w) => apply (calmly_foreach _ l f); [|exact P] end.
    intros e _ w1 P1. destruct (active w1 e); [apply calm_refl|apply calm_set_evse; exact P1].
  - revert P. revert w. apply calmly_seq; [apply calm_get_evse|]. intros w P.
    match goal with |- calm w (foreach ?l ?f w) => apply (calmly_foreach _ l f); [|exact P] end.
    intros c _ w1 P1. destruct (active_on w1 _ c); [apply calm_refl|apply calm_set_conn; exact P1].
Qed.
Lemma calm_change : forall r, calmly (handle_change_availability r).
Proof.
  intros r w P. unfold handle_change_availability. destruct (q_evse r) as [[e c]|] eqn:E; [|apply calm_change_valid; exact P].
  destruct (_ && _); [apply calm_throw; exact P|]. destruct (negb _); [apply calm_emit; auto|].
  rewrite <- E. revert P. revert w. apply calmly_seq.
  - intros w P. unfold check_target. rewrite E. apply calm_get_evse; exact P.
  - apply calmly_seq; [|apply calm_change_valid]. intros w P. unfold check_state. rewrite E. destruct c.
    + destruct (CsmModel.check_conn _ _ _); solve [apply calm_refl|apply calm_throw; exact P].
    + destruct (CsmModel.check_evse _ _); solve [apply calm_refl|apply calm_throw; exact P].
Qed.
Lemma calm_firmware : calmly firmware_unavailable.
Proof.
  intros w P. unfold firmware_unavailable. destruct (negb (any_active w)).
  - revert P. match goal with |- _ -> calm w ((?f ;; ?g) w) => apply (calmly_seq f g) end; [|apply calm_notify].
    apply calmly_foreach. intros e _ w1 P1. destruct (active w1 e); [apply calm_refl|]. apply calm_connectors; exact P1.
  - match goal with |- calm w (foreach ?l ?f w) => apply (calmly_foreach _ l f); [|exact P] end.
    intros e _ w1 P1. destruct (active w1 e); [|apply calm_connectors; exact P1]. revert P1. revert w1. calmplain.
Qed.
Lemma calm_restore : calmly restore_all.
Proof.
  intros w P. unfold restore_all.
  match goal with |- calm w (foreach ?l ?f w) => apply (calmly_foreach _ l f); [|exact P] end. intros e _ w1 P1.
  match goal with |- calm w1 (foreach ?l ?f w1) => apply (calmly_foreach _ l f); [|exact P1] end. intros c _. apply calm_csm.
Qed.
Lemma calm_retx : forall e t t1 w, w_tx w e = Some t -> calm w (put_tx e (Some t1) w).
Proof.
  intros e t t1 w T B D. cbn. ands; auto; [none|].
  intros f. unfold busy_of. cbn. unfold CsmModel.fupd. destruct (f =? e) eqn:E; [|reflexivity].
  apply Z.eqb_eq in E. subst f. rewrite T. reflexivity.
Qed.
Lemma calm_set_charging : forall e cs, calmly (set_charging e cs).
Proof. intros e cs w P. unfold set_charging. destruct (w_tx w e) eqn:T; [|apply calm_refl]. eapply calm_retx; eauto. Qed.
Lemma calm_set_remote : forall e rid, calmly (set_remote e rid).
Proof. intros e cs w P. unfold set_remote. destruct (w_tx w e) eqn:T; [|apply calm_refl]. eapply calm_retx; eauto. Qed.
Lemma calm_close : forall e r, calmly (close_transaction e r).
Proof. intros e cs w P. unfold close_transaction. destruct (w_tx w e) eqn:T; [|apply calm_refl]. eapply calm_retx; eauto. Qed.
Lemma calm_set_max : forall e, calmly (set_max e).
Proof. intros e w P. unfold set_max. destruct (w_tx w e) eqn:T; [|apply calm_refl]. eapply calm_retx; eauto. Qed.
Lemma calm_statement : forall f w, w_prog w = Running -> calm w (fst (statement f w)).
Proof.
  intros f w P. unfold statement. destruct (pop_fail w) as [b w1] eqn:E. destruct (calm_pop _ _ _ E) as (C&P1&B1).
  destruct b; [exact C|]. destruct (f (w_rows w1)); [|exact C]. eapply calm_trans; [exact C|]. cbn.
  intros B D. unfold durable. rewrite B. cbn. ands; auto. none.
Qed.
Lemma statement_prog : forall f w, w_budget w = None -> w_prog (fst (statement f w)) = w_prog w.
Proof.
  intros f w B. unfold statement, pop_fail. destruct (w_fail w) as [|[] q]; cbn; auto;
    destruct (f (w_rows w)); cbn; auto; unfold durable; cbn; rewrite B; reflexivity.
Qed.
Lemma calm_set_tok : forall e, calmly (set_id_token_sent e).
Proof.
  intros e w P. unfold set_id_token_sent. destruct (w_tx w e) as [t|] eqn:T; [|apply calm_refl].
  destruct (t_db t); [|eapply calm_retx; eauto]. eapply calm_trans; [eapply calm_retx; eauto|]. apply calm_statement. exact P.
Qed.
Lemma calm_get_seq : forall e, calmly (get_seq_no e).
Proof.
  intros e w P. unfold get_seq_no. destruct (w_tx w e) as [t|] eqn:T; [|apply calm_refl].
  destruct (t_db t); [|eapply calm_retx; eauto]. eapply calm_trans; [eapply calm_retx; eauto|]. apply calm_statement. exact P.
Qed.
Lemma calm_req : forall v, calmly (transaction_event_req v).
Proof.
  intros v w P. unfold transaction_event_req. destruct (find _ _) as [p|].
  - match goal with |- calm w ((?f ;; ?g) ?u) => assert (C : calm u ((f ;; g) u)) end.
    { match goal with |- calm ?x ((?f ;; ?g) ?x) => apply (calmly_seq f g) end;
        [apply calm_emit; reflexivity|apply if_calm; [apply calm_emit; reflexivity|apply calmly_skip]|exact P]. }
    eapply calm_trans; [|exact C]. intros B D. cbn. ands; auto. none.
  - match goal with |- calm ?x ((?f ;; ?g) ?x) => apply (calmly_seq f g) end;
      [apply calm_emit; reflexivity|apply if_calm; [apply calm_emit; reflexivity|apply calmly_skip]|exact P].
Qed.
Lemma calm_send : forall e k tr ev tok, calmly (send_event e k tr ev tok).
Proof.
  intros e k tr ev tok w P. unfold send_event. destruct (w_tx w e); [|apply calm_refl].
  match goal with |- calm ?x ((?f ;; ?g) ?x) => apply (calmly_seq f g) end; [apply calm_get_seq|apply calm_req|exact P].
Qed.
Lemma calm_response : forall v i s m, calmly (on_response v i s m).
Proof.
  intros v i s m w P. unfold on_response.
  destruct (v_kind v), i as [[]|], (v_tok v); try apply calm_refl;
    destruct (transaction_evseid w (v_id v)); try apply calm_refl;
    destruct s; try (apply calm_emit; [reflexivity|exact P]); destruct m; try (apply calm_emit; [reflexivity|exact P]);
    apply calm_set_max; exact P.
Qed.
Lemma calm_status : forall i q a, calmly (get_transaction_status i q a).
Proof. intros i q a w P. unfold get_transaction_status. apply calm_emit; [|exact P]. destruct i; reflexivity. Qed.
Lemma calm_delete_db : forall e, calmly (delete_database_transaction e).
Proof.
  intros e w P. unfold delete_database_transaction, transaction_get.
  destruct (pop_fail w) as [b w1] eqn:F. destruct (calm_pop _ _ _ F) as (C&P1&_).
  destruct (if b then None else _); [|exact C]. eapply calm_trans; [exact C|]. apply calm_statement. congruence.
Qed.

(** ** A machine for resets alone *)
Definition on_end (con : list Z) (busy : Z -> bool) (rs : bool) (rids : list Z) (e : Z)
  : bool * list Z * list (option Z * rtype) :=
  if rs then
    match rids with
    | [] => if any_busy con busy then (rs, rids, []) else (false, [], [(None, OnIdle)])
    | _ => if existsb (Z.eqb e) rids
           then (match set_erase e rids with [] => false | _ => true end, set_erase e rids, [(Some e, OnIdle)])
           else (rs, rids, [])
    end
  else (rs, rids, []).
Definition waits (con : list Z) (busy : Z -> bool) (ev : option Z) : bool :=
  match ev with Some e => busy e || any_busy con busy | None => any_busy con busy end.
Definition on_request (con : list Z) (busy : Z -> bool) (rs : bool) (rids : list Z) (ev : option Z) (ty : rtype)
  (allowed : bool) (allow : option bool) : bool * list Z * list (option Z * rtype) :=
  if match ev with Some e => known_evseb con e | None => true end && permitted ev allowed allow then
    if waits con busy ev && match ty with OnIdle => true | Immediate => false end
    then (true, match ev with Some e => set_insert e rids | None => rids end, [])
    else (rs, rids, [(ev, Immediate)])
  else (rs, rids, []).
Definition rmach (con : list Z) (busy : Z -> bool) (rs : bool) (rids : list Z) (o : op)
  : bool * list Z * list (option Z * rtype) :=
  match o with
  | OFinish e _ _ _ _ => if known_evseb con e && busy e then on_end con (update busy e false) rs rids e else (rs, rids, [])
  | OResetReq ev ty allowed allow => on_request con busy rs rids ev ty allowed allow
  | _ => (rs, rids, [])
  end.

Definition effect (busy : Z -> bool) (x : bool * list Z * list (option Z * rtype)) (w w1 : world) : Prop :=
  w_budget w1 = None /\ w_prog w1 <> Dead /\ w_con w1 = w_con w /\ w_rs w1 = fst (fst x) /\ w_rids w1 = snd (fst x) /\
  (exists l, w_out w1 = w_out w ++ l /\ resets l = snd x) /\ (forall e, busy_of w1 e = busy e).
Lemma effect_calm : forall busy x w w1 w2, effect busy x w w1 -> calm w1 w2 -> effect busy x w w2.
Proof.
  intros busy x w w1 w2 (A1&A2&A3&A4&A5&(l&A6&A7)&A8) C. destruct (C A1 A2) as (B1&B2&B3&B4&B5&(m&B6&B7)&B8).
  split; [exact B1|]. split; [exact B2|]. split; [congruence|]. split; [congruence|]. split; [congruence|]. split.
  - exists (l ++ m). rewrite B6, A6, app_assoc. split; [reflexivity|]. rewrite resets_app, A7, B7. apply app_nil_r.
  - intros e. rewrite B8. apply A8.
Qed.
Lemma calm_effect : forall busy x w w1 w2, calm w w1 -> w_budget w = None -> w_prog w <> Dead ->
  effect busy x w1 w2 -> effect busy x w w2.
Proof.
  intros busy x w w1 w2 C B D (A1&A2&A3&A4&A5&(l&A6&A7)&A8). destruct (C B D) as (B1&B2&B3&B4&B5&(m&B6&B7)&B8).
  split; [exact A1|]. split; [exact A2|]. split; [congruence|]. split; [congruence|]. split; [congruence|]. split; [|exact A8].
  exists (m ++ l). rewrite A6, B6, app_assoc. split; [reflexivity|]. rewrite resets_app, A7, B7. reflexivity.
Qed.
Lemma effect_of_calm : forall w w1, calm w w1 -> w_budget w = None -> w_prog w <> Dead ->
  effect (busy_of w) (w_rs w, w_rids w, []) w w1.
Proof. intros w w1 C B D. exact (C B D). Qed.
Lemma effect_ext : forall b b1 x w w1, effect b x w w1 -> (forall e, b e = b1 e) -> effect b1 x w w1.
Proof.
  intros b b1 x w w1 (A1&A2&A3&A4&A5&A6&A8) E. unfold effect. ands; auto. intros e. rewrite <- E. apply A8.
Qed.

Lemma evses_ids : forall w, evses w = evse_ids (w_con w).
Proof. intros w. unfold evses, nev, CsmModel.ids, evse_ids. rewrite Nat2Z.id. reflexivity. Qed.
Lemma any_active_busy : forall w, any_active w = any_busy (w_con w) (busy_of w).
Proof. intros w. unfold any_active, any_busy. rewrite evses_ids. reflexivity. Qed.
Lemma evse_ok_known : forall w e, evse_ok w e = known_evseb (w_con w) e.
Proof.
  intros w e. unfold evse_ok, known_evseb, nev. rewrite negb_orb. rewrite <- Z.ltb_antisym, <- Z.leb_antisym.
  f_equal. destruct (Z.ltb_spec 0 e), (Z.leb_spec 1 e); lia.
Qed.
Lemma has_connector_known : forall w e c, has_connector w e c = known_connectorb (w_con w) e c.
Proof. reflexivity. Qed.
Lemma any_busy_ext : forall con f g, (forall e, f e = g e) -> any_busy con f = any_busy con g.
Proof. intros con f g H. unfold any_busy. induction (evse_ids con) as [|e q IH]; cbn; [reflexivity|]. rewrite H, IH. reflexivity. Qed.

(** ** Ending a transaction *)
Lemma set_erase_idem : forall e l, set_erase e (set_erase e l) = set_erase e l.
Proof.
  induction l as [|x q IH]; cbn; [reflexivity|]. destruct (x =? e) eqn:E; cbn; [exact IH|]. rewrite E. cbn. f_equal. exact IH.
Qed.
Lemma emit_alive : forall o w, w_budget w = None -> emit o w = set_w_out (w_out w ++ [o]) w.
Proof. intros o w B. unfold emit, durable. rewrite B. reflexivity. Qed.
Lemma finish_reset_effect : forall e w, w_budget w = None -> w_prog w = Running ->
  effect (busy_of w) (on_end (w_con w) (busy_of w) (w_rs w) (w_rids w) e) w (finish_reset e w).
Proof.
  intros e w B P. assert (D : w_prog w <> Dead) by congruence. unfold finish_reset, on_end. rewrite any_active_busy.
  assert (SK : forall x, x = (w_rs w, w_rids w, []) -> effect (busy_of w) x w w) by (intros x ->; apply effect_of_calm; auto; apply calm_refl).
  destruct (w_rs w) eqn:RS; cbn [andb].
  - destruct (w_rids w) as [|a q] eqn:RI.
    + destruct (any_busy (w_con w) (busy_of w)); cbn [negb].
      * eapply effect_calm; [apply SK; rewrite <- RS, <- RI; reflexivity|].
        match goal with |- calm ?x ((?f ;; ?g) ?x) => apply (calmly_seq f g) end; [apply calm_connectors|apply calmly_skip|exact P].
      * rewrite seqw_run by exact P. unfold skip at 1. rewrite seqw_run.
        2:{ rewrite seqw_run; rewrite emit_alive by exact B; exact P. }
        rewrite seqw_run by (rewrite emit_alive by exact B; exact P). rewrite emit_alive by exact B. cbn.
        unfold effect; cbn. rewrite RI. ands; auto. eexists; split; reflexivity.
    + rewrite seqw_run by exact P. change (skip w) with w. destruct (existsb (Z.eqb e) (a :: q)) eqn:EX.
      * match goal with |- effect _ _ _ ((?f ;; ?g) w) => assert (H1 : f w = (let v := set_w_rids (set_erase e (w_rids w)) (set_w_out (w_out w ++ [OReset (Some e) OnIdle]) w) in
            match set_erase e (w_rids w) with [] => set_w_rs false v | _ => v end)) end.
        { rewrite seqw_run by (rewrite emit_alive by exact B; exact P). rewrite emit_alive by exact B.
          rewrite seqw_run by exact P. cbn. reflexivity. }
        rewrite seqw_run; rewrite H1; cbv zeta.
        2:{ destruct (set_erase e (w_rids w)); exact P. }
        rewrite <- RI in *. clear H1.
        assert (X : exists b, b = match set_erase e (w_rids w) with [] => false | _ => true end) by eauto.
        destruct (set_erase e (w_rids w)) as [|x y] eqn:SE; cbn.
        -- unfold effect. cbn. ands; auto. eexists; split; reflexivity.
        -- unfold effect. cbn. assert (S2 : set_erase e (x :: y) = x :: y) by (rewrite <- SE; apply set_erase_idem).
           unfold set_erase in S2. cbn in S2. rewrite RS. ands; auto. eexists; split; reflexivity.
      * unfold skip. apply SK. congruence.
  - rewrite seqw_run by exact P. unfold skip. apply SK. congruence.
Qed.

(** ** Functions that neither throw nor die *)
Definition smooth (f : world -> world) : Prop := forall w, w_budget w = None -> w_prog w = Running ->
  w_budget (f w) = None /\ w_prog (f w) = Running.
Lemma smooth_seq : forall f g, smooth f -> smooth g -> smooth (f ;; g).
Proof. intros f g F G w B P. destruct (F w B P) as (B1&P1). rewrite seqw_run by exact P1. auto. Qed.
Lemma smooth_skip : smooth skip.
Proof. intros w B P. auto. Qed.
Lemma smooth_emit : forall o, smooth (emit o).
Proof. intros o w B P. rewrite emit_alive by exact B. auto. Qed.
Lemma smooth_statement : forall f, smooth (fun w => fst (statement f w)).
Proof.
  intros f w B P. rewrite statement_prog by exact B. split; [|exact P].
  apply (calm_statement f w P B). congruence.
Qed.
Lemma smooth_put : forall e v, smooth (put_tx e v).
Proof. intros e v w B P. auto. Qed.
Lemma smooth_set_charging : forall e cs, smooth (set_charging e cs).
Proof. intros e cs w B P. unfold set_charging. destruct (w_tx w e); auto. Qed.
Lemma smooth_set_remote : forall e cs, smooth (set_remote e cs).
Proof. intros e cs w B P. unfold set_remote. destruct (w_tx w e); auto. Qed.
Lemma smooth_close : forall e cs, smooth (close_transaction e cs).
Proof. intros e cs w B P. unfold close_transaction. destruct (w_tx w e); auto. Qed.
Lemma smooth_get_seq : forall e, smooth (get_seq_no e).
Proof.
  intros e w B P. unfold get_seq_no. destruct (w_tx w e) as [t|]; [|auto]. destruct (t_db t); [|auto].
  apply (smooth_statement (update_seq (t_id t) (t_seq (with_seq (i32 (t_seq t + 1)) t)))); assumption.
Qed.
Lemma smooth_req : forall v, smooth (transaction_event_req v).
Proof.
  intros v w B P. unfold transaction_event_req. destruct (find _ _);
    match goal with |- context [(?f ;; ?g) ?u] => apply (smooth_seq f g); try assumption end; try apply smooth_emit;
    destruct (w_txcb w); solve [apply smooth_emit|apply smooth_skip].
Qed.
Lemma smooth_send : forall e k tr ev tok, smooth (send_event e k tr ev tok).
Proof.
  intros e k tr ev tok w B P. unfold send_event. destruct (w_tx w e); [|auto].
  match goal with |- context [(?f ;; ?g) ?u] => apply (smooth_seq f g); try assumption end; [apply smooth_get_seq|apply smooth_req].
Qed.
Lemma smooth_pop : forall w, w_budget w = None -> w_prog w = Running ->
  w_budget (snd (pop_fail w)) = None /\ w_prog (snd (pop_fail w)) = Running.
Proof. intros w B P. unfold pop_fail. destruct (w_fail w); auto. Qed.
Lemma release_effect : forall e w, w_budget w = None -> w_prog w = Running ->
  w_prog (release_transaction e w) = Running /\
  effect (update (busy_of w) e false) (w_rs w, w_rids w, []) w (release_transaction e w).
Proof.
  intros e w B P. assert (D : w_prog w <> Dead) by congruence.
  unfold release_transaction. destruct (w_tx w e) as [t|] eqn:T.
  - destruct (pop_fail w) as [bad w1] eqn:F. destruct (calm_pop _ _ _ F) as (C&P1&B1). rewrite B in B1. rewrite P in P1.
    set (g := fun w => if bad then w else fst (statement (delete_row (t_id t)) w)).
    assert (G : smooth g).
    { intros w2 B2 P2. unfold g. destruct bad; [auto|]. apply (smooth_statement (delete_row (t_id t))); assumption. }
    assert (GC : calm w (g w1)).
    { eapply calm_trans; [exact C|]. unfold g. destruct bad; [apply calm_refl|]. apply calm_statement. exact P1. }
    destruct (G w1 B1 P1) as (B2&P2). rewrite seqw_run by exact P2. split; [exact P2|].
    destruct (GC B D) as (A1&A2&A3&A4&A5&(l&A6&A7)&A8). unfold effect. cbn. ands; auto; [exists l; auto|].
    intros f. unfold busy_of, update. cbn. unfold CsmModel.fupd. destruct (f =? e); [reflexivity|]. apply A8.
  - split; [exact P|]. apply (effect_ext (busy_of w)).
    + apply effect_of_calm; auto. apply calm_refl.
    + intros f. unfold update. destruct (f =? e) eqn:E; [|reflexivity]. apply Z.eqb_eq in E. subst f. unfold busy_of. rewrite T. reflexivity.
Qed.
Lemma on_end_ext : forall con f g rs rids e, (forall x, f x = g x) -> on_end con f rs rids e = on_end con g rs rids e.
Proof. intros. unfold on_end. rewrite (any_busy_ext con f g) by assumption. reflexivity. Qed.
Lemma finished_effect : forall e reason tr tok cs w, w_budget w = None -> w_prog w = Running ->
  effect (track (w_con w) (busy_of w) (OFinish e reason tr tok cs)) (rmach (w_con w) (busy_of w) (w_rs w) (w_rids w) (OFinish e reason tr tok cs))
         w (on_finished e reason tr tok cs w).
Proof.
  intros e reason tr tok cs w B P. assert (D : w_prog w <> Dead) by congruence. cbn [track rmach]. unfold on_finished.
  pose proof (evse_ok_known w e) as K. destruct (known_evseb (w_con w) e) eqn:KE.
  - assert (GE : get_evse e w = w) by (unfold get_evse; rewrite K; reflexivity).
    rewrite seqw_run by (rewrite GE; exact P). rewrite GE. cbn [andb]. unfold active.
    destruct (busy_of w e) eqn:BE; unfold busy_of in BE.
    + destruct (w_tx w e) as [t|] eqn:T; [|discriminate]. cbn [negb].
      set (tk := match tr with StopAuthorized => tok | _ => None end).
      destruct (smooth_set_charging e cs w B P) as (B1&P1). rewrite seqw_run by exact P1.
      destruct (smooth_close e reason _ B1 P1) as (B2&P2). rewrite seqw_run by exact P2.
      destruct (smooth_send e Ended tr None tk _ B2 P2) as (B3&P3). rewrite seqw_run by exact P3.
      set (w3 := send_event e Ended tr None tk (close_transaction e reason (set_charging e cs w))) in *.
      assert (C3 : calm w w3).
      { eapply calm_trans; [apply (calm_set_charging e cs w P)|]. eapply calm_trans; [apply (calm_close e reason _ P1)|].
        apply calm_send. exact P2. }
      destruct (release_effect e w3 B3 P3) as (P4&E4). rewrite seqw_run by exact P4.
      destruct (C3 B D) as (_&_&C4&C5&C6&(l3&C7&C8)&C9).
      destruct E4 as (F1&F2&F3&F4&F5&(l4&F6&F7)&F8). set (w4 := release_transaction e w3) in *.
      assert (U : forall f, busy_of w4 f = update (busy_of w) e false f).
      { intros f. rewrite F8. unfold update. destruct (f =? e); [reflexivity|apply C9]. }
      pose proof (finish_reset_effect e w4 F1 P4) as E5.
      cbn [fst snd] in F4, F5, F7.
      rewrite F3, C4, F4, C5, F5, C6, (on_end_ext _ _ _ _ _ _ U) in E5.
      set (x := on_end _ _ _ _ _) in *.
      assert (E6 : effect (update (busy_of w) e false) x w (finish_reset e w4)).
      { destruct E5 as (G1&G2&G3&G4&G5&(l5&G6&G7)&G8). unfold effect. ands; auto; [congruence| |].
        - exists (l3 ++ l4 ++ l5). rewrite G6, F6, C7, !app_assoc. split; [reflexivity|].
          rewrite !resets_app, C8, F7, G7. reflexivity.
        - intros f. rewrite G8. apply U. }
      destruct (w_prog (finish_reset e w4)) eqn:P5.
      * rewrite seqw_run by exact P5. eapply effect_calm; [exact E6|].
        match goal with |- calm ?x ((?f ;; ?g) ?x) => apply (calmly_seq f g) end; [apply calm_sched|apply calm_sched|exact P5].
      * rewrite seqw_stop by congruence. exact E6.
      * destruct E6 as (_&E6&_). congruence.
    + destruct (w_tx w e) as [t|] eqn:T; [discriminate|]. cbn [negb]. apply (effect_ext (busy_of w)).
      * apply effect_of_calm; auto. apply calm_refl.
      * intros f. unfold update. destruct (f =? e) eqn:E; [|reflexivity]. apply Z.eqb_eq in E. subst f. unfold busy_of. rewrite T. reflexivity.
  - assert (GE : get_evse e w = throw w) by (unfold get_evse; rewrite K; reflexivity).
    rewrite seqw_stop by (rewrite GE; discriminate). rewrite GE. cbn [andb]. apply effect_of_calm; auto. apply calm_throw. exact P.
Qed.

(** ** Reset requests *)
Lemma filter_existsb : forall (f : Z -> bool) l, match filter f l with [] => false | _ => true end = existsb f l.
Proof. induction l as [|a q IH]; cbn; [reflexivity|]. destruct (f a); [reflexivity|exact IH]. Qed.
Lemma stop_each : forall l, smooth (foreach l (fun e => emit (OStopTx e ImmediateReset))).
Proof. induction l as [|a q IH]; cbn [foreach]; [apply smooth_skip|]. apply smooth_seq; [apply smooth_emit|exact IH]. Qed.
Lemma request_effect : forall ev ty allowed allow w, w_budget w = None -> w_prog w = Running ->
  effect (busy_of w) (on_request (w_con w) (busy_of w) (w_rs w) (w_rids w) ev ty allowed allow) w (handle_reset ev ty allowed allow w).
Proof.
  intros ev ty allowed allow w B P. assert (D : w_prog w <> Dead) by congruence. unfold handle_reset, on_request.
  assert (KN : match ev with Some e => known_evseb (w_con w) e | None => true end = true \/
               exists e, ev = Some e /\ known_evseb (w_con w) e = false).
  { destruct ev as [e|]; [|auto]. destruct (known_evseb (w_con w) e) eqn:K; eauto. }
  destruct KN as [KN|(e&->&KN)].
  2:{ rewrite KN. cbn [andb]. assert (GE : get_evse e w = throw w) by (unfold get_evse; rewrite evse_ok_known, KN; reflexivity).
      rewrite seqw_stop by (rewrite GE; discriminate). rewrite GE. apply effect_of_calm; auto. apply calm_throw. exact P. }
  rewrite KN. cbn [andb].
  assert (G : (match ev with Some e => get_evse e | None => skip end) w = w).
  { destruct ev as [e|]; [|reflexivity]. unfold get_evse. rewrite evse_ok_known, KN. reflexivity. }
  rewrite seqw_run by (rewrite G; exact P). rewrite G. cbv beta zeta.
  set (own := match ev with Some e => active w e | None => false end).
  set (busy := if own then match ev with Some e => [e] | None => [] end else filter (active w) (evses w)).
  set (idle := if own then [] else filter (fun e => negb (active w e)) (evses w)).
  assert (ACT : match busy with [] => false | _ => true end = waits (w_con w) (busy_of w) ev).
  { unfold busy, own, waits. rewrite evses_ids. destruct ev as [e|].
    - unfold active at 1. unfold busy_of at 1. destruct (w_tx w e); cbn [orb]; [reflexivity|]. apply filter_existsb.
    - apply filter_existsb. }
  rewrite ACT.
  assert (OK : allowed && match ev with None => true | Some _ => match allow with Some b => b | None => true end end = permitted ev allowed allow).
  { unfold permitted. destruct ev, allow; reflexivity. }
  rewrite OK. set (ok := permitted ev allowed allow). set (act := waits _ _ _).
  set (onidle := match ty with OnIdle => true | Immediate => false end).
  assert (CR : forall v s, w_prog v = Running -> calm v (emit (OResetResp s) v)) by (intros; apply calm_emit; auto).
  destruct ok; cbn [andb].
  2:{ rewrite seqw_run by exact P. change (skip w) with w. apply effect_of_calm; auto.
      match goal with |- calm ?x ((?f ;; ?g) ?x) => apply (calmly_seq f g) end; [apply calm_emit; reflexivity| |exact P].
      apply calmly_seq; apply calmly_skip. }
  destruct (act && onidle) eqn:AO.
  - apply andb_true_iff in AO. destruct AO as (A1&A2). rewrite A1. unfold onidle in A2. destruct ty; [discriminate|].
    cbn [negb].
    set (w1 := schedule_reset ev w).
    assert (P1 : w_prog w1 = Running) by (unfold w1; destruct ev; exact P).
    rewrite seqw_run by exact P1. fold w1.
    assert (E1 : effect (busy_of w) (true, match ev with Some e => set_insert e (w_rids w) | None => w_rids w end, []) w w1).
    { unfold w1, schedule_reset, effect. destruct ev; cbn; ands; auto; none. }
    eapply effect_calm; [exact E1|].
    match goal with |- calm ?x ((?f ;; ?g) ?x) => apply (calmly_seq f g) end; [apply calm_emit; reflexivity| |exact P1].
    apply calmly_seq; [|apply calmly_skip]. apply calmly_foreach. intros x _. apply calm_connectors.
  - rewrite seqw_run by exact P. change (skip w) with w. cbn [negb].
    destruct (smooth_emit (OResetResp Accepted) w B P) as (B1&P1). rewrite seqw_run by exact P1.
    set (w1 := emit (OResetResp Accepted) w) in *.
    set (mid := if act then match ty with Immediate => foreach busy (fun e => emit (OStopTx e ImmediateReset)) | OnIdle => foreach idle connectors_unavailable end else skip).
    assert (SM : smooth mid /\ calmly mid).
    { unfold mid. destruct act; [|split; [apply smooth_skip|apply calmly_skip]]. unfold onidle in AO. destruct ty; [|discriminate].
      split; [apply stop_each|]. apply calmly_foreach. intros x _. apply calm_emit. reflexivity. }
    destruct SM as (SM&CM). destruct (SM w1 B1 P1) as (B2&P2). rewrite seqw_run by exact P2.
    assert (C2 : calm w (mid w1)).
    { eapply calm_trans; [apply (CR w Accepted P)|]. apply CM. exact P1. }
    rewrite emit_alive by exact B2. destruct (C2 B D) as (H1&H2&H3&H4&H5&(l&H6&H7)&H8). unfold effect. cbn. ands; auto.
    exists (l ++ [OReset ev Immediate]). rewrite H6, app_assoc. split; [reflexivity|]. rewrite resets_app, H7. reflexivity.
Qed.

(** ** Starting a transaction *)
Lemma open_effect : forall e c id tok cs w, w_budget w = None -> w_prog w = Running ->
  effect (if has_connector w e c then update (busy_of w) e true else busy_of w) (w_rs w, w_rids w, []) w (open_transaction e c id tok cs w).
Proof.
  intros e c id tok cs w B P. assert (D : w_prog w <> Dead) by congruence. unfold open_transaction.
  destruct (has_connector w e c); cbn [negb]; [|apply effect_of_calm; auto; apply calm_throw; exact P].
  set (t := Tx id c 0 cs _ None None (w_resume w) false). set (w1 := put_tx e (Some t) w).
  assert (E1 : effect (update (busy_of w) e true) (w_rs w, w_rids w, []) w w1).
  { unfold effect. cbn. ands; auto; [none|]. intros f. unfold busy_of, update. cbn. unfold CsmModel.fupd. destruct (f =? e); reflexivity. }
  destruct (w_resume w); [|exact E1].
  pose proof (calm_statement (insert_row (row_of_tx e t)) w1 P) as C1.
  destruct (smooth_statement (insert_row (row_of_tx e t)) w1 B P) as (B2&P2). unfold insert_tx.
  destruct (statement (insert_row (row_of_tx e t)) w1) as [w2 ok]. cbn [fst] in *.
  destruct ok; [eapply effect_calm; eauto|]. eapply effect_calm; [eapply effect_calm; [exact E1|exact C1]|].
  match goal with |- calm ?x ((?f ;; ?g) ?x) => apply (calmly_seq f g) end; [apply calm_delete_db| |exact P2].
  intros w3 P3. pose proof (calm_statement (insert_row (row_of_tx e t)) w3 P3) as C3.
  pose proof (statement_prog (insert_row (row_of_tx e t)) w3) as S3.
  destruct (statement (insert_row (row_of_tx e t)) w3) as [w4 ok2]. cbn [fst] in *. destruct ok2; [exact C3|].
  intros B3 D3. apply (calm_trans _ _ _ C3); [|exact B3|exact D3]. apply calm_throw. rewrite S3; assumption.
Qed.
Lemma started_effect : forall e c id tr tok rid cs w, w_budget w = None -> w_prog w = Running ->
  effect (track (w_con w) (busy_of w) (OStart e c id tr tok rid cs)) (w_rs w, w_rids w, []) w (on_started e c id tr tok rid cs w).
Proof.
  intros e c id tr tok rid cs w B P. assert (D : w_prog w <> Dead) by congruence. cbn [track]. unfold on_started.
  pose proof (evse_ok_known w e) as K. rewrite <- has_connector_known. destruct (known_evseb (w_con w) e) eqn:KE; cbn [andb].
  - assert (GE : get_evse e w = w) by (unfold get_evse; rewrite K; reflexivity).
    rewrite seqw_run by (rewrite GE; exact P). rewrite GE.
    pose proof (open_effect e c id tok cs w B P) as E1. set (w1 := open_transaction e c id tok cs w) in *.
    destruct (w_prog w1) eqn:P1; [|rewrite seqw_stop by (fold w1; congruence); exact E1|destruct E1 as (_&E1&_); congruence].
    rewrite seqw_run by exact P1. fold w1. eapply effect_calm; [exact E1|].
    match goal with |- calm ?x ((?f ;; ?g) ?x) => apply (calmly_seq f g) end; [apply calm_set_remote|apply calm_send|exact P1].
  - assert (GE : get_evse e w = throw w) by (unfold get_evse; rewrite K; reflexivity).
    rewrite seqw_stop by (rewrite GE; discriminate). rewrite GE. apply effect_of_calm; auto. apply calm_throw. exact P.
Qed.

Lemma exec_effect : forall o w, is_restart o = false -> w_budget w = None -> w_prog w = Running ->
  effect (track (w_con w) (busy_of w) o) (rmach (w_con w) (busy_of w) (w_rs w) (w_rids w) o) w (exec o w).
Proof.
  intros o w NR B P. assert (D : w_prog w <> Dead) by congruence. destruct o; cbn [exec].
  - apply started_effect; assumption.
  - apply finished_effect; assumption.
  - apply effect_of_calm; auto. revert P. apply calmly_seq; [apply calm_get_evse|]. intros w1 P1.
    destruct (w_tx w1 e) as [t|]; [|apply calm_refl]. destruct (t_tok t); [apply calm_refl|]. revert P1.
    apply calmly_seq; [apply calm_set_tok|apply calm_send].
  - apply effect_of_calm; auto. revert P. apply calmly_seq; [apply calm_get_evse|]. intros w1 P1.
    destruct (w_tx w1 e) as [t|]; [|apply calm_refl]. destruct (t_cs t =? cs); [apply calm_refl|]. revert P1.
    apply calmly_seq; [apply calm_set_charging|apply calm_send].
  - apply effect_of_calm; auto. unfold on_meter_timer. destruct (w_tx w e); [|apply calm_refl]. apply calm_send. exact P.
  - apply effect_of_calm; auto. revert P. apply calmly_seq; [destruct e; [apply calm_get_evse|apply calmly_skip]|].
    intros w1 P1. cbv zeta. match goal with |- calm ?x ((?f ;; ?g) ?x) => apply (calmly_seq f g) end;
      [apply calm_emit; reflexivity| |exact P1].
    apply if_calm; [|apply calmly_skip]. apply calmly_foreach. intros x _. apply calm_send.
  - apply request_effect; assumption.
  - apply effect_of_calm; auto. apply calm_change. exact P.
  - apply effect_of_calm; auto. apply calm_firmware. exact P.
  - apply effect_of_calm; auto. apply calm_restore. exact P.
  - apply effect_of_calm; auto. revert P. revert w B D. intros w _ _. revert w. calmplain.
  - apply effect_of_calm; auto. apply calm_response. exact P.
  - apply effect_of_calm; auto. apply calm_status. exact P.
  - apply effect_of_calm; auto. revert P. revert w B D. intros w _ _. revert w. calmplain.
  - discriminate.
Qed.
Lemma step_effect : forall k w, is_restart (c_op k) = false -> c_crash k = None ->
  exists l, w_out (step w k) = w_out w ++ l /\
  (w_rs (step w k), w_rids (step w k), resets l) = rmach (w_con w) (busy_of w) (w_rs w) (w_rids w) (c_op k) /\
  w_con (step w k) = w_con w /\ (forall e, busy_of (step w k) e = track (w_con w) (busy_of w) (c_op k) e).
Proof.
  intros k w NR C. unfold step. set (w0 := set_w_prog Running _).
  pose proof (exec_effect (c_op k) w0 NR C eq_refl) as (E1&E2&E3&E4&E5&(l&E6&E7)&E8).
  exists l. destruct (w_prog (exec (c_op k) w0)); try congruence;
    (split; [exact E6|]; split; [|split; [exact E3|exact E8]]; rewrite E4, E5, E7;
     change (w_con w0) with (w_con w); change (busy_of w0) with (busy_of w); change (w_rs w0) with (w_rs w); change (w_rids w0) with (w_rids w);
     destruct (rmach _ _ _ _ _) as [[a b] c0]; reflexivity).
Qed.
