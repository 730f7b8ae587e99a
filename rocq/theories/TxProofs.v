(** Frame lemmas: what the functions of [TxModel] leave alone. *)
From Coq Require Import ZArith List Bool Lia.
From Verif Require Import TxModel TxSpec.
From Verif Require CsmModel.
Import ListNotations.
Local Open Scope Z_scope.

Lemma seqw_run : forall f g w, w_prog (f w) = Running -> (f ;; g) w = g (f w).
Proof. intros f g w H. unfold seqw. rewrite H. reflexivity. Qed.
Lemma seqw_stop : forall f g w, w_prog (f w) <> Running -> (f ;; g) w = f w.
Proof. intros f g w H. unfold seqw. destruct (w_prog (f w)); congruence. Qed.

(** Preorders between worlds lift through the control structures. *)
Section Rel.
Variable R : world -> world -> Prop.
Hypothesis Rrefl : forall w, R w w.
Hypothesis Rtrans : forall a b c, R a b -> R b c -> R a c.
Definition respects (f : world -> world) : Prop := forall w, w_prog w = Running -> R w (f w).
Lemma respects_seq : forall f g, respects f -> respects g -> respects (f ;; g).
Proof.
  intros f g F G w Hw. pose proof (F w Hw) as A. unfold seqw. destruct (w_prog (f w)) eqn:P; auto.
  eapply Rtrans; [exact A|]. apply G. exact P.
Qed.
Lemma respects_skip : respects skip.
Proof. intros w _. apply Rrefl. Qed.
Lemma respects_foreach : forall A (l : list A) f, (forall x, In x l -> respects (f x)) -> respects (foreach l f).
Proof.
  induction l as [|x q IH]; intros f H; cbn [foreach]; [apply respects_skip|].
  apply respects_seq; [apply H; left; reflexivity|]. apply IH. intros y I. apply H. right. exact I.
Qed.
End Rel.

(** The parts of the state the sequence numbers depend on. *)
Definition tkey (t : tx) := (t_id t, t_conn t, t_seq t, t_db t).
Definition rkey (r : row) := (r_id r, r_evse r, r_conn r, r_seq r).
Definition fine (w w' : world) : Prop :=
  (w_fail w = [] -> w_fail w' = []) /\
  (w_budget w = None -> w_budget w' = None /\ (w_prog w <> Dead -> w_prog w' <> Dead)) /\
  w_con w' = w_con w /\ w_resume w' = w_resume w /\ (length (w_out w) <= length (w_out w'))%nat.
Lemma fine_refl : forall w, fine w w.
Proof. intros w. unfold fine. intuition. Qed.
Lemma fine_trans : forall a b c, fine a b -> fine b c -> fine a c.
Proof.
  unfold fine. intros a b c (A1&A2&A3&A4&A5) (B1&B2&B3&B4&B5).
  split; [auto|]. split.
  { intros N. destruct (A2 N) as (X&Y). destruct (B2 X) as (U&V). auto. }
  split; [congruence|]. split; [congruence|lia].
Qed.
Definition quiet (w w' : world) : Prop :=
  fine w w' /\ map rkey (w_rows w') = map rkey (w_rows w) /\
  (forall e, option_map tkey (w_tx w' e) = option_map tkey (w_tx w e)) /\
  (forall id, events id (w_out w') = events id (w_out w)).
Lemma quiet_refl : forall w, quiet w w.
Proof. intros w. split; [apply fine_refl|auto]. Qed.
Lemma quiet_trans : forall a b c, quiet a b -> quiet b c -> quiet a c.
Proof.
  intros a b c (A1&A2&A3&A4) (B1&B2&B3&B4). split; [eapply fine_trans; eauto|].
  split; [congruence|]. split; intros; congruence.
Qed.
Notation quietly := (respects quiet).
Lemma quietly_seq : forall f g, quietly f -> quietly g -> quietly (f ;; g).
Proof. apply respects_seq. apply quiet_trans. Qed.
Lemma quietly_skip : quietly skip.
Proof. apply respects_skip. apply quiet_refl. Qed.
Lemma quietly_foreach : forall A (l : list A) f, (forall x, In x l -> quietly (f x)) -> quietly (foreach l f).
Proof. apply respects_foreach; [apply quiet_refl|apply quiet_trans]. Qed.

Lemma events_app : forall id a b, events id (a ++ b) = events id a ++ events id b.
Proof.
  induction a as [|o q IH]; intros b; [reflexivity|]. cbn [app events].
  destruct o; rewrite IH; auto. destruct (_ =? _); reflexivity.
Qed.
Definition silent (o : out) : bool := match o with OTx _ => false | _ => true end.
Lemma events_silent : forall id o, silent o = true -> events id [o] = [].
Proof. intros id o H. destruct o; [discriminate|reflexivity..]. Qed.

Lemma durable_quiet : forall g, (forall w, w_prog w = Running -> quiet w (g w)) -> quietly (durable g).
Proof.
  intros g G w P. unfold durable. destruct (w_budget w) as [[|n]|] eqn:B.
  - split; [|auto]. unfold fine. cbn. intuition (first [congruence|lia]).
  - assert (Q : quiet w (set_w_budget (Some n) w)).
    { split; [|auto]. unfold fine. cbn. intuition (first [congruence|lia]). }
    eapply quiet_trans; [exact Q|]. apply G. exact P.
  - apply G. exact P.
Qed.
Lemma emit_quiet : forall o, silent o = true -> quietly (emit o).
Proof.
  intros o S. apply durable_quiet. intros w P. split; [|split; [reflexivity|split; [reflexivity|]]].
  - unfold fine. cbn. rewrite app_length. intuition lia.
  - intros id. cbn. rewrite events_app, events_silent by exact S. apply app_nil_r.
Qed.
Lemma pop_quiet : forall w b w1, pop_fail w = (b, w1) -> quiet w w1 /\ w_prog w1 = w_prog w /\
  w_csm w1 = w_csm w /\ w_budget w1 = w_budget w /\ w_out w1 = w_out w /\ w_tx w1 = w_tx w /\ w_rows w1 = w_rows w /\
  (w_fail w = [] -> b = false).
Proof.
  intros w b w1 H. unfold pop_fail in H. destruct (w_fail w) eqn:F; inversion H; subst.
  - split; [apply quiet_refl|]. auto 10.
  - split; [split; [unfold fine; cbn; intuition (first [congruence|lia])|auto]|]. cbn. intuition congruence.
Qed.
Lemma events_av : forall id l, events id (map OAv l) = [].
Proof. induction l; auto. Qed.
Lemma csm_quiet : forall o, quietly (csm o).
Proof.
  intros o. apply durable_quiet. intros w P. destruct (CsmModel.step (w_csm w) o) as [[s outs] r].
  split; [|split; [reflexivity|split; [reflexivity|]]].
  - unfold fine. cbn. rewrite app_length, P.
    repeat match goal with |- _ /\ _ => split end; auto; [|lia]. intros; split; auto. intros _. destruct r; discriminate.
  - intros id. cbn. rewrite events_app, events_av. apply app_nil_r.
Qed.
Lemma throw_quiet : quietly throw.
Proof. intros w P. split; [|auto]. unfold fine. cbn. intuition (first [congruence|lia|discriminate]). Qed.
Lemma get_evse_quiet : forall e, quietly (get_evse e).
Proof. intros e w P. unfold get_evse. destruct (evse_ok w e); [apply quiet_refl|apply throw_quiet; exact P]. Qed.

Lemma set_cs_quiet : forall v p, quietly (set_cs_operative v p).
Proof.
  intros v p w P. unfold set_cs_operative. destruct (pop_fail w) as [f w1] eqn:F.
  destruct (pop_quiet _ _ _ F) as (Q&P1&_). eapply quiet_trans; [exact Q|]. apply csm_quiet. congruence.
Qed.
Lemma set_evse_quiet : forall e v p, quietly (set_evse_operative e v p).
Proof.
  intros e v p. apply quietly_seq; [apply get_evse_quiet|]. intros w P. destruct (pop_fail w) as [f w1] eqn:F.
  destruct (pop_fail w1) as [f2 w2] eqn:F2.
  destruct (pop_quiet _ _ _ F) as (Q&P1&_). destruct (pop_quiet _ _ _ F2) as (Q2&P2&_).
  eapply quiet_trans; [exact Q|]. eapply quiet_trans; [exact Q2|]. apply csm_quiet. congruence.
Qed.
Lemma set_conn_quiet : forall e c v p, quietly (set_conn_operative e c v p).
Proof.
  intros e c v p. apply quietly_seq; [apply get_evse_quiet|]. intros w P.
  destruct (negb (has_connector w e c)); [apply throw_quiet; exact P|].
  destruct (pop_fail w) as [f w1] eqn:F. destruct (pop_quiet _ _ _ F) as (Q&P1&_).
  eapply quiet_trans; [exact Q|]. apply csm_quiet. congruence.
Qed.
Lemma connectors_quiet : forall e, quietly (connectors_unavailable e).
Proof.
  intros e w P. unfold connectors_unavailable.
  apply (quietly_foreach _ (CsmModel.ids (ncon w e)) (fun c => set_conn_operative e c CsmModel.Inoperative false)); [|exact P].
  intros x _. apply set_conn_quiet.
Qed.
Lemma notify_quiet : quietly notify_all_unavailable.
Proof.
  intros w P. unfold notify_all_unavailable. destruct (_ && _); [|apply quiet_refl]. apply emit_quiet; auto.
Qed.
Lemma execute_quiet : forall r p, quietly (execute r p).
Proof.
  intros r p w P. unfold execute. destruct (q_evse r) as [[e [c|]]|].
  - apply set_conn_quiet; exact P.
  - apply set_evse_quiet; exact P.
  - apply set_cs_quiet; exact P.
Qed.
Lemma plain_quiet : forall (g : world -> world), (forall w, w_fail (g w) = w_fail w /\ w_budget (g w) = w_budget w /\
  w_prog (g w) = w_prog w /\ w_con (g w) = w_con w /\ w_resume (g w) = w_resume w /\ w_out (g w) = w_out w /\
  w_rows (g w) = w_rows w /\ w_tx (g w) = w_tx w) -> quietly g.
Proof.
  intros g G w P. destruct (G w) as (A1&A2&A3&A4&A5&A6&A7&A8).
  split; [unfold fine; rewrite A1, A2, A3, A4, A5, A6; intuition|]. rewrite A6, A7, A8. auto.
Qed.
Ltac plain := apply plain_quiet; intros; cbn; auto 10.
Lemma sched_quiet : forall k, quietly (handle_scheduled k).
Proof.
  intros k w P. unfold handle_scheduled. destruct (map_get k (w_sched w)) as [[r p]|]; [|apply quiet_refl].
  revert P. revert w. apply quietly_seq.
  - intros w P. unfold check_target. destruct (q_evse r) as [[e c]|]; [apply get_evse_quiet; exact P|apply quiet_refl].
  - intros w P. destruct (affected_active w (q_evse r)); [apply quiet_refl|]. revert P. revert w.
    apply quietly_seq; [apply execute_quiet|]. apply quietly_seq; [plain|apply notify_quiet].
Qed.
Lemma change_valid_quiet : forall r, quietly (change_availability_valid r).
Proof.
  intros r w P. unfold change_availability_valid. set (act := affected_active w (q_evse r)).
  set (now := _ || _). revert P. generalize act now. clear act now. intros act now. revert w.
  apply quietly_seq; [plain|]. apply quietly_seq; [apply emit_quiet; auto|]. intros w P.
  destruct (negb act); [apply execute_quiet; exact P|]. destruct now; [apply quiet_refl|].
  destruct (_ =? 0).
  - apply (quietly_foreach _ (evses w) (fun e w => if active w e then w else set_evse_operative e CsmModel.Inoperative false w)); [|exact P].
    intros e _ w1 P1. destruct (active w1 e); [apply quiet_refl|apply set_evse_quiet; exact P1].
  - revert P. revert w. apply quietly_seq; [apply get_evse_quiet|]. intros w P.
    set (k := target_key (q_evse r)).
    apply (quietly_foreach _ (CsmModel.ids (ncon w k)) (fun c w => if active_on w k c then w else set_conn_operative k c CsmModel.Inoperative false w)); [|exact P].
    intros c _ w1 P1. destruct (active_on w1 k c); [apply quiet_refl|apply set_conn_quiet; exact P1].
Qed.
Lemma change_quiet : forall r, quietly (handle_change_availability r).
Proof.
  intros r w P. unfold handle_change_availability. destruct (q_evse r) as [[e c]|] eqn:E; [|apply change_valid_quiet; exact P].
  destruct (_ && _); [apply throw_quiet; exact P|]. destruct (negb _); [apply emit_quiet; auto|].
  rewrite <- E. revert P. revert w. apply quietly_seq.
  - intros w P. unfold check_target. rewrite E. apply get_evse_quiet; exact P.
  - apply quietly_seq; [|apply change_valid_quiet]. intros w P. unfold check_state. rewrite E. destruct c.
    + destruct (CsmModel.check_conn _ _ _); solve [apply quiet_refl|apply throw_quiet; exact P].
    + destruct (CsmModel.check_evse _ _); solve [apply quiet_refl|apply throw_quiet; exact P].
Qed.
Ltac qseq := match goal with |- quiet ?w ((?f ;; ?g) ?w) => apply (quietly_seq f g) end; [| |assumption].
Lemma if_quiet : forall (b : bool) f g, quietly f -> quietly g -> quietly (if b then f else g).
Proof. intros [] f g F G; assumption. Qed.
Lemma finish_reset_quiet : forall e, quietly (finish_reset e).
Proof.
  intros e w P. unfold finish_reset. qseq.
  - apply if_quiet; [apply connectors_quiet|apply quietly_skip].
  - apply if_quiet; [|apply quietly_skip]. apply quietly_seq; [|plain]. destruct (w_rids w).
    + apply quietly_seq; [apply emit_quiet; reflexivity|plain].
    + apply quietly_seq; [apply emit_quiet; reflexivity|]. apply quietly_seq; [plain|].
      apply plain_quiet. intros w1. destruct (w_rids w1); cbn; auto 10.
Qed.
Lemma handle_reset_quiet : forall ev ty a b, quietly (handle_reset ev ty a b).
Proof.
  intros ev ty a b. apply quietly_seq; [destruct ev; [apply get_evse_quiet|apply quietly_skip]|].
  intros w P. cbv zeta. qseq.
  - apply if_quiet; [|apply quietly_skip]. destruct ev; plain.
  - apply quietly_seq; [apply emit_quiet; reflexivity|]. apply quietly_seq.
    + apply if_quiet; [|apply quietly_skip]. destruct ty; apply quietly_foreach; intros x _;
        [apply emit_quiet; reflexivity|apply connectors_quiet].
    + apply if_quiet; [apply emit_quiet; reflexivity|apply quietly_skip].
Qed.
Lemma firmware_quiet : quietly firmware_unavailable.
Proof.
  intros w P. unfold firmware_unavailable. destruct (negb (any_active w)).
  - qseq; [|apply notify_quiet]. apply quietly_foreach. intros e _ w1 P1. destruct (active w1 e); [apply quiet_refl|].
    apply connectors_quiet; exact P1.
  - match goal with |- quiet w (foreach ?l ?f w) => apply (quietly_foreach _ l f); [|exact P] end.
    intros e _ w1 P1. destruct (active w1 e); [|apply connectors_quiet; exact P1]. revert P1. revert w1. plain.
Qed.
Lemma restore_quiet : quietly restore_all.
Proof.
  intros w P. unfold restore_all.
  match goal with |- quiet w (foreach ?l ?f w) => apply (quietly_foreach _ l f); [|exact P] end.
  intros e _ w1 P1.
  match goal with |- quiet w1 (foreach ?l ?f w1) => apply (quietly_foreach _ l f); [|exact P1] end.
  intros c _. apply csm_quiet.
Qed.
(** Changes of the running transaction that keep its number. *)
Lemma retx_quiet : forall e t t1 w, w_tx w e = Some t -> tkey t1 = tkey t -> quiet w (put_tx e (Some t1) w).
Proof.
  intros e t t1 w T K. split; [unfold fine; cbn; intuition|]. split; [reflexivity|]. split; [|reflexivity].
  intros e1. cbn. unfold CsmModel.fupd. destruct (e1 =? e) eqn:E; [|reflexivity].
  apply Z.eqb_eq in E. subst. rewrite T. cbn. rewrite K. reflexivity.
Qed.
Lemma set_charging_quiet : forall e cs, quietly (set_charging e cs).
Proof. intros e cs w P. unfold set_charging. destruct (w_tx w e) eqn:T; [|apply quiet_refl]. eapply retx_quiet; eauto. Qed.
Lemma set_remote_quiet : forall e rid, quietly (set_remote e rid).
Proof. intros e cs w P. unfold set_remote. destruct (w_tx w e) eqn:T; [|apply quiet_refl]. eapply retx_quiet; eauto. Qed.
Lemma close_quiet : forall e r, quietly (close_transaction e r).
Proof. intros e cs w P. unfold close_transaction. destruct (w_tx w e) eqn:T; [|apply quiet_refl]. eapply retx_quiet; eauto. Qed.
Lemma set_max_quiet : forall e, quietly (set_max e).
Proof. intros e w P. unfold set_max. destruct (w_tx w e) eqn:T; [|apply quiet_refl]. eapply retx_quiet; eauto. Qed.
Lemma statement_quiet : forall f w, (forall l l1, f l = Some l1 -> map rkey l1 = map rkey l) -> w_prog w = Running ->
  quiet w (fst (statement f w)).
Proof.
  intros f w F P. unfold statement. destruct (pop_fail w) as [b w1] eqn:E. destruct (pop_quiet _ _ _ E) as (Q&P1&_).
  destruct b; [exact Q|]. destruct (f (w_rows w1)) as [l|] eqn:L; [|exact Q]. cbn [fst].
  eapply quiet_trans; [exact Q|]. apply F in L. unfold durable. destruct (w_budget w1) as [[|n]|] eqn:B;
    (split; [unfold fine; cbn; intuition (first [congruence|lia])|auto]).
Qed.
Lemma set_tok_quiet : forall e, quietly (set_id_token_sent e).
Proof.
  intros e w P. unfold set_id_token_sent. destruct (w_tx w e) as [t|] eqn:T; [|apply quiet_refl].
  match goal with |- context [put_tx e ?x w] => assert (Q : quiet w (put_tx e x w)) by (eapply retx_quiet; eauto) end.
  destruct (t_db t); [|exact Q]. eapply quiet_trans; [exact Q|]. apply statement_quiet; [|exact P].
  unfold update_tok. intros l l1 E. inversion E; subst. rewrite map_map. apply map_ext. intros r.
  destruct (r_id r =? t_id t); reflexivity.
Qed.
Lemma response_quiet : forall v i s m, quietly (on_response v i s m).
Proof.
  intros v i s m w P. unfold on_response.
  destruct (v_kind v), i as [[]|], (v_tok v); try apply quiet_refl;
    (destruct (transaction_evseid w (v_id v)); [|apply quiet_refl]; destruct s; [apply emit_quiet; auto|];
     destruct m; [apply set_max_quiet; exact P|apply emit_quiet; auto]).
Qed.
Lemma status_quiet : forall i q a, quietly (get_transaction_status i q a).
Proof. intros i q a w P. unfold get_transaction_status. apply emit_quiet; [|exact P]. destruct i; reflexivity. Qed.
