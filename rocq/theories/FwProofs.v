(** Firmware updates: the members agree with what was told, and what happens to the connectors. *)
From Coq Require Import ZArith List Bool Lia.
From Verif Require Import TxModel TxSpec TxProofs TxProofs2 TxProofs4 TxProofs5 TxProofs6 TxProofs7 TxProofs8 FwModel FwSpec.
From Verif Require CsmModel CsmSpec CsmProofs CsmProofs2 CsmProofs3.
Import ListNotations.
Local Open Scope Z_scope.
Import CsmModel (opstat, Operative, Inoperative).

(** ** Histories *)
Lemma ftrace_app : forall h1 h2 f, ftrace f (h1 ++ h2) = ftrace f h1 ++ ftrace (fstate f h1) h2.
Proof.
  induction h1 as [|o q IH]; intros h2 f; [reflexivity|]. cbn [app ftrace fstate].
  destruct (fstep f o) as [f1 l]. cbn [fst app]. rewrite IH. reflexivity.
Qed.
Lemma fstate_app : forall h1 h2 f, fstate f (h1 ++ h2) = fstate (fstate f h1) h2.
Proof. induction h1 as [|o q IH]; intros h2 f; [reflexivity|]. cbn [app fstate]. apply IH. Qed.
Lemma log_app : forall a b, log (a ++ b) = log a ++ log b.
Proof. intros a b. unfold log. rewrite map_app, concat_app. reflexivity. Qed.
Lemma log_snoc : forall f h o, log (ftrace f (h ++ [o])) = log (ftrace f h) ++ snd (fstep (fstate f h) o).
Proof.
  intros f h o. rewrite ftrace_app, log_app. cbn [ftrace]. destruct (fstep (fstate f h) o) as [f1 l]. cbn.
  rewrite app_nil_r. reflexivity.
Qed.
Definition st_f (a : fstatus) (o : fout) : fstatus := match o with FNote s _ false => s | FStarted => Idle | _ => a end.
Definition id_f (a : option Z) (o : fout) : option Z := match o with FNote _ (Some i) false => Some i | FStarted => None | _ => a end.
Lemma st_tx : forall l a, fold_left st_f (map FTx l) a = a.
Proof. induction l; intros a0; cbn; auto. Qed.
Lemma id_tx : forall l a, fold_left id_f (map FTx l) a = a.
Proof. induction l; intros a0; cbn; auto. Qed.
Definition starts (l : list fout) : bool := existsb (fun o => match o with FStarted => true | _ => false end) l.
Lemma starts_tx : forall l, starts (map FTx l) = false.
Proof. induction l; cbn; auto. Qed.
Lemma starts_app : forall a b, starts (a ++ b) = starts a || starts b.
Proof. intros. unfold starts. apply existsb_app. Qed.
Lemma eqb_status : forall a b, fstatus_eqb a b = true <-> a = b.
Proof. intros a b. unfold fstatus_eqb. destruct (fstatus_eq_dec a b); split; congruence. Qed.

Definition agrees (w0 : world) (h : list fop) : Prop :=
  let f := fstate (fresh w0) h in let t := ftrace (fresh w0) h in
  f_status f = last_status (log t) /\ f_id f = last_id (log t) /\ f_before f = expected t.
Lemma do_tx_outs : forall o w, exists l, snd (do_tx o w) = map FTx l.
Proof. intros o w. eexists. reflexivity. Qed.
Lemma step_members : forall f o, let f1 := fst (fstep f o) in let l := snd (fstep f o) in
  f_status f1 = fold_left st_f l (f_status f) /\ f_id f1 = fold_left id_f l (f_id f)
  /\ f_before f1 = match o with
       | Update _ None false _ => Downloaded
       | Update _ _ _ _ => SignatureVerified
       | _ => if starts l then SignatureVerified else f_before f
       end.
Proof.
  intros f o. destruct o as [id s| |r c sg a|c]; cbn [fstep].
  - unfold on_status. destruct (_ && _); [cbn; auto|].
    set (x := if ends s then do_tx ORestore (f_w f) else (f_w f, [])).
    assert (X : exists l, snd x = map FTx l) by (unfold x; destruct (ends s); [apply do_tx_outs|exists []; reflexivity]).
    destruct x as [w1 o1]. cbn [snd] in X. destruct X as (l1 & ->).
    set (y := if fstatus_eqb (f_before f) s then do_tx OFirmware w1 else (w1, [])).
    assert (Y : exists l, snd y = map FTx l) by (unfold y; destruct (fstatus_eqb _ _); [apply do_tx_outs|exists []; reflexivity]).
    destruct y as [w2 o2]. cbn [snd] in Y. destruct Y as (l2 & ->). cbn [fst snd f_status f_id f_before].
    rewrite !fold_left_app, !starts_app, !starts_tx.
    assert (E : forall a b, fold_left st_f (event_of s) a = a /\ fold_left id_f (event_of s) b = b /\ starts (event_of s) = false)
      by (intros a b; destruct s; cbn; auto).
    destruct (fstatus_eqb (f_before f) s && any_active w1) eqn:B; cbn [fold_left st_f id_f starts existsb orb];
      rewrite ?st_tx, ?id_tx, ?(proj1 (E _ None)), ?(proj1 (proj2 (E Idle _))), ?(proj2 (proj2 (E Idle None))); cbn [orb];
      destruct (id =? -1); cbn; rewrite ?st_tx, ?id_tx, ?(proj1 (E _ None)), ?(proj1 (proj2 (E Idle _))); auto.
  - unfold on_request. destruct (f_status f) eqn:E; cbn; rewrite ?E; destruct (f_id f) eqn:Q; cbn; auto.
  - unfold handle_update. destruct c as [[|]|]; [destruct a|destruct a|destruct sg, a]; cbn; auto.
  - destruct (restarts (f_w f) c); cbn [fst snd fresh f_status f_id f_before];
      rewrite ?fold_left_app, ?starts_app, ?st_tx, ?id_tx, ?starts_tx; cbn; auto.
Qed.
Lemma agrees_all : forall w0 h, agrees w0 h.
Proof.
  intros w0 h. induction h as [|o h IH] using rev_ind; [unfold agrees; cbn; auto|].
  unfold agrees in *. cbv zeta in *. destruct IH as (A & B & C). rewrite fstate_app, log_snoc. cbn [fstate].
  destruct (step_members (fstate (fresh w0) h) o) as (D & E & F). unfold last_status, last_id in *.
  rewrite !fold_left_app. fold st_f id_f. rewrite D, E, F. fold st_f in A. fold id_f in B. rewrite <- A, <- B.
  split; [reflexivity|]. split; [reflexivity|].
  rewrite ftrace_app. unfold expected in *. rewrite fold_left_app, <- C. cbn [ftrace].
  destruct (fstep (fstate (fresh w0) h) o) as [f1 l]. cbn [snd fold_left fst]. destruct o as [| |r [c|] [|] a|]; reflexivity.
Qed.
Lemma then_reachable : forall w k, reachable w -> reachable (TxModel.step w k).
Proof.
  intros w k (con&a&b&c&h&F&E). exists con, a, b, c, (h ++ [k]). split; [exact F|]. unfold run. rewrite fold_left_app, E. reflexivity.
Qed.
Lemma step_reachable : forall f o, reachable (f_w f) -> reachable (f_w (fst (fstep f o))).
Proof.
  intros f o R. destruct o as [id s| |r c sg a|c]; cbn [fstep]; try exact R.
  - unfold on_status. destruct (_ && _); [exact R|].
    set (x := if ends s then do_tx ORestore (f_w f) else (f_w f, [])).
    assert (X : reachable (fst x)) by (unfold x; destruct (ends s); [apply then_reachable|]; exact R).
    destruct x as [w1 o1]. cbn [fst] in X.
    set (y := if fstatus_eqb (f_before f) s then do_tx OFirmware w1 else (w1, [])).
    assert (Y : reachable (fst y)) by (unfold y; destruct (fstatus_eqb _ _); [apply then_reachable|]; exact X).
    destruct y as [w2 o2]. exact Y.
  - destruct (restarts (f_w f) c); cbn; apply then_reachable; exact R.
Qed.
Lemma state_reachable : forall h f, reachable (f_w f) -> reachable (f_w (fstate f h)).
Proof. induction h as [|o q IH]; intros f R; [exact R|]. apply IH. apply step_reachable. exact R. Qed.

(** ** Connectors *)

(** The connectors in [S] get the status [v], the EVSEs in [T] are scheduled to become inoperative, nothing else changes. *)
Definition chg (v : Z -> Z -> opstat) (S : Z -> Z -> bool) (T : Z -> bool) (w w1 : world) : Prop :=
  ready w1 /\ w_con w1 = w_con w /\ w_tx w1 = w_tx w /\ w_allcb w1 = w_allcb w /\
  (forall k c, CsmModel.s_db (w_csm w1) k c = CsmModel.s_db (w_csm w) k c) /\ vis [] w w1 /\
  (forall e c, S e c = true -> status_of (w_csm w1) (Some (e, Some c)) = v e c) /\
  (forall t, (forall e c, t = Some (e, Some c) -> S e c = false) -> status_of (w_csm w1) t = status_of (w_csm w) t) /\
  (forall k, map_get k (w_sched w1) = if T k then Some (Areq (Some (k, None)) Inoperative, false) else map_get k (w_sched w)).
Lemma chg_refl : forall v w, ready w -> chg v (fun _ _ => false) (fun _ => false) w w.
Proof. intros v w R. unfold chg. ands; auto; try discriminate. apply vis_refl. Qed.
Lemma chg_trans : forall v S1 T1 S2 T2 a b c, chg v S1 T1 a b -> chg v S2 T2 b c ->
  chg v (fun x y => S1 x y || S2 x y) (fun k => T1 k || T2 k) a c.
Proof.
  intros v S1 T1 S2 T2 a b c (A1&A2&A3&A4&A5&A6&A7&A8&A9) (B1&B2&B3&B4&B5&B6&B7&B8&B9). unfold chg. ands; try congruence; auto.
  - exact (vis_trans _ _ [] [] _ A6 B6).
  - intros e d Q. destruct (S2 e d) eqn:E; [apply B7; exact E|]. rewrite orb_false_r in Q.
    rewrite B8; [apply A7; exact Q|]. intros e1 d1 X. inversion X; subst. exact E.
  - intros t N. rewrite B8; [apply A8|]; intros e d X; specialize (N e d X); apply orb_false_iff in N; tauto.
  - intros k. rewrite B9, A9. destruct (T1 k), (T2 k); reflexivity.
Qed.
Lemma chg_ext : forall v S T S1 T1 a b, chg v S T a b -> (forall x y, S1 x y = S x y) -> (forall k, T1 k = T k) -> chg v S1 T1 a b.
Proof.
  intros v S T S1 T1 a b (A1&A2&A3&A4&A5&A6&A7&A8&A9) E F. unfold chg. ands; auto.
  - intros e c Q. apply A7. rewrite <- E. exact Q.
  - intros t N. apply A8. intros e c X. rewrite <- E. auto.
  - intros k. rewrite F. apply A9.
Qed.
Definition one (e c : Z) : Z -> Z -> bool := fun x y => (x =? e) && (y =? c).
Lemma one_true : forall e c x y, one e c x y = true <-> x = e /\ y = c.
Proof. intros. unfold one. rewrite andb_true_iff, !Z.eqb_eq. reflexivity. Qed.
Lemma allcb_csm : forall o w, w_allcb (csm o w) = w_allcb w.
Proof.
  intros o w. unfold csm, durable.
  destruct (w_budget w) as [[|n]|]; [reflexivity| |]; cbn; destruct (CsmModel.step _ o) as [[s outs] r]; reflexivity.
Qed.
Lemma chg_set : forall v e c w, ready w -> known_evse (w_con w) e -> known_connector (w_con w) e c ->
  chg v (one e c) (fun _ => false) w (set_conn_operative e c (v e c) false w).
Proof.
  intros v e c w R K KC. destruct (set_conn_go e c (v e c) false w R K KC) as (A1&A2&A3&A4&A5&A6&_&A8). unfold chg. ands; auto.
  - unfold set_conn_operative, get_evse. unfold seqw. rewrite evse_ok_known, (proj2 (knownb _ _) K).
    rewrite (proj2 (proj2 (proj2 R))). rewrite has_connector_known. destruct (negb _); [reflexivity|].
    rewrite pop_none by apply R. apply allcb_csm.
  - intros k d. apply (keep_set_conn k e c (v e c) false); [discriminate|apply R|apply R].
  - intros e1 c1 Q. apply one_true in Q. destruct Q as (-> & ->). exact A5.
  - intros t N. apply A6. intros ->. specialize (N e c eq_refl). assert (X : one e c e c = true) by (apply one_true; auto). congruence.
  - intros k. rewrite A4. reflexivity.
Qed.
Lemma chg_foreach : forall A v (f : A -> world -> world) (S : A -> Z -> Z -> bool) (T : A -> Z -> bool) l w,
  ready w -> (forall x u, In x l -> ready u -> w_con u = w_con w -> w_tx u = w_tx w ->
              (forall k c, CsmModel.s_db (w_csm u) k c = CsmModel.s_db (w_csm w) k c) -> chg v (S x) (T x) u (f x u)) ->
  chg v (fun a b => existsb (fun x => S x a b) l) (fun k => existsb (fun x => T x k) l) w (foreach l f w).
Proof.
  intros A v f S T l. induction l as [|x q IH]; intros w R F; [cbn; apply chg_refl; exact R|].
  cbn [foreach existsb]. pose proof (F x w (or_introl eq_refl) R eq_refl eq_refl (fun _ _ => eq_refl)) as X. pose proof X as (X1&X2&X3&_&X5&_).
  rewrite seqw_run by apply X1. eapply chg_trans; [exact X|]. apply IH; [exact X1|].
  intros y u I RU C T1 D. apply F; auto; try congruence. right. exact I.
Qed.
Definition of_evse (w : world) (e : Z) : Z -> Z -> bool := fun a b => existsb (fun c => one e c a b) (CsmModel.ids (ncon w e)).
Lemma chg_connectors : forall e w, ready w -> known_evse (w_con w) e ->
  chg (fun _ _ => Inoperative) (of_evse w e) (fun _ => false) w (connectors_unavailable e w).
Proof.
  intros e w R K. unfold connectors_unavailable.
  eapply chg_ext; [apply (chg_foreach Z (fun _ _ => Inoperative) (fun c => set_conn_operative e c Inoperative false) (fun c => one e c) (fun _ _ => false)); [exact R|]| |].
  - intros c u I RU C _ _. apply (chg_set (fun _ _ => Inoperative)); [exact RU|rewrite C; exact K|]. rewrite C. apply in_connectors. exact I.
  - reflexivity.
  - intros k. induction (CsmModel.ids (ncon w e)); cbn; auto.
Qed.
Lemma of_evse_true : forall w e a b, of_evse w e a b = true <-> a = e /\ known_connector (w_con w) e b.
Proof.
  intros w e a b. unfold of_evse. rewrite existsb_exists. split.
  - intros (c & I & Q). apply one_true in Q. destruct Q as (-> & ->). split; [reflexivity|]. apply in_connectors. exact I.
  - intros (-> & K). exists b. split; [apply CsmProofs.in_ids; exact K|apply one_true; auto].
Qed.

(** The connectors of the idle EVSEs, and the busy EVSEs. *)
Definition idle_conn (w : world) : Z -> Z -> bool := fun a b => known_evseb (w_con w) a && negb (busy_of w a) && known_connectorb (w_con w) a b.
Definition busy_evse (w : world) : Z -> bool := fun a => known_evseb (w_con w) a && busy_of w a.
Lemma connb : forall con e c, known_connectorb con e c = true <-> known_connector con e c.
Proof. intros. unfold known_connectorb, known_connector. rewrite andb_true_iff, !Z.leb_le. reflexivity. Qed.
Lemma bool_iff : forall a b : bool, (a = true <-> b = true) -> a = b.
Proof. intros [] [] H; try reflexivity; [symmetry; apply H; reflexivity|apply H; reflexivity]. Qed.
Lemma idle_conns_eq : forall w a b,
  existsb (fun e => negb (busy_of w e) && of_evse w e a b) (evses w) = idle_conn w a b.
Proof.
  intros w a b. apply bool_iff. rewrite existsb_exists. unfold idle_conn. rewrite !andb_true_iff, knownb, connb, negb_true_iff. split.
  - intros (e & I & Q). apply andb_true_iff in Q. destruct Q as (Q1 & Q2). apply of_evse_true in Q2. destruct Q2 as (-> & Q2).
    apply negb_true_iff in Q1. apply in_evses in I. auto.
  - intros ((K & B) & C). exists a. split; [apply in_evses; exact K|]. rewrite B. cbn. apply of_evse_true. auto.
Qed.
Lemma busy_evses_eq : forall w k, existsb (fun e => busy_of w e && (k =? e)) (evses w) = busy_evse w k.
Proof.
  intros w k. apply bool_iff. rewrite existsb_exists. unfold busy_evse. rewrite andb_true_iff, knownb. split.
  - intros (e & I & Q). apply andb_true_iff in Q. destruct Q as (Q1 & Q2). apply Z.eqb_eq in Q2. subst. apply in_evses in I. auto.
  - intros (K & B). exists k. split; [apply in_evses; exact K|]. rewrite B, Z.eqb_refl. reflexivity.
Qed.
Lemma sched_ready : forall w e r p, ready w -> entry_ok (w_con w) (e, (r, p)) -> ready (set_w_sched (map_put e (r, p) (w_sched w)) w).
Proof. intros w e r p ((H1&H2&H3)&B) E. split; [|exact B]. split; [exact H1|]. split; [exact H2|]. apply put_ok; assumption. Qed.
Lemma chg_firmware_loop : forall w, ready w ->
  chg (fun _ _ => Inoperative) (idle_conn w) (busy_evse w) w
      (foreach (evses w) (fun e w => if active w e
         then set_w_sched (map_put e (Areq (Some (e, None)) Inoperative, false) (w_sched w)) w
         else connectors_unavailable e w) w).
Proof.
  intros w R. eapply chg_ext; [apply (chg_foreach Z (fun _ _ => Inoperative) _ (fun e a b => negb (busy_of w e) && of_evse w e a b) (fun e k => busy_of w e && (k =? e))); [exact R|]| |].
  - intros e u I RU C TX _. assert (K : known_evse (w_con u) e) by (rewrite C; apply in_evses; exact I).
    assert (B : active u e = busy_of w e) by (unfold active, busy_of; rewrite TX; reflexivity). cbv beta. rewrite B.
    destruct (busy_of w e); cbn [negb andb].
    + unfold chg. cbn [w_con w_tx w_allcb w_csm w_sched set_w_sched]. ands; auto; try discriminate.
      * apply sched_ready; [exact RU|]. split; [exact K|reflexivity].
      * exists []. rewrite app_nil_r. auto.
      * intros k. rewrite get_put. destruct (k =? e) eqn:Q; [apply Z.eqb_eq in Q; subst|]; reflexivity.
    + eapply chg_ext; [apply chg_connectors; assumption| |reflexivity]. intros x y. unfold of_evse, ncon. rewrite C. reflexivity.
  - intros x y. symmetry. apply idle_conns_eq.
  - intros k. symmetry. apply busy_evses_eq.
Qed.
Lemma chg_idle_loop : forall w, ready w ->
  chg (fun _ _ => Inoperative) (idle_conn w) (fun _ => false) w
      (foreach (evses w) (fun e w => if active w e then w else connectors_unavailable e w) w).
Proof.
  intros w R. eapply chg_ext; [apply (chg_foreach Z (fun _ _ => Inoperative) _ (fun e a b => negb (busy_of w e) && of_evse w e a b) (fun e k => false)); [exact R|]| |].
  - intros e u I RU C TX _. assert (K : known_evse (w_con u) e) by (rewrite C; apply in_evses; exact I).
    assert (B : active u e = busy_of w e) by (unfold active, busy_of; rewrite TX; reflexivity). cbv beta. rewrite B.
    destruct (busy_of w e); cbn [negb andb]; [apply chg_refl; exact RU|].
    eapply chg_ext; [apply chg_connectors; assumption| |reflexivity]. intros x y. unfold of_evse, ncon. rewrite C. reflexivity.
  - intros x y. symmetry. apply idle_conns_eq.
  - intros k. induction (evses w); cbn; auto.
Qed.

(** All that making the connectors unavailable does. *)
Definition prepared (w w1 : world) : Prop :=
  ready w1 /\ w_con w1 = w_con w /\ w_tx w1 = w_tx w /\
  (forall t, stored (w_csm w1) t = stored (w_csm w) t) /\
  (forall e c, known_evse (w_con w) e -> known_connector (w_con w) e c -> busy_of w e = false ->
     status_of (w_csm w1) (Some (e, Some c)) = Inoperative) /\
  (forall e, known_evse (w_con w) e -> busy_of w e = true -> map_get e (w_sched w1) = Some (Areq (Some (e, None)) Inoperative, false)) /\
  (forall t, (forall e c, t = Some (e, Some c) -> known_evse (w_con w) e -> known_connector (w_con w) e c -> busy_of w e = true) ->
     status_of (w_csm w1) t = status_of (w_csm w) t) /\
  (forall k, known_evse (w_con w) k -> busy_of w k = false -> map_get k (w_sched w1) = map_get k (w_sched w)) /\
  vis (if w_allcb w && negb (any_busy (w_con w) (busy_of w)) then [OAllUnavailable] else []) w w1.
Lemma chg_prepared : forall w w1 T, (forall k, known_evse (w_con w) k -> T k = busy_of w k) ->
  chg (fun _ _ => Inoperative) (idle_conn w) T w w1 ->
  ready w1 /\ w_con w1 = w_con w /\ w_tx w1 = w_tx w /\
  (forall t, stored (w_csm w1) t = stored (w_csm w) t) /\
  (forall e c, known_evse (w_con w) e -> known_connector (w_con w) e c -> busy_of w e = false ->
     status_of (w_csm w1) (Some (e, Some c)) = Inoperative) /\
  (forall e, known_evse (w_con w) e -> busy_of w e = true -> map_get e (w_sched w1) = Some (Areq (Some (e, None)) Inoperative, false)) /\
  (forall t, (forall e c, t = Some (e, Some c) -> known_evse (w_con w) e -> known_connector (w_con w) e c -> busy_of w e = true) ->
     status_of (w_csm w1) t = status_of (w_csm w) t) /\
  (forall k, known_evse (w_con w) k -> busy_of w k = false -> map_get k (w_sched w1) = map_get k (w_sched w)) /\
  vis [] w w1 /\ w_allcb w1 = w_allcb w.
Proof.
  intros w w1 T HT (A1&A2&A3&A4&A5&A6&A7&A8&A9). ands; auto.
  - intros [[e [c|]]|]; cbn; apply A5.
  - intros e c K C B. apply A7. unfold idle_conn. rewrite (proj2 (knownb _ _) K), (proj2 (connb _ _ _) C), B. reflexivity.
  - intros e K B. rewrite A9, HT, B by exact K. reflexivity.
  - intros t N. apply A8. intros e c E. unfold idle_conn. destruct (known_evseb (w_con w) e) eqn:K; [|reflexivity].
    destruct (known_connectorb (w_con w) e c) eqn:C; [|rewrite andb_false_r; reflexivity].
    rewrite (N e c E (proj1 (knownb _ _) K) (proj1 (connb _ _ _) C)). reflexivity.
  - intros k K B. rewrite A9, HT, B by exact K. reflexivity.
Qed.
Lemma prepared_firmware : forall w, ready w -> prepared w (firmware_unavailable w).
Proof.
  intros w R. unfold firmware_unavailable. rewrite any_active_busy. unfold prepared. destruct (any_busy (w_con w) (busy_of w)) eqn:B; cbn [negb].
  - rewrite andb_false_r. destruct (chg_prepared w _ (busy_evse w)
      (fun k K => eq_trans (f_equal (fun b => b && busy_of w k) (proj2 (knownb _ _) K)) eq_refl) (chg_firmware_loop w R))
      as (A1&A2&A3&A4&A5&A6&A7&A8&A9&_). ands; auto.
  - assert (HT : forall k, known_evse (w_con w) k -> (fun _ : Z => false) k = busy_of w k).
    { intros k K. destruct (busy_of w k) eqn:Q; [|reflexivity]. exfalso. unfold any_busy in B.
      assert (X : existsb (busy_of w) (evse_ids (w_con w)) = true); [|congruence]. apply existsb_exists. exists k. split; [|exact Q].
      rewrite <- evses_ids. apply in_evses. exact K. }
    destruct (chg_prepared w _ _ HT (chg_idle_loop w R)) as (A1&A2&A3&A4&A5&A6&A7&A8&A9&A10).
    rewrite seqw_run by apply A1. set (v := foreach _ _ w) in *. destruct (notify_go v A1) as (N1&(N2&N3&N4)&N5).
    rewrite N2, N3, N4, N5. ands; auto. rewrite andb_true_r. unfold notify_all_unavailable. rewrite A10.
    assert (AI : all_inoperative v = true).
    { unfold all_inoperative. apply forallb_forall. intros e I. apply forallb_forall. intros c C.
      assert (K : known_evse (w_con w) e) by (rewrite <- A2; apply in_evses; exact I).
      apply in_connectors in C. rewrite A2 in C. specialize (A5 e c K C (eq_sym (HT e K))). cbn in A5.
      unfold CsmModel.conn_effective. rewrite A5. destruct (CsmModel.evse_effective _ _); reflexivity. }
    rewrite AI, andb_true_r. destruct (w_allcb w); [|exact A9].
    apply (vis_trans _ _ [] [OAllUnavailable] _ A9). exists [OAllUnavailable]. rewrite emit_alive by apply A1. auto.
Qed.

(** Restoring. *)
Lemma existsb_none : forall A (f : A -> bool) l, (forall x, f x = false) -> existsb f l = false.
Proof. intros A f l N. induction l as [|x q IH]; [reflexivity|]. cbn. rewrite N, IH. reflexivity. Qed.
Lemma chg_restore1 : forall (d : CsmModel.table) v e c w, ready w -> (forall e c, d e c = CsmModel.s_db (w_csm w) e c) ->
  known_evse (w_con w) e -> known_connector (w_con w) e c -> (forall x, d e c = Some x -> v e c = x) ->
  chg v (fun a b => one e c a b && match d e c with Some _ => true | None => false end) (fun _ => false) w (csm (CsmModel.RestoreConn e c) w).
Proof.
  intros d v e c w R D K KC V. assert (U : CsmModel.s_up (w_csm w) = true) by apply R.
  assert (CK : CsmModel.check_conn (w_csm w) e c = CsmModel.Ok).
  { unfold CsmModel.check_conn, CsmModel.check_evse. destruct R as ((_&(_&NE&NC)&_)&_). rewrite NE, (NC e K). destruct K as (K1&K2), KC as (C1&C2).
    rewrite (proj2 (Z.leb_gt _ _)) by lia. rewrite (proj2 (Z.ltb_ge _ _)) by lia. cbn.
    rewrite (proj2 (Z.leb_gt _ _)) by lia. rewrite (proj2 (Z.ltb_ge _ _)) by lia. reflexivity. }
  assert (G : CsmModel.step (w_csm w) (CsmModel.RestoreConn e c) =
              match d e c with Some x => CsmModel.set_conn e c x false false (w_csm w) | None => (w_csm w, [], CsmModel.Ok) end).
  { cbn [CsmModel.step]. rewrite U. cbn [negb]. unfold CsmModel.restore_conn, CsmModel.get_conn_persisted, CsmModel.get_availability.
    rewrite CK, <- D. destruct (d e c); reflexivity. }
  destruct (d e c) as [x|] eqn:DE.
  - destruct (CsmModel.set_conn e c x false false (w_csm w)) as [[s outs] r] eqn:E.
    destruct (CsmProofs3.set_conn_core _ _ _ _ _ _ _ _ _ E) as [(_&_&N&_)|(RR&_&C)].
    { exfalso. apply N. unfold CsmSpec.has_conn, CsmSpec.has_evse. destruct R as ((_&(_&NE&NC)&_)&_). rewrite NE, (NC e K). split; [exact K|exact KC]. }
    subst r. cbn [andb] in C.
    assert (S1 : status_of s (Some (e, Some c)) = v e c).
    { destruct (core_status _ _ (Some (e, Some c)) C) as (X&_). rewrite X. cbn. rewrite CsmProofs2.fupd2_same. symmetry. auto. }
    assert (S2 : forall t1, t1 <> Some (e, Some c) -> status_of s t1 = status_of (w_csm w) t1).
    { intros t1 N. destruct (core_status _ _ t1 C) as (X&_). rewrite X. destruct t1 as [[e1 [c1|]]|]; try reflexivity.
      cbn. unfold CsmModel.fupd2. destruct ((e1 =? e) && (c1 =? c)) eqn:Q; [|reflexivity].
      apply andb_true_iff in Q. destruct Q as (Q1&Q2). apply Z.eqb_eq in Q1, Q2. subst. congruence. }
    assert (S3 : false = true -> stored s (Some (e, Some c)) = Some (v e c)) by discriminate.
    destruct (csm_set (CsmModel.RestoreConn e c) (Some (e, Some c)) (v e c) false w s outs R eq_refl G S1 S2 S3) as (A1&A2&A3&A4&A5&A6&_&A8).
    unfold chg. ands; auto.
    + apply allcb_csm.
    + intros k q. apply (keep_csm k (CsmModel.RestoreConn e c) w eq_refl); [discriminate|apply R].
    + intros e1 c1 Q. rewrite andb_true_r in Q. apply one_true in Q. destruct Q as (-> & ->). exact A5.
    + intros t N. apply A6. intros ->. specialize (N e c eq_refl). rewrite andb_true_r in N.
      assert (X : one e c e c = true) by (apply one_true; auto). congruence.
    + intros k. rewrite A4. reflexivity.
  - unfold csm, durable. rewrite (proj1 (proj2 R)), G. cbn.
    unfold chg. cbn. rewrite app_nil_r. assert (R1 : ready (set_w_prog (w_prog w) (set_w_out (w_out w) (set_w_csm (w_csm w) w)))) by exact R.
    ands; auto; try (intros e1 c1 Q; rewrite andb_false_r in Q; discriminate). exists []. rewrite app_nil_r. auto.
Qed.
(** All connectors get the status the database has for them. *)
Definition restored (w w1 : world) : Prop :=
  ready w1 /\ w_con w1 = w_con w /\ w_tx w1 = w_tx w /\
  (forall t, stored (w_csm w1) t = stored (w_csm w) t) /\
  (forall e c v, known_evse (w_con w) e -> known_connector (w_con w) e c -> stored (w_csm w) (Some (e, Some c)) = Some v ->
     status_of (w_csm w1) (Some (e, Some c)) = v) /\
  (forall t, (forall e c, t = Some (e, Some c) -> known_evse (w_con w) e -> known_connector (w_con w) e c -> stored (w_csm w) t = None) ->
     status_of (w_csm w1) t = status_of (w_csm w) t) /\
  (forall k, map_get k (w_sched w1) = map_get k (w_sched w)) /\ vis [] w w1.
Lemma restored_all : forall w, ready w -> restored w (restore_all w).
Proof.
  intros w R. set (d := CsmModel.s_db (w_csm w)). set (v := fun e c => match d e c with Some x => x | None => Operative end).
  set (S := fun a b => match d a b with Some _ => true | None => false end).
  assert (X : chg v (fun a b => existsb (fun e => existsb (fun c => one e c a b && S e c) (CsmModel.ids (ncon w e))) (evses w))
                (fun k => existsb (fun e => existsb (fun c => false) (CsmModel.ids (ncon w e))) (evses w)) w (restore_all w)).
  { unfold restore_all.
    apply (chg_foreach Z v _ (fun e a b => existsb (fun c => one e c a b && S e c) (CsmModel.ids (ncon w e)))
             (fun e k => existsb (fun c => false) (CsmModel.ids (ncon w e)))); [exact R|].
    intros e u I RU C _ D. assert (NU : ncon u e = ncon w e) by (unfold ncon; rewrite C; reflexivity). rewrite NU.
    apply (chg_foreach Z v _ (fun c a b => one e c a b && S e c) (fun c k => false)); [exact RU|].
    intros c u2 J RU2 C2 _ D2. apply (chg_restore1 d v); [exact RU2| | | |].
    - intros a b. rewrite D2, D. reflexivity.
    - rewrite C2, C. apply in_evses. exact I.
    - rewrite C2, C. apply in_connectors. exact J.
    - intros x E. unfold v. rewrite E. reflexivity. }
  assert (NF : forall k : Z, existsb (fun e => existsb (fun c : Z => false) (CsmModel.ids (ncon w e))) (evses w) = false).
  { intros _. apply existsb_none. intros e. apply existsb_none. reflexivity. }
  destruct X as (A1&A2&A3&A4&A5&A6&A7&A8&A9). unfold restored. ands; auto.
  - intros [[e [c|]]|]; cbn; apply A5.
  - intros e c x K KC ST. cbn [stored] in ST. fold d in ST. rewrite A7; [unfold v; rewrite ST; reflexivity|].
    apply existsb_exists. exists e. split; [apply in_evses; exact K|]. apply existsb_exists. exists c.
    split; [apply CsmProofs.in_ids; exact KC|]. unfold S. rewrite ST, andb_true_r. apply one_true. auto.
  - intros t N. apply A8. intros e c ->. match goal with |- ?b = false => destruct b eqn:Q end; [|reflexivity]. exfalso.
    apply existsb_exists in Q. destruct Q as (e1 & I & Q). apply existsb_exists in Q. destruct Q as (c1 & J & Q).
    apply andb_true_iff in Q. destruct Q as (Q1 & Q2). apply one_true in Q1. destruct Q1 as (-> & ->).
    specialize (N e1 c1 eq_refl (proj1 (in_evses _ _) I) (in_connectors _ _ _ J)). cbn in N. unfold S, d in Q2. rewrite N in Q2. discriminate.
  - intros k. rewrite A9, NF by exact k. reflexivity.
Qed.
