(** Remote control: decisions, the messages that follow a trigger, and members told by histories. *)
From Coq Require Import ZArith String List Bool Lia.
From Verif Require Import TxModel TxSpec TxProofs TxProofs4 TxProofs5 TxProofs6 TxProofs7 FwModel FwSpec FwProofs RcModel RcSpec.
From Verif Require CsmModel CsmSpec CsmProofs SecModel MvModel MvSpec MvProofs StrModel StrSpec StrProofs.
Import ListNotations.
Local Open Scope list_scope.
Local Open Scope Z_scope.

(** ** EVSEs and connectors *)
Lemma known_ok : forall w e, evse_ok w e = true <-> known_evse (w_con w) e.
Proof. intros w e. rewrite evse_ok_known. apply knownb. Qed.
Lemma unknown_ok : forall w e, evse_ok w e = false <-> ~ known_evse (w_con w) e.
Proof. intros w e. rewrite <- known_ok. destruct (evse_ok w e); split; congruence. Qed.
Lemma usable_iff : forall s e c, usable (CsmModel.conn_effective_status s e c) = true <->
  CsmModel.s_cs s = CsmModel.Operative /\ CsmModel.s_ev s e = CsmModel.Operative /\
  CsmModel.c_faulted (CsmModel.s_con s e c) = false /\ CsmModel.c_unavail (CsmModel.s_con s e c) = false.
Proof.
  intros s e c. unfold CsmModel.conn_effective_status, CsmModel.evse_effective, CsmModel.to_connector_status.
  destruct (CsmModel.s_cs s), (CsmModel.s_ev s e), (CsmModel.c_faulted (CsmModel.s_con s e c)),
    (CsmModel.c_unavail (CsmModel.s_con s e c)); cbn; try (intuition congruence).
  destruct (CsmModel.c_occupied _); [cbn; intuition congruence|]. destruct (CsmModel.c_reserved _); cbn; intuition congruence.
Qed.
Lemma available_iff : forall w e, evse_available w e = true <-> w_tx w e = None /\ can_charge w e.
Proof.
  intros w e. unfold evse_available, can_charge, active. rewrite andb_true_iff, existsb_exists. split.
  - intros (A & c & I & U). apply usable_iff in U. apply CsmProofs.in_ids in I. destruct (w_tx w e); [discriminate A|].
    intuition. exists c. unfold known_connector, ncon in *. intuition.
  - intros (-> & A & B & c & K & F & U). split; [reflexivity|]. exists c. split; [apply CsmProofs.in_ids; exact K|].
    apply usable_iff. intuition.
Qed.
Lemma startable_iff : forall r e a k, evse_available (r_w r) e && negb (for_other (snd (reserved r e a k))) = true <-> startable r e k.
Proof.
  intros r e a k. unfold startable. rewrite andb_true_iff, available_iff, negb_true_iff. unfold reserved, for_other.
  destruct (r_res r); cbn [snd]; [destruct k; intuition congruence|]. intuition congruence.
Qed.
Lemma startable_dec : forall r e k, startable r e k \/ ~ startable r e k.
Proof.
  intros r e k. rewrite <- (startable_iff r e (StartReq None 0 None 0 None) k). destruct (_ && _); [left; reflexivity|right; discriminate].
Qed.

(** ** Starting *)
Definition info_for (c : rcfg) (a : start_req) (e : Z) (pk : option (option Z)) : option Z :=
  match profile_for c a e, pk with _ :: _, Some i => i | _, _ => None end.
Lemma add_profile_ok : forall c r e a pk, smart_ok c r ->
  add_profile c r e a pk = (profile_for c a e, info_for c a e pk, true).
Proof.
  intros c r e a pk S. unfold add_profile, info_for, profile_for, smart_ok in *. destruct (x_smart c) as [[|]|]; cbn [orf]; [|reflexivity|reflexivity].
  rewrite (S eq_refl). destruct (a_profile a) as [[p [|]]|]; cbn; [destruct pk|destruct pk|]; reflexivity.
Qed.
Lemma handle_start_known : forall c a e k pk ans r, a_evse a = Some e -> known_evse (con_of r) e -> smart_ok c r ->
  let ask := if r_res r then [RAskReserved e (a_tok a) (a_group a)] else [] in
  (startable r e k -> handle_start c a k pk ans r =
     (set_w (step (r_w r) (Call (ORemoteId e (a_tok a) (a_rid a)) [] None)) r,
      ask ++ profile_for c a e ++ [RStartCall a (x_auth c); RStartResp ans (info_for c a e pk)])) /\
  (~ startable r e k -> handle_start c a k pk ans r = (r, ask ++ profile_for c a e ++ [RStartResp false (info_for c a e pk)])).
Proof.
  intros c a e k pk ans r E K S ask. unfold handle_start. rewrite E, (proj2 (known_ok _ _) K). cbn [negb].
  rewrite <- (startable_iff r e a k). unfold reserved. rewrite add_profile_ok by exact S.
  unfold ask. destruct (r_res r); cbn [fst snd]; destruct (_ && _); split; intros H; try congruence; reflexivity.
Qed.

(** ** [map_put] *)
Lemma rc_get_put : forall A k x (v : A) m, map_get k (map_put x v m) = if k =? x then Some v else map_get k m.
Proof.
  intros A k x v. unfold map_get. induction m as [|[y u] q IH].
  - cbn. rewrite (Z.eqb_sym x k). destruct (k =? x); reflexivity.
  - cbn [map_put]. destruct (x <? y) eqn:L; [|destruct (x =? y) eqn:Q]; cbn [find fst].
    + rewrite (Z.eqb_sym x k). destruct (k =? x); reflexivity.
    + apply Z.eqb_eq in Q. subst y. rewrite (Z.eqb_sym x k). destruct (k =? x); reflexivity.
    + destruct (y =? k) eqn:Y; [|exact IH]. apply Z.eqb_eq in Y. subst y. rewrite (Z.eqb_sym k x), Q. reflexivity.
Qed.
Lemma rc_get_erase : forall A k (m : list (Z * A)), map_get k (map_erase k m) = None.
Proof.
  intros A k m. unfold map_get, map_erase. induction m as [|[y u] q IH]; [reflexivity|]. cbn [filter fst]. destruct (y =? k) eqn:Y; [exact IH|].
  cbn [negb find fst]. rewrite Y. exact IH.
Qed.
Lemma find_pending : forall e c tok rid m, map_get 0 m = None -> map_get e m = Some (tok, rid) ->
  find (remote_matches (Some tok) (Some (e, c))) m = Some (e, (tok, rid)).
Proof.
  intros e c tok rid m Z0. unfold map_get in *. induction m as [|[y u] q IH]; intros G; [discriminate G|].
  cbn [find fst] in *. destruct (y =? 0) eqn:Y0; [discriminate Z0|]. destruct (y =? e) eqn:YE.
  - apply Z.eqb_eq in YE. subst y. cbn [snd] in G. injection G as ->. unfold remote_matches. cbn [fst snd].
    rewrite !Z.eqb_refl, orb_true_r. reflexivity.
  - unfold remote_matches at 1. cbn [fst snd]. rewrite Y0, (Z.eqb_sym e y), YE, andb_false_r. apply (IH Z0 G).
Qed.

(** ** Triggered TransactionEvents *)
(** What [send_event] leaves alone. *)
Definition same_rest (w w1 : world) : Prop :=
  w_con w1 = w_con w /\ w_csm w1 = w_csm w /\ w_sched w1 = w_sched w /\ w_remote w1 = w_remote w /\ w_resume w1 = w_resume w
  /\ w_txcb w1 = w_txcb w /\ w_allcb w1 = w_allcb w /\ w_rs w1 = w_rs w /\ w_rids w1 = w_rids w.
Lemma same_rest_refl : forall w, same_rest w w.
Proof. intros w. unfold same_rest. intuition. Qed.
Lemma same_rest_trans : forall a b c, same_rest a b -> same_rest b c -> same_rest a c.
Proof. unfold same_rest. intros a b c A B. intuition congruence. Qed.
Definition calm (w : world) : Prop := w_prog w = Running /\ w_budget w = None /\ w_fail w = [].
Lemma seq_calm : forall e w t, calm w -> w_tx w e = Some t ->
  let w1 := get_seq_no e w in calm w1 /\ same_rest w w1 /\ w_out w1 = w_out w /\ w_tx w1 = CsmModel.fupd (w_tx w) e (Some (with_seq (i32 (t_seq t + 1)) t)).
Proof.
  intros e w t (P & B & F) T. cbv zeta. unfold get_seq_no. rewrite T. destruct (t_db t).
  - unfold statement, pop_fail, put_tx. cbn [w_fail set_w_tx]. rewrite F. cbn [w_rows set_w_tx update_seq fst]. unfold durable.
    cbn [w_budget set_w_tx]. rewrite B. unfold calm, same_rest. cbn. intuition.
  - unfold calm, same_rest, put_tx. cbn. intuition.
Qed.
Lemma find_none_tok : forall ev m, find (remote_matches None ev) m = None.
Proof. intros ev m. induction m as [|p q IH]; [reflexivity|exact IH]. Qed.
Lemma send_one_event : forall e w t, calm w -> w_tx w e = Some t ->
  let w1 := send_event e Updated Trigger None None w in
  let v := TxEv Updated (t_id t) (seq_no_result w e) Trigger (t_cs t) (t_reason t) (t_remote t) None None in
  calm w1 /\ same_rest w w1 /\ w_out w1 = w_out w ++ OTx v :: (if w_txcb w then [OTxCallback v] else []) /\
  w_tx w1 = CsmModel.fupd (w_tx w) e (Some (with_seq (i32 (t_seq t + 1)) t)).
Proof.
  intros e w t C T. cbv zeta. unfold send_event. rewrite T.
  destruct (seq_calm e w t C T) as (C1 & S1 & O1 & T1). rewrite seqw_run by apply C1. set (w1 := get_seq_no e w) in *.
  clearbody w1. unfold transaction_event_req. cbn [v_tok v_evse]. rewrite find_none_tok.
  assert (TC : w_txcb w1 = w_txcb w) by apply S1. destruct C1 as (P & B & F).
  rewrite seqw_run by (unfold emit, durable; rewrite B; exact P). rewrite TC.
  unfold emit, durable. rewrite B. destruct (w_txcb w); unfold skip; cbn; rewrite ?B; cbn; rewrite ?O1, <- ?app_assoc;
    (split; [unfold calm; cbn; auto|]; split; [unfold same_rest in *; cbn; exact S1|]; split; [reflexivity|exact T1]).
Qed.
Lemma wrap_back : forall x, (i32 (i32 (x + 1) - 1) - x) mod 4294967296 = 0.
Proof. intros x. unfold i32. Ltac Zify.zify_post_hook ::= Z.to_euclidean_division_equations. lia. Qed.
Ltac Zify.zify_post_hook ::= idtac.
Lemma events_sent : forall l w, calm w -> NoDup l ->
  let w1 := foreach l (fun e => send_event e Updated Trigger None None) w in
  exists outs, calm w1 /\ same_rest w w1 /\ w_out w1 = w_out w ++ outs /\
    Forall (fun o => match o with OTx _ | OTxCallback _ => True | _ => False end) outs /\
    Forall2 (about w) (busy_among w l) (flat_map (fun o => match o with OTx v => [v] | _ => [] end) outs) /\
    (forall e, match w_tx w e with
               | None => w_tx w1 e = None
               | Some t => if in_dec Z.eq_dec e l then w_tx w1 e = Some (with_seq (i32 (t_seq t + 1)) t) else w_tx w1 e = Some t
               end).
Proof.
  induction l as [|e q IH]; intros w C ND; cbv zeta.
  - exists []. cbn. rewrite app_nil_r. split; [exact C|]. split; [apply same_rest_refl|]. split; [reflexivity|]. split; [constructor|].
    split; [constructor|]. intros x. unfold skip. destruct (w_tx w x); reflexivity.
  - inversion ND as [|? ? N1 N2]; subst. cbn [foreach busy_among filter]. destruct (w_tx w e) as [t|] eqn:T.
    + destruct (send_one_event e w t C T) as (C1 & S1 & O1 & T1). rewrite seqw_run by apply C1.
      assert (SQ : seq_no_result w e = i32 (i32 (t_seq t + 1) - 1)) by (unfold seq_no_result; rewrite T; reflexivity).
      set (w1 := send_event e Updated Trigger None None w) in *. clearbody w1.
      destruct (IH w1 C1 N2) as (outs & C2 & S2 & O2 & F2 & A2 & T2). set (w2 := foreach q _ w1) in *. clearbody w2.
      eexists. split; [exact C2|]. split; [exact (same_rest_trans _ _ _ S1 S2)|]. split; [rewrite O2, O1, <- app_assoc; reflexivity|].
      assert (TQ : forall x, In x q -> w_tx w1 x = w_tx w x).
      { intros x I. rewrite T1. unfold CsmModel.fupd. destruct (x =? e) eqn:X; [|reflexivity]. apply Z.eqb_eq in X. subst x. contradiction. }
      split; [|split].
      * apply Forall_app. split; [destruct (w_txcb w); repeat constructor|exact F2].
      * rewrite flat_map_app. assert (FM : flat_map (fun o => match o with OTx v => [v] | _ => [] end)
          (OTx (TxEv Updated (t_id t) (seq_no_result w e) Trigger (t_cs t) (t_reason t) (t_remote t) None None)
           :: (if w_txcb w then [OTxCallback (TxEv Updated (t_id t) (seq_no_result w e) Trigger (t_cs t) (t_reason t) (t_remote t) None None)] else []))
          = [TxEv Updated (t_id t) (seq_no_result w e) Trigger (t_cs t) (t_reason t) (t_remote t) None None])
          by (destruct (w_txcb w); reflexivity).
        rewrite FM. cbn [app]. constructor.
        -- exists t. cbn. rewrite SQ. intuition. apply wrap_back.
        -- assert (BE : busy_among w q = busy_among w1 q).
           { unfold busy_among. apply filter_ext_in. intros x I. rewrite (TQ x I). reflexivity. }
           fold (busy_among w q). rewrite BE.
           assert (AB : forall x v, In x (busy_among w1 q) -> about w1 x v -> about w x v).
           { intros x v I (u & U & V). exists u. split; [|exact V]. rewrite <- TQ; [exact U|]. apply filter_In in I. apply I. }
           clear - A2 AB. induction A2 as [|x v xs vs X Y IHY]; [constructor|]. constructor; [apply AB; [left; reflexivity|exact X]|].
           apply IHY. intros a b I. apply AB. right. exact I.
      * intros x. specialize (T2 x). rewrite T1 in T2. unfold CsmModel.fupd in T2. destruct (x =? e) eqn:X.
        -- apply Z.eqb_eq in X. subst x. rewrite T. destruct (in_dec Z.eq_dec e q); [contradiction|].
           destruct (in_dec Z.eq_dec e (e :: q)) as [|NI]; [exact T2|elim NI; left; reflexivity].
        -- apply Z.eqb_neq in X. destruct (w_tx w x) as [u|]; [|exact T2].
           destruct (in_dec Z.eq_dec x q) as [I|NI], (in_dec Z.eq_dec x (e :: q)) as [J|NJ]; try exact T2.
           ++ elim NJ. right. exact I.
           ++ destruct J as [->|J]; [congruence|contradiction].
    + assert (SE : send_event e Updated Trigger None None w = w) by (unfold send_event; rewrite T; reflexivity).
      unfold seqw. rewrite SE. rewrite (proj1 C). destruct (IH w C N2) as (outs & C2 & S2 & O2 & F2 & A2 & T2).
      exists outs. split; [exact C2|]. split; [exact S2|]. split; [exact O2|]. split; [exact F2|]. split; [exact A2|].
      intros x. specialize (T2 x). destruct (w_tx w x) as [u|] eqn:U; [|exact T2].
      destruct (in_dec Z.eq_dec x q) as [I|NI], (in_dec Z.eq_dec x (e :: q)) as [J|NJ]; try exact T2.
      * elim NJ. right. exact I.
      * destruct J as [->|J]; [congruence|contradiction].
Qed.
Lemma ids_nodup : forall n, NoDup (CsmModel.ids n).
Proof.
  intros n. unfold CsmModel.ids. apply FinFun.Injective_map_NoDup; [intros a b E; lia|apply seq_NoDup].
Qed.
Lemma asked_nodup : forall w ev, NoDup (asked w ev).
Proof. intros w [[e o]|]; cbn; [constructor; [intros []|constructor]|apply ids_nodup]. Qed.
Lemma asked_in : forall w ev e, In e (asked w ev) <-> concerned w ev e.
Proof. intros w [[x o]|] e; cbn; [intuition congruence|apply in_evses]. Qed.

(** ** The first event of a transaction *)
Definition kept (w w1 : world) : Prop :=
  w_budget w1 = None /\ w_fail w1 = [] /\ w_remote w1 = w_remote w /\ w_out w1 = w_out w /\ w_tx w1 = w_tx w /\ w_prog w1 = w_prog w.
Lemma statement_kept : forall f w, w_budget w = None -> w_fail w = [] -> kept w (fst (statement f w)).
Proof.
  intros f w B F. unfold statement, pop_fail. rewrite F. destruct (f (w_rows w)); [|unfold kept; cbn; auto 10].
  unfold durable. rewrite B. unfold kept. cbn. auto 10.
Qed.
Lemma delete_kept : forall e w, w_budget w = None -> w_fail w = [] -> kept w (delete_database_transaction e w).
Proof.
  intros e w B F. unfold delete_database_transaction, transaction_get, pop_fail. rewrite F. destruct (find _ _); [apply statement_kept; assumption|].
  unfold kept. auto 10.
Qed.
Lemma open_effect : forall e c id tok cs w, calm w -> let w1 := open_transaction e c id tok cs w in w_prog w1 = Running ->
  calm w1 /\ w_remote w1 = w_remote w /\ w_out w1 = w_out w /\ exists t, w_tx w1 e = Some t /\ t_id t = id.
Proof.
  intros e c id tok cs w (P & B & F). cbv zeta. unfold open_transaction. destruct (negb _); [cbn; discriminate|].
  set (t := Tx id c 0 cs _ None None (w_resume w) false). assert (T : t_id t = id) by reflexivity. clearbody t.
  assert (T1 : w_tx (put_tx e (Some t) w) e = Some t) by (unfold put_tx, CsmModel.fupd; cbn; rewrite Z.eqb_refl; reflexivity).
  assert (C1 : w_budget (put_tx e (Some t) w) = None /\ w_fail (put_tx e (Some t) w) = [] /\ w_prog (put_tx e (Some t) w) = Running
    /\ w_remote (put_tx e (Some t) w) = w_remote w /\ w_out (put_tx e (Some t) w) = w_out w) by (cbn; auto).
  set (w1 := put_tx e (Some t) w) in *. clearbody w1. destruct C1 as (B1 & F1 & P1 & R1 & O1).
  assert (DONE : forall v, kept w1 v -> calm v /\ w_remote v = w_remote w /\ w_out v = w_out w /\ exists t, w_tx v e = Some t /\ t_id t = id).
  { intros v (K1 & K2 & K3 & K4 & K5 & K6). unfold calm. split; [split; [congruence|auto]|]. split; [congruence|]. split; [congruence|]. exists t. split; [congruence|exact T]. }
  destruct (w_resume w); [|intros _; apply DONE; unfold kept; auto 10].
  unfold insert_tx. pose proof (statement_kept (insert_row (row_of_tx e t)) w1 B1 F1) as K2.
  destruct (statement (insert_row (row_of_tx e t)) w1) as [w2 ok]. cbn [fst] in K2. destruct ok; [intros _; apply DONE; exact K2|].
  pose proof K2 as (A1 & A2 & A3 & A4 & A5 & A6). pose proof (delete_kept e w2 A1 A2) as K3. unfold seqw.
  set (w3 := delete_database_transaction e w2) in *. clearbody w3. pose proof K3 as (D1 & D2 & D3 & D4 & D5 & D6).
  rewrite D6, A6, P1. pose proof (statement_kept (insert_row (row_of_tx e t)) w3 D1 D2) as K4.
  destruct (statement (insert_row (row_of_tx e t)) w3) as [w4 ok2]. cbn [fst] in K4. destruct ok2; [|cbn; discriminate].
  intros _. apply DONE. destruct K4 as (E1 & E2 & E3 & E4 & E5 & E6). unfold kept. repeat split; congruence.
Qed.
Lemma started_event : forall e c id tr tok rid cs w, map_get 0 (w_remote w) = None -> map_get e (w_remote w) = Some (tok, rid) ->
  calm w -> let w1 := on_started e c id tr (Some tok) None cs w in w_prog w1 = Running ->
  exists v l, w_out w1 = w_out w ++ OTx v :: l /\ v_kind v = Started /\ v_id v = id /\ v_evse v = Some (e, c) /\
    v_trig v = RemoteStart /\ v_remote v = Some rid /\ v_tok v = Some tok /\ (forall x, ~ In (OTx x) l) /\ map_get e (w_remote w1) = None.
Proof.
  intros e c id tr tok rid cs w Z0 G C. cbv zeta. unfold on_started. intros R.
  assert (GE : get_evse e w = w).
  { unfold get_evse. destruct (evse_ok w e) eqn:Q; [reflexivity|]. exfalso. revert R. unfold seqw at 1. unfold get_evse. rewrite Q. cbn. discriminate. }
  rewrite seqw_run in R |- * by (rewrite GE; apply C). rewrite GE in R |- *. clear GE.
  pose proof (open_effect e c id (Some tok) cs w C) as O. cbv zeta in O.
  assert (P1 : w_prog (open_transaction e c id (Some tok) cs w) = Running).
  { destruct (w_prog (open_transaction e c id (Some tok) cs w)) eqn:Q; [reflexivity| |]; exfalso; rewrite seqw_stop in R by congruence; congruence. }
  rewrite seqw_run in R |- * by exact P1. set (w1 := open_transaction e c id (Some tok) cs w) in *. clearbody w1.
  destruct (O P1) as (C1 & R1 & O1 & t & T1 & TI). clear O.
  assert (S : calm (set_remote e None w1) /\ w_remote (set_remote e None w1) = w_remote w1 /\ w_out (set_remote e None w1) = w_out w1 /\
    exists t, w_tx (set_remote e None w1) e = Some t /\ t_id t = id).
  { unfold set_remote. rewrite T1. unfold put_tx, CsmModel.fupd. split; [exact C1|]. cbn. rewrite Z.eqb_refl. repeat split. eexists. split; [reflexivity|exact TI]. }
  rewrite seqw_run in R |- * by apply S. set (w2 := set_remote e None w1) in *. clearbody w2. destruct S as (C2 & R2 & O2 & t2 & T2 & TI2).
  unfold send_event in R |- *. rewrite T2 in R |- *. destruct (seq_calm e w2 t2 C2 T2) as (C3 & S3 & O3 & T3).
  rewrite seqw_run in R |- * by apply C3. set (w3 := get_seq_no e w2) in *. clearbody w3.
  unfold transaction_event_req in R |- *. cbn [v_tok v_evse] in R |- *.
  assert (RM : w_remote w3 = w_remote w) by (unfold same_rest in S3; intuition congruence). rewrite RM in R |- *.
  rewrite (find_pending e c tok rid _ Z0 G) in R |- *. cbn [fst snd] in R |- *. destruct C3 as (P3 & B3 & F3).
  match goal with |- context [TxEv ?a ?b ?q RemoteStart ?f ?g ?h ?i ?j] => set (v1 := TxEv a b q RemoteStart f g h i j) in * end.
  unfold seqw, emit, durable. cbn [w_budget set_w_remote w_prog set_w_out w_txcb w_out]. rewrite B3. cbn [w_prog set_w_out set_w_remote]. rewrite P3.
  exists v1. destruct (w_txcb w3).
  - cbn [w_budget set_w_out set_w_remote w_out w_remote]. rewrite B3. eexists. cbn [w_out set_w_out set_w_remote w_remote].
    rewrite O3, O2, O1, <- app_assoc. cbn [app]. split; [reflexivity|]. unfold v1. cbn. repeat split; try exact TI2; auto.
    + intros x [X|[]]. discriminate X.
    + apply rc_get_erase.
  - unfold skip. exists []. cbn [w_out set_w_out set_w_remote w_remote]. rewrite O3, O2, O1. split; [reflexivity|]. unfold v1. cbn. repeat split; try exact TI2; auto.
    apply rc_get_erase.
Qed.
