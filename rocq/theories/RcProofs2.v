(** Remote control: what a trigger sends, reservations, and histories. *)
From Coq Require Import ZArith String List Bool Lia.
From Verif Require Import TxModel TxSpec TxProofs TxProofs4 TxProofs5 TxProofs6 TxProofs7 FwModel FwSpec FwProofs RcModel RcSpec RcProofs.
From Verif Require CsmModel CsmSpec CsmProofs SecModel MvModel MvSpec MvProofs StrModel StrSpec StrProofs.
Import ListNotations.
Local Open Scope list_scope.
Local Open Scope Z_scope.

(** ** The answer to a trigger *)
Lemma active_some : forall w e, active w e = true <-> w_tx w e <> None.
Proof. intros w e. unfold active. destruct (w_tx w e); split; congruence. Qed.
Lemma has_any_aligned : forall c r e, MvModel.has_any (r_mv r e) (x_aligned c) = true <-> aligned c r e <> [].
Proof. intros c r e. apply MvProofs.has_any_filtered. Qed.
Lemma accepted_iff : forall c k ev r, known_target r ev -> trigger_status c k ev r = TrigAccepted <-> servable c r k ev.
Proof.
  intros c k ev r K. assert (Y : forall b : bool, (if b then TrigAccepted else TrigRejected) = TrigAccepted <-> b = true)
    by (intros [|]; split; congruence).
  destruct k; cbn [trigger_status servable]; try (split; [tauto|tauto]); try (split; [congruence|intros []]); rewrite ?Y.
  - destruct (r_reg r); split; congruence.
  - rewrite existsb_exists. split; intros (e & A & B); exists e; [rewrite <- asked_in, <- has_any_aligned|rewrite asked_in, has_any_aligned]; auto.
  - destruct (SecModel.g_v2g (x_sec c)) as [[|]|]; cbn; split; congruence.
  - destruct ev as [[e [n|]]|]; [|split; [discriminate|intros (? & ? & ? & _); discriminate]|split; [discriminate|intros (? & ? & ? & _); discriminate]].
    rewrite Y, andb_true_iff, Z.ltb_lt, Z.leb_le. unfold known_connector, ncon, con_of. split.
    + intros. exists e, n. split; [reflexivity|lia].
    + intros (x & y & E & L). inversion E; subst. lia.
  - rewrite existsb_exists. split; intros (e & A & B); exists e; [rewrite <- asked_in, <- active_some|rewrite asked_in, active_some]; auto.
Qed.
Lemma not_implemented_iff : forall c k ev r, trigger_status c k ev r = TrigNotImplemented <-> ~ implemented k.
Proof.
  intros c k ev r. assert (Y : forall b : bool, (if b then TrigAccepted else TrigRejected) <> TrigNotImplemented) by (intros [|]; congruence).
  destruct k; cbn [trigger_status implemented]; try (split; [congruence|tauto]); try (split; [intros E; elim (Y _ E)|tauto]); try tauto.
  destruct ev as [[e [n|]]|]; (split; [intros E|tauto]); try discriminate E. elim (Y _ E).
Qed.
Lemma handle_trigger_known : forall c k ev csr d r, known_target r ev -> handle_trigger c k ev csr d r =
  match trigger_status c k ev r with
  | TrigAccepted => (fst (follow c k ev csr d r), RTrigResp TrigAccepted :: snd (follow c k ev csr d r))
  | s => (r, [RTrigResp s])
  end.
Proof.
  intros c k ev csr d r K. unfold handle_trigger.
  assert (E : match ev with Some (e, _) => negb (evse_ok (r_w r) e) | None => false end = false).
  { destruct ev as [[e o]|]; [|reflexivity]. cbn in K. apply known_ok in K. rewrite K. reflexivity. }
  rewrite E. destruct (trigger_status c k ev r); try reflexivity. destruct (follow c k ev csr d r). reflexivity.
Qed.
Lemma handle_trigger_unknown : forall c k ev csr d r, ~ known_target r ev -> handle_trigger c k ev csr d r = (r, [RError]).
Proof.
  intros c k ev csr d r K. unfold handle_trigger. destruct ev as [[e o]|]; [|elim K; exact I].
  cbn in K. apply unknown_ok in K. rewrite K. reflexivity.
Qed.

(** ** Messages that follow *)
Lemma new_outs_app : forall w w1 l, w_out w1 = w_out w ++ l -> new_outs w w1 = map lift l.
Proof. intros w w1 l E. unfold new_outs. fold (added w w1). rewrite (added_app _ _ _ E). reflexivity. Qed.
Lemma lift_tx : forall l, Forall (fun o => match o with OTx _ | OTxCallback _ => True | _ => False end) l -> map lift l = map RTx l.
Proof. induction 1 as [|o q H F IH]; [reflexivity|]. cbn [map]. rewrite IH. destruct o; try contradiction; reflexivity. Qed.
Lemma tx_messages_lift : forall l, tx_messages (map RTx l) = flat_map (fun o => match o with OTx v => [v] | _ => [] end) l.
Proof. induction l as [|o q IH]; [reflexivity|]. cbn. unfold tx_messages in IH. rewrite IH. reflexivity. Qed.
Definition quiet (w : world) : world := set_w_prog Running (set_w_budget None (set_w_fail [] w)).
Lemma quiet_calm : forall w, calm (quiet w).
Proof. intros w. unfold calm. cbn. auto. Qed.
Lemma follow_tx : forall c ev csr d r, exists l w1, follow c KTransaction ev csr d r = (set_w w1 r, map RTx l) /\
  same_rest (r_w r) w1 /\
  Forall (fun o => match o with OTx _ | OTxCallback _ => True | _ => False end) l /\
  Forall2 (about (r_w r)) (busy_among (r_w r) (asked (r_w r) ev)) (tx_messages (map RTx l)) /\
  (forall e, match w_tx (r_w r) e with
             | None => w_tx w1 e = None
             | Some t => if in_dec Z.eq_dec e (asked (r_w r) ev) then w_tx w1 e = Some (with_seq (i32 (t_seq t + 1)) t) else w_tx w1 e = Some t
             end).
Proof.
  intros c ev csr d r. cbn [follow]. fold (quiet (r_w r)). cbv zeta.
  destruct (events_sent (asked (r_w r) ev) (quiet (r_w r)) (quiet_calm _) (asked_nodup _ _)) as (outs & _ & S & O & F & A & T).
  set (w1 := foreach _ _ (quiet (r_w r))) in *. clearbody w1. exists outs, w1.
  rewrite (new_outs_app (r_w r) w1 outs O), lift_tx, tx_messages_lift by exact F. split; [reflexivity|]. auto.
Qed.
Lemma follow_status : forall c e n csr d r, coh (r_w r) -> known_evse (con_of r) e -> known_connector (con_of r) e n ->
  exists w1 v, follow c KStatus (Some (e, Some n)) csr d r = (set_w w1 r, [RTx (OAv (CsmModel.ONote e n v true d))]) /\ shown (r_w r) e n v /\
    w_tx w1 = w_tx (r_w r) /\ w_con w1 = w_con (r_w r) /\ w_sched w1 = w_sched (r_w r) /\ w_remote w1 = w_remote (r_w r) /\
    CsmModel.s_cs (w_csm w1) = CsmModel.s_cs (w_csm (r_w r)) /\ CsmModel.s_ev (w_csm w1) = CsmModel.s_ev (w_csm (r_w r)) /\
    CsmModel.s_con (w_csm w1) = CsmModel.s_con (w_csm (r_w r)).
Proof.
  intros c e n csr d r (_ & (U & NE & NC) & _) K KC. cbn [follow]. fold (quiet (r_w r)). cbv zeta.
  unfold csm, durable. cbn [w_budget quiet set_w_prog set_w_budget set_w_fail w_csm CsmModel.step]. rewrite U. cbn [negb].
  assert (CK : CsmModel.check_conn (w_csm (r_w r)) e n = CsmModel.Ok).
  { unfold con_of in *. specialize (NC e K). unfold CsmModel.check_conn, CsmModel.check_evse. rewrite NE, NC. unfold known_evse, known_connector in *.
    destruct (Z.leb_spec e 0); [lia|]. destruct (Z.ltb_spec (Z.of_nat (length (w_con (r_w r)))) e); [lia|].
    cbn [orb negb]. destruct (Z.leb_spec n 0); [lia|]. destruct (Z.ltb_spec (nth (Z.to_nat (e - 1)) (w_con (r_w r)) 0) n); [lia|reflexivity]. }
  unfold CsmModel.send_one. rewrite CK. unfold CsmModel.send_status. cbn [orb negb].
  match goal with |- context [new_outs ?a ?b] => rewrite (new_outs_app a b [OAv (CsmModel.ONote e n (CsmModel.to_connector_status (CsmModel.s_con (w_csm (r_w r)) e n)) true d)]) end;
    [|destruct d; reflexivity].
  eexists _, _. split; [reflexivity|]. split.
  - unfold shown, CsmModel.to_connector_status.
    set (k := CsmModel.s_con _ e n). destruct (CsmModel.c_faulted k) eqn:F; [exact F|]. destruct (CsmModel.c_unavail k) eqn:V; [split; assumption|].
    destruct (CsmModel.c_occupied k) eqn:Oc; [cbn; auto|]. destruct (CsmModel.c_reserved k) eqn:Rs; cbn; auto.
  - destruct d; cbn; auto 10.
Qed.
Lemma with_context_shape : forall m ms c, MvModel.set_context (MvModel.measurands_applied m ms true) c =
  MvModel.MV (map (MvModel.with_context c) (MvSpec.filtered ms true (MvModel.m_samples m))) (MvModel.m_time m) (MvModel.m_custom m).
Proof.
  intros m ms c. unfold MvModel.set_context, MvModel.measurands_applied, MvModel.with_samples. cbn. rewrite MvProofs.applied_filtered. reflexivity.
Qed.
Lemma follow_meter : forall c ev csr d r, follow c KMeter ev csr d r =
  (r, map (fun e => RMeter e (MvModel.MV (map (MvModel.with_context MvModel.Trigger) (aligned c r e)) (MvModel.m_time (r_mv r e)) (MvModel.m_custom (r_mv r e))))
        (filter (fun e => negb (Nat.eqb (List.length (aligned c r e)) 0)) (asked (r_w r) ev))).
Proof.
  intros c ev csr d r. cbn [follow]. f_equal. induction (asked (r_w r) ev) as [|e q IH]; [reflexivity|].
  cbn [flat_map filter]. rewrite IH. unfold meter_message, filtered. rewrite with_context_shape. fold (aligned c r e). cbn [MvModel.m_samples].
  destruct (aligned c r e) eqn:AL; [reflexivity|]. cbn [map List.length Nat.eqb negb app]. rewrite AL. reflexivity.
Qed.
Lemma sign_outs : forall c u csr r, exists s outs, sign c u csr r = (set_sec s r, map RSec outs) /\
  Forall (fun o => match o with SecModel.OSign v _ t => v = SecModel.asked_for u /\ t = true | SecModel.OGenerate v _ _ _ _ => v = u
          | SecModel.OEvent _ | SecModel.OTell _ => True | _ => False end) outs /\
  (List.length (filter (fun o => match o with SecModel.OSign _ _ _ => true | _ => false end) outs) <= 1)%nat.
Proof.
  intros c u csr r. unfold sign. destruct (SecModel.step (r_sec r) (x_sec c, SecModel.Sign u true csr)) as [s outs] eqn:E.
  exists s, outs. split; [reflexivity|]. unfold SecModel.step in E. destruct (SecModel.k_gone (r_sec r)); [inversion E; split; [constructor|cbn; lia]|].
  cbn in E. unfold SecModel.sign_certificate_req in E. destruct (SecModel.k_awaited (r_sec r)); [inversion E; split; [constructor|cbn; lia]|].
  destruct (SecModel.names (x_sec c) u) as [[[[cm|] [og|]] [cy|]] tpm]; try (inversion E; split; [constructor|cbn; lia]).
  destruct csr as [x|]; cbn in E.
  - inversion E. split; [repeat constructor|cbn; lia].
  - destruct (SecModel.k_cb (r_sec r)); inversion E; (split; [repeat constructor|cbn; lia]).
Qed.

(** ** Reservations *)
Lemma ci : forall a b, StrModel.ci_eq a b = true <-> StrSpec.same_text a b.
Proof. intros a b. apply StrProofs.iequals_same. Qed.
Lemma type_iff : forall c w e t, Forall (fun n => 0 <= n) (w_con w) -> connector_exists c w e (match t with Some t => t | None => unknown_type end) = true <-> has_type c (w_con w) e t.
Proof.
  intros c w e t POS. unfold connector_exists, has_type. rewrite andb_true_iff, known_ok. unfold evse_has_type.
  assert (NC : ncon w e = nth (Z.to_nat (e - 1)) (w_con w) 0) by reflexivity. rewrite NC. set (n := nth _ _ 0) in *.
  split; intros (K & H); (split; [exact K|]).
  - destruct (Z.eqb_spec n 0) as [N|N]; [discriminate|].
    assert (P : StrModel.ci_eq (match t with Some t => t | None => unknown_type end) unknown_type = true \/
      exists m, In m (CsmModel.ids n) /\ StrModel.ci_eq (match t with Some t => t | None => unknown_type end) unknown_type = false /\
        (let u := match x_type c e m with Some u => u | None => unknown_type end in StrModel.ci_eq u unknown_type || StrModel.ci_eq u (match t with Some t => t | None => unknown_type end)) = true).
    { destruct (StrModel.ci_eq _ unknown_type) eqn:Q; [left; reflexivity|right]. apply existsb_exists in H. destruct H as (m & I & X). exists m. auto. }
    clear H.
    destruct P as [P|(m & I & _ & X)].
    + assert (0 <= n) by (rewrite Forall_forall in POS; apply POS; apply nth_In; unfold known_evse in K; lia).
      exists 1. split; [unfold known_connector; fold n; lia|]. destruct t as [t|]; [|exact Logic.I]. destruct (x_type c e 1); [|exact Logic.I].
      left. apply ci. exact P.
    + exists m. apply CsmProofs.in_ids in I. split; [exact I|]. destruct t as [t|]; [|exact Logic.I]. destruct (x_type c e m) as [u|]; [|exact Logic.I].
      apply orb_true_iff in X. rewrite !ci in X. right. exact X.
  - destruct H as (m & I & X). unfold known_connector in I. fold n in I. destruct (Z.eqb_spec n 0) as [N|N]; [lia|].
    destruct (StrModel.ci_eq _ unknown_type) eqn:Q; [reflexivity|]. apply existsb_exists. exists m. split; [apply CsmProofs.in_ids; exact I|].
    destruct t as [t|]; [|exfalso; revert Q; vm_compute; discriminate]. destruct (x_type c e m) as [u|]; [|reflexivity].
    rewrite orb_true_iff, !ci. destruct X as [X|X]; [|exact X]. apply ci in X. unfold unknown_type in Q. congruence.
Qed.

Lemma types_iff : forall c w t, Forall (fun n => 0 <= n) (w_con w) ->
  existsb (fun e => connector_exists c w e (match t with Some t => t | None => unknown_type end)) (evses w) = true <-> exists e, has_type c (w_con w) e t.
Proof.
  intros c w t P. rewrite existsb_exists. split; intros (e & H).
  - exists e. apply type_iff; [exact P|apply H].
  - exists e. split; [apply in_evses; apply H|apply type_iff; assumption].
Qed.
Lemma handle_reserve_spec : forall c b ans r, Forall (fun n => 0 <= n) (con_of r) ->
  (reservable c r b -> handle_reserve c b ans r = (r, [RReserveCall b; RReserveResp ans None])) /\
  (~ reservable c r b -> exists i, handle_reserve c b ans r = (r, [RReserveResp RsRejected (Some i)])).
Proof.
  intros c b ans r P. unfold reservable, reservations_on, handle_reserve, con_of in *. cbv zeta.
  destruct (x_available c) as [[|]|]; cbn [orf negb];
    try (split; [intros ((X & _) & _); discriminate X|intros _; eexists; reflexivity]).
  destruct (x_enabled c) as [[|]|]; cbn [orf negb];
    try (split; [intros ((_ & X) & _); discriminate X|intros _; eexists; reflexivity]).
  destruct (b_evse b) as [e|].
  - rewrite <- type_iff by exact P. fold (r_w r).
    assert (ND : (e <=? 0) || negb (does_evse_exist (r_w r) e) = negb (evse_ok (r_w r) e)).
    { unfold does_evse_exist, evse_ok. destruct (Z.leb_spec e 0), (Z.leb_spec 0 e), (Z.leb_spec e (nev (r_w r))), (Z.ltb_spec (nev (r_w r)) e); cbn; try reflexivity; lia. }
    rewrite ND. destruct (connector_exists c (r_w r) e _) eqn:Q.
    + assert (evse_ok (r_w r) e = true) by (unfold connector_exists in Q; apply andb_true_iff in Q; apply Q). rewrite H. cbn [negb].
      split; [reflexivity|]. intros N. elim N. auto.
    + split; [intros (_ & X); discriminate X|]. intros _. destruct (evse_ok (r_w r) e); eexists; reflexivity.
  - destruct (x_nonspecific c) as [[|]|]; cbn [orf negb];
      try (split; [intros (_ & X & _); discriminate X|intros _; eexists; reflexivity]).
    rewrite <- types_iff by exact P. destruct (existsb _ _) eqn:Q.
    + assert (NZ : nev (r_w r) =? 0 = false).
      { apply Z.eqb_neq. intros N. unfold evses in Q. rewrite N in Q. discriminate Q. }
      rewrite NZ. split; [reflexivity|]. intros N. elim N. auto.
    + split; [intros (_ & _ & X); discriminate X|]. intros _. destruct (_ =? 0); eexists; reflexivity.
Qed.
Lemma handle_cancel_spec : forall c id ans r,
  (reservations_on c -> handle_cancel c id ans r = (r, [RCancelCall id; RCancelResp ans])) /\
  (~ reservations_on c -> handle_cancel c id ans r = (r, [RCancelResp false])).
Proof.
  intros c id ans r. unfold reservations_on, handle_cancel. destruct (x_available c) as [[|]|], (x_enabled c) as [[|]|]; cbn; split; intuition congruence.
Qed.

(** ** Coherence *)
Lemma coh_same : forall w w1, w_con w1 = w_con w -> csm_coh (w_con w) (w_csm w1) -> w_sched w1 = w_sched w -> coh w -> coh w1 /\ w_con w1 = w_con w.
Proof. unfold coh. intros w w1 A B C (D & E & F). rewrite A, C. auto. Qed.
Lemma csm_pure : forall con s o s1 outs res, (match o with CsmModel.SendOne _ _ _ | CsmModel.SetOccupied _ _ _ _ | CsmModel.SetReserved _ _ _ _
    | CsmModel.SetFaulted _ _ _ _ | CsmModel.SetUnavailable _ _ _ _ => True | _ => False end) ->
  CsmModel.step s o = (s1, outs, res) -> csm_coh con s -> csm_coh con s1.
Proof.
  intros con s o s1 outs res P E H. destruct o; try contradiction; cbn [CsmModel.step] in E;
    (destruct (negb (CsmModel.s_up s)); [inversion E; subst; exact H|]);
    unfold CsmModel.send_one, CsmModel.set_occupied, CsmModel.set_flag in E;
    (match type of E with context [CsmModel.check_conn s ?a ?b] => destruct (CsmModel.check_conn s a b); try (inversion E; subst; exact H) end);
    unfold CsmModel.send_status in E; cbv zeta in E;
    repeat match type of E with context [if ?b then _ else _] => destruct b end; inversion E; subst; exact H.
Qed.
Lemma csm_event_coh : forall o w, (match o with CsmModel.SendOne _ _ _ | CsmModel.SetOccupied _ _ _ _ | CsmModel.SetReserved _ _ _ _
    | CsmModel.SetFaulted _ _ _ _ | CsmModel.SetUnavailable _ _ _ _ => True | _ => False end) -> coh w -> coh (csm o (quiet w)) /\ w_con (csm o (quiet w)) = w_con w.
Proof.
  intros o w P H. unfold csm, durable. cbn [w_budget quiet set_w_prog set_w_budget set_w_fail w_csm].
  destruct (CsmModel.step (w_csm w) o) as [[s outs] res] eqn:E. apply coh_same; try reflexivity; [|exact H]. cbn.
  apply (csm_pure _ _ _ _ _ _ P E). apply H.
Qed.
Lemma do_tx_coh : forall o w, coh w -> coh (fst (do_tx o w)) /\ w_con (fst (do_tx o w)) = w_con w.
Proof. intros o w H. cbn [do_tx fst]. apply step_coh. exact H. Qed.
Lemma fstep_coh : forall f o, coh (f_w f) -> coh (f_w (fst (fstep f o))) /\ w_con (f_w (fst (fstep f o))) = w_con (f_w f).
Proof.
  intros f o H. destruct o as [id s| |rq c sg a|c]; cbn [fstep].
  - unfold on_status. destruct (_ && _); [auto|].
    assert (X : coh (fst (if ends s then do_tx ORestore (f_w f) else (f_w f, []))) /\ w_con (fst (if ends s then do_tx ORestore (f_w f) else (f_w f, []))) = w_con (f_w f))
      by (destruct (ends s); [apply do_tx_coh; exact H|auto]).
    destruct (if ends s then _ else _) as [w1 o1]. cbn [fst] in X. destruct X as (X1 & X2).
    assert (Y : coh (fst (if fstatus_eqb (f_before f) s then do_tx OFirmware w1 else (w1, []))) /\ w_con (fst (if fstatus_eqb (f_before f) s then do_tx OFirmware w1 else (w1, []))) = w_con w1)
      by (destruct (fstatus_eqb _ _); [apply do_tx_coh; exact X1|auto]).
    destruct (if fstatus_eqb _ _ then _ else _) as [w2 o2]. cbn [fst f_w] in *. destruct Y as (Y1 & Y2). rewrite Y2, X2. auto.
  - auto.
  - auto.
  - destruct (restarts (f_w f) c); cbn [fst fresh f_w]; apply step_coh; exact H.
Qed.
Lemma follow_coh : forall c k ev csr d r, coh (r_w r) -> coh (r_w (fst (follow c k ev csr d r))) /\ con_of (fst (follow c k ev csr d r)) = con_of r.
Proof.
  intros c k ev csr d r H. destruct k; cbn [follow]; try (split; [exact H|reflexivity]).
  - unfold sign. destruct (SecModel.step _ _). split; [exact H|reflexivity].
  - unfold sign. destruct (SecModel.step _ _). split; [exact H|reflexivity].
  - destruct ev as [[e [n|]]|]; try (split; [exact H|reflexivity]). fold (quiet (r_w r)). cbv zeta. cbn [fst].
    unfold con_of, r_w. cbn [set_w r_f f_w]. fold (r_w r). apply csm_event_coh; [exact Logic.I|exact H].
  - destruct (follow_tx c ev csr d r) as (l & w1 & E & S & _). cbn [follow] in E. rewrite E. cbn [fst]. unfold con_of, r_w.
    cbn [set_w r_f f_w]. fold (r_w r). unfold same_rest in S. destruct S as (S1 & S2 & S3 & _). apply coh_same; auto. rewrite S2. apply H.
Qed.
Lemma rstep_coh : forall r o, coh (r_w r) -> coh (r_w (fst (rstep r o))) /\ con_of (fst (rstep r o)) = con_of r.
Proof.
  intros r o H. assert (SAME : coh (r_w r) /\ con_of r = con_of r) by auto. destruct o as [c q|s|s id|e m|e n ev d|o|c o]; cbn [rstep]; try exact SAME.
  - assert (HT : forall k ev csr d, coh (r_w (fst (handle_trigger c k ev csr d r))) /\ con_of (fst (handle_trigger c k ev csr d r)) = con_of r).
    { intros k ev csr d. unfold handle_trigger. destruct (match ev with Some _ => _ | None => _ end); [exact SAME|].
      destruct (trigger_status c k ev r); try exact SAME. pose proof (follow_coh c k ev csr d r H) as F.
      destruct (follow c k ev csr d r). exact F. }
    assert (HM : coh (r_w (fst (handle_message c q r))) /\ con_of (fst (handle_message c q r)) = con_of r).
    { destruct q as [e n a|a k pk s|id a|k ev csr d|b a|id a]; cbn [handle_message]; try apply HT.
      - unfold handle_unlock. cbv zeta. repeat match goal with |- context [if ?b then _ else _] => destruct b end; exact SAME.
      - unfold handle_start. destruct (a_evse a) as [e|]; [|exact SAME]. destruct (negb (evse_ok _ _)); [exact SAME|].
        destruct (reserved r e a k) as [o1 s1]. cbv zeta. destruct (add_profile c r e a pk) as [[o2 info] def].
        assert (X : coh (r_w (if evse_available (r_w r) e && negb (for_other s1) then set_w (fst (do_tx (ORemoteId e (a_tok a) (a_rid a)) (r_w r))) r else r))
          /\ con_of (if evse_available (r_w r) e && negb (for_other s1) then set_w (fst (do_tx (ORemoteId e (a_tok a) (a_rid a)) (r_w r))) r else r) = con_of r).
        { destruct (_ && _); [|exact SAME]. apply (do_tx_coh (ORemoteId e (a_tok a) (a_rid a))). exact H. }
        destruct def; cbn [fst]; exact X.
      - unfold handle_stop. destruct (transaction_evseid _ _); exact SAME.
      - destruct (r_res r); [|exact SAME]. unfold handle_reserve. cbv zeta. destruct (b_evse b); repeat match goal with |- context [if ?b then _ else _] => destruct b end; exact SAME.
      - destruct (r_res r); [|exact SAME]. unfold handle_cancel. destruct (_ || _); exact SAME. }
    unfold receive. destruct (r_reg r); [exact HM| |].
    + destruct q; try exact SAME. exact HM.
    + destruct q; try exact SAME. destruct k; try exact SAME. exact HM.
  - cbn [fst]. unfold con_of, r_w. cbn [set_w r_f f_w]. fold (r_w r). apply csm_event_coh; [destruct ev; exact Logic.I|exact H].
  - pose proof (fstep_coh (r_f r) o H) as F. destruct (fstep (r_f r) o) as [f outs]. cbn [fst] in F.
    match goal with |- context [if ?b then _ else _] => destruct b end; exact F.
  - destruct (SecModel.step (r_sec r) (c, o)) as [s outs]. destruct (SecModel.k_gone s); [|exact SAME]. cbn [fst]. unfold started, con_of, r_w. cbn [r_f fresh f_w].
    fold (r_w r). apply step_coh. exact H.
Qed.
Lemma rstate_coh : forall h r, coh (r_w r) -> coh (r_w (rstate r h)) /\ con_of (rstate r h) = con_of r.
Proof.
  induction h as [|o q IH]; intros r H; [auto|]. cbn [rstate]. destruct (rstep_coh r o H) as (A & B). destruct (IH _ A) as (C & D). split; [exact C|congruence].
Qed.
Lemma rc_coh : forall r, rc_reachable r -> coh (r_w r).
Proof. intros r (w0 & res & sc & cb & h & R & ->). apply rstate_coh. apply reachable_coh. exact R. Qed.
