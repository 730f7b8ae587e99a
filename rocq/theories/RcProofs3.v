(** Remote control: the members told by histories, and answers. *)
From Coq Require Import ZArith String List Bool Lia.
From Verif Require Import TxModel TxSpec TxProofs TxProofs4 TxProofs5 TxProofs6 TxProofs7 FwModel FwSpec FwProofs RcModel RcSpec RcProofs RcProofs2.
From Verif Require CsmModel CsmSpec CsmProofs SecModel MvModel MvSpec MvProofs.
Import ListNotations.
Local Open Scope list_scope.
Local Open Scope Z_scope.

Lemma rtrace_app : forall h1 h2 r, rtrace r (h1 ++ h2) = rtrace r h1 ++ rtrace (rstate r h1) h2.
Proof.
  induction h1 as [|o q IH]; intros h2 r; [reflexivity|]. cbn [app rtrace rstate].
  destruct (rstep r o) as [r1 l]. cbn [fst app]. rewrite IH. reflexivity.
Qed.
Lemma rstate_app : forall h1 h2 r, rstate r (h1 ++ h2) = rstate (rstate r h1) h2.
Proof. induction h1 as [|o q IH]; intros h2 r; [reflexivity|]. cbn [app rstate]. apply IH. Qed.
Lemma rlog_app : forall a b, rlog (a ++ b) = rlog a ++ rlog b.
Proof. intros a b. unfold rlog. rewrite map_app, concat_app. reflexivity. Qed.
Lemma rlog_snoc : forall r h o, rlog (rtrace r (h ++ [o])) = rlog (rtrace r h) ++ snd (rstep (rstate r h) o).
Proof.
  intros r h o. rewrite rtrace_app, rlog_app. cbn [rtrace]. destruct (rstep (rstate r h) o) as [r1 l]. cbn. rewrite app_nil_r. reflexivity.
Qed.
Definition lg (a : option (ulog * option Z)) (o : rout) : option (ulog * option Z) :=
  match o with RLog s id false => Some (s, id) | RFw FStarted => None | _ => a end.
(** What is put out without telling a log status of its own, or starting the process. *)
Definition plain_out (o : rout) : bool := match o with RLog _ _ false | RFw _ => false | _ => true end.
Lemma plain_lg : forall l a, forallb plain_out l = true -> fold_left lg l a = a.
Proof.
  induction l as [|o q IH]; intros a H; [reflexivity|]. cbn in *. apply andb_true_iff in H. destruct H as (A & B). rewrite IH by exact B.
  destruct o; try reflexivity; try discriminate A. cbn. destruct triggered; [reflexivity|discriminate A].
Qed.
Lemma plain_fw : forall l, forallb plain_out l = true -> fw_part l = [].
Proof.
  induction l as [|o q IH]; intros H; [reflexivity|]. cbn in H. apply andb_true_iff in H. destruct H as (A & B). specialize (IH B).
  unfold fw_part in *. cbn [flat_map]. rewrite IH. destruct o; try reflexivity. discriminate A.
Qed.
Lemma fw_part_app : forall a b, fw_part (a ++ b) = fw_part a ++ fw_part b.
Proof. intros. apply flat_map_app. Qed.
Lemma fw_part_map : forall l, fw_part (map RFw l) = l.
Proof. induction l as [|o q IH]; [reflexivity|]. cbn. unfold fw_part in IH. rewrite IH. reflexivity. Qed.
Lemma lg_map : forall l a, fold_left lg (map RFw l) a = if starts l then None else a.
Proof.
  induction l as [|o q IH]; intros a; [reflexivity|]. cbn [map fold_left]. rewrite IH. unfold starts. cbn [existsb]. destruct o; cbn [orb]; try reflexivity.
  destruct (existsb _ q); reflexivity.
Qed.
Lemma plain_map : forall A (f : A -> rout) l, (forall x, plain_out (f x) = true) -> forallb plain_out (map f l) = true.
Proof. intros A f l H. induction l; [reflexivity|]. cbn. rewrite H. exact IHl. Qed.
Lemma plain_lift : forall o, plain_out (lift o) = true.
Proof. intros []; try reflexivity. destruct s; reflexivity. Qed.

(** What a request does to the members other than the world's. *)
Definition members_same (r r1 : rst) : Prop :=
  f_status (r_f r1) = f_status (r_f r) /\ f_id (r_f r1) = f_id (r_f r) /\ r_lstat r1 = r_lstat r /\ r_lid r1 = r_lid r.
Lemma ms_refl : forall r, members_same r r.
Proof. intros r. unfold members_same. auto. Qed.
Definition log_agrees (s : ulog) (id : Z) (a : option (ulog * option Z)) : Prop :=
  match a with None => s = log_idle | Some (t, i) => s = t /\ i = Some id end.
Lemma follow_members : forall c k ev csr d r, members_same r (fst (follow c k ev csr d r)) /\
  (forallb plain_out (snd (follow c k ev csr d r)) = true \/ exists s i, snd (follow c k ev csr d r) = [RFw (FNote s i true)]).
Proof.
  intros c k ev csr d r. destruct k; cbn [follow]; try (split; [apply ms_refl|left; reflexivity]).
  - split; [apply ms_refl|left]. destruct (r_lstat r); reflexivity.
  - unfold on_request. cbn. split; [unfold members_same; auto|right]. destruct (f_status (r_f r)); eexists _, _; reflexivity.
  - split; [apply ms_refl|left]. cbn [snd]. induction (asked _ _) as [|e q IH]; [reflexivity|]. cbn [flat_map]. rewrite forallb_app, IH.
    unfold meter_message. destruct (MvModel.m_samples _); reflexivity.
  - unfold sign. destruct (SecModel.step _ _). split; [unfold members_same; cbn; auto|left]. apply plain_map. reflexivity.
  - unfold sign. destruct (SecModel.step _ _). split; [unfold members_same; cbn; auto|left]. apply plain_map. reflexivity.
  - destruct ev as [[e [n|]]|]; try (split; [apply ms_refl|left; reflexivity]). split; [unfold members_same; cbn; auto|left].
    apply plain_map. apply plain_lift.
  - split; [unfold members_same; cbn; auto|left]. apply plain_map. apply plain_lift.
Qed.
Lemma receive_members : forall c q r, members_same r (fst (receive c q r)) /\
  (forallb plain_out (snd (receive c q r)) = true \/ exists s i, snd (receive c q r) = [RTrigResp TrigAccepted; RFw (FNote s i true)]).
Proof.
  intros c q r.
  assert (HT : forall k ev csr d, members_same r (fst (handle_trigger c k ev csr d r)) /\ (forallb plain_out (snd (handle_trigger c k ev csr d r)) = true
    \/ exists s i, snd (handle_trigger c k ev csr d r) = [RTrigResp TrigAccepted; RFw (FNote s i true)])).
  { intros k ev csr d. unfold handle_trigger. destruct (match ev with Some _ => _ | None => _ end); [split; [apply ms_refl|left; reflexivity]|].
    destruct (trigger_status c k ev r); try (split; [apply ms_refl|left; reflexivity]). destruct (follow_members c k ev csr d r) as (A & B).
    destruct (follow c k ev csr d r) as [r1 l]. cbn [fst snd] in *. split; [exact A|]. destruct B as [B|(s & i & ->)]; [left; cbn; exact B|right; eauto]. }
  assert (SAME : forall l, forallb plain_out l = true -> members_same r (fst (r, l)) /\ (forallb plain_out (snd (r, l)) = true
    \/ exists s i, snd (r, l) = [RTrigResp TrigAccepted; RFw (FNote s i true)])) by (intros l P; split; [apply ms_refl|left; exact P]).
  assert (HM : members_same r (fst (handle_message c q r)) /\ (forallb plain_out (snd (handle_message c q r)) = true
    \/ exists s i, snd (handle_message c q r) = [RTrigResp TrigAccepted; RFw (FNote s i true)])).
  { destruct q as [e n a|a k pk s|id a|k ev csr d|b a|id a]; cbn [handle_message]; try apply HT.
    - unfold handle_unlock. cbv zeta. repeat match goal with |- context [if ?b then _ else _] => destruct b end; apply SAME; reflexivity.
    - unfold handle_start. destruct (a_evse a) as [e|]; [|apply SAME; reflexivity]. destruct (negb (evse_ok _ _)); [apply SAME; reflexivity|].
      assert (P1 : forallb plain_out (fst (reserved r e a k)) = true) by (unfold reserved; destruct (r_res r); reflexivity).
      destruct (reserved r e a k) as [o1 s1]. cbv zeta. cbn [fst] in P1.
      assert (P2 : forallb plain_out (fst (fst (add_profile c r e a pk))) = true).
      { unfold add_profile. destruct (orf _); [|reflexivity]. destruct (a_profile a) as [p|]; [|reflexivity]. destruct (p_tx p); [|reflexivity]. destruct (r_sc r); reflexivity. }
      destruct (add_profile c r e a pk) as [[o2 info] def]. cbn [fst] in P2.
      assert (X : members_same r (if evse_available (r_w r) e && negb (for_other s1) then set_w (fst (do_tx (ORemoteId e (a_tok a) (a_rid a)) (r_w r))) r else r))
        by (destruct (_ && _); [unfold members_same; cbn; auto|apply ms_refl]).
      destruct def; cbn [fst snd]; (split; [exact X|left]); rewrite !forallb_app, P1, P2; [|reflexivity]. destruct (_ && _); reflexivity.
    - unfold handle_stop. destruct (transaction_evseid _ _); apply SAME; reflexivity.
    - destruct (r_res r); [|apply SAME; reflexivity]. unfold handle_reserve. cbv zeta.
      destruct (b_evse b); repeat match goal with |- context [if ?b then _ else _] => destruct b end; apply SAME; reflexivity.
    - destruct (r_res r); [|apply SAME; reflexivity]. unfold handle_cancel. destruct (_ || _); apply SAME; reflexivity. }
  unfold receive. destruct (r_reg r); [exact HM| |].
  - destruct q; try (apply SAME; reflexivity). exact HM.
  - destruct q; try (apply SAME; reflexivity). destruct k; try (apply SAME; reflexivity). exact HM.
Qed.
Lemma restarts_starts : forall f o, starts (snd (fstep f o)) = match o with Other c => restarts (f_w f) c | _ => false end.
Proof.
  intros f o. destruct o as [id s| |rq c sg a|c]; cbn [fstep].
  - unfold on_status. destruct (_ && _); [reflexivity|].
    set (x := if ends s then do_tx ORestore (f_w f) else (f_w f, [])).
    assert (X : exists l, snd x = map FTx l) by (unfold x; destruct (ends s); [apply do_tx_outs|exists []; reflexivity]).
    destruct x as [w1 o1]. cbn [snd] in X. destruct X as (l1 & ->).
    set (y := if fstatus_eqb (f_before f) s then do_tx OFirmware w1 else (w1, [])).
    assert (Y : exists l, snd y = map FTx l) by (unfold y; destruct (fstatus_eqb _ _); [apply do_tx_outs|exists []; reflexivity]).
    destruct y as [w2 o2]. cbn [snd] in Y. destruct Y as (l2 & ->). cbn [snd]. rewrite !starts_app, !starts_tx.
    destruct s, (fstatus_eqb (f_before f) _ && any_active w1); reflexivity.
  - unfold on_request. destruct (f_status f); reflexivity.
  - unfold handle_update. destruct c as [[|]|], a; reflexivity.
  - destruct (restarts (f_w f) c); cbn [snd]; rewrite ?starts_app, starts_tx; reflexivity.
Qed.
Lemma st_started : forall l a, fold_left st_f (l ++ [FStarted]) a = Idle.
Proof. intros l a. rewrite fold_left_app. reflexivity. Qed.
Lemma id_started : forall l a, fold_left id_f (l ++ [FStarted]) a = None.
Proof. intros l a. rewrite fold_left_app. reflexivity. Qed.

Lemma rstep_members : forall r o a, let r1 := fst (rstep r o) in let l := snd (rstep r o) in
  f_status (r_f r1) = fold_left st_f (fw_part l) (f_status (r_f r)) /\ f_id (r_f r1) = fold_left id_f (fw_part l) (f_id (r_f r)) /\
  (log_agrees (r_lstat r) (r_lid r) a -> log_agrees (r_lstat r1) (r_lid r1) (fold_left lg l a)).
Proof.
  intros r o a. cbv zeta. destruct o as [c q|s|s id|e m|e n ev d|o|c o]; cbn [rstep]; try (cbn; auto; fail).
  - destruct (receive_members c q r) as ((A & B & C & D) & P). destruct (receive c q r) as [r1 l]. cbn [fst snd] in *. rewrite A, B, C, D.
    destruct P as [P|(s & i & ->)]; [rewrite (plain_fw _ P), (plain_lg _ _ P); auto|]. destruct i; cbn; auto.
  - assert (P : forallb plain_out (new_outs (r_w r) (csm (CsmModel.submit_event e n ev d) (quiet (r_w r)))) = true) by (apply plain_map; apply plain_lift).
    cbv zeta. fold (quiet (r_w r)). cbn [fst snd]. rewrite (plain_fw _ P), (plain_lg _ _ P). cbn. auto.
  - destruct (step_members (r_f r) o) as (A & B & _). pose proof (restarts_starts (r_f r) o) as S.
    destruct (fstep (r_f r) o) as [f outs] eqn:F. cbn [fst snd] in *. fold (r_w r) in S.
    destruct (match o with Other c => restarts (r_w r) c | _ => false end) eqn:RS; cbn [fst snd]; rewrite fw_part_map, lg_map, S.
    + destruct o as [| | |c]; try discriminate RS. cbn [fstep] in F. fold (r_w r) in F. rewrite RS in F. inversion F; subst.
      rewrite st_started, id_started. cbn. auto.
    + cbn. auto.
  - destruct (SecModel.step (r_sec r) (c, o)) as [s outs]. assert (P : forallb plain_out (map RSec outs) = true) by (apply plain_map; reflexivity).
    destruct (SecModel.k_gone s); cbn [fst snd].
    + rewrite fw_part_app, (plain_fw _ P), (fold_left_app lg), (plain_lg _ _ P). cbn. auto.
    + rewrite (plain_fw _ P), (plain_lg _ _ P). cbn. auto.
Qed.
Lemma members_told : forall w0 res sc cb h, let r := rstate (started w0 res sc cb) h in let l := rlog (rtrace (started w0 res sc cb) h) in
  f_status (r_f r) = last_status (fw_part l) /\ f_id (r_f r) = last_id (fw_part l) /\ log_agrees (r_lstat r) (r_lid r) (last_log l).
Proof.
  intros w0 res sc cb h. cbv zeta. induction h as [|o q IH] using rev_ind; [cbn; auto|].
  rewrite rstate_app, rlog_snoc. cbn [rstate]. destruct IH as (A & B & C). set (r := rstate _ q) in *. set (l := rlog _) in *.
  destruct (rstep_members r o (last_log l)) as (X & Y & Z). rewrite fw_part_app. unfold last_status, last_id, last_log in *.
  fold st_f id_f lg in *. rewrite !fold_left_app. fold lg in Z.
  rewrite X, Y, A, B. split; [reflexivity|]. split; [reflexivity|]. apply Z. exact C.
Qed.

(** ** Answers *)
Lemma no_answer_lift : forall l, Forall (fun o => match o with OTx _ | OTxCallback _ => True | _ => False end) l -> filter is_answer (map RTx l) = [].
Proof. induction 1; [reflexivity|exact IHForall]. Qed.
Lemma follow_no_answer : forall c k ev csr d r, filter is_answer (snd (follow c k ev csr d r)) = [].
Proof.
  intros c k ev csr d r. destruct k; try reflexivity.
  - cbn. destruct (r_lstat r); reflexivity.
  - rewrite follow_meter. cbn [snd]. induction (filter _ (asked (r_w r) ev)); [reflexivity|assumption].
  - destruct (sign_outs c SecModel.Station csr r) as (s & outs & E & _). cbn [follow]. rewrite E. cbn [snd]. clear. induction outs; [reflexivity|assumption].
  - destruct (sign_outs c SecModel.V2G csr r) as (s & outs & E & _). cbn [follow]. rewrite E. cbn [snd]. clear. induction outs; [reflexivity|assumption].
  - cbn [follow]. destruct ev as [[e [n|]]|]; try reflexivity. fold (quiet (r_w r)). cbv zeta. cbn [snd].
    unfold csm, durable. cbn [w_budget quiet set_w_prog set_w_budget set_w_fail w_csm].
    destruct (CsmModel.step (w_csm (r_w r)) (CsmModel.SendOne e n d)) as [[s outs] res].
    rewrite (new_outs_app _ _ (map OAv outs)) by reflexivity. clear. induction outs; [reflexivity|assumption].
  - destruct (follow_tx c ev csr d r) as (l & w1 & E & _ & F & _). rewrite E. cbn [snd]. apply no_answer_lift. exact F.
Qed.
Lemma answered_once : forall c q r, smart_ok c r -> List.length (filter is_answer (snd (receive c q r))) = 1%nat.
Proof.
  intros c q r S.
  assert (HT : forall k ev csr d, List.length (filter is_answer (snd (handle_trigger c k ev csr d r))) = 1%nat).
  { intros k ev csr d. unfold handle_trigger. destruct (match ev with Some _ => _ | None => _ end); [reflexivity|].
    pose proof (follow_no_answer c k ev csr d r) as N.
    destruct (trigger_status c k ev r); try reflexivity. destruct (follow c k ev csr d r) as [r1 l]. cbn in *. rewrite N. reflexivity. }
  assert (HM : List.length (filter is_answer (snd (handle_message c q r))) = 1%nat).
  { destruct q as [e n a|a k pk s|id a|k ev csr d|b a|id a]; cbn [handle_message]; try apply HT.
    - unfold handle_unlock. cbv zeta. repeat match goal with |- context [if ?b then _ else _] => destruct b end; reflexivity.
    - unfold handle_start. destruct (a_evse a) as [e|]; [|reflexivity]. destruct (negb (evse_ok _ _)); [reflexivity|].
      rewrite add_profile_ok by exact S. unfold reserved. cbv zeta.
      destruct (r_res r); cbn [snd]; rewrite !filter_app, !app_length;
        replace (filter is_answer (profile_for c a e)) with (@nil rout) by (unfold profile_for; destruct (x_smart c) as [[|]|]; [destruct (a_profile a) as [[p [|]]|]|..]; reflexivity);
        destruct (_ && _); reflexivity.
    - unfold handle_stop. destruct (transaction_evseid _ _); reflexivity.
    - destruct (r_res r); [|reflexivity]. unfold handle_reserve. cbv zeta.
      destruct (b_evse b); repeat match goal with |- context [if ?b then _ else _] => destruct b end; reflexivity.
    - destruct (r_res r); [|reflexivity]. unfold handle_cancel. destruct (_ || _); reflexivity. }
  unfold receive. destruct (r_reg r); [exact HM| |].
  - destruct q; try reflexivity. exact HM.
  - destruct q; try reflexivity. destruct k; try reflexivity. exact HM.
Qed.
