(** Property C61: what the TransactionEvent messages say, and what follows from their answers. *)
From Coq Require Import ZArith List Bool Lia.
From Verif Require Import TxModel TxSpec TxSpec2 TxProofs TxProofs4 TxProofs5 TxProofs8 TxProofs9 TxProperties.
From Verif Require CsmModel.
Import ListNotations.
Local Open Scope Z_scope.

(** From any station one can get to, restarts and crashes included: the messages of a history of calls that return
    normally, with failing statements or not, are those of [say_all], in order and nothing else, both for the CSMS and for
    the callback; and the transactions and waiting remote starts are then as specified. Missing: calls that end with an
    exception or in which the process dies, and what a restart does to the contents
    ([charging_state_after_restart_refuted]). *)
Theorem messages_say_what_happened_partial :
  forall con resume txcb allcb h0 h,
    let w := run (init con resume txcb allcb) h0 in
    no_crashes h -> no_restarts h -> returning w h ->
    told (added w (run w h)) = snd (say_all (w_con w) (w_txcb w) (talk_of w) h) /\
    same_talk (talk_of (run w h)) (fst (say_all (w_con w) (w_txcb w) (talk_of w) h)).
Proof.
  intros con resume txcb allcb h0 h w C R H.
  assert (S : sorted (w_remote w)) by (apply sorted_run; apply sorted_boot).
  destruct (run_says h w C R S H) as (A&_&_&_&x&B&D). rewrite (added_app _ _ _ B). auto.
Qed.
Print Assumptions messages_say_what_happened_partial.

Definition talkative : list call :=
  map plainly [ORemoteId 0 7 55; ORemoteId 1 7 66; OStart 1 1 100 Authorized (Some 7) None 1; OCharging 1 5 (OtherTrig 9);
               OStart 2 1 200 (OtherTrig 4) None (Some 77) 1; OAuthorized 2 8; OTrigger None; OFinish 1 3 StopAuthorized (Some 7) 2; OMeter 2 true].
Example messages_say_what_happened_ex :
  no_crashes talkative /\ no_restarts talkative /\ returning two_evses talkative /\
  map snd (filter fst (told (added two_evses (run two_evses talkative)))) =
    [Content Started 100 RemoteStart 1 None (Some 55) (Some (1, 1)) (Some 7);
     Content Updated 100 (OtherTrig 9) 5 None None None None;
     Content Started 200 (OtherTrig 4) 1 None (Some 77) (Some (2, 1)) None;
     Content Updated 200 Authorized 1 None (Some 77) None (Some 8);
     Content Updated 100 Trigger 5 None None None None; Content Updated 200 Trigger 1 None (Some 77) None None;
     Content Ended 100 StopAuthorized 2 (Some 3) None None (Some 7);
     Content Updated 200 MeterClock 1 None (Some 77) None None].
Proof. split; [repeat constructor|]. split; [repeat constructor|]. split; [vm_compute; repeat split; reflexivity|]. vm_compute. reflexivity. Qed.

(** ** Remote starts *)

(** Does an operation bring the remote start id [rid]? *)
Definition brings (rid : Z) (o : op) : bool :=
  match o with
  | OStart _ _ _ _ _ (Some r) _ => r =? rid
  | ORemoteId _ _ r => r =? rid
  | _ => false
  end.
Definition with_rid (rid : Z) (m : bool * content) : bool :=
  fst m && match TxSpec2.m_remote (snd m) with Some r => r =? rid | None => false end.
Definition mentions (rid : Z) (l : list (bool * content)) : nat := length (filter (with_rid rid) l).
(** No transaction has the remote start id and nothing waits with it, except for [tok] under [e] if [b]. *)
Definition waits_only (rid e tok : Z) (b : bool) (s : talk) : Prop :=
  (forall x t, t_pend s x = Some (t, rid) -> x = e /\ t = tok /\ b = true) /\
  (forall x k, t_view s x = Some k -> k_remote k <> Some rid).
Definition right_message (rid tok : Z) (m : bool * content) : Prop :=
  with_rid rid m = true -> m_trig (snd m) = RemoteStart /\ TxSpec2.m_tok (snd m) = Some tok.
Definition at_most (b1 b : bool) (n : nat) : Prop := (n + (if b1 then 1 else 0) <= if b then 1 else 0)%nat.

Lemma mentions_app rid a b : mentions rid (a ++ b) = (mentions rid a + mentions rid b)%nat.
Proof. unfold mentions. rewrite filter_app, app_length. reflexivity. Qed.
Lemma deliver_mentions : forall rid e tok b cb p m,
  (forall x t, p x = Some (t, rid) -> x = e /\ t = tok /\ b = true) -> TxSpec2.m_remote m <> Some rid ->
  exists b1, (forall x t, fst (deliver cb p m) x = Some (t, rid) -> x = e /\ t = tok /\ b1 = true) /\
    at_most b1 b (mentions rid (snd (deliver cb p m))) /\ Forall (right_message rid tok) (snd (deliver cb p m)).
Proof.
  intros rid e tok b cb p m P M.
  assert (NM : forall d, with_rid rid (d, m) = false).
  { intros d. unfold with_rid. cbn. destruct (TxSpec2.m_remote m) as [r|]; [|apply andb_false_r]. destruct (r =? rid) eqn:E; [|apply andb_false_r].
    apply Z.eqb_eq in E. congruence. }
  assert (CB : forall d, with_rid rid (false, d) = false) by reflexivity.
  assert (RM : forall d, right_message rid tok (d, m)) by (intros d X; rewrite NM in X; discriminate).
  assert (RC : Forall (right_message rid tok) (if cb then [(false, m)] else [])) by (destruct cb; [apply Forall_cons; [apply RM|]|]; apply Forall_nil).
  assert (PL : exists b1, (forall x t, p x = Some (t, rid) -> x = e /\ t = tok /\ b1 = true) /\
    at_most b1 b (mentions rid ((true, m) :: (if cb then [(false, m)] else []))) /\ Forall (right_message rid tok) ((true, m) :: (if cb then [(false, m)] else []))).
  { exists b. split; [exact P|]. unfold mentions. split.
    - destruct cb; cbn [filter]; rewrite ?NM, ?CB; unfold at_most; destruct b; cbn; lia.
    - apply Forall_cons; [apply RM|apply RC]. }
  assert (RE : forall k tk r, m_tok m = Some tk -> waits_under p k tk = Some r ->
    let as_remote := Content (m_kind m) (TxSpec2.m_id m) RemoteStart (m_cs m) (m_reason m) (Some r) (m_evse m) (m_tok m) in
    let l := (true, as_remote) :: (if cb then [(false, m)] else []) in
    exists b1, (forall x t, put p k None x = Some (t, rid) -> x = e /\ t = tok /\ b1 = true) /\
      at_most b1 b (mentions rid l) /\ Forall (right_message rid tok) l).
  { intros k tk r TK W. cbv zeta. unfold waits_under in W. destruct (p k) as [[t0 r0]|] eqn:PK; [|discriminate].
    destruct (t0 =? tk) eqn:T0; [|discriminate]. injection W as <-. apply Z.eqb_eq in T0. subst t0.
    destruct (r0 =? rid) eqn:R0.
    - apply Z.eqb_eq in R0. subst r0. destruct (P _ _ PK) as (-> & -> & ->). exists false. split; [|split].
      + intros x t Q. unfold put in Q. destruct (x =? e) eqn:XE; [discriminate|]. destruct (P _ _ Q) as (-> &_). rewrite Z.eqb_refl in XE. discriminate.
      + unfold mentions, at_most. cbn [filter]. destruct cb; cbn [filter]; rewrite ?CB; unfold with_rid; cbn; rewrite Z.eqb_refl; cbn; lia.
      + apply Forall_cons; [intros _; cbn; auto|exact RC].
    - exists b. split; [|split].
      + intros x t Q. unfold put in Q. destruct (x =? k); [discriminate|]. apply P in Q. exact Q.
      + unfold mentions, at_most. cbn [filter]. destruct cb; cbn [filter]; rewrite ?CB; unfold with_rid; cbn; rewrite R0; cbn; destruct b; lia.
      + apply Forall_cons; [intros X; unfold with_rid in X; cbn in X; rewrite R0 in X; discriminate|exact RC]. }
  unfold deliver. destruct (m_tok m) as [tk|] eqn:TK; [|exact PL].
  destruct (waits_under p 0 tk) as [r|] eqn:W0; [exact (RE 0 tk r eq_refl W0)|].
  destruct (m_evse m) as [[f c]|] eqn:EV; [|exact PL]. destruct (waits_under p f tk) as [r|] eqn:WF; [|exact PL].
  exact (RE f tk r eq_refl WF).
Qed.
Lemma deliver_waits : forall rid e tok b cb p m v, waits_only rid e tok b (Talk v p) -> TxSpec2.m_remote m <> Some rid ->
  exists b1, waits_only rid e tok b1 (Talk v (fst (deliver cb p m))) /\
    at_most b1 b (mentions rid (snd (deliver cb p m))) /\ Forall (right_message rid tok) (snd (deliver cb p m)).
Proof.
  intros rid e tok b cb p m v (P&V) M. destruct (deliver_mentions rid e tok b cb p m P M) as (b1&A&B&C). exists b1. split; [split; [exact A|exact V]|auto].
Qed.
Lemma update_waits : forall rid e tok b cb f tr tk s, waits_only rid e tok b s ->
  exists b1, waits_only rid e tok b1 (fst (update_msg cb f tr tk s)) /\
    at_most b1 b (mentions rid (snd (update_msg cb f tr tk s))) /\ Forall (right_message rid tok) (snd (update_msg cb f tr tk s)).
Proof.
  intros rid e tok b cb f tr tk [v p] W. unfold update_msg. cbn [t_view t_pend]. destruct (v f) as [t|] eqn:E.
  - destruct W as (P&V). assert (N := V f t E). destruct (deliver_waits rid e tok b cb p (Content Updated (k_id t) tr (k_cs t) (k_reason t) (k_remote t) None tk) v (conj P V) N) as (b1&X).
    destruct (deliver cb p _) as [p1 l]. exists b1. exact X.
  - exists b. split; [exact W|]. split; [unfold at_most; destruct b; cbn; lia|constructor].
Qed.
Lemma at_most_trans : forall b b1 b2 n m, at_most b1 b n -> at_most b2 b1 m -> at_most b2 b (n + m).
Proof. unfold at_most. intros b b1 b2 n m A B. destruct b, b1, b2; lia. Qed.
Lemma all_waits : forall rid e tok cb tr l b s, waits_only rid e tok b s ->
  exists b1, waits_only rid e tok b1 (fst (update_all cb tr l s)) /\
    at_most b1 b (mentions rid (snd (update_all cb tr l s))) /\ Forall (right_message rid tok) (snd (update_all cb tr l s)).
Proof.
  induction l as [|f q IH]; intros b s W.
  - exists b. split; [exact W|]. split; [unfold at_most; destruct b; cbn; lia|constructor].
  - cbn [update_all]. destruct (update_waits rid e tok b cb f tr None s W) as (b1&A&B&C). destruct (update_msg cb f tr None s) as [s1 x].
    cbn [fst snd] in *. destruct (IH b1 s1 A) as (b2&A2&B2&C2). destruct (update_all cb tr q s1) as [s2 y]. cbn [fst snd] in *.
    exists b2. split; [exact A2|]. rewrite mentions_app. split; [eapply at_most_trans; eauto|apply Forall_app; auto].
Qed.
Lemma say_waits : forall rid e tok con cb o b s, brings rid o = false -> waits_only rid e tok b s ->
  exists b1, waits_only rid e tok b1 (fst (say con cb s o)) /\
    at_most b1 b (mentions rid (snd (say con cb s o))) /\ Forall (right_message rid tok) (snd (say con cb s o)).
Proof.
  intros rid e tok con cb o b s N W.
  assert (Q : forall s1, waits_only rid e tok b s1 -> exists b1, waits_only rid e tok b1 (fst (s1, @nil (bool * content))) /\
    at_most b1 b (mentions rid (snd (s1, @nil (bool * content)))) /\ Forall (right_message rid tok) (snd (s1, @nil (bool * content)))).
  { intros s1 W1. exists b. split; [exact W1|]. split; [unfold at_most; destruct b; cbn; lia|constructor]. }
  assert (PV : forall f k, (forall k1, k = Some k1 -> k_remote k1 <> Some rid) -> waits_only rid e tok b (Talk (put (t_view s) f k) (t_pend s))).
  { intros f k K. destruct W as (P&V). split; cbn; [exact P|]. intros x k1 E. unfold put in E. destruct (x =? f); [apply K; exact E|eapply V; eauto]. }
  destruct o; cbn [say]; try (apply Q; exact W).
  - assert (R : rid0 <> Some rid) by (cbn in N; destruct rid0 as [r|]; [apply Z.eqb_neq in N; congruence|discriminate]).
    assert (W1 := PV e0 (Some (KTx id c cs (match tok0 with Some _ => true | None => false end) None rid0)) ltac:(intros k1 E; injection E as <-; exact R)).
    destruct (deliver_waits rid e tok b cb (t_pend s) (Content Started id tr cs None rid0 (Some (e0, c)) tok0) _ W1 R) as (b1&X).
    destruct (deliver cb (t_pend s) _) as [p l]. exists b1. exact X.
  - destruct (t_view s e0) as [t|] eqn:E; [|apply Q; exact W].
    assert (R : k_remote t <> Some rid) by (destruct W as (_&V); exact (V _ _ E)).
    assert (W1 := PV e0 None ltac:(intros; discriminate)).
    destruct (deliver_waits rid e tok b cb (t_pend s) (Content Ended (k_id t) tr cs (Some reason) (k_remote t) None (match tr with StopAuthorized => tok0 | _ => None end)) _ W1 R) as (b1&X).
    destruct (deliver cb (t_pend s) _) as [p l]. exists b1. exact X.
  - destruct (t_view s e0) as [t|] eqn:E; [|apply Q; exact W]. destruct (k_tok t); [apply Q; exact W|].
    apply update_waits. apply PV. intros k1 E1. injection E1 as <-. cbn. destruct W as (_&V). exact (V _ _ E).
  - destruct (t_view s e0) as [t|] eqn:E; [|apply Q; exact W]. destruct (k_cs t =? cs); [apply Q; exact W|].
    apply update_waits. apply PV. intros k1 E1. injection E1 as <-. cbn. destruct W as (_&V). exact (V _ _ E).
  - apply update_waits; exact W.
  - destruct e0; [apply update_waits|apply all_waits]; exact W.
  - apply Q. destruct W as (P&V). split; cbn; [|exact V]. intros x t E. unfold put in E. destruct (x =? e0); [|apply P; exact E].
    cbn in N. apply Z.eqb_neq in N. congruence.
Qed.
Lemma say_all_waits : forall rid e tok con cb h b s, Forall (fun k => brings rid (c_op k) = false) h -> waits_only rid e tok b s ->
  exists b1, waits_only rid e tok b1 (fst (say_all con cb s h)) /\
    at_most b1 b (mentions rid (snd (say_all con cb s h))) /\ Forall (right_message rid tok) (snd (say_all con cb s h)).
Proof.
  induction h as [|k q IH]; intros b s F W.
  - exists b. split; [exact W|]. split; [unfold at_most; destruct b; cbn; lia|constructor].
  - inversion F as [|k1 q1 F1 F2]; subst. cbn [say_all]. destruct (say_waits rid e tok con cb (c_op k) b s F1 W) as (b1&A&B&C).
    destruct (say con cb s (c_op k)) as [s1 x]. cbn [fst snd] in *. destruct (IH b1 s1 F2 A) as (b2&A2&B2&C2). destruct (say_all con cb s1 q) as [s2 y].
    cbn [fst snd] in *. exists b2. split; [exact A2|]. rewrite mentions_app. split; [eapply at_most_trans; eauto|apply Forall_app; auto].
Qed.

(** A remote start id that was not used before is reported to the CSMS in at most one message, which has the trigger reason
    RemoteStart and the id token the remote start was for. *)
Theorem remote_start_reported_once_partial :
  forall con resume txcb allcb h0 e tok rid fails h,
    let w := run (init con resume txcb allcb) h0 in
    let k := Call (ORemoteId e tok rid) fails None in
    (forall x t, pending w x <> Some (t, rid)) -> (forall x t, view w x = Some t -> k_remote t <> Some rid) ->
    no_crashes h -> no_restarts h -> Forall (fun k => brings rid (c_op k) = false) h -> returning w (k :: h) ->
    let said := filter (with_rid rid) (told (added w (run w (k :: h)))) in
    said = [] \/ exists m, said = [(true, m)] /\ m_trig m = RemoteStart /\ TxSpec2.m_tok m = Some tok.
Proof.
  intros con resume txcb allcb h0 e tok rid fails h w k NP NV C R F H. cbv zeta.
  destruct (messages_say_what_happened_partial con resume txcb allcb h0 (k :: h)) as (M&_).
  { constructor; [reflexivity|exact C]. } { constructor; [reflexivity|exact R]. } { exact H. }
  fold w in M. rewrite M. cbn [say_all c_op k say].
  assert (W : waits_only rid e tok true (Talk (t_view (talk_of w)) (put (t_pend (talk_of w)) e (Some (tok, rid))))).
  { split; cbn; [|exact NV]. intros x t E. unfold put in E. destruct (x =? e) eqn:XE; [apply Z.eqb_eq in XE; injection E as <-; auto|].
    exfalso. exact (NP _ _ E). }
  destruct (say_all_waits rid e tok (w_con w) (w_txcb w) h true _ F W) as (b1&_&B&G).
  match type of B with context [say_all ?a ?b ?c ?d] => destruct (say_all a b c d) as [s l] end. cbn [fst snd app] in *.
  unfold at_most, mentions in B. destruct (filter (with_rid rid) l) as [|m [|m1 q]] eqn:FL; [left; reflexivity| |cbn in B; destruct b1; lia].
  right. assert (I : In m l /\ with_rid rid m = true) by (apply filter_In; rewrite FL; left; reflexivity). destruct I as (I1&I2).
  rewrite Forall_forall in G. destruct (G m I1 I2) as (X&Y). destruct m as [d m]. exists m. assert (d = true) by (unfold with_rid in I2; cbn in I2; destruct d; auto).
  subst d. auto.
Qed.
Print Assumptions remote_start_reported_once_partial.

Example remote_start_reported_once_ex :
  let k := Call (ORemoteId 1 7 66) [] None in
  let h := map plainly [OStart 2 1 200 Authorized (Some 7) None 1; OStart 1 1 100 Authorized (Some 7) None 1; OCharging 1 5 (OtherTrig 9)] in
  (forall x t, pending two_evses x <> Some (t, 66)) /\ (forall x t, view two_evses x = Some t -> k_remote t <> Some 66) /\
  no_crashes h /\ no_restarts h /\ Forall (fun k => brings 66 (c_op k) = false) h /\ returning two_evses (k :: h) /\
  filter (with_rid 66) (told (added two_evses (run two_evses (k :: h)))) =
    [(true, Content Started 100 RemoteStart 1 None (Some 66) (Some (1, 1)) (Some 7))].
Proof.
  split; [intros x t; vm_compute; discriminate|]. split; [intros x t; vm_compute; discriminate|]. split; [repeat constructor|]. split; [repeat constructor|].
  split; [repeat constructor|]. split; [vm_compute; repeat split; reflexivity|vm_compute; reflexivity].
Qed.

(** ** Answers and requests of the CSMS *)

(** Is the transaction [id] running on EVSE [e]? *)
Definition runs_on (w : world) (id e : Z) : Prop := In e (evse_ids (w_con w)) /\ exists k, view w e = Some k /\ k_id k = id.
(** The answer says that the token of the message is not accepted. *)
Definition refuses (v : txev) (info : option bool) : Prop := v_kind v <> Ended /\ info = Some false /\ v_tok v <> None.

Lemma evseid_runs : forall w id, match transaction_evseid w id with Some e => runs_on w id e | None => forall e, ~ runs_on w id e end.
Proof.
  intros w id. unfold transaction_evseid. rewrite evses_ids.
  assert (X : forall e, has_tx_id w id e = true <-> exists k, view w e = Some k /\ k_id k = id).
  { intros e. unfold has_tx_id, view. destruct (w_tx w e) as [t|]; [|split; [discriminate|intros (k&E&_); discriminate]].
    rewrite Z.eqb_eq. split; [intros E; eexists; split; [reflexivity|exact E]|intros (k&E&K); injection E as <-; exact K]. }
  destruct (find _ _) as [e|] eqn:F.
  - apply find_some in F. destruct F as (F1&F2). split; [exact F1|apply X; exact F2].
  - intros e (I&K). apply X in K. rewrite (find_none _ _ F e I) in K. discriminate.
Qed.

(** A token refused in the answer to a message other than the last one stops or pauses the charging of that transaction,
    if it is still running, as configured; any other answer, and one that comes too late, has no effect. *)
Theorem refused_token_acts :
  forall w v info stop maxe fails,
    let w1 := step w (Call (OResponse v info stop maxe) fails None) in
    (refuses v info -> forall e, runs_on w (v_id v) e ->
       exists e, runs_on w (v_id v) e /\ added w w1 = if stop then [OStopTx e DeAuthorized] else if maxe then [] else [OPause e]) /\
    (~ refuses v info \/ (forall e, ~ runs_on w (v_id v) e) -> added w w1 = []) /\
    w_prog w1 = Running /\ (forall e, view w1 e = view w e).
Proof.
  intros w v info stop maxe fails w1. unfold w1. rewrite step_alive by reflexivity. cbn [exec c_op c_crash c_fail].
  set (w0 := set_w_prog Running (set_w_budget None (set_w_fail fails w))).
  assert (V : forall e, view (on_response v info stop maxe w0) e = view w e) by (intros e; apply (hush_response v info stop maxe w0)).
  assert (K : ~ refuses v info -> on_response v info stop maxe w0 = w0).
  { intros N. unfold on_response. unfold refuses in N. destruct (v_kind v), info as [[]|], (v_tok v); try reflexivity;
      exfalso; apply N; split; try discriminate; split; try reflexivity; discriminate. }
  assert (L : refuses v info -> on_response v info stop maxe w0 = match transaction_evseid w0 (v_id v) with
      | None => w0 | Some e => if stop then emit (OStopTx e DeAuthorized) w0 else if maxe then set_max e w0 else emit (OPause e) w0 end).
  { intros (A&B&D). unfold on_response. rewrite B. destruct (v_kind v), (v_tok v); try congruence; reflexivity. }
  assert (E0 : forall x, w_out x = w_out w -> added w x = []) by (intros x E; apply added_app; rewrite app_nil_r; exact E).
  assert (M : forall e, w_out (set_max e w0) = w_out w /\ w_prog (set_max e w0) = Running) by (intros e; unfold set_max; destruct (w_tx w0 e); auto).
  assert (X := evseid_runs w0 (v_id v)). change (runs_on w0) with (runs_on w) in X.
  split; [|split; [|split; [|exact V]]].
  - intros R e RE. rewrite (L R). destruct (transaction_evseid w0 (v_id v)) as [f|]; [|exfalso; exact (X e RE)]. exists f. split; [exact X|].
    destruct stop; [apply added_app; reflexivity|]. destruct maxe; [apply E0; apply M|apply added_app; reflexivity].
  - intros [N|N]; [rewrite (K N); apply E0; reflexivity|].
    assert (Z : transaction_evseid w0 (v_id v) = None) by (destruct (transaction_evseid w0 (v_id v)); [exfalso; exact (N _ X)|reflexivity]).
    assert (DR : refuses v info \/ ~ refuses v info).
    { unfold refuses. destruct (v_kind v), info as [[]|], (v_tok v); try (right; intros (A&B&D); congruence); left; repeat split; discriminate. }
    destruct DR as [R|R]; [rewrite (L R), Z; apply E0; reflexivity|rewrite (K R); apply E0; reflexivity].
  - assert (DR : refuses v info \/ ~ refuses v info).
    { unfold refuses. destruct (v_kind v), info as [[]|], (v_tok v); try (right; intros (A&B&D); congruence); left; repeat split; discriminate. }
    destruct DR as [R|R]; [rewrite (L R)|rewrite (K R); reflexivity]. destruct (transaction_evseid w0 (v_id v)); [|reflexivity].
    destruct stop; [reflexivity|]. destruct maxe; [apply M|reflexivity].
Qed.
Print Assumptions refused_token_acts.

Example refused_token_acts_ex :
  let w := run two_evses (map plainly [start 1 100; start 2 200]) in
  let v := TxEv Started 200 0 Authorized 1 None None (Some (2, 1)) (Some 7) in
  refuses v (Some false) /\ runs_on w 200 2 /\
  added w (step w (plainly (OResponse v (Some false) true false))) = [OStopTx 2 DeAuthorized] /\
  added w (step w (plainly (OResponse v (Some false) false false))) = [OPause 2].
Proof.
  split; [repeat split; discriminate|]. split; [|vm_compute; auto]. split; [vm_compute; auto|]. eexists. split; [vm_compute; reflexivity|reflexivity].
Qed.

(** GetTransactionStatus: ongoing says whether the transaction is running. *)
Theorem transaction_status_exact :
  forall w id queued any fails,
    let w1 := step w (Call (OStatus (Some id) queued any) fails None) in
    exists b, added w w1 = [OTxStatus (Some b) queued] /\ (b = true <-> exists e, runs_on w id e) /\
    added w (step w (Call (OStatus None queued any) fails None)) = [OTxStatus None any].
Proof.
  intros w id queued any fails w1. unfold w1. rewrite !step_alive by reflexivity. cbn [exec c_op c_crash c_fail].
  set (w0 := set_w_prog Running (set_w_budget None (set_w_fail fails w))).
  assert (X := evseid_runs w0 id). change (runs_on w0) with (runs_on w) in X. unfold get_transaction_status.
  eexists. split; [apply added_app; reflexivity|]. split; [|apply added_app; reflexivity].
  destruct (transaction_evseid w0 id) as [e|]; split; try discriminate; eauto. intros (e&E). exfalso. exact (X e E).
Qed.
Print Assumptions transaction_status_exact.

Example transaction_status_ex :
  let w := run two_evses (map plainly [start 1 100; start 2 200; finish 1]) in
  runs_on w 200 2 /\ added w (step w (plainly (OStatus (Some 100) true true))) = [OTxStatus (Some false) true] /\
  added w (step w (plainly (OStatus (Some 200) false true))) = [OTxStatus (Some true) false].
Proof. split; [|vm_compute; auto]. split; [vm_compute; auto|]. eexists. split; [vm_compute; reflexivity|reflexivity]. Qed.

(** ** What goes wrong *)

(** The charging state of a transaction is stored when it starts only: after a restart, the messages of the resumed
    transaction give the state it started with. *)
Theorem charging_state_after_restart_refuted :
  exists h, no_failures h /\ no_crashes h /\
    let w := run two_evses h in
    (exists k, view w 1 = Some k /\ k_id k = 100 /\ k_cs k = 5) /\
    told (added (step w (plainly ORestart)) (run w (map plainly [ORestart; OMeter 1 true]))) =
      [(true, Content Updated 100 MeterClock 1 None None None None); (false, Content Updated 100 MeterClock 1 None None None None)].
Proof.
  exists (map plainly [start 1 100; OCharging 1 5 (OtherTrig 9)]). split; [repeat constructor|]. split; [repeat constructor|]. cbv zeta.
  split; [eexists; split; [vm_compute; reflexivity|split; reflexivity]|vm_compute; reflexivity].
Qed.
Print Assumptions charging_state_after_restart_refuted.

(** When the row of a new transaction cannot be written, the call ends with an exception, but the transaction stays: no
    Started is ever sent, the messages that follow are about a transaction the CSMS does not know. *)
Theorem started_not_sent_refuted :
  exists k h, c_crash k = None /\ no_failures h /\ no_crashes h /\ no_restarts h /\
    (exists t, view (step two_evses k) 1 = Some t /\ k_id t = 100) /\
    map (fun m => (m_kind (snd m), TxSpec2.m_id (snd m))) (filter fst (told (w_out (run two_evses (k :: h))))) = [(Updated, 100); (Ended, 100)].
Proof.
  exists (Call (start 1 100) [true; true; true] None), (map plainly [OMeter 1 true; finish 1]). split; [reflexivity|]. split; [repeat constructor|].
  split; [repeat constructor|]. split; [repeat constructor|]. split; [eexists; split; [vm_compute; reflexivity|reflexivity]|vm_compute; reflexivity].
Qed.
Print Assumptions started_not_sent_refuted.
