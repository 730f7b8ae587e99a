(** C80-C83: remote control of an OCPP 2.x station. *)
From Coq Require Import ZArith QArith String List Bool Lia.
From Verif Require Import TxModel TxSpec TxProofs TxProofs4 TxProofs5 TxProofs6 TxProofs7 FwModel FwSpec FwProofs RcModel RcSpec RcProofs RcProofs2 RcProofs3.
From Verif Require CsmModel CsmSpec CsmProofs SecModel MvModel MvSpec MvProofs StrSpec.
Import ListNotations.
Local Open Scope list_scope.
Local Open Scope Z_scope.

(** ** A station for the examples *)
Definition no_sec : SecModel.config :=
  SecModel.Config 1 (Some "CS"%string) (Some "Org"%string) (Some "DE"%string) None None None None None None None (Some true) None None.
Definition cfg : rcfg :=
  RCfg (Some true) true [20] (Some true) (Some true) (Some false) (fun _ n => if n =? 1 then Some "cCCS2"%string else None) no_sec.
(** Two EVSEs, the second with two connectors, and an accepted BootNotification. *)
Definition booted : rst := rstate (started (init [1; 2] true true true) true true true) [LReg RegAccepted].
Definition tx_on (e c id : Z) : rop := LFw (Other (Call (OStart e c id Authorized (Some 5) None 1) [] None)).
Definition request (e : Z) : start_req := StartReq (Some e) 7 None 66 (Some (Profile 3 true)).
Lemma booted_reachable : forall h, rc_reachable (rstate booted h).
Proof.
  intros h. exists (init [1; 2] true true true), true, true, true, (LReg RegAccepted :: h). split; [|reflexivity].
  exists [1; 2], true, true, true, []. split; [repeat constructor; lia|reflexivity].
Qed.

(** ** C80: RequestStartTransaction *)

(** A request to start a transaction is handed to the application exactly if its EVSE has no transaction, can charge and is not
    reserved for another token. The application's answer is then the answer, and the remote start id is kept for the EVSE.
    Otherwise the answer is Rejected and nothing changes. A charging profile of the request is handed to smart charging in
    both cases. *)
Theorem C80_start_is_decided : forall c a e k pk ans r,
  r_reg r = RegAccepted -> a_evse a = Some e -> known_evse (con_of r) e -> smart_ok c r ->
  let '(r1, outs) := rstep r (LReq c (QStart a k pk ans)) in
  let ask := if r_res r then [RAskReserved e (a_tok a) (a_group a)] else [] in
  exists info, (profile_for c a e = [] -> info = None) /\
  (startable r e k ->
     outs = ask ++ profile_for c a e ++ [RStartCall a (x_auth c); RStartResp ans info] /\
     map_get e (w_remote (r_w r1)) = Some (a_tok a, a_rid a) /\
     (forall x, x <> e -> map_get x (w_remote (r_w r1)) = map_get x (w_remote (r_w r))) /\
     w_tx (r_w r1) = w_tx (r_w r) /\ w_csm (r_w r1) = w_csm (r_w r) /\ w_rows (r_w r1) = w_rows (r_w r) /\ w_con (r_w r1) = w_con (r_w r) /\
     w_sched (r_w r1) = w_sched (r_w r) /\ w_rs (r_w r1) = w_rs (r_w r) /\ w_rids (r_w r1) = w_rids (r_w r) /\
     r_sec r1 = r_sec r /\ r_reg r1 = r_reg r /\ r_lstat r1 = r_lstat r /\ r_lid r1 = r_lid r /\ r_mv r1 = r_mv r) /\
  (~ startable r e k -> outs = ask ++ profile_for c a e ++ [RStartResp false info] /\ r1 = r).
Proof.
  intros c a e k pk ans r G A K S. cbn [rstep]. unfold receive. rewrite G. cbn [handle_message].
  destruct (handle_start_known c a e k pk ans r A K S) as (X & Y). cbv zeta in X, Y.
  destruct (handle_start c a k pk ans r) as [r1 outs]. exists (info_for c a e pk).
  split; [intros E; unfold info_for; rewrite E; reflexivity|]. split; intros H.
  - specialize (X H). inversion X; subst. split; [reflexivity|].
    unfold r_w. cbn [set_w r_f f_w]. unfold step. cbn [c_op exec c_fail c_crash]. cbn [w_prog set_w_remote set_w_prog].
    cbn [w_remote set_w_remote w_tx w_csm w_rows w_con w_sched w_rs w_rids set_w_prog set_w_budget set_w_fail]. rewrite rc_get_put, Z.eqb_refl.
    split; [reflexivity|]. split; [|auto 15]. intros x N. rewrite rc_get_put. apply Z.eqb_neq in N. rewrite N. reflexivity.
  - specialize (Y H). inversion Y; subst. auto.
Qed.
Print Assumptions C80_start_is_decided.
Example C80_start_is_decided_ex :
  r_reg booted = RegAccepted /\ known_evse (con_of booted) 2 /\ smart_ok cfg booted /\
  startable booted 2 NotReserved /\ ~ startable booted 2 ReservedForOther /\ ~ startable (rstate booted [tx_on 2 1 100]) 2 NotReserved /\
  snd (rstep booted (LReq cfg (QStart (request 2) ReservedForToken None true))) =
    [RAskReserved 2 7 None; RProfile 3 2; RStartCall (request 2) true; RStartResp true None].
Proof.
  split; [reflexivity|]. split; [vm_compute; split; discriminate|]. split; [intros _; reflexivity|]. split; [|split; [|split; [|vm_compute; reflexivity]]].
  - apply (startable_iff _ _ (request 2)). vm_compute. reflexivity.
  - rewrite <- (startable_iff _ _ (request 2)). vm_compute. discriminate.
  - rewrite <- (startable_iff _ _ (request 2)). vm_compute. discriminate.
Qed.

(** Without an EVSE the request is rejected, with an unknown one answered by an error; neither has an effect. A station whose
    registration is pending rejects all of them, one that was not registered answers with an error. *)
Theorem C80_start_is_refused : forall c a k pk ans r,
  (r_reg r = RegAccepted -> a_evse a = None -> rstep r (LReq c (QStart a k pk ans)) = (r, [RStartResp false None])) /\
  (forall e, r_reg r = RegAccepted -> a_evse a = Some e -> ~ known_evse (con_of r) e -> rstep r (LReq c (QStart a k pk ans)) = (r, [RError])) /\
  (r_reg r = RegPending -> rstep r (LReq c (QStart a k pk ans)) = (r, [RStartResp false None])) /\
  (r_reg r = RegRejected -> rstep r (LReq c (QStart a k pk ans)) = (r, [RError])).
Proof.
  intros c a k pk ans r. cbn [rstep]. unfold receive. split; [|split; [|split]].
  - intros -> E. cbn. unfold handle_start. rewrite E. reflexivity.
  - intros e -> E K. cbn. unfold handle_start. rewrite E, (proj2 (unknown_ok _ _) K). reflexivity.
  - intros ->. reflexivity.
  - intros ->. reflexivity.
Qed.
Print Assumptions C80_start_is_refused.
Example C80_start_is_refused_ex :
  r_reg booted = RegAccepted /\ ~ known_evse (con_of booted) 3 /\ r_reg (rstate booted [LReg RegPending]) = RegPending.
Proof. split; [reflexivity|]. split; [vm_compute; intros [_ H]; apply H; reflexivity|reflexivity]. Qed.

(** The transaction then started on the EVSE with the token of the request tells the CSMS the remote start id, once. *)
Theorem C80_remote_id_arrives : forall c a e k pk ans r n id tr cs,
  r_reg r = RegAccepted -> a_evse a = Some e -> known_evse (con_of r) e -> smart_ok c r -> startable r e k ->
  map_get 0 (w_remote (r_w r)) = None ->
  let r1 := fst (rstep r (LReq c (QStart a k pk ans))) in
  let w2 := step (r_w r1) (Call (OStart e n id tr (Some (a_tok a)) None cs) [] None) in
  w_prog w2 = Running ->
  exists v l, added (r_w r1) w2 = OTx v :: l /\ v_kind v = Started /\ v_id v = id /\ v_evse v = Some (e, n) /\
    v_trig v = RemoteStart /\ v_remote v = Some (a_rid a) /\ v_tok v = Some (a_tok a) /\ (forall x, ~ In (OTx x) l) /\
    map_get e (w_remote w2) = None.
Proof.
  intros c a e k pk ans r n id tr cs G A K S H Z0. cbn [rstep]. unfold receive. rewrite G. cbn [handle_message].
  rewrite (proj1 (handle_start_known c a e k pk ans r A K S) H). cbn [fst]. cbv zeta. unfold r_w. cbn [set_w r_f f_w]. fold (r_w r).
  set (w1 := step (r_w r) _). assert (N1 : e <> 0) by (unfold known_evse in K; lia).
  assert (R1 : w_remote w1 = map_put e (a_tok a, a_rid a) (w_remote (r_w r))) by reflexivity. clearbody w1.
  unfold step. cbn [c_op exec c_fail c_crash]. set (w0 := set_w_prog Running (set_w_budget None (set_w_fail [] w1))).
  assert (C0 : calm w0) by (unfold calm; cbn; auto).
  destruct (w_prog (on_started e n id tr (Some (a_tok a)) None cs w0)) eqn:P.
  - intros _. destruct (started_event e n id tr (a_tok a) (a_rid a) cs w0) as (v & l & O & REST); try assumption.
    + cbn. rewrite R1, rc_get_put. apply not_eq_sym, Z.eqb_neq in N1. rewrite N1. exact Z0.
    + cbn. rewrite R1, rc_get_put, Z.eqb_refl. reflexivity.
    + exists v, l. split; [|exact REST]. apply added_app. exact O.
  - rewrite P. discriminate.
  - exfalso. destruct (exec_effect (OStart e n id tr (Some (a_tok a)) None cs) w0 eq_refl eq_refl eq_refl) as (_ & D & _). exact (D P).
Qed.
Print Assumptions C80_remote_id_arrives.
Example C80_remote_id_arrives_ex :
  startable booted 2 NotReserved /\ map_get 0 (w_remote (r_w booted)) = None /\
  let r1 := fst (rstep booted (LReq cfg (QStart (request 2) NotReserved None true))) in
  let w2 := step (r_w r1) (Call (OStart 2 1 100 Authorized (Some 7) None 1) [] None) in
  w_prog w2 = Running /\
  added (r_w r1) w2 = [OTx (TxEv Started 100 0 RemoteStart 1 None (Some 66) (Some (2, 1)) (Some 7));
                       OTxCallback (TxEv Started 100 0 Authorized 1 None None (Some (2, 1)) (Some 7))].
Proof.
  split; [apply (startable_iff _ _ (request 2)); vm_compute; reflexivity|]. vm_compute. auto.
Qed.

(** A request whose charging profile is refused by smart charging should be rejected (F01.FR.26), but is not. *)
Theorem C80_bad_profile_is_rejected_refuted : exists c a pk r,
  r_reg r = RegAccepted /\ rc_reachable r /\ smart_ok c r /\ pk = Some (Some 4) /\
  snd (rstep r (LReq c (QStart a NotReserved pk true))) = [RAskReserved 2 7 None; RProfile 3 2; RStartCall a true; RStartResp true (Some 4)].
Proof.
  exists cfg, (request 2), (Some (Some 4)), booted. split; [reflexivity|]. split; [exact (booted_reachable [])|]. split; [intros _; reflexivity|].
  split; [reflexivity|]. vm_compute. reflexivity.
Qed.
Print Assumptions C80_bad_profile_is_rejected_refuted.
(** A request the application rejects should leave nothing behind, but the remote start id stays: the next transaction with that
    token, started locally, tells it. *)
Theorem C80_rejected_start_leaves_nothing_refuted : exists c a r,
  r_reg r = RegAccepted /\ rc_reachable r /\ smart_ok c r /\
  let '(r1, outs) := rstep r (LReq c (QStart a NotReserved None false)) in
  In (RStartResp false None) outs /\
  In (RFw (FTx (OTx (TxEv Started 100 0 RemoteStart 1 None (Some 66) (Some (2, 1)) (Some 7)))))
     (snd (rstep r1 (LFw (Other (Call (OStart 2 1 100 Authorized (Some 7) None 1) [] None))))).
Proof.
  exists cfg, (request 2), booted. split; [reflexivity|]. split; [exact (booted_reachable [])|]. split; [intros _; reflexivity|].
  vm_compute. auto 10.
Qed.
Print Assumptions C80_rejected_start_leaves_nothing_refuted.
(** A request for an EVSE all of whose connectors the CSMS made inoperative should be rejected, but is handed on as long as the
    application has not reported them as unavailable. *)
Theorem C80_inoperative_connectors_cannot_start_refuted : exists c a r,
  r_reg r = RegAccepted /\ rc_reachable r /\ smart_ok c r /\ a_evse a = Some 2 /\
  (forall n, known_connector (con_of r) 2 n -> CsmModel.conn_effective (w_csm (r_w r)) 2 n = CsmModel.Inoperative) /\
  In (RStartCall a true) (snd (rstep r (LReq c (QStart a NotReserved None true)))).
Proof.
  pose (off := fun n => LFw (Other (Call (OAvail (Areq (Some (2, Some n)) CsmModel.Inoperative)) [] None))).
  exists cfg, (request 2), (rstate booted [off 1; off 2]). split; [vm_compute; reflexivity|]. split; [exact (booted_reachable _)|].
  split; [intros _; vm_compute; reflexivity|]. split; [reflexivity|]. split.
  - intros n K. assert (N : n = 1 \/ n = 2).
    { assert (E : con_of (rstate booted [off 1; off 2]) = [1; 2]) by (vm_compute; reflexivity). rewrite E in K. change (1 <= n <= 2) in K. lia. }
    destruct N as [-> | ->]; vm_compute; reflexivity.
  - vm_compute. auto 10.
Qed.
Print Assumptions C80_inoperative_connectors_cannot_start_refuted.
(** Every request should be answered, but one with a profile is not if SmartChargingCtrlr is enabled but not available: the block
    does not exist, and its functions are called through a null reference. *)
Theorem C80_start_is_answered_refuted : exists c a r,
  r_reg r = RegAccepted /\ rc_reachable r /\ snd (rstep r (LReq c (QStart a NotReserved None true))) = [RUndefined].
Proof.
  exists cfg, (request 2), (rstate (started (init [1; 2] true true true) false false true) [LReg RegAccepted]). split; [reflexivity|]. split.
  - exists (init [1; 2] true true true), false, false, true, [LReg RegAccepted]. split; [|reflexivity].
    exists [1; 2], true, true, true, []. split; [repeat constructor; lia|reflexivity].
  - vm_compute. reflexivity.
Qed.
Print Assumptions C80_start_is_answered_refuted.

(** ** C81: UnlockConnector, RequestStopTransaction and answers *)

(** A request to unlock a connector with a number other than 0 reaches the application exactly if the connector exists and its EVSE
    has no transaction; the answer is the application's, or says why. *)
Theorem C81_unlock_is_decided : forall c e n ans r,
  r_reg r = RegAccepted -> e <> 0 -> n <> 0 -> -2147483648 <= n < 2147483648 -> Forall (fun k => 0 <= k < 2147483648) (con_of r) ->
  let '(r1, outs) := rstep r (LReq c (QUnlock e n ans)) in
  r1 = r /\
  (known_evse (con_of r) e -> known_connector (con_of r) e n -> w_tx (r_w r) e = None -> outs = [RUnlockCall e n; RUnlockResp ans]) /\
  (known_evse (con_of r) e -> known_connector (con_of r) e n -> w_tx (r_w r) e <> None -> outs = [RUnlockResp OngoingAuthorizedTransaction]) /\
  (~ (known_evse (con_of r) e /\ known_connector (con_of r) e n) -> outs = [RUnlockResp UnknownConnector]).
Proof.
  intros c e n ans r G NE NN B F. cbn [rstep]. unfold receive. rewrite G. cbn [handle_message]. unfold handle_unlock. cbv zeta.
  assert (EX : does_evse_exist (r_w r) e = evse_ok (r_w r) e).
  { unfold does_evse_exist, evse_ok. destruct (Z.leb_spec e 0), (Z.leb_spec 0 e), (Z.leb_spec e (nev (r_w r))), (Z.ltb_spec (nev (r_w r)) e); cbn; try reflexivity; lia. }
  rewrite EX. assert (T : evse_ok (r_w r) e && negb (evse_ok (r_w r) e) = false) by (destruct (evse_ok (r_w r) e); reflexivity). rewrite T.
  unfold is_valid_evse. rewrite EX. unfold con_of in *.
  destruct (evse_ok (r_w r) e) eqn:Q.
  - apply known_ok in Q. assert (L : 0 <= ncon (r_w r) e < 2147483648).
    { rewrite Forall_forall in F. apply F. apply nth_In. unfold known_evse in Q. lia. }
    assert (V : u32 n <=? ncon (r_w r) e = true <-> known_connector (w_con (r_w r)) e n).
    { rewrite Z.leb_le. unfold known_connector, u32. fold (ncon (r_w r) e). destruct (Z.leb_spec 0 n).
      - rewrite Z.mod_small by lia. lia.
      - replace (n mod 4294967296) with (n + 4294967296) by (rewrite <- (Z.mod_add n 1) by lia; rewrite Z.mod_small; lia). lia. }
    cbn [andb]. destruct (u32 n <=? ncon (r_w r) e).
    + assert (KC : known_connector (w_con (r_w r)) e n) by tauto. unfold active. destruct (w_tx (r_w r) e); cbn [negb]; (split; [reflexivity|]); intuition congruence.
    + assert (KC : ~ known_connector (w_con (r_w r)) e n) by (intros H; apply V in H; discriminate H). split; [reflexivity|]. intuition.
  - apply unknown_ok in Q. cbn [andb]. split; [reflexivity|]. intuition.
Qed.
Print Assumptions C81_unlock_is_decided.
Example C81_unlock_is_decided_ex :
  Forall (fun k => 0 <= k < 2147483648) (con_of booted) /\
  snd (rstep booted (LReq cfg (QUnlock 2 2 Unlocked))) = [RUnlockCall 2 2; RUnlockResp Unlocked] /\
  snd (rstep booted (LReq cfg (QUnlock 2 3 Unlocked))) = [RUnlockResp UnknownConnector] /\
  snd (rstep booted (LReq cfg (QUnlock 2 (-1) Unlocked))) = [RUnlockResp UnknownConnector] /\
  snd (rstep (rstate booted [tx_on 2 1 100]) (LReq cfg (QUnlock 2 2 Unlocked))) = [RUnlockResp OngoingAuthorizedTransaction].
Proof. split; [repeat constructor; lia|]. vm_compute. auto. Qed.
(** Only connectors that exist should reach the application, but connector 0 does; and a request for EVSE 0 should be answered with
    UnknownConnector, but is with an error. *)
Theorem C81_only_connectors_are_unlocked_refuted : exists c r,
  r_reg r = RegAccepted /\ rc_reachable r /\
  snd (rstep r (LReq c (QUnlock 1 0 Unlocked))) = [RUnlockCall 1 0; RUnlockResp Unlocked] /\
  snd (rstep r (LReq c (QUnlock 0 1 Unlocked))) = [RError].
Proof. exists cfg, booted. split; [reflexivity|]. split; [exact (booted_reachable [])|]. vm_compute. auto. Qed.
Print Assumptions C81_only_connectors_are_unlocked_refuted.

(** A request to stop a transaction reaches the application, for the first EVSE that has a transaction with this id, exactly if there
    is one. It changes nothing of itself. *)
Theorem C81_stop_is_decided : forall c id ans r, r_reg r = RegAccepted ->
  let '(r1, outs) := rstep r (LReq c (QStop id ans)) in
  r1 = r /\
  ((exists e t, known_evse (con_of r) e /\ w_tx (r_w r) e = Some t /\ t_id t = id /\ outs = [RStopCall e; RStopResp ans] /\
      (forall x u, known_evse (con_of r) x -> w_tx (r_w r) x = Some u -> t_id u = id -> e <= x)) \/
   (outs = [RStopResp false] /\ forall x u, known_evse (con_of r) x -> w_tx (r_w r) x = Some u -> t_id u <> id)).
Proof.
  intros c id ans r G. cbn [rstep]. unfold receive. rewrite G. cbn [handle_message]. unfold handle_stop, transaction_evseid.
  assert (FS : forall n l, match find (has_tx_id (r_w r) id) (map Z.of_nat (seq n l)) with
    | Some e => (Z.of_nat n <= e < Z.of_nat n + Z.of_nat l) /\ has_tx_id (r_w r) id e = true /\ forall x, Z.of_nat n <= x < e -> has_tx_id (r_w r) id x = false
    | None => forall x, Z.of_nat n <= x < Z.of_nat n + Z.of_nat l -> has_tx_id (r_w r) id x = false end).
  { intros n l. revert n. induction l as [|l IH]; intros n; [cbn; intros; lia|]. cbn [seq map find]. destruct (has_tx_id (r_w r) id (Z.of_nat n)) eqn:Q.
    - split; [lia|]. split; [exact Q|]. intros. lia.
    - specialize (IH (S n)). destruct (find _ _) as [e|].
      + destruct IH as (A & B & C). split; [lia|]. split; [exact B|]. intros x X. destruct (Z.eq_dec x (Z.of_nat n)) as [->|]; [exact Q|]. apply C. lia.
      + intros x X. destruct (Z.eq_dec x (Z.of_nat n)) as [->|]; [exact Q|]. apply IH. lia. }
  unfold evses, CsmModel.ids, nev. rewrite Nat2Z.id. specialize (FS 1%nat (length (w_con (r_w r)))).
  destruct (find _ _) as [e|]; (split; [reflexivity|]); unfold con_of, known_evse.
  - left. destruct FS as (A & B & C). unfold has_tx_id in B. destruct (w_tx (r_w r) e) as [t|] eqn:T; [|discriminate B]. apply Z.eqb_eq in B.
    exists e, t. split; [lia|]. split; [exact T|]. split; [exact B|]. split; [reflexivity|]. intros x u X U I.
    destruct (Z.le_gt_cases e x); [assumption|exfalso]. specialize (C x). unfold has_tx_id in C. rewrite U, I, Z.eqb_refl in C. assert (true = false) by (apply C; lia). discriminate.
  - right. split; [reflexivity|]. intros x u X U I. specialize (FS x). unfold has_tx_id in FS. rewrite U, I, Z.eqb_refl in FS. assert (true = false) by (apply FS; lia). discriminate.
Qed.
Print Assumptions C81_stop_is_decided.
Example C81_stop_is_decided_ex :
  snd (rstep (rstate booted [tx_on 1 1 99; tx_on 2 1 100]) (LReq cfg (QStop 100 true))) = [RStopCall 2; RStopResp true] /\
  snd (rstep (rstate booted [tx_on 1 1 99]) (LReq cfg (QStop 100 true))) = [RStopResp false].
Proof. vm_compute. auto. Qed.

(** Every request is answered once, if smart charging exists or is not enabled. *)
Theorem C81_answered_once : forall c q r, smart_ok c r -> List.length (filter is_answer (snd (rstep r (LReq c q)))) = 1%nat.
Proof. intros c q r S. cbn [rstep]. apply answered_once. exact S. Qed.
Print Assumptions C81_answered_once.
Example C81_answered_once_ex : smart_ok cfg booted.
Proof. intros _. reflexivity. Qed.
(** While the registration is pending only triggers are served, and before only the one for BootNotification. *)
Theorem C81_registration : forall c q r,
  (r_reg r = RegPending -> (forall k ev csr d, q <> QTrigger k ev csr d) ->
     rstep r (LReq c q) = (r, [match q with QStart _ _ _ _ => RStartResp false None | QStop _ _ => RStopResp false | _ => RError end])) /\
  (r_reg r = RegRejected -> (forall ev csr d, q <> QTrigger KBoot ev csr d) -> rstep r (LReq c q) = (r, [RError])).
Proof.
  intros c q r. cbn [rstep]. unfold receive. split; intros -> N; destruct q; try reflexivity.
  - elim (N k ev csr d). reflexivity.
  - destruct k; try reflexivity. elim (N ev csr d). reflexivity.
Qed.
Print Assumptions C81_registration.
Example C81_registration_ex : r_reg (rstate booted [LReg RegPending]) = RegPending /\ r_reg (rstate booted [LReg RegRejected]) = RegRejected.
Proof. split; reflexivity. Qed.

(** ** C82: TriggerMessage *)

(** A trigger for an EVSE that does not exist is answered with an error. Any other is answered first: with Accepted exactly if it can
    be served, with NotImplemented exactly if the station does not know it; and if it is not accepted, nothing else happens. *)
Theorem C82_trigger_is_answered : forall c k ev csr d r, r_reg r <> RegRejected ->
  let '(r1, outs) := rstep r (LReq c (QTrigger k ev csr d)) in
  (~ known_target r ev -> outs = [RError] /\ r1 = r) /\
  (known_target r ev ->
     exists s rest, outs = RTrigResp s :: rest /\ filter is_answer rest = [] /\ (s = TrigAccepted <-> servable c r k ev) /\
       (s = TrigNotImplemented <-> ~ implemented k) /\ (s <> TrigAccepted -> rest = [] /\ r1 = r)).
Proof.
  intros c k ev csr d r G. cbn [rstep]. assert (E : receive c (QTrigger k ev csr d) r = handle_trigger c k ev csr d r)
    by (unfold receive; destruct (r_reg r); [reflexivity|reflexivity|contradiction]).
  rewrite E. destruct (handle_trigger c k ev csr d r) as [r1 outs] eqn:H. split; intros K.
  - rewrite (handle_trigger_unknown c k ev csr d r K) in H. inversion H. auto.
  - rewrite (handle_trigger_known c k ev csr d r K) in H. pose proof (accepted_iff c k ev r K) as A. pose proof (not_implemented_iff c k ev r) as N.
    exists (trigger_status c k ev r). destruct (trigger_status c k ev r).
    + exists (snd (follow c k ev csr d r)). inversion H; subst. split; [reflexivity|]. split; [apply follow_no_answer|]. split; [exact A|]. split; [exact N|]. congruence.
    + exists []. inversion H; subst. split; [reflexivity|]. split; [reflexivity|]. auto.
    + exists []. inversion H; subst. split; [reflexivity|]. split; [reflexivity|]. auto.
Qed.
Print Assumptions C82_trigger_is_answered.
Definition energy : MvModel.mvalue := MvModel.MV [MvModel.Sample 5 (Some 20) None None None None None None; MvModel.Sample 6 (Some 3) None None None None None None] 9 None.
Definition metered : rst := rstate booted [tx_on 2 1 100; LMeter 2 energy].
Example C82_trigger_is_answered_ex :
  r_reg metered <> RegRejected /\ known_target metered None /\ ~ known_target metered (Some (3, None)) /\
  servable cfg metered KMeter None /\ ~ servable cfg metered KMeter (Some (1, None)) /\ servable cfg metered KTransaction None /\
  ~ servable cfg metered KBoot None /\ servable cfg metered KStatus (Some (2, Some 1)) /\ ~ implemented KCustom.
Proof.
  assert (P : forall k ev, known_target metered ev -> servable cfg metered k ev <-> trigger_status cfg k ev metered = TrigAccepted) by (intros; symmetry; apply accepted_iff; assumption).
  split; [vm_compute; discriminate|]. split; [exact Logic.I|]. split; [vm_compute; intros [_ H]; apply H; reflexivity|].
  repeat split; try (rewrite P by (exact Logic.I || (vm_compute; split; discriminate)); vm_compute; (reflexivity || discriminate)). intros [].
Qed.

Definition triggered (r : rst) (c : rcfg) (k : trigger_kind) (ev : option (Z * option Z)) (csr : option string) (d : bool) : rst * list rout :=
  rstep r (LReq c (QTrigger k ev csr d)).
Lemma triggered_follow : forall r c k ev csr d, r_reg r <> RegRejected -> known_target r ev -> servable c r k ev ->
  triggered r c k ev csr d = (fst (follow c k ev csr d r), RTrigResp TrigAccepted :: snd (follow c k ev csr d r)).
Proof.
  intros r c k ev csr d G K S. unfold triggered. cbn [rstep]. assert (E : receive c (QTrigger k ev csr d) r = handle_trigger c k ev csr d r)
    by (unfold receive; destruct (r_reg r); [reflexivity|reflexivity|contradiction]).
  rewrite E, (handle_trigger_known c k ev csr d r K), (proj2 (accepted_iff c k ev r K) S). reflexivity.
Qed.
(** BootNotification and Heartbeat are sent, once. *)
Theorem C82_boot_and_heartbeat : forall c ev csr d r, known_target r ev ->
  (r_reg r <> RegAccepted -> rstep r (LReq c (QTrigger KBoot ev csr d)) = (r, [RTrigResp TrigAccepted; RBoot])) /\
  (r_reg r <> RegRejected -> rstep r (LReq c (QTrigger KHeartbeat ev csr d)) = (r, [RTrigResp TrigAccepted; RHeartbeat])).
Proof.
  intros c ev csr d r K. split; intros G.
  - cbn [rstep]. assert (E : receive c (QTrigger KBoot ev csr d) r = handle_trigger c KBoot ev csr d r) by (unfold receive; destruct (r_reg r); reflexivity).
    rewrite E, (handle_trigger_known c KBoot ev csr d r K). cbn [trigger_status]. destruct (r_reg r); [contradiction|reflexivity|reflexivity].
  - apply (triggered_follow r c KHeartbeat ev csr d G K). exact Logic.I.
Qed.
Print Assumptions C82_boot_and_heartbeat.
Example C82_boot_and_heartbeat_ex :
  snd (triggered (rstate booted [LReg RegPending]) cfg KBoot None None true) = [RTrigResp TrigAccepted; RBoot] /\
  snd (triggered (rstate booted [LReg RegRejected]) cfg KBoot None None true) = [RTrigResp TrigAccepted; RBoot] /\
  snd (triggered booted cfg KBoot None None true) = [RTrigResp TrigRejected] /\
  snd (triggered booted cfg KHeartbeat None None true) = [RTrigResp TrigAccepted; RHeartbeat].
Proof. vm_compute. auto. Qed.

(** A triggered LogStatusNotification repeats the status told last, with its id, if a log is being uploaded; otherwise it says Idle. *)
Theorem C82_log_status : forall c ev csr d w0 res sc cb h,
  let r := rstate (started w0 res sc cb) h in let told := rlog (rtrace (started w0 res sc cb) h) in
  r_reg r <> RegRejected -> known_target r ev ->
  rstep r (LReq c (QTrigger KLog ev csr d)) =
    (r, [RTrigResp TrigAccepted;
         match last_log told with Some (Uploading, id) => RLog Uploading id true | _ => RLog (LogOther 0) None true end]).
Proof.
  intros c ev csr d w0 res sc cb h r told G K. destruct (members_told w0 res sc cb h) as (_ & _ & L). fold r told in L.
  fold (triggered r c KLog ev csr d). rewrite (triggered_follow r c KLog ev csr d G K Logic.I). cbn [follow fst snd].
  unfold log_agrees in L. destruct (last_log told) as [[s i]|]; [destruct L as (-> & ->)|rewrite L; reflexivity]. destruct s; reflexivity.
Qed.
Print Assumptions C82_log_status.
Example C82_log_status_ex :
  let r := rstate booted [LLog (LogOther 3) 4; LLog Uploading 5] in
  snd (triggered r cfg KLog None None true) = [RTrigResp TrigAccepted; RLog Uploading (Some 5) true] /\
  snd (triggered (rstate r [LLog (LogOther 2) 5]) cfg KLog None None true) = [RTrigResp TrigAccepted; RLog (LogOther 0) None true] /\
  snd (triggered (rstate r [LFw (Other (Call ORestart [] None)); LReg RegAccepted]) cfg KLog None None true) = [RTrigResp TrigAccepted; RLog (LogOther 0) None true].
Proof. vm_compute. auto. Qed.
(** A triggered FirmwareStatusNotification repeats the status told last, with the last id told, unless nothing was told since the start
    or the last is Idle or Installed: then it says Idle. *)
Theorem C82_firmware_status : forall c ev csr d w0 res sc cb h,
  let r := rstate (started w0 res sc cb) h in let told := fw_part (rlog (rtrace (started w0 res sc cb) h)) in
  r_reg r <> RegRejected -> known_target r ev ->
  rstep r (LReq c (QTrigger KFirmware ev csr d)) =
    (r, [RTrigResp TrigAccepted;
         RFw (match last_status told with Idle | Installed => FNote Idle None true | s => FNote s (last_id told) true end)]).
Proof.
  intros c ev csr d w0 res sc cb h r told G K. destruct (members_told w0 res sc cb h) as (A & B & _). fold r told in A, B.
  fold (triggered r c KFirmware ev csr d). rewrite (triggered_follow r c KFirmware ev csr d G K Logic.I). cbn [follow]. unfold on_request.
  cbn [fst snd map]. rewrite A, B. destruct r. reflexivity.
Qed.
Print Assumptions C82_firmware_status.
Example C82_firmware_status_ex :
  let r := rstate booted [LFw (Report 7 Downloading)] in
  snd (triggered r cfg KFirmware None None true) = [RTrigResp TrigAccepted; RFw (FNote Downloading (Some 7) true)] /\
  snd (triggered (rstate r [LFw (Report 7 Installed)]) cfg KFirmware None None true) = [RTrigResp TrigAccepted; RFw (FNote Idle None true)].
Proof. vm_compute. auto. Qed.
(** Triggered MeterValues are sent for the EVSEs asked for that have a value of a configured measurand, in their order; each message holds
    exactly these values, with the reading context Trigger. *)
Theorem C82_meter_values : forall c ev csr d r, r_reg r <> RegRejected -> known_target r ev -> servable c r KMeter ev ->
  exists l, rstep r (LReq c (QTrigger KMeter ev csr d)) =
    (r, RTrigResp TrigAccepted ::
        map (fun e => RMeter e (MvModel.MV (map retold (aligned c r e)) (MvModel.m_time (r_mv r e)) (MvModel.m_custom (r_mv r e)))) l) /\
    (forall e, In e l <-> concerned (r_w r) ev e /\ aligned c r e <> []) /\ NoDup l /\ l <> [].
Proof.
  intros c ev csr d r G K S. exists (filter (fun e => negb (Nat.eqb (List.length (aligned c r e)) 0)) (asked (r_w r) ev)).
  fold (triggered r c KMeter ev csr d). rewrite (triggered_follow r c KMeter ev csr d G K S), follow_meter. cbn [fst snd]. split; [reflexivity|].
  assert (M : forall e, In e (filter (fun e => negb (Nat.eqb (List.length (aligned c r e)) 0)) (asked (r_w r) ev)) <-> concerned (r_w r) ev e /\ aligned c r e <> []).
  { intros e. rewrite filter_In, asked_in. destruct (aligned c r e); cbn; intuition congruence. }
  split; [exact M|]. split; [apply NoDup_filter, asked_nodup|]. intros N. destruct S as (e & S). apply M in S. rewrite N in S. exact S.
Qed.
Print Assumptions C82_meter_values.
Example C82_meter_values_ex :
  snd (triggered metered cfg KMeter None None true) =
    [RTrigResp TrigAccepted; RMeter 2 (MvModel.MV [MvModel.Sample 5 (Some 20) (Some 7) None None None None None] 9 None)].
Proof. vm_compute. reflexivity. Qed.
(** Triggered TransactionEvents are sent for the EVSEs asked for that have a transaction, one for each, in their order, with the state of
    the transaction and the trigger reason Trigger; apart from its sequence number the transaction stays as it is. *)
Theorem C82_transaction_events : forall c ev csr d r, r_reg r <> RegRejected -> known_target r ev -> servable c r KTransaction ev ->
  let '(r1, outs) := rstep r (LReq c (QTrigger KTransaction ev csr d)) in
  exists l, Forall2 (about (r_w r)) l (tx_messages outs) /\ (forall e, In e l <-> concerned (r_w r) ev e /\ w_tx (r_w r) e <> None) /\ NoDup l /\ l <> [] /\
    (forall o, In o outs -> is_message o = true -> exists v, o = RTx (OTx v)) /\
    only_sequence r r1 (concerned (r_w r) ev).
Proof.
  intros c ev csr d r G K S. fold (triggered r c KTransaction ev csr d). rewrite (triggered_follow r c KTransaction ev csr d G K S).
  destruct (follow_tx c ev csr d r) as (l & w1 & E & R & F & A & T). rewrite E. cbn [fst snd].
  exists (busy_among (r_w r) (asked (r_w r) ev)). split; [exact A|].
  assert (M : forall e, In e (busy_among (r_w r) (asked (r_w r) ev)) <-> concerned (r_w r) ev e /\ w_tx (r_w r) e <> None).
  { intros e. unfold busy_among. rewrite filter_In, asked_in. destruct (w_tx (r_w r) e); intuition congruence. }
  split; [exact M|]. split; [apply NoDup_filter, asked_nodup|]. split; [|split].
  - intros N. destruct S as (e & S). apply M in S. rewrite N in S. exact S.
  - intros o [<-|I] X; [discriminate X|]. apply in_map_iff in I. destruct I as (y & <- & I). rewrite Forall_forall in F. specialize (F y I). destruct y; try contradiction; [eauto|discriminate X].
  - unfold same_rest in R. destruct R as (R1 & R2 & R3 & R4 & R5 & R6 & R7 & R8 & R9). unfold only_sequence. replace (r_w (set_w w1 r)) with w1 by reflexivity.
    split; [|split].
    + intros e t TE. specialize (T e). rewrite TE in T. destruct (in_dec Z.eq_dec e (asked (r_w r) ev)) as [J|J].
      * eexists. split; [exact T|]. cbn. repeat split; [intros N; elim N; apply asked_in; exact J|]. intros _. unfold i32.
        pose proof (Z.div_mod (t_seq t + 1 + 2147483648) 4294967296 ltac:(lia)) as DM.
        replace ((t_seq t + 1 + 2147483648) mod 4294967296 - 2147483648 - t_seq t - 1) with ((- ((t_seq t + 1 + 2147483648) / 4294967296)) * 4294967296) by lia.
        apply Z.mod_mul. lia.
      * eexists. split; [exact T|]. repeat split. intros X. elim J. apply asked_in. exact X.
    + intros e TE. specialize (T e). rewrite TE in T. exact T.
    + cbn. auto 15.
Qed.
Print Assumptions C82_transaction_events.
Example C82_transaction_events_ex :
  servable cfg metered KTransaction None /\
  tx_messages (snd (triggered metered cfg KTransaction None None true)) = [TxEv Updated 100 1 Trigger 1 None None None None].
Proof. split; [apply (accepted_iff cfg KTransaction None metered Logic.I); vm_compute; reflexivity|vm_compute; reflexivity]. Qed.
(** A triggered StatusNotification tells the status of the connector, once; for no other connector. *)
Theorem C82_status_notification : forall c e n csr d r, rc_reachable r -> r_reg r <> RegRejected -> known_evse (con_of r) e -> known_connector (con_of r) e n ->
  let '(r1, outs) := rstep r (LReq c (QTrigger KStatus (Some (e, Some n)) csr d)) in
  exists v, outs = [RTrigResp TrigAccepted; RTx (OAv (CsmModel.ONote e n v true d))] /\ shown (r_w r) e n v /\
    w_tx (r_w r1) = w_tx (r_w r) /\ CsmModel.s_cs (w_csm (r_w r1)) = CsmModel.s_cs (w_csm (r_w r)) /\
    CsmModel.s_ev (w_csm (r_w r1)) = CsmModel.s_ev (w_csm (r_w r)) /\ CsmModel.s_con (w_csm (r_w r1)) = CsmModel.s_con (w_csm (r_w r)).
Proof.
  intros c e n csr d r R G K KC. fold (triggered r c KStatus (Some (e, Some n)) csr d).
  rewrite (triggered_follow r c KStatus (Some (e, Some n)) csr d G); [|exact K|exists e, n; auto].
  destruct (follow_status c e n csr d r (rc_coh r R) K KC) as (w1 & v & E & S & A). rewrite E. cbn [fst snd]. exists v.
  unfold r_w at 2 4 6 8. cbn [set_w r_f f_w]. intuition.
Qed.
Print Assumptions C82_status_notification.
Example C82_status_notification_ex :
  snd (triggered (rstate booted [LEvent 2 1 CsmModel.PlugIn true]) cfg KStatus (Some (2, Some 1)) None true) =
    [RTrigResp TrigAccepted; RTx (OAv (CsmModel.ONote 2 1 CsmModel.Occupied true true))].
Proof. vm_compute. reflexivity. Qed.
(** A triggered SignCertificate asks for the certificate named, at most once; nothing but security events goes with it. *)
Theorem C82_sign_certificate_partial : forall c k u ev csr d r, signs k u -> r_reg r <> RegRejected -> known_target r ev -> servable c r k ev ->
  let '(r1, outs) := rstep r (LReq c (QTrigger k ev csr d)) in
  exists l, outs = RTrigResp TrigAccepted :: map RSec l /\
    Forall (fun o => match o with SecModel.OSign v _ t => v = u /\ t = true | SecModel.OGenerate v _ _ _ _ => v = u
            | SecModel.OEvent _ | SecModel.OTell _ => True | _ => False end) l /\
    (List.length (filter (fun o => match o with SecModel.OSign _ _ _ => true | _ => false end) l) <= 1)%nat /\
    r_w r1 = r_w r.
Proof.
  intros c k u ev csr d r SG G K S. fold (triggered r c k ev csr d). rewrite (triggered_follow r c k ev csr d G K S).
  destruct SG as [(-> & ->)|(-> & ->)]; cbn [follow].
  - destruct (sign_outs c SecModel.Station csr r) as (s & l & E & F & L). rewrite E. cbn [fst snd]. exists l. split; [reflexivity|]. split; [exact F|]. auto.
  - destruct (sign_outs c SecModel.V2G csr r) as (s & l & E & F & L). rewrite E. cbn [fst snd]. exists l. split; [reflexivity|]. split; [exact F|]. auto.
Qed.
Print Assumptions C82_sign_certificate_partial.
Example C82_sign_certificate_ex :
  signs KSignStation SecModel.Station /\
  snd (triggered booted cfg KSignStation None (Some "csr"%string) true) =
    [RTrigResp TrigAccepted; RSec (SecModel.OGenerate SecModel.Station "DE" "Org" "CS" false); RSec (SecModel.OSign SecModel.Station "csr" true)].
Proof. split; [left; auto|vm_compute; reflexivity]. Qed.
(** What is accepted should be sent, but an accepted trigger for SignCertificate may send nothing: an earlier one is not answered, or a
    name is missing in the configuration. *)
Theorem C82_accepted_is_sent_refuted : exists c r ev csr d,
  rc_reachable r /\ r_reg r = RegAccepted /\ servable c r KSignV2G ev /\ snd (rstep r (LReq c (QTrigger KSignV2G ev csr d))) = [RTrigResp TrigAccepted].
Proof.
  exists cfg, booted, None, (Some "csr"%string), true. split; [exact (booted_reachable [])|]. split; [reflexivity|]. split; [reflexivity|]. vm_compute. reflexivity.
Qed.
Print Assumptions C82_accepted_is_sent_refuted.

(** ** C83: reservations *)

(** A reservation is handed to the application exactly if reservations are available and enabled and there is an EVSE, the one asked for
    if there is one, that has or may have a connector of the type; its answer is then the answer, otherwise it is Rejected. *)
Theorem C83_reserve_is_decided : forall c b ans r, rc_reachable r -> r_reg r = RegAccepted -> r_res r = true ->
  let '(r1, outs) := rstep r (LReq c (QReserve b ans)) in
  r1 = r /\
  (reservable c r b -> outs = [RReserveCall b; RReserveResp ans None]) /\
  (~ reservable c r b -> exists i, outs = [RReserveResp RsRejected (Some i)]).
Proof.
  intros c b ans r R G B. cbn [rstep]. unfold receive. rewrite G. cbn [handle_message]. rewrite B.
  destruct (rc_coh r R) as (P & _). destruct (handle_reserve_spec c b ans r P) as (X & Y).
  destruct (handle_reserve c b ans r) as [r1 outs] eqn:E.
  assert (D : r1 = r). { unfold handle_reserve in E. cbv zeta in E. destruct (b_evse b); repeat match type of E with (if ?b then _ else _) = _ => destruct b end; inversion E; reflexivity. }
  split; [exact D|]. split; intros H; [specialize (X H); inversion X; reflexivity|]. destruct (Y H) as (i & Q). exists i. inversion Q. reflexivity.
Qed.
Print Assumptions C83_reserve_is_decided.
Lemma text_refl : forall s, StrSpec.same_text s s.
Proof. intros s. apply ci. apply (StrProofs.iequals_refl s). Qed.
Example C83_reserve_is_decided_ex :
  reservable cfg booted (ReserveReq 4 (Some 2) (Some "cCCS2"%string)) /\ ~ reservable cfg booted (ReserveReq 4 (Some 1) (Some "cChaoJi"%string)) /\
  ~ reservable cfg booted (ReserveReq 4 None None) /\
  snd (rstep booted (LReq cfg (QReserve (ReserveReq 4 (Some 1) (Some "cccs2"%string)) RsAccepted))) = [RReserveCall (ReserveReq 4 (Some 1) (Some "cccs2"%string)); RReserveResp RsAccepted None] /\
  snd (rstep booted (LReq cfg (QReserve (ReserveReq 4 (Some 1) (Some "cChaoJi"%string)) RsAccepted))) = [RReserveResp RsRejected (Some InfoUnknownType)] /\
  snd (rstep booted (LReq cfg (QReserve (ReserveReq 4 None None) RsAccepted))) = [RReserveResp RsRejected (Some InfoNoEvse)].
Proof.
  assert (ND : forall b, (exists i, snd (handle_reserve cfg b RsAccepted booted) = [RReserveResp RsRejected (Some i)]) -> ~ reservable cfg booted b).
  { intros b (i & E) H. destruct (handle_reserve_spec cfg b RsAccepted booted) as (X & _); [vm_compute; repeat constructor; discriminate|].
    rewrite (X H) in E. discriminate E. }
  split; [|split; [|split; [|vm_compute; auto]]].
  - split; [split; reflexivity|]. split; [vm_compute; split; discriminate|]. exists 1. split; [vm_compute; split; discriminate|]. cbn. right. right. apply text_refl.
  - apply ND. exists InfoUnknownType. vm_compute. reflexivity.
  - apply ND. exists InfoNoEvse. vm_compute. reflexivity.
Qed.
(** A reservation is cancelled by the application exactly if reservations are available and enabled. Without the block both requests
    are answered with an error. *)
Theorem C83_cancel_is_decided : forall c id ans r, r_reg r = RegAccepted ->
  (r_res r = true -> reservations_on c -> rstep r (LReq c (QCancel id ans)) = (r, [RCancelCall id; RCancelResp ans])) /\
  (r_res r = true -> ~ reservations_on c -> rstep r (LReq c (QCancel id ans)) = (r, [RCancelResp false])) /\
  (r_res r = false -> rstep r (LReq c (QCancel id ans)) = (r, [RError]) /\ forall b s, rstep r (LReq c (QReserve b s)) = (r, [RError])).
Proof.
  intros c id ans r G. cbn [rstep]. unfold receive. rewrite G. cbn [handle_message]. destruct (handle_cancel_spec c id ans r) as (A & B).
  split; [intros ->; exact A|]. split; [intros ->; exact B|]. intros ->. auto.
Qed.
Print Assumptions C83_cancel_is_decided.
Example C83_cancel_is_decided_ex : reservations_on cfg /\ r_res booted = true /\
  snd (rstep booted (LReq cfg (QCancel 4 false))) = [RCancelCall 4; RCancelResp false].
Proof. split; [split; reflexivity|]. split; reflexivity. Qed.
