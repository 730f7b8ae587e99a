(** Property C86: firmware updates of an OCPP 2.x station. *)
From Coq Require Import ZArith List Bool Lia.
From Verif Require Import TxModel TxSpec TxProofs TxProofs2 TxProofs4 TxProofs5 TxProofs6 TxProofs7 TxProofs8 FwModel FwSpec FwProofs FwProofs2.
From Verif Require CsmModel.
Import ListNotations.
Local Open Scope Z_scope.
Import CsmModel (Operative, Inoperative).

(** A station with two EVSEs, the first with two connectors. *)
Definition station2 : world := init [2; 1] true true true.
Lemma station2_reachable : reachable station2.
Proof. exists [2; 1], true, true, true, []. split; [repeat constructor; discriminate|reflexivity]. Qed.
Definition plug (e id : Z) : fop := Other (Call (OStart e 1 id Authorized (Some 7) None 1) [] None).
Definition unplug (e : Z) : fop := Other (Call (OFinish e 3 StopAuthorized (Some 7) 2) [] None).

Lemma told_dec : forall w0 h id s, let f := fstate (fresh w0) h in let l := log (ftrace (fresh w0) h) in
  fstatus_eqb (f_status f) s && ((id =? -1) || match f_id f with Some i => i =? id | None => false end) = true <-> told_already l id s.
Proof.
  intros w0 h id s. cbv zeta. destruct (agrees_all w0 h) as (A & B & _). cbv zeta in A, B. rewrite A, B. unfold told_already.
  rewrite andb_true_iff, orb_true_iff, eqb_status, Z.eqb_eq. destruct (last_id _) as [i|]; [rewrite Z.eqb_eq|].
  - split; intros (C & [D|D]); subst; split; auto; right; congruence.
  - split; intros (C & [D|D]); auto; discriminate.
Qed.
Lemma plain_ready : forall w, reachable w -> ready (set_w_prog Running (set_w_budget None (set_w_fail [] w))).
Proof. intros w R. apply reachable_coh in R. split; [exact R|]. cbn. auto. Qed.
Lemma do_firmware : forall w, reachable w -> let w1 := fst (do_tx OFirmware w) in
  prepared (set_w_prog Running (set_w_budget None (set_w_fail [] w))) w1 /\
  snd (do_tx OFirmware w) = map FTx (added w w1).
Proof.
  intros w R. unfold do_tx. cbn [fst snd]. rewrite step_alive by reflexivity. cbn [c_op c_fail c_crash exec]. split; [|reflexivity].
  apply prepared_firmware. apply plain_ready. exact R.
Qed.
Lemma do_restore : forall w, reachable w -> let w1 := fst (do_tx ORestore w) in
  restored (set_w_prog Running (set_w_budget None (set_w_fail [] w))) w1 /\
  snd (do_tx ORestore w) = map FTx (added w w1).
Proof.
  intros w R. unfold do_tx. cbn [fst snd]. rewrite step_alive by reflexivity. cbn [c_op c_fail c_crash exec]. split; [|reflexivity].
  apply restored_all. apply plain_ready. exact R.
Qed.
Lemma not_both : forall w0 h s, f_before (fstate (fresh w0) h) = s -> ends s = false.
Proof.
  intros w0 h s E. destruct (agrees_all w0 h) as (_ & _ & C). cbv zeta in C. rewrite C in E. subst s. clear C.
  unfold expected. generalize (ftrace (fresh w0) h). intros t. induction t as [|e t IH] using rev_ind; [reflexivity|].
  rewrite fold_left_app. cbn [fold_left]. destruct (fst e) as [| |r [c|] [|] a|]; try reflexivity; destruct (existsb _ (snd e)); auto.
Qed.
Lemma notes_tx : forall l, filter is_note (map FTx l) = [].
Proof. induction l; auto. Qed.
Lemma events_tx : forall l, filter is_fevent (map FTx l) = [].
Proof. induction l; auto. Qed.
Lemma any_active_of : forall w, any_active w = any_busy (w_con w) (busy_of w).
Proof. intros. apply any_active_busy. Qed.
(** A report that is not dropped. *)
Lemma report_split : forall w0 h id s, reachable w0 -> ~ told_already (log (ftrace (fresh w0) h)) id s ->
  let f := fstate (fresh w0) h in let rid := if id =? -1 then None else Some id in
  let b := any_busy (w_con (f_w f)) (busy_of (f_w f)) in
  (f_before f = s -> ends s = false /\ fst (fstep f (Report id s)) = Fw (if b then InstallScheduled else s) (if id =? -1 then f_id f else Some id) (f_before f) (fst (do_tx OFirmware (f_w f)))
     /\ snd (fstep f (Report id s)) = [FNote s rid false] ++ event_of s ++ (if b then [FNote InstallScheduled rid false] else []) ++ snd (do_tx OFirmware (f_w f)))
  /\ (f_before f <> s -> ends s = true -> fst (fstep f (Report id s)) = Fw s (if id =? -1 then f_id f else Some id) (f_before f) (fst (do_tx ORestore (f_w f)))
     /\ snd (fstep f (Report id s)) = [FNote s rid false] ++ event_of s ++ snd (do_tx ORestore (f_w f)))
  /\ (f_before f <> s -> ends s = false -> fst (fstep f (Report id s)) = Fw s (if id =? -1 then f_id f else Some id) (f_before f) (f_w f)
     /\ snd (fstep f (Report id s)) = [FNote s rid false] ++ event_of s).
Proof.
  intros w0 h id s R N. cbv zeta. cbn [fstep]. unfold on_status.
  destruct (_ && ((id =? -1) || _)) eqn:D; [exfalso; apply N; apply told_dec; exact D|]. clear D.
  split; [|split].
  - intros E. assert (En := not_both _ _ _ E). rewrite En. rewrite (proj2 (eqb_status _ _) E). cbn [andb]. rewrite any_active_of.
    destruct (do_tx OFirmware _) as [w2 o2]. split; [reflexivity|]. cbn. split; reflexivity.
  - intros E En. rewrite En. destruct (fstatus_eqb _ s) eqn:Q; [apply eqb_status in Q; contradiction|].
    destruct (do_tx ORestore _) as [w1 o1]. cbn. rewrite app_nil_r. auto.
  - intros E En. rewrite En. destruct (fstatus_eqb _ s) eqn:Q; [apply eqb_status in Q; contradiction|]. cbn. rewrite app_nil_r. auto.
Qed.

(** ** Every new status reaches the CSMS *)

(** A reported status is passed on, first and once, with its request id, unless it is the one the CSMS was told last.
    InstallScheduled follows exactly if the installation is next and a transaction is running. Installed and
    InvalidSignature, and only they, are accompanied by a security event. *)
Theorem C86_statuses_are_passed_on : forall w0 h id s, reachable w0 ->
  let f := fstate (fresh w0) h in let t := ftrace (fresh w0) h in
  let outs := snd (fstep f (Report id s)) in let rid := if id =? -1 then None else Some id in
  (told_already (log t) id s -> outs = [] /\ fst (fstep f (Report id s)) = f)
  /\ (~ told_already (log t) id s ->
        hd_error outs = Some (FNote s rid false)
        /\ filter is_note outs = FNote s rid false
             :: (if fstatus_eqb s (expected t) && any_busy (w_con (f_w f)) (busy_of (f_w f)) then [FNote InstallScheduled rid false] else [])
        /\ filter is_fevent outs = match s with
             | Installed => [FEvent FirmwareUpdated]
             | InvalidSignature => [FEvent InvalidFirmwareSignature]
             | _ => [] end).
Proof.
  intros w0 h id s R. cbv zeta. split.
  - intros T. apply told_dec in T. cbn [fstep]. unfold on_status. rewrite T. auto.
  - intros N. destruct (report_split w0 h id s R N) as (A & B & C). cbv zeta in A, B, C.
    destruct (agrees_all w0 h) as (_ & _ & E). cbv zeta in E. rewrite <- E.
    assert (EV : filter is_note (event_of s) = [] /\ filter is_fevent (event_of s) = event_of s) by (destruct s; auto). destruct EV as (V1 & V2).
    destruct (fstatus_eqb s _) eqn:Q.
    + apply eqb_status in Q. destruct (A (eq_sym Q)) as (_ & _ & ->). rewrite !filter_app, V1, V2.
      destruct (do_firmware _ (state_reachable h (fresh w0) R)) as (_ & ->). rewrite notes_tx, events_tx. cbn [andb].
      destruct (any_busy _ _); cbn; rewrite ?app_nil_r; auto.
    + assert (Q1 : f_before (fstate (fresh w0) h) <> s) by (intros X; symmetry in X; apply eqb_status in X; congruence). cbn [andb].
      destruct (ends s) eqn:En.
      * destruct (B Q1 eq_refl) as (_ & ->). rewrite !filter_app, V1, V2.
        destruct (do_restore _ (state_reachable h (fresh w0) R)) as (_ & ->). rewrite notes_tx, events_tx. cbn. rewrite ?app_nil_r. auto.
      * destruct (C Q1 eq_refl) as (_ & ->). rewrite !filter_app, V1, V2. cbn. auto.
Qed.
Print Assumptions C86_statuses_are_passed_on.
(** A running transaction, a repeated report, and the event at the end. *)
Example C86_statuses_are_passed_on_ex :
  filter (fun o => is_note o || is_fevent o)
    (log (ftrace (fresh station2) [plug 1 100; Report 5 Downloading; Report 5 Downloading; Report 5 SignatureVerified; Report (-1) Installed]))
  = [FNote Downloading (Some 5) false; FNote SignatureVerified (Some 5) false; FNote InstallScheduled (Some 5) false;
     FNote Installed None false; FEvent FirmwareUpdated].
Proof. vm_compute. reflexivity. Qed.

(** Asked for by TriggerMessage, the status is the one the CSMS was told last, with the request id it was told last; Idle
    and without an id if there is none or the firmware is installed. *)
Theorem C86_triggered_status_is_the_last : forall w0 h,
  let l := log (ftrace (fresh w0) h) in
  fstep (fstate (fresh w0) h) Ask
  = (fstate (fresh w0) h,
     [FNote (match last_status l with Installed => Idle | s => s end)
            (match last_status l with Installed | Idle => None | _ => last_id l end) true]).
Proof.
  intros w0 h. cbv zeta. destruct (agrees_all w0 h) as (A & B & _). cbv zeta in A, B. cbn [fstep]. unfold on_request.
  rewrite A, B. destruct (last_status _); reflexivity.
Qed.
Print Assumptions C86_triggered_status_is_the_last.
Example C86_triggered_status_is_the_last_ex :
  snd (fstep (fstate (fresh station2) [plug 1 100; Report 5 SignatureVerified]) Ask) = [FNote InstallScheduled (Some 5) true].
Proof. vm_compute. reflexivity. Qed.

(** ** Connectors *)

(** When the status that precedes the installation is reported, all connectors of EVSEs without transaction become
    inoperative, the EVSEs with one are scheduled to, and nothing else changes, in the database nothing at all. The
    application is told that all connectors are unavailable exactly if no transaction is running. *)
Theorem C86_connectors_are_unavailable_before_installing : forall w0 h id s, reachable w0 ->
  let f := fstate (fresh w0) h in let t := ftrace (fresh w0) h in
  ~ told_already (log t) id s -> s = expected t ->
  let w := f_w f in let w1 := f_w (fst (fstep f (Report id s))) in
  (forall e c, known_evse (w_con w) e -> known_connector (w_con w) e c -> busy_of w e = false ->
     status_of (w_csm w1) (Some (e, Some c)) = Inoperative)
  /\ (forall e, known_evse (w_con w) e -> busy_of w e = true -> map_get e (w_sched w1) = Some (Areq (Some (e, None)) Inoperative, false))
  /\ (forall x, (forall e c, x = Some (e, Some c) -> known_evse (w_con w) e -> known_connector (w_con w) e c -> busy_of w e = true) ->
        status_of (w_csm w1) x = status_of (w_csm w) x)
  /\ (forall x, stored (w_csm w1) x = stored (w_csm w) x)
  /\ w_tx w1 = w_tx w
  /\ (In (FTx OAllUnavailable) (snd (fstep f (Report id s))) <-> w_allcb w = true /\ any_busy (w_con w) (busy_of w) = false).
Proof.
  intros w0 h id s R. cbv zeta. intros N E. destruct (report_split w0 h id s R N) as (A & _). cbv zeta in A.
  destruct (agrees_all w0 h) as (_ & _ & EX). cbv zeta in EX. rewrite <- EX in E.
  destruct (A (eq_sym E)) as (En & -> & ->). cbn [f_w].
  destruct (do_firmware _ (state_reachable h (fresh w0) R)) as (P & O). cbv zeta in P, O. rewrite O.
  set (w := f_w (fstate (fresh w0) h)) in *. set (w1 := fst (do_tx OFirmware w)) in *.
  destruct P as (_&P2&P3&P4&P5&P6&P7&P8&P9). cbn [w_con w_tx w_csm w_sched w_allcb set_w_prog set_w_budget set_w_fail] in *.
  change (busy_of (set_w_prog Running (set_w_budget None (set_w_fail [] w)))) with (busy_of w) in *.
  split; [exact P5|]. split; [exact P6|]. split; [exact P7|]. split; [exact P4|]. split; [exact P3|].
  destruct P9 as (l & L & V). cbn [w_out set_w_prog set_w_budget set_w_fail] in L.
  rewrite (added_app w w1 l L).
  assert (X : In (FTx OAllUnavailable) ([FNote s (if id =? -1 then None else Some id) false] ++ event_of s
      ++ (if any_busy (w_con w) (busy_of w) then [FNote InstallScheduled (if id =? -1 then None else Some id) false] else []) ++ map FTx l)
      <-> In OAllUnavailable l).
  { rewrite !in_app_iff, in_map_iff. split.
    - intros [[Q|[]]|[Q|[Q|(o & Q & I)]]]; [discriminate Q|destruct s; cbn in Q; try contradiction; destruct Q as [Q|[]]; discriminate Q| |congruence].
      destruct (any_busy _ _); [destruct Q as [Q|[]]; discriminate Q|destruct Q].
    - intros I. right. right. right. exists OAllUnavailable. auto. }
  rewrite X. clear X. assert (X : In OAllUnavailable l <-> In OAllUnavailable (visible l)) by (unfold visible; rewrite filter_In; tauto).
  rewrite X, V. change (w_allcb w) with (w_allcb w). destruct (w_allcb w), (any_busy _ _); cbn; intuition discriminate.
Qed.
Print Assumptions C86_connectors_are_unavailable_before_installing.
(** EVSE 1 is charging: its connectors stay operative, the one of EVSE 2 does not; without transactions all are inoperative
    and the application is told. *)
Example C86_connectors_are_unavailable_before_installing_ex :
  ~ told_already (log (ftrace (fresh station2) [plug 1 100])) 5 SignatureVerified /\
  SignatureVerified = expected (ftrace (fresh station2) [plug 1 100]) /\
  (let w1 := f_w (fstate (fresh station2) [plug 1 100; Report 5 SignatureVerified]) in
   status_of (w_csm w1) (Some (2, Some 1)) = Inoperative /\ status_of (w_csm w1) (Some (1, Some 2)) = Operative) /\
  (let w1 := f_w (fstate (fresh station2) [Report 5 SignatureVerified]) in status_of (w_csm w1) (Some (1, Some 2)) = Inoperative) /\
  In (FTx OAllUnavailable) (log (ftrace (fresh station2) [Report 5 SignatureVerified])).
Proof.
  split; [vm_compute; intros (A & _); discriminate A|]. split; [reflexivity|]. split; [vm_compute; auto|]. split; [vm_compute; auto|].
  vm_compute. auto.
Qed.

(** When an update has come to an end, with or without success, the connectors get the status kept in the database again,
    nothing else changes. *)
Theorem C86_connectors_are_restored_at_the_end : forall w0 h id s, reachable w0 ->
  let f := fstate (fresh w0) h in
  ~ told_already (log (ftrace (fresh w0) h)) id s -> end_state s ->
  let w := f_w f in let w1 := f_w (fst (fstep f (Report id s))) in
  (forall e c v, known_evse (w_con w) e -> known_connector (w_con w) e c -> stored (w_csm w) (Some (e, Some c)) = Some v ->
     status_of (w_csm w1) (Some (e, Some c)) = v)
  /\ (forall x, (forall e c, x = Some (e, Some c) -> known_evse (w_con w) e -> known_connector (w_con w) e c -> stored (w_csm w) x = None) ->
        status_of (w_csm w1) x = status_of (w_csm w) x)
  /\ (forall x, stored (w_csm w1) x = stored (w_csm w) x)
  /\ (forall k, map_get k (w_sched w1) = map_get k (w_sched w))
  /\ w_tx w1 = w_tx w.
Proof.
  intros w0 h id s R. cbv zeta. intros N E. destruct (report_split w0 h id s R N) as (_ & B & _). cbv zeta in B.
  assert (En : ends s = true) by (destruct E as [-> | [-> | [-> | [-> | ->]]]]; reflexivity).
  destruct (B (fun Q => ltac:(apply not_both in Q; congruence)) En) as (-> & _). cbn [f_w].
  destruct (do_restore _ (state_reachable h (fresh w0) R)) as (P & _). cbv zeta in P.
  destruct P as (_&P2&P3&P4&P5&P6&P7&_). cbn [w_con w_tx w_csm w_sched w_allcb set_w_prog set_w_budget set_w_fail] in *. auto.
Qed.
Print Assumptions C86_connectors_are_restored_at_the_end.
(** Connector 2 of EVSE 1 was switched off by the CSMS before: it stays so. *)
Example C86_connectors_are_restored_at_the_end_ex :
  let off := Other (Call (OAvail (Areq (Some (1, Some 2)) Inoperative)) [] None) in
  let h := [off; Report 5 SignatureVerified; Report 5 Installing] in
  ~ told_already (log (ftrace (fresh station2) h)) 5 InstallationFailed /\ end_state InstallationFailed /\
  (let w := f_w (fstate (fresh station2) h) in status_of (w_csm w) (Some (1, Some 1)) = Inoperative) /\
  (let w := f_w (fstate (fresh station2) (h ++ [Report 5 InstallationFailed])) in
   status_of (w_csm w) (Some (1, Some 1)) = Operative /\ status_of (w_csm w) (Some (1, Some 2)) = Inoperative).
Proof.
  cbv zeta. split; [vm_compute; intros (A & _); discriminate A|]. split; [unfold end_state; auto|]. split; [vm_compute; auto|vm_compute; auto].
Qed.

(** Nothing else of this block touches connectors or transactions: not the request, not a question for the status, and not
    a report of any other status. *)
Theorem C86_only_these_reports_change_connectors : forall w0 h o, reachable w0 ->
  let f := fstate (fresh w0) h in let t := ftrace (fresh w0) h in
  match o with
  | Ask | Update _ _ _ _ => True
  | Report _ s => ~ end_state s /\ s <> expected t
  | Other _ => False
  end -> f_w (fst (fstep f o)) = f_w f /\ forall x, ~ In (FTx x) (snd (fstep f o)).
Proof.
  intros w0 h o R. cbv zeta. intros H. destruct o as [id s| |r c sg a|c]; [| | |contradiction].
  - destruct H as (H1 & H2). destruct (agrees_all w0 h) as (_ & _ & E). cbv zeta in E. rewrite <- E in H2.
    assert (En : ends s = false) by (destruct s; try reflexivity; exfalso; apply H1; unfold end_state; auto 10).
    cbn [fstep]. unfold on_status. destruct (_ && ((id =? -1) || _)); [cbn; auto|].
    rewrite En. destruct (fstatus_eqb _ s) eqn:Q; [apply eqb_status in Q; congruence|]. cbn. split; [reflexivity|].
    intros x. rewrite app_nil_r. destruct s; cbn; intuition discriminate.
  - cbn. split; [reflexivity|]. intros x [Q|[]]. destruct (f_status _); discriminate Q.
  - cbn. split; [reflexivity|]. intros x. destruct c as [[|]|], a; cbn; intuition discriminate.
Qed.
Print Assumptions C86_only_these_reports_change_connectors.
Example C86_only_these_reports_change_connectors_ex :
  ~ end_state Installing /\ Installing <> expected (ftrace (fresh station2) [Update 1 None false UAccepted; Report 1 Downloaded]).
Proof. split; [unfold end_state; intuition discriminate|vm_compute; discriminate]. Qed.

(** ** The request *)

(** A request is answered exactly once. Its firmware is handed to the application exactly if it has no signing certificate
    that is invalid, and then the answer is the application's; otherwise it is InvalidCertificate. A security event tells of
    an invalid or revoked certificate, after the answer, and of nothing else. *)
Theorem C86_update_requests_are_answered : forall f r c sg a,
  let outs := snd (fstep f (Update r c sg a)) in let answer := match c with Some false => UInvalidCertificate | _ => a end in
  filter (fun o => match o with FResp _ => true | _ => false end) outs = [FResp answer]
  /\ filter (fun o => match o with FCall _ => true | _ => false end) outs = (match c with Some false => [] | _ => [FCall r] end)
  /\ filter is_note outs = []
  /\ (exists l, outs = l ++ [FResp answer] ++ (match answer with UInvalidCertificate | URevokedCertificate => [FEvent InvalidFirmwareSigningCertificate] | _ => [] end) /\
        filter is_fevent l = []).
Proof.
  intros f r c sg a. cbv zeta. cbn [fstep]. unfold handle_update. cbn [snd].
  destruct c as [[|]|], a; cbn; (split; [reflexivity|]); (split; [reflexivity|]); (split; [reflexivity|]);
    try (exists [FCall r]; cbn; auto; fail); exists []; cbn; auto.
Qed.
Print Assumptions C86_update_requests_are_answered.
Example C86_update_requests_are_answered_ex :
  snd (fstep (fresh station2) (Update 9 (Some false) true UAccepted)) = [FResp UInvalidCertificate; FEvent InvalidFirmwareSigningCertificate] /\
  snd (fstep (fresh station2) (Update 9 (Some true) true UAccepted)) = [FCall 9; FResp UAccepted].
Proof. split; reflexivity. Qed.

(** ** A transaction that delays the installation *)

(** An EVSE that was charging when the status before the installation was reported becomes inoperative when its transaction
    ends, whatever reports, questions and update requests come before, and whatever other calls, as long as the process runs
    and no change of the EVSE's availability is requested. *)
Theorem C86_charging_evse_follows : forall w0 h id s e h2 reason tr tok cs, reachable w0 ->
  let f := fstate (fresh w0) h in let t := ftrace (fresh w0) h in
  ~ told_already (log t) id s -> s = expected t ->
  known_evse (w_con (f_w f)) e -> busy_of (f_w f) e = true ->
  Forall (fun o => match o with Other c => is_restart (c_op c) = false /\ c_crash c = None
      /\ ~ replaces (w_con (f_w f)) (Some (e, None)) (c_op c)
      /\ (forall a b c0 d, c_op c <> OFinish e a b c0 d)
    | _ => True end) h2 ->
  let g := fstate (fresh w0) (h ++ [Report id s] ++ h2 ++ [Other (Call (OFinish e reason tr tok cs) [] None)]) in
  status_of (w_csm (f_w g)) (Some (e, None)) = Inoperative /\ busy_of (f_w g) e = false.
Proof.
  intros w0 h id s e h2 reason tr tok cs R. cbv zeta. intros N E K B F.
  rewrite fstate_app. set (f := fstate (fresh w0) h) in *. rewrite app_comm_cons || idtac. cbn [app fstate].
  rewrite fstate_app. cbn [fstate].
  assert (RF : reachable (f_w f)) by (apply state_reachable; exact R).
  assert (A1 : awaiting e (f_w (fst (fstep f (Report id s)))) /\ w_con (f_w (fst (fstep f (Report id s)))) = w_con (f_w f)).
  { destruct (report_split w0 h id s R N) as (A & _). cbv zeta in A. fold f in A.
    destruct (agrees_all w0 h) as (_ & _ & EX). cbv zeta in EX. rewrite <- EX in E. destruct (A (eq_sym E)) as (_ & -> & _). cbn [f_w].
    destruct (do_firmware _ RF) as (P & _). cbv zeta in P. apply (awaiting_prepared e (set_w_prog Running (set_w_budget None (set_w_fail [] (f_w f)))) _ K B P). }
  destruct A1 as (A1 & C1). rewrite <- C1 in F.
  destruct (awaiting_run e h2 _ A1 F) as (A2 & C2). apply awaiting_done. exact A2.
Qed.
Print Assumptions C86_charging_evse_follows.
Example C86_charging_evse_follows_ex :
  let h := [plug 1 100] in let h2 := [Report 5 InstallScheduled; plug 2 200; Ask; unplug 2] in
  ~ told_already (log (ftrace (fresh station2) h)) 5 SignatureVerified /\ SignatureVerified = expected (ftrace (fresh station2) h) /\
  busy_of (f_w (fstate (fresh station2) h)) 1 = true /\
  status_of (w_csm (f_w (fstate (fresh station2) (h ++ [Report 5 SignatureVerified] ++ h2)))) (Some (1, None)) = Operative /\
  status_of (w_csm (f_w (fstate (fresh station2) (h ++ [Report 5 SignatureVerified] ++ h2 ++ [unplug 1])))) (Some (1, None)) = Inoperative.
Proof.
  cbv zeta. split; [vm_compute; intros (A & _); discriminate A|]. split; [reflexivity|]. split; [reflexivity|]. vm_compute. auto.
Qed.

(** ** What does not hold *)

(** A request that is rejected while an update is running makes the station expect another status before the installation.
    With signed firmware that has been downloaded and a rejected request for unsigned firmware, the connectors stay operative
    through the installation. *)
Theorem C86_rejected_request_is_harmless_refuted :
  exists h0 h1, filter (fun o => match o with FResp _ => true | _ => false end) (log (ftrace (fstate (fresh station2) h0) [Update 8 None false URejected])) = [FResp URejected] /\
    (let w := f_w (fstate (fresh station2) (h0 ++ h1)) in status_of (w_csm w) (Some (1, Some 1)) = Inoperative) /\
    (let w := f_w (fstate (fresh station2) (h0 ++ [Update 8 None false URejected] ++ h1)) in status_of (w_csm w) (Some (1, Some 1)) = Operative).
Proof.
  exists [Update 7 (Some true) true UAccepted; Report 7 Downloading; Report 7 Downloaded], [Report 7 SignatureVerified; Report 7 Installing].
  vm_compute. auto.
Qed.
Print Assumptions C86_rejected_request_is_harmless_refuted.

(** An update that fails while a transaction is still running does not take back what was scheduled: the EVSE becomes
    inoperative when the transaction ends, and nothing restores it. *)
Theorem C86_failed_update_leaves_evses_alone_refuted :
  exists h, (let w := f_w (fstate (fresh station2) h) in busy_of w 1 = true /\ status_of (w_csm w) (Some (1, None)) = Operative) /\
    end_state (last_status (log (ftrace (fresh station2) h))) /\
    (let w := f_w (fstate (fresh station2) (h ++ [unplug 1])) in status_of (w_csm w) (Some (1, None)) = Inoperative) /\
    (let w := f_w (fstate (fresh station2) (h ++ [unplug 1; Report 5 InstallationFailed; Report 6 InstallationFailed])) in status_of (w_csm w) (Some (1, None)) = Inoperative).
Proof.
  exists [plug 1 100; Report 5 SignatureVerified; Report 5 InstallationFailed].
  split; [vm_compute; auto|]. split; [vm_compute; auto|]. vm_compute. auto.
Qed.
Print Assumptions C86_failed_update_leaves_evses_alone_refuted.
