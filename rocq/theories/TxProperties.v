(** Properties C39 and C50: the numbers of transaction events, and scheduled resets. *)
From Coq Require Import ZArith List Bool Lia.
From Verif Require Import TxModel TxSpec TxProofs TxProofs2 TxProofs3 TxProofs4 TxProofs5.
From Verif Require CsmModel.
Import ListNotations.
Local Open Scope Z_scope.

(** Calls without failing statements and crashes, and those used in the examples. *)
Definition plainly (o : op) : call := Call o [] None.
Definition start (e id : Z) : op := OStart e 1 id Authorized (Some 7) None 1.
Definition finish (e : Z) : op := OFinish e 3 StopAuthorized (Some 7) 2.
Definition two_evses : world := init [1; 1] true true true.

(** ** C39 *)

(** The numbers of the events of a transaction are 0, 1, 2, ..., in the order Started, Updated ..., Ended, also when the
    process is started again between two calls. What is missing of C39: the process dying in the middle of a call
    ([event_numbers_gap_refuted]) and failing statements followed by a restart ([event_numbers_repeat_refuted]). The bound
    keeps int32_t sequence numbers from overflowing. *)
Theorem event_numbers_consecutive_partial :
  forall con resume txcb allcb h id,
    different_ids h -> no_failures h -> no_crashes h ->
    let w := run (init con resume txcb allcb) h in
    Z.of_nat (length (w_out w)) + Z.of_nat (length h) < 2147483646 ->
    counting 0 (map fst (events id (w_out w))) /\ life (map snd (events id (w_out w))).
Proof. intros. apply consecutive; assumption. Qed.
Print Assumptions event_numbers_consecutive_partial.

Example event_numbers_consecutive_ex :
  let h := map plainly [start 1 100; OCharging 1 5 Trigger; start 2 200; ORestart; OMeter 1 true; OTrigger None; finish 1; start 1 300; finish 2] in
  let w := run two_evses h in
  different_ids h /\ no_failures h /\ no_crashes h /\
  Z.of_nat (length (w_out w)) + Z.of_nat (length h) < 2147483646 /\
  events 100 (w_out w) = [(0, Started); (1, Updated); (2, Updated); (3, Updated); (4, Ended)] /\
  events 200 (w_out w) = [(0, Started); (1, Updated); (2, Ended)] /\ events 300 (w_out w) = [(0, Started)].
Proof.
  cbv zeta. split; [unfold different_ids; cbn; repeat constructor; cbn; intuition discriminate|].
  split; [repeat constructor|]. split; [repeat constructor|]. vm_compute. auto.
Qed.

(** When the process may die before any durable effect, the numbers still grow: no number is used twice. *)
Theorem event_numbers_increasing :
  forall con resume txcb allcb h id,
    different_ids h -> no_failures h ->
    let w := run (init con resume txcb allcb) h in
    Z.of_nat (length (w_out w)) + Z.of_nat (length h) < 2147483646 ->
    increasing (map fst (events id (w_out w))).
Proof. intros. apply growing; assumption. Qed.
Print Assumptions event_numbers_increasing.

Example event_numbers_increasing_ex :
  let h := [plainly (start 1 100); Call (OMeter 1 true) [] (Some 1%nat); plainly (OMeter 1 true); Call (finish 1) [] (Some 2%nat); plainly (finish 1)] in
  let w := run two_evses h in
  different_ids h /\ no_failures h /\ map fst (events 100 (w_out w)) = [0; 2; 3; 4].
Proof.
  cbv zeta. split; [unfold different_ids; cbn; repeat constructor; cbn; intuition discriminate|].
  split; [repeat constructor|]. vm_compute. reflexivity.
Qed.

(** As long as the process lives, failing statements do not disturb the numbers. *)
Theorem event_numbers_despite_failures :
  forall con resume txcb allcb h id,
    different_ids h -> no_crashes h -> no_restarts h ->
    let w := run (init con resume txcb allcb) h in
    Z.of_nat (length (w_out w)) < 2147483646 ->
    counting 0 (map fst (events id (w_out w))).
Proof. intros. apply failing; assumption. Qed.
Print Assumptions event_numbers_despite_failures.

Example event_numbers_despite_failures_ex :
  let h := [Call (start 1 100) [false; true] None; Call (OMeter 1 true) [true] None; Call (finish 1) [true; true] None] in
  let w := run two_evses h in
  different_ids h /\ no_crashes h /\ no_restarts h /\ events 100 (w_out w) = [(0, Started); (1, Updated); (2, Ended)].
Proof.
  cbv zeta. split; [unfold different_ids; cbn; repeat constructor; cbn; intuition discriminate|].
  split; [repeat constructor|]. split; [repeat constructor|]. vm_compute. reflexivity.
Qed.

(** The number is written before the message is handed over: dying in between leaves a gap. *)
Theorem event_numbers_gap_refuted :
  exists h id, different_ids h /\ no_failures h /\ map fst (events id (w_out (run two_evses h))) = [0; 2].
Proof.
  exists [plainly (start 1 100); Call (OMeter 1 true) [] (Some 1%nat); plainly (OMeter 1 true)], 100.
  split; [unfold different_ids; cbn; repeat constructor; cbn; intuition discriminate|].
  split; [repeat constructor|]. vm_compute. reflexivity.
Qed.
Print Assumptions event_numbers_gap_refuted.

(** A failure to write the number is only logged: after a restart the number is used again. *)
Theorem event_numbers_repeat_refuted :
  exists h id, different_ids h /\ no_crashes h /\ map fst (events id (w_out (run two_evses h))) = [0; 1; 1].
Proof.
  exists [plainly (start 1 100); Call (OMeter 1 true) [true] None; plainly ORestart; plainly (OMeter 1 true)], 100.
  split; [unfold different_ids; cbn; repeat constructor; cbn; intuition discriminate|].
  split; [repeat constructor|]. vm_compute. reflexivity.
Qed.
Print Assumptions event_numbers_repeat_refuted.

(** A transaction whose Ended was sent is resumed when the process dies before its row is deleted, and ends twice; the
    same happens when deleting its meter values fails, since then the row is not deleted at all. *)
Theorem ended_once_refuted :
  (exists h id, different_ids h /\ no_failures h /\
     map snd (events id (w_out (run two_evses h))) = [Started; Ended; Updated; Ended]) /\
  (exists h id, different_ids h /\ no_crashes h /\
     map snd (events id (w_out (run two_evses h))) = [Started; Ended; Updated; Ended]).
Proof.
  split.
  - exists [plainly (start 1 100); Call (finish 1) [] (Some 3%nat); plainly (OMeter 1 true); plainly (finish 1)], 100.
    split; [unfold different_ids; cbn; repeat constructor; cbn; intuition discriminate|].
    split; [repeat constructor|]. vm_compute. reflexivity.
  - exists [plainly (start 1 100); Call (finish 1) [false; true] None; plainly ORestart; plainly (OMeter 1 true); plainly (finish 1)], 100.
    split; [unfold different_ids; cbn; repeat constructor; cbn; intuition discriminate|].
    split; [repeat constructor|]. vm_compute. reflexivity.
Qed.
Print Assumptions ended_once_refuted.

(** ** C50 *)

(** A reset on idle of an EVSE with a transaction is answered Scheduled, and afterwards the EVSE is reset exactly once if
    its transaction ends, however many transactions follow and whatever else is requested, short of another reset of that
    EVSE; not before. *)
Theorem evse_reset_exactly_once :
  forall w k e allow h,
    known_evse (w_con w) e -> busy_of w e = true -> allow <> Some false ->
    c_op k = OResetReq (Some e) OnIdle true allow -> c_crash k = None ->
    no_crashes h -> no_restarts h -> Forall (fun k => asks_reset_of e (c_op k) = false) h ->
    visible (added w (step w k)) = [OResetResp Scheduled] /\
    idle_resets e (resets (added (step w k) (run (step w k) h))) =
      if ends (w_con w) (busy_of w) e h then 1%nat else 0%nat.
Proof.
  intros w k e allow h K B A O C NC NR NA.
  assert (KB : known_evseb (w_con w) e = true) by (unfold known_evse in K; unfold known_evseb; apply andb_true_iff; rewrite !Z.leb_le; lia).
  split.
  - rewrite (reset_step_outputs w k _ _ _ _ O C). rewrite KB. cbv zeta. unfold permitted, reset_answer.
    assert (P : true && match allow with Some b => b | None => true end = true) by (destruct allow as [[]|]; try reflexivity; congruence).
    rewrite P, B, orb_true_r. reflexivity.
  - destruct (asked w k e allow K B A O C) as (X1&X2&_&X4&X5). rewrite (waiting_run h (step w k) e NR NC NA X1 X2).
    rewrite X4. rewrite (ends_ext h (w_con w) _ _ e X5). reflexivity.
Qed.
Print Assumptions evse_reset_exactly_once.

Example evse_reset_exactly_once_ex :
  let w := run two_evses (map plainly [start 1 100; start 2 200]) in
  let k := plainly (OResetReq (Some 1) OnIdle true None) in
  let h := map plainly [finish 2; start 2 300; finish 1; start 1 400; finish 1] in
  known_evse (w_con w) 1 /\ busy_of w 1 = true /\ no_crashes h /\ no_restarts h /\
  Forall (fun k => asks_reset_of 1 (c_op k) = false) h /\ ends (w_con w) (busy_of w) 1 h = true /\
  resets (added (step w k) (run (step w k) h)) = [(Some 1, OnIdle)].
Proof.
  cbv zeta. split; [split; vm_compute; discriminate|]. split; [vm_compute; reflexivity|]. split; [repeat constructor|].
  split; [repeat constructor|]. split; [repeat constructor|]. vm_compute. auto.
Qed.

(** A reset on idle of the station while transactions are running: carried out exactly once, if there is a moment without
    transactions. No reset of a single EVSE is waited for ([station_reset_lost_refuted]), and no other reset requested. *)
Theorem station_reset_exactly_once_partial :
  forall w k allow h,
    any_busy (w_con w) (busy_of w) = true -> w_rids w = [] ->
    c_op k = OResetReq None OnIdle true allow -> c_crash k = None ->
    no_crashes h -> no_restarts h -> Forall (fun k => is_reset_request (c_op k) = false) h ->
    visible (added w (step w k)) = [OResetResp Scheduled] /\
    resets (added (step w k) (run (step w k) h)) =
      if becomes_idle (w_con w) (busy_of w) h then [(None, OnIdle)] else [].
Proof.
  intros w k allow h B E O C NC NR NQ. split.
  - rewrite (reset_step_outputs w k _ _ _ _ O C). cbv zeta. unfold permitted, reset_answer.
    destruct allow; cbn [andb]; rewrite B; reflexivity.
  - apply (station_run w k true allow); auto.
Qed.
Print Assumptions station_reset_exactly_once_partial.

Example station_reset_exactly_once_ex :
  let w := run two_evses (map plainly [start 1 100; start 2 200]) in
  let k := plainly (OResetReq None OnIdle true None) in
  let h := map plainly [finish 2; start 2 300; finish 1; finish 2; start 1 400; finish 1] in
  any_busy (w_con w) (busy_of w) = true /\ w_rids w = [] /\ no_crashes h /\ no_restarts h /\
  Forall (fun k => is_reset_request (c_op k) = false) h /\ becomes_idle (w_con w) (busy_of w) h = true /\
  becomes_idle (w_con w) (busy_of w) (firstn 3 h) = false.
Proof.
  cbv zeta. split; [vm_compute; reflexivity|]. split; [vm_compute; reflexivity|]. split; [repeat constructor|].
  split; [repeat constructor|]. split; [repeat constructor|]. vm_compute. auto.
Qed.

(** All resets of a history are those of the intended machine [rs_run]: a reset on idle of the station waits for all
    transactions, one of an EVSE for that EVSE, the others are done at once. Excluded are the requests of
    [plain_request], which the code confuses. *)
Theorem resets_as_intended_partial :
  forall w h,
    w_rs w = false -> w_rids w = [] -> no_crashes h -> no_restarts h ->
    let s := RS (busy_of w) false (fun _ => false) in
    plain (w_con w) s h = true -> resets (added w (run w h)) = snd (rs_run (w_con w) s h).
Proof.
  intros w h R E NC NR s PL. apply refinement; auto. unfold s. split; [reflexivity|]. cbn. rewrite R, E. ands; auto.
Qed.
Print Assumptions resets_as_intended_partial.

Example resets_as_intended_ex :
  let h := map plainly [start 1 100; start 2 200; OResetReq (Some 1) OnIdle true None; OResetReq (Some 2) OnIdle true None;
             OResetReq (Some 2) OnIdle false None; finish 1; OResetReq (Some 2) Immediate true None; finish 2; start 1 300;
             OResetReq None OnIdle true None; start 2 400; finish 1; finish 2; OResetReq None OnIdle true None] in
  let s := RS (busy_of two_evses) false (fun _ => false) in
  w_rs two_evses = false /\ w_rids two_evses = [] /\ no_crashes h /\ no_restarts h /\ plain (w_con two_evses) s h = true /\
  snd (rs_run (w_con two_evses) s h) =
    [(Some 1, OnIdle); (Some 2, Immediate); (Some 2, OnIdle); (None, OnIdle); (None, Immediate)].
Proof.
  cbv zeta. split; [reflexivity|]. split; [reflexivity|]. split; [repeat constructor|]. split; [repeat constructor|].
  vm_compute. auto.
Qed.

(** Whatever was requested: a reset after waiting is only done when a transaction ends, that of an EVSE when its own
    transaction does, that of the station when no transaction is left. *)
Theorem waiting_reset_only_when_idle :
  forall w k r,
    c_crash k = None -> is_restart (c_op k) = false -> In (r, OnIdle) (resets (added w (step w k))) ->
    exists e reason tr tok cs,
      c_op k = OFinish e reason tr tok cs /\ known_evse (w_con w) e /\ busy_of w e = true /\ busy_of (step w k) e = false /\
      match r with Some f => f = e | None => forall f, known_evse (w_con w) f -> busy_of (step w k) f = false end.
Proof.
  intros w k r C NR I. destruct (only_when_idle w k r C I NR) as (e&re&tr&tok&cs&A1&A2&A3&A4&A5).
  exists e, re, tr, tok, cs. auto.
Qed.
Print Assumptions waiting_reset_only_when_idle.

Example waiting_reset_only_when_idle_ex :
  let w := run two_evses (map plainly [start 1 100; OResetReq None OnIdle true None]) in
  resets (added w (step w (plainly (finish 1)))) = [(None, OnIdle)].
Proof. vm_compute. reflexivity. Qed.

(** A restart, however it goes, forgets resets that waited: without a new request nothing is reset afterwards. *)
Lemma boot_forgets : forall w, w_rs (boot w) = false /\ w_rids (boot w) = [].
Proof.
  intros w. unfold boot.
  assert (X : forall l v, w_rs v = false /\ w_rids v = [] -> w_rs (foreach l construct_evse v) = false /\ w_rids (foreach l construct_evse v) = []).
  { induction l as [|e l IH]; intros v V; [exact V|]. cbn [foreach]. unfold seqw.
    assert (C : w_rs (construct_evse e v) = w_rs v /\ w_rids (construct_evse e v) = w_rids v).
    { assert (D : forall g u, w_rs (fst (statement g u)) = w_rs u /\ w_rids (fst (statement g u)) = w_rids u).
      { intros g u. unfold statement, pop_fail.
        assert (Q : forall rows t, w_rs (durable (set_w_rows rows) t) = w_rs t /\ w_rids (durable (set_w_rows rows) t) = w_rids t)
          by (intros rows t; unfold durable; destruct (w_budget t) as [[|n]|]; cbn; auto).
        destruct (w_fail u) as [|[] q]; cbn [fst]; auto; destruct (g _); cbn [fst]; auto; first [apply Q|exact (Q _ (set_w_fail q u))]. }
      assert (T : w_rs (snd (transaction_get e v)) = w_rs v /\ w_rids (snd (transaction_get e v)) = w_rids v)
        by (unfold transaction_get, pop_fail; destruct (w_fail v); cbn; auto).
      unfold construct_evse, try_resume_transaction, delete_database_transaction.
      destruct (transaction_get e v) as [[r|] u]; cbn [snd] in T; destruct T as [T1 T2]; rewrite <- T1, <- T2;
        destruct (w_resume v); try destruct (has_connector _ _ _); auto; apply D. }
    destruct V as [V1 V2]; destruct C as [C1 C2]; rewrite V1 in C1; rewrite V2 in C2.
    destruct (w_prog (construct_evse e v)); [apply IH| |]; auto. }
  apply X. auto.
Qed.
Theorem restart_forgets_waiting_resets :
  forall w k h,
    c_op k = ORestart -> no_crashes h -> no_restarts h -> Forall (fun k => is_reset_request (c_op k) = false) h ->
    resets (added (step w k) (run (step w k) h)) = [].
Proof.
  intros w k h O NC NR NQ.
  assert (Z0 : w_rs (step w k) = false /\ w_rids (step w k) = []).
  { unfold step. rewrite O. cbn [exec]. set (v := set_w_prog Running _).
    destruct (w_prog (boot v)); apply boot_forgets. }
  revert Z0. generalize (step w k). clear w k O. intros w.
  assert (X : forall w, w_rs w = false /\ w_rids w = [] -> exists l, w_out (run w h) = w_out w ++ l /\ resets l = []).
  { clear w. induction h as [|k h IH]; intros w [R E].
    - exists []. rewrite app_nil_r. auto.
    - inversion NC as [|? ? C1 C2]; inversion NR as [|? ? R1 R2]; inversion NQ as [|? ? Q1 Q2]; subst.
      destruct (step_effect k w R1 C1) as (l&L&M&_&_).
      assert (V : rmach (w_con w) (busy_of w) (w_rs w) (w_rids w) (c_op k) = (false, [], [])).
      { rewrite R, E. destruct (c_op k); try reflexivity; [|discriminate Q1]. unfold rmach, on_end. destruct (_ && _); reflexivity. }
      rewrite V in M. assert (M1 : w_rs (step w k) = false) by congruence. assert (M2 : w_rids (step w k) = []) by congruence.
      assert (M3 : resets l = []) by congruence.
      destruct (IH C2 R2 Q2 (step w k) (conj M1 M2)) as (m&A&B). exists (l ++ m). cbn [run fold_left]. 
      fold (run (step w k) h). rewrite A, L, app_assoc. split; [reflexivity|]. rewrite resets_app, M3, B. reflexivity. }
  intros Z0. destruct (X w Z0) as (l&L&M). rewrite (added_app _ _ _ L). exact M.
Qed.
Print Assumptions restart_forgets_waiting_resets.

Example restart_forgets_waiting_resets_ex :
  let w := run two_evses (map plainly [start 1 100; OResetReq None OnIdle true None]) in
  let h := map plainly [start 2 200; finish 1; finish 2] in
  no_crashes h /\ no_restarts h /\ Forall (fun k => is_reset_request (c_op k) = false) h /\
  resets (added w (run w h)) = [(None, OnIdle)] /\
  resets (added (step w (plainly ORestart)) (run (step w (plainly ORestart)) h)) = [].
Proof.
  cbv zeta. split; [repeat constructor|]. split; [repeat constructor|]. split; [repeat constructor|]. vm_compute. auto.
Qed.

(** Everything a reset request makes the library do besides changing availabilities: the answer, stopping transactions,
    and the reset itself, in this order. *)
Theorem reset_request_effects :
  forall w k ev ty allowed allow,
    c_op k = OResetReq ev ty allowed allow -> c_crash k = None ->
    match ev with Some e => known_evse (w_con w) e | None => True end ->
    let ok := permitted ev allowed allow in
    let a := reset_answer (w_con w) (busy_of w) ev ty ok in
    let stopped := match ev with
                   | Some e => if busy_of w e then [e] else filter (busy_of w) (evse_ids (w_con w))
                   | None => filter (busy_of w) (evse_ids (w_con w))
                   end in
    visible (added w (step w k)) =
      [OResetResp a] ++
      (match ty, ok with Immediate, true => map (fun e => OStopTx e ImmediateReset) stopped | _, _ => [] end) ++
      (match a with Accepted => [OReset ev Immediate] | _ => [] end).
Proof.
  intros w k ev ty allowed allow O C K. cbv zeta. rewrite (reset_step_outputs w k _ _ _ _ O C).
  assert (X : match ev with Some e => known_evseb (w_con w) e | None => true end = true).
  { destruct ev; [|reflexivity]. unfold known_evse in K. unfold known_evseb. apply andb_true_iff; rewrite !Z.leb_le; lia. }
  rewrite X. reflexivity.
Qed.
Print Assumptions reset_request_effects.

Example reset_request_effects_ex :
  let w := run two_evses (map plainly [start 1 100; start 2 200]) in
  visible (added w (step w (plainly (OResetReq None Immediate true None)))) =
    [OResetResp Accepted; OStopTx 1 ImmediateReset; OStopTx 2 ImmediateReset; OReset None Immediate] /\
  visible (added w (step w (plainly (OResetReq (Some 2) Immediate true None)))) =
    [OResetResp Accepted; OStopTx 2 ImmediateReset; OReset (Some 2) Immediate] /\
  visible (added w (step w (plainly (OResetReq (Some 2) Immediate true (Some false))))) = [OResetResp Rejected].
Proof. vm_compute. auto. Qed.

(** An EVSE without transaction while another has one: its reset on idle is answered Scheduled, but it is not carried out,
    not even when no transaction is left. *)
Theorem idle_evse_reset_forgotten_refuted :
  exists w e h, w = run two_evses [plainly (start 1 100)] /\ busy_of w e = false /\
    let w1 := step w (plainly (OResetReq (Some e) OnIdle true None)) in
    visible (added w w1) = [OResetResp Scheduled] /\
    any_busy (w_con w) (busy_of (run w1 h)) = false /\ resets (added w1 (run w1 h)) = [].
Proof.
  exists (run two_evses [plainly (start 1 100)]), 2, (map plainly [finish 1; start 1 300; finish 1]).
  split; [reflexivity|]. vm_compute. auto.
Qed.
Print Assumptions idle_evse_reset_forgotten_refuted.

(** A reset of the station that waits is lost when one of an EVSE is scheduled as well. *)
Theorem station_reset_lost_refuted :
  exists w h, w = run two_evses (map plainly [start 1 100; start 2 200]) /\
    let w1 := step w (plainly (OResetReq None OnIdle true None)) in
    visible (added w w1) = [OResetResp Scheduled] /\
    any_busy (w_con w) (busy_of (run w1 h)) = false /\ resets (added w1 (run w1 h)) = [(Some 1, OnIdle)].
Proof.
  exists (run two_evses (map plainly [start 1 100; start 2 200])),
         (map plainly [OResetReq (Some 1) OnIdle true None; finish 1; finish 2]).
  split; [reflexivity|]. vm_compute. auto.
Qed.
Print Assumptions station_reset_lost_refuted.

(** The immediate reset of an EVSE without transaction stops the transactions of the other EVSEs. *)
Theorem reset_of_idle_evse_stops_others_refuted :
  exists w, w = run two_evses [plainly (start 1 100)] /\ busy_of w 2 = false /\
    In (OStopTx 1 ImmediateReset) (added w (step w (plainly (OResetReq (Some 2) Immediate true None)))).
Proof. exists (run two_evses [plainly (start 1 100)]). split; [reflexivity|]. vm_compute. auto 10. Qed.
Print Assumptions reset_of_idle_evse_stops_others_refuted.
