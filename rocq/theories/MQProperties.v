(** Theorems about the message queue (properties C01-C10, C51, C52). *)
From Coq Require Import List ZArith NArith Bool Lia Permutation.
From Verif Require Import MQModel MQSpec MQProofs MQProofs2 MQProofs3 MQProofs4 MQProofs5.
Import ListNotations.
Open Scope Z_scope.

(** ** Material for the examples *)

Ltac sched := vm_compute; repeat (apply Forall_nil || (apply Forall_cons; [first [exact I|reflexivity|discriminate|intros _; discriminate]|])).
Ltac nodup := vm_compute; repeat constructor; cbn; intuition discriminate.

Definition ex_cfg : cfg := Cfg V16 3 0 100 false [] 30 60.
Definition ex_cfg2 : cfg := Cfg V2 2 10 100 true [] 30 60.
Definition ex_call (t : mtype) (id : N) : call := Call t id false None 7%N.

(** ** C01 *)

Theorem at_most_one_outstanding c os : serial os -> one_outstanding None (trace (fresh c) os).
Proof. exact (at_most_one_outstanding_lemma c os). Qed.
Print Assumptions at_most_one_outstanding.

Definition ex_run1 : list op :=
  [Accept; Resume 0; Push (ex_call TStart 1%N) 0 false; Push (ex_call (TOther 3%N) 2%N) 0 false; Work 1 true; Work 1 true;
   RecvErr 1%N 9%N 2; Work 2 true; RecvResult 2%N 5%N; Work 3 true; Work 3 true].
Example at_most_one_outstanding_ex : serial ex_run1 /\ sent_ids (outs (trace (fresh ex_cfg) ex_run1)) = [1; 2; 9]%N.
Proof. split; [sched|vm_compute; reflexivity]. Qed.

(** Without [serial] the property fails: the time-out callback that was dispatched just before the answer arrived is
    applied to the CALL transmitted after that answer. *)
Theorem at_most_one_outstanding_racy_refuted :
  exists c os, ~ one_outstanding None (trace (fresh c) os).
Proof.
  exists ex_cfg, [Accept; Resume 0; Push (ex_call TStart 1%N) 0 false; Push (ex_call TStop 2%N) 0 false; Work 1 true;
    TimerExpire 40; RecvResult 1%N 5%N; Work 40 true; TimerRun 9%N 40; NotifyTimer 41; Work 41 true].
  vm_compute. intros H. repeat match goal with H : _ /\ _ |- _ => destruct H | H : False |- _ => destruct H | H : Some _ = None |- _ => discriminate H end.
Qed.
Print Assumptions at_most_one_outstanding_racy_refuted.

(** The same race dereferences a null pointer when nothing else is in flight. *)
Theorem late_timer_null_dereference_refuted :
  exists c os, In OUB (outs (trace (fresh c) os)).
Proof.
  exists ex_cfg, [Accept; Resume 0; Push (ex_call TStart 1%N) 0 false; Work 1 true; TimerExpire 40; RecvResult 1%N 5%N; TimerRun 9%N 40].
  vm_compute. tauto.
Qed.
Print Assumptions late_timer_null_dereference_refuted.

(** The uninterrupted operations of [serial] schedules are the sequences of critical sections of the code. *)
Theorem serial_receive_error s id newid now : s_errs s = [] ->
  let s1 := fst (step s (RecvErrBegin id)) in
  step s (RecvErr id newid now) = (fst (step s1 (RecvErrEnd newid now)), snd (step s (RecvErrBegin id)) ++ snd (step s1 (RecvErrEnd newid now))).
Proof. exact (recv_error_serial s id newid now). Qed.
Print Assumptions serial_receive_error.
Theorem serial_timeout s newid now : s_fired s = false ->
  let s1 := fst (step s (TimerExpire now)) in
  step s (Timeout newid now) = (fst (step s1 (TimerRun newid now)), snd (step s (TimerExpire now)) ++ snd (step s1 (TimerRun newid now))).
Proof. exact (timeout_serial s newid now). Qed.
Print Assumptions serial_timeout.
Definition ex_flight : st := final (fresh ex_cfg) [Accept; Resume 0; Push (ex_call TStart 1%N) 0 false; Work 1 true].
Example serial_ops_ex : s_errs ex_flight = [] /\ s_fired ex_flight = false /\ s_fl ex_flight <> None /\ s_armed ex_flight = Some 31.
Proof. vm_compute. repeat split. discriminate. Qed.

(** ** C02 *)

Theorem transactional_order c os :
  same_version (c_ver c) os -> NoDup (pushes (c_ver c) os) ->
  ForallOrdPairs (before (pushes (c_ver c) os)) (tx_sends (c_ver c) (outs (trace (fresh c) os))).
Proof. exact (tx_order c os). Qed.
Print Assumptions transactional_order.

Definition ex_run2 : list op :=
  [Accept; Resume 0; Push (ex_call TStart 1%N) 0 false; Push (ex_call TStop 2%N) 0 false; Push (ex_call TMeter 3%N) 0 false;
   Work 1 false; Resume 0; Work 1 true; RecvErr 1%N 9%N 2; Work 2 true; Restart ex_cfg false; Accept; Resume 0; Work 3 true; RecvResult 1%N 5%N; Work 4 true].
Example transactional_order_ex : same_version V16 ex_run2 /\ NoDup (pushes V16 ex_run2) /\
  tx_sends V16 (outs (trace (fresh ex_cfg) ex_run2)) = [1; 1; 1; 1; 2]%N.
Proof. split; [sched|]. split; [|vm_compute; reflexivity]. nodup. Qed.

(** What the worker transmits, exactly: see [due]. *)
Theorem transmits_what_is_due s now ok m : due s now m -> can_send s m ->
  exists m' l, step s (Work now ok) = (fst (step s (Work now ok)), OSend m' ok :: l) /\ same_message m' m /\
    m_att m' = m_att m + 1 /\ no_calls l /\
    m_tx m' = match lookup (m_id m) (s_txmap s) with Some t => Some t | None => m_tx m end.
Proof. exact (worker_transmits s now ok m). Qed.
Print Assumptions transmits_what_is_due.
Theorem transmits_nothing_else s o m' b : In (OSend m' b) (snd (step s o)) ->
  exists now m, o = Work now b /\ due s now m /\ can_send s m /\ same_message m' m /\ m_att m' = m_att m + 1 /\
    m_tx m' = match lookup (m_id m) (s_txmap s) with Some t => Some t | None => m_tx m end.
Proof. exact (transmits_only_due s o m' b). Qed.
Print Assumptions transmits_nothing_else.
Definition ex_idle : st := final (fresh ex_cfg) [Accept; Resume 0; Push (ex_call TStart 1%N) 0 false; Push (ex_call (TOther 1%N) 2%N) 5 false].
Example transmits_ex : exists m, due ex_idle 6 m /\ can_send ex_idle m /\ m_id m = 1%N /\ In (OSend (prepare m []) true) (snd (step ex_idle (Work 6 true))).
Proof.
  eexists. split; [|split; [|split]].
  - eapply due_tx; [vm_compute; reflexivity|vm_compute; split; [discriminate|discriminate]|].
    intros n (pre & post & E & R & F). vm_compute in E. destruct pre as [|a [|b q]]; inversion E; subst. cbn. split; [discriminate|lia].
  - vm_compute. repeat split; discriminate.
  - reflexivity.
  - vm_compute. left. reflexivity.
Qed.

(** ** C03 *)

Theorem transactional_not_lost c os1 p k os2 :
  let v := c_ver c in
  let s := final (fresh c) os1 in
  pushed_call p = Some k -> transactional v (k_type k) = true ->
  s_running s = true -> s_dead s = false ->
  same_version v (os1 ++ p :: os2) -> NoDup (pushes v (os1 ++ p :: os2)) ->
  let t := trace s (p :: os2) in
  let s' := final s (p :: os2) in
  In (k_id k) (map m_init (owed v s')) \/ answered (k_id k) t \/ given_up v (k_id k) t \/
  (k_type k = TSecurity /\ security_forgotten t).
Proof. exact (tx_not_lost c os1 p k os2). Qed.
Print Assumptions transactional_not_lost.
Example transactional_not_lost_ex :
  let s := final (fresh ex_cfg) [Accept] in
  s_running s = true /\ s_dead s = false /\ same_version V16 ([Accept] ++ ex_run1) /\ NoDup (pushes V16 ([Accept] ++ ex_run1)) /\
  map m_init (owed V16 (final (fresh ex_cfg) (firstn 6 ex_run1))) = [1]%N.
Proof. cbn zeta. repeat split; try (vm_compute; reflexivity); [sched|nodup]. Qed.

(** ** C04 *)

Theorem database_mirrors_queue c os :
  let v := c_ver c in
  same_version v os -> NoDup (pushes v os) ->
  let s := final (fresh c) os in
  map row_data (s_dbt s) = map msg_data (owed v s).
Proof. exact (db_mirror c os). Qed.
Print Assumptions database_mirrors_queue.
Theorem restart_recovers_owed c os c' ig :
  let v := c_ver c in
  same_version v os -> NoDup (pushes v os) -> c_ver c' = v ->
  let s := final (fresh c) os in
  let s' := fst (step s (Restart c' ig)) in
  map msg_data (owed v s') =
    filter (fun d => negb (ig && match snd (fst (fst d)) with TSecurity => true | _ => false end)) (map msg_data (owed v s)) /\
  s_fl s' = None /\ s_acc s' = false /\ s_paused s' = true /\ s_running s' = true /\ s_dead s' = false /\
  Forall (fun m => m_stall m = true /\ m_id m = m_init m) (s_nq s' ++ s_tq s') /\
  (s_tq s' <> [] -> s_new s' = true).
Proof. exact (restart_recovers c os c' ig). Qed.
Print Assumptions restart_recovers_owed.
Example restart_recovers_ex : same_version V16 ex_run2 /\ NoDup (pushes V16 ex_run2) /\
  map m_init (owed V16 (final (fresh ex_cfg) ex_run2)) = [2; 3]%N /\
  map m_init (owed V16 (fst (step (final (fresh ex_cfg) ex_run2) (Restart ex_cfg false)))) = [2; 3]%N.
Proof. split; [sched|]. split; [nodup|]. split; vm_compute; reflexivity. Qed.

(** ** C05 *)

Theorem transmissions_bounded c os id n :
  c_attempts c <= n -> attempts_bounded n os -> no_restart os -> not_boot id os ->
  (count_occ N.eq_dec (all_pushes os) id <= 1)%nat ->
  Z.of_nat (transmissions id (outs (trace (fresh c) os))) <= Z.max 1 n.
Proof. exact (retries_bounded c os id n). Qed.
Print Assumptions transmissions_bounded.
Theorem transmissions_bounded_after_restart s c ig os id n :
  c_attempts c <= n -> attempts_bounded n os -> no_restart os -> ~ In id (all_pushes os) ->
  (length (filter (fun r => N.eqb (r_mid r) id) (s_dbn s ++ s_dbt s)) <= 1)%nat ->
  Forall (fun r => r_mid r = id -> r_type r <> TBoot /\ 0 <= r_att r) (s_dbn s ++ s_dbt s) ->
  Z.of_nat (transmissions id (outs (trace (fst (step s (Restart c ig))) os))) <= Z.max 1 n.
Proof. exact (retries_bounded_restart s c ig os id n). Qed.
Print Assumptions transmissions_bounded_after_restart.
Definition ex_run5 : list op :=
  [Accept; Resume 0; Push (ex_call TStart 1%N) 0 false; Work 1 true; Timeout 9%N 40; NotifyTimer 40; Work 41 true; RecvErr 9%N 10%N 42; NotifyTimer 42; Work 43 true; RecvErr 10%N 11%N 44].
Example transmissions_bounded_ex :
  c_attempts ex_cfg <= 3 /\ attempts_bounded 3 ex_run5 /\ no_restart ex_run5 /\ not_boot 1%N ex_run5 /\
  (count_occ N.eq_dec (all_pushes ex_run5) 1%N <= 1)%nat /\ transmissions 1%N (outs (trace (fresh ex_cfg) ex_run5)) = 3%nat.
Proof. split; [cbn; lia|]. split; [sched|]. split; [sched|]. split; [sched|]. split; vm_compute; auto. Qed.
Theorem given_up_only_after_attempts c os o m :
  no_restart os -> not_boot (m_init m) os -> (count_occ N.eq_dec (all_pushes os) (m_init m) <= 1)%nat ->
  let s := final (fresh c) os in
  In (ODrop m DropAttempts) (snd (step s o)) ->
  c_attempts (s_cfg s) <= Z.of_nat (handovers (m_init m) (outs (trace (fresh c) os))).
Proof. exact (gives_up_only_after_attempts c os o m). Qed.
Print Assumptions given_up_only_after_attempts.
Example given_up_ex : exists m, In (ODrop m DropAttempts) (snd (step (final (fresh ex_cfg) (firstn 10 ex_run5)) (RecvErr 10%N 11%N 44))) /\ m_init m = 1%N.
Proof. eexists. split; [vm_compute; right; left; reflexivity|reflexivity]. Qed.

(** Hand-overs that the socket refused count as attempts too: a transactional message can be given up although it was
    transmitted fewer times than configured. *)
Theorem given_up_early_refuted :
  exists c os o m, no_restart os /\ In (ODrop m DropAttempts) (snd (step (final (fresh c) os) o)) /\
    transactional (c_ver c) (m_type m) = true /\
    Z.of_nat (transmissions (m_init m) (outs (trace (fresh c) os))) < c_attempts c.
Proof.
  exists ex_cfg, [Accept; Resume 0; Push (ex_call TStart 1%N) 0 false; Work 1 false; Resume 0; Work 2 false; Resume 0; Work 3 true], (Timeout 9%N 40).
  eexists. split; [sched|]. split; [vm_compute; right; left; reflexivity|]. split; vm_compute; reflexivity.
Qed.
Print Assumptions given_up_early_refuted.

(** What a CALLERROR or time-out does to the CALL in flight. *)
Theorem failure_retries s o err newid now m :
  s_dead s = false -> failure_op s o err newid now -> s_fl s = Some m ->
  retryable (s_cfg s) (m_type m) -> m_att m < c_attempts (s_cfg s) ->
  let s' := fst (step s o) in
  exists m', (if transactional (c_ver (s_cfg s)) (m_type m)
              then s_tq s' = m' :: s_tq s /\ s_nq s' = s_nq s
              else s_nq s' = m' :: s_nq s /\ s_tq s' = s_tq s) /\
    m_id m' = newid /\ m_ts m' = (if 0 <? c_interval (s_cfg s) then m_ts m + c_interval (s_cfg s) * m_att m else now) /\
    m_h m' = m_h m /\ msg_data m' = msg_data m /\ m_att m' = m_att m /\ m_tx m' = m_tx m /\ m_off m' = m_off m /\
    m_stall m' = m_stall m /\
    s_fl s' = None /\ s_armed s' = None /\ s_nt s' = Some (m_ts m') /\ s_dbt s' = s_dbt s /\ s_dbn s' = s_dbn s /\
    snd (step s o) = if match c_ver (s_cfg s), m_type m with V16, TStart => true | _, _ => false end
                     then [ORetry newid (m_id m)] else [].
Proof. exact (failure_requeues s o err newid now m). Qed.
Print Assumptions failure_retries.
Theorem failure_discards s o err newid now m :
  s_dead s = false -> failure_op s o err newid now -> s_fl s = Some m ->
  retryable (s_cfg s) (m_type m) -> c_attempts (s_cfg s) <= m_att m -> ~ In (m_h m) (s_done s) ->
  let s' := fst (step s o) in
  snd (step s o) = [OPromise (m_h m) (match err with Some i => PError i | None => POffline end); ODrop m DropAttempts] /\
  s_fl s' = None /\ s_armed s' = None /\ s_tq s' = s_tq s /\ s_nq s' = s_nq s /\
  (if transactional (c_ver (s_cfg s)) (m_type m)
   then s_dbt s' = filter (fun r => negb (N.eqb (r_uid r) (m_init m))) (s_dbt s) /\ s_dbn s' = s_dbn s
   else s_dbn s' = filter (fun r => negb (N.eqb (r_uid r) (m_init m))) (s_dbn s) /\ s_dbt s' = s_dbt s).
Proof. exact (failure_gives_up s o err newid now m). Qed.
Print Assumptions failure_discards.
Theorem failure_of_boot s o err newid now m :
  s_dead s = false -> failure_op s o err newid now -> s_fl s = Some m ->
  ~ retryable (s_cfg s) (m_type m) -> m_type m = TBoot ->
  let s' := fst (step s o) in
  exists m', s_nq s' = m' :: s_nq s /\ s_tq s' = s_tq s /\ m_id m' = newid /\ m_ts m' = m_ts m + c_bootretry (s_cfg s) /\
    m_h m' = m_h m /\ msg_data m' = msg_data m /\ m_att m' = m_att m /\ m_stall m' = m_stall m /\
    s_fl s' = None /\ s_nt s' = Some (m_ts m') /\ snd (step s o) = [].
Proof. exact (failure_boot s o err newid now m). Qed.
Print Assumptions failure_of_boot.
Theorem failure_of_other s o err newid now m :
  s_dead s = false -> failure_op s o err newid now -> s_fl s = Some m ->
  ~ retryable (s_cfg s) (m_type m) -> m_type m <> TBoot -> ~ In (m_h m) (s_done s) ->
  let s' := fst (step s o) in
  snd (step s o) = [OPromise (m_h m) (match err with Some i => PError i | None => POffline end); ODrop m DropUnanswered] /\
  s_fl s' = None /\ s_tq s' = s_tq s /\ s_nq s' = s_nq s /\ s_dbt s' = s_dbt s /\ s_dbn s' = s_dbn s.
Proof. exact (failure_other s o err newid now m). Qed.
Print Assumptions failure_of_other.
Definition ex_flight_of (t : mtype) : st := final (fresh ex_cfg) [Accept; Resume 0; Push (ex_call t 1%N) 0 false; Work 1 true].
Example failure_ex :
  (exists m, s_fl (ex_flight_of TStart) = Some m /\ failure_op (ex_flight_of TStart) (Timeout 9%N 31) None 9%N 31 /\ retryable ex_cfg (m_type m) /\ m_att m < c_attempts ex_cfg) /\
  (exists m, s_fl (ex_flight_of TBoot) = Some m /\ failure_op (ex_flight_of TBoot) (RecvErr 1%N 9%N 31) (Some 1%N) 9%N 31 /\ ~ retryable ex_cfg (m_type m)) /\
  (exists m, s_fl (ex_flight_of (TOther 3%N)) = Some m /\ failure_op (ex_flight_of (TOther 3%N)) (RecvErr 1%N 9%N 31) (Some 1%N) 9%N 31 /\ ~ retryable ex_cfg (m_type m) /\ ~ In (m_h m) (s_done (ex_flight_of (TOther 3%N)))) /\
  (exists m, s_fl (final (fresh ex_cfg) (firstn 10 ex_run5)) = Some m /\ c_attempts ex_cfg <= m_att m).
Proof.
  repeat split; eexists; (split; [vm_compute; reflexivity|]).
  - split; [vm_compute; right; split; [reflexivity|]; split; [reflexivity|]; exists 31; split; [reflexivity|discriminate]|]. split; [left; reflexivity|reflexivity].
  - split; [vm_compute; left; split; reflexivity|]. intros [C|[C _]]; vm_compute in C; discriminate.
  - split; [vm_compute; left; split; reflexivity|]. split; [intros [C|[C _]]; vm_compute in C; discriminate|vm_compute; tauto].
  - vm_compute. discriminate.
Qed.

(** The time-out strikes at the configured time and not before. *)
Theorem timeout_at_deadline s t0 m l os newid t :
  step s (Work t0 true) = (fst (step s (Work t0 true)), OSend m true :: l) ->
  s_fired s = false -> s_errs s = [] -> s_dead s = false ->
  Forall (fun o => answers o (m_id m) = false) os ->
  let s2 := final (fst (step s (Work t0 true))) os in
  let deadline := t0 + c_timeout (s_cfg s) + c_interval (s_cfg s) * m_att m in
  s_fl s2 = Some m /\
  (t < deadline -> step s2 (Timeout newid t) = (s2, [])) /\
  (deadline <= t -> failure_op s2 (Timeout newid t) None newid t).
Proof. exact (timeout_deadline s t0 m l os newid t). Qed.
Print Assumptions timeout_at_deadline.
Example timeout_at_deadline_ex : exists m, snd (step ex_idle (Work 6 true)) = [OSend m true] /\ s_fired ex_idle = false /\ s_errs ex_idle = [] /\ s_dead ex_idle = false /\
  Forall (fun o => answers o (m_id m) = false) [Pause; RecvResult 7%N 1%N; Push (ex_call TStop 5%N) 8 false].
Proof. eexists. split; [vm_compute; reflexivity|]. repeat split; sched. Qed.

(** ** C06 *)

Theorem quiet_before_acceptance c ds m b :
  not_accepted ds -> In (OSend m b) (snd (drun (Station false (fresh c)) ds)) ->
  m_type m = TBoot \/ In (m_init m) (triggered_ids ds).
Proof. exact (nothing_before_acceptance c ds m b). Qed.
Print Assumptions quiet_before_acceptance.
Definition ex_dops : list dop :=
  [DQueue (Resume 0); DCall (ex_call TStart 1%N) false true 0; DCall (ex_call TBoot 2%N) false true 0; DCall (ex_call (TOther 4%N) 3%N) true true 0;
   DQueue (Work 1 true); DQueue (RecvResult 2%N 0%N); DQueue (Work 2 true); DQueue (RecvResult 3%N 0%N); DQueue (Work 3 true)].
Example quiet_before_acceptance_ex : not_accepted ex_dops /\
  sent_ids (snd (drun (Station false (fresh ex_cfg)) ex_dops)) = [2; 3]%N /\ map m_id (s_tq (d_q (fst (drun (Station false (fresh ex_cfg)) ex_dops)))) = [1]%N.
Proof. split; [sched|]. split; vm_compute; reflexivity. Qed.

(** The queue is not told when the CSMS withdraws the registration: stalled messages still go out. *)
Theorem withdrawn_registration_refuted :
  exists c ds1 ds2 m, not_accepted ds2 /\ d_reg (fst (drun (Station false (fresh c)) ds1)) = false /\
    In (OSend m true) (snd (drun (fst (drun (Station false (fresh c)) ds1)) ds2)) /\ m_stall m = true /\ m_type m <> TBoot /\ triggered_ids ds2 = [].
Proof.
  exists ex_cfg, [DQueue (Resume 0); DReg true; DQueue Accept; DReg false; DCall (ex_call TStart 1%N) false false 0], [DQueue (Work 1 true)].
  eexists. split; [sched|]. split; [reflexivity|]. split; [vm_compute; left; reflexivity|]. repeat split. discriminate.
Qed.
Print Assumptions withdrawn_registration_refuted.

(** ** C07 *)

Theorem push_and_size_policy s p k :
  pushed_call p = Some k -> s_dead s = false -> s_running s = true -> 0 <= c_thr (s_cfg s) ->
  (transactional (c_ver (s_cfg s)) (k_type k) = true \/ s_paused s = false \/ s_resuming s = true \/ k_type k = TBoot \/
   (c_qall (s_cfg s) = true /\ ~ In (k_type k) (c_discard (s_cfg s)))) ->
  let s' := fst (step s p) in
  let thr := c_thr (s_cfg s) in
  let v := c_ver (s_cfg s) in
  exists m nq tq dn dt,
    m_type m = k_type k /\ m_id m = k_id k /\ m_init m = k_id k /\ m_att m = 0 /\ m_upd m = k_upd k /\ m_tx m = k_tx k /\
    m_body m = k_body k /\ m_h m = s_gh s /\ s_gh s' = (s_gh s + 1)%N /\
    (if transactional v (k_type k) then tq = s_tq s ++ [m] /\ nq = s_nq s
     else tq = s_tq s /\ nq = match k_type k with TBoot => m :: s_nq s | _ => s_nq s ++ [m] end) /\
    snd (step s p) = map (fun m => ODrop m DropOverflow) (dn ++ dt) /\
    nq = dn ++ s_nq s' /\
    subseq (s_tq s') tq /\ Permutation (s_tq s' ++ dt) tq /\ Forall (update_msg v) dt /\
    (Z.of_nat (length nq) + Z.of_nat (length tq) <= thr -> dn = [] /\ dt = []) /\
    (dt <> [] -> s_nq s' = []) /\
    (total s' <= thr \/
     (s_nq s' = [] /\ forall a m b, s_tq s' = a ++ m :: b -> update_msg v m -> (length b <= 1)%nat)) /\
    (dn <> [] -> thr < Z.of_nat (length (s_nq s')) + Z.of_nat (length tq) + Z.max (thr / 10) 1) /\
    (forall a b, tq = a ++ b -> (length b <= 2)%nat -> exists a', s_tq s' = a' ++ b) /\
    s_fl s' = s_fl s.
Proof. exact (push_policy s p k). Qed.
Print Assumptions push_and_size_policy.
Definition ex_small : cfg := Cfg V16 3 0 2 false [] 30 60.
Definition ex_full : st := final (fresh ex_small) [Push (ex_call TStart 1%N) 0 false; Push (ex_call TMeter 2%N) 0 false].
Example push_and_size_policy_ex : s_dead ex_full = false /\ s_running ex_full = true /\ 0 <= c_thr (s_cfg ex_full) /\
  map m_id (s_tq (final ex_full [Push (ex_call TMeter 3%N) 0 false; Push (ex_call TStop 4%N) 0 false])) = [1; 3; 4]%N.
Proof. repeat split; try (vm_compute; reflexivity). vm_compute. discriminate. Qed.
Theorem refused_push s k now stall : s_dead s = false ->
  (s_running s = false \/
   (transactional (c_ver (s_cfg s)) (k_type k) = false /\ s_paused s = true /\ s_resuming s = false /\ k_type k <> TBoot /\
    ~ (c_qall (s_cfg s) = true /\ ~ In (k_type k) (c_discard (s_cfg s))))) ->
  let s' := fst (step s (Push k now stall)) in
  snd (step s (Push k now stall)) = [] /\ s_nq s' = s_nq s /\ s_tq s' = s_tq s /\ s_dbn s' = s_dbn s /\ s_dbt s' = s_dbt s.
Proof. exact (push_ignored s k now stall). Qed.
Print Assumptions refused_push.
Example refused_push_ex : s_dead ex_full = false /\ s_paused ex_full = true /\ s_resuming ex_full = false /\
  s_nq (fst (step ex_full (Push (ex_call (TOther 1%N) 9%N) 1 false))) = [].
Proof. repeat split. Qed.

(** ** C08 *)

Theorem failed_send_keeps_retryable s now m l :
  s_dead s = false -> snd (step s (Work now false)) = OSend m false :: l -> retryable (s_cfg s) (m_type m) ->
  l = [] /\ s_paused (fst (step s (Work now false))) = true /\ s_fl (fst (step s (Work now false))) = None /\
  exists x kept, same_message m x /\ m_init kept = m_init m /\ m_id kept = m_id m /\ m_h kept = m_h m /\ m_type kept = m_type m /\ m_body kept = m_body m /\
    m_att kept = m_att x + 1 /\ m_ts kept = m_ts x /\ m_tx kept = m_tx m /\
    (m_type m = TEvent -> c_ver (s_cfg s) = V2 -> m_off kept = true) /\
    ((exists pre post, s_nq s = pre ++ x :: post /\ s_nq (fst (step s (Work now false))) = pre ++ kept :: post /\
        s_tq (fst (step s (Work now false))) = s_tq s) \/
     (exists rest, s_tq s = x :: rest /\ s_tq (fst (step s (Work now false))) = kept :: rest /\
        s_nq (fst (step s (Work now false))) = s_nq s)).
Proof. exact (failed_send_kept s now m l). Qed.
Print Assumptions failed_send_keeps_retryable.
Example failed_send_keeps_retryable_ex : exists m, snd (step ex_idle (Work 6 false)) = [OSend m false] /\ retryable (s_cfg ex_idle) (m_type m).
Proof. eexists. split; [vm_compute; reflexivity|left; reflexivity]. Qed.

(** Missing for the full C08: the case in which a message that may not be sent yet stands before the one transmitted;
    there the claim is false ([failed_send_drops_other_refuted]). *)
Theorem failed_send_drops_partial c os now m l x rest :
  same_version (c_ver c) os -> NoDup (pushes (c_ver c) os) ->
  let s := final (fresh c) os in
  s_dead s = false -> snd (step s (Work now false)) = OSend m false :: l -> ~ retryable (s_cfg s) (m_type m) ->
  s_nq s = x :: rest -> first_ready s now x -> ~ In (m_h x) (s_done s) ->
  same_message m x /\ l = [OPromise (m_h m) POffline; ODrop m DropOffline] /\
  s_nq (fst (step s (Work now false))) = rest /\ s_tq (fst (step s (Work now false))) = s_tq s /\
  s_paused (fst (step s (Work now false))) = true /\ s_fl (fst (step s (Work now false))) = None.
Proof. exact (failed_send_dropped_reachable c os now m l x rest). Qed.
Print Assumptions failed_send_drops_partial.
Example failed_send_drops_ex : let s := final (fresh ex_cfg) [Accept; Resume 0; Push (ex_call (TOther 1%N) 1%N) 0 false; Push (ex_call (TOther 2%N) 2%N) 0 false] in
  exists m x rest, snd (step s (Work 1 false)) = OSend m false :: [OPromise 0%N POffline; ODrop m DropOffline] /\ s_nq s = x :: rest /\ first_ready s 1 x /\ map m_id rest = [2%N].
Proof.
  cbn zeta. do 3 eexists. split; [vm_compute; reflexivity|]. split; [vm_compute; reflexivity|]. split; [|reflexivity].
  exists [], [Msg 1%N (TOther 2%N) 2%N 2%N 0 0 false false None false 7%N]. split; [vm_compute; reflexivity|]. split; [split; [intros _; reflexivity|vm_compute; discriminate]|constructor].
Qed.
Theorem failed_send_drops_other_refuted :
  exists c os now m x, snd (step (final (fresh c) os) (Work now false)) = [OSend m false; OPromise (m_h m) POffline; ODrop x DropOffline] /\
    m_init x <> m_init m /\ m_type x = TBoot /\
    map m_init (s_nq (fst (step (final (fresh c) os) (Work now false)))) = [m_init m].
Proof.
  exists ex_cfg, [Resume 0; Push (ex_call TBoot 1%N) 0 false; Work 1 true; RecvErr 1%N 9%N 2; Push (ex_call (TOther 2%N) 2%N) 3 false], 3,
    (Msg 1%N (TOther 2%N) 2%N 2%N 1 3 false false None false 7%N), (Msg 0%N TBoot 9%N 1%N 1 60 false false None false 7%N).
  split; [vm_compute; reflexivity|]. repeat split. discriminate.
Qed.
Print Assumptions failed_send_drops_other_refuted.

(** ** C09 *)

Theorem response_completes s m body :
  s_dead s = false -> s_fl s = Some m -> ~ In (m_h m) (s_done s) ->
  let s' := fst (step s (RecvResult (m_id m) body)) in
  snd (step s (RecvResult (m_id m) body)) = [OPromise (m_h m) (PResult (m_id m) body)] /\
  s_fl s' = None /\ s_armed s' = None /\ s_nq s' = s_nq s /\ s_tq s' = s_tq s /\ s_next s' = None /\
  (if transactional (c_ver (s_cfg s)) (m_type m)
   then s_dbt s' = filter (fun r => negb (N.eqb (r_uid r) (m_init m))) (s_dbt s)
   else s_dbt s' = s_dbt s) /\
  (transactional (c_ver (s_cfg s)) (m_type m) = false -> c_qall (s_cfg s) = true -> ~ In (m_type m) (c_discard (s_cfg s)) ->
   s_dbn s' = filter (fun r => negb (N.eqb (r_uid r) (m_init m))) (s_dbn s)).
Proof. exact (response_matched s m body). Qed.
Print Assumptions response_completes.
Theorem response_of_other_id s id : s_dead s = false -> (forall m, s_fl s = Some m -> m_id m <> id) ->
  (forall body, step s (RecvResult id body) = (set_s_next None s, [])) /\
  (forall newid now, step s (RecvErr id newid now) = (set_s_next None s, [])) /\
  step s (RecvErrBegin id) = (set_s_next None s, []).
Proof. exact (response_unmatched s id). Qed.
Print Assumptions response_of_other_id.
Theorem result_only_for_its_call s o h id body : In (OPromise h (PResult id body)) (snd (step s o)) ->
  o = RecvResult id body /\ exists m, s_fl s = Some m /\ m_id m = id /\ m_h m = h.
Proof. exact (result_only_from_match s o h id body). Qed.
Print Assumptions result_only_for_its_call.
Example response_ex : s_dead ex_flight = false /\ (exists m, s_fl ex_flight = Some m /\ m_id m = 1%N /\ ~ In (m_h m) (s_done ex_flight)) /\
  snd (step ex_flight (RecvResult 1%N 77%N)) = [OPromise 0%N (PResult 1%N 77%N)] /\ snd (step ex_flight (RecvResult 2%N 77%N)) = [].
Proof. split; [reflexivity|]. split; [eexists; split; [vm_compute; reflexivity|split; [reflexivity|vm_compute; tauto]]|]. split; vm_compute; reflexivity. Qed.

Theorem promise_set_at_most_once c os : NoDup (promises (outs (trace (fresh c) os))).
Proof. exact (promise_at_most_once c os). Qed.
Print Assumptions promise_set_at_most_once.
Theorem promise_accounted c os1 k now os2 :
  let os := os1 ++ PushAsync k now :: os2 in
  let h := s_gh (final (fresh c) os1) in
  serial os -> no_restart os -> orderly (fresh c) os ->
  s_dead (final (fresh c) os) = false /\
  (pending (final (fresh c) os) h \/ In h (promises (outs (trace (fresh c) os))) \/ In h (overflowed (outs (trace (fresh c) os)))).
Proof. exact (promise_kept c os1 k now os2). Qed.
Print Assumptions promise_accounted.
Example promise_accounted_ex :
  let os := [Accept; Resume 0] ++ PushAsync (ex_call (TOther 1%N) 1%N) 0 :: [PushAsync (ex_call TStart 2%N) 0; Work 1 true; RecvResult 2%N 3%N; Work 2 false] in
  serial os /\ no_restart os /\ promises (outs (trace (fresh ex_cfg) os)) = [1; 0]%N.
Proof. cbn zeta. split; [sched|]. split; [sched|vm_compute; reflexivity]. Qed.

(** When failed transmissions are not orderly, the promise of a message can be set a second time: the answer to it
    raises std::future_error. *)
Theorem promise_set_twice_refuted :
  exists c os h, serial os /\ no_restart os /\ In (OPromiseErr h) (outs (trace (fresh c) os)).
Proof.
  exists ex_cfg, [Resume 0; Push (ex_call TBoot 1%N) 0 false; Work 1 true; RecvErr 1%N 9%N 2; Push (ex_call (TOther 2%N) 2%N) 3 false; Work 3 false;
    Resume 0; Work 4 true; RecvResult 2%N 5%N], 1%N.
  split; [sched|]. split; [sched|]. vm_compute. tauto.
Qed.
Print Assumptions promise_set_twice_refuted.

(** ** C10 *)

Theorem silent_after_pause c os1 os2 : no_resume os2 ->
  no_calls (outs (trace (final (fresh c) (os1 ++ [Pause])) os2)).
Proof. exact (silent_while_paused c os1 os2). Qed.
Print Assumptions silent_after_pause.
Theorem silent_before_first_resume c os : no_resume os -> no_calls (outs (trace (fresh c) os)).
Proof. exact (silent_at_start c os). Qed.
Print Assumptions silent_before_first_resume.
Theorem delayed_resume_waits c os1 d os2 :
  let s := final (fresh c) os1 in
  let s1 := fst (step s (Resume d)) in
  s_dead s = false -> s_paused s = true -> 0 < d -> (0 < s_ctr s)%N ->
  no_resume os2 -> Forall (fun o => o <> ResumeTimer (s_ctr s1)) os2 ->
  s_ctr s1 = (s_ctr s + 1)%N /\ In (s_ctr s1) (s_rt s1) /\ s_resuming s1 = true /\
  no_calls (outs (trace s1 os2)).
Proof. exact (silent_until_own_timer c os1 d os2). Qed.
Print Assumptions delayed_resume_waits.
Theorem delayed_resume_resumes s k : s_dead s = false -> s_ctr s = k -> In k (s_rt s) ->
  let s' := fst (step s (ResumeTimer k)) in s_paused s' = false /\ s_resuming s' = false.
Proof. exact (own_timer_resumes s k). Qed.
Print Assumptions delayed_resume_resumes.
Theorem resume_without_delay s d : s_dead s = false -> s_paused s = true -> d <= 0 \/ s_ctr s = 0%N ->
  s_paused (fst (step s (Resume d))) = false.
Proof. exact (immediate_resume s d). Qed.
Print Assumptions resume_without_delay.
Definition ex_run10 : list op := [Accept; Resume 0; Push (ex_call TStart 1%N) 0 false; Pause; Resume 10].
Example pause_ex :
  no_resume [ResumeTimer 3%N; Push (ex_call TStop 2%N) 1 false; Work 5 true] /\
  s_paused (final (fresh ex_cfg) ex_run10) = true /\ s_rt (final (fresh ex_cfg) ex_run10) = [3]%N /\ s_ctr (final (fresh ex_cfg) ex_run10) = 3%N /\
  sent_ids (outs (trace (final (fresh ex_cfg) (ex_run10 ++ [Pause])) [ResumeTimer 3%N; Work 5 true])) = [] /\
  sent_ids (outs (trace (final (fresh ex_cfg) ex_run10) [ResumeTimer 3%N; Work 5 true])) = [1]%N.
Proof. split; [sched|]. repeat split; vm_compute; reflexivity. Qed.

(** ** C51: a queued retry is woken up for *)

Theorem retry_timer_partial s o err newid now m os t :
  s_dead s = false -> failure_op s o err newid now -> s_fl s = Some m ->
  retryable (s_cfg s) (m_type m) -> m_att m < c_attempts (s_cfg s) ->
  no_failures os ->
  let ts := if 0 <? c_interval (s_cfg s) then m_ts m + c_interval (s_cfg s) * m_att m else now in
  let s2 := final (fst (step s o)) os in
  s_dead s2 = false -> ts <= t -> s_new (fst (step s2 (NotifyTimer t))) = true /\ s_nt s2 = Some ts.
Proof. exact (retry_timer_armed s o err newid now m os t). Qed.
Print Assumptions retry_timer_partial.
Example retry_timer_ex : failure_op (ex_flight_of TStart) (Timeout 9%N 31) None 9%N 31 /\ no_failures [Work 32 true; Pause; Resume 0].
Proof. split; [vm_compute; right; split; [reflexivity|]; split; [reflexivity|]; exists 31; split; [reflexivity|discriminate]|sched]. Qed.

(** There is only one such timer: a second failure re-arms it, and the retry it was armed for first is never sent
    although the connection is up and idle. *)
Theorem stranded_retry_refuted :
  exists c os m, In m (s_tq (final (fresh c) os)) /\ s_paused (final (fresh c) os) = false /\ s_fl (final (fresh c) os) = None /\
    s_acc (final (fresh c) os) = true /\ s_running (final (fresh c) os) = true /\
    forall ws, Forall (fun o => (exists t ok, o = Work t ok) \/ (exists t, o = NotifyTimer t)) ws ->
      no_calls (outs (trace (final (fresh c) os) ws)).
Proof.
  exists (Cfg V16 3 10 100 true [] 30 60),
    [Accept; Resume 0; Push (ex_call TStart 1%N) 0 false; Work 1 true; RecvErr 1%N 11%N 2; NotifyTimer 10; Work 10 true; RecvErr 11%N 12%N 11;
     Push (ex_call (TOther 1%N) 2%N) 11 false; Work 11 true; RecvErr 2%N 13%N 11; NotifyTimer 21; Work 21 true; RecvResult 13%N 0%N; Work 22 true].
  eexists. split; [vm_compute; left; reflexivity|]. do 4 (split; [vm_compute; reflexivity|]).
  intros ws Hw. set (s := final _ _). assert (E : forall o, (exists t ok, o = Work t ok) \/ (exists t, o = NotifyTimer t) -> step s o = (s, [])).
  { intros o [(t & ok & ->)|(t & ->)]; vm_compute; reflexivity. }
  clearbody s. induction Hw as [|o ws Ho Hw IH]; [constructor|]. cbn [trace]. rewrite (E o Ho). cbn [fst snd]. exact IH.
Qed.
Print Assumptions stranded_retry_refuted.

(** ** C52: the dispatchers *)

Theorem dispatch_table v acc qall k trig now :
  (acc = true \/ k_type k = TBoot \/ trig = true -> dispatch_call v acc qall k trig now = DPush (Push k now false)) /\
  (~ (acc = true \/ k_type k = TBoot \/ trig = true) -> transactional v (k_type k) = true \/ qall = true ->
     dispatch_call v acc qall k trig now = DPush (Push k now true)) /\
  (~ (acc = true \/ k_type k = TBoot \/ trig = true) -> ~ (transactional v (k_type k) = true \/ qall = true) ->
     dispatch_call v acc qall k trig now = DDiscard).
Proof. exact (dispatch_spec v acc qall k trig now). Qed.
Print Assumptions dispatch_table.
Theorem dispatch_async_table v acc qall k trig now :
  (acc = true \/ k_type k = TBoot \/ (trig = true /\ v = V16) -> dispatch_call_async v acc qall k trig now = DPush (PushAsync k now)) /\
  (~ (acc = true \/ k_type k = TBoot \/ (trig = true /\ v = V16)) -> dispatch_call_async v acc qall k trig now = DOffline).
Proof. exact (dispatch_async_spec v acc qall k trig now). Qed.
Print Assumptions dispatch_async_table.
(** A transactional message dispatched asynchronously before acceptance is neither queued nor stored. *)
Theorem async_transactional_discarded_refuted :
  exists c k, transactional (c_ver c) (k_type k) = true /\ s_running (fresh c) = true /\
    dstep (Station false (fresh c)) (DCallAsync k false true 0) = (Station false (fresh c), []).
Proof. exists ex_cfg, (ex_call TStart 1%N). repeat split. Qed.
Print Assumptions async_transactional_discarded_refuted.
