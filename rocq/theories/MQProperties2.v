(** Theorems about the message queue, continued (properties C56-C58): the reply to the CSMS goes first, transaction ids
    that become known late, stopping. *)
From Coq Require Import List ZArith NArith Bool Lia Permutation.
From Verif Require Import MQModel MQSpec MQProofs MQProofs5 MQProofs6 MQProofs7 MQProperties.
Import ListNotations.
Open Scope Z_scope.

(** ** C56: the reply to a CALL of the CSMS goes first *)

Theorem no_request_before_reply s id os m b : s_dead s = false -> reply_pending id os ->
  In (OSend m b) (outs (trace s (RecvCall id :: os))) -> m_id m = id.
Proof. exact (reply_first s id os m b). Qed.
Print Assumptions no_request_before_reply.

Definition ex_run_reply : list op := [Accept; Resume 0; Push (ex_call TStart 1%N) 0 false].
Example no_request_before_reply_ex :
  let s := final (fresh ex_cfg) ex_run_reply in
  reply_pending 77%N [Work 1 true; Push (ex_call TMeter 2%N) 1 false; Work 2 true] /\
  outs (trace s (RecvCall 77%N :: [Work 1 true; Push (ex_call TMeter 2%N) 1 false; Work 2 true])) = [] /\
  sent_ids (outs (trace s [Work 1 true; Push (ex_call TMeter 2%N) 1 false; Work 2 true])) = [1%N] /\
  sent_ids (outs (trace s [RecvCall 77%N; Work 1 true; Reply 77%N; Work 2 true])) = [1%N].
Proof. split; [sched|]. vm_compute. repeat split. Qed.

Theorem reply_goes_out s id : s_dead s = false -> s_running s = true ->
  snd (step s (Reply id)) = [OReply id] /\
  (s_next s = Some id -> s_next (fst (step s (Reply id))) = None) /\
  (forall n, s_next s = Some n -> n <> id -> s_next (fst (step s (Reply id))) = Some n) /\
  all_msgs (fst (step s (Reply id))) = all_msgs s.
Proof. exact (reply_releases s id). Qed.
Print Assumptions reply_goes_out.

(** A CALL arrives while [m] is due: the worker waits, the reply goes out, then [m] is transmitted. *)
Theorem request_after_reply s id m now ok : due s now m -> can_send s m -> s_running s = true -> m_id m <> id ->
  let s1 := fst (step s (RecvCall id)) in
  snd (step s1 (Work now ok)) = [] /\
  let s2 := fst (step s1 (Reply id)) in
  snd (step s1 (Reply id)) = [OReply id] /\
  exists m' l, snd (step s2 (Work now ok)) = OSend m' ok :: l /\ same_message m' m /\ no_calls l.
Proof. exact (reply_then_request s id m now ok). Qed.
Print Assumptions request_after_reply.

Example request_after_reply_ex :
  let s := final (fresh ex_cfg) ex_run_reply in
  exists m, due s 1 m /\ can_send s m /\ s_running s = true /\ m_id m <> 77%N.
Proof.
  cbn zeta. eexists. split; [apply due_tx with (rest := []); [vm_compute; reflexivity| |]|split; [|split]].
  - vm_compute. split; [discriminate|discriminate].
  - intros n (pre & post & E & _). vm_compute in E. destruct pre; discriminate.
  - vm_compute. repeat split; discriminate.
  - vm_compute. reflexivity.
  - vm_compute. discriminate.
Qed.

(** The wait is also ended by a CALLRESULT that answers nothing: the station then transmits a request although it still
    owes the reply. *)
Theorem unsolicited_result_ends_wait_refuted :
  exists c os m, In (OSend m true) (outs (trace (final (fresh c) os) [RecvCall 77%N; RecvResult 5%N 0%N; Work 1 true])) /\
    s_fl (final (fresh c) os) = None /\ m_id m <> 77%N.
Proof.
  exists ex_cfg, ex_run_reply. eexists. split; [vm_compute; left; reflexivity|]. split; [vm_compute; reflexivity|].
  vm_compute; discriminate.
Qed.
Print Assumptions unsolicited_result_ends_wait_refuted.

(** ** C57: transaction ids that become known after queueing *)

Theorem stop_transaction_gets_id s id t os : s_dead s = false -> (copies id s <= 1)%nat -> unregistered id s -> id_settled id os ->
  sent_with_tx id t (outs (trace s (AddStopped id t :: os))).
Proof. exact (stop_gets_tx s id t os). Qed.
Print Assumptions stop_transaction_gets_id.

(** Offline transaction: StartTransaction 1 and StopTransaction 2 are queued; the answer to 1 brings id 42; the first
    attempt to send 2 fails. *)
Definition ex_offline : list op :=
  [Accept; Push (ex_call TStart 1%N) 0 false; Push (ex_call TStop 2%N) 5 false; Resume 0; Work 6 true].
Definition ex_after : list op := [StartHandled 1%N 42; RecvResult 1%N 0%N; Work 7 false; Resume 0; Work 8 true].
Example stop_transaction_gets_id_ex :
  let s := final (fresh ex_cfg) ex_offline in
  s_dead s = false /\ copies 2%N s = 1%nat /\ unregistered 2%N s /\ id_settled 2%N ex_after /\
  map (fun x => match x with OSend m b => Some (m_id m, m_tx m, b) | _ => None end) (outs (trace s (AddStopped 2%N 42 :: ex_after)))
  = [None; Some (2%N, Some 42, false); Some (2%N, Some 42, true)].
Proof.
  split; [vm_compute; reflexivity|]. split; [vm_compute; reflexivity|].
  split; [intros a l H; vm_compute in H; destruct H|]. split; [sched|vm_compute; reflexivity].
Qed.

Theorem meter_values_get_id s start mv t os1 os2 :
  s_dead s = false -> registered_only_under mv start s -> meter_wait start mv os1 -> id_settled mv os2 ->
  let s1 := final s (AddMeter start mv :: os1) in
  s_dead s1 = false ->
  (forall m, s_fl s1 = Some m \/ In m (s_nq s1) -> m_id m <> mv) -> lookup mv (s_txmap s1) = None ->
  sent_with_tx mv t (outs (trace s1 (StartHandled start t :: os2))).
Proof. exact (meter_gets_tx s start mv t os1 os2). Qed.
Print Assumptions meter_values_get_id.

(** Two MeterValues of one transaction. *)
Definition ex_meter1 : list op :=
  [Push (ex_call TMeter 2%N) 1 false; AddMeter 1%N 3%N; Push (ex_call TMeter 3%N) 2 false; Resume 0; Work 6 true].
Definition ex_meter2 : list op := [RecvResult 1%N 0%N; Work 7 true; RecvResult 2%N 0%N; Work 8 true].
Example meter_values_get_id_ex :
  let s := final (fresh ex_cfg) [Accept; Push (ex_call TStart 1%N) 0 false] in
  s_dead s = false /\ registered_only_under 2%N 1%N s /\ meter_wait 1%N 2%N ex_meter1 /\ id_settled 2%N ex_meter2 /\
  let s1 := final s (AddMeter 1%N 2%N :: ex_meter1) in
  s_dead s1 = false /\ (forall m, s_fl s1 = Some m \/ In m (s_nq s1) -> m_id m <> 2%N) /\ lookup 2%N (s_txmap s1) = None /\
  map (fun x => match x with OSend m b => Some (m_id m, m_tx m, b) | _ => None end) (outs (trace s1 (StartHandled 1%N 42 :: ex_meter2)))
  = [None; Some (2%N, Some 42, true); None; Some (3%N, Some 42, true)].
Proof.
  cbn zeta. split; [vm_compute; reflexivity|]. split; [intros a l H; vm_compute in H; destruct H|].
  split; [sched|]. split; [sched|]. split; [vm_compute; reflexivity|].
  split; [|split; vm_compute; reflexivity].
  intros m [H|H]; vm_compute in H; [injection H as <-; discriminate|destruct H].
Qed.

(** The registration is by the message id of the StartTransaction; a retry gives it a new id and the MeterValues
    registered before go out without transaction id. *)
Theorem meter_values_lose_id_on_retry_refuted :
  exists c os m, serial os /\ no_restart os /\
    In (AddMeter 1%N 2%N) os /\ In (StartHandled 11%N 42) os /\
    In (OSend m true) (outs (trace (fresh c) os)) /\ m_id m = 2%N /\ m_tx m = None.
Proof.
  exists ex_cfg, [Accept; Push (ex_call TStart 1%N) 0 false; AddMeter 1%N 2%N; Push (ex_call TMeter 2%N) 1 false; Resume 0;
     Work 6 true; RecvErr 1%N 11%N 7; NotifyTimer 7; Work 8 true; StartHandled 11%N 42; RecvResult 11%N 0%N; Work 9 true].
  eexists. split; [sched|]. split; [sched|]. split; [do 2 right; left; reflexivity|].
  split; [do 9 right; left; reflexivity|]. split; [vm_compute; do 4 right; left; reflexivity|].
  split; vm_compute; reflexivity.
Qed.
Print Assumptions meter_values_lose_id_on_retry_refuted.

(** A restart forgets the transaction id that is already known for a queued StopTransaction. *)
Theorem stop_transaction_loses_id_on_restart_refuted :
  exists c os m, serial os /\ In (AddStopped 2%N 42) os /\
    In (OSend m true) (outs (trace (fresh c) os)) /\ m_id m = 2%N /\ m_tx m = None.
Proof.
  exists ex_cfg, (ex_offline ++ [AddStopped 2%N 42; StartHandled 1%N 42; RecvResult 1%N 0%N; Restart ex_cfg false; Accept; Resume 0; Work 9 true]).
  eexists. split; [sched|]. split; [do 5 right; left; reflexivity|].
  split; [vm_compute; do 2 right; left; reflexivity|]. split; vm_compute; reflexivity.
Qed.
Print Assumptions stop_transaction_loses_id_on_restart_refuted.

(** ** C58: stopping the queue *)

Theorem stopped_queue s os : s_dead s = false -> no_restart os ->
  let s' := final (fst (step s Stop)) os in
  (sends (outs (trace s (Stop :: os))) <= 1)%nat /\
  (forall k now stall, step s' (Push k now stall) = (s', [])) /\
  (forall id, step s' (Reply id) = (s', [])) /\
  (forall k now, s_dead s' = false ->
     snd (step s' (PushAsync k now)) = [OPromise (s_gh s') POffline] /\ all_msgs (fst (step s' (PushAsync k now))) = all_msgs s').
Proof. exact (after_stop s os). Qed.
Print Assumptions stopped_queue.

Example stopped_queue_ex :
  let s := final (fresh ex_cfg) [Accept; Resume 0; Push (ex_call TStart 1%N) 0 false; Push (ex_call TStop 2%N) 0 false] in
  s_dead s = false /\ no_restart [Work 1 true; RecvResult 1%N 0%N; Work 2 true] /\
  sends (outs (trace s [Work 1 true; RecvResult 1%N 0%N; Work 2 true])) = 2%nat /\
  sends (outs (trace s [Stop; Work 1 true; RecvResult 1%N 0%N; Work 2 true])) = 1%nat.
Proof. cbn zeta. split; [vm_compute; reflexivity|]. split; [sched|]. split; vm_compute; reflexivity. Qed.
