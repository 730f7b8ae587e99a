(** Specification vocabulary for the message queue; it refers to the model only through [step], [init] and the record
    projections. *)
From Coq Require Import List ZArith NArith Bool.
From Verif Require Import MQModel.
Import ListNotations.
Open Scope Z_scope.

(** ** Traces *)

Fixpoint trace (s : st) (os : list op) : list (op * list out) :=
  match os with
  | [] => []
  | o :: q => (o, snd (step s o)) :: trace (fst (step s o)) q
  end.

Fixpoint final (s : st) (os : list op) : st :=
  match os with [] => s | o :: q => final (fst (step s o)) q end.

Definition outs (t : list (op * list out)) : list out := flat_map snd t.

(** A queue that starts on an empty database. *)
Definition fresh (c : cfg) : st := init c [] [] 0%N [].

(** ** Lists *)

Inductive subseq {A} : list A -> list A -> Prop :=
| subseq_nil l : subseq [] l
| subseq_take x a b : subseq a b -> subseq (x :: a) (x :: b)
| subseq_skip x a b : subseq a b -> subseq a (x :: b).

(** [a] occurs before [b] in [l] (or is [b]). *)
Definition before {A} (l : list A) (a b : A) : Prop :=
  In a l /\ In b l /\ (a = b \/ exists l1 l2, l = l1 ++ a :: l2 /\ In b l2).

(** ** Messages *)

(** Which messages are transaction related (OCPP 1.6: StartTransaction, StopTransaction, MeterValues and the
    security whitepaper's SecurityEventNotification; OCPP 2.x: TransactionEvent, SecurityEventNotification). *)
Definition transactional (v : ver) (t : mtype) : bool :=
  match t with
  | TStart | TStop | TMeter => match v with V16 => true | V2 => false end
  | TEvent => match v with V16 => false | V2 => true end
  | TSecurity => true
  | TBoot | TOther _ => false
  end.

(** Update messages: measurements during a transaction. *)
Definition update_msg (v : ver) (m : msg) : Prop :=
  (v = V16 /\ m_type m = TMeter) \/ (v = V2 /\ m_type m = TEvent /\ m_upd m = true).

(** Ids of the transactional messages handed to the queue, in order. *)
Definition pushes (v : ver) (os : list op) : list N :=
  flat_map (fun o => match o with
                     | Push k _ _ | PushAsync k _ => if transactional v (k_type k) then [k_id k] else []
                     | _ => []
                     end) os.

(** All restarts keep the protocol version. *)
Definition same_version (v : ver) (os : list op) : Prop :=
  Forall (fun o => match o with Restart c _ => c_ver c = v | _ => True end) os.

(** Original ids of the transactional messages transmitted (successfully or not), in order. *)
Definition tx_sends (v : ver) (l : list out) : list N :=
  flat_map (fun x => match x with
                     | OSend m _ => if transactional v (m_type m) then [m_init m] else []
                     | _ => []
                     end) l.

(** Ids on the wire of the successfully transmitted CALLs. *)
Definition sent_ids (l : list out) : list N :=
  flat_map (fun x => match x with OSend m true => [m_id m] | _ => [] end) l.

(** The transactional messages the station still owes to the CSMS: the one in flight, then the queue. *)
Definition owed (v : ver) (s : st) : list msg :=
  match s_fl s with
  | Some m => if transactional v (m_type m) then [m] else []
  | None => []
  end ++ s_tq s.

(** What must survive a restart of a message: its original id, type and payload. *)
Definition msg_data (m : msg) : N * mtype * bool * N := (m_init m, m_type m, m_upd m, m_body m).
Definition row_data (r : row) : N * mtype * bool * N := (r_uid r, r_type r, r_upd r, r_body r).

(** ** Schedules *)

(** Schedules in which the receive thread and the timer thread are not interrupted between their critical sections. *)
Definition serial (os : list op) : Prop :=
  Forall (fun o => match o with
                   | RecvErrBegin _ | RecvErrEnd _ _ | TimerExpire _ | TimerRun _ _ => False
                   | _ => True
                   end) os.

(** ** C01: at most one unanswered CALL. [w] is the id that waits for an answer. *)
Definition answers (o : op) (id : N) : bool :=
  match o with
  | RecvResult i _ | RecvErr i _ _ | RecvErrBegin i => N.eqb i id
  | Timeout _ _ | TimerExpire _ | Restart _ _ => true
  | _ => false
  end.

Fixpoint one_outstanding (w : option N) (t : list (op * list out)) : Prop :=
  match t with
  | [] => True
  | (o, l) :: t' =>
      let w1 := match w with Some id => if answers o id then None else w | None => None end in
      match sent_ids l with
      | [] => one_outstanding w1 t'
      | [id] => w1 = None /\ one_outstanding (Some id) t'
      | _ => False
      end
  end.

(** ** C03: how a transactional message may legitimately leave the station. *)

(** A CALLRESULT arrived for a transmission of the message, after that transmission. *)
Definition answered (id : N) (t : list (op * list out)) : Prop :=
  exists m body t1 l t2,
    t = t1 ++ (RecvResult (m_id m) body, l) :: t2 /\ m_init m = id /\ In (OSend m true) (outs t1).

(** It was given up after [c_attempts] attempts, or was an update message dropped by the size policy. *)
Definition given_up (v : ver) (id : N) (t : list (op * list out)) : Prop :=
  exists m, m_init m = id /\
    (In (ODrop m DropAttempts) (outs t) \/ (In (ODrop m DropOverflow) (outs t) /\ update_msg v m)).

(** The restart was told to forget security events. *)
Definition security_forgotten (t : list (op * list out)) : Prop :=
  exists c l, In (Restart c true, l) t.

(** ** C05: number of transmissions. *)
Definition transmissions (id : N) (l : list out) : nat :=
  length (filter (fun x => match x with OSend m true => N.eqb (m_init m) id | _ => false end) l).

(** All configured attempt limits in the run are at most [n]. *)
Definition attempts_bounded (n : Z) (os : list op) : Prop :=
  Forall (fun o => match o with Restart c _ => c_attempts c <= n | SetAttempts k => k <= n | _ => True end) os.

Definition no_restart (os : list op) : Prop :=
  Forall (fun o => match o with Restart _ _ => False | _ => True end) os.

(** ** C08 *)
Definition promised_offline (h : N) (l : list out) : Prop := In (OPromise h POffline) l.

(** ** C10 *)
Definition no_resume (os : list op) : Prop :=
  Forall (fun o => match o with Resume _ | Restart _ _ => False | _ => True end) os.

Definition no_calls (l : list out) : Prop := Forall (fun x => match x with OSend _ _ => False | _ => True end) l.


(** Ids of all messages handed to the queue, transactional or not, in order. *)
Definition all_pushes (os : list op) : list N :=
  flat_map (fun o => match o with Push k _ _ | PushAsync k _ => [k_id k] | _ => [] end) os.

(** The message [id] is not a BootNotification (which has its own retry rule). *)
Definition not_boot (id : N) (os : list op) : Prop :=
  Forall (fun o => match o with Push k _ _ | PushAsync k _ => k_id k = id -> k_type k <> TBoot | _ => True end) os.

(** How often the message was handed to the websocket, successfully or not. *)
Definition handovers (id : N) (l : list out) : nat :=
  length (filter (fun x => match x with OSend m _ => N.eqb (m_init m) id | _ => false end) l).

(** ** What the worker transmits *)

(** The message may go out at [now]: not held for the acceptance of the BootNotification, and its time has come. *)
Definition ready (s : st) (now : Z) (m : msg) : Prop := (m_stall m = true -> s_acc s = true) /\ m_ts m <= now.

(** First ready message of the normal queue. *)
Definition first_ready (s : st) (now : Z) (m : msg) : Prop :=
  exists pre post, s_nq s = pre ++ m :: post /\ ready s now m /\ Forall (fun x => ~ ready s now x) pre.

(** The message the station must transmit next: the head of the transactional queue when it is ready and no ready
    normal message is a BootNotification or older; else the first ready normal message. *)
Inductive due (s : st) (now : Z) : msg -> Prop :=
| due_tx m rest : s_tq s = m :: rest -> ready s now m ->
    (forall n, first_ready s now n -> m_type n <> TBoot /\ m_ts m <= m_ts n) -> due s now m
| due_normal n : first_ready s now n ->
    (forall m rest, s_tq s = m :: rest -> ready s now m -> m_type n = TBoot \/ m_ts n < m_ts m) -> due s now n.

(** Identity and contents of a message on the wire; the transaction id may be filled in late. *)
Definition same_message (m m' : msg) : Prop :=
  m_h m = m_h m' /\ m_type m = m_type m' /\ m_id m = m_id m' /\ m_init m = m_init m' /\ m_upd m = m_upd m' /\
  m_body m = m_body m' /\ m_off m = m_off m' /\ m_ts m = m_ts m' /\ m_stall m = m_stall m'.

(** The worker can run: not stopped, not paused, nothing unanswered, woken up, and not waiting to answer the CSMS with a
    message of another id. *)
Definition can_send (s : st) (m : msg) : Prop :=
  s_dead s = false /\ s_alive s = true /\ s_paused s = false /\ s_fl s = None /\
  (s_running s = true -> s_new s = true) /\ (forall id, s_next s = Some id -> id = m_id m).

(** ** Failures *)

(** Messages that are queued again after a time-out or CALLERROR: transactional ones, and all but the configured
    exceptions if QueueAllMessages is set. *)
Definition retryable (c : cfg) (t : mtype) : Prop :=
  transactional (c_ver c) t = true \/ (c_qall c = true /\ ~ In t (c_discard c)).

(** ** C07 *)
Definition total (s : st) : Z := Z.of_nat (length (s_nq s)) + Z.of_nat (length (s_tq s)).

(** ** C09 *)
Definition promises (l : list out) : list N :=
  flat_map (fun x => match x with OPromise h _ => [h] | _ => [] end) l.

(** ** C06 *)
Definition triggered_ids (ds : list dop) : list N :=
  flat_map (fun d => match d with DCall k true _ _ | DCallAsync k true _ _ => [k_id k] | _ => [] end) ds.

Definition not_accepted (ds : list dop) : Prop :=
  Forall (fun d => match d with
                   | DReg b => b = false
                   | DQueue Accept | DQueue (Push _ _ _) | DQueue (PushAsync _ _) => False
                   | _ => True
                   end) ds.

(** Promises of messages the size policy removed. *)
Definition overflowed (l : list out) : list N :=
  flat_map (fun x => match x with ODrop m DropOverflow => [m_h m] | _ => [] end) l.

(** The promise of the message is still pending: the message is queued or waits for its answer. *)
Definition pending (s : st) (h : N) : Prop :=
  exists m, m_h m = h /\ (In m (s_nq s) \/ In m (s_tq s) \/ s_fl s = Some m).

(** Every failed transmission happens when nothing that is not ready stands before the transmitted message. *)
Definition orderly (s : st) (os : list op) : Prop :=
  forall pre now post, os = pre ++ Work now false :: post ->
    forall m, first_ready (final s pre) now m -> exists rest, s_nq (final s pre) = m :: rest.

(** The operation that reports the failure of the CALL in flight: its CALLERROR (carried on to the promise) or its
    time-out. *)
Definition failure_op (s : st) (o : op) (err : option N) (newid : N) (now : Z) : Prop :=
  match s_fl s with
  | None => False
  | Some m =>
    (o = RecvErr (m_id m) newid now /\ err = Some (m_id m)) \/
    (o = Timeout newid now /\ err = None /\ exists d, s_armed s = Some d /\ d <= now)
  end.

(** The call carried by a push. *)
Definition pushed_call (o : op) : option call :=
  match o with Push k _ _ | PushAsync k _ => Some k | _ => None end.

(** Operations that do not report a failure, do not restart and are not the retry timer itself. *)
Definition no_failures (os : list op) : Prop :=
  Forall (fun o => match o with
                   | RecvErr _ _ _ | RecvErrEnd _ _ | Timeout _ _ | TimerRun _ _ | NotifyTimer _ | Restart _ _ => False
                   | _ => True
                   end) os.

(** ** Replies before requests, transaction ids filled in later, stopping *)

(** Every message the queue holds: the one in flight and both queues. *)
Definition all_msgs (s : st) : list msg :=
  match s_fl s with Some m => [m] | None => [] end ++ s_nq s ++ s_tq s.

(** Nothing in the run ends the wait for the station's own reply to the CALL [id]: the reply is not pushed, nothing is
    received, the wait is not reset and the process is not restarted. *)
Definition reply_pending (id : N) (os : list op) : Prop :=
  Forall (fun o => match o with
                   | Reply i => i <> id
                   | RecvCall _ | RecvResult _ _ | RecvErr _ _ _ | RecvErrBegin _ | ResetNext | Restart _ _ => False
                   | _ => True
                   end) os.

(** Nothing in the run gives the id [id] to another message or registers it again; no restart. *)
Definition id_settled (id : N) (os : list op) : Prop :=
  Forall (fun o => match o with
                   | Push k _ _ | PushAsync k _ => k_id k <> id
                   | RecvErrEnd n _ | RecvErr _ n _ | TimerRun n _ | Timeout n _ => n <> id
                   | AddStopped i _ | AddMeter _ i => i <> id
                   | Restart _ _ => False
                   | _ => True
                   end) os.

(** Number of messages with id [id] in the queue. *)
Definition copies (id : N) (s : st) : nat := length (filter (fun m => N.eqb (m_id m) id) (all_msgs s)).

(** No StartTransaction waits for a transaction id on behalf of message [id]. *)
Definition unregistered (id : N) (s : st) : Prop := forall a l, In (a, l) (s_mvmap s) -> ~ In id l.
Definition registered_only_under (id start : N) (s : st) : Prop := forall a l, In (a, l) (s_mvmap s) -> In id l -> a = start.

(** All transmissions of message [id] carry transaction id [t]. *)
Definition sent_with_tx (id : N) (t : Z) (l : list out) : Prop :=
  forall m b, In (OSend m b) l -> m_id m = id -> m_tx m = Some t.

(** Number of CALLs handed to the websocket. *)
Definition sends (l : list out) : nat := length (filter (fun x => match x with OSend _ _ => true | _ => false end) l).

(** The MeterValues [mv] keeps waiting for the answer to StartTransaction [start]: [start] is not answered, [mv] is not
    registered for another StartTransaction, no restart. *)
Definition meter_wait (start mv : N) (os : list op) : Prop :=
  Forall (fun o => match o with
                   | StartHandled a _ => a <> start
                   | AddMeter a v => v = mv -> a = start
                   | Restart _ _ => False
                   | _ => True
                   end) os.
