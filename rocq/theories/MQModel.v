(** Model of the OCPP message queue
    (include/ocpp/common/message_queue.hpp, lib/ocpp/v16/message_queue.cpp, lib/ocpp/v2/message_queue.cpp,
     lib/ocpp/common/database/database_handler_common.cpp and the two message dispatchers).

    Simplifications used throughout:
    - message ids are numbers (only equality of ids is used by the code; the id comparison of the code,
      [CiString::operator!=], is case sensitive, so equality of the abstracted strings);
    - a [ControlMessage] object is identified by a handle [m_h], standing for its address/promise;
    - time is a [Z]; [DateTime()] (now) is an argument of the operation that reads the clock;
    - one operation of [step] is one critical section of [message_mutex]; where the code gives up the mutex in the
      middle (receive of a CALLERROR, dispatch of the time-out timer) there are separate operations for the parts;
    - database statements succeed (their exceptions are caught and logged by the code). *)
From Coq Require Import List ZArith NArith Bool.
Import ListNotations.
Open Scope Z_scope.

(** The protocol version selects the template instance: lib/ocpp/v16/message_queue.cpp, lib/ocpp/v2/message_queue.cpp. *)
Inductive ver := V16 | V2.

(** Message types that the queue distinguishes (v16::MessageType / v2::MessageType); all others are [TOther]. *)
Inductive mtype :=
| TBoot | TStart | TStop | TMeter | TSecurity | TEvent | TOther (n : N).

(** operator== on the message type enumeration. *)
Definition mtype_eqb (a b : mtype) : bool :=
  match a, b with
  | TBoot, TBoot | TStart, TStart | TStop, TStop | TMeter, TMeter | TSecurity, TSecurity | TEvent, TEvent => true
  | TOther n, TOther m => N.eqb n m
  | _, _ => false
  end.

(** ControlMessage<M> (message_queue.hpp:63-83). [m_id] is message[MESSAGE_ID], [m_init] initial_unique_id, [m_att]
    message_attempts, [m_ts] timestamp, [m_upd] whether a TransactionEvent payload has eventType Updated, [m_tx]
    payload["transactionId"], [m_off] payload["offline"], [m_body] the rest of the payload. *)
Record msg := Msg {
  m_h : N; m_type : mtype; m_id : N; m_init : N; m_att : Z; m_ts : Z; m_stall : bool;
  m_upd : bool; m_tx : option Z; m_off : bool; m_body : N }.

(** A row of NORMAL_QUEUE / TRANSACTION_QUEUE (config/v16/core_migrations/1_up-initial.sql:55-61): UNIQUE_ID and the
    columns MESSAGE (the JSON text: [r_mid], [r_upd], [r_tx], [r_off], [r_body]), MESSAGE_TYPE, MESSAGE_ATTEMPTS,
    MESSAGE_TIMESTAMP. *)
Record row := Row {
  r_uid : N; r_type : mtype; r_mid : N; r_att : Z; r_ts : Z; r_upd : bool; r_tx : option Z; r_off : bool; r_body : N }.

(** MessageQueueConfig<M> (message_queue.hpp:27-49). *)
Record cfg := Cfg {
  c_ver : ver; c_attempts : Z; c_interval : Z; c_thr : Z; c_qall : bool; c_discard : list mtype;
  c_timeout : Z; c_bootretry : Z }.

(** MessageQueueConfig::check_queue (message_queue.hpp:46-48). *)
Definition check_queue (c : cfg) (t : mtype) : bool :=
  c_qall c && negb (existsb (mtype_eqb t) (c_discard c)).

(** is_transaction_message (v16/message_queue.cpp:19-23, v2/message_queue.cpp:10-13). *)
Definition is_tx (v : ver) (t : mtype) : bool :=
  match v, t with
  | V16, TStart | V16, TStop | V16, TMeter | V16, TSecurity => true
  | V2, TEvent | V2, TSecurity => true
  | _, _ => false
  end.

(** is_start_transaction_message (v16/message_queue.cpp:25-27, v2/message_queue.cpp:15-17). *)
Definition is_start (v : ver) (t : mtype) : bool :=
  match v, t with V16, TStart => true | _, _ => false end.

(** ControlMessage::is_transaction_update_message (v16/message_queue.cpp:33-35, v2/message_queue.cpp:23-29). *)
Definition is_update (v : ver) (m : msg) : bool :=
  match v, m_type m with
  | V16, TMeter => true
  | V2, TEvent => m_upd m
  | _, _ => false
  end.

(** MessageTransmissionPriority (message_queue.hpp:86-91). *)
Inductive priority := SendImmediately | SendAfterAccepted | Discard.

(** get_message_transmission_priority (message_queue.hpp:98-111). *)
Definition transmission_priority (boot triggered accepted txrel qall : bool) : priority :=
  if accepted || boot || triggered then SendImmediately
  else if txrel || qall then SendAfterAccepted
  else Discard.

(** allowed_to_send_message (message_queue.hpp:152-163). *)
Definition allowed (m : msg) (now : Z) (accepted : bool) : bool :=
  if m_stall m && negb accepted then false
  else if now <? m_ts m then false
  else true.

(** What is stored in a promise: the CALLRESULT with its payload, the CALLERROR, or the offline marker. *)
Inductive presult := PResult (id body : N) | PError (id : N) | POffline.

(** Why a message left the queue without having been answered (the EVLOG lines of the code). *)
Inductive dropreason := DropOverflow | DropAttempts | DropOffline | DropUnanswered.

(** Observable effects: calls of send_callback (527, 664, 683), of promise.set_value, of the retry callback
    (863), log lines for dropped messages, and undefined behaviour. *)
Inductive out :=
| OSend (m : msg) (ok : bool)      (* send_callback(CALL) and its result *)
| OReply (id : N)                  (* send_callback(CALLRESULT/CALLERROR) *)
| OPromise (h : N) (r : presult)   (* promise.set_value *)
| OPromiseErr (h : N)              (* set_value on a satisfied promise: std::future_error *)
| ODrop (m : msg) (why : dropreason)
| ORetry (new_id old_id : N)       (* start_transaction_message_retry_callback *)
| OUB.                             (* dereference of a null in_flight pointer *)

(** Members of MessageQueue (message_queue.hpp:167-212) plus the tables it owns.
    [s_alive]: the worker thread has not left its loop; [s_rt]: values of pause_resume_ctr captured by resume timer
    callbacks that have been scheduled; [s_armed]: deadline of
    in_flight_timeout_timer while it is running; [s_fired]: its callback was
    dispatched and waits for message_mutex; [s_errs]: receive() calls that released message_mutex before
    handle_timeout_or_callerror (message_queue.hpp:771-772); [s_nt]: target of notify_queue_timer; [s_done]: handles
    whose promise is satisfied; [s_gh]: next object handle; [s_dead]: the process has been terminated by an
    uncaught exception in the worker or timer thread, or by undefined behaviour. *)
Record st := St {
  s_cfg : cfg; s_nq : list msg; s_tq : list msg; s_fl : option msg;
  s_paused : bool; s_resuming : bool; s_running : bool; s_alive : bool; s_new : bool; s_acc : bool;
  s_next : option N; s_ctr : N; s_rt : list N; s_armed : option Z; s_fired : bool; s_errs : list N; s_nt : option Z;
  s_txmap : list (N * Z); s_mvmap : list (N * list N);
  s_dbn : list row; s_dbt : list row; s_gh : N; s_done : list N; s_dead : bool }.

(** Assignment to the member modelled by [s_cfg] (message_queue.hpp:168). *)
Definition set_s_cfg (v : _) (s : st) : st := {| s_cfg := v; s_nq := s_nq s; s_tq := s_tq s; s_fl := s_fl s; s_paused := s_paused s; s_resuming := s_resuming s; s_running := s_running s; s_alive := s_alive s; s_new := s_new s; s_acc := s_acc s; s_next := s_next s; s_ctr := s_ctr s; s_rt := s_rt s; s_armed := s_armed s; s_fired := s_fired s; s_errs := s_errs s; s_nt := s_nt s; s_txmap := s_txmap s; s_mvmap := s_mvmap s; s_dbn := s_dbn s; s_dbt := s_dbt s; s_gh := s_gh s; s_done := s_done s; s_dead := s_dead s |}.
(** Assignment to the member modelled by [s_nq] (message_queue.hpp:175). *)
Definition set_s_nq (v : _) (s : st) : st := {| s_cfg := s_cfg s; s_nq := v; s_tq := s_tq s; s_fl := s_fl s; s_paused := s_paused s; s_resuming := s_resuming s; s_running := s_running s; s_alive := s_alive s; s_new := s_new s; s_acc := s_acc s; s_next := s_next s; s_ctr := s_ctr s; s_rt := s_rt s; s_armed := s_armed s; s_fired := s_fired s; s_errs := s_errs s; s_nt := s_nt s; s_txmap := s_txmap s; s_mvmap := s_mvmap s; s_dbn := s_dbn s; s_dbt := s_dbt s; s_gh := s_gh s; s_done := s_done s; s_dead := s_dead s |}.
(** Assignment to the member modelled by [s_tq] (message_queue.hpp:173). *)
Definition set_s_tq (v : _) (s : st) : st := {| s_cfg := s_cfg s; s_nq := s_nq s; s_tq := v; s_fl := s_fl s; s_paused := s_paused s; s_resuming := s_resuming s; s_running := s_running s; s_alive := s_alive s; s_new := s_new s; s_acc := s_acc s; s_next := s_next s; s_ctr := s_ctr s; s_rt := s_rt s; s_armed := s_armed s; s_fired := s_fired s; s_errs := s_errs s; s_nt := s_nt s; s_txmap := s_txmap s; s_mvmap := s_mvmap s; s_dbn := s_dbn s; s_dbt := s_dbt s; s_gh := s_gh s; s_done := s_done s; s_dead := s_dead s |}.
(** Assignment to the member modelled by [s_fl] (message_queue.hpp:176). *)
Definition set_s_fl (v : _) (s : st) : st := {| s_cfg := s_cfg s; s_nq := s_nq s; s_tq := s_tq s; s_fl := v; s_paused := s_paused s; s_resuming := s_resuming s; s_running := s_running s; s_alive := s_alive s; s_new := s_new s; s_acc := s_acc s; s_next := s_next s; s_ctr := s_ctr s; s_rt := s_rt s; s_armed := s_armed s; s_fired := s_fired s; s_errs := s_errs s; s_nt := s_nt s; s_txmap := s_txmap s; s_mvmap := s_mvmap s; s_dbn := s_dbn s; s_dbt := s_dbt s; s_gh := s_gh s; s_done := s_done s; s_dead := s_dead s |}.
(** Assignment to the member modelled by [s_paused] (message_queue.hpp:181). *)
Definition set_s_paused (v : _) (s : st) : st := {| s_cfg := s_cfg s; s_nq := s_nq s; s_tq := s_tq s; s_fl := s_fl s; s_paused := v; s_resuming := s_resuming s; s_running := s_running s; s_alive := s_alive s; s_new := s_new s; s_acc := s_acc s; s_next := s_next s; s_ctr := s_ctr s; s_rt := s_rt s; s_armed := s_armed s; s_fired := s_fired s; s_errs := s_errs s; s_nt := s_nt s; s_txmap := s_txmap s; s_mvmap := s_mvmap s; s_dbn := s_dbn s; s_dbt := s_dbt s; s_gh := s_gh s; s_done := s_done s; s_dead := s_dead s |}.
(** Assignment to the member modelled by [s_resuming] (message_queue.hpp:183). *)
Definition set_s_resuming (v : _) (s : st) : st := {| s_cfg := s_cfg s; s_nq := s_nq s; s_tq := s_tq s; s_fl := s_fl s; s_paused := s_paused s; s_resuming := v; s_running := s_running s; s_alive := s_alive s; s_new := s_new s; s_acc := s_acc s; s_next := s_next s; s_ctr := s_ctr s; s_rt := s_rt s; s_armed := s_armed s; s_fired := s_fired s; s_errs := s_errs s; s_nt := s_nt s; s_txmap := s_txmap s; s_mvmap := s_mvmap s; s_dbn := s_dbn s; s_dbt := s_dbt s; s_gh := s_gh s; s_done := s_done s; s_dead := s_dead s |}.
(** Assignment to the member modelled by [s_running] (message_queue.hpp:184). *)
Definition set_s_running (v : _) (s : st) : st := {| s_cfg := s_cfg s; s_nq := s_nq s; s_tq := s_tq s; s_fl := s_fl s; s_paused := s_paused s; s_resuming := s_resuming s; s_running := v; s_alive := s_alive s; s_new := s_new s; s_acc := s_acc s; s_next := s_next s; s_ctr := s_ctr s; s_rt := s_rt s; s_armed := s_armed s; s_fired := s_fired s; s_errs := s_errs s; s_nt := s_nt s; s_txmap := s_txmap s; s_mvmap := s_mvmap s; s_dbn := s_dbn s; s_dbt := s_dbt s; s_gh := s_gh s; s_done := s_done s; s_dead := s_dead s |}.
(** Assignment to the member modelled by [s_alive] (message_queue.hpp:171). *)
Definition set_s_alive (v : _) (s : st) : st := {| s_cfg := s_cfg s; s_nq := s_nq s; s_tq := s_tq s; s_fl := s_fl s; s_paused := s_paused s; s_resuming := s_resuming s; s_running := s_running s; s_alive := v; s_new := s_new s; s_acc := s_acc s; s_next := s_next s; s_ctr := s_ctr s; s_rt := s_rt s; s_armed := s_armed s; s_fired := s_fired s; s_errs := s_errs s; s_nt := s_nt s; s_txmap := s_txmap s; s_mvmap := s_mvmap s; s_dbn := s_dbn s; s_dbt := s_dbt s; s_gh := s_gh s; s_done := s_done s; s_dead := s_dead s |}.
(** Assignment to the member modelled by [s_new] (message_queue.hpp:185). *)
Definition set_s_new (v : _) (s : st) : st := {| s_cfg := s_cfg s; s_nq := s_nq s; s_tq := s_tq s; s_fl := s_fl s; s_paused := s_paused s; s_resuming := s_resuming s; s_running := s_running s; s_alive := s_alive s; s_new := v; s_acc := s_acc s; s_next := s_next s; s_ctr := s_ctr s; s_rt := s_rt s; s_armed := s_armed s; s_fired := s_fired s; s_errs := s_errs s; s_nt := s_nt s; s_txmap := s_txmap s; s_mvmap := s_mvmap s; s_dbn := s_dbn s; s_dbt := s_dbt s; s_gh := s_gh s; s_done := s_done s; s_dead := s_dead s |}.
(** Assignment to the member modelled by [s_acc] (message_queue.hpp:186). *)
Definition set_s_acc (v : _) (s : st) : st := {| s_cfg := s_cfg s; s_nq := s_nq s; s_tq := s_tq s; s_fl := s_fl s; s_paused := s_paused s; s_resuming := s_resuming s; s_running := s_running s; s_alive := s_alive s; s_new := s_new s; s_acc := v; s_next := s_next s; s_ctr := s_ctr s; s_rt := s_rt s; s_armed := s_armed s; s_fired := s_fired s; s_errs := s_errs s; s_nt := s_nt s; s_txmap := s_txmap s; s_mvmap := s_mvmap s; s_dbn := s_dbn s; s_dbt := s_dbt s; s_gh := s_gh s; s_done := s_done s; s_dead := s_dead s |}.
(** Assignment to the member modelled by [s_next] (message_queue.hpp:188). *)
Definition set_s_next (v : _) (s : st) : st := {| s_cfg := s_cfg s; s_nq := s_nq s; s_tq := s_tq s; s_fl := s_fl s; s_paused := s_paused s; s_resuming := s_resuming s; s_running := s_running s; s_alive := s_alive s; s_new := s_new s; s_acc := s_acc s; s_next := v; s_ctr := s_ctr s; s_rt := s_rt s; s_armed := s_armed s; s_fired := s_fired s; s_errs := s_errs s; s_nt := s_nt s; s_txmap := s_txmap s; s_mvmap := s_mvmap s; s_dbn := s_dbn s; s_dbt := s_dbt s; s_gh := s_gh s; s_done := s_done s; s_dead := s_dead s |}.
(** Assignment to the member modelled by [s_ctr] (message_queue.hpp:197). *)
Definition set_s_ctr (v : _) (s : st) : st := {| s_cfg := s_cfg s; s_nq := s_nq s; s_tq := s_tq s; s_fl := s_fl s; s_paused := s_paused s; s_resuming := s_resuming s; s_running := s_running s; s_alive := s_alive s; s_new := s_new s; s_acc := s_acc s; s_next := s_next s; s_ctr := v; s_rt := s_rt s; s_armed := s_armed s; s_fired := s_fired s; s_errs := s_errs s; s_nt := s_nt s; s_txmap := s_txmap s; s_mvmap := s_mvmap s; s_dbn := s_dbn s; s_dbt := s_dbt s; s_gh := s_gh s; s_done := s_done s; s_dead := s_dead s |}.
(** Assignment to the member modelled by [s_rt] (message_queue.hpp:194). *)
Definition set_s_rt (v : _) (s : st) : st := {| s_cfg := s_cfg s; s_nq := s_nq s; s_tq := s_tq s; s_fl := s_fl s; s_paused := s_paused s; s_resuming := s_resuming s; s_running := s_running s; s_alive := s_alive s; s_new := s_new s; s_acc := s_acc s; s_next := s_next s; s_ctr := s_ctr s; s_rt := v; s_armed := s_armed s; s_fired := s_fired s; s_errs := s_errs s; s_nt := s_nt s; s_txmap := s_txmap s; s_mvmap := s_mvmap s; s_dbn := s_dbn s; s_dbt := s_dbt s; s_gh := s_gh s; s_done := s_done s; s_dead := s_dead s |}.
(** Assignment to the member modelled by [s_armed] (message_queue.hpp:190). *)
Definition set_s_armed (v : _) (s : st) : st := {| s_cfg := s_cfg s; s_nq := s_nq s; s_tq := s_tq s; s_fl := s_fl s; s_paused := s_paused s; s_resuming := s_resuming s; s_running := s_running s; s_alive := s_alive s; s_new := s_new s; s_acc := s_acc s; s_next := s_next s; s_ctr := s_ctr s; s_rt := s_rt s; s_armed := v; s_fired := s_fired s; s_errs := s_errs s; s_nt := s_nt s; s_txmap := s_txmap s; s_mvmap := s_mvmap s; s_dbn := s_dbn s; s_dbt := s_dbt s; s_gh := s_gh s; s_done := s_done s; s_dead := s_dead s |}.
(** Assignment to the member modelled by [s_fired] (message_queue.hpp:190). *)
Definition set_s_fired (v : _) (s : st) : st := {| s_cfg := s_cfg s; s_nq := s_nq s; s_tq := s_tq s; s_fl := s_fl s; s_paused := s_paused s; s_resuming := s_resuming s; s_running := s_running s; s_alive := s_alive s; s_new := s_new s; s_acc := s_acc s; s_next := s_next s; s_ctr := s_ctr s; s_rt := s_rt s; s_armed := s_armed s; s_fired := v; s_errs := s_errs s; s_nt := s_nt s; s_txmap := s_txmap s; s_mvmap := s_mvmap s; s_dbn := s_dbn s; s_dbt := s_dbt s; s_gh := s_gh s; s_done := s_done s; s_dead := s_dead s |}.
(** Assignment to the member modelled by [s_errs] (message_queue.hpp:771-772). *)
Definition set_s_errs (v : _) (s : st) : st := {| s_cfg := s_cfg s; s_nq := s_nq s; s_tq := s_tq s; s_fl := s_fl s; s_paused := s_paused s; s_resuming := s_resuming s; s_running := s_running s; s_alive := s_alive s; s_new := s_new s; s_acc := s_acc s; s_next := s_next s; s_ctr := s_ctr s; s_rt := s_rt s; s_armed := s_armed s; s_fired := s_fired s; s_errs := v; s_nt := s_nt s; s_txmap := s_txmap s; s_mvmap := s_mvmap s; s_dbn := s_dbn s; s_dbt := s_dbt s; s_gh := s_gh s; s_done := s_done s; s_dead := s_dead s |}.
(** Assignment to the member modelled by [s_nt] (message_queue.hpp:191). *)
Definition set_s_nt (v : _) (s : st) : st := {| s_cfg := s_cfg s; s_nq := s_nq s; s_tq := s_tq s; s_fl := s_fl s; s_paused := s_paused s; s_resuming := s_resuming s; s_running := s_running s; s_alive := s_alive s; s_new := s_new s; s_acc := s_acc s; s_next := s_next s; s_ctr := s_ctr s; s_rt := s_rt s; s_armed := s_armed s; s_fired := s_fired s; s_errs := s_errs s; s_nt := v; s_txmap := s_txmap s; s_mvmap := s_mvmap s; s_dbn := s_dbn s; s_dbt := s_dbt s; s_gh := s_gh s; s_done := s_done s; s_dead := s_dead s |}.
(** Assignment to the member modelled by [s_txmap] (message_queue.hpp:203). *)
Definition set_s_txmap (v : _) (s : st) : st := {| s_cfg := s_cfg s; s_nq := s_nq s; s_tq := s_tq s; s_fl := s_fl s; s_paused := s_paused s; s_resuming := s_resuming s; s_running := s_running s; s_alive := s_alive s; s_new := s_new s; s_acc := s_acc s; s_next := s_next s; s_ctr := s_ctr s; s_rt := s_rt s; s_armed := s_armed s; s_fired := s_fired s; s_errs := s_errs s; s_nt := s_nt s; s_txmap := v; s_mvmap := s_mvmap s; s_dbn := s_dbn s; s_dbt := s_dbt s; s_gh := s_gh s; s_done := s_done s; s_dead := s_dead s |}.
(** Assignment to the member modelled by [s_mvmap] (message_queue.hpp:208). *)
Definition set_s_mvmap (v : _) (s : st) : st := {| s_cfg := s_cfg s; s_nq := s_nq s; s_tq := s_tq s; s_fl := s_fl s; s_paused := s_paused s; s_resuming := s_resuming s; s_running := s_running s; s_alive := s_alive s; s_new := s_new s; s_acc := s_acc s; s_next := s_next s; s_ctr := s_ctr s; s_rt := s_rt s; s_armed := s_armed s; s_fired := s_fired s; s_errs := s_errs s; s_nt := s_nt s; s_txmap := s_txmap s; s_mvmap := v; s_dbn := s_dbn s; s_dbt := s_dbt s; s_gh := s_gh s; s_done := s_done s; s_dead := s_dead s |}.
(** Assignment to the member modelled by [s_dbn] (message_queue.hpp:169). *)
Definition set_s_dbn (v : _) (s : st) : st := {| s_cfg := s_cfg s; s_nq := s_nq s; s_tq := s_tq s; s_fl := s_fl s; s_paused := s_paused s; s_resuming := s_resuming s; s_running := s_running s; s_alive := s_alive s; s_new := s_new s; s_acc := s_acc s; s_next := s_next s; s_ctr := s_ctr s; s_rt := s_rt s; s_armed := s_armed s; s_fired := s_fired s; s_errs := s_errs s; s_nt := s_nt s; s_txmap := s_txmap s; s_mvmap := s_mvmap s; s_dbn := v; s_dbt := s_dbt s; s_gh := s_gh s; s_done := s_done s; s_dead := s_dead s |}.
(** Assignment to the member modelled by [s_dbt] (message_queue.hpp:169). *)
Definition set_s_dbt (v : _) (s : st) : st := {| s_cfg := s_cfg s; s_nq := s_nq s; s_tq := s_tq s; s_fl := s_fl s; s_paused := s_paused s; s_resuming := s_resuming s; s_running := s_running s; s_alive := s_alive s; s_new := s_new s; s_acc := s_acc s; s_next := s_next s; s_ctr := s_ctr s; s_rt := s_rt s; s_armed := s_armed s; s_fired := s_fired s; s_errs := s_errs s; s_nt := s_nt s; s_txmap := s_txmap s; s_mvmap := s_mvmap s; s_dbn := s_dbn s; s_dbt := v; s_gh := s_gh s; s_done := s_done s; s_dead := s_dead s |}.
(** Assignment to the member modelled by [s_gh] (message_queue.hpp:640). *)
Definition set_s_gh (v : _) (s : st) : st := {| s_cfg := s_cfg s; s_nq := s_nq s; s_tq := s_tq s; s_fl := s_fl s; s_paused := s_paused s; s_resuming := s_resuming s; s_running := s_running s; s_alive := s_alive s; s_new := s_new s; s_acc := s_acc s; s_next := s_next s; s_ctr := s_ctr s; s_rt := s_rt s; s_armed := s_armed s; s_fired := s_fired s; s_errs := s_errs s; s_nt := s_nt s; s_txmap := s_txmap s; s_mvmap := s_mvmap s; s_dbn := s_dbn s; s_dbt := s_dbt s; s_gh := v; s_done := s_done s; s_dead := s_dead s |}.
(** Assignment to the member modelled by [s_done] (message_queue.hpp:67). *)
Definition set_s_done (v : _) (s : st) : st := {| s_cfg := s_cfg s; s_nq := s_nq s; s_tq := s_tq s; s_fl := s_fl s; s_paused := s_paused s; s_resuming := s_resuming s; s_running := s_running s; s_alive := s_alive s; s_new := s_new s; s_acc := s_acc s; s_next := s_next s; s_ctr := s_ctr s; s_rt := s_rt s; s_armed := s_armed s; s_fired := s_fired s; s_errs := s_errs s; s_nt := s_nt s; s_txmap := s_txmap s; s_mvmap := s_mvmap s; s_dbn := s_dbn s; s_dbt := s_dbt s; s_gh := s_gh s; s_done := v; s_dead := s_dead s |}.
(** Assignment to the member modelled by [s_dead] (message_queue.hpp:418). *)
Definition set_s_dead (v : _) (s : st) : st := {| s_cfg := s_cfg s; s_nq := s_nq s; s_tq := s_tq s; s_fl := s_fl s; s_paused := s_paused s; s_resuming := s_resuming s; s_running := s_running s; s_alive := s_alive s; s_new := s_new s; s_acc := s_acc s; s_next := s_next s; s_ctr := s_ctr s; s_rt := s_rt s; s_armed := s_armed s; s_fired := s_fired s; s_errs := s_errs s; s_nt := s_nt s; s_txmap := s_txmap s; s_mvmap := s_mvmap s; s_dbn := s_dbn s; s_dbt := s_dbt s; s_gh := s_gh s; s_done := s_done s; s_dead := v |}.


(** ------------------------------------------------------------------ *)
(** * Database tables *)

(** The row written for a message (message_queue.hpp:254-256, 274-276; database_handler_common.cpp:85-105). *)
Definition row_of (m : msg) : row :=
  Row (m_id m) (m_type m) (m_id m) (m_att m) (m_ts m) (m_upd m) (m_tx m) (m_off m) (m_body m).

(** INSERT INTO ... (database_handler_common.cpp:85-105): UNIQUE_ID is the primary key, so a second insert of the same
    id fails and is only logged. *)
Definition db_insert (t : list row) (m : msg) : list row :=
  if existsb (fun r => N.eqb (r_uid r) (m_id m)) t then t else t ++ [row_of m].

(** DELETE ... WHERE UNIQUE_ID = @unique_id (database_handler_common.cpp:107-118). *)
Definition db_remove (t : list row) (id : N) : list row :=
  filter (fun r => negb (N.eqb (r_uid r) id)) t.

(** ControlMessage rebuilt from a row (message_queue.hpp:603-607). *)
Definition msg_of_row (h : N) (r : row) : msg :=
  Msg h (r_type r) (r_mid r) (r_mid r) (r_att r) (r_ts r) true (r_upd r) (r_tx r) (r_off r) (r_body r).

(** ------------------------------------------------------------------ *)
(** * Queue size policy *)

(** Conversion of the signed threshold to size_t in the comparisons of message_queue.hpp:290-291, 298-299, 304-305. *)
Definition thr_size (thr : Z) : Z := if thr <? 0 then thr + 2 ^ 64 else thr.

(** deque::size() (message_queue.hpp:290). *)
Definition qlen (l : list msg) : Z := Z.of_nat (length l).

(** "size > threshold" (message_queue.hpp:298-299). *)
Definition over (thr : Z) (nq tq : list msg) : bool := thr_size thr <? qlen tq + qlen nq.

(** drop_messages_from_normal_message_queue (message_queue.hpp:310-330): number of messages popped in one call;
    [(int)size()] is exact below 2^31 entries; integer division truncates towards zero. *)
Definition drop_count (thr : Z) (nq : list msg) : nat :=
  Z.to_nat (Z.min (qlen nq) (Z.max (Z.quot thr 10) 1)).

(** DELETEs issued for the popped messages (message_queue.hpp:318-327). *)
Definition remove_all (t : list row) (l : list msg) : list row :=
  fold_left (fun t m => db_remove t (m_init m)) l t.

(** First loop of check_queue_sizes (message_queue.hpp:298-302); the fuel [length nq] suffices because every pass pops
    at least one message (proved in MQProofs: [drop_normal_exit]). Result: remaining normal queue, popped messages. *)
Fixpoint drop_normal (fuel : nat) (thr : Z) (nq tq : list msg) : list msg * list msg :=
  match fuel with
  | O => (nq, [])
  | S k =>
      if over thr nq tq && negb (match nq with [] => true | _ => false end) then
        let n := drop_count thr nq in
        let '(nq', d) := drop_normal k thr (skipn n nq) tq in
        (nq', firstn n nq ++ d)
      else (nq, [])
  end.

(** One pass of drop_update_messages_from_transactional_message_queue (message_queue.hpp:338-363). Result: kept and
    dropped messages. "transaction_message_queue.size() > 1" refers to the messages behind the element. *)
Fixpoint drop_updates (v : ver) (flag : bool) (q : list msg) : list msg * list msg :=
  match q with
  | [] => ([], [])
  | m :: q' =>
      if flag && is_update v m && (1 <? qlen q')
      then let '(k, d) := drop_updates v false q' in (k, m :: d)
      else let '(k, d) := drop_updates v true q' in (m :: k, d)
  end.

(** Second loop of check_queue_sizes (message_queue.hpp:304-307), repeated while something was dropped. *)
Fixpoint drop_tx (fuel : nat) (v : ver) (thr : Z) (nq tq : list msg) : list msg * list msg :=
  match fuel with
  | O => (tq, [])
  | S k =>
      if over thr nq tq then
        let '(tq', d) := drop_updates v true tq in
        match d with
        | [] => (tq', [])
        | _ => let '(tq'', d') := drop_tx k v thr nq tq' in (tq'', d ++ d')
        end
      else (tq, [])
  end.

(** check_queue_sizes (message_queue.hpp:289-308). *)
Definition check_sizes (s : st) : st * list out :=
  let c := s_cfg s in
  if over (c_thr c) (s_nq s) (s_tq s) then
    let '(nq', dn) := drop_normal (length (s_nq s)) (c_thr c) (s_nq s) (s_tq s) in
    let '(tq', dt) := drop_tx (S (length (s_tq s))) (c_ver c) (c_thr c) nq' (s_tq s) in
    let dbn' := if c_qall c then remove_all (s_dbn s) dn else s_dbn s in
    (set_s_nq nq' (set_s_tq tq' (set_s_dbn dbn' (set_s_dbt (remove_all (s_dbt s) dt) s))),
     map (fun m => ODrop m DropOverflow) (dn ++ dt))
  else (s, []).

(** ------------------------------------------------------------------ *)
(** * Pushing *)

(** add_to_normal_message_queue (message_queue.hpp:243-268). *)
Definition add_normal (m : msg) (s : st) : st * list out :=
  let nq := match m_type m with TBoot => m :: s_nq s | _ => s_nq s ++ [m] end in
  let dbn := if check_queue (s_cfg s) (m_type m) then db_insert (s_dbn s) m else s_dbn s in
  check_sizes (set_s_new true (set_s_dbn dbn (set_s_nq nq s))).

(** add_to_transaction_message_queue (message_queue.hpp:269-287). *)
Definition add_tx (m : msg) (s : st) : st * list out :=
  check_sizes (set_s_new true (set_s_dbt (db_insert (s_dbt s) m) (set_s_tq (s_tq s ++ [m]) s))).

(** What the application pushes: action, message id and payload. *)
Record call := Call { k_type : mtype; k_id : N; k_upd : bool; k_tx : option Z; k_body : N }.

(** ControlMessage::ControlMessage (v16/message_queue.cpp:10-17, v2/message_queue.cpp:31-38); [timestamp] is default
    constructed, i.e. now. *)
Definition mk_msg (h : N) (k : call) (now : Z) (stall : bool) : msg :=
  Msg h (k_type k) (k_id k) (k_id k) 0 now stall (k_upd k) (k_tx k) false (k_body k).

(** push_call (message_queue.hpp:635-657). *)
Definition push_call (k : call) (now : Z) (stall : bool) (s : st) : st * list out :=
  if negb (s_running s) then (s, [])
  else
    let m := mk_msg (s_gh s) k now stall in
    let s1 := set_s_gh (s_gh s + 1)%N s in
    if is_tx (c_ver (s_cfg s)) (k_type k) then add_tx m s1
    else if negb (s_paused s) || s_resuming s || check_queue (s_cfg s) (k_type k) || mtype_eqb (k_type k) TBoot
    then add_normal m s1
    else (s1, []).

(** promise.set_value: throws std::future_error when the promise is already satisfied (used at message_queue.hpp:544,
    704, 717, 791, 876, 880, 911, 915). *)
Definition resolvable (h : N) (s : st) : bool := negb (existsb (N.eqb h) (s_done s)).
(** The promise becomes satisfied (same lines). *)
Definition resolve (h : N) (s : st) : st := set_s_done (h :: s_done s) s.

(** push_call_async (message_queue.hpp:698-723). *)
Definition push_call_async (k : call) (now : Z) (s : st) : st * list out :=
  let m := mk_msg (s_gh s) k now false in
  let s1 := set_s_gh (s_gh s + 1)%N s in
  if negb (s_running s) then (resolve (m_h m) s1, [OPromise (m_h m) POffline])
  else if is_tx (c_ver (s_cfg s)) (k_type k) then add_tx m s1
  else if s_paused s && negb (check_queue (s_cfg s) (k_type k)) && negb (s_resuming s) && negb (mtype_eqb (k_type k) TBoot)
  then (resolve (m_h m) s1, [OPromise (m_h m) POffline])
  else add_normal m s1.

(** push_call_result / push_call_error (message_queue.hpp:660-675, 678-694). *)
Definition push_reply (id : N) (s : st) : st * list out :=
  if negb (s_running s) then (s, [])
  else
    let s1 := match s_next s with
              | Some n => if N.eqb n id then set_s_next None s else s
              | None => s
              end in
    (s1, [OReply id]).

(** ------------------------------------------------------------------ *)
(** * Worker thread *)

(** reset_in_flight (message_queue.hpp:781-784). *)
Definition reset_in_flight (s : st) : st := set_s_armed None (set_s_fl None s).

(** std::find_if over the normal queue (message_queue.hpp:455-459): the messages before the hit, the hit, the rest. *)
Fixpoint find_allowed (q : list msg) (now : Z) (acc : bool) : option (list msg * msg * list msg) :=
  match q with
  | [] => None
  | m :: q' =>
      if allowed m now acc then Some ([], m, q')
      else match find_allowed q' now acc with
           | Some (pre, x, post) => Some (m :: pre, x, post)
           | None => None
           end
  end.

(** Result of the selection of message_queue.hpp:450-501: the iterators as a split of the queue. *)
Inductive selection := SelNone | SelNormal (pre : list msg) (m : msg) (post : list msg) | SelTx (m : msg) (rest : list msg).

(** Selection of the message to send (message_queue.hpp:450-501). *)
Definition select (s : st) (now : Z) : selection :=
  let nsel := find_allowed (s_nq s) now (s_acc s) in
  let tsel :=
    match s_tq s with
    | [] => None
    | t :: rest =>
        if negb (allowed t now (s_acc s)) then None
        else match nsel with
             | None => Some (t, rest)
             | Some (_, n, _) =>
                 if mtype_eqb (m_type n) TBoot then None
                 else if m_ts t <=? m_ts n then Some (t, rest) else None
             end
    end in
  match tsel with
  | Some (t, rest) => SelTx t rest
  | None => match nsel with Some (pre, n, post) => SelNormal pre n post | None => SelNone end
  end.

(** std::map::count and std::map::at (message_queue.hpp:520-523, 1027-1028, 1044-1047). *)
Definition lookup {A} (k : N) (l : list (N * A)) : option A :=
  match find (fun p => N.eqb (fst p) k) l with Some p => Some (snd p) | None => None end.
(** std::map::erase by key (message_queue.hpp:524, 1056). *)
Definition remove_key {A} (k : N) (l : list (N * A)) : list (N * A) :=
  filter (fun p => negb (N.eqb (fst p) k)) l.

(** The object put in flight (message_queue.hpp:517-525): attempts + 1 and replacement of the transaction id. *)
Definition prepare (m : msg) (map : list (N * Z)) : msg :=
  let m := Msg (m_h m) (m_type m) (m_id m) (m_init m) (m_att m + 1) (m_ts m) (m_stall m) (m_upd m) (m_tx m) (m_off m) (m_body m) in
  match lookup (m_id m) map with
  | Some t => Msg (m_h m) (m_type m) (m_id m) (m_init m) (m_att m) (m_ts m) (m_stall m) (m_upd m) (Some t) (m_off m) (m_body m)
  | None => m
  end.

(** payload["offline"] = true for a TransactionEvent that could not be sent (message_queue.hpp:533-535). *)
Definition mark_offline (m : msg) : msg :=
  match m_type m with
  | TEvent => Msg (m_h m) (m_type m) (m_id m) (m_init m) (m_att m) (m_ts m) (m_stall m) (m_upd m) (m_tx m) true (m_body m)
  | _ => m
  end.

(** Both queues are empty (message_queue.hpp:429, 565). *)
Definition no_messages (s : st) : bool := match s_tq s, s_nq s with [], [] => true | _, _ => false end.

(** new_message is cleared when both queues are empty (message_queue.hpp:565-567). *)
Definition finish_iteration (s : st) : st :=
  if no_messages s then set_s_new false s else s.

(** Whether the message being sent is the one next_message_to_send waits for (message_queue.hpp:503-513). *)
Definition held_back (s : st) (m : msg) : bool :=
  match s_next s with Some n => negb (N.eqb n (m_id m)) | None => false end.

(** Sending the selected message, successful case (message_queue.hpp:549-564). *)
Definition sent_ok (sel : selection) (s : st) : st :=
  match sel with
  | SelTx _ rest => set_s_tq rest s
  | SelNormal pre _ post => set_s_nq (pre ++ post) s
  | SelNone => s
  end.

(** The selected object stays in its queue when sending failed, with its modified fields (the queue holds the same
    shared_ptr as in_flight). *)
Definition keep_modified (sel : selection) (m : msg) (s : st) : st :=
  match sel with
  | SelTx _ rest => set_s_tq (m :: rest) s
  | SelNormal pre _ post => set_s_nq (pre ++ m :: post) s
  | SelNone => s
  end.

(** The time-out armed for a transmitted message: current_message_timeout (message_queue.hpp:386-389). *)
Definition message_timeout (c : cfg) (m : msg) : Z := c_timeout c + c_interval c * m_att m.

(** Sending the selected message (message_queue.hpp:515-568). *)
Definition transmit (sel : selection) (m0 : msg) (now : Z) (ok : bool) (s : st) : st * list out :=
  let m := prepare m0 (s_txmap s) in
  let s1 := set_s_txmap (remove_key (m_id m) (s_txmap s)) s in
  if ok then
    (finish_iteration (set_s_armed (Some (now + message_timeout (s_cfg s) m)) (set_s_fl (Some m) (sent_ok sel s1))),
     [OSend m true])
  else
    let s2 := set_s_paused true s1 in
    if is_tx (c_ver (s_cfg s)) (m_type m) then
      (finish_iteration (reset_in_flight (keep_modified sel (mark_offline m) s2)), [OSend m false])
    else if check_queue (s_cfg s) (m_type m) then
      (finish_iteration (reset_in_flight (keep_modified sel m s2)), [OSend m false])
    else
      match sel with
      | SelNormal _ _ _ =>
          if resolvable (m_h m) s then
            let s3 := keep_modified sel m (resolve (m_h m) s2) in
            (* normal_message_queue.pop_front() (line 545): the front, not the selected message *)
            let dropped := match s_nq s3 with x :: _ => [ODrop x DropOffline] | [] => [] end in
            (finish_iteration (reset_in_flight (set_s_nq (tl (s_nq s3)) s3)),
             OSend m false :: OPromise (m_h m) POffline :: dropped)
          else (set_s_dead true s2, [OSend m false; OPromiseErr (m_h m)])
      | _ => (finish_iteration (reset_in_flight (keep_modified sel m s2)), [OSend m false])
      end.

(** The body of the worker loop after cv.wait returned (message_queue.hpp:429-568). [ok] is the result of
    send_callback. *)
Definition iterate (now : Z) (ok : bool) (s : st) : st * list out :=
  if no_messages s then (s, [])
  else if s_paused s then (s, [])
  else match s_fl s with
       | Some _ => (s, [])
       | None =>
           match select s now with
           | SelNone => (set_s_new false s, [])
           | SelNormal pre m post =>
               if held_back s m then (s, []) else transmit (SelNormal pre m post) m now ok s
           | SelTx m rest =>
               if held_back s m then (s, []) else transmit (SelTx m rest) m now ok s
           end
       end.

(** The predicate of cv.wait (message_queue.hpp:426-428). *)
Definition wake (s : st) : bool :=
  negb (s_running s) || (negb (s_paused s) && s_new s && match s_fl s with None => true | Some _ => false end).

(** One wake-up of the worker thread (message_queue.hpp:420-570). After the iteration the loop ends when [running] is
    false. *)
Definition work (now : Z) (ok : bool) (s : st) : st * list out :=
  if negb (s_alive s) then (s, [])
  else if negb (wake s) then (s, [])
  else let '(s', o) := iterate now ok s in (set_s_alive (s_running s') s', o).

(** ------------------------------------------------------------------ *)
(** * Responses and time-outs *)

(** handle_call_result (message_queue.hpp:786-817), called with in_flight = [m] and a matching id. *)
Definition handle_call_result (m : msg) (body : N) (s : st) : st * list out :=
  if resolvable (m_h m) s then
    let s1 := resolve (m_h m) s in
    let s2 :=
      if is_tx (c_ver (s_cfg s)) (m_type m) then set_s_dbt (db_remove (s_dbt s1) (m_init m)) s1
      else if check_queue (s_cfg s) (m_type m) then set_s_dbn (db_remove (s_dbn s1) (m_init m)) s1
      else s1 in
    (reset_in_flight s2, [OPromise (m_h m) (PResult (m_id m) body)])
  else (s, [OPromiseErr (m_h m)]).   (* future_error leaves receive() before reset_in_flight *)

(** A message that is queued again: new id and timestamp (message_queue.hpp:837-851 and 894-900). *)
Definition requeued (m : msg) (newid : N) (ts : Z) : msg :=
  Msg (m_h m) (m_type m) newid (m_init m) (m_att m) ts (m_stall m) (m_upd m) (m_tx m) (m_off m) (m_body m).

(** The promise value delivered when a message is given up (message_queue.hpp:875-881, 910-916). *)
Definition giveup (err : option N) : presult := match err with Some id => PError id | None => POffline end.

(** handle_timeout_or_callerror (message_queue.hpp:820-920). [err] carries the id of the CALLERROR, [newid] the result
    of create_message_id(). A null in_flight is dereferenced unconditionally (lines 825-829). *)
Definition handle_failure (err : option N) (newid : N) (now : Z) (s : st) : st * list out :=
  match s_fl s with
  | None => (set_s_dead true s, [OUB])
  | Some m =>
      let c := s_cfg s in
      let tx := is_tx (c_ver c) (m_type m) in
      if tx || check_queue c (m_type m) then
        if m_att m <? c_attempts c then
          let ts := if 0 <? c_interval c then m_ts m + c_interval c * m_att m else now in
          let m' := requeued m newid ts in
          let s1 := if tx then set_s_tq (m' :: s_tq s) s else set_s_nq (m' :: s_nq s) s in
          (reset_in_flight (set_s_nt (Some ts) s1),
           if is_start (c_ver c) (m_type m) then [ORetry newid (m_id m)] else [])
        else if resolvable (m_h m) s then
          let s1 := resolve (m_h m) s in
          let s2 := if tx then set_s_dbt (db_remove (s_dbt s1) (m_init m)) s1
                    else set_s_dbn (db_remove (s_dbn s1) (m_init m)) s1 in
          (reset_in_flight s2, [OPromise (m_h m) (giveup err); ODrop m DropAttempts])
        else (set_s_dead true s, [OPromiseErr (m_h m)])
      else if mtype_eqb (m_type m) TBoot then
        let ts := m_ts m + c_bootretry c in
        let m' := requeued m newid ts in
        (reset_in_flight (set_s_nt (Some ts) (set_s_nq (m' :: s_nq s) s)), [])
      else if resolvable (m_h m) s then
        (reset_in_flight (resolve (m_h m) s), [OPromise (m_h m) (giveup err); ODrop m DropUnanswered])
      else (set_s_dead true s, [OPromiseErr (m_h m)])
  end.

(** receive() of a CALL (message_queue.hpp:735-745). *)
Definition recv_call (id : N) (s : st) : st * list out := (set_s_next (Some id) s, []).

(** receive() of a CALLRESULT (message_queue.hpp:748-776). *)
Definition recv_result (id body : N) (s : st) : st * list out :=
  let s1 := set_s_next None s in
  match s_fl s with
  | None => (s1, [])
  | Some m => if N.eqb (m_id m) id then handle_call_result m body s1 else (s1, [])
  end.

(** receive() of a CALLERROR up to lk.unlock() (message_queue.hpp:748-771). *)
Definition recv_error_begin (id : N) (s : st) : st * list out :=
  let s1 := set_s_next None s in
  match s_fl s with
  | None => (s1, [])
  | Some m => if N.eqb (m_id m) id then (set_s_errs (s_errs s1 ++ [id]) s1, []) else (s1, [])
  end.

(** The rest of receive() of a CALLERROR (message_queue.hpp:772). *)
Definition recv_error_end (newid now : _) (s : st) : st * list out :=
  match s_errs s with
  | [] => (s, [])
  | id :: r => handle_failure (Some id) newid now (set_s_errs r s)
  end.

(** receive() of a CALLERROR when nothing interrupts it (message_queue.hpp:748-776). *)
Definition recv_error (id newid : N) (now : Z) (s : st) : st * list out :=
  let s1 := set_s_next None s in
  match s_fl s with
  | None => (s1, [])
  | Some m => if N.eqb (m_id m) id then handle_failure (Some id) newid now s1 else (s1, [])
  end.

(** The in-flight timer expires and its callback is dispatched (message_queue.hpp:551-552). *)
Definition timer_expire (now : Z) (s : st) : st * list out :=
  match s_armed s with
  | Some d => if d <=? now then (set_s_armed None (set_s_fired true s), []) else (s, [])
  | None => (s, [])
  end.

(** The dispatched callback obtains message_mutex (message_queue.hpp:551, 820-821). *)
Definition timer_run (newid now : _) (s : st) : st * list out :=
  if s_fired s then handle_failure None newid now (set_s_fired false s) else (s, []).

(** ------------------------------------------------------------------ *)
(** * Control operations *)

(** resume_now (message_queue.hpp:375-383). *)
Definition resume_now (expected : N) (s : st) : st :=
  if N.eqb (s_ctr s) expected then set_s_resuming false (set_s_paused false s) else s.

(** pause (message_queue.hpp:933-942); stopping the resume timer may come too late, so [s_rt] keeps the callback. The
    64-bit counter is modelled without wrap-around. *)
Definition pause (s : st) : st := set_s_resuming false (set_s_paused true (set_s_ctr (s_ctr s + 1)%N s)).

(** resume (message_queue.hpp:945-962). *)
Definition resume (delay : Z) (s : st) : st :=
  if negb (s_paused s) then s
  else
    let ctr := (s_ctr s + 1)%N in
    let s1 := set_s_ctr ctr s in
    if (1 <? ctr)%N && (0 <? delay) then set_s_rt (ctr :: s_rt s1) (set_s_resuming true s1)
    else resume_now ctr s1.

(** The resume timer callback with captured counter [k] (message_queue.hpp:957-958). *)
Definition resume_timer (k : N) (s : st) : st :=
  if existsb (N.eqb k) (s_rt s) then resume_now k (set_s_rt (filter (fun x => negb (N.eqb x k)) (s_rt s)) s) else s.

(** add_meter_value_message_id (message_queue.hpp:1025-1035). *)
Definition add_meter_id (start mv : N) (s : st) : st :=
  match lookup start (s_mvmap s) with
  | Some l => set_s_mvmap ((start, l ++ [mv]) :: remove_key start (s_mvmap s)) s
  | None => set_s_mvmap ((start, [mv]) :: s_mvmap s) s
  end.

(** message.at(3)["transactionId"] = transaction_id (message_queue.hpp:1051). *)
Definition set_tx (t : Z) (m : msg) : msg :=
  Msg (m_h m) (m_type m) (m_id m) (m_init m) (m_att m) (m_ts m) (m_stall m) (m_upd m) (Some t) (m_off m) (m_body m).

(** notify_start_transaction_handled (message_queue.hpp:1037-1057). *)
Definition start_handled (start : N) (t : Z) (s : st) : st :=
  let s1 :=
    match lookup start (s_mvmap s) with
    | Some l => set_s_tq (map (fun m => if existsb (N.eqb (m_id m)) l then set_tx t m else m) (s_tq s)) s
    | None => s
    end in
  set_s_mvmap (remove_key start (s_mvmap s1)) s1.

(** Handles given to the messages rebuilt at start-up. *)
Fixpoint number_rows (h : N) (rows : list row) : list msg :=
  match rows with [] => [] | r :: q => msg_of_row h r :: number_rows (h + 1)%N q end.

(** get_persisted_messages_from_db (message_queue.hpp:582-633); string_to_messagetype of the stored type is the
    identity on [mtype]. *)
Definition load_persisted (ignore_sec : bool) (s : st) : st :=
  let keep r := negb (ignore_sec && mtype_eqb (r_type r) TSecurity) in
  let nrows := filter keep (s_dbn s) in
  let trows := filter keep (s_dbt s) in
  let h1 := s_gh s in
  let h2 := (h1 + N.of_nat (length nrows))%N in
  let s1 := set_s_nq (s_nq s ++ number_rows h1 nrows) (set_s_tq (s_tq s ++ number_rows h2 trows) s) in
  let s2 := set_s_gh (h2 + N.of_nat (length trows))%N s1 in
  let s3 := match s_dbn s, s_dbt s with [], [] => s2 | _, _ => set_s_new true s2 end in
  set_s_dbt trows (set_s_dbn (if c_qall (s_cfg s) then nrows else []) s3).

(** The constructor and start() (message_queue.hpp:393-418) on existing tables. *)
Definition init (c : cfg) (dbn dbt : list row) (gh : N) (done : list N) : st :=
  St c [] [] None true false true true false false None 0%N [] None false [] None [] [] dbn dbt gh done false.

(** The operations: public member functions, timer callbacks and worker wake-ups (message_queue.hpp:391-1061). *)
Inductive op :=
| Push (k : call) (now : Z) (stall : bool)
| PushAsync (k : call) (now : Z)
| Reply (id : N)
| Work (now : Z) (ok : bool)
| RecvCall (id : N)
| RecvResult (id body : N)
| RecvErrBegin (id : N)
| RecvErrEnd (newid : N) (now : Z)
| RecvErr (id newid : N) (now : Z)        (* both parts without interruption *)
| TimerExpire (now : Z)
| TimerRun (newid : N) (now : Z)
| Timeout (newid : N) (now : Z)           (* both parts without interruption *)
| NotifyTimer (now : Z)
| Pause
| Resume (delay : Z)
| ResumeTimer (k : N)
| Accept                                   (* set_registration_status_accepted *)
| ResetNext                                (* reset_next_message_to_send *)
| AddStopped (id : N) (t : Z)
| AddMeter (start mv : N)
| StartHandled (start : N) (t : Z)
| SetAttempts (n : Z)
| SetInterval (n : Z)
| SetTimeout (n : Z)
| Stop
| Restart (c : cfg) (ignore_sec : bool).  (* process ends (stop, crash, power loss) and is started again *)

(** update_transaction_message_attempts (message_queue.hpp:1004-1006). *)
Definition set_attempts (n : Z) (c : cfg) := Cfg (c_ver c) n (c_interval c) (c_thr c) (c_qall c) (c_discard c) (c_timeout c) (c_bootretry c).
(** update_transaction_message_retry_interval (message_queue.hpp:1009-1011). *)
Definition set_interval (n : Z) (c : cfg) := Cfg (c_ver c) (c_attempts c) n (c_thr c) (c_qall c) (c_discard c) (c_timeout c) (c_bootretry c).
(** update_message_timeout (message_queue.hpp:1014-1016). *)
Definition set_timeout (n : Z) (c : cfg) := Cfg (c_ver c) (c_attempts c) (c_interval c) (c_thr c) (c_qall c) (c_discard c) n (c_bootretry c).

(** The public interface of MessageQueue (message_queue.hpp:391-1061) as a state machine. *)
Definition step (s : st) (o : op) : st * list out :=
  match o with
  | Restart c ig => (load_persisted ig (init c (s_dbn s) (s_dbt s) (s_gh s) (s_done s)), [])
  | _ =>
    if s_dead s then (s, [])
    else match o with
    | Push k now stall => push_call k now stall s
    | PushAsync k now => push_call_async k now s
    | Reply id => push_reply id s
    | Work now ok => work now ok s
    | RecvCall id => recv_call id s
    | RecvResult id body => recv_result id body s
    | RecvErrBegin id => recv_error_begin id s
    | RecvErrEnd newid now => recv_error_end newid now s
    | RecvErr id newid now =>
        recv_error id newid now s
    | TimerExpire now => timer_expire now s
    | TimerRun newid now => timer_run newid now s
    | Timeout newid now =>
        match s_armed s with
        | Some d => if d <=? now then handle_failure None newid now (set_s_armed None s) else (s, [])
        | None => (s, [])
        end
    | NotifyTimer now =>
        match s_nt s with
        | Some t => if t <=? now then (set_s_nt None (set_s_new true s), []) else (s, [])   (* lines 866-871 *)
        | None => (s, [])
        end
    | Pause => (pause s, [])
    | Resume d => (resume d s, [])
    | ResumeTimer k => (resume_timer k s, [])
    | Accept => (set_s_acc true s, [])                                                    (* lines 964-970 *)
    | ResetNext => (set_s_next None s, [])                                                (* lines 576-579 *)
    | AddStopped id t => (set_s_txmap ((id, t) :: remove_key id (s_txmap s)) s, [])        (* lines 1020-1023 *)
    | AddMeter a b => (add_meter_id a b s, [])
    | StartHandled a t => (start_handled a t s, [])
    | SetAttempts n => (set_s_cfg (set_attempts n (s_cfg s)) s, [])                        (* lines 1004-1006 *)
    | SetInterval n => (set_s_cfg (set_interval n (s_cfg s)) s, [])                        (* lines 1009-1011 *)
    | SetTimeout n => (set_s_cfg (set_timeout n (s_cfg s)) s, [])                          (* lines 1014-1016 *)
    | Stop => (set_s_running false s, [])                                                 (* lines 923-930 *)
    | Restart _ _ => (s, [])
    end
  end.

(** Runs of the state machine: final state and everything it emitted. *)
Fixpoint run (s : st) (os : list op) : st * list out :=
  match os with
  | [] => (s, [])
  | o :: q => let '(s1, t1) := step s o in let '(s2, t2) := run s1 q in (s2, t1 ++ t2)
  end.

(** ------------------------------------------------------------------ *)
(** * Dispatcher *)

(** What the dispatcher does with a CALL: hand it to the queue, or answer "offline" itself, or drop it. *)
Inductive dispatched := DPush (o : op) | DOffline | DDiscard.

(** MessageDispatcher::dispatch_call (v16/message_dispatcher.cpp:9-26, v2/message_dispatcher.cpp:9-26). [accepted] is
    registration_status == Accepted, [qall] the configured QueueAllMessages. *)
Definition dispatch_call (v : ver) (accepted qall : bool) (k : call) (triggered : bool) (now : Z) : dispatched :=
  match transmission_priority (mtype_eqb (k_type k) TBoot) triggered accepted (is_tx v (k_type k)) qall with
  | SendImmediately => DPush (Push k now false)
  | SendAfterAccepted => DPush (Push k now true)
  | Discard => DDiscard
  end.

(** MessageDispatcher::dispatch_call_async (v16/message_dispatcher.cpp:28-48; v2/message_dispatcher.cpp:28-48, which
    ignores its [triggered] argument). *)
Definition dispatch_call_async (v : ver) (accepted qall : bool) (k : call) (triggered : bool) (now : Z) : dispatched :=
  let trig := match v with V16 => triggered | V2 => false end in
  match transmission_priority (mtype_eqb (k_type k) TBoot) trig accepted (is_tx v (k_type k)) qall with
  | SendImmediately => DPush (PushAsync k now)
  | SendAfterAccepted | Discard => DOffline
  end.

(** The station: dispatcher (registration_status) and queue. Other queue operations are passed through. *)
Record station := Station { d_reg : bool; d_q : st }.

(** Operations of the station: dispatching a CALL, a change of registration_status (BootNotification response), any
    other operation on the queue (v16/message_dispatcher.cpp:9-48, v2/message_dispatcher.cpp:9-48). *)
Inductive dop :=
| DCall (k : call) (triggered qall : bool) (now : Z)
| DCallAsync (k : call) (triggered qall : bool) (now : Z)
| DReg (accepted : bool)
| DQueue (o : op).

(** One operation of the station (v16/message_dispatcher.cpp:9-48, v2/message_dispatcher.cpp:9-48). *)
Definition dstep (d : station) (o : dop) : station * list out :=
  let go r := match r with
              | DPush p => let '(q, t) := step (d_q d) p in (Station (d_reg d) q, t)
              | DOffline | DDiscard => (d, [])
              end in
  match o with
  | DCall k tr qa now => go (dispatch_call (c_ver (s_cfg (d_q d))) (d_reg d) qa k tr now)
  | DCallAsync k tr qa now => go (dispatch_call_async (c_ver (s_cfg (d_q d))) (d_reg d) qa k tr now)
  | DReg b => (Station b (d_q d), [])
  | DQueue o => let '(q, t) := step (d_q d) o in (Station (d_reg d) q, t)
  end.

(** Runs of the station. *)
Fixpoint drun (d : station) (os : list dop) : station * list out :=
  match os with
  | [] => (d, [])
  | o :: q => let '(d1, t1) := dstep d o in let '(d2, t2) := drun d1 q in (d2, t1 ++ t2)
  end.
