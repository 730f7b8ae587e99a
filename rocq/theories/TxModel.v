(** Transactions, scheduled resets and changes of availability of an OCPP 2.x station.

    Model of
    - lib/ocpp/v2/transaction.cpp                     all of it
    - lib/ocpp/v2/evse.cpp                            constructor (48-72), try_resume_transaction (179-205),
                                                      delete_database_transaction (207-216), open_transaction (241-284),
                                                      close_transaction (286-311), has_active_transaction (322-337),
                                                      release_transaction (339-349)
    - lib/ocpp/v2/evse_manager.cpp                    all of it but does_connector_exist
    - lib/ocpp/v2/database_handler.cpp                the table TRANSACTIONS (662-760)
    - lib/ocpp/v2/functional_blocks/transaction.cpp   all of it but the meter values
    - lib/ocpp/v2/functional_blocks/availability.cpp  64-87, 97-168, 182-223
    - lib/ocpp/v2/functional_blocks/provisioning.cpp  handle_reset_req (455-537)
    - lib/ocpp/v2/functional_blocks/firmware_update.cpp 159-207
    - lib/ocpp/v2/functional_blocks/remote_transaction_control.cpp, the TransactionEvent case of handle_trigger_message
    - lib/ocpp/v2/charge_point.cpp                    on_authorized (234-254), on_charging_state_changed (338-362), the
                                                      TransactionEvent of the meter value timers (438-474)

    Simplifications. Transaction ids, id tokens, charging states and reasons are numbers. Meter values, pricing triggers,
    time stamps, timers, the offline flag and reservation ids are left out. Calls of the embedding application are
    outputs; it does not call back while a function of the library is running, and the functions run one after the other.
    A crash can happen before any durable effect (a statement on TRANSACTIONS, a call of the component state manager, an
    output), [w_budget]; SQL statements can fail, [w_fail]. The messages put out are the calls given to the message
    dispatcher; what becomes of them is the subject of [MQModel]. The component state manager is that of [CsmModel]. *)
From Coq Require Import ZArith List Bool.
From Verif Require CsmModel.
Import ListNotations.
Local Open Scope Z_scope.
Import CsmModel (opstat, Operative, Inoperative).

(** ocpp_enums.hpp: TransactionEventEnum, ResetEnum, and the values of TriggerReasonEnum the code names. *)
Inductive evkind := Started | Updated | Ended.
Inductive rtype := Immediate | OnIdle.
Inductive trig := RemoteStart | Authorized | Trigger | MeterClock | MeterPeriodic | StopAuthorized | OtherTrig (n : Z).
(** ResetStatusEnum and ChangeAvailabilityStatusEnum. *)
Inductive status := Accepted | Rejected | Scheduled.
(** The ReasonEnum values given to the stop transaction callback. *)
Inductive stop_reason := ImmediateReset | DeAuthorized.

(** ocpp_messages TransactionEventRequest: the parts kept. *)
Record txev := TxEv {
  v_kind : evkind; v_id : Z; v_seq : Z; v_trig : trig; v_cs : Z; v_reason : option Z; v_remote : option Z;
  v_evse : option (Z * Z); v_tok : option Z }.

(** EnhancedTransaction (include/ocpp/v2/transaction.hpp 16-50). *)
Record tx := Tx {
  t_id : Z; t_conn : Z; t_seq : Z; t_cs : Z; t_tok : bool; t_reason : option Z; t_remote : option Z; t_db : bool;
  t_max : bool }.

(** A row of TRANSACTIONS (config/v2/core_migrations/4_up-transactions_db.sql); TRANSACTION_ID and EVSE_ID are UNIQUE. *)
Record row := Row { r_id : Z; r_evse : Z; r_conn : Z; r_seq : Z; r_cs : Z; r_tok : bool }.

(** ChangeAvailabilityRequest: evse (id and optional connectorId) and operationalStatus. *)
Record areq := Areq { q_evse : option (Z * option Z); q_op : opstat }.

(** What leaves the library. [OAv]: callbacks of the component state manager. *)
Inductive out :=
| OTx (v : txev)
| OTxCallback (v : txev)
| OReset (e : option Z) (t : rtype)
| OResetResp (s : status)
| OStopTx (e : Z) (r : stop_reason)
| OPause (e : Z)
| OAvResp (s : status)
| OAv (o : CsmModel.out)
| OAllUnavailable
| OTxStatus (ongoing : option bool) (queued : bool)
| OTrigResp (s : status).

(** How far the current call has come: still running, left by an exception, or the process is gone. *)
Inductive progress := Running | Threw | Dead.

(** The station. *)
Record world := W {
  w_con : list Z;                         (* connectors per EVSE; EVSE ids are 1, 2, ... *)
  w_resume : bool;                        (* ResumeTransactionsOnBoot *)
  w_txcb : bool;                          (* transaction_event_callback is set *)
  w_allcb : bool;                         (* all_connectors_unavailable_callback is set *)
  w_rows : list row;                      (* the table TRANSACTIONS *)
  w_tx : Z -> option tx;                  (* Evse::transaction by EVSE id *)
  w_csm : CsmModel.st;                    (* the component state manager and its table *)
  w_rs : bool;                            (* reset_scheduled *)
  w_rids : list Z;                        (* reset_scheduled_evseids *)
  w_sched : list (Z * (areq * bool));     (* scheduled_change_availability_requests *)
  w_remote : list (Z * (Z * Z));          (* remote_start_id_per_evse *)
  w_fail : list bool;                     (* which of the next SQL statements fail *)
  w_budget : option nat;                  (* durable effects left before a crash *)
  w_prog : progress;
  w_out : list out }.
(** Field updates. *)
Definition set_w_con (v : _) (s : world) : world := {| w_con := v; w_resume := w_resume s; w_txcb := w_txcb s; w_allcb := w_allcb s; w_rows := w_rows s; w_tx := w_tx s; w_csm := w_csm s; w_rs := w_rs s; w_rids := w_rids s; w_sched := w_sched s; w_remote := w_remote s; w_fail := w_fail s; w_budget := w_budget s; w_prog := w_prog s; w_out := w_out s |}.
Definition set_w_resume (v : _) (s : world) : world := {| w_con := w_con s; w_resume := v; w_txcb := w_txcb s; w_allcb := w_allcb s; w_rows := w_rows s; w_tx := w_tx s; w_csm := w_csm s; w_rs := w_rs s; w_rids := w_rids s; w_sched := w_sched s; w_remote := w_remote s; w_fail := w_fail s; w_budget := w_budget s; w_prog := w_prog s; w_out := w_out s |}.
Definition set_w_txcb (v : _) (s : world) : world := {| w_con := w_con s; w_resume := w_resume s; w_txcb := v; w_allcb := w_allcb s; w_rows := w_rows s; w_tx := w_tx s; w_csm := w_csm s; w_rs := w_rs s; w_rids := w_rids s; w_sched := w_sched s; w_remote := w_remote s; w_fail := w_fail s; w_budget := w_budget s; w_prog := w_prog s; w_out := w_out s |}.
Definition set_w_allcb (v : _) (s : world) : world := {| w_con := w_con s; w_resume := w_resume s; w_txcb := w_txcb s; w_allcb := v; w_rows := w_rows s; w_tx := w_tx s; w_csm := w_csm s; w_rs := w_rs s; w_rids := w_rids s; w_sched := w_sched s; w_remote := w_remote s; w_fail := w_fail s; w_budget := w_budget s; w_prog := w_prog s; w_out := w_out s |}.
Definition set_w_rows (v : _) (s : world) : world := {| w_con := w_con s; w_resume := w_resume s; w_txcb := w_txcb s; w_allcb := w_allcb s; w_rows := v; w_tx := w_tx s; w_csm := w_csm s; w_rs := w_rs s; w_rids := w_rids s; w_sched := w_sched s; w_remote := w_remote s; w_fail := w_fail s; w_budget := w_budget s; w_prog := w_prog s; w_out := w_out s |}.
Definition set_w_tx (v : _) (s : world) : world := {| w_con := w_con s; w_resume := w_resume s; w_txcb := w_txcb s; w_allcb := w_allcb s; w_rows := w_rows s; w_tx := v; w_csm := w_csm s; w_rs := w_rs s; w_rids := w_rids s; w_sched := w_sched s; w_remote := w_remote s; w_fail := w_fail s; w_budget := w_budget s; w_prog := w_prog s; w_out := w_out s |}.
Definition set_w_csm (v : _) (s : world) : world := {| w_con := w_con s; w_resume := w_resume s; w_txcb := w_txcb s; w_allcb := w_allcb s; w_rows := w_rows s; w_tx := w_tx s; w_csm := v; w_rs := w_rs s; w_rids := w_rids s; w_sched := w_sched s; w_remote := w_remote s; w_fail := w_fail s; w_budget := w_budget s; w_prog := w_prog s; w_out := w_out s |}.
Definition set_w_rs (v : _) (s : world) : world := {| w_con := w_con s; w_resume := w_resume s; w_txcb := w_txcb s; w_allcb := w_allcb s; w_rows := w_rows s; w_tx := w_tx s; w_csm := w_csm s; w_rs := v; w_rids := w_rids s; w_sched := w_sched s; w_remote := w_remote s; w_fail := w_fail s; w_budget := w_budget s; w_prog := w_prog s; w_out := w_out s |}.
Definition set_w_rids (v : _) (s : world) : world := {| w_con := w_con s; w_resume := w_resume s; w_txcb := w_txcb s; w_allcb := w_allcb s; w_rows := w_rows s; w_tx := w_tx s; w_csm := w_csm s; w_rs := w_rs s; w_rids := v; w_sched := w_sched s; w_remote := w_remote s; w_fail := w_fail s; w_budget := w_budget s; w_prog := w_prog s; w_out := w_out s |}.
Definition set_w_sched (v : _) (s : world) : world := {| w_con := w_con s; w_resume := w_resume s; w_txcb := w_txcb s; w_allcb := w_allcb s; w_rows := w_rows s; w_tx := w_tx s; w_csm := w_csm s; w_rs := w_rs s; w_rids := w_rids s; w_sched := v; w_remote := w_remote s; w_fail := w_fail s; w_budget := w_budget s; w_prog := w_prog s; w_out := w_out s |}.
Definition set_w_remote (v : _) (s : world) : world := {| w_con := w_con s; w_resume := w_resume s; w_txcb := w_txcb s; w_allcb := w_allcb s; w_rows := w_rows s; w_tx := w_tx s; w_csm := w_csm s; w_rs := w_rs s; w_rids := w_rids s; w_sched := w_sched s; w_remote := v; w_fail := w_fail s; w_budget := w_budget s; w_prog := w_prog s; w_out := w_out s |}.
Definition set_w_fail (v : _) (s : world) : world := {| w_con := w_con s; w_resume := w_resume s; w_txcb := w_txcb s; w_allcb := w_allcb s; w_rows := w_rows s; w_tx := w_tx s; w_csm := w_csm s; w_rs := w_rs s; w_rids := w_rids s; w_sched := w_sched s; w_remote := w_remote s; w_fail := v; w_budget := w_budget s; w_prog := w_prog s; w_out := w_out s |}.
Definition set_w_budget (v : _) (s : world) : world := {| w_con := w_con s; w_resume := w_resume s; w_txcb := w_txcb s; w_allcb := w_allcb s; w_rows := w_rows s; w_tx := w_tx s; w_csm := w_csm s; w_rs := w_rs s; w_rids := w_rids s; w_sched := w_sched s; w_remote := w_remote s; w_fail := w_fail s; w_budget := v; w_prog := w_prog s; w_out := w_out s |}.
Definition set_w_prog (v : _) (s : world) : world := {| w_con := w_con s; w_resume := w_resume s; w_txcb := w_txcb s; w_allcb := w_allcb s; w_rows := w_rows s; w_tx := w_tx s; w_csm := w_csm s; w_rs := w_rs s; w_rids := w_rids s; w_sched := w_sched s; w_remote := w_remote s; w_fail := w_fail s; w_budget := w_budget s; w_prog := v; w_out := w_out s |}.
Definition set_w_out (v : _) (s : world) : world := {| w_con := w_con s; w_resume := w_resume s; w_txcb := w_txcb s; w_allcb := w_allcb s; w_rows := w_rows s; w_tx := w_tx s; w_csm := w_csm s; w_rs := w_rs s; w_rids := w_rids s; w_sched := w_sched s; w_remote := w_remote s; w_fail := w_fail s; w_budget := w_budget s; w_prog := w_prog s; w_out := v |}.

(** Statements one after the other: an exception or a crash leaves out the rest. *)
Definition seqw (f g : world -> world) (w : world) : world :=
  let w1 := f w in match w_prog w1 with Running => g w1 | _ => w1 end.
Notation "f ;; g" := (seqw f g) (at level 61, right associativity).
Definition skip (w : world) : world := w.
(** for (auto x : l) f(x). *)
Fixpoint foreach {A} (l : list A) (f : A -> world -> world) : world -> world :=
  match l with [] => skip | x :: q => f x ;; foreach q f end.
(** throw. *)
Definition throw (w : world) : world := set_w_prog Threw w.

(** A durable effect; [w_budget] decides whether the process still gets to it. *)
Definition durable (g : world -> world) (w : world) : world :=
  match w_budget w with
  | Some O => set_w_prog Dead w
  | Some (S n) => g (set_w_budget (Some n) w)
  | None => g w
  end.
(** A call out of the library. *)
Definition emit (o : out) : world -> world := durable (fun w => set_w_out (w_out w ++ [o]) w).
(** Does the next SQL statement fail? *)
Definition pop_fail (w : world) : bool * world :=
  match w_fail w with [] => (false, w) | b :: q => (b, set_w_fail q w) end.

(** int32_t arithmetic. *)
Definition i32 (z : Z) : Z := (z + 2147483648) mod 4294967296 - 2147483648.
(** Conversion of an int32_t to uint32_t. *)
Definition u32 (z : Z) : Z := z mod 4294967296.

(** ** Table TRANSACTIONS *)

(** A writing statement; the result is whether it did not throw QueryExecutionException. *)
Definition statement (f : list row -> option (list row)) (w : world) : world * bool :=
  let '(bad, w1) := pop_fail w in
  if bad then (w1, false)
  else match f (w_rows w1) with
       | None => (w1, false)
       | Some rows => (durable (set_w_rows rows) w1, true)
       end.
(** transaction_insert (database_handler.cpp 662-683) with the UNIQUE constraints. *)
Definition insert_row (r : row) (rows : list row) : option (list row) :=
  if existsb (fun x => (r_id x =? r_id r) || (r_evse x =? r_evse r)) rows then None else Some (rows ++ [r]).
(** transaction_get (database_handler.cpp 685-712): a failing statement gives nullptr, like no row. *)
Definition transaction_get (e : Z) (w : world) : option row * world :=
  let '(bad, w1) := pop_fail w in
  (if bad then None else find (fun r => r_evse r =? e) (w_rows w1), w1).
(** transaction_update_seq_no (database_handler.cpp 714-724). *)
Definition update_seq (id n : Z) (rows : list row) : option (list row) :=
  Some (map (fun r => if r_id r =? id then Row (r_id r) (r_evse r) (r_conn r) n (r_cs r) (r_tok r) else r) rows).
(** transaction_update_id_token_sent (database_handler.cpp 740-751). *)
Definition update_tok (id : Z) (b : bool) (rows : list row) : option (list row) :=
  Some (map (fun r => if r_id r =? id then Row (r_id r) (r_evse r) (r_conn r) (r_seq r) (r_cs r) b else r) rows).
(** transaction_delete (database_handler.cpp 753-760). *)
Definition delete_row (id : Z) (rows : list row) : option (list row) :=
  Some (filter (fun r => negb (r_id r =? id)) rows).

(** ** EVSEs *)

(** get_number_of_evses (evse_manager.cpp 76-78) and Evse::get_number_of_connectors (evse.cpp 90-92). *)
Definition nev (w : world) : Z := Z.of_nat (length (w_con w)).
Definition ncon (w : world) (e : Z) : Z := nth (Z.to_nat (e - 1)) (w_con w) 0.
(** The condition under which EvseManager::get_evse (evse_manager.cpp 32-44) does not throw. *)
Definition evse_ok (w : world) (e : Z) : bool := negb ((e <=? 0) || (nev w <? e)).
(** get_evse. *)
Definition get_evse (e : Z) (w : world) : world := if evse_ok w e then w else throw w.
(** The range of EvseManager (evse_manager.cpp 25-30). *)
Definition evses (w : world) : list Z := CsmModel.ids (nev w).
(** Evse::has_active_transaction (evse.cpp 322-324). *)
Definition active (w : world) (e : Z) : bool := match w_tx w e with Some _ => true | None => false end.
(** id_connector_map.count (evse.cpp 59-62). *)
Definition has_connector (w : world) (e c : Z) : bool := (1 <=? c) && (c <=? ncon w e).
(** Evse::has_active_transaction(connector_id) (evse.cpp 326-337). *)
Definition active_on (w : world) (e c : Z) : bool :=
  if has_connector w e c then match w_tx w e with Some t => t_conn t =? c | None => false end else false.
(** EvseManager::any_transaction_active without argument (evse_manager.cpp 92-100). *)
Definition any_active (w : world) : bool := existsb (active w) (evses w).
(** any_transaction_active with an optional EVSE (evse_manager.cpp 92-102), after get_evse has not thrown. *)
Definition affected_active (w : world) (t : option (Z * option Z)) : bool :=
  match t with None => any_active w | Some (e, _) => active w e end.
(** EvseManager::does_evse_exist (evse_manager.cpp 58-60). *)
Definition does_evse_exist (w : world) (e : Z) : bool := (0 <=? e) && (e <=? nev w).
(** EvseManager::get_transaction_evseid (evse_manager.cpp 80-90). *)
Definition has_tx_id (w : world) (id e : Z) : bool :=
  match w_tx w e with Some t => t_id t =? id | None => false end.
Definition transaction_evseid (w : world) (id : Z) : option Z := find (has_tx_id w id) (evses w).
(** this->transaction = v. *)
Definition put_tx (e : Z) (v : option tx) (w : world) : world := set_w_tx (CsmModel.fupd (w_tx w) e v) w.

(** EnhancedTransaction::get_seq_no (transaction.cpp 23-33); the exception is caught. *)
Definition with_seq (n : Z) (t : tx) : tx :=
  Tx (t_id t) (t_conn t) n (t_cs t) (t_tok t) (t_reason t) (t_remote t) (t_db t) (t_max t).
Definition get_seq_no (e : Z) (w : world) : world :=
  match w_tx w e with
  | None => w
  | Some t =>
      let t1 := with_seq (i32 (t_seq t + 1)) t in
      let w1 := put_tx e (Some t1) w in
      if t_db t then fst (statement (update_seq (t_id t) (t_seq t1)) w1) else w1
  end.
(** Its result. *)
Definition seq_no_result (w : world) (e : Z) : Z :=
  match w_tx w e with None => 0 | Some t => i32 (i32 (t_seq t + 1) - 1) end.
(** EnhancedTransaction::set_id_token_sent (transaction.cpp 46-55). *)
Definition set_id_token_sent (e : Z) (w : world) : world :=
  match w_tx w e with
  | None => w
  | Some t =>
      let t1 := Tx (t_id t) (t_conn t) (t_seq t) (t_cs t) true (t_reason t) (t_remote t) (t_db t) (t_max t) in
      let w1 := put_tx e (Some t1) w in
      if t_db t then fst (statement (update_tok (t_id t) true) w1) else w1
  end.

(** Evse::delete_database_transaction (evse.cpp 207-216). *)
Definition delete_database_transaction (e : Z) (w : world) : world :=
  match transaction_get e w with
  | (None, w1) => w1
  | (Some r, w1) => fst (statement (delete_row (r_id r)) w1)
  end.
(** The transaction transaction_get builds from a row (database_handler.cpp 696-705). *)
Definition tx_of_row (r : row) : tx := Tx (r_id r) (r_conn r) (r_seq r) (r_cs r) (r_tok r) None None true false.
(** Evse::try_resume_transaction (evse.cpp 179-205). *)
Definition try_resume_transaction (e : Z) (w : world) : world :=
  match transaction_get e w with
  | (None, w1) => w1
  | (Some r, w1) =>
      if has_connector w1 e (r_conn r) then put_tx e (Some (tx_of_row r)) w1
      else fst (statement (delete_row (r_id r)) w1)
  end.
(** The end of the constructor of Evse (evse.cpp 66-71). *)
Definition construct_evse (e : Z) (w : world) : world :=
  if w_resume w then try_resume_transaction e w else delete_database_transaction e w.

(** Evse::open_transaction (evse.cpp 241-284). The row inserted holds what the transaction holds. *)
Definition row_of_tx (e : Z) (t : tx) : row := Row (t_id t) e (t_conn t) (t_seq t) (t_cs t) (t_tok t).
Definition insert_tx (e : Z) (t : tx) (w : world) : world * bool := statement (insert_row (row_of_tx e t)) w.
Definition open_transaction (e c id : Z) (tok : option Z) (cs : Z) (w : world) : world :=
  if negb (has_connector w e c) then throw w
  else
    let t := Tx id c 0 cs (match tok with Some _ => true | None => false end) None None (w_resume w) false in
    let w1 := put_tx e (Some t) w in
    if w_resume w then
      let '(w2, ok) := insert_tx e t w1 in
      if ok then w2
      else (delete_database_transaction e ;;
            (fun w3 => let '(w4, ok2) := insert_tx e t w3 in if ok2 then w4 else throw w4)) w2
    else w1.
(** Evse::close_transaction (evse.cpp 286-311): what it does to the transaction. *)
Definition close_transaction (e reason : Z) (w : world) : world :=
  match w_tx w e with
  | None => w
  | Some t =>
      put_tx e (Some (Tx (t_id t) (t_conn t) (t_seq t) (t_cs t) (t_tok t) (Some reason) (t_remote t) (t_db t) (t_max t))) w
  end.
(** Evse::release_transaction (evse.cpp 339-349): when clearing the meter values fails, the row is not deleted. *)
Definition release_transaction (e : Z) (w : world) : world :=
  match w_tx w e with
  | None => w
  | Some t =>
      let '(bad, w1) := pop_fail w in
      ((fun w => if bad then w else fst (statement (delete_row (t_id t)) w)) ;; put_tx e None) w1
  end.

(** ** TransactionBlock *)

(** The condition of the std::find_if in transaction_event_req (functional_blocks/transaction.cpp 224-236). *)
Definition remote_matches (tok : option Z) (ev : option (Z * Z)) (p : Z * (Z * Z)) : bool :=
  match tok with
  | None => false
  | Some k =>
      (fst (snd p) =? k) &&
      ((fst p =? 0) || match ev with Some (e, _) => e =? fst p | None => false end)
  end.
(** std::map::erase. *)
Definition map_erase {A} (k : Z) (m : list (Z * A)) : list (Z * A) := filter (fun p => negb (fst p =? k)) m.
(** std::map::operator[] =; the keys are kept sorted. *)
Fixpoint map_put {A} (k : Z) (v : A) (m : list (Z * A)) : list (Z * A) :=
  match m with
  | [] => [(k, v)]
  | (k1, v1) :: q => if k <? k1 then (k, v) :: m else if k =? k1 then (k, v) :: q else (k1, v1) :: map_put k v q
  end.
(** std::map::find. *)
Definition map_get {A} (k : Z) (m : list (Z * A)) : option A :=
  match find (fun p => fst p =? k) m with Some p => Some (snd p) | None => None end.

(** TransactionBlock::transaction_event_req (functional_blocks/transaction.cpp 196-253): the message sent may get another
    trigger reason and remote start id, the callback gets the original. *)
Definition transaction_event_req (v : txev) (w : world) : world :=
  match find (remote_matches (v_tok v) (v_evse v)) (w_remote w) with
  | Some p =>
      let v1 := TxEv (v_kind v) (v_id v) (v_seq v) RemoteStart (v_cs v) (v_reason v) (Some (snd (snd p))) (v_evse v) (v_tok v) in
      (emit (OTx v1) ;; (if w_txcb w then emit (OTxCallback v) else skip)) (set_w_remote (map_erase (fst p) (w_remote w)) w)
  | None => (emit (OTx v) ;; (if w_txcb w then emit (OTxCallback v) else skip)) w
  end.
(** A TransactionEvent for the transaction of EVSE [e] (EnhancedTransaction::get_transaction, transaction.cpp 13-21): the
    sequence number is taken before the message is sent. *)
Definition send_event (e : Z) (k : evkind) (tr : trig) (ev : option (Z * Z)) (tok : option Z) (w : world) : world :=
  match w_tx w e with
  | None => w
  | Some t =>
      (get_seq_no e ;;
       transaction_event_req (TxEv k (t_id t) (seq_no_result w e) tr (t_cs t) (t_reason t) (t_remote t) ev tok)) w
  end.

(** enhanced_transaction->remoteStartId = remote_start_id (functional_blocks/transaction.cpp 76). *)
Definition set_remote (e : Z) (rid : option Z) (w : world) : world :=
  match w_tx w e with
  | None => w
  | Some t => put_tx e (Some (Tx (t_id t) (t_conn t) (t_seq t) (t_cs t) (t_tok t) (t_reason t) rid (t_db t) (t_max t))) w
  end.
(** enhanced_transaction->chargingState = charging_state. *)
Definition set_charging (e cs : Z) (w : world) : world :=
  match w_tx w e with
  | None => w
  | Some t => put_tx e (Some (Tx (t_id t) (t_conn t) (t_seq t) cs (t_tok t) (t_reason t) (t_remote t) (t_db t) (t_max t))) w
  end.

(** TransactionBlock::on_transaction_started (functional_blocks/transaction.cpp 54-88). *)
Definition on_started (e c id : Z) (tr : trig) (tok rid : option Z) (cs : Z) : world -> world :=
  get_evse e ;; open_transaction e c id tok cs ;; set_remote e rid ;; send_event e Started tr (Some (e, c)) tok.

(** ** The component state manager *)

(** A call of the component state manager; any of its exceptions leaves the calling function. *)
Definition csm (o : CsmModel.op) : world -> world :=
  durable (fun w =>
    let '(s, outs, r) := CsmModel.step (w_csm w) o in
    set_w_prog (match r with CsmModel.Ok => w_prog w | _ => Threw end)
      (set_w_out (w_out w ++ map OAv outs) (set_w_csm s w))).
(** Availability::set_cs_operative_status (availability.cpp 212-214). *)
Definition set_cs_operative (v : opstat) (persist : bool) (w : world) : world :=
  let '(f, w1) := pop_fail w in csm (CsmModel.SetCs v persist (negb f)) w1.
(** Availability::set_evse_operative_status (availability.cpp 216-218, evse.cpp 669-671). *)
Definition set_evse_operative (e : Z) (v : opstat) (persist : bool) (w : world) : world :=
  (get_evse e ;;
   (fun w => let '(f1, w1) := pop_fail w in
             let '(f2, w2) := pop_fail w1 in csm (CsmModel.SetEvse e v persist (negb f1) (negb f2)) w2)) w.
(** Availability::set_connector_operative_status (availability.cpp 220-223, evse.cpp 673-675: id_connector_map.at throws). *)
Definition set_conn_operative (e c : Z) (v : opstat) (persist : bool) (w : world) : world :=
  (get_evse e ;;
   (fun w => if negb (has_connector w e c) then throw w
             else let '(f, w1) := pop_fail w in csm (CsmModel.SetConn e c v persist (negb f)) w1)) w.
(** set_evse_connectors_unavailable (evse_manager.cpp 112-118). *)
Definition connectors_unavailable (e : Z) (w : world) : world :=
  foreach (CsmModel.ids (ncon w e)) (fun c => set_conn_operative e c Inoperative false) w.
(** EvseManager::are_all_connectors_effectively_inoperative (evse_manager.cpp 62-74). *)
Definition all_inoperative (w : world) : bool :=
  forallb (fun e => forallb (fun c => negb (CsmModel.opstat_eqb (CsmModel.conn_effective (w_csm w) e c) Operative))
                            (CsmModel.ids (ncon w e))) (evses w).
(** Calling all_connectors_unavailable_callback if all are inoperative (availability.cpp 73-77, firmware_update.cpp 178-182). *)
Definition notify_all_unavailable (w : world) : world :=
  if w_allcb w && all_inoperative w then emit OAllUnavailable w else w.

(** ** Availability *)

(** Availability::execute_change_availability_request (availability.cpp 199-210). *)
Definition execute (r : areq) (persist : bool) : world -> world :=
  match q_evse r with
  | None => set_cs_operative (q_op r) persist
  | Some (e, None) => set_evse_operative e (q_op r) persist
  | Some (e, Some c) => set_conn_operative e c (q_op r) persist
  end.
(** get_evse in any_transaction_active (evse_manager.cpp 101). *)
Definition check_target (t : option (Z * option Z)) (w : world) : world :=
  match t with None => w | Some (e, _) => get_evse e w end.
(** Availability::handle_scheduled_change_availability_requests (availability.cpp 64-82). *)
Definition handle_scheduled (k : Z) (w : world) : world :=
  match map_get k (w_sched w) with
  | None => w
  | Some (r, persist) =>
      (check_target (q_evse r) ;;
       (fun w => if affected_active w (q_evse r) then w
                 else (execute r persist ;;
                       (fun w => set_w_sched (map_erase k (w_sched w)) w) ;;
                       notify_all_unavailable) w)) w
  end.
(** EvseManager::is_valid_evse (evse_manager.cpp 104-108); the comparison is one of unsigned numbers. *)
Definition is_valid_evse (w : world) (e : Z) (c : option Z) : bool :=
  does_evse_exist w e && match c with None => true | Some c => u32 c <=? ncon w e end.
(** Availability::is_already_in_state (availability.cpp 182-197), after the checks of the component state manager. *)
Definition in_state (w : world) (r : areq) : bool :=
  CsmModel.opstat_eqb (q_op r)
    match q_evse r with
    | None => CsmModel.s_cs (w_csm w)
    | Some (e, None) => CsmModel.s_ev (w_csm w) e
    | Some (e, Some c) => CsmModel.c_op (CsmModel.s_con (w_csm w) e c)
    end.
(** Those checks (component_state_manager.cpp 78-101). *)
Definition check_state (t : option (Z * option Z)) (w : world) : world :=
  match t with
  | None => w
  | Some (e, None) => if CsmModel.check_evse (w_csm w) e then w else throw w
  | Some (e, Some c) => match CsmModel.check_conn (w_csm w) e c with CsmModel.Ok => w | _ => throw w end
  end.
(** Availability::handle_change_availability_req (availability.cpp 97-168). *)
Definition target_key (t : option (Z * option Z)) : Z := match t with None => 0 | Some (e, _) => e end.
Definition is_operative (v : opstat) : bool := match v with Operative => true | Inoperative => false end.
Definition change_availability_valid (r : areq) (w : world) : world :=
  let act := affected_active w (q_evse r) in
  let k := target_key (q_evse r) in
  let now := negb act || in_state w r || ((k =? 0) && is_operative (q_op r)) in
  ((fun w => set_w_sched (if now then map_erase k (w_sched w) else map_put k (r, true) (w_sched w)) w) ;;
   emit (OAvResp (if now then Accepted else Scheduled)) ;;
   (fun w =>
      if negb act then execute r true w
      else if now then w
      else if k =? 0 then
        foreach (evses w) (fun e w => if active w e then w else set_evse_operative e Inoperative false w) w
      else
        (get_evse k ;;
         (fun w => foreach (CsmModel.ids (ncon w k))
                     (fun c w => if active_on w k c then w else set_conn_operative k c Inoperative false w) w)) w)) w.
Definition handle_change_availability (r : areq) (w : world) : world :=
  match q_evse r with
  | Some (e, c) =>
      if does_evse_exist w e && match c with Some _ => negb (evse_ok w e) | None => false end then throw w
      else if negb (is_valid_evse w e c) then emit (OAvResp Rejected) w
      else (check_target (q_evse r) ;; check_state (q_evse r) ;; change_availability_valid r) w
  | None => change_availability_valid r w
  end.

(** ** Resets *)

(** TransactionBlock::schedule_reset (functional_blocks/transaction.cpp 260-265). *)
Definition set_insert (e : Z) (l : list Z) : list Z := if existsb (Z.eqb e) l then l else l ++ [e].
Definition schedule_reset (e : option Z) (w : world) : world :=
  match e with
  | None => set_w_rs true w
  | Some e => set_w_rids (set_insert e (w_rids w)) (set_w_rs true w)
  end.
Definition set_erase (e : Z) (l : list Z) : list Z := filter (fun x => negb (x =? e)) l.

(** The end of TransactionBlock::on_transaction_finished (functional_blocks/transaction.cpp 141-190). *)
Definition finish_reset (e : Z) (w : world) : world :=
  let for_evse := existsb (Z.eqb e) (w_rids w) in
  let send :=
    w_rs w && match w_rids w with [] => negb (any_active w) | _ => for_evse end in
  ((if w_rs w && match w_rids w with [] => any_active w | _ => false end then connectors_unavailable e else skip) ;;
   (if send then
      (match w_rids w with
       | [] => emit (OReset None OnIdle) ;; set_w_rs false
       | _ => emit (OReset (Some e) OnIdle) ;;
              (fun w => set_w_rids (set_erase e (w_rids w)) w) ;;
              (fun w => match w_rids w with [] => set_w_rs false w | _ => w end)
       end) ;;
      (fun w => set_w_rids (set_erase e (w_rids w)) w)
    else skip)) w.

(** TransactionBlock::on_transaction_finished (functional_blocks/transaction.cpp 90-194). *)
Definition on_finished (e reason : Z) (tr : trig) (tok : option Z) (cs : Z) : world -> world :=
  get_evse e ;;
  (fun w =>
     if negb (active w e) then w
     else (set_charging e cs ;; close_transaction e reason ;;
           send_event e Ended tr None (match tr with StopAuthorized => tok | _ => None end) ;;
           release_transaction e ;; finish_reset e ;; handle_scheduled e ;; handle_scheduled 0) w).

(** Provisioning::handle_reset_req (provisioning.cpp 455-537). [allowed] is the answer of is_reset_allowed_callback,
    [allow] the variable AllowReset of the EVSE. *)
Definition handle_reset (ev : option Z) (ty : rtype) (allowed : bool) (allow : option bool) (w : world) : world :=
  (match ev with Some e => get_evse e | None => skip end ;;
   (fun w =>
      let own := match ev with Some e => active w e | None => false end in
      let busy := if own then match ev with Some e => [e] | None => [] end else filter (active w) (evses w) in
      let idle := if own then [] else filter (fun e => negb (active w e)) (evses w) in
      let act := match busy with [] => false | _ => true end in
      let ok := allowed && match ev with None => true | Some _ => match allow with Some b => b | None => true end end in
      let wait := ok && act && match ty with OnIdle => true | Immediate => false end in
      ((if wait then schedule_reset ev else skip) ;;
       emit (OResetResp (if wait then Scheduled else if ok then Accepted else Rejected)) ;;
       (if ok && act then
          match ty with
          | Immediate => foreach busy (fun e => emit (OStopTx e ImmediateReset))
          | OnIdle => foreach idle connectors_unavailable
          end
        else skip) ;;
       (if ok && negb wait then emit (OReset ev Immediate) else skip)) w)) w.

(** ** Other sources of transaction events *)

(** ChargePoint::on_authorized (charge_point.cpp 234-254). *)
Definition on_authorized (e tok : Z) : world -> world :=
  get_evse e ;;
  (fun w => match w_tx w e with
            | None => w
            | Some t => if t_tok t then w
                        else (set_id_token_sent e ;; send_event e Updated Authorized None (Some tok)) w
            end).
(** ChargePoint::on_charging_state_changed (charge_point.cpp 338-362); the database keeps the old charging state. *)
Definition on_charging (e cs : Z) (tr : trig) : world -> world :=
  get_evse e ;;
  (fun w => match w_tx w e with
            | None => w
            | Some t => if t_cs t =? cs then w else (set_charging e cs ;; send_event e Updated tr None None) w
            end).
(** The TransactionEvent sent by the timers of a transaction (charge_point.cpp 438-474). *)
Definition on_meter_timer (e : Z) (clock : bool) (w : world) : world :=
  match w_tx w e with
  | None => w
  | Some _ => send_event e Updated (if clock then MeterClock else MeterPeriodic) None None w
  end.
(** TriggerMessage for TransactionEvent (remote_transaction_control.cpp 230-240, 283-296, 326-388). *)
Definition trigger_event (ev : option Z) : world -> world :=
  (match ev with Some e => get_evse e | None => skip end) ;;
  (fun w =>
     let ok := match ev with Some e => active w e | None => any_active w end in
     (emit (OTrigResp (if ok then Accepted else Rejected)) ;;
      (if ok then foreach (match ev with Some e => [e] | None => evses w end)
                    (fun e => send_event e Updated Trigger None None)
       else skip)) w).

(** TransactionBlock::handle_transaction_event_response (functional_blocks/transaction.cpp 267-336) for the answer to [v];
    [info]: idTokenInfo is present, and whether its status is Accepted; [stop]: StopTxOnInvalidId; [maxe]:
    MaxEnergyOnInvalidId is set. Cost and authorization cache: [AuthModel]. *)
Definition set_max (e : Z) (w : world) : world :=
  match w_tx w e with
  | None => w
  | Some t => put_tx e (Some (Tx (t_id t) (t_conn t) (t_seq t) (t_cs t) (t_tok t) (t_reason t) (t_remote t) (t_db t) true)) w
  end.
Definition on_response (v : txev) (info : option bool) (stop maxe : bool) (w : world) : world :=
  match v_kind v, info, v_tok v with
  | Ended, _, _ | _, None, _ | _, Some true, _ | _, _, None => w
  | _, Some false, Some _ =>
      match transaction_evseid w (v_id v) with
      | None => w
      | Some e => if stop then emit (OStopTx e DeAuthorized) w
                  else if maxe then set_max e w else emit (OPause e) w
      end
  end.
(** TransactionBlock::handle_get_transaction_status (functional_blocks/transaction.cpp 338-359); [queued], [any_queued]:
    contains_transaction_messages, and not is_transaction_message_queue_empty. *)
Definition get_transaction_status (id : option Z) (queued any_queued : bool) (w : world) : world :=
  emit (match id with
        | Some i => OTxStatus (Some match transaction_evseid w i with Some _ => true | None => false end) queued
        | None => OTxStatus None any_queued
        end) w.

(** FirmwareUpdate::change_all_connectors_to_unavailable_for_firmware_update (firmware_update.cpp 159-196). *)
Definition firmware_unavailable (w : world) : world :=
  if negb (any_active w) then
    (foreach (evses w) (fun e w => if active w e then w else connectors_unavailable e w) ;; notify_all_unavailable) w
  else
    foreach (evses w) (fun e w =>
      if active w e
      then set_w_sched (map_put e (Areq (Some (e, None)) Inoperative, false) (w_sched w)) w
      else connectors_unavailable e w) w.
(** FirmwareUpdate::restore_all_connector_states (firmware_update.cpp 198-206). *)
Definition restore_all (w : world) : world :=
  foreach (evses w) (fun e w => foreach (CsmModel.ids (ncon w e)) (fun c => csm (CsmModel.RestoreConn e c)) w) w.

(** ** Start of the process *)

(** The map from EVSE id to number of connectors given to the managers. *)
Definition structure (w : world) : list (Z * Z) := combine (evses w) (w_con w).
(** What is gone with the process, then the constructors of the component state manager and of EvseManager
    (evse_manager.cpp 11-23). *)
Definition boot (w : world) : world :=
  foreach (evses w) construct_evse
    (W (w_con w) (w_resume w) (w_txcb w) (w_allcb w) (w_rows w) (fun _ => None)
       (fst (CsmModel.boot (structure w) (CsmModel.s_db (w_csm w)))) false [] [] [] (w_fail w) (w_budget w) Running (w_out w)).

(** One call into the library. *)
Inductive op :=
| OStart (e c id : Z) (tr : trig) (tok rid : option Z) (cs : Z)
| OFinish (e reason : Z) (tr : trig) (tok : option Z) (cs : Z)
| OAuthorized (e tok : Z)
| OCharging (e cs : Z) (tr : trig)
| OMeter (e : Z) (clock : bool)
| OTrigger (e : option Z)
| OResetReq (e : option Z) (ty : rtype) (allowed : bool) (allow : option bool)
| OAvail (r : areq)
| OFirmware
| ORestore
| ORemoteId (e tok rid : Z)
| OResponse (v : txev) (info : option bool) (stop maxe : bool)
| OStatus (id : option Z) (queued any_queued : bool)
| OConfig (resume : bool)
| ORestart.

Definition exec (o : op) : world -> world :=
  match o with
  | OStart e c id tr tok rid cs => on_started e c id tr tok rid cs
  | OFinish e reason tr tok cs => on_finished e reason tr tok cs
  | OAuthorized e tok => on_authorized e tok
  | OCharging e cs tr => on_charging e cs tr
  | OMeter e clock => on_meter_timer e clock
  | OTrigger e => trigger_event e
  | OResetReq e ty allowed allow => handle_reset e ty allowed allow
  | OAvail r => handle_change_availability r
  | OFirmware => firmware_unavailable
  | ORestore => restore_all
  | ORemoteId e tok rid => fun w => set_w_remote (map_put e (tok, rid) (w_remote w)) w
  | OResponse v info stop maxe => on_response v info stop maxe
  | OStatus id queued any => get_transaction_status id queued any
  | OConfig b => set_w_resume b
  | ORestart => boot
  end.

(** A call together with the SQL statements that fail during it and the number of durable effects after which the process
    dies, if it does. A process that died is started again. *)
Record call := Call { c_op : op; c_fail : list bool; c_crash : option nat }.
Definition step (w : world) (c : call) : world :=
  let w1 := exec (c_op c) (set_w_prog Running (set_w_budget (c_crash c) (set_w_fail (c_fail c) w))) in
  match w_prog w1 with Dead => boot (set_w_budget None (set_w_fail [] w1)) | _ => w1 end.
Definition run (w : world) (h : list call) : world := fold_left step h w.

(** A station with an empty database. *)
Definition no_csm : CsmModel.st := fst (CsmModel.boot [] CsmModel.empty_table).
Definition init (con : list Z) (resume txcb allcb : bool) : world :=
  boot (W con resume txcb allcb [] (fun _ => None) no_csm false [] [] [] [] None Running []).
