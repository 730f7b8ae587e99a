(** Transactions, availability and remote control of an OCPP 1.6 station.

    Model of the parts of lib/ocpp/v16/charge_point_impl.cpp (lines given alone are of that file) that start, stop, resume and
    remotely control transactions and change the availability of connectors, with lib/ocpp/v16/transaction.cpp and the tables
    TRANSACTIONS and CONNECTORS of lib/ocpp/v16/database_handler.cpp.

    Simplifications. Ids, tags and times are numbers; energies are whole numbers of Wh. The message queue is a list: the first
    message is sent and answered, given up or sent again (C01 to C10 are about the queue itself); other messages than
    StartTransaction, StopTransaction and MeterValues are not in it. A message is stored in the database as it was pushed and
    removed with it. The process dies between two calls only, no SQL statement fails, and all callbacks but those of
    reservations are registered. The state machines of the connectors are not part of the model: what they say is an argument.
    The meter values of StopTransaction.req and the parts of MeterValues.req besides the transaction id are left out. NumberOfConnectors does not change. *)
From Coq Require Import ZArith NArith List Bool.
Import ListNotations.
Local Open Scope Z_scope.

(** ** Data *)
(** Reason (ocpp_enums.hpp), those that the code uses itself and any other. *)
Inductive reason := PowerLoss | Remote | DeAuthorized | UnlockCommand | SoftReset | HardReset | EVDisconnected | OtherReason (i : N).
(** StampedEnergyWh (common/types.hpp). *)
Record stamp := Stamp { s_time : Z; s_wh : Z }.
(** Transaction (transaction.hpp 24-143). [t_timer]: it has a timer for meter values. [t_stop]: stop_energy_wh. [t_emid] None: empty. *)
Record tx := Tx { t_iid : Z; t_conn : Z; t_sess : N; t_tag : N; t_start : stamp; t_resv : option Z; t_active : bool;
                  t_fin : bool; t_stop : option stamp; t_id : option Z; t_smid : N; t_emid : option N; t_timer : bool }.
(** A row of TRANSACTIONS (config/v16/core_migrations/1_up-initial.sql 23-40, 2_up-offline-transaction.sql). *)
Record row := Row { w_sess : N; w_tid : Z; w_conn : Z; w_tag : N; w_start : stamp; w_ack : bool; w_last : stamp;
                    w_resv : option Z; w_parent : option N; w_tagend : option N; w_end : option stamp;
                    w_reason : option reason; w_smid : N; w_emid : option N }.
(** The payloads of StartTransaction.req, StopTransaction.req and MeterValues.req. *)
Inductive body :=
| BStart (conn : Z) (tag : N) (meter time : Z) (resv : option Z)
| BStop (id : Z) (meter time : Z) (why : reason) (tag : option N)
| BMeter (conn : Z) (id : option Z) (value : Z).
(** A message of the transaction queue: its id and payload, and both as they were pushed and stored. *)
Record pend := P { p_mid : N; p_body : body; p_init : N; p_orig : body }.
(** An entry of change_availability_queue: operative and persist. *)
Definition change : Type := bool * bool.
(** [n]: NumberOfConnectors. [act], [stopped]: active_transactions and stopped_transactions of the TransactionHandler. [q]: the
    transaction queue. [txmap], [mvmap]: message_id_transaction_id_map and start_transaction_mid_meter_values_mid_map of the
    message queue. [nid]: the next message id. [avq], [avdb]: change_availability_queue and the table CONNECTORS (operative?).
    [fw]: firmware_update_is_pending. [dead]: undefined behaviour has been reached. *)
Record st := St { n : Z; act : Z -> option tx; stopped : list tx; rows : list row; q : list pend; txmap : list (N * Z);
                  mvmap : list (N * list N); nid : N; avq : Z -> option change; avdb : Z -> bool; fw : bool; dead : bool }.
(** A new station. *)
Definition initial (n : Z) : st := St n (fun _ => None) [] [] [] [] [] 0%N (fun _ => None) (fun _ => true) false false.

Inductive avail_status := AvAccepted | AvScheduled | AvRejected.
Inductive unlock_status := Unlocked | UnlockFailed | NotSupported.
(** What can be seen: messages pushed and sent, answers to the CSMS, callbacks, events of connector 0. *)
Inductive out :=
| OPush (p : pend) | OSend (p : pend)
| OTxStarted (c : Z) (sess : N) | OTxStopped (c : Z) (sess : N) (id : Z) | OTxUpdated (c : Z) (sess : N) (id : Z) (ok : bool)
| OCache (tag : N) (ok : bool)
| OPause (c : Z) | OStopTx (c : Z) (why : reason) | OUnlock (c : Z)
| OEnable (c : Z) | ODisable (c : Z) | OZero (up : bool) | OAllUnavailable
| OAvail (s : avail_status) | ORemote (accepted : bool) | OReset (accepted : bool) | OUnlockResp (s : unlock_status)
| OToken (tag : N) (conns : list Z) (prevalidated : bool) | OProfile (c : Z)
| OThrow | OUB.

Definition set_act (s : st) f := St (n s) f (stopped s) (rows s) (q s) (txmap s) (mvmap s) (nid s) (avq s) (avdb s) (fw s) (dead s).
Definition set_stopped (s : st) l := St (n s) (act s) l (rows s) (q s) (txmap s) (mvmap s) (nid s) (avq s) (avdb s) (fw s) (dead s).
Definition set_rows (s : st) l := St (n s) (act s) (stopped s) l (q s) (txmap s) (mvmap s) (nid s) (avq s) (avdb s) (fw s) (dead s).
Definition set_q (s : st) l := St (n s) (act s) (stopped s) (rows s) l (txmap s) (mvmap s) (nid s) (avq s) (avdb s) (fw s) (dead s).
Definition set_txmap (s : st) l := St (n s) (act s) (stopped s) (rows s) (q s) l (mvmap s) (nid s) (avq s) (avdb s) (fw s) (dead s).
Definition set_mvmap (s : st) l := St (n s) (act s) (stopped s) (rows s) (q s) (txmap s) l (nid s) (avq s) (avdb s) (fw s) (dead s).
Definition set_nid (s : st) i := St (n s) (act s) (stopped s) (rows s) (q s) (txmap s) (mvmap s) i (avq s) (avdb s) (fw s) (dead s).
Definition set_avq (s : st) f := St (n s) (act s) (stopped s) (rows s) (q s) (txmap s) (mvmap s) (nid s) f (avdb s) (fw s) (dead s).
Definition set_avdb (s : st) f := St (n s) (act s) (stopped s) (rows s) (q s) (txmap s) (mvmap s) (nid s) (avq s) f (fw s) (dead s).
Definition set_fw (s : st) b := St (n s) (act s) (stopped s) (rows s) (q s) (txmap s) (mvmap s) (nid s) (avq s) (avdb s) b (dead s).
Definition set_dead (s : st) := St (n s) (act s) (stopped s) (rows s) (q s) (txmap s) (mvmap s) (nid s) (avq s) (avdb s) (fw s) true.

Definition upd {A} (f : Z -> A) (c : Z) (x : A) : Z -> A := fun i => if i =? c then x else f i.
(** The connectors 1 to n. *)
Definition conns (s : st) : list Z := map Z.of_nat (seq 1 (Z.to_nat (n s))).
(** The indices of active_transactions (transaction.cpp 150-157). *)
Definition slots (s : st) : list Z := 0 :: conns s.
(** vector::at *)
Definition in_range (s : st) (c : Z) : bool := (0 <=? c) && (c <=? n s).
(** clamp_to<int32_t> (common/utils.hpp). *)
Definition clamp32 (z : Z) : Z := Z.max (- 2 ^ 31) (Z.min (2 ^ 31 - 1) z).

(** ** The transaction handler *)
Definition opt_is (o : option N) (i : N) : bool := match o with Some x => N.eqb x i | None => false end.
Definition has_mid (mid : N) (t : tx) : bool := N.eqb (t_smid t) mid || opt_is (t_emid t) mid.
(** get_transaction by message id (transaction.cpp 199-214): the running ones first. *)
Definition active_with (mid : N) (s : st) : option Z :=
  find (fun c => match act s c with Some t => has_mid mid t | None => false end) (slots s).
Definition get_tx (mid : N) (s : st) : option tx :=
  match active_with mid s with
  | Some c => act s c
  | None => find (has_mid mid) (stopped s)
  end.
Fixpoint map_first (p : tx -> bool) (f : tx -> tx) (l : list tx) : list tx :=
  match l with [] => [] | t :: r => if p t then f t :: r else t :: map_first p f r end.
(** A change of the transaction that get_transaction returns. *)
Definition change_tx (mid : N) (f : tx -> tx) (s : st) : st :=
  match active_with mid s with
  | Some c => set_act s (upd (act s) c (option_map f (act s c)))
  | None => set_stopped s (map_first (has_mid mid) f (stopped s))
  end.
(** transaction_active (transaction.cpp 271-273). *)
Definition active (s : st) (c : Z) : bool := match act s c with Some t => t_active t | None => false end.

(** ** The database *)
Definition at_row (sess : N) (f : row -> row) (s : st) : st :=
  set_rows s (map (fun w => if N.eqb (w_sess w) sess then f w else w) (rows s)).
(** insert_transaction (database_handler.cpp 48-82): fails if the session is there. *)
Definition insert_row (w : row) (s : st) : st :=
  if existsb (fun v => N.eqb (w_sess v) (w_sess w)) (rows s) then s else set_rows s (rows s ++ [w]).
(** update_transaction (database_handler.cpp 84-101): an unbound parent is NULL. *)
Definition row_started (tid : Z) (parent : option N) (w : row) : row :=
  Row (w_sess w) tid (w_conn w) (w_tag w) (w_start w) (w_ack w) (w_last w) (w_resv w) parent (w_tagend w) (w_end w) (w_reason w)
      (w_smid w) (w_emid w).
(** update_transaction (database_handler.cpp 103-129). *)
Definition row_stopped (e : stamp) (tag : option N) (why : reason) (emid : N) (w : row) : row :=
  Row (w_sess w) (w_tid w) (w_conn w) (w_tag w) (w_start w) (w_ack w) (w_last w) (w_resv w) (w_parent w) tag (Some e) (Some why)
      (w_smid w) (Some emid).
(** update_transaction_csms_ack (database_handler.cpp 131-142). *)
Definition ack_rows (tid : Z) (s : st) : st :=
  set_rows s (map (fun w => if w_tid w =? tid then
      Row (w_sess w) (w_tid w) (w_conn w) (w_tag w) (w_start w) true (w_last w) (w_resv w) (w_parent w) (w_tagend w) (w_end w)
          (w_reason w) (w_smid w) (w_emid w) else w) (rows s)).
(** update_transaction_meter_value (database_handler.cpp 158-173). *)
Definition row_meter (l : stamp) (w : row) : row :=
  Row (w_sess w) (w_tid w) (w_conn w) (w_tag w) (w_start w) (w_ack w) l (w_resv w) (w_parent w) (w_tagend w) (w_end w) (w_reason w)
      (w_smid w) (w_emid w).

(** ** Starting and stopping *)
(** dispatch_call (message_dispatcher.cpp 9-26) of a transaction message with a new id; it is pushed whatever the registration. *)
Definition push (b : body) (s : st) : st * list out :=
  let p := P (nid s) b (nid s) b in (set_nid (set_q s (q s ++ [p])) (N.succ (nid s)), [OPush p]).
(** on_transaction_started (4366-4419) and start_transaction (4298-4332). *)
Definition started (c : Z) (sess tag : N) (wh : Z) (resv : option Z) (time iid : Z) (s : st) : st * list out :=
  if in_range s c then
    let mid := nid s in
    let meter := clamp32 wh in
    let t := Tx iid c sess tag (Stamp time wh) resv true false None None mid None true in
    let s1 := insert_row (Row sess iid c tag (Stamp time meter) false (Stamp time meter) resv None None None None mid None) s in
    let s2 := set_act s1 (upd (act s1) c (Some t)) in
    let (s3, o) := push (BStart c tag meter time resv) s2 in
    (s3, o ++ [OTxStarted c sess])
  else (s, [OThrow]).
(** stop_transaction (4460-4520) of the transaction [t] of the connector. [unlock]: UnlockConnectorOnEVSideDisconnect. *)
Definition stop_transaction (c : Z) (t : tx) (e : stamp) (why : reason) (tag : option N) (unlock : bool) (s : st) : st * list out :=
  let id := match t_id t with Some i => i | None => t_iid t end in
  let mid := nid s in
  let meter := clamp32 (s_wh e) in
  let (s1, o) := push (BStop id meter (s_time e) why tag) s in
  let t' := Tx (t_iid t) (t_conn t) (t_sess t) (t_tag t) (t_start t) (t_resv t) false true (Some e) (t_id t) (t_smid t) (Some mid) (t_timer t) in
  let s2 := set_stopped (set_act s1 (upd (act s1) c None)) (stopped s1 ++ [t']) in
  (at_row (t_sess t) (row_stopped (Stamp (s_time e) meter) tag why mid) s2,
   (match why with EVDisconnected => if unlock then [OUnlock c] else [] | _ => [] end) ++ o ++ [OTxStopped c (t_sess t) id]).
(** on_transaction_stopped (4421-4458). *)
Definition stop (c : Z) (why : reason) (time wh : Z) (tag : option N) (unlock : bool) (s : st) : st * list out :=
  if in_range s c then
    match act s c with
    | None => (s, [])
    | Some t => stop_transaction c t (Stamp time wh) why tag unlock s
    end
  else (s, [OThrow]).
(** send_meter_value (996-1033), called by the timer of a transaction (4374-4404), which also stores the last meter value, or
    otherwise. [last]: the total of Energy.Active.Import.Register. *)
Definition meter (c : Z) (periodic : bool) (value : Z) (last : option stamp) (s : st) : st * list out :=
  if in_range s c then
    match act s c with
    | Some t =>
        if periodic && negb (t_active t && t_timer t) then (s, [])
        else
          let s1 := if (0 <? c) then match t_id t with
                                     | None => set_mvmap s ((t_smid t, nid s :: match find (fun e => N.eqb (fst e) (t_smid t)) (mvmap s) with
                                                                                | Some e => snd e | None => [] end)
                                                            :: filter (fun e => negb (N.eqb (fst e) (t_smid t))) (mvmap s))
                                     | Some _ => s
                                     end else s in
          let (s2, o) := push (BMeter c (if 0 <? c then t_id t else None) value) s1 in
          (match last with
           | Some l => if periodic then at_row (t_sess t) (row_meter l) s2 else s2
           | None => s2
           end, o)
    | None => if periodic then (s, []) else push (BMeter c None value) s
    end
  else (s, [OThrow]).

(** ** Availability *)
(** execute_connectors_availability_change (1795-1824). *)
Definition execute_changes (l : list Z) (up persist : bool) (s : st) : st * list out :=
  ((if persist then set_avdb s (fold_left (fun f c => upd f c up) l (avdb s)) else s),
   flat_map (fun c => (if c =? 0 then [OZero up] else []) ++ [if up then OEnable c else ODisable c]) l).
(** execute_queued_availability_change (1826-1844). *)
Definition execute_queued (c : Z) (s : st) : st * list out :=
  match avq s c with
  | Some (up, persist) => execute_changes [c] up persist (set_avq s (upd (avq s) c None))
  | None => (s, [])
  end.
(** preprocess_change_availability_request (1735-1793). [prep]: the connectors whose state is Preparing. *)
Definition to_schedule (s : st) (prep : Z -> bool) (c : Z) : bool := active s c || prep c.
Definition preprocess (c : Z) (up : bool) (prep : Z -> bool) (s : st) : st * avail_status * list Z :=
  if (c <=? n s) && (0 <=? c) then
    let l := if c =? 0 then conns s else [c] in
    let sched := filter (to_schedule s prep) l in
    let now := (if c =? 0 then [0] else []) ++ filter (fun i => negb (to_schedule s prep i)) l in
    let s1 := set_avq s (fold_left (fun f i => upd f i (Some (up, true))) sched (avq s)) in
    let s2 := set_avdb s1 (fun i => match avq s1 i with Some (u, _) => u | None => avdb s1 i end) in
    (s2, match sched with [] => AvAccepted | _ => AvScheduled end, now)
  else (s, AvRejected, []).
(** handleChangeAvailabilityRequest (2001-2019) and on_change_availability (4907-4921). *)
Definition change_availability (c : Z) (up : bool) (prep : Z -> bool) (s : st) : st * list out :=
  let '(s1, a, now) := preprocess c up prep s in
  match a with
  | AvRejected => (s1, [OAvail a])
  | _ => let (s2, o) := execute_changes now up true s1 in (s2, OAvail a :: o)
  end.
(** change_all_connectors_to_unavailable_for_firmware_update (1213-1245). *)
Definition all_unavailable (s : st) : st * list out :=
  let busy := filter (active s) (conns s) in
  (set_avq s (fold_left (fun f c => upd f c (Some (false, false))) busy (avq s)),
   map ODisable (filter (fun c => negb (active s c)) (conns s)) ++ match busy with [] => [OAllUnavailable] | _ => [] end).
(** FirmwareStatusNotification (common/types.hpp), those that make a difference. *)
Inductive fw_status := FwDownloaded | FwDownloadFailed | FwSignatureVerified | FwInvalidSignature | FwInstalled | FwInstallationFailed
| FwVerificationFailed | FwOther.
(** What signed_firmware_update_status_notification (3076-3110) and firmware_status_notification (4692-4716) make of the flag; the
    latter is not reached if the status does not exist for unsigned firmware (common/types.cpp 1237-1265). *)
Definition fw_next (signed : bool) (x : fw_status) (old : bool) : option bool :=
  if signed then
    Some (match x with
          | FwSignatureVerified => true
          | FwInstallationFailed | FwDownloadFailed | FwVerificationFailed | FwInvalidSignature => false
          | _ => old
          end)
  else match x with
       | FwSignatureVerified | FwInvalidSignature | FwVerificationFailed => None
       | FwDownloaded => Some true
       | FwDownloadFailed | FwInstallationFailed => Some false
       | _ => Some old
       end.
(** on_firmware_update_status_notification (4623-4675). *)
Definition fw_ends (x : fw_status) : bool := match x with FwInstalled | FwInstallationFailed | FwVerificationFailed => true | _ => false end.
Definition firmware (signed : bool) (x : fw_status) (s : st) : st * list out :=
  let (s1, o) := match fw_next signed x (fw s) with
                 | Some b => let s' := set_fw s b in if b then all_unavailable s' else (s', [])
                 | None => (s, [])
                 end in
  (s1, o ++ if fw_ends x
            then flat_map (fun c => if avdb s1 c then (if c =? 0 then [OZero true] else []) ++ [OEnable c] else []) (slots s1)
            else []).

(** ** Sending and answers *)
(** message_queue.hpp 520-525: the transaction id is put in when the message is sent. *)
Definition set_id (i : Z) (b : body) : body :=
  match b with
  | BStop _ m t r g => BStop i m t r g
  | BMeter c _ v => BMeter c (Some i) v
  | BStart c t m x r => BStart c t m x r
  end.
Definition send_head (p : pend) (s : st) : st * pend :=
  match find (fun e => N.eqb (fst e) (p_mid p)) (txmap s) with
  | Some e => (set_txmap s (filter (fun e => negb (N.eqb (fst e) (p_mid p))) (txmap s)), P (p_mid p) (set_id (snd e) (p_body p)) (p_init p) (p_orig p))
  | None => (s, p)
  end.
(** add_stopped_transaction_id (message_queue.hpp 1020-1023). *)
Definition add_stopped_id (mid : option N) (tid : Z) (s : st) : st :=
  match mid with
  | Some m => set_txmap s ((m, tid) :: filter (fun e => negb (N.eqb (fst e) m)) (txmap s))
  | None => s
  end.
(** notify_start_transaction_handled (message_queue.hpp 1037-1057). *)
Definition notify_handled (smid : N) (tid : Z) (s : st) : st :=
  let mids := match find (fun e => N.eqb (fst e) smid) (mvmap s) with Some e => snd e | None => [] end in
  set_mvmap (set_q s (map (fun p => if existsb (N.eqb (p_mid p)) mids then P (p_mid p) (set_id tid (p_body p)) (p_init p) (p_orig p) else p) (q s)))
            (filter (fun e => negb (N.eqb (fst e) smid)) (mvmap s)).
(** handleStartTransactionResponse (2342-2391). [inv]: StopTransactionOnInvalidId. *)
Definition start_conf (mid : N) (tid : Z) (ok : bool) (parent : option N) (inv : bool) (s : st) : st * list out :=
  match get_tx mid s with
  | Some t =>
      let s1 := if t_fin t then add_stopped_id (t_emid t) tid s else s in
      let s2 := notify_handled mid tid s1 in
      let s3 := change_tx mid (fun t => Tx (t_iid t) (t_conn t) (t_sess t) (t_tag t) (t_start t) (t_resv t) (t_active t) (t_fin t) (t_stop t)
                                           (Some tid) (t_smid t) (t_emid t) (t_timer t)) s2 in
      let s4 := at_row (t_sess t) (row_started tid parent) s3 in
      (s4, OCache (t_tag t) ok
           :: (if ok then [] else OPause (t_conn t) :: if inv then [OStopTx (t_conn t) DeAuthorized] else [])
           ++ [OTxUpdated (t_conn t) (t_sess t) tid ok])
  | None => (s, [])
  end.
(** handleStopTransactionResponse (2393-2436): get_authorized_id_tag (transaction.cpp 262-269) never finds a tag. [id]: the
    transaction id of the request. *)
Definition stop_conf (mid : N) (id : Z) (s : st) : st * list out :=
  let (s1, o1) := match get_tx mid s with Some t => execute_queued (t_conn t) s | None => (s, []) end in
  let s2 := ack_rows id s1 in
  let s3 := set_stopped s2 (filter (fun t => negb (opt_is (t_emid t) mid)) (stopped s2)) in
  let (s4, o2) := if fw s3 then all_unavailable s3 else (s3, []) in
  (s4, o1 ++ o2).
(** The first message is sent and answered by a CALLRESULT. *)
Definition deliver (tid : Z) (ok : bool) (parent : option N) (inv : bool) (s : st) : st * list out :=
  match q s with
  | [] => (s, [])
  | p0 :: r =>
      let (s1, p) := send_head p0 (set_q s r) in
      let (s2, o) := match p_body p with
                     | BStart _ _ _ _ _ => start_conf (p_mid p) tid ok parent inv s1
                     | BStop id _ _ _ _ => stop_conf (p_mid p) id s1
                     | BMeter _ _ _ => (s1, [])
                     end in
      (s2, OSend p :: o)
  end.
(** It is sent, but the connection or the process is lost before an answer. *)
Definition sent (s : st) : st * list out :=
  match q s with
  | [] => (s, [])
  | p0 :: r => let (s1, p) := send_head p0 s in (set_q s1 (p :: r), [OSend p])
  end.
(** It is sent and not answered in time, or answered by a CALLERROR, and is to be sent again with a new id (message_queue.hpp 835-866);
    start_transaction_message_retry_callback (246-261): the statement for the row names no row. *)
Definition retry (s : st) : st * list out :=
  match q s with
  | [] => (s, [])
  | p0 :: r =>
      let (s1, p) := send_head p0 s in
      let mid := nid s1 in
      let s2 := set_nid (set_q s1 (P mid (p_body p) (p_init p) (p_orig p) :: r)) (N.succ mid) in
      (match p_body p with
       | BStart _ _ _ _ _ => change_tx (p_mid p) (fun t => Tx (t_iid t) (t_conn t) (t_sess t) (t_tag t) (t_start t) (t_resv t) (t_active t) (t_fin t)
                                                              (t_stop t) (t_id t) mid (t_emid t) (t_timer t)) s2
       | _ => s2
       end, [OSend p])
  end.
(** The same after the last attempt (message_queue.hpp 873-893). *)
Definition give_up (s : st) : st * list out :=
  match q s with
  | [] => (s, [])
  | p0 :: r => let (s1, p) := send_head p0 (set_q s r) in (s1, [OSend p])
  end.
(** A MeterValues.req is dropped because the queue is full (C07). *)
Definition discard (mid : N) (s : st) : st * list out :=
  (set_q s (filter (fun p => negb (N.eqb (p_mid p) mid && match p_body p with BMeter _ _ _ => true | _ => false end)) (q s)), []).

(** ** Restart *)
(** contains_stop_transaction_message (message_queue.hpp 990-1001). *)
Definition stop_queued (tid : Z) (s : st) : bool :=
  existsb (fun p => match p_body p with BStop i _ _ _ _ => i =? tid | _ => false end) (q s).
(** One round of the loop of try_resume_transactions (518-563). The internal id is random and never used. *)
Definition resume_row (resuming : list N) (w : row) (s : st) : st * list out :=
  let e := match w_end w with Some e => e | None => w_last w end in
  let t := Tx (-1) (w_conn w) (w_sess w) (w_tag w) (w_start w) (w_resv w) true false None (Some (w_tid w)) (w_smid w) (w_emid w) false in
  let s1 := set_act s (upd (act s) (w_conn w) (Some t)) in
  if stop_queued (w_tid w) s1 then
    let t' := Tx (t_iid t) (t_conn t) (t_sess t) (t_tag t) (t_start t) (t_resv t) true true None (t_id t) (t_smid t) (t_emid t) false in
    (set_stopped (set_act s1 (upd (act s1) (w_conn w) None)) (stopped s1 ++ [t']), [])
  else if existsb (N.eqb (w_sess w)) resuming then (s1, [])
  else stop_transaction (w_conn w) t e PowerLoss None false s1.
Fixpoint resume_rows (resuming : list N) (l : list row) (s : st) : st * list out :=
  match l with
  | [] => (s, [])
  | w :: r => let (s1, o1) := resume_row resuming w s in let (s2, o2) := resume_rows resuming r s1 in (s2, o1 ++ o2)
  end.
(** The process starts again (1139-1151): messages are read from the database (message_queue.hpp 583-633), transactions resumed
    (get_transactions, database_handler.cpp 175-231), availability restored (init_state_machine 365-396) if the application does not
    give the states. *)
Definition boot (resuming : list N) (restore : bool) (s : st) : st * list out :=
  let s0 := St (n s) (fun _ => None) [] (rows s) (map (fun p => P (p_init p) (p_orig p) (p_init p) (p_orig p)) (q s)) [] [] (nid s)
               (fun _ => None) (avdb s) false false in
  let (s1, o1) := resume_rows resuming (filter (fun w => negb (w_ack w)) (rows s)) s0 in
  (s1, o1 ++ if restore then map (fun c => if avdb s1 c then OEnable c else ODisable c) (slots s1) else []).

(** ** Remote control *)
(** get_connector_from_transaction_id (transaction.cpp 232-245) and handleRemoteStopTransactionRequest (2277-2294). *)
Definition conn_of_id (tid : Z) (s : st) : Z :=
  match find (fun c => match act s c with Some t => match t_id t with Some i => i =? tid | None => false end | None => false end) (slots s) with
  | Some c => c
  | None => -1
  end.
Definition remote_stop (tid : Z) (s : st) : list out :=
  let c := conn_of_id tid s in
  ORemote (0 <? c) :: if 0 <? c then [OStopTx c Remote] else [].
(** ChargePointStatus (ocpp_enums.hpp), those that matter here. *)
Inductive conn_status := CsAvailable | CsPreparing | CsReserved | CsFinishing | CsUnavailable | CsFaulted | CsOther.
(** 2162-2197: the first connector that can start. [other]: reserved for another token. *)
Definition obtainable (s : st) (status : Z -> conn_status) (other : option (Z -> bool)) (c : Z) : bool :=
  match status c with CsUnavailable | CsFaulted => false | _ =>
    if (match act s c with Some _ => true | None => false end) || (match status c with CsFinishing => true | _ => false end) then false
    else match other with
         | Some f => negb ((match status c with CsReserved => true | _ => false end) && f c)
         | None => true
         end
  end.
(** The loop ends at the first one; without any connector it is not entered. *)
Definition any_obtainable (s : st) status other (l : list Z) : bool :=
  match l with [] => true | _ => existsb (obtainable s status other) l end.
(** handleRemoteStartTransactionRequest (2135-2244). [profile]: the answer of smart charging and whether the purpose is TxProfile.
    [authorize]: AuthorizeRemoteTxRequests. *)
Definition remote_start (c : option Z) (tag : N) (profile : option (bool * bool)) (status : Z -> conn_status) (other : option (Z -> bool))
    (authorize : bool) (s : st) : list out :=
  if match c with Some i => (i <=? 0) || (n s <? i) | None => false end then [ORemote false]
  else
    let l := match c with Some i => [i] | None => conns s end in
    if any_obtainable s status other l then
      match profile with
      | None => [ORemote true; OToken tag l (negb authorize)]
      | Some (valid, tx) =>
          match c with
          | Some i => if tx && valid then [OProfile i; ORemote true; OToken tag l (negb authorize)] else [ORemote false]
          | None => [ORemote false]
          end
      end
    else [ORemote false].
(** handleUnlockConnectorRequest (2438-2462); transaction_active throws for other connectors, after the answer. [stopif]: StopTransactionIfUnlockNotSupported. *)
Definition unlock (c : Z) (answer : unlock_status) (stopif : bool) (s : st) : list out :=
  let valid := negb ((c <=? 0) || (n s <? c)) in
  let r := if valid then answer else NotSupported in
  (if valid then [OUnlock c] else []) ++ OUnlockResp r
  :: match r with
     | NotSupported => if in_range s c then (if active s c && stopif then [OStopTx c UnlockCommand] else []) else [OThrow]
     | _ => []
     end.
(** stop_all_transactions (1251-1258) and handleResetRequest (2296-2340); the reset itself, which waits for the answers, is left out. *)
Definition stop_all (why : reason) (s : st) : list out := map (fun c => OStopTx c why) (filter (active s) (conns s)).
Definition reset (soft allowed : bool) (s : st) : list out :=
  OReset allowed :: if allowed then stop_all (if soft then SoftReset else HardReset) s else [].
(** change_meter_values_sample_intervals (transaction.cpp 254-261): the timer of a resumed transaction is null. *)
Definition change_interval (s : st) : st * list out :=
  if existsb (fun c => match act s c with Some t => t_active t && negb (t_timer t) | None => false end) (slots s)
  then (set_dead s, [OUB]) else (s, []).

(** ** Everything that can happen *)
Inductive op :=
| Started (c : Z) (sess tag : N) (wh : Z) (resv : option Z) (time iid : Z)
| Stopped (c : Z) (why : reason) (time wh : Z) (tag : option N) (unlock : bool)
| Meter (c : Z) (periodic : bool) (value : Z) (last : option stamp)
| Deliver (tid : Z) (ok : bool) (parent : option N) (inv : bool)
| Sent | Retry | GiveUp | Discard (mid : N)
| Boot (resuming : list N) (restore : bool)
| Avail (c : Z) (up : bool) (prep : Z -> bool)
| SessionStopped (c : Z)
| Firmware (signed : bool) (x : fw_status)
| RemoteStop (tid : Z)
| RemoteStart (c : option Z) (tag : N) (profile : option (bool * bool)) (status : Z -> conn_status) (other : option (Z -> bool)) (authorize : bool)
| Unlock (c : Z) (answer : unlock_status) (stopif : bool)
| Reset (soft allowed : bool)
| ChangeInterval.
Definition step (o : op) (s : st) : st * list out :=
  if dead s then match o with Boot r b => boot r b s | _ => (s, []) end
  else match o with
  | Started c sess tag wh resv time iid => started c sess tag wh resv time iid s
  | Stopped c why time wh tag u => stop c why time wh tag u s
  | Meter c p v l => meter c p v l s
  | Deliver tid ok parent inv => deliver tid ok parent inv s
  | Sent => sent s
  | Retry => retry s
  | GiveUp => give_up s
  | Discard mid => discard mid s
  | Boot r b => boot r b s
  | Avail c up prep => change_availability c up prep s
  (* on_session_stopped (4353-4364) *)
  | SessionStopped c => execute_queued c s
  | Firmware g x => firmware g x s
  | RemoteStop tid => (s, remote_stop tid s)
  | RemoteStart c tag p status other a => (s, remote_start c tag p status other a s)
  | Unlock c a b => (s, unlock c a b s)
  | Reset b a => (s, reset b a s)
  | ChangeInterval => change_interval s
  end.
(** The state after, and everything seen during, a history. *)
Fixpoint run (h : list op) (s : st) : st * list out :=
  match h with [] => (s, []) | o :: r => let (s1, o1) := step o s in let (s2, o2) := run r s1 in (s2, o1 ++ o2) end.
