(** Remote control of an OCPP 2.x station: starting and stopping transactions, unlocking connectors, triggered messages and
    reservations.

    Model of
    - lib/ocpp/v2/functional_blocks/remote_transaction_control.cpp  all of it; lines given alone are of that file
    - lib/ocpp/v2/functional_blocks/reservation.cpp                 all of it
    - lib/ocpp/v2/charge_point.cpp                                  on_log_status_notification (382-394), the blocks created
      (542-553, 588-622), handle_message (667-700), message_callback (953-1025)
    - lib/ocpp/v2/evse.cpp                                          does_connector_exist (94-125)
    - lib/ocpp/v2/evse_manager.cpp                                  does_connector_exist (46-56)
    on top of [TxModel] (EVSEs, transactions), [FwModel] (firmware status), [SecModel] (certificates), [CsmModel] (connectors)
    and [MvModel] (meter values).

    Simplifications. AuthorizeRemoteStart, AlignedDataMeasurands and SampledDataTxUpdatedMeasurands have values; the lists of
    measurands are given as lists. Id tokens, transaction ids, profiles and what the application is asked are numbers; what
    it answers is part of the call, as is the answer of smart charging to a profile ([Sc2Model] has that part). The meter
    value of a triggered TransactionEvent is left out. No SQL statement fails and no crash happens during the functions of
    this block; both can happen during all other calls. The functions run one after the other. *)
From Coq Require Import ZArith String List Bool.
From Verif Require Import TxModel FwModel.
From Verif Require CsmModel SecModel MvModel StrModel.
Import ListNotations.
Local Open Scope list_scope.
Local Open Scope Z_scope.

(** ocpp_enums.hpp: RegistrationStatusEnum, UnlockStatusEnum, TriggerMessageStatusEnum, MessageTriggerEnum and, of
    UploadLogStatusEnum, what the code tells apart; ReserveNowStatusEnum; ReservationCheckStatus (common/types.hpp). *)
Inductive reg := RegAccepted | RegPending | RegRejected.
Inductive unlock := Unlocked | UnlockFailed | OngoingAuthorizedTransaction | UnknownConnector.
Inductive tstatus := TrigAccepted | TrigRejected | TrigNotImplemented.
Inductive trigger_kind := KBoot | KLog | KFirmware | KHeartbeat | KMeter | KSignStation | KSignV2G | KSignV2G20 | KSignCombined
  | KStatus | KTransaction | KPublish | KCustom.
Inductive ulog := Uploading | LogOther (n : Z).
Definition log_idle : ulog := LogOther 0.
Inductive rstatus := RsAccepted | RsFaulted | RsOccupied | RsRejected | RsUnavailable.
Inductive check := NotReserved | ReservedForToken | ReservedForOther | NotReservedOther.
(** The status infos of reservation.cpp. *)
Inductive rinfo := InfoNotImplemented | InfoNotAvailable | InfoNotEnabled | InfoNoEvse | InfoUnknownEvse | InfoUnknownType
  | InfoNoEvses | InfoNoConnector.

(** RequestStartTransactionRequest. [p_tx]: the purpose is TxProfile. *)
Record profile := Profile { p_id : Z; p_tx : bool }.
Record start_req := StartReq {
  a_evse : option Z; a_tok : Z; a_group : option Z; a_rid : Z; a_profile : option profile }.
(** ReserveNowRequest. *)
Record reserve_req := ReserveReq { b_id : Z; b_evse : option Z; b_type : option string }.

(** The variables of the device model read. *)
Record rcfg := RCfg {
  x_smart : option bool;                   (* SmartChargingCtrlrEnabled *)
  x_auth : bool;                           (* AuthorizeRemoteStart *)
  x_aligned : list Z;                      (* AlignedDataMeasurands *)
  x_available : option bool;               (* ReservationCtrlrAvailable *)
  x_enabled : option bool;                 (* ReservationCtrlrEnabled *)
  x_nonspecific : option bool;             (* ReservationCtrlrNonEvseSpecific *)
  x_type : Z -> Z -> option string;        (* the type of a connector *)
  x_sec : SecModel.config }.

(** What leaves the library. *)
Inductive rout :=
| RUnlockCall (e c : Z)                    (* unlock_connector_callback *)
| RUnlockResp (s : unlock)
| RAskReserved (e tok : Z) (group : option Z)   (* is_reservation_for_token_callback *)
| RProfile (p e : Z)                       (* conform_validate_and_add_profile *)
| RStartCall (a : start_req) (authorize : bool) (* remote_start_transaction_callback *)
| RStartResp (accepted : bool) (info : option Z)
| RStopCall (e : Z)                        (* stop_transaction_callback with the reason Remote *)
| RStopResp (accepted : bool)
| RTrigResp (s : tstatus)
| RBoot                                    (* BootNotification.req with the reason Triggered *)
| RHeartbeat                               (* Heartbeat.req, triggered *)
| RLog (s : ulog) (id : option Z) (triggered : bool)  (* LogStatusNotification.req *)
| RMeter (e : Z) (m : MvModel.mvalue)      (* MeterValues.req, triggered *)
| RTx (o : out)
| RFw (o : fout)
| RSec (o : SecModel.out)
| RReserveCall (b : reserve_req)           (* reserve_now_callback *)
| RReserveResp (s : rstatus) (info : option rinfo)
| RCancelCall (id : Z)                     (* cancel_reservation_callback *)
| RCancelResp (accepted : bool)
| RError                                   (* CALLERROR *)
| RUndefined.                              (* a call through a null reference *)

(** The station. *)
Record rst := R {
  r_f : fw;                                (* world and firmware status *)
  r_sec : SecModel.st;
  r_reg : reg;                             (* registration_status *)
  r_lstat : ulog; r_lid : Z;               (* upload_log_status, upload_log_status_id *)
  r_mv : Z -> MvModel.mvalue;              (* Evse::meter_value *)
  r_res : bool;                            (* the reservation block exists *)
  r_sc : bool }.                           (* the smart charging block exists *)
Definition r_w (r : rst) : world := f_w (r_f r).
Definition set_w (w : world) (r : rst) : rst :=
  R (Fw (f_status (r_f r)) (f_id (r_f r)) (f_before (r_f r)) w) (r_sec r) (r_reg r) (r_lstat r) (r_lid r) (r_mv r) (r_res r) (r_sc r).
Definition set_sec (s : SecModel.st) (r : rst) : rst :=
  R (r_f r) s (r_reg r) (r_lstat r) (r_lid r) (r_mv r) (r_res r) (r_sc r).

(** optional<bool>::value_or(false). *)
Definition orf (o : option bool) : bool := match o with Some b => b | None => false end.
(** What is put out between two states of [TxModel]. The answer to a TriggerMessage is one of this block. *)
Definition lift (o : out) : rout :=
  match o with
  | OTrigResp Accepted => RTrigResp TrigAccepted
  | OTrigResp _ => RTrigResp TrigRejected
  | o => RTx o
  end.
Definition new_outs (w w1 : world) : list rout := map lift (skipn (length (w_out w)) (w_out w1)).

(** ** Transactions *)

(** is_evse_connector_available (36-56). *)
Definition usable (s : CsmModel.cstat) : bool :=
  match s with CsmModel.Faulted | CsmModel.Unavailable => false | _ => true end.
Definition evse_available (w : world) (e : Z) : bool :=
  negb (active w e) && existsb (fun c => usable (CsmModel.conn_effective_status (w_csm w) e c)) (CsmModel.ids (ncon w e)).
(** handle_unlock_connector (100-120); is_valid_evse throws for EVSE 0. *)
Definition handle_unlock (e c : Z) (answer : unlock) (r : rst) : rst * list rout :=
  let w := r_w r in
  if does_evse_exist w e && negb (evse_ok w e) then (r, [RError])
  else if is_valid_evse w e (Some c) then
    if negb (active w e) then (r, [RUnlockCall e c; RUnlockResp answer])
    else (r, [RUnlockResp OngoingAuthorizedTransaction])
  else (r, [RUnlockResp UnknownConnector]).
(** is_evse_reserved_for_other (435-443, reservation.cpp 47-54). [k]: the answer of the application. *)
Definition reserved (r : rst) (e : Z) (a : start_req) (k : check) : list rout * check :=
  if r_res r then ([RAskReserved e (a_tok a) (a_group a)], k) else ([], NotReserved).
Definition for_other (k : check) : bool := match k with ReservedForOther => true | _ => false end.
(** The charging profile (161-189): what is done, the status info, and whether the call is defined. [k]: None if smart
    charging accepts the profile, otherwise the status info of its answer. *)
Definition add_profile (c : rcfg) (r : rst) (e : Z) (a : start_req) (k : option (option Z)) : list rout * option Z * bool :=
  if orf (x_smart c) then
    match a_profile a with
    | Some p => if p_tx p then
                  if r_sc r then ([RProfile (p_id p) e], match k with None => None | Some i => i end, true)
                  else ([RUndefined], None, false)
                else ([], None, true)
    | None => ([], None, true)
    end
  else ([], None, true).
(** handle_remote_start_transaction_request (122-210). [answer]: that of the application. *)
Definition handle_start (c : rcfg) (a : start_req) (k : check) (pk : option (option Z)) (answer : bool) (r : rst)
  : rst * list rout :=
  match a_evse a with
  | None => (r, [RStartResp false None])
  | Some e =>
      if negb (evse_ok (r_w r) e) then (r, [RError])
      else
        let '(o1, s) := reserved r e a k in
        let ok := evse_available (r_w r) e && negb (for_other s) in
        let r1 := if ok then set_w (fst (do_tx (ORemoteId e (a_tok a) (a_rid a)) (r_w r))) r else r in
        let '(o2, info, defined) := add_profile c r e a pk in
        if defined then
          (r1, o1 ++ o2 ++ (if ok then [RStartCall a (x_auth c)] else []) ++ [RStartResp (ok && answer) info])
        else (r1, o1 ++ o2)
  end.
(** handle_remote_stop_transaction_request (212-228). *)
Definition handle_stop (id : Z) (answer : bool) (r : rst) : rst * list rout :=
  match transaction_evseid (r_w r) id with
  | Some e => (r, [RStopCall e; RStopResp answer])
  | None => (r, [RStopResp false])
  end.

(** ** TriggerMessage *)

(** The EVSEs asked for. *)
Definition asked (w : world) (ev : option (Z * option Z)) : list Z :=
  match ev with Some (e, _) => [e] | None => evses w end.
(** The answer (244-326). *)
Definition trigger_status (c : rcfg) (k : trigger_kind) (ev : option (Z * option Z)) (r : rst) : tstatus :=
  let yes (b : bool) := if b then TrigAccepted else TrigRejected in
  match k with
  | KBoot => yes (match r_reg r with RegAccepted => false | _ => true end)
  | KLog | KHeartbeat | KFirmware | KSignStation => TrigAccepted
  | KMeter => yes (existsb (fun e => MvModel.has_any (r_mv r e) (x_aligned c)) (asked (r_w r) ev))
  | KTransaction => yes (existsb (active (r_w r)) (asked (r_w r) ev))
  | KStatus => match ev with
               | Some (e, Some n) => yes ((0 <? n) && (n <=? ncon (r_w r) e))
               | _ => TrigRejected
               end
  | KSignV2G => yes (orf (SecModel.g_v2g (x_sec c)))
  | KPublish | KSignCombined | KSignV2G20 | KCustom => TrigNotImplemented
  end.
(** get_latest_meter_value_filtered (meter_values.cpp 99-108); include_signed defaults to true. *)
Definition filtered (c : rcfg) (m : MvModel.mvalue) : MvModel.mvalue :=
  MvModel.set_context (MvModel.measurands_applied m (x_aligned c) true) MvModel.Trigger.
(** send_meter_value (349-358). *)
Definition meter_message (c : rcfg) (r : rst) (e : Z) : list rout :=
  match MvModel.m_samples (filtered c (r_mv r e)) with [] => [] | _ => [RMeter e (filtered c (r_mv r e))] end.
(** The message (333-432). [csr]: as for sign_certificate_req; [d]: whether the StatusNotification can be handed over. *)
Definition sign (c : rcfg) (u : SecModel.use) (csr : option string) (r : rst) : rst * list rout :=
  let '(s, outs) := SecModel.step (r_sec r) (x_sec c, SecModel.Sign u true csr) in (set_sec s r, map RSec outs).
Definition follow (c : rcfg) (k : trigger_kind) (ev : option (Z * option Z)) (csr : option string) (d : bool) (r : rst)
  : rst * list rout :=
  match k with
  | KBoot => (r, [RBoot])
  | KMeter => (r, flat_map (meter_message c r) (asked (r_w r) ev))
  | KTransaction =>
      let w := r_w r in
      let w1 := foreach (asked w ev) (fun e => send_event e Updated Trigger None None)
                  (set_w_prog Running (set_w_budget None (set_w_fail [] w))) in
      (set_w w1 r, new_outs w w1)
  | KStatus =>
      match ev with
      | Some (e, Some n) =>
          let w := r_w r in
          let w1 := csm (CsmModel.SendOne e n d) (set_w_prog Running (set_w_budget None (set_w_fail [] w))) in
          (set_w w1 r, new_outs w w1)
      | _ => (r, [])
      end
  | KHeartbeat => (r, [RHeartbeat])
  | KLog => (r, [match r_lstat r with Uploading => RLog Uploading (Some (r_lid r)) true | _ => RLog log_idle None true end])
  | KFirmware => let '(f, outs) := on_request (r_f r) in
      (R f (r_sec r) (r_reg r) (r_lstat r) (r_lid r) (r_mv r) (r_res r) (r_sc r), map RFw outs)
  | KSignStation => sign c SecModel.Station csr r
  | KSignV2G => sign c SecModel.V2G csr r
  | KPublish | KSignCombined | KSignV2G20 | KCustom => (r, [])
  end.
(** handle_trigger_message (230-433). *)
Definition handle_trigger (c : rcfg) (k : trigger_kind) (ev : option (Z * option Z)) (csr : option string) (d : bool) (r : rst)
  : rst * list rout :=
  if match ev with Some (e, _) => negb (evse_ok (r_w r) e) | None => false end then (r, [RError])
  else
    match trigger_status c k ev r with
    | TrigAccepted => let '(r1, outs) := follow c k ev csr d r in (r1, RTrigResp TrigAccepted :: outs)
    | s => (r, [RTrigResp s])
    end.

(** ** Reservations *)

(** CiString equality: [StrModel.ci_eq]. ConnectorEnumStringType::Unknown. *)
Definition unknown_type : string := "Unknown"%string.
(** Evse::does_connector_exist (evse.cpp 94-125). *)
Definition evse_has_type (c : rcfg) (w : world) (e : Z) (t : string) : bool :=
  if ncon w e =? 0 then false
  else if StrModel.ci_eq t unknown_type then true
  else existsb (fun n => let u := match x_type c e n with Some u => u | None => unknown_type end in
                         StrModel.ci_eq u unknown_type || StrModel.ci_eq u t) (CsmModel.ids (ncon w e)).
(** EvseManager::does_connector_exist (evse_manager.cpp 46-56). *)
Definition connector_exists (c : rcfg) (w : world) (e : Z) (t : string) : bool := evse_ok w e && evse_has_type c w e t.
(** handle_reserve_now_request (reservation.cpp 64-172). The callback is set if the block exists. *)
Definition handle_reserve (c : rcfg) (b : reserve_req) (answer : rstatus) (r : rst) : rst * list rout :=
  let no i := (r, [RReserveResp RsRejected (Some i)]) in
  let w := r_w r in
  let t := match b_type b with Some t => t | None => unknown_type end in
  if negb (orf (x_available c)) then no InfoNotAvailable
  else if negb (orf (x_enabled c)) then no InfoNotEnabled
  else
    let go := (r, [RReserveCall b; RReserveResp answer None]) in
    match b_evse b with
    | None =>
        if negb (orf (x_nonspecific c)) then no InfoNoEvse
        else if nev w =? 0 then no InfoNoEvses
        else if existsb (fun e => connector_exists c w e t) (evses w) then go
        else no InfoNoConnector
    | Some e =>
        if (e <=? 0) || negb (does_evse_exist w e) then no InfoUnknownEvse
        else if connector_exists c w e t then go
        else no InfoUnknownType
    end.
(** handle_cancel_reservation_callback (reservation.cpp 174-194). *)
Definition handle_cancel (c : rcfg) (id : Z) (answer : bool) (r : rst) : rst * list rout :=
  if negb (orf (x_available c)) || negb (orf (x_enabled c)) then (r, [RCancelResp false])
  else (r, [RCancelCall id; RCancelResp answer]).

(** ** Calls *)

(** Requests of the CSMS. *)
Inductive rreq :=
| QUnlock (e c : Z) (answer : unlock)
| QStart (a : start_req) (k : check) (pk : option (option Z)) (answer : bool)
| QStop (id : Z) (answer : bool)
| QTrigger (k : trigger_kind) (ev : option (Z * option Z)) (csr : option string) (d : bool)
| QReserve (b : reserve_req) (answer : rstatus)
| QCancel (id : Z) (answer : bool).
(** ChargePoint::handle_message (charge_point.cpp 667-670, 692-699). *)
Definition handle_message (c : rcfg) (q : rreq) (r : rst) : rst * list rout :=
  match q with
  | QUnlock e n a => handle_unlock e n a r
  | QStart a k pk s => handle_start c a k pk s r
  | QStop id a => handle_stop id a r
  | QTrigger k ev csr d => handle_trigger c k ev csr d r
  | QReserve b a => if r_res r then handle_reserve c b a r else (r, [RError])
  | QCancel id a => if r_res r then handle_cancel c id a r else (r, [RError])
  end.
(** ChargePoint::message_callback (charge_point.cpp 953-1025) for these messages. *)
Definition receive (c : rcfg) (q : rreq) (r : rst) : rst * list rout :=
  match r_reg r with
  | RegAccepted => handle_message c q r
  | RegPending =>
      match q with
      | QTrigger _ _ _ _ => handle_message c q r
      | QStart _ _ _ _ => (r, [RStartResp false None])
      | QStop _ _ => (r, [RStopResp false])
      | _ => (r, [RError])
      end
  | RegRejected =>
      match q with
      | QTrigger KBoot _ _ _ => handle_message c q r
      | _ => (r, [RError])
      end
  end.

(** No meter value yet. *)
Definition no_value : MvModel.mvalue := MvModel.MV [] 0 None.
(** A process that has just been started. *)
Definition started (w : world) (res sc cb : bool) : rst :=
  R (fresh w) (SecModel.init cb) RegRejected log_idle 0 (fun _ => no_value) res sc.

(** One call into the library. [LEvent]: a connector event, [d] as above. *)
Inductive rop :=
| LReq (c : rcfg) (q : rreq)
| LReg (s : reg)                           (* the answer to BootNotification.req *)
| LLog (s : ulog) (id : Z)                 (* on_log_status_notification (charge_point.cpp 382-394) *)
| LMeter (e : Z) (m : MvModel.mvalue)      (* on_meter_value *)
| LEvent (e c : Z) (ev : CsmModel.cevent) (d : bool)
| LFw (o : fop)                            (* all calls of [FwModel] and [TxModel] *)
| LSec (c : SecModel.config) (o : SecModel.op).
Definition rstep (r : rst) (o : rop) : rst * list rout :=
  match o with
  | LReq c q => receive c q r
  | LReg s => (R (r_f r) (r_sec r) s (r_lstat r) (r_lid r) (r_mv r) (r_res r) (r_sc r), [])
  | LLog s id => (R (r_f r) (r_sec r) (r_reg r) s id (r_mv r) (r_res r) (r_sc r), [RLog s (Some id) false])
  | LMeter e m =>
      (R (r_f r) (r_sec r) (r_reg r) (r_lstat r) (r_lid r) (CsmModel.fupd (r_mv r) e m) (r_res r) (r_sc r), [])
  | LEvent e c ev d =>
      let w := r_w r in
      let w1 := csm (CsmModel.submit_event e c ev d) (set_w_prog Running (set_w_budget None (set_w_fail [] w))) in
      (set_w w1 r, new_outs w w1)
  | LFw o =>
      let '(f, outs) := fstep (r_f r) o in
      if match o with Other c => restarts (r_w r) c | _ => false end
      then (started (f_w f) (r_res r) (r_sc r) (SecModel.k_cb (r_sec r)), map RFw outs)
      else (R f (r_sec r) (r_reg r) (r_lstat r) (r_lid r) (r_mv r) (r_res r) (r_sc r), map RFw outs)
  | LSec c o =>
      let '(s, outs) := SecModel.step (r_sec r) (c, o) in
      if SecModel.k_gone s
      then (started (step (r_w r) (Call ORestart [] None)) (r_res r) (r_sc r) (SecModel.k_cb s), map RSec outs ++ [RFw FStarted])
      else (set_sec s r, map RSec outs)
  end.
Fixpoint rtrace (r : rst) (h : list rop) : list (rop * list rout) :=
  match h with [] => [] | o :: q => let '(r1, l) := rstep r o in (o, l) :: rtrace r1 q end.
Fixpoint rstate (r : rst) (h : list rop) : rst :=
  match h with [] => r | o :: q => rstate (fst (rstep r o)) q end.
