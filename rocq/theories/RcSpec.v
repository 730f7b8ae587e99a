(** What the theorems about remote control say, in terms of EVSEs, connectors, transactions and what was put out. *)
From Coq Require Import ZArith String List Bool.
From Verif Require Import TxModel TxSpec FwModel FwSpec RcModel.
From Verif Require CsmModel CsmSpec SecModel MvModel MvSpec StrSpec.
Import ListNotations.
Local Open Scope list_scope.
Local Open Scope Z_scope.

(** Connectors of each EVSE. *)
Definition con_of (r : rst) : list Z := w_con (r_w r).
(** A connector of the EVSE can be used as far as the station knows: neither station nor EVSE is inoperative, and the
    connector is reported neither faulted nor unavailable. *)
Definition can_charge (w : world) (e : Z) : Prop :=
  CsmModel.s_cs (w_csm w) = CsmModel.Operative /\ CsmModel.s_ev (w_csm w) e = CsmModel.Operative /\
  exists c, known_connector (w_con w) e c /\
    CsmModel.c_faulted (CsmModel.s_con (w_csm w) e c) = false /\ CsmModel.c_unavail (CsmModel.s_con (w_csm w) e c) = false.
(** A request to start a transaction on EVSE [e] can be handed on. *)
Definition startable (r : rst) (e : Z) (k : check) : Prop :=
  w_tx (r_w r) e = None /\ can_charge (r_w r) e /\ ~ (r_res r = true /\ k = ReservedForOther).
(** Smart charging exists if it is enabled. *)
Definition smart_ok (c : rcfg) (r : rst) : Prop := x_smart c = Some true -> r_sc r = true.
(** The charging profile of a request that smart charging is to see. *)
Definition profile_for (c : rcfg) (a : start_req) (e : Z) : list rout :=
  match x_smart c, a_profile a with
  | Some true, Some (Profile p true) => [RProfile p e]
  | _, _ => []
  end.

(** Kinds of what is put out. *)
Definition start_call (o : rout) : bool := match o with RStartCall _ _ => true | _ => false end.
Definition start_resp (o : rout) : bool := match o with RStartResp _ _ => true | _ => false end.
Definition profile_call (o : rout) : bool := match o with RProfile _ _ => true | _ => false end.
Definition trig_resp (o : rout) : bool := match o with RTrigResp _ => true | _ => false end.
Definition reserve_call (o : rout) : bool := match o with RReserveCall _ => true | _ => false end.
(** The answer to a request: response or CALLERROR. *)
Definition is_answer (o : rout) : bool :=
  match o with
  | RUnlockResp _ | RStartResp _ _ | RStopResp _ | RTrigResp _ | RReserveResp _ _ | RCancelResp _ | RError => true
  | _ => false
  end.
(** TransactionEvent.req, StatusNotification.req and MeterValues.req put out. *)
Definition tx_messages (l : list rout) : list txev := flat_map (fun o => match o with RTx (OTx v) => [v] | _ => [] end) l.
Definition status_messages (l : list rout) : list (Z * Z * CsmModel.cstat * bool) :=
  flat_map (fun o => match o with RTx (OAv (CsmModel.ONote e c v t _)) => [(e, c, v, t)] | _ => [] end) l.
(** Other messages of the station. *)
Definition is_message (o : rout) : bool :=
  match o with
  | RBoot | RHeartbeat | RLog _ _ _ | RMeter _ _ | RFw (FNote _ _ _) | RTx (OTx _) | RTx (OAv (CsmModel.ONote _ _ _ _ _))
  | RSec (SecModel.OSign _ _ _) => true
  | _ => false
  end.

(** ** Histories *)
Definition rlog (t : list (rop * list rout)) : list rout := concat (map snd t).
(** What was put out by the firmware update block. *)
Definition fw_part (l : list rout) : list fout := flat_map (fun o => match o with RFw o => [o] | _ => [] end) l.
(** The log status the station told last of its own, since the process was started. *)
Definition last_log (l : list rout) : option (ulog * option Z) :=
  fold_left (fun a o => match o with RLog s id false => Some (s, id) | RFw FStarted => None | _ => a end) l None.
(** States a station can be in: any calls after the process was started on a station that was reachable. *)
Definition rc_reachable (r : rst) : Prop := exists w0 res sc cb h, reachable w0 /\ r = rstate (started w0 res sc cb) h.

(** ** Triggered messages *)

(** The EVSEs a trigger is about. *)
Definition concerned (w : world) (ev : option (Z * option Z)) (e : Z) : Prop :=
  match ev with Some (x, _) => e = x | None => known_evse (w_con w) e end.
(** Its samples of the measurands configured. *)
Definition aligned (c : rcfg) (r : rst) (e : Z) : list MvModel.sample :=
  MvSpec.filtered (x_aligned c) true (MvModel.m_samples (r_mv r e)).
(** The same sample, with the reading context Trigger (7). *)
Definition retold (s : MvModel.sample) : MvModel.sample :=
  MvModel.Sample (MvModel.s_value s) (MvModel.s_measurand s) (Some 7) (MvModel.s_phase s) (MvModel.s_location s)
    (MvModel.s_signed s) (MvModel.s_unit s) (MvModel.s_custom s).
(** Can the trigger be served? *)
Definition servable (c : rcfg) (r : rst) (k : trigger_kind) (ev : option (Z * option Z)) : Prop :=
  match k with
  | KBoot => r_reg r <> RegAccepted
  | KLog | KHeartbeat | KFirmware | KSignStation => True
  | KMeter => exists e, concerned (r_w r) ev e /\ aligned c r e <> []
  | KTransaction => exists e, concerned (r_w r) ev e /\ w_tx (r_w r) e <> None
  | KStatus => exists e n, ev = Some (e, Some n) /\ known_connector (con_of r) e n
  | KSignV2G => SecModel.g_v2g (x_sec c) = Some true
  | KPublish | KSignCombined | KSignV2G20 | KCustom => False
  end.
(** Is the trigger one this station knows of? *)
Definition implemented (k : trigger_kind) : Prop :=
  match k with KPublish | KSignCombined | KSignV2G20 | KCustom => False | _ => True end.
Definition known_target (r : rst) (ev : option (Z * option Z)) : Prop :=
  match ev with Some (e, _) => known_evse (con_of r) e | None => True end.
(** A TransactionEvent about the running transaction of [e], triggered. *)
Definition about (w : world) (e : Z) (v : txev) : Prop :=
  exists t, w_tx w e = Some t /\ v_kind v = Updated /\ v_trig v = Trigger /\ v_id v = t_id t /\ v_cs v = t_cs t /\
    v_reason v = t_reason t /\ v_remote v = t_remote t /\ v_evse v = None /\ v_tok v = None /\
    (v_seq v - t_seq t) mod 4294967296 = 0.
(** The EVSEs of a trigger with a running transaction, in order. *)
Definition busy_among (w : world) (l : list Z) : list Z := filter (fun e => match w_tx w e with Some _ => true | None => false end) l.

(** The status of a connector by the events the application has submitted. *)
Definition shown (w : world) (e n : Z) (v : CsmModel.cstat) : Prop := CsmSpec.has_status (CsmModel.s_con (w_csm w) e n) v.
(** The certificate use that is signed for. *)
Definition signs (k : trigger_kind) (u : SecModel.use) : Prop :=
  (k = KSignStation /\ u = SecModel.Station) \/ (k = KSignV2G /\ u = SecModel.V2G).

(** Nothing but the sequence numbers of transactions, the database rows and what was put out is different. *)
Definition only_sequence (r r1 : rst) (touched : Z -> Prop) : Prop :=
  (forall e t, w_tx (r_w r) e = Some t -> exists t1, w_tx (r_w r1) e = Some t1 /\ t_id t1 = t_id t /\ t_conn t1 = t_conn t /\ t_cs t1 = t_cs t /\
     (~ touched e -> t_seq t1 = t_seq t) /\ (touched e -> (t_seq t1 - t_seq t - 1) mod 4294967296 = 0)) /\
  (forall e, w_tx (r_w r) e = None -> w_tx (r_w r1) e = None) /\
  w_con (r_w r1) = w_con (r_w r) /\ w_csm (r_w r1) = w_csm (r_w r) /\ w_sched (r_w r1) = w_sched (r_w r) /\
  w_remote (r_w r1) = w_remote (r_w r) /\ w_rs (r_w r1) = w_rs (r_w r) /\ r_sec r1 = r_sec r /\ r_reg r1 = r_reg r /\
  r_lstat r1 = r_lstat r /\ r_mv r1 = r_mv r.

(** ** Reservations *)

(** The connector type is one the EVSE has, or may have. *)
Definition has_type (c : rcfg) (con : list Z) (e : Z) (t : option string) : Prop :=
  known_evse con e /\
  exists n, known_connector con e n /\
    match t, x_type c e n with
    | Some t, Some u => StrSpec.same_text t "Unknown" \/ StrSpec.same_text u "Unknown" \/ StrSpec.same_text u t
    | _, _ => True
    end.
Definition reservations_on (c : rcfg) : Prop := x_available c = Some true /\ x_enabled c = Some true.
(** A reservation that can be made. *)
Definition reservable (c : rcfg) (r : rst) (b : reserve_req) : Prop :=
  reservations_on c /\
  match b_evse b with
  | Some e => has_type c (con_of r) e (b_type b)
  | None => x_nonspecific c = Some true /\ exists e, has_type c (con_of r) e (b_type b)
  end.
