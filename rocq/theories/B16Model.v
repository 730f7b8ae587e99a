(** Registration of an OCPP 1.6 station: BootNotification, what is sent and handled before and after it was
    accepted, stop and restart, and the messages a CSMS may trigger.

    lib/ocpp/v16/charge_point_impl.cpp, lib/ocpp/v16/message_dispatcher.cpp and the parts of
    include/ocpp/common/message_queue.hpp that concern the registration.  The order in which the queue sends is not
    modelled here (see MQModel.v): a message is either free to be sent or held until the registration is accepted. *)
From Coq Require Import String List ZArith Bool.
Import ListNotations.
Open Scope Z_scope.

(** ChargePointConnectionState, include/ocpp/v16/types.hpp, used in charge_point_impl.hpp:91 *)
Inductive conn := Disconnected | Connected | Booted | CPending | CRejected.

(** RegistrationStatus, charge_point_impl.hpp:93 *)
Inductive reg := RAccepted | RPending | RRejected.

(** Actions a station sends, as far as message_queue.cpp:19-31 tells them apart *)
Inductive mtype := MBoot | MStartTx | MStopTx | MMeter | MSec | MHeartbeat | MStatus | MDiag | MFirmware | MLog
                 | MSigned | MSign | MOther.

(** A request the station creates; [mid] stands for its unique id and contents *)
Record msg := { mty : mtype; mid : Z }.

(** BootNotification.conf *)
Record bconf := { bc_status : reg; bc_interval : Z; bc_time : Z }.

(** Requests of the CSMS as far as message_callback tells them apart (charge_point_impl.cpp:1416-1431) *)
Inductive ckind := KRemoteStart | KRemoteStop | KOther.

(** Exceptions handlers throw (charge_point_impl.cpp:1444-1479): those of a wrong format and others *)
Inductive exc := XFormat | XOther.

(** What MessageQueue::receive gives or that it throws (charge_point_impl.cpp:1339-1367).  The flag says whether the
    message type is among getSupportedMessageTypesReceiving. *)
Inductive recv :=
| GCall (supported : bool) (k : ckind) (id : Z) (x : option exc)
| GConf (supported : bool) (c : option bconf)      (* BootNotification.conf, None if it cannot be parsed *)
| GResult (supported : bool) (id : Z)              (* any other response, or a CALLERROR *)
| GGarbage.

(** Configuration that does not change here *)
Record cfg := { c_queue_all : bool; c_no_security_events : bool; c_iso : bool; c_profile3 : bool }.

(** Members of ChargePointImpl and its message queue *)
Record st := {
  conn_state : conn;
  reg_status : reg;
  q_running : bool;          (* MessageQueue::running *)
  q_accepted : bool;         (* MessageQueue::is_registration_status_accepted *)
  q_held : list msg;         (* messages with stall_until_accepted, oldest first *)
  hb_interval : Z;           (* HeartbeatInterval *)
  boot_timer : option Z;
  hb_timer : option Z;
  cert_timers : bool;        (* ocsp_request_timer and v2g_certificate_timer *)
  client_timer : bool;       (* client_certificate_timer *)
  stopped : bool;
  initialized : bool;
}.

(** What can be seen from outside *)
Inductive ev :=
| EOut (m : msg)             (* free to be sent *)
| EHold (m : msg)            (* held until the registration is accepted *)
| EDrop (m : msg)            (* not sent at all *)
| EHandle (id : Z)           (* passed to the handler of its type *)
| ERefuse (id : Z)           (* RemoteStart or RemoteStop answered Rejected *)
| EError (id : Z) (code : string)
| EUnanswered (id : Z)
| EBootTimer (seconds : Z)
| EHbTimer (seconds : Z)
| ESetTime (t : Z)
| EStatuses                  (* StatusNotification.req for all connectors is told to be sent *)
| EConfTold (c : bconf).

(** charge_point_impl.cpp:45-54, 65, message_queue.hpp:399-409; before start(), [stopped] has no value in the code, here
    false *)
Definition init_st (hb : Z) : st :=
  {| conn_state := Disconnected; reg_status := RPending; q_running := true; q_accepted := false; q_held := [];
     hb_interval := hb; boot_timer := None; hb_timer := None; cert_timers := false; client_timer := false;
     stopped := false; initialized := false |}.

(** message_queue.cpp:19-23 *)
Definition is_transaction_message (t : mtype) : bool :=
  match t with MStartTx | MStopTx | MMeter | MSec => true | _ => false end.

(** message_queue.cpp:29-31 *)
Definition is_boot_notification_message (t : mtype) : bool :=
  match t with MBoot => true | _ => false end.

(** message_queue.hpp:85-91 *)
Inductive prio := SendImmediately | SendAfterAccepted | Discard.

(** get_message_transmission_priority, message_queue.hpp:98-111 *)
Definition get_message_transmission_priority (boot triggered accepted transaction queue_all : bool) : prio :=
  if accepted || boot || triggered then SendImmediately
  else if transaction || queue_all then SendAfterAccepted
  else Discard.

Definition set_held (s : st) (l : list msg) : st :=
  {| conn_state := conn_state s; reg_status := reg_status s; q_running := q_running s; q_accepted := q_accepted s;
     q_held := l; hb_interval := hb_interval s; boot_timer := boot_timer s; hb_timer := hb_timer s;
     cert_timers := cert_timers s; client_timer := client_timer s; stopped := stopped s;
     initialized := initialized s |}.

(** MessageQueue::push_call, message_queue.hpp:635-660, with allowed_to_send_message 153-157 *)
Definition push_call (s : st) (m : msg) (stall : bool) : st * list ev :=
  if negb (q_running s) then (s, [EDrop m])
  else if stall && negb (q_accepted s) then (set_held s (q_held s ++ [m]), [EHold m])
  else (s, [EOut m]).

Definition reg_accepted (r : reg) : bool := match r with RAccepted => true | _ => false end.

(** MessageDispatcher::dispatch_call, v16/message_dispatcher.cpp:9-26 *)
Definition dispatch_call (c : cfg) (s : st) (m : msg) (triggered : bool) : st * list ev :=
  match get_message_transmission_priority (is_boot_notification_message (mty m)) triggered
          (reg_accepted (reg_status s)) (is_transaction_message (mty m)) (c_queue_all c) with
  | SendImmediately => push_call s m false
  | SendAfterAccepted => push_call s m true
  | Discard => (s, [EDrop m])
  end.

(** MessageDispatcher::dispatch_call_async, v16/message_dispatcher.cpp:28-48: what would be held is not sent *)
Definition dispatch_call_async (c : cfg) (s : st) (m : msg) (triggered : bool) : st * list ev :=
  match get_message_transmission_priority (is_boot_notification_message (mty m)) triggered
          (reg_accepted (reg_status s)) (is_transaction_message (mty m)) (c_queue_all c) with
  | SendImmediately => push_call s m false
  | _ => (s, [EDrop m])
  end.

(** boot_notification, charge_point_impl.cpp:454-469 *)
Definition boot_notification (c : cfg) (s : st) (n : Z) (triggered : bool) : st * list ev :=
  dispatch_call c s {| mty := MBoot; mid := n |} triggered.

(** heartbeat, charge_point_impl.cpp:446-452 *)
Definition heartbeat (c : cfg) (s : st) (n : Z) (triggered : bool) : st * list ev :=
  dispatch_call c s {| mty := MHeartbeat; mid := n |} triggered.

(** securityEventNotification, charge_point_impl.cpp:3022-3052, for a critical event *)
Definition security_event (c : cfg) (s : st) (n : Z) : st * list ev :=
  if c_no_security_events c then (s, []) else dispatch_call c s {| mty := MSec; mid := n |} false.

(** get_persisted_messages_from_db, message_queue.hpp:582-632: what was stored is queued with stall_until_accepted *)
Definition load_messages (s : st) (loaded : list msg) : st * list ev :=
  if q_accepted s then (s, map EOut loaded) else (set_held s (q_held s ++ loaded), map EHold loaded).

Definition set_initialized (s : st) : st :=
  {| conn_state := conn_state s; reg_status := reg_status s; q_running := q_running s; q_accepted := q_accepted s;
     q_held := q_held s; hb_interval := hb_interval s; boot_timer := boot_timer s; hb_timer := hb_timer s;
     cert_timers := cert_timers s; client_timer := client_timer s; stopped := stopped s; initialized := true |}.

Definition set_started (s : st) : st :=
  {| conn_state := conn_state s; reg_status := reg_status s; q_running := q_running s; q_accepted := q_accepted s;
     q_held := q_held s; hb_interval := hb_interval s; boot_timer := boot_timer s; hb_timer := hb_timer s;
     cert_timers := cert_timers s; client_timer := client_timer s; stopped := false; initialized := initialized s |}.

(** start, charge_point_impl.cpp:1153-1193, with init 1139-1151; all boot reasons send a critical event *)
Definition start (c : cfg) (s : st) (loaded : list msg) (n : Z) : st * list ev :=
  let (s, e0) := if initialized s then (s, [])
                 else let (s, e) := load_messages s loaded in (set_initialized s, e) in
  let (s, e1) := boot_notification c s n false in
  let (s, e2) := security_event c s n in
  (set_started s, e0 ++ e1 ++ e2).

(** create_message_queue in restart, charge_point_impl.cpp:1200-1202: a new queue, the registration status stays *)
Definition new_queue (s : st) : st :=
  {| conn_state := conn_state s; reg_status := reg_status s; q_running := true; q_accepted := false;
     q_held := []; hb_interval := hb_interval s; boot_timer := boot_timer s; hb_timer := hb_timer s;
     cert_timers := cert_timers s; client_timer := client_timer s; stopped := stopped s;
     initialized := initialized s |}.

(** restart, charge_point_impl.cpp:1195-1207 *)
Definition restart (c : cfg) (s : st) (loaded : list msg) (n : Z) : st * list ev :=
  if stopped s then start c (new_queue s) loaded n else (s, []).

(** Dispatching several requests; [stop_all_transactions] in stop does so *)
Fixpoint dispatch_all (c : cfg) (s : st) (l : list msg) : st * list ev :=
  match l with
  | [] => (s, [])
  | m :: r => let (s1, e1) := dispatch_call c s m false in
              let (s2, e2) := dispatch_all c s1 r in (s2, e1 ++ e2)
  end.

Definition stop_timers (s : st) : st :=
  {| conn_state := conn_state s; reg_status := reg_status s; q_running := q_running s; q_accepted := q_accepted s;
     q_held := q_held s; hb_interval := hb_interval s; boot_timer := None; hb_timer := None;
     cert_timers := false; client_timer := false; stopped := stopped s; initialized := initialized s |}.

Definition set_stopped (s : st) : st :=
  {| conn_state := conn_state s; reg_status := reg_status s; q_running := false; q_accepted := q_accepted s;
     q_held := q_held s; hb_interval := hb_interval s; boot_timer := boot_timer s; hb_timer := hb_timer s;
     cert_timers := cert_timers s; client_timer := client_timer s; stopped := true; initialized := false |}.

(** stop, charge_point_impl.cpp:1260-1308; [last] are the requests of stop_all_transactions *)
Definition stop (c : cfg) (s : st) (last : list msg) : st * list ev :=
  if stopped s then (s, [])
  else let (s, e) := dispatch_all c (stop_timers s) last in (set_stopped s, e).

Definition set_conn (s : st) (k : conn) : st :=
  {| conn_state := k; reg_status := reg_status s; q_running := q_running s; q_accepted := q_accepted s;
     q_held := q_held s; hb_interval := hb_interval s; boot_timer := boot_timer s; hb_timer := hb_timer s;
     cert_timers := cert_timers s; client_timer := client_timer s; stopped := stopped s;
     initialized := initialized s |}.

(** connected_callback, charge_point_impl.cpp:1310-1334 *)
Definition connected_callback (s : st) : st * list ev :=
  match conn_state s with
  | Disconnected => (set_conn s Connected, [])
  | Booted => (s, [EStatuses])
  | CPending | CRejected | Connected => (s, [])
  end.

(** The disconnected callback, charge_point_impl.cpp:319-339 *)
Definition disconnected_callback (s : st) : st :=
  {| conn_state := conn_state s; reg_status := reg_status s; q_running := q_running s; q_accepted := q_accepted s;
     q_held := q_held s; hb_interval := hb_interval s; boot_timer := boot_timer s; hb_timer := hb_timer s;
     cert_timers := false; client_timer := false; stopped := stopped s; initialized := initialized s |}.

(** DEFAULT_BOOT_NOTIFICATION_INTERVAL_S, charge_point_impl.cpp:35 *)
Definition DEFAULT_BOOT_NOTIFICATION_INTERVAL_S : Z := 60.

(** handleBootNotificationResponse, charge_point_impl.cpp:1664-1733.  set_registration_status_accepted
    (message_queue.hpp:964-970) frees what was held. *)
Definition handleBootNotificationResponse (c : cfg) (s : st) (r : bconf) : st * list ev :=
  let hb := if 0 <? bc_interval r then bc_interval r else hb_interval s in
  let retry := if 0 <? bc_interval r then bc_interval r else DEFAULT_BOOT_NOTIFICATION_INTERVAL_S in
  match bc_status r with
  | RAccepted =>
      ({| conn_state := Booted; reg_status := RAccepted; q_running := q_running s; q_accepted := true;
          q_held := []; hb_interval := hb; boot_timer := None; hb_timer := Some hb;
          cert_timers := if c_iso c then true else cert_timers s;
          client_timer := if c_profile3 c then true else client_timer s; stopped := stopped s;
          initialized := initialized s |},
       map EOut (q_held s) ++ [ESetTime (bc_time r); EHbTimer hb; EStatuses; EConfTold r])
  | k =>
      ({| conn_state := match k with RPending => CPending | _ => CRejected end; reg_status := k;
          q_running := q_running s; q_accepted := q_accepted s; q_held := q_held s; hb_interval := hb;
          boot_timer := Some retry; hb_timer := hb_timer s; cert_timers := cert_timers s;
          client_timer := client_timer s; stopped := stopped s; initialized := initialized s |},
       [EBootTimer retry; EConfTold r])
  end.

(** handle_message, charge_point_impl.cpp:1482-1660: the handler of a type may throw; message_callback then answers a
    CALL with a CALLERROR (1444-1479) *)
Definition handle_call (id : Z) (x : option exc) : list ev :=
  match x with
  | None => [EHandle id]
  | Some XFormat => [EHandle id; EError id "FormationViolation"]
  | Some XOther => [EHandle id; EError id "GenericError"]
  end.

(** The handling of BootNotification.conf outside of handle_message; parsing may throw, then nothing happens but that
    the application is told (1444-1452) *)
Definition handle_boot_conf (c : cfg) (s : st) (r : option bconf) : st * list ev :=
  match r with Some r => handleBootNotificationResponse c s r | None => (s, []) end.

(** message_callback, charge_point_impl.cpp:1336-1480 *)
Definition message_callback (c : cfg) (s : st) (g : recv) : st * list ev :=
  match g with
  | GGarbage => (s, [EError (-1) "GenericError"])
  | GCall supported k id x =>
      if negb supported then (s, [EError id "NotSupported"])
      else match conn_state s with
           | Disconnected => (s, [])
           | Connected => (s, [EUnanswered id])
           | CRejected => match reg_status s with RRejected => (s, [EUnanswered id]) | _ => (s, []) end
           | CPending => match reg_status s with
                         | RPending => match k with
                                       | KRemoteStart | KRemoteStop => (s, [ERefuse id])
                                       | KOther => (s, handle_call id x)
                                       end
                         | _ => (s, [])
                         end
           | Booted => (s, handle_call id x)
           end
  | GConf supported r =>
      if negb supported then (s, [])
      else match conn_state s with
           | Disconnected => (s, [])
           | Connected => handle_boot_conf c s r
           | CRejected => match reg_status s with RRejected => handle_boot_conf c s r | _ => (s, []) end
           | CPending => match reg_status s with RPending => handle_boot_conf c s r | _ => (s, []) end
           | Booted => (s, [])                       (* handle_message does nothing for it, 1612-1613 *)
           end
  | GResult supported id =>
      if negb supported then (s, [])
      else match conn_state s with
           | CPending => match reg_status s with RPending => (s, [EHandle id]) | _ => (s, []) end
           | Booted => (s, [EHandle id])
           | _ => (s, [])
           end
  end.

Definition set_boot_timer (s : st) (b : option Z) : st :=
  {| conn_state := conn_state s; reg_status := reg_status s; q_running := q_running s; q_accepted := q_accepted s;
     q_held := q_held s; hb_interval := hb_interval s; boot_timer := b; hb_timer := hb_timer s;
     cert_timers := cert_timers s; client_timer := client_timer s; stopped := stopped s;
     initialized := initialized s |}.

(** The boot timer, charge_point_impl.cpp:99-100, armed by timeout: it runs out once *)
Definition boot_timer_fires (c : cfg) (s : st) (n : Z) : st * list ev :=
  match boot_timer s with
  | Some _ => boot_notification c (set_boot_timer s None) n false
  | None => (s, [])
  end.

(** The heartbeat timer, charge_point_impl.cpp:56, armed by interval: it keeps running *)
Definition hb_timer_fires (c : cfg) (s : st) (n : Z) : st * list ev :=
  match hb_timer s with
  | Some _ => heartbeat c s n false
  | None => (s, [])
  end.

(** ChangeConfiguration.req for HeartbeatInterval that is accepted, charge_point_impl.cpp:1867-1868 with
    update_heartbeat_interval 488-490 *)
Definition change_heartbeat (s : st) (z : Z) : st * list ev :=
  ({| conn_state := conn_state s; reg_status := reg_status s; q_running := q_running s; q_accepted := q_accepted s;
      q_held := q_held s; hb_interval := z; boot_timer := boot_timer s; hb_timer := Some z;
      cert_timers := cert_timers s; client_timer := client_timer s; stopped := stopped s;
      initialized := initialized s |}, [EHbTimer z]).

(** One step of the station *)
Inductive op :=
| OStart (loaded : list msg) (n : Z)
| ORestart (loaded : list msg) (n : Z)
| OStop (last : list msg)
| OConnect
| ODisconnect
| ORecv (g : recv)
| OBootTimer (n : Z)
| OHbTimer (n : Z)
| OSend (m : msg) (triggered : bool)
| OSendAsync (m : msg) (triggered : bool)
| OHeartbeatInterval (z : Z).

Definition step (c : cfg) (s : st) (o : op) : st * list ev :=
  match o with
  | OStart loaded n => start c s loaded n
  | ORestart loaded n => restart c s loaded n
  | OStop last => stop c s last
  | OConnect => connected_callback s
  | ODisconnect => (disconnected_callback s, [])
  | ORecv g => message_callback c s g
  | OBootTimer n => boot_timer_fires c s n
  | OHbTimer n => hb_timer_fires c s n
  | OSend m t => dispatch_call c s m t
  | OSendAsync m t => dispatch_call_async c s m t
  | OHeartbeatInterval z => change_heartbeat s z
  end.

(** The state and all events after a history, newest operation first *)
Fixpoint run (c : cfg) (hb : Z) (h : list op) : st * list ev :=
  match h with
  | [] => (init_st hb, [])
  | o :: r => let (s, e) := run c hb r in
              let (s', e') := step c s o in (s', e ++ e')
  end.

(** ** Triggered messages *)

(** MessageTrigger and MessageTriggerEnumType *)
Inductive trig := TBoot | TDiagnostics | TFirmware | THeartbeat | TMeter | TStatus.
Inductive xtrig := XBoot | XFirmware | XHeartbeat | XLog | XMeter | XSign | XStatus.

(** What a connector has measured: nothing, or something with or without one of the configured measurands
    (get_latest_meter_value, charge_point_impl.cpp:606-900; the values are the matter of MvModel.v) *)
Inductive meas := NoMeasurement | Useless | Useful.

Definition has_measurement (m : meas) : bool := match m with NoMeasurement => false | _ => true end.

(** A triggered request: its type and connector *)
Definition tmsg := (mtype * option Z)%type.

(** Connectors 0 .. n *)
Definition connectors_to (n : Z) : list Z := map Z.of_nat (seq 0 (S (Z.to_nat n))).

(** The measurement of a connector, [connectors] of the code holds 0 .. n (charge_point_impl.cpp:176-179) *)
Definition meas_of (ms : list meas) (c : Z) : meas := nth (Z.to_nat c) ms NoMeasurement.

(** send_meter_value_func, charge_point_impl.cpp:2650-2660, with send_meter_value 996-1033 *)
Definition send_meter (ms : list meas) (c : Z) : list tmsg :=
  match meas_of ms c with Useful => [(MMeter, Some c)] | _ => [] end.

(** handleTriggerMessageRequest, charge_point_impl.cpp:2594-2690: whether it is accepted and what is sent.  [ms] are the
    measurements of connectors 0 .. n. *)
Definition handleTriggerMessageRequest (ms : list meas) (t : trig) (connectorId : option Z) : bool * list tmsg :=
  let n := Z.of_nat (List.length ms) - 1 in
  let connector := match connectorId with Some c => c | None => 0 end in
  let ok := negb ((connector <? 0) || (n <? connector)) in
  let ok := if ok then
              match t with
              | TMeter => match connectorId with
                          | Some c => has_measurement (meas_of ms c)
                          | None => existsb has_measurement ms
                          end
              | _ => true
              end
            else false in
  if ok then
    (true,
     match t with
     | TBoot => [(MBoot, None)]
     | TDiagnostics => [(MDiag, None)]
     | TFirmware => [(MFirmware, None)]
     | THeartbeat => [(MHeartbeat, None)]
     | TMeter => match connectorId with
                 | None => flat_map (send_meter ms) (connectors_to n)
                 | Some c => send_meter ms c
                 end
     | TStatus => match connectorId with
                  | None => map (fun c => (MStatus, Some c)) (connectors_to n)
                  | Some c => [(MStatus, Some c)]
                  end
     end)
  else (false, []).

(** handleExtendedTriggerMessageRequest, charge_point_impl.cpp:2715-2810; [csr]: generating a signing request succeeds
    (sign_certificate 2812-2860) *)
Definition handleExtendedTriggerMessageRequest (cpo_name csr : bool) (ms : list meas) (t : xtrig) (connectorId : option Z)
  : bool * list tmsg :=
  let n := Z.of_nat (List.length ms) - 1 in
  let status := match t with XSign => cpo_name | _ => true end in
  let connector := match connectorId with Some c => c | None => 0 end in
  let valid := negb (negb status || (connector <? 0) || (n <? connector)) in
  if valid then
    (true,
     match t with
     | XBoot => [(MBoot, None)]
     | XFirmware => [(MSigned, None)]
     | XHeartbeat => [(MHeartbeat, None)]
     | XLog => [(MLog, None)]
     | XMeter => send_meter ms connector
     | XSign => if csr then [(MSign, None)] else []
     | XStatus => match connectorId with
                  | None => map (fun c => (MStatus, Some c)) (connectors_to n)
                  | Some c => [(MStatus, Some c)]
                  end
     end)
  else (false, []).
