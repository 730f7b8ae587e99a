(** Settings of an OCPP 2.x station that follow variables of the device model.
    Modelled, of the repository:
    - lib/ocpp/v2/functional_blocks/provisioning.cpp  handle_set_variables_req (227-244), handle_variable_changed (539-596),
      handle_variables_changed (598-625), set_variables_internal (683-709), component_variable_change_requires_… (719-727),
      the interval in handle_boot_notification_response (172-206)
    - include/ocpp/v2/comparators.hpp 63-68, include/ocpp/common/message_queue.hpp 1004-1016
    - lib/ocpp/v2/connectivity_manager.cpp 37-56, 346-370; functional_blocks/meter_values.cpp 22-50; functional_blocks/availability.cpp 89-91
    Simplified: values are numbers (a password too), so that std::stoi and to_specific_type succeed; whether the device model
    accepts a value is said with it (DmModel); there is a network profile for the active slot; the callback of the
    application, the triggered monitors and logging are left out. *)
From Coq Require Import ZArith List Bool.
Import ListNotations.
Local Open Scope list_scope.
Local Open Scope Z_scope.

(** The variables treated in handle_variable_changed (545-593) and others. *)
Inductive var :=
| Password | Heartbeat | Aligned | Attempts | AttemptInterval | Timeout
| RandomRange | RepeatTimes | WaitMinimum | ProfileAttempts | PingInterval
| Other (n : Z).
(** Equality of ComponentVariable. *)
Definition var_dec : forall a b : var, {a = b} + {a <> b}.
Proof. decide equality. apply Z.eq_dec. Defined.
Definition same (a b : var) : bool := if var_dec a b then true else false.

(** What a websocket was given: the key and the options that may change without a new connection (connectivity_manager.cpp 346-362). *)
Record options := Options { o_key : Z; o_range : Z; o_repeat : Z; o_wait : Z; o_attempts : Z; o_ping : Z }.
(** The station: the values of the device model, whether it is registered, the SecurityProfile; the interval of the
    heartbeat_timer, that of the aligned_meter_values_timer if it runs, the three settings of the message queue, the
    options of the websocket if there is one. *)
Record station := Station { value : var -> Z; registered : bool; profile : Z; heartbeat : Z; aligned : option Z;
                            q_attempts : Z; q_interval : Z; q_timeout : Z; socket : option options }.

(** The same station with other values; DeviceModel::set_value of one. *)
Definition with_value (s : station) (f : var -> Z) : station :=
  Station f (registered s) (profile s) (heartbeat s) (aligned s) (q_attempts s) (q_interval s) (q_timeout s) (socket s).
Definition put (f : var -> Z) (v : var) (x : Z) : var -> Z := fun w => if same w v then x else f w.

(** MeterValues::update_aligned_data_interval (meter_values.cpp 22-50). *)
Definition update_aligned (s : station) : station :=
  Station (value s) (registered s) (profile s) (heartbeat s)
          (if value s Aligned <=? 0 then None else Some (value s Aligned))
          (q_attempts s) (q_interval s) (q_timeout s) (socket s).
(** ConnectivityManager::get_ws_connection_options (346-362). *)
Definition ws_options (s : station) : options :=
  Options (value s Password) (value s RandomRange) (value s RepeatTimes) (value s WaitMinimum) (value s ProfileAttempts) (value s PingInterval).
(** The same station with another websocket. *)
Definition with_socket (s : station) (o : option options) : station :=
  Station (value s) (registered s) (profile s) (heartbeat s) (aligned s) (q_attempts s) (q_interval s) (q_timeout s) o.
(** set_websocket_connection_options_without_reconnect (50-56, 44-48). *)
Definition update_options (s : station) : station :=
  match socket s with Some _ => with_socket s (Some (ws_options s)) | None => s end.
(** set_websocket_authorization_key (37-42); true: the websocket is disconnected to connect with the new key. *)
Definition set_key (s : station) (k : Z) : station * bool :=
  match socket s with
  | Some o => (with_socket s (Some (Options k (o_range o) (o_repeat o) (o_wait o) (o_attempts o) (o_ping o))), true)
  | None => (s, false)
  end.
(** Availability::set_heartbeat_timer_interval (89-91). *)
Definition set_heartbeat (s : station) (i : Z) : station :=
  Station (value s) (registered s) (profile s) i (aligned s) (q_attempts s) (q_interval s) (q_timeout s) (socket s).
(** message_queue.hpp 1004-1016. *)
Definition set_q_attempts (s : station) : station :=
  Station (value s) (registered s) (profile s) (heartbeat s) (aligned s) (value s Attempts) (q_interval s) (q_timeout s) (socket s).
Definition set_q_interval (s : station) : station :=
  Station (value s) (registered s) (profile s) (heartbeat s) (aligned s) (q_attempts s) (value s AttemptInterval) (q_timeout s) (socket s).
Definition set_q_timeout (s : station) : station :=
  Station (value s) (registered s) (profile s) (heartbeat s) (aligned s) (q_attempts s) (q_interval s) (value s Timeout) (socket s).

(** One SetVariableData: the variable, whether the attribute is Actual (or left out), the value, whether validation and device
    model accept it. *)
Record item := Item { i_var : var; i_actual : bool; i_value : Z; i_ok : bool }.

(** provisioning.cpp 719-727. *)
Definition requires_option_update (v : var) : bool :=
  match v with RandomRange | RepeatTimes | WaitMinimum | ProfileAttempts | PingInterval => true | _ => false end.
(** handle_variable_changed (539-596). *)
Definition handle_variable_changed (s : station) (i : item) : station * bool :=
  if negb (i_actual i) then (s, false)
  else
    let v := i_var i in
    let '(s, again) := if same v Password && (profile s <? 3) then set_key s (i_value i) else (s, false) in
    let s := if same v Heartbeat && registered s then set_heartbeat s (i_value i) else s in
    let s := if same v Aligned then update_aligned s else s in
    let s := if requires_option_update v then update_options s else s in
    let s := if same v AttemptInterval then set_q_interval s else s in
    let s := if same v Attempts then set_q_attempts s else s in
    let s := if same v Timeout then set_q_timeout s else s in
    (s, again).

(** std::map::operator[] and assignment (706) with comparators.hpp 63-68, which look at neither attribute nor value: a key that
    is there stays, its result is replaced. The order of insertion stands for that of the map. *)
Fixpoint put_result (i : item) (l : list (item * bool)) : list (item * bool) :=
  match l with
  | [] => [(i, i_ok i)]
  | (k, r) :: l' => if same (i_var k) (i_var i) then (k, i_ok i) :: l' else (k, r) :: put_result i l'
  end.
(** set_variables_internal (683-709); device_model.set_value stores what is accepted, of the other attributes elsewhere. *)
Fixpoint set_variables_loop (f : var -> Z) (l : list item) (acc : list (item * bool)) : (var -> Z) * list (item * bool) :=
  match l with
  | [] => (f, acc)
  | i :: l' => set_variables_loop (if i_ok i && i_actual i then put f (i_var i) (i_value i) else f) l' (put_result i acc)
  end.
(** handle_variables_changed (598-625): the accepted ones, in the order of the map. *)
Fixpoint variables_changed (s : station) (l : list (item * bool)) : station * bool :=
  match l with
  | [] => (s, false)
  | (i, r) :: l' =>
      let '(s', b) := if r then handle_variable_changed s i else (s, false) in
      let '(s'', b') := variables_changed s' l' in (s'', b || b')
  end.
(** handle_set_variables_req (227-244), and ChargePoint::set_variables. The flag: the websocket was disconnected for a new key. *)
Definition set_variables (s : station) (l : list item) : station * bool :=
  let '(f, r) := set_variables_loop (value s) l [] in variables_changed (with_value s f) r.

(** What happens: SetVariables; a websocket is made for a network profile with this security profile (the options are read then,
    and SecurityProfile is set); it goes; BootNotification.conf Accepted with this interval, or another status. *)
Inductive event := Set_ (l : list item) | Connect (p : Z) | Gone | Booted (interval : Z) | NotBooted.
Definition step (s : station) (e : event) : station * bool :=
  match e with
  | Set_ l => set_variables s l
  | Connect p =>
      let s := Station (value s) (registered s) p (heartbeat s) (aligned s) (q_attempts s) (q_interval s) (q_timeout s) (socket s) in
      (with_socket s (Some (ws_options s)), false)
  | Gone => (with_socket s None, false)
  (* handle_boot_notification_response 178-206 *)
  | Booted n =>
      let s := Station (value s) true (profile s) (heartbeat s) (aligned s) (q_attempts s) (q_interval s) (q_timeout s) (socket s) in
      let s := if 0 <? n then with_value (set_heartbeat s n) (put (value s) Heartbeat n) else s in
      (update_aligned s, false)
  | NotBooted =>
      (Station (value s) false (profile s) (heartbeat s) (aligned s) (q_attempts s) (q_interval s) (q_timeout s) (socket s), false)
  end.
(** charge_point.cpp 515-523: the queue is made with the values of the device model; before registration no timer runs. *)
Definition start (f : var -> Z) (p : Z) : station :=
  Station f false p 0 None (f Attempts) (f AttemptInterval) (f Timeout) None.
(** A history. *)
Fixpoint run (s : station) (l : list event) : station :=
  match l with [] => s | e :: l' => run (fst (step s e)) l' end.
