(** The connectivity manager of OCPP 2.x: which network profile the station connects with.

    Model of
    - lib/ocpp/v2/connectivity_manager.cpp            all of it
    - lib/ocpp/v2/functional_blocks/provisioning.cpp  handle_set_network_profile_req (354-453), validate_set_variable
                                                      (627-681)

    Simplifications. The JSON text of NetworkConnectionProfiles is a list of profiles, of which slot, security profile and
    interface are kept; whether the URL of a profile is valid, what the callback configuring the network answers (or that
    it does not answer in time) and whether a write to the device model succeeds are inputs. The ChargePointId and the
    setting AllowSecurityLevelZeroConnections do not change. The websocket itself is an environment that may report
    anything at any time; of its own state only its existence and whether it is connected are kept. The number of slots
    is less than 2^31. std::stoi is that of [StrModel], without leading white space. *)
From Coq Require Import ZArith List Bool String Ascii.
From Verif Require Import StrModel JsonModel.
Import ListNotations.
Local Open Scope string_scope.
Local Open Scope Z_scope.

(** ocpp_types.hpp, SetNetworkProfileRequest and NetworkConnectionProfile: the parts used. *)
Record profile := mkP { p_slot : Z; p_level : Z; p_iface : Z }.

(** websocket_base.hpp: WebsocketCloseReason, as far as it is used here. *)
Inductive close_reason := Normal | ServiceRestart | GoingAway | OtherReason.

(** The lambdas given to websocket_timer (connectivity_manager.cpp 208-211 and 411-417). *)
Inductive timer_action := TryNextOf (slot : Z) | Reconnect (r : close_reason).

(** connectivity_manager.hpp 122-150, followed by what it keeps in the device model. *)
Record cm := mkCm {
  slots : list Z;                      (* network_connection_slots *)
  prio : nat;                          (* active_network_configuration_priority *)
  pending : option Z;                  (* pending_configuration_slot *)
  wants : bool;                        (* wants_to_be_connected *)
  last_level : Z;                      (* last_known_security_level *)
  cache : list profile;                (* cached_network_connection_profiles *)
  ws : bool;                           (* websocket != nullptr *)
  up : bool;                           (* websocket->is_connected() *)
  timer : option timer_action;         (* websocket_timer *)
  dm_level : Z;                        (* SecurityCtrlr SecurityProfile *)
  dm_profiles : list profile;          (* InternalCtrlr NetworkConnectionProfiles *)
  dm_priority : string;                (* OCPPCommCtrlr NetworkConfigurationPriority *)
  dm_active : option Z;                (* OCPPCommCtrlr ActiveNetworkProfile *)
  allow_zero_level : bool;             (* InternalCtrlr AllowSecurityLevelZeroConnections *)
  station_id : string }.               (* InternalCtrlr ChargePointId *)

Definition set_slots (s : cm) (x : list Z) (p : option Z) (l : Z) : cm :=
  mkCm x (prio s) p (wants s) l (cache s) (ws s) (up s) (timer s) (dm_level s) (dm_profiles s) (dm_priority s) (dm_active s)
       (allow_zero_level s) (station_id s).
Definition set_pending (s : cm) (p : option Z) : cm := set_slots s (slots s) p (last_level s).
Definition set_wants (s : cm) (w : bool) : cm :=
  mkCm (slots s) (prio s) (pending s) w (last_level s) (cache s) (ws s) (up s) (timer s) (dm_level s) (dm_profiles s)
       (dm_priority s) (dm_active s) (allow_zero_level s) (station_id s).
Definition set_timer (s : cm) (t : option timer_action) : cm :=
  mkCm (slots s) (prio s) (pending s) (wants s) (last_level s) (cache s) (ws s) (up s) t (dm_level s) (dm_profiles s)
       (dm_priority s) (dm_active s) (allow_zero_level s) (station_id s).
Definition set_up (s : cm) (b : bool) : cm :=
  mkCm (slots s) (prio s) (pending s) (wants s) (last_level s) (cache s) (ws s) b (timer s) (dm_level s) (dm_profiles s)
       (dm_priority s) (dm_active s) (allow_zero_level s) (station_id s).
Definition set_started (s : cm) (i : nat) (active : option Z) : cm :=
  mkCm (slots s) i None (wants s) (last_level s) (cache s) true (up s) (timer s) (dm_level s) (dm_profiles s)
       (dm_priority s) active (allow_zero_level s) (station_id s).
Definition set_dm (s : cm) (l : Z) (ps : list profile) (pr : string) : cm :=
  mkCm (slots s) (prio s) (pending s) (wants s) (last_level s) (cache s) (ws s) (up s) (timer s) l ps pr (dm_active s)
       (allow_zero_level s) (station_id s).

(** What can be observed: an attempt with a slot (the log line, 189-227), the start of a connection, a close request to
    the websocket, new options for it, and the connected and disconnected callbacks. *)
Inductive event :=
| Tried (slot : Z)
| Start (p : profile)
| Close (r : close_reason)
| Options (p : profile)
| ConnectedCb (slot : Z) (p : profile)
| DisconnectedCb (slot : Z) (p : profile).

(** Inputs of one step: validity of the URLs, answers of the configuration callback ("true" also if there is none), success of writes. *)
Record env := mkE { e_url : profile -> bool; e_cfg : profile -> bool; w_level : bool; w_profiles : bool; w_priority : bool; w_active : bool }.

Definition bind {A B} (r : result A) (f : A -> result B) : result B := match r with Ret a => f a | Throws w => Throws w end.

(** connectivity_manager.cpp 75-93: get_network_connection_profile: the first profile of that slot, unless its level is 0 and that is not
    allowed. *)
Fixpoint first_of (slot : Z) (l : list profile) : option profile :=
  match l with [] => None | p :: l' => if p_slot p =? slot then Some p else first_of slot l' end.
Definition get_profile (s : cm) (slot : Z) : option profile :=
  match first_of slot (cache s) with
  | Some p => if negb (allow_zero_level s) && (p_level p =? 0) then None else Some p
  | None => None
  end.

(** connectivity_manager.cpp 95-104: get_priority_from_configuration_slot. *)
Fixpoint index_of (slot : Z) (l : list Z) : option nat :=
  match l with [] => None | x :: l' => if x =? slot then Some O else match index_of slot l' with Some i => Some (S i) | None => None end end.

(** connectivity_manager.cpp 110-112: std::vector::at. *)
Definition slot_at (l : list Z) (i : nat) : result Z := match nth_error l i with Some x => Ret x | None => Throws "out_of_range" end.

(** connectivity_manager.cpp 106-108: get_active_network_configuration_slot. *)
Definition active_slot (s : cm) : result Z := slot_at (slots s) (prio s).

(** connectivity_manager.cpp 279-292: get_next_configuration_slot. *)
Definition next_slot (l : list Z) (slot : Z) : result Z :=
  slot_at l (match index_of slot l with Some i => Nat.modulo (S i) (List.length l) | None => O end).

(** connectivity_manager.cpp 446-473: check_cache_for_invalid_security_profiles. *)
Definition check_cache (s : cm) : result cm :=
  if last_level s =? dm_level s then Ret s
  else bind (active_slot s) (fun active =>
    let before := match pending s with Some p => p | None => active end in
    let keep slot := match get_profile s slot with Some p => dm_level s <=? p_level p | None => false end in
    let l := filter keep (slots s) in
    match index_of before l with
    | Some _ => Ret (set_slots s l (Some before) (dm_level s))
    | None => bind (next_slot l before) (fun n => Ret (set_slots s l (Some n) (dm_level s)))
    end).

(** std::string::find(':'). *)
Fixpoint has_colon (s : string) : bool := match s with EmptyString => false | String c s' => Ascii.eqb c ":" || has_colon s' end.

(** connectivity_manager.cpp 171-256: try_connect_websocket. get_ws_connection_options (324-380) is called before the
    profile is found missing, and throws. *)
Definition try_connect (s : cm) (e : env) : result (cm * list event) :=
  if has_colon (station_id s) then Throws "runtime_error"
  else bind (check_cache s) (fun s =>
    bind (active_slot s) (fun active =>
      let slot := match pending s with Some p => p | None => active end in
      match get_profile s slot with
      | None => Throws "runtime_error"
      | Some p =>
          match (if e_url e p && e_cfg e p then index_of slot (slots s) else None) with
          | None => Ret (if wants s then set_timer s (Some (TryNextOf slot)) else s, [Tried slot])
          | Some i => Ret (set_started s i (if w_active e then Some slot else dm_active s), [Tried slot; Start p])
          end
      end)) .

(** connectivity_manager.cpp 122-144: connect. *)
Definition connect (s : cm) (want : option Z) (e : env) : result (cm * list event) :=
  match slots s with
  | [] => Ret (s, [])
  | _ =>
      bind (active_slot s) (fun active =>
        let slot := match want with Some x => x | None => active end in
        match get_profile s slot with
        | None => Ret (s, [])
        | Some _ =>
            let s1 := set_pending (set_wants s true) (Some slot) in
            if ws s1 && up s1 then Ret (s1, [Close ServiceRestart]) else try_connect s1 e
        end)
  end.

(** connectivity_manager.cpp 146-152: disconnect. *)
Definition disconnect (s : cm) : cm * list event :=
  (set_timer (set_wants s false) None, if ws s then [Close Normal] else []).

(** std::to_string(int). *)
Definition int_text (n : Z) : string := if n <? 0 then "-" ++ dec (- n) else dec n.

(** connectivity_manager.cpp 511-518: the priority text rebuilt from the items that remain. *)
Fixpoint join_items (l : list string) (acc : string) : string :=
  match l with
  | [] => acc
  | x :: l' => join_items l' ((if str_eq acc "" then acc else acc ++ ",") ++ x)
  end.

(** connectivity_manager.cpp 475-526: remove_network_connection_profiles_below_actual_security_profile. *)
Definition remove_below (s : cm) (e : env) : cm :=
  let ps := filter (fun p => negb (p_level p <? dm_level s)) (dm_profiles s) in
  let items := filter (fun it => existsb (fun p => str_eq (int_text (p_slot p)) it) ps) (split_string (dm_priority s) "," false) in
  set_dm s (dm_level s) (if w_profiles e then ps else dm_profiles s) (if w_priority e then join_items items "" else dm_priority s).

(** connectivity_manager.cpp 154-169: confirm_successful_connection. *)
Definition confirm (s : cm) (e : env) : result cm :=
  bind (active_slot s) (fun slot =>
    let s1 := match get_profile s slot with
              | Some p => if w_level e then set_dm s (p_level p) (dm_profiles s) (dm_priority s) else s
              | None => s
              end in
    check_cache (remove_below s1 e)).

(** connectivity_manager.cpp 382-392: on_websocket_connected. *)
Definition on_connected (s : cm) : result (cm * list event) :=
  bind (active_slot s) (fun slot =>
    Ret (set_up s true, match get_profile s slot with Some p => [ConnectedCb slot p] | None => [] end)).

(** connectivity_manager.cpp 394-402: on_websocket_disconnected. *)
Definition on_disconnected (s : cm) : result (cm * list event) :=
  bind (active_slot s) (fun slot =>
    Ret (set_up s false, match get_profile s slot with Some p => [DisconnectedCb slot p] | None => [] end)).

(** connectivity_manager.cpp 404-420: on_websocket_stopped_connecting; the log line already asks for the active slot. *)
Definition on_stopped (s : cm) (r : close_reason) : result (cm * list event) :=
  bind (active_slot s) (fun _ => Ret (if wants s then set_timer s (Some (Reconnect r)) else s, [])).

(** The timer expires (208-211, 411-417). *)
Definition on_timer (s : cm) (e : env) : result (cm * list event) :=
  let s1 := set_timer s None in
  match timer s with
  | None => Ret (s, [])
  | Some (TryNextOf slot) => bind (next_slot (slots s1) slot) (fun n => try_connect (set_pending s1 (Some n)) e)
  | Some (Reconnect ServiceRestart) => try_connect s1 e
  | Some (Reconnect _) =>
      bind (active_slot s1) (fun a => bind (next_slot (slots s1) a) (fun n => try_connect (set_pending s1 (Some n)) e))
  end.

(** connectivity_manager.cpp 302-315: on_network_disconnected. *)
Definition on_network_disconnected (s : cm) (iface : Z) : result (cm * list event) :=
  bind (active_slot s) (fun slot =>
    match get_profile s slot with
    | Some p => Ret (s, if (p_iface p =? iface) && ws s then [Close GoingAway] else [])
    | None => Ret (s, [])
    end).

(** connectivity_manager.cpp 37-42 and 317-322: a new password or certificate. *)
Definition restart_websocket (s : cm) : cm * list event := (s, if ws s then [Close ServiceRestart] else []).

(** connectivity_manager.cpp 44-56: set_websocket_connection_options_without_reconnect. *)
Definition refresh_options (s : cm) (e : env) : result (cm * list event) :=
  bind (active_slot s) (fun slot =>
    match get_profile s slot with
    | None => Throws "runtime_error"
    | Some p => Ret (s, if e_url e p && ws s then [Options p] else [])
    end).

(** connectivity_manager.cpp 438-443: the list of slots. *)
Fixpoint parse_slots (l : list string) : result (list Z) :=
  match l with
  | [] => Ret []
  | x :: l' => bind (stoi x) (fun n => bind (parse_slots l') (fun r => Ret (n :: r)))
  end.

(** connectivity_manager.cpp 22-35 and 422-444: the constructor with cache_network_connection_profiles. *)
Definition construct (level : Z) (ps : list profile) (pr : string) (active : option Z) (az : bool) (id : string) : result cm :=
  if negb az && negb (existsb (fun p => negb (p_level p =? 0)) ps) then Throws "invalid_argument"
  else bind (parse_slots (split_string pr "," false)) (fun l =>
    Ret (mkCm l O None false 0 ps false false None level ps pr active az id)).

(** The process is started again. *)
Definition restart (s : cm) : result cm :=
  construct (dm_level s) (dm_profiles s) (dm_priority s) (dm_active s) (allow_zero_level s) (station_id s).

(** provisioning.cpp 398-413: the last profile of the slot is overridden, or one appended. *)
Fixpoint has_slot (slot : Z) (l : list profile) : bool :=
  match l with [] => false | p :: l' => (p_slot p =? slot) || has_slot slot l' end.
Fixpoint override_last (p : profile) (l : list profile) : list profile :=
  match l with
  | [] => [p]
  | x :: l' => if (p_slot x =? p_slot p) && negb (has_slot (p_slot p) l') then p :: l' else x :: override_last p l'
  end.

(** provisioning.cpp 354-453: handle_set_network_profile_req; [valid]: answer of the validation callback, if there is one. *)
Definition set_network_profile (s : cm) (p : profile) (valid : option bool) (e : env) : cm * bool :=
  match valid with
  | None => (s, false)
  | Some v =>
      if p_level p <? dm_level s then (s, false)
      else if negb v then (s, false)
      else if w_profiles e then (set_dm s (dm_level s) (override_last p (dm_profiles s)) (dm_priority s), true) else (s, false)
  end.

(** provisioning.cpp 637-669: the slots one by one; [leaf], [root]: certificates are installed. invalid_argument is caught
    (670-673), out_of_range is not. *)
Fixpoint validate_slots (l : list string) (ps : list profile) (level : Z) (leaf root : bool) : result bool :=
  match l with
  | [] => Ret true
  | x :: l' =>
      match ps with
      | [] => Ret false
      | _ =>
          match stoi x with
          | Throws w => if str_eq w "invalid_argument" then Ret false else Throws w
          | Ret n =>
              match first_of n ps with
              | None => Ret false
              | Some p =>
                  if p_level p <=? level then validate_slots l' ps level leaf root
                  else if (p_level p =? 3) && negb leaf then Ret false
                  else if (2 <=? p_level p) && negb root then Ret false
                  else validate_slots l' ps level leaf root
              end
          end
      end
  end.

(** provisioning.cpp 627-681 and the setting of the variable: a new NetworkConfigurationPriority from the CSMS. *)
Definition set_priority (s : cm) (text : string) (leaf root : bool) (e : env) : result (cm * bool) :=
  bind (validate_slots (split_string text "," false) (dm_profiles s) (dm_level s) leaf root) (fun ok =>
    if ok && w_priority e then Ret (set_dm s (dm_level s) (dm_profiles s) text, true) else Ret (s, false)).

(** ** Everything that can happen *)

Inductive op :=
| OConnect (slot : option Z) (e : env)
| ODisconnect
| OConfirm (e : env)
| OConnected
| ODisconnected
| OStopped (r : close_reason)
| OTimer (e : env)
| ONetworkDown (iface : Z)
| ORestartWebsocket
| ORefresh (e : env)
| OSetProfile (p : profile) (valid : option bool) (e : env)
| OSetPriority (text : string) (leaf root : bool) (e : env)
| OReboot.

Definition step (s : cm) (o : op) : result (cm * list event) :=
  match o with
  | OConnect x e => connect s x e
  | ODisconnect => Ret (disconnect s)
  | OConfirm e => bind (confirm s e) (fun s' => Ret (s', []))
  | OConnected => on_connected s
  | ODisconnected => on_disconnected s
  | OStopped r => on_stopped s r
  | OTimer e => on_timer s e
  | ONetworkDown i => on_network_disconnected s i
  | ORestartWebsocket => Ret (restart_websocket s)
  | ORefresh e => refresh_options s e
  | OSetProfile p v e => Ret (fst (set_network_profile s p v e), [])
  | OSetPriority t a b e => bind (set_priority s t a b e) (fun x => Ret (fst x, []))
  | OReboot => bind (restart s) (fun s' => Ret (s', []))
  end.

Fixpoint run (s : cm) (l : list op) : result (cm * list event) :=
  match l with
  | [] => Ret (s, [])
  | o :: l' => bind (step s o) (fun x => bind (run (fst x) l') (fun y => Ret (fst y, (snd x ++ snd y)%list)))
  end.
