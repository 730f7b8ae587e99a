(** Model of the OCPP 1.6 smart charging handler: lib/ocpp/v16/smart_charging.cpp,
    the charging profile table of lib/ocpp/v16/database_handler.cpp:525-617 and the
    handlers of lib/ocpp/v16/charge_point_impl.cpp that use them.

    Not modelled: failing database statements (QueryExecutionException), locking,
    dispatch of the responses and the callbacks. *)

From Coq Require Import ZArith List Bool.
From Verif Require Import Prof16Model.
Import ListNotations.
Open Scope Z_scope.

(* std::map<int, ChargingProfile>: association list in ascending key order *)
Definition pmap := list (Z * profile).

(* std::map::operator[] followed by assignment *)
Fixpoint mset (k : Z) (v : profile) (m : pmap) : pmap :=
  match m with
  | [] => [(k, v)]
  | (k', v') :: r =>
      if k <? k' then (k, v) :: m
      else if k =? k' then (k, v) :: r
      else (k', v') :: mset k v r
  end.

(* include/ocpp/v16/connector.hpp: struct Connector, the fields used here.  A
   transaction is its id (-1 until StartTransaction.conf) and the timestamp of its start
   energy. *)
Record connector := {
  c_tx : option (Z * Z);
  c_txdefault : pmap;
  c_txprofiles : pmap;
}.

(* a row of CHARGING_PROFILES: the id (primary key) is the profile's id *)
Definition row := (Z * profile)%type.      (* connector id, profile *)

(* SmartChargingHandler and its database.  [h_conns] is
   std::map<int32_t, shared_ptr<Connector>>; position in the list is the key, starting
   with the pseudo connector 0 (charge_point_impl.cpp creates ids 0..n). *)
Record handler := {
  h_max : pmap;
  h_conns : list connector;
  h_db : list row;
}.

Definition set_max (h : handler) (m : pmap) : handler :=
  {| h_max := m; h_conns := h_conns h; h_db := h_db h |}.
Definition set_conns (h : handler) (c : list connector) : handler :=
  {| h_max := h_max h; h_conns := c; h_db := h_db h |}.
Definition set_db (h : handler) (d : list row) : handler :=
  {| h_max := h_max h; h_conns := h_conns h; h_db := d |}.

Definition set_c_txdefault (c : connector) (m : pmap) : connector :=
  {| c_tx := c_tx c; c_txdefault := m; c_txprofiles := c_txprofiles c |}.
Definition set_c_txprofiles (c : connector) (m : pmap) : connector :=
  {| c_tx := c_tx c; c_txdefault := c_txdefault c; c_txprofiles := m |}.
Definition set_c_tx (c : connector) (t : option (Z * Z)) : connector :=
  {| c_tx := t; c_txdefault := c_txdefault c; c_txprofiles := c_txprofiles c |}.

(* database_handler.cpp:565-573 *)
Definition db_delete (id : Z) (d : list row) : list row :=
  filter (fun r => negb (pf_id (snd r) =? id)) d.

(* database_handler.cpp:525-563: first DELETE by stack level and purpose, then
   INSERT OR REPLACE by id *)
Definition db_insert (conn : Z) (p : profile) (d : list row) : list row :=
  db_delete (pf_id p)
    (filter (fun r => negb ((pf_stack (snd r) =? pf_stack p) &&
                            purpose_eqb (pf_purpose (snd r)) (pf_purpose p))) d)
  ++ [(conn, p)].

(* configuration keys read by validate_profile and its callers *)
Record cfg := {
  g_max_stack : Z;              (* ChargeProfileMaxStackLevel *)
  g_max_installed : Z;          (* MaxChargingProfilesInstalled *)
  g_max_periods : Z;            (* ChargingScheduleMaxPeriods *)
  g_units : list runit;         (* ChargingScheduleAllowedChargingRateUnit *)
  g_no_start : bool;            (* AllowChargingProfileWithoutStartSchedule *)
  g_purposes : list purpose;    (* SupportedChargingProfilePurposeTypes *)
}.

(* smart_charging.cpp:127-141 (sizes fit an int) *)
Definition number_installed (h : handler) : Z :=
  Z.of_nat (length (h_max h)) +
  fold_right (fun c n => Z.of_nat (length (c_txdefault c)) +
                         Z.of_nat (length (c_txprofiles c)) + n) 0 (h_conns h).

(* static_cast<size_t>(int) *)
Definition to_size_t (x : Z) : Z := x mod 2 ^ 64.

(* smart_charging.cpp:83-94: one period is acceptable *)
Definition period_ok (c : csp) : bool :=
  match sp_phases c with
  | Some n => (0 <? n) && (n <=? 3)
  | None => true
  end && (0 <=? sp_limit c).

(* smart_charging.cpp:68-96 validate_schedule *)
Definition validate_schedule (s : sched) (max_periods : Z) (units : list runit) : bool :=
  (Z.of_nat (length (sc_periods s)) <=? to_size_t max_periods) &&
  existsb (unit_eqb (sc_unit s)) units &&
  forallb period_ok (sc_periods s).

Definition with_start (p : profile) (t : Z) : profile :=
  {| pf_id := pf_id p; pf_stack := pf_stack p; pf_purpose := pf_purpose p; pf_kind := pf_kind p;
     pf_sched := {| sc_unit := sc_unit (pf_sched p); sc_periods := sc_periods (pf_sched p);
                    sc_duration := sc_duration (pf_sched p); sc_start := Some t |};
     pf_tx := pf_tx p; pf_recur := pf_recur p; pf_from := pf_from p; pf_to := pf_to p |}.

Definition with_duration (p : profile) (d : Z) : profile :=
  {| pf_id := pf_id p; pf_stack := pf_stack p; pf_purpose := pf_purpose p; pf_kind := pf_kind p;
     pf_sched := {| sc_unit := sc_unit (pf_sched p); sc_periods := sc_periods (pf_sched p);
                    sc_duration := Some d; sc_start := sc_start (pf_sched p) |};
     pf_tx := pf_tx p; pf_recur := pf_recur p; pf_from := pf_from p; pf_to := pf_to p |}.

(* smart_charging.cpp:304-398 validate_profile.  [now] is the clock read by DateTime().
   [None]: false; [Some p']: true, with the profile as modified through the reference.
   connectors.at() cannot throw: the id has been checked (line 308). *)
Definition validate_profile (g : cfg) (h : handler) (now : Z) (p : profile) (conn : Z)
           (ignore_no_tx : bool) : option profile :=
  let size := Z.of_nat (length (h_conns h)) in
  if (size <=? to_size_t conn) || (conn <? 0) || (pf_stack p <? 0) ||
     (g_max_stack g <? pf_stack p) then None
  else
    let no_start p := match sc_start (pf_sched p) with None => true | Some _ => false end in
    (* 314-322 *)
    let r1 := if kind_eqb (pf_kind p) Absolute && no_start p
              then (if g_no_start g then Some (with_start p now) else None)
              else Some p in
    match r1 with
    | None => None
    | Some p =>
        (* 324-332 *)
        if (g_max_installed g <=? number_installed h) then None
        else if negb (validate_schedule (pf_sched p) (g_max_periods g) (g_units g)) then None
        else
          (* 334-359 *)
          let r2 :=
            match pf_kind p with
            | Recurring =>
                match pf_recur p with
                | None => None
                | Some k =>
                    let r := if no_start p
                             then (if g_no_start g then Some (with_start p now) else None)
                             else Some p in
                    match r with
                    | None => None
                    | Some p =>
                        let m := match k with Daily => 86400 | Weekly => 86400 * 7 end in
                        match sc_duration (pf_sched p) with
                        | Some d => Some (if m <? d then with_duration p m else p)
                        | None => Some p
                        end
                    end
                end
            | _ => Some p
            end in
          match r2 with
          | None => None
          | Some p =>
              (* 361-397 *)
              match pf_purpose p with
              | PMax => if (conn =? 0) && negb (kind_eqb (pf_kind p) Relative)
                        then Some p else None
              | PTxDefault => Some p
              | PTx =>
                  if conn =? 0 then None
                  else
                    match nth_error (h_conns h) (Z.to_nat conn) with
                    | None => None
                    | Some c =>
                        match c_tx c, pf_tx p with
                        | None, None => if ignore_no_tx then Some p else None
                        | None, Some _ => None
                        | Some (t, _), Some t' => if t =? t' then Some p else None
                        | Some _, None => Some p
                        end
                    end
              end
          end
    end.

Fixpoint update_nth {A} (i : nat) (f : A -> A) (l : list A) : list A :=
  match l, i with
  | [], _ => []
  | x :: r, O => f x :: r
  | x :: r, S j => x :: update_nth j f r
  end.

(* smart_charging.cpp:400-408 *)
Definition add_charge_point_max_profile (h : handler) (p : profile) : handler :=
  let h := set_max h (mset (pf_stack p) p (h_max h)) in
  set_db h (db_insert 0 p (h_db h)).

(* smart_charging.cpp:410-425 *)
Definition add_tx_default_profile (h : handler) (p : profile) (conn : Z) : handler :=
  let put c := set_c_txdefault c (mset (pf_stack p) p (c_txdefault c)) in
  let h :=
    if conn =? 0 then
      match h_conns h with
      | [] => h
      | c0 :: r => set_conns h (c0 :: map put r)
      end
    else set_conns h (update_nth (Z.to_nat conn) put (h_conns h)) in
  set_db h (db_insert conn p (h_db h)).

(* smart_charging.cpp:427-435 *)
Definition add_tx_profile (h : handler) (p : profile) (conn : Z) : handler :=
  let put c := set_c_txprofiles c (mset (pf_stack p) p (c_txprofiles c)) in
  let h := set_conns h (update_nth (Z.to_nat conn) put (h_conns h)) in
  set_db h (db_insert conn p (h_db h)).

(* filter of ClearChargingProfile *)
Record filt := {
  f_id : option Z;
  f_conn : option Z;
  f_stack : option Z;
  f_purpose : option purpose;
}.

Definition opt_matches {A} (eqb : A -> A -> bool) (o : option A) (x : A) : bool :=
  match o with None => true | Some y => eqb y x end.

(* smart_charging.cpp:437-471 clear_profiles on one map; returns the remaining map, the
   remaining table and whether something was erased *)
Fixpoint clear_profiles (m : pmap) (f : filt) (conn : Z) (id_only : bool) (d : list row)
  : pmap * list row * bool :=
  match m with
  | [] => ([], d, false)
  | (k, p) :: r =>
      if match f_id f with Some i => pf_id p =? i | None => false end then
        let '(r', d', _) := clear_profiles r f conn id_only (db_delete (pf_id p) d) in
        (r', d', true)
      else if negb id_only && opt_matches Z.eqb (f_conn f) conn &&
              opt_matches Z.eqb (f_stack f) k &&
              opt_matches purpose_eqb (f_purpose f) (pf_purpose p) then
        let '(r', d', _) := clear_profiles r f conn id_only (db_delete (pf_id p) d) in
        (r', d', true)
      else
        let '(r', d', b) := clear_profiles r f conn id_only d in
        ((k, p) :: r', d', b)
  end.

(* smart_charging.cpp:484-497, connectors in ascending order starting with [id] *)
Fixpoint clear_conns (cs : list connector) (id : Z) (f : filt) (id_only : bool) (d : list row)
  : list connector * list row * bool :=
  match cs with
  | [] => ([], d, false)
  | c :: r =>
      let '(m1, d, b1) := clear_profiles (c_txdefault c) f id id_only d in
      let '(m2, d, b2) := clear_profiles (c_txprofiles c) f id id_only d in
      let '(r', d, b) := clear_conns r (id + 1) f id_only d in
      (set_c_txprofiles (set_c_txdefault c m1) m2 :: r', d, b1 || b2 || b)
  end.

(* smart_charging.cpp:473-499 *)
Definition clear_all_profiles_with_filter (h : handler) (f : filt) (id_only : bool)
  : handler * bool :=
  let '(m, d, b0) := clear_profiles (h_max h) f 0 id_only (h_db h) in
  let '(cs, d, b) := clear_conns (h_conns h) 0 f id_only d in
  ({| h_max := m; h_conns := cs; h_db := d |}, b0 || b).

(* smart_charging.cpp:501-518 *)
Definition clear_all_profiles (h : handler) : handler :=
  {| h_max := [];
     h_conns := map (fun c => set_c_txprofiles (set_c_txdefault c []) []) (h_conns h);
     h_db := [] |}.

(* smart_charging.cpp:34-57: has the profile expired *)
Definition expired (now : Z) (p : profile) : bool :=
  match pf_to p with Some t => t <? now | None => false end ||
  (kind_eqb (pf_kind p) Absolute &&
   match sc_start (pf_sched p), sc_duration (pf_sched p) with
   | Some s, Some d => s + d * NS <? now
   | _, _ => false
   end).

(* smart_charging.cpp:26-63 on one map *)
Fixpoint clear_expired_map (now : Z) (m : pmap) (d : list row) : pmap * list row :=
  match m with
  | [] => ([], d)
  | (k, p) :: r =>
      if expired now p then clear_expired_map now r (db_delete (pf_id p) d)
      else let '(r', d') := clear_expired_map now r d in ((k, p) :: r', d')
  end.

Fixpoint clear_expired_conns (now : Z) (cs : list connector) (d : list row)
  : list connector * list row :=
  match cs with
  | [] => ([], d)
  | c :: r =>
      let '(m1, d) := clear_expired_map now (c_txdefault c) d in
      let '(m2, d) := clear_expired_map now (c_txprofiles c) d in
      let '(r', d) := clear_expired_conns now r d in
      (set_c_txprofiles (set_c_txdefault c m1) m2 :: r', d)
  end.

(* smart_charging.cpp:111-125 *)
Definition clear_expired_profiles (now : Z) (h : handler) : handler :=
  let '(m, d) := clear_expired_map now (h_max h) (h_db h) in
  let '(cs, d) := clear_expired_conns now (h_conns h) d in
  {| h_max := m; h_conns := cs; h_db := d |}.

(* charge_point_impl.cpp:2500-2506 and 582-588: add according to the purpose *)
Definition add_by_purpose (h : handler) (p : profile) (conn : Z) : handler :=
  match pf_purpose p with
  | PMax => add_charge_point_max_profile h p
  | PTxDefault => add_tx_default_profile h p conn
  | PTx => add_tx_profile h p conn
  end.

(* charge_point_impl.cpp:2470-2523 handleSetChargingProfileRequest; [true]: Accepted *)
Definition set_charging_profile (g : cfg) (h : handler) (now conn : Z) (p : profile)
  : handler * bool :=
  if negb (existsb (purpose_eqb (pf_purpose p)) (g_purposes g)) then (h, false)
  else
    match validate_profile g h now p conn false with
    | None => (h, false)
    | Some p =>
        let '(h, _) := clear_all_profiles_with_filter h
                         {| f_id := Some (pf_id p); f_conn := None; f_stack := None;
                            f_purpose := None |} true in
        let '(h, _) := clear_all_profiles_with_filter h
                         {| f_id := None; f_conn := Some conn; f_stack := Some (pf_stack p);
                            f_purpose := Some (pf_purpose p) |} false in
        (add_by_purpose h p conn, true)
    end.

(* charge_point_impl.cpp:2203-2221: the charging profile of a RemoteStartTransaction that
   has passed the checks before; [None]: the request is rejected *)
Definition remote_start_profile (g : cfg) (h : handler) (now : Z) (conn : option Z) (p : profile)
  : option handler :=
  match conn with
  | None => None
  | Some c =>
      if purpose_eqb (pf_purpose p) PTx then
        match validate_profile g h now p c true with
        | Some p => Some (add_tx_profile h p c)
        | None => None
        end
      else None
  end.

(* charge_point_impl.cpp:2564-2592 handleClearChargingProfileRequest; [true]: Accepted *)
Definition clear_charging_profile (h : handler) (f : filt) : handler * bool :=
  match f_id f, f_conn f, f_purpose f, f_stack f with
  | None, None, None, None => (clear_all_profiles h, true)
  | Some _, _, _, _ => clear_all_profiles_with_filter h f true
  | None, _, _, _ =>
      clear_all_profiles_with_filter h
        {| f_id := None; f_conn := f_conn f; f_stack := f_stack f; f_purpose := f_purpose f |} false
  end.

(* charge_point_impl.cpp:4449-4453: end of a transaction *)
Definition transaction_stopped (h : handler) (conn : Z) : handler :=
  let h := set_conns h (update_nth (Z.to_nat conn) (fun c => set_c_tx c None) (h_conns h)) in
  fst (clear_all_profiles_with_filter h
         {| f_id := None; f_conn := Some conn; f_stack := None; f_purpose := Some PTx |} false).

(* charge_point_impl.cpp:571-598: the loop of load_charging_profiles over the rows read
   before; the connector id is looked up in the table as it is by then *)
Fixpoint load_rows (g : cfg) (now : Z) (h : handler) (ps : list profile) : handler :=
  match ps with
  | [] => h
  | p :: r =>
      match find (fun x => pf_id (snd x) =? pf_id p) (h_db h) with
      | None => load_rows g now h r
      | Some (conn, _) =>
          match validate_profile g h now p conn false with
          | Some p' =>
              if existsb (purpose_eqb (pf_purpose p')) (g_purposes g)
              then load_rows g now (add_by_purpose h p' conn) r
              else load_rows g now (set_db h (db_delete (pf_id p) (h_db h))) r
          | None => load_rows g now (set_db h (db_delete (pf_id p) (h_db h))) r
          end
      end
  end.

(* charge_point_impl.cpp:566-604 load_charging_profiles *)
Definition load_charging_profiles (g : cfg) (now : Z) (h : handler) : handler :=
  load_rows g now h (map snd (h_db h)).

(* a restart: maps start empty, [txs] are the transactions resumed before
   load_charging_profiles runs *)
Definition restart (g : cfg) (now : Z) (txs : list (option (Z * Z))) (h : handler) : handler :=
  load_charging_profiles g now
    {| h_max := [];
       h_conns := map (fun t => {| c_tx := t; c_txdefault := []; c_txprofiles := [] |}) txs;
       h_db := h_db h |}.

(* smart_charging.cpp:520-583 get_valid_profiles *)
Definition get_valid_profiles (h : handler) (conn : Z) (ignore : list purpose) : list profile :=
  let keep pu := negb (existsb (purpose_eqb pu) ignore) in
  (if keep PMax then map snd (h_max h) else []) ++
  (if 0 <? conn then
     match nth_error (h_conns h) (Z.to_nat conn) with
     | None => []
     | Some c =>
         (if keep PTx then
            filter (fun p => match pf_tx p with
                             | Some t => match c_tx c with Some (t', _) => t' =? t | None => false end
                             | None => true
                             end) (map snd (c_txprofiles c))
          else []) ++
         (if keep PTxDefault then map snd (c_txdefault c) else [])
     end
   else []).

(* smart_charging.cpp:144-171 CompositeScheduleConfig.  [k_*] are the values after
   value_or(default); k_offline_ignored is IgnoredProfilePurposesOffline. *)
Record ccfg := {
  k_offline_ignored : list purpose;
  k_current : Z;
  k_power : Z;
  k_phases : Z;
  k_voltage : Z;
}.

(* smart_charging.cpp:160-169 with constants.hpp: DEFAULT_LIMIT_AMPS,
   DEFAULT_LIMIT_WATTS, DEFAULT_AND_MAX_NUMBER_PHASES, LOW_VOLTAGE; the configured values
   are integers *)
Definition mk_ccfg (ar : arith) (ignored : list purpose) (amps watts phases volts : option Z) : ccfg :=
  {| k_offline_ignored := ignored;
     k_current := f_of_int ar (match amps with Some x => x | None => 48 end);
     k_power := f_of_int ar (match watts with Some x => x | None => 33120 end);
     k_phases := match phases with Some x => x | None => 3 end;
     k_voltage := f_of_int ar (match volts with Some x => x | None => 230 end) |}.

Section Composite.
  Variable ar : arith.
  Variable sort_date : list entry -> list entry.
  Variable sort_stack : list entry -> list entry.

  (* smart_charging.cpp:173-203 generate_evse_intermediates *)
  Definition generate_evse_intermediates (evse station : list profile) (start end_ : Z)
             (session : option Z) (simulate : bool) : list (list iperiod) :=
    let all := evse ++ station in
    if match session with Some _ => true | None => simulate end then
      let txd := generate_profile_from_periods sort_stack
                   (calculate_all_profiles sort_date start end_ session all PTxDefault) start end_ in
      let tx := generate_profile_from_periods sort_stack
                  (calculate_all_profiles sort_date start end_ session all PTx) start end_ in
      [merge_tx_profile_with_tx_default_profile tx txd]
    else [].

  (* transaction->get_start_energy_wh()->timestamp *)
  Definition session_of (c : connector) : option Z :=
    match c_tx c with Some (_, ts) => Some ts | None => None end.

  (* smart_charging.cpp:254-266: the loop over the EVSEs, starting with id [evse] *)
  Fixpoint evse_loop (h : handler) (ignore : list purpose) (station : list profile)
           (start end_ : Z) (simulate : bool) (evse : Z) (cs : list connector)
    : list (list iperiod) :=
    match cs with
    | [] => []
    | c :: r =>
        merge_profiles_by_lowest_limit
          (generate_evse_intermediates (get_valid_profiles h evse ignore) station start end_
             (session_of c) simulate)
        :: evse_loop h ignore station start end_ simulate (evse + 1) r
    end.

  (* smart_charging.cpp:228-302 calculate_enhanced_composite_schedule; result: start (whole
     seconds), duration, periods *)
  Definition calculate_enhanced_composite_schedule (k : ccfg) (h : handler) (start end_ evse : Z)
             (u : runit) (offline simulate : bool) : Z * Z * list operiod :=
    let ignore := if offline then k_offline_ignored k else [] in
    let session :=
      if 0 <=? evse then
        match nth_error (h_conns h) (Z.to_nat evse) with
        | Some c => match session_of c with
                    | Some ts => Some (floor_seconds ts * NS)
                    | None => None
                    end
        | None => None
        end
      else None in
    let station := get_valid_profiles h 0 ignore in
    let '(combined, session) :=
      if evse =? 0 then
        ([merge_profiles_by_summing_limits ar
            (evse_loop h ignore station start end_ simulate 1 (tl (h_conns h)))
            (k_current k) (k_power k)],
         (* session_start keeps what the last round of the loop left in it *)
         match tl (h_conns h) with
         | [] => session
         | c :: r => session_of (last r c)
         end)
      else
        (generate_evse_intermediates (get_valid_profiles h evse ignore) station start end_ session
           simulate, session) in
    let cmax := generate_profile_from_periods sort_stack
                  (calculate_all_profiles sort_date start end_ session station PMax) start end_ in
    let retval := merge_profiles_by_lowest_limit (combined ++ [cmax]) in
    (floor_seconds start,
     elapsed_seconds (floor_seconds end_) (floor_seconds start),
     convert_intermediate_into_schedule ar retval u
       (match u with UA => k_current k | UW => k_power k end) (k_phases k) (k_voltage k)).

  (* smart_charging.cpp:206-226 calculate_composite_schedule *)
  Definition calculate_composite_schedule (k : ccfg) (h : handler) (start end_ evse : Z)
             (u : runit) (offline simulate : bool) : Z * Z * list csp :=
    let '(s, d, l) := calculate_enhanced_composite_schedule k h start end_ evse u offline simulate in
    (s, d, map (fun o => {| sp_start := op_start o; sp_limit := op_limit o;
                            sp_phases := op_phases o |}) l).

  (* charge_point_impl.cpp:2525-2562 handleGetCompositeScheduleRequest; [None]: Rejected.
     [now] is the clock, [conns] the configured number of connectors.  The allowed units are
     not empty (.at(0)); an empty list throws, modelled by [None] as well. *)
  Definition get_composite_schedule (g : cfg) (k : ccfg) (h : handler) (now : Z) (conns : Z)
             (max_duration conn duration : Z) (u : option runit) (offline : bool)
    : option (Z * Z * list csp) :=
    if (conns <? conn) || (conn <? 0) then None
    else
      if match u with Some x => negb (existsb (unit_eqb x) (g_units g)) | None => false end then None
      else
        let start := floor_seconds now * NS in
        let d := Z.min max_duration duration in
        match match u with Some x => Some x | None => hd_error (g_units g) end with
        | None => None
        | Some x => Some (calculate_composite_schedule k h start (start + d * NS) conn x offline true)
        end.
End Composite.
