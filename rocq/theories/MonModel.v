(** Variable monitoring of OCPP 2.x: when monitors trigger and what is reported.

    Model of lib/ocpp/v2/monitoring_updater.cpp and include/ocpp/v2/monitoring_updater.hpp, all of it but start and stop of
    the timer.

    Simplifications. Values of variables are numbers: those of the types compared as text stand for their text, decimals
    are exact multiples of some unit; conversions of values do not fail. The value of a periodic monitor is its number of
    whole seconds (the duration_cast at lines 69-70 and 459-460). Components and variables are one number. Times are
    milliseconds. The unordered_map is a list in the order of insertion; nothing but the order of the notifications and the
    event ids depends on it. The event counter has no overflow. The settings and values a pass reads from the device model
    are arguments. *)
From Coq Require Import ZArith List Bool.
Import ListNotations.
Local Open Scope Z_scope.

(** MonitorEnum, VariableMonitorType, MonitoringBaseEnum (ocpp_enums.hpp, enums.hpp). *)
Inductive mtype := Delta | Lower | Upper | Periodic | Aligned.
Inductive mconf := HardWired | Preconfigured | Custom.
Inductive mbase := BaseAll | BaseFactory | BaseHardWired.
(** How evaluate_monitor treats the DataEnum of a variable (monitoring_updater.cpp 235-248). *)
Inductive dtype := Text | Number | OtherType.
(** VariableMonitoringMeta: the parts kept. *)
Record monitor := Mon { n_id : Z; n_sev : Z; n_type : mtype; n_value : Z; n_conf : mconf; n_ref : option Z }.

(** EventTriggerEnum and EventData. *)
Inductive etrig := EPeriodic | EDelta | EAlerting.
Record event := Ev { e_id : Z; e_var : Z; e_mon : Z; e_value : option Z; e_trig : etrig; e_conf : mconf; e_clear : option bool }.

(** UpdaterMonitorMeta (monitoring_updater.hpp 58-93). *)
Inductive kind := KTrigger | KPeriodic.
Record entry := Entry {
  u_kind : kind; u_id : Z; u_mon : monitor; u_var : Z; u_wo : bool; u_prev : Z; u_cur : Z;
  u_told : bool;    (* is_csms_sent_triggered *)
  u_gen : bool;     (* is_event_generated *)
  u_sent : bool;    (* is_csms_sent *)
  u_clear : bool;   (* is_cleared *)
  u_last : Z;       (* last_trigger_steady *)
  u_next : Z;       (* next_trigger_clock_aligned *)
  u_evs : list event }.
(** Field updates. *)
Definition set_u_kind (v : _) (s : entry) : entry := {| u_kind := v; u_id := u_id s; u_mon := u_mon s; u_var := u_var s; u_wo := u_wo s; u_prev := u_prev s; u_cur := u_cur s; u_told := u_told s; u_gen := u_gen s; u_sent := u_sent s; u_clear := u_clear s; u_last := u_last s; u_next := u_next s; u_evs := u_evs s |}.
Definition set_u_id (v : _) (s : entry) : entry := {| u_kind := u_kind s; u_id := v; u_mon := u_mon s; u_var := u_var s; u_wo := u_wo s; u_prev := u_prev s; u_cur := u_cur s; u_told := u_told s; u_gen := u_gen s; u_sent := u_sent s; u_clear := u_clear s; u_last := u_last s; u_next := u_next s; u_evs := u_evs s |}.
Definition set_u_mon (v : _) (s : entry) : entry := {| u_kind := u_kind s; u_id := u_id s; u_mon := v; u_var := u_var s; u_wo := u_wo s; u_prev := u_prev s; u_cur := u_cur s; u_told := u_told s; u_gen := u_gen s; u_sent := u_sent s; u_clear := u_clear s; u_last := u_last s; u_next := u_next s; u_evs := u_evs s |}.
Definition set_u_var (v : _) (s : entry) : entry := {| u_kind := u_kind s; u_id := u_id s; u_mon := u_mon s; u_var := v; u_wo := u_wo s; u_prev := u_prev s; u_cur := u_cur s; u_told := u_told s; u_gen := u_gen s; u_sent := u_sent s; u_clear := u_clear s; u_last := u_last s; u_next := u_next s; u_evs := u_evs s |}.
Definition set_u_wo (v : _) (s : entry) : entry := {| u_kind := u_kind s; u_id := u_id s; u_mon := u_mon s; u_var := u_var s; u_wo := v; u_prev := u_prev s; u_cur := u_cur s; u_told := u_told s; u_gen := u_gen s; u_sent := u_sent s; u_clear := u_clear s; u_last := u_last s; u_next := u_next s; u_evs := u_evs s |}.
Definition set_u_prev (v : _) (s : entry) : entry := {| u_kind := u_kind s; u_id := u_id s; u_mon := u_mon s; u_var := u_var s; u_wo := u_wo s; u_prev := v; u_cur := u_cur s; u_told := u_told s; u_gen := u_gen s; u_sent := u_sent s; u_clear := u_clear s; u_last := u_last s; u_next := u_next s; u_evs := u_evs s |}.
Definition set_u_cur (v : _) (s : entry) : entry := {| u_kind := u_kind s; u_id := u_id s; u_mon := u_mon s; u_var := u_var s; u_wo := u_wo s; u_prev := u_prev s; u_cur := v; u_told := u_told s; u_gen := u_gen s; u_sent := u_sent s; u_clear := u_clear s; u_last := u_last s; u_next := u_next s; u_evs := u_evs s |}.
Definition set_u_told (v : _) (s : entry) : entry := {| u_kind := u_kind s; u_id := u_id s; u_mon := u_mon s; u_var := u_var s; u_wo := u_wo s; u_prev := u_prev s; u_cur := u_cur s; u_told := v; u_gen := u_gen s; u_sent := u_sent s; u_clear := u_clear s; u_last := u_last s; u_next := u_next s; u_evs := u_evs s |}.
Definition set_u_gen (v : _) (s : entry) : entry := {| u_kind := u_kind s; u_id := u_id s; u_mon := u_mon s; u_var := u_var s; u_wo := u_wo s; u_prev := u_prev s; u_cur := u_cur s; u_told := u_told s; u_gen := v; u_sent := u_sent s; u_clear := u_clear s; u_last := u_last s; u_next := u_next s; u_evs := u_evs s |}.
Definition set_u_sent (v : _) (s : entry) : entry := {| u_kind := u_kind s; u_id := u_id s; u_mon := u_mon s; u_var := u_var s; u_wo := u_wo s; u_prev := u_prev s; u_cur := u_cur s; u_told := u_told s; u_gen := u_gen s; u_sent := v; u_clear := u_clear s; u_last := u_last s; u_next := u_next s; u_evs := u_evs s |}.
Definition set_u_clear (v : _) (s : entry) : entry := {| u_kind := u_kind s; u_id := u_id s; u_mon := u_mon s; u_var := u_var s; u_wo := u_wo s; u_prev := u_prev s; u_cur := u_cur s; u_told := u_told s; u_gen := u_gen s; u_sent := u_sent s; u_clear := v; u_last := u_last s; u_next := u_next s; u_evs := u_evs s |}.
Definition set_u_last (v : _) (s : entry) : entry := {| u_kind := u_kind s; u_id := u_id s; u_mon := u_mon s; u_var := u_var s; u_wo := u_wo s; u_prev := u_prev s; u_cur := u_cur s; u_told := u_told s; u_gen := u_gen s; u_sent := u_sent s; u_clear := u_clear s; u_last := v; u_next := u_next s; u_evs := u_evs s |}.
Definition set_u_next (v : _) (s : entry) : entry := {| u_kind := u_kind s; u_id := u_id s; u_mon := u_mon s; u_var := u_var s; u_wo := u_wo s; u_prev := u_prev s; u_cur := u_cur s; u_told := u_told s; u_gen := u_gen s; u_sent := u_sent s; u_clear := u_clear s; u_last := u_last s; u_next := v; u_evs := u_evs s |}.
Definition set_u_evs (v : _) (s : entry) : entry := {| u_kind := u_kind s; u_id := u_id s; u_mon := u_mon s; u_var := u_var s; u_wo := u_wo s; u_prev := u_prev s; u_cur := u_cur s; u_told := u_told s; u_gen := u_gen s; u_sent := u_sent s; u_clear := u_clear s; u_last := u_last s; u_next := u_next s; u_evs := v |}.

(** What leaves the updater: notify_csms_events, update_monitor_reference, an exception leaving the call. *)
Inductive out := OSend (l : list event) | ORef (id value : Z) | OThrow.
(** The updater; [Hung]: a call that never returns, [Undef]: undefined behaviour. *)
Inductive status := Fine | Hung | Undef.
Record upd := Upd { p_entries : list entry; p_uid : Z; p_status : status; p_out : list out }.
(** Another list of entries. *)
Definition set_entries (l : list entry) (p : upd) : upd := Upd l (p_uid p) (p_status p) (p_out p).
(** Further outputs. *)
Definition add_out (l : list out) (p : upd) : upd := Upd (p_entries p) (p_uid p) (p_status p) (p_out p ++ l).
(** Another status. *)
Definition set_status (s : status) (p : upd) : upd := Upd (p_entries p) (p_uid p) s (p_out p).

(** unordered_map::find and assignment through the iterator. *)
Definition find_entry (id : Z) (l : list entry) : option entry := find (fun e => u_id e =? id) l.
Definition put_entry (e : entry) (l : list entry) : list entry := map (fun x => if u_id x =? u_id e then e else x) l.

(** triggers_monitor (monitoring_updater.cpp 15-45). *)
Definition triggers (d : dtype) (m : monitor) (old new : Z) : bool :=
  match d with
  | Text => negb (old =? new)
  | _ =>
      match n_type m with
      | Delta => match n_ref m with Some r => n_value m <? Z.abs (r - new) | None => false end
      | Lower => new <? n_value m
      | Upper => n_value m <? new
      | _ => false
      end
  end.
(** is_monitor_active (monitoring_updater.cpp 47-66). *)
Definition is_active (b : mbase) (m : monitor) : bool :=
  match b, n_conf m with
  | BaseAll, _ => true
  | BaseFactory, Custom => false
  | BaseFactory, _ => true
  | BaseHardWired, HardWired => true
  | BaseHardWired, _ => false
  end.
(** get_next_clock_aligned_point (monitoring_updater.cpp 68-97); [None]: the conversion of NaN or infinity at 87-88. *)
Definition hour : Z := 3600000.
Definition ceil_div (a b : Z) : Z := - ((- a) / b).
Definition next_aligned (now seconds : Z) : option Z :=
  if seconds =? 0 then None
  else
    let h := now / hour * hour in
    let s := (now - h) / 1000 in
    let n := ceil_div s seconds * seconds in
    Some (if 3600 <=? n then h + hour else h + n * 1000).
(** create_notify_event (monitoring_updater.cpp 99-134). *)
Definition create_event (uid : Z) (value : option Z) (var : Z) (m : monitor) : event :=
  Ev uid var (n_id m) value
     (match n_type m with Periodic | Aligned => EPeriodic | Delta => EDelta | Lower | Upper => EAlerting end) (n_conf m) None.

(** set_trigger_clear_state (monitoring_updater.hpp 79-92), on a trigger. *)
Definition set_clear (b : bool) (e : entry) : entry :=
  if eqb (u_clear e) b then e else set_u_gen false (set_u_sent false (set_u_clear b e)).
Definition is_periodic (t : mtype) : bool := match t with Periodic | Aligned => true | _ => false end.
Definition is_delta (t : mtype) : bool := match t with Delta => true | _ => false end.
(** The entry made for a monitor that triggers (monitoring_updater.cpp 286-306). *)
Definition new_trigger (m : monitor) (var : Z) (wo : bool) (prev cur : Z) : entry :=
  Entry KTrigger (n_id m) m var wo prev cur false false false false 0 0 [].
(** What a triggered monitor does to its entry (monitoring_updater.cpp 319-336). *)
Definition mark_triggered (m : monitor) (e : entry) : entry :=
  if is_delta (n_type m) then set_u_gen false (set_u_clear false e)
  else if u_clear e then set_clear false e else e.
(** ... and one that does not trigger (338-352). *)
Definition mark_normal (m : monitor) (e : entry) : entry :=
  if is_delta (n_type m) then e else if u_clear e then e else set_clear true e.
(** evaluate_monitor (monitoring_updater.cpp 220-353). The flags of a periodic entry are not initialised; using them is
    undefined. *)
Definition evaluate (m : monitor) (var : Z) (d : dtype) (wo : bool) (prev cur : Z) (p : upd) : upd :=
  if is_periodic (n_type m) then p
  else match d with
  | OtherType => p
  | _ =>
      let trig := triggers d m prev cur in
      let text := match d with Text => true | _ => false end in
      let p0 := if trig && is_delta (n_type m) && text then add_out [ORef (n_id m) cur] p else p in
      match find_entry (n_id m) (p_entries p0) with
      | None =>
          if trig then set_entries (p_entries p0 ++ [mark_triggered m (new_trigger m var wo prev cur)]) p0 else p0
      | Some e =>
          let e1 := set_u_prev prev (set_u_cur cur e) in
          match u_kind e with
          | KPeriodic =>
              if is_delta (n_type m) && negb trig then set_entries (put_entry e1 (p_entries p0)) p0 else set_status Undef p0
          | KTrigger => set_entries (put_entry (if trig then mark_triggered m e1 else mark_normal m e1) (p_entries p0)) p0
          end
      end
  end.
(** on_variable_changed (monitoring_updater.cpp 355-373); [actual]: the attribute is the actual value. *)
Definition on_changed (ms : list monitor) (var : Z) (d : dtype) (actual wo : bool) (prev cur : Z) (p : upd) : upd :=
  if actual
  then fold_left (fun p m => match p_status p with Fine => evaluate m var d wo prev cur p | _ => p end) ms p
  else p.
(** on_monitor_updated (monitoring_updater.cpp 195-218). *)
Definition on_updated (m : monitor) (var : Z) (d : dtype) (wo : bool) (cur : Z) (p : upd) : upd :=
  match find_entry (n_id m) (p_entries p) with
  | None => p
  | Some e =>
      let p1 := set_entries (put_entry (set_u_mon m e) (p_entries p)) p in
      match n_type m with
      | Lower | Upper => evaluate m var d wo cur cur p1
      | _ => p1
      end
  end.

(** What a pass reads: get_monitoring_info, is_monitoring_enabled (monitoring_updater.cpp 685-710), the two clocks, the
    actual values ([None]: get_value throws) and get_periodic_monitors. *)
Record env := Env {
  v_enabled : bool; v_offline : bool; v_offsev : Z; v_level : Z; v_base : mbase; v_steady : Z; v_clock : Z;
  v_value : Z -> option Z; v_periodic : list (Z * list monitor) }.

(** How a piece of code ends. *)
Inductive ending (A : Type) := Done (a : A) | Thrown (a : A) | Undefined.
Arguments Done {A} _.
Arguments Thrown {A} _.
Arguments Undefined {A}.

(** A new periodic entry (monitoring_updater.cpp 390-409). The flags of the trigger are never read while it is periodic. *)
Definition new_periodic (v : env) (var : Z) (m : monitor) : ending (option entry) :=
  let e last next := Entry KPeriodic (n_id m) m var false 0 0 false false false false last next [] in
  match n_type m with
  | Periodic => Done (Some (e (v_steady v) 0))
  | Aligned => match next_aligned (v_clock v) (n_value m) with Some t => Done (Some (e 0 t)) | None => Undefined end
  | _ => Thrown None
  end.
(** The first loop of update_periodic_monitors_internal (monitoring_updater.cpp 379-419). *)
Fixpoint add_periodics (v : env) (l : list (Z * monitor)) (es : list entry) : ending (list entry) :=
  match l with
  | [] => Done es
  | (var, m) :: q =>
      match find_entry (n_id m) es with
      | Some _ => add_periodics v q es
      | None =>
          match new_periodic v var m with
          | Done (Some e) => add_periodics v q (es ++ [e])
          | Done None => Done es
          | Thrown _ => Thrown es
          | Undefined => Undefined
          end
      end
  end.
Definition flat (l : list (Z * list monitor)) : list (Z * monitor) := flat_map (fun p => map (pair (fst p)) (snd p)) l.
(** The second loop (monitoring_updater.cpp 422-449). *)
Definition still_there (l : list (Z * monitor)) (e : entry) : bool :=
  match u_kind e with KTrigger => true | KPeriodic => existsb (fun p => n_id (snd p) =? u_id e) l end.
(** update_periodic_monitors_internal. *)
Definition update_periodics (v : env) (es : list entry) : ending (list entry) :=
  match add_periodics v (flat (v_periodic v)) es with
  | Done es1 => Done (filter (still_there (flat (v_periodic v))) es1)
  | x => x
  end.

(** The periodic branch of process_monitor_meta_internal (monitoring_updater.cpp 457-518): the entry with its next time, and
    whether the time has come. *)
Definition due (v : env) (e : entry) : ending (entry * bool) :=
  let m := u_mon e in
  match n_type m with
  | Periodic =>
      if n_value m * 1000 <? v_steady v - u_last e then Done (set_u_last (v_steady v) e, true) else Done (e, false)
  | Aligned =>
      if u_next e <? v_clock v
      then match next_aligned (v_clock v) (n_value m) with Some t => Done (set_u_next t e, true) | None => Undefined end
      else Done (e, false)
  | _ => Thrown (e, false)
  end.
(** process_monitor_meta_internal (monitoring_updater.cpp 452-547) with the counter of events. *)
Definition process_meta (v : env) (uid : Z) (e : entry) : ending (entry * Z) :=
  match u_kind e with
  | KPeriodic =>
      match due v e with
      | Done (e1, false) => Done (e1, uid)
      | Done (e1, true) =>
          match v_value v (u_var e1) with
          | None => Thrown (e1, uid)
          | Some x => Done (set_u_evs (u_evs e1 ++ [create_event uid (Some x) (u_var e1) (u_mon e1)]) e1, uid + 1)
          end
      | Thrown (e1, _) => Thrown (e1, uid)
      | Undefined => Undefined
      end
  | KTrigger =>
      if u_gen e then Done (e, uid)
      else
        let ev := create_event uid (if u_wo e then None else Some (u_cur e)) (u_var e) (u_mon e) in
        let ev1 := if is_delta (n_type (u_mon e)) then ev
                   else Ev (e_id ev) (e_var ev) (e_mon ev) (e_value ev) (e_trig ev) (e_conf ev) (Some (u_clear e)) in
        Done (set_u_evs (u_evs e ++ [ev1]) (set_u_gen true e), uid + 1)
  end.
(** should_remove_monitor_meta_internal (monitoring_updater.cpp 553-579). *)
Definition should_remove (e : entry) : bool :=
  match u_kind e with
  | KPeriodic => false
  | KTrigger => (negb (u_told e) && u_clear e) || (u_told e && u_clear e && u_sent e)
  end.
(** should_process (monitoring_updater.cpp 613-630). *)
Definition wanted (v : env) (m : monitor) : bool :=
  is_active (v_base v) m && (n_sev m <=? (if v_offline v then v_offsev v else v_level v)).
(** Sending (monitoring_updater.cpp 650-671). *)
Definition send (v : env) (e : entry) : entry * list out :=
  if v_offline v then (e, [])
  else match u_evs e with
       | [] => (e, [])
       | l =>
           let e1 := set_u_evs [] e in
           (match u_kind e with
            | KTrigger => set_u_told (u_told e || negb (u_clear e)) (set_u_sent true e1)
            | KPeriodic => e1
            end, [OSend l])
       end.

(** What one iteration of the loop of process_monitors_internal (monitoring_updater.cpp 603-682) does at the entry the
    iterator points to: stay there, go on with the entry kept or erased, or leave the loop. *)
Inductive action :=
| Stay (e : entry)
| Keep (e : entry) (uid : Z) (l : list out)
| Erase (uid : Z) (l : list out)
| Leave (e : entry) (uid : Z)
| Break.
Definition visit (v : env) (per trg : bool) (uid : Z) (e : entry) : action :=
  if match u_kind e with KPeriodic => negb per | KTrigger => negb trg end then Stay e
  else if negb (wanted v (u_mon e)) then
    match u_kind e with KTrigger => Erase uid [] | KPeriodic => Stay (set_u_evs [] e) end
  else
    match process_meta v uid e with
    | Undefined => Break
    | Thrown (e1, uid1) => Leave e1 uid1
    | Done (e1, uid1) =>
        let '(e2, l) := send v e1 in
        if should_remove e2 then Erase uid1 l else Keep e2 uid1 l
    end.
(** The loop: entries before the iterator, entries from it on, counter and outputs. *)
Record cursor := Cur { l_done : list entry; l_todo : list entry; l_uid : Z; l_out : list out }.
(** What is left when the loop is over. *)
Inductive exit := Over (c : cursor) | Aborted (c : cursor) | Broken.
Definition iterate (v : env) (per trg : bool) (c : cursor) : cursor + exit :=
  match l_todo c with
  | [] => inr (Over c)
  | e :: q =>
      match visit v per trg (l_uid c) e with
      | Stay e1 => inl (Cur (l_done c) (e1 :: q) (l_uid c) (l_out c))
      | Keep e1 uid l => inl (Cur (l_done c ++ [e1]) q uid (l_out c ++ l))
      | Erase uid l => inl (Cur (l_done c) q uid (l_out c ++ l))
      | Leave e1 uid => inr (Aborted (Cur (l_done c) (e1 :: q) uid (l_out c)))
      | Break => inr Broken
      end
  end.
(** At most [n] iterations. *)
Fixpoint loop (n : nat) (v : env) (per trg : bool) (c : cursor) : option exit :=
  match n with
  | O => None
  | S k => match iterate v per trg c with inl c1 => loop k v per trg c1 | inr x => Some x end
  end.
(** process_monitors_internal (monitoring_updater.cpp 582-683). More iterations than there are entries: see
    [MonProofs.loop_more]. *)
Definition process (v : env) (per trg : bool) (p : upd) : upd :=
  if negb (v_enabled v) then p
  else
    match (if per then update_periodics v (p_entries p) else Done (p_entries p)) with
    | Undefined => set_status Undef p
    | Thrown es => add_out [OThrow] (set_entries es p)
    | Done es =>
        match loop (S (length es)) v per trg (Cur [] es (p_uid p) []) with
        | None => set_status Hung p
        | Some Broken => set_status Undef p
        | Some (Over c) => Upd (l_done c) (l_uid c) (p_status p) (p_out p ++ l_out c)
        | Some (Aborted c) => Upd (l_done c ++ l_todo c) (l_uid c) (p_status p) (p_out p ++ l_out c ++ [OThrow])
        end
    end.

(** Calls of the updater: by the device model, by the timer and by process_triggered_monitors (monitoring_updater.cpp 140,
    191-193). Nothing happens any more in a process that hangs or is undefined. *)
Inductive op :=
| OChange (ms : list monitor) (var : Z) (d : dtype) (actual wo : bool) (prev cur : Z)
| OUpdate (m : monitor) (var : Z) (d : dtype) (wo : bool) (cur : Z)
| OTimer (v : env)
| OTriggered (v : env).
Definition step (p : upd) (o : op) : upd :=
  match p_status p with
  | Fine =>
      match o with
      | OChange ms var d actual wo prev cur => on_changed ms var d actual wo prev cur p
      | OUpdate m var d wo cur => on_updated m var d wo cur p
      | OTimer v => process v true true p
      | OTriggered v => process v false true p
      end
  | _ => p
  end.
Definition run (p : upd) (h : list op) : upd := fold_left step h p.
(** The constructor (monitoring_updater.cpp 137-144). *)
Definition init : upd := Upd [] 0 Fine [].
