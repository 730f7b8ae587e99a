(** One EVSE and its meter values (v2/evse.cpp), the transaction events that carry them (functional_blocks/transaction.cpp,
    charge_point.cpp) and the clock-aligned values outside transactions (functional_blocks/meter_values.cpp). Timers are
    events of the environment. *)
From Coq Require Import String Ascii ZArith QArith Qround List Bool.
From Verif Require Import MvModel.
Import ListNotations.
Local Open Scope string_scope.
Local Open Scope list_scope.
Local Open Scope Z_scope.

(** What the device model says at the moment of a call. [c_fk]: the database enforces foreign keys. *)
Record config := Config {
  c_max : option Z; c_idle : bool; c_round : bool;
  c_started : list Z; c_updated : list Z; c_aligned : list Z; c_ended : list Z; c_aligned_ended : list Z;
  c_sign : bool; c_sign_aligned : bool; c_interval : Z; c_interval_ended : Z; c_fk : bool }.
(** EnhancedTransaction as far as it matters here. *)
Record tx := Tx { t_id : string; t_start : option Q; t_check : bool }.
Record evse := Evse {
  e_meter : mvalue; e_upd : avg; e_end : avg; e_tx : option tx;
  e_power : option Q; e_energy : option Q; e_last : option Q; e_send : bool; e_timer : option Z }.
Record state := St { s_evse : evse; s_zero : avg; s_db : db }.

Inductive kind := Started | Updated | Ended.
(** Effects: the pause callback, a TransactionEvent with meter values, a MeterValues request for this EVSE or for EVSE 0, an
    exception that leaves the call, undefined behaviour. *)
Inductive out := Pause | Event (k : kind) (id : string) (l : list mvalue) | Values (zero : bool) (l : list mvalue) | Threw | Undefined.

Definition set_meter (m : mvalue) (e : evse) := Evse m (e_upd e) (e_end e) (e_tx e) (e_power e) (e_energy e) (e_last e) (e_send e) (e_timer e).
Definition set_upd (a : avg) (e : evse) := Evse (e_meter e) a (e_end e) (e_tx e) (e_power e) (e_energy e) (e_last e) (e_send e) (e_timer e).
Definition set_end (a : avg) (e : evse) := Evse (e_meter e) (e_upd e) a (e_tx e) (e_power e) (e_energy e) (e_last e) (e_send e) (e_timer e).
Definition set_tx (t : option tx) (e : evse) := Evse (e_meter e) (e_upd e) (e_end e) t (e_power e) (e_energy e) (e_last e) (e_send e) (e_timer e).
Definition set_energy (q : option Q) (e : evse) := Evse (e_meter e) (e_upd e) (e_end e) (e_tx e) (e_power e) q (e_last e) (e_send e) (e_timer e).
Definition set_last (q : option Q) (e : evse) := Evse (e_meter e) (e_upd e) (e_end e) (e_tx e) (e_power e) (e_energy e) q (e_send e) (e_timer e).
Definition set_timer (t : option Z) (e : evse) := Evse (e_meter e) (e_upd e) (e_end e) (e_tx e) (e_power e) (e_energy e) (e_last e) (e_send e) t.

(** iequals: comparison without regard to case. *)
Definition lower (c : ascii) : ascii :=
  let n := nat_of_ascii c in if (Nat.leb 65 n && Nat.leb n 90)%bool then ascii_of_nat (n + 32) else c.
Fixpoint iequals (a b : string) : bool :=
  match a, b with
  | EmptyString, EmptyString => true
  | String x p, String y q => Ascii.eqb (lower x) (lower y) && iequals p q
  | _, _ => false
  end.
(** get_normalized_energy_value (22-45); None: std::runtime_error. *)
Definition normalized (s : sample) : option Q :=
  match s_unit s with
  | None => Some (s_value s)
  | Some u =>
      match (match u_text u with
             | None => Some (s_value s)
             | Some t => if iequals t "kWh" then Some (s_value s * 1000)%Q else if iequals t "Wh" then Some (s_value s) else None
             end) with
      | None => None
      | Some v => Some (match u_mult u with Some m => if m =? 0 then v else (v * Qpower 10 m)%Q | None => v end)
      end
  end.
(** get_active_import_register_meter_value (381-391). *)
Inductive reading := NoReading | Reading (q : Q) | BadUnit.
Definition active_import (m : mvalue) : reading :=
  match find (fun s => oeqb (s_measurand s) (Some Energy_Active_Import_Register) && match s_phase s with None => true | _ => false end)
             (m_samples m) with
  | None => NoReading
  | Some s => match normalized s with Some q => Reading q | None => BadUnit end
  end.
(** std::lround: half away from zero. *)
Definition lround (q : Q) : Z :=
  if Qle_bool 0 q then Qfloor (q + (1 # 2)) else - Qfloor (- q + (1 # 2)).
(** check_max_energy_on_invalid_id (393-411); the boolean tells that an exception was thrown. *)
Definition check_max (c : config) (e : evse) : evse * list out * bool :=
  match e_tx e, c_max c with
  | Some t, Some limit =>
      if t_check t then
        match active_import (e_meter e) with
        | BadUnit => (e, [Threw], true)
        | NoReading => (e, [], false)
        | Reading q =>
            match t_start t with
            | None => (e, [], false)
            | Some q0 => if limit <=? lround (q - q0)%Q then (set_tx (Some (Tx (t_id t) (t_start t) false)) e, [Pause], false)
                         else (e, [], false)
            end
        end
      else (e, [], false)
  | _, _ => (e, [], false)
  end.
(** The energy part of send_meter_value_on_pricing_trigger (590-616): the last component tells that the value was sent, None
    that an exception was thrown. *)
Definition energy_trigger (m : mvalue) (e : evse) : option (evse * list out * bool) :=
  match e_energy e with
  | None => Some (e, [], false)
  | Some k =>
      if negb (e_send e) then Some (set_energy None e, [], false)
      else match active_import (e_meter e) with
           | BadUnit => None
           | NoReading => Some (e, [], false)
           | Reading wh =>
               if Qle_bool (k * 1000) wh then
                 let v := measurands_applied m [Energy_Active_Import_Register; Power_Active_Import] true in
                 match m_samples v with
                 | [] => Some (e, [], false)
                 | _ => Some (set_energy None e, [Values false [set_context v Other]], true)
                 end
               else Some (e, [], false)
           end
  end.
Definition Qlt_bool (a b : Q) : bool := negb (Qle_bool b a).
(** Its power part (618-666). *)
Definition power_trigger (m : mvalue) (sent : bool) (e : evse) : evse * list out :=
  match e_power e, total_power m with
  | Some trigger, Some w =>
      if negb (e_send e) then (set_energy None e, [])
      else
        let send := if sent then [] else [Values false [set_context m Other]] in
        match e_last e with
        | Some last =>
            let h := (trigger * (1 # 20))%Q in
            let kw := (w / 1000)%Q in
            if (Qlt_bool last trigger && Qle_bool (trigger + h) kw) || (Qlt_bool trigger last && Qle_bool kw (trigger - h))
            then (set_last (Some kw) e, send)
            else (e, [])
        | None => (set_last (Some (w / 1000)%Q) e, send)
        end
  | _, _ => (e, [])
  end.
(** send_meter_value_on_pricing_trigger (589-667). *)
Definition pricing (m : mvalue) (e : evse) : evse * list out :=
  match energy_trigger m e with
  | None => (e, [Threw])
  | Some (e1, o1, sent) => let '(e2, o2) := power_trigger m sent e1 in (e2, o1 ++ o2)
  end.
(** on_meter_value (359-366). *)
Definition on_meter (c : config) (m : mvalue) (e : evse) : evse * list out :=
  let e1 := set_end (set_values m (e_end e)) (set_upd (set_values m (e_upd e)) (set_meter m e)) in
  let '(e2, o, threw) := check_max c e1 in
  if threw then (e2, o) else let '(e3, o') := pricing m e2 in (e3, o ++ o').

(** An insertion whose QueryExecutionException and std::invalid_argument are caught (262-270, 300-308, 436-445, 495-504). *)
Definition try_insert (c : config) (id : string) (m : mvalue) (d : db) : db * bool :=
  match db_insert (c_fk c) id m d with
  | Done d => (d, false)
  | QueryFailed d => (d, false)
  | BadContext => (d, false)
  | JsonThrew d => (d, true)
  end.
(** The value both clock-aligned timers of a transaction make (457-471, 481-494). *)
Definition aligned_value (a : avg) (e : evse) (round : bool) (now interval : Z) : mvalue :=
  let m := a_last (retrieve a) in
  let m := match m_samples m with [] => e_meter e | _ => m end in
  let m := set_context m Sample_Clock in
  if round then match align_timestamp now interval with Some t => with_time t m | None => m end else m.
(** store_aligned_metervalue (480-506). *)
Definition store_aligned (c : config) (now : Z) (t : tx) (e : evse) (d : db) : evse * db * bool :=
  let m := aligned_value (e_end e) e (c_round c) now (c_interval_ended c) in
  let '(d1, threw) := try_insert c (t_id t) m d in
  (set_end (if threw then retrieve (e_end e) else clear_values (e_end e)) e, d1, threw).
(** start_metering_timers (413-520): what it does besides starting timers. *)
Definition midnight_of (now : Z) : Z := (now / (day * second)) * (day * second).
Definition start_timers (c : config) (t0 now : Z) (t : tx) (e : evse) (d : db) : evse * db * bool :=
  let e1 := set_end (clear_values (e_end e)) (set_upd (clear_values (e_upd e)) e) in
  if 0 <? c_interval_ended c then
    let next := next_timepoint (midnight_of now) (c_interval_ended c) now in
    if t0 <=? next - c_interval_ended c * second then store_aligned c now t e1 d else (e1, d, false)
  else (e1, d, false).
(** on_transaction_started (transaction.cpp 54-88) with Evse::open_transaction (evse.cpp 241-284). *)
Definition on_started (c : config) (id : string) (t0 now : Z) (m : mvalue) (s : state) : state * list out :=
  let e := s_evse s in
  match active_import (e_meter e) with
  | BadUnit => (St (set_tx (Some (Tx id None false)) e) (s_zero s) (s_db s), [Threw])
  | r =>
      let t := Tx id (match r with Reading q => Some q | _ => None end) false in
      let e1 := set_tx (Some t) e in
      let '(d1, threw) := try_insert c id m (s_db s) in
      if threw then (St e1 (s_zero s) d1, [Threw])
      else
        let '(e2, d2, threw2) := start_timers c t0 now t e1 d1 in
        if threw2 then (St e2 (s_zero s) d2, [Threw])
        else
          let v := measurands_applied m (c_started c) true in
          (St e2 (s_zero s) d2, [Event Started id (match m_samples v with [] => [] | _ => [v] end)])
  end.
(** reset_pricing_triggers (577-587). *)
Definition reset_triggers (e : evse) : evse := Evse (e_meter e) (e_upd e) (e_end e) (e_tx e) None None None false None.
(** on_transaction_finished (transaction.cpp 90-139), close_transaction and release_transaction (evse.cpp 286-311, 339-349). *)
Definition on_finished (c : config) (t1 : Z) (m : mvalue) (s : state) : state * list out :=
  let e := s_evse s in
  match e_tx e with
  | None => (s, [])
  | Some t =>
      let '(d1, threw) := try_insert c (t_id t) m (s_db s) in
      if threw then (St e (s_zero s) d1, [Threw])
      else
        let e1 := set_upd (clear_values (e_upd e)) e in
        match db_get_all (t_id t) d1 with
        | None => (St e1 (s_zero s) d1, [Undefined])
        | Some l =>
            let v := all_applied l (c_ended c) (c_aligned_ended c) t1 (c_sign c) (c_sign_aligned c) in
            (St (reset_triggers (set_tx None e1)) (s_zero s) (db_clear (t_id t) d1), [Event Ended (t_id t) v])
        end
  end.
(** transaction_meter_value_callback (charge_point.cpp 447-473). *)
Definition meter_callback (c : config) (m : mvalue) (id : string) : list out :=
  match m_samples m with
  | [] => []
  | s :: _ =>
      match s_context s with
      | None => []
      | Some x =>
          if (x =? Sample_Clock) || (x =? Sample_Periodic) then
            let v := measurands_applied m (if x =? Sample_Clock then c_aligned c else c_updated c) true in
            match m_samples v with [] => [] | _ => [Event Updated id [v]] end
          else []
      end
  end.
(** The callbacks of the four timers of a transaction (427-507). The interval is the one the timer was started with. *)
Definition tick_updated (c : config) (s : state) : state * list out :=
  match e_tx (s_evse s) with None => (s, []) | Some t => (s, meter_callback c (e_meter (s_evse s)) (t_id t)) end.
Definition tick_ended (c : config) (s : state) : state * list out :=
  match e_tx (s_evse s) with
  | None => (s, [])
  | Some t => let '(d, threw) := try_insert c (t_id t) (e_meter (s_evse s)) (s_db s) in
              (St (s_evse s) (s_zero s) d, if threw then [Threw] else [])
  end.
Definition tick_aligned (c : config) (now : Z) (s : state) : state * list out :=
  let e := s_evse s in
  match e_tx e with
  | None => (s, [])
  | Some t =>
      if c_idle c then (s, [])
      else (St (set_upd (clear_values (e_upd e)) e) (s_zero s) (s_db s),
            meter_callback c (aligned_value (e_upd e) e (c_round c) now (c_interval c)) (t_id t))
  end.
Definition tick_aligned_ended (c : config) (now : Z) (s : state) : state * list out :=
  match e_tx (s_evse s) with
  | None => (s, [])
  | Some t => let '(e, d, threw) := store_aligned c now t (s_evse s) (s_db s) in
              (St e (s_zero s) d, if threw then [Threw] else [])
  end.
(** start_checking_max_energy_on_invalid_id (313-320). *)
Definition on_invalid (c : config) (s : state) : state * list out :=
  match e_tx (s_evse s) with
  | None => (s, [])
  | Some t => let '(e, o, _) := check_max c (set_tx (Some (Tx (t_id t) (t_start t) true)) (s_evse s)) in (St e (s_zero s) (s_db s), o)
  end.
(** set_meter_value_pricing_triggers (522-575). *)
Definition set_triggers (p k : option Q) (t : option Z) (now : Z) (e : evse) : evse :=
  Evse (e_meter e) (e_upd e) (e_end e) (e_tx e) p k (e_last e) true
       (match t with None => e_timer e | Some x => if x <? now then None else Some x end).
(** Its timer (560-572). *)
Definition time_trigger (e : evse) : evse * list out :=
  match e_timer e with
  | None => (e, [])
  | Some _ =>
      let v := measurands_applied (e_meter e) [Energy_Active_Import_Register] true in
      (set_timer None e,
       match m_samples v with
       | [] => []
       | _ => if e_send e then [Values false [set_context v Other]] else [Threw]
       end)
  end.
(** The value sent outside transactions: get_latest_meter_value_filtered (meter_values.cpp 99-108) and the rounding. *)
Definition idle_value (c : config) (a : avg) (now : Z) : mvalue :=
  let m := set_context (measurands_applied (a_last (retrieve a)) (c_aligned c) true) Sample_Clock in
  if c_round c then match align_timestamp now (c_interval c) with Some t => with_time t m | None => m end else m.
(** The callback of the station's timer (meter_values.cpp 32-87), for EVSE 0 and this EVSE. [others]: another EVSE has a
    transaction. *)
Definition is_some {A} (x : option A) : bool := match x with Some _ => true | None => false end.
Definition send_values (zero : bool) (m : mvalue) : list out := match m_samples m with [] => [] | _ => [Values zero [m]] end.
Definition tick_idle (c : config) (now : Z) (others : bool) (s : state) : state * list out :=
  let e := s_evse s in
  if c_idle c && (is_some (e_tx e) || others) then (s, [])
  else
    let o0 := send_values true (idle_value c (s_zero s) now) in
    let z := clear_values (s_zero s) in
    if is_some (e_tx e) then (St e z (s_db s), o0)
    else (St (set_upd (clear_values (e_upd e)) e) z (s_db s), o0 ++ send_values false (idle_value c (e_upd e) now)).

Inductive op :=
| Meter (m : mvalue) | Meter0 (m : mvalue)
| Start (id : string) (t0 now : Z) (m : mvalue) | Finish (t1 : Z) (m : mvalue)
| TickUpdated | TickEnded | TickAligned (now : Z) | TickAlignedEnded (now : Z) | TickIdle (now : Z) (others : bool)
| Invalid | Triggers (p k : option Q) (t : option Z) (now : Z) | TimeTrigger
| OtherInsert (id : string) (m : mvalue) | OtherClear (id : string).
(** One call. The last two are the insertions and deletions of another EVSE in the same tables. *)
Definition step (c : config) (o : op) (s : state) : state * list out :=
  match o with
  | Meter m => let '(e, l) := on_meter c m (s_evse s) in (St e (s_zero s) (s_db s), l)
  | Meter0 m => (St (s_evse s) (set_values m (s_zero s)) (s_db s), [])
  | Start id t0 now m => on_started c id t0 now m s
  | Finish t1 m => on_finished c t1 m s
  | TickUpdated => tick_updated c s
  | TickEnded => tick_ended c s
  | TickAligned now => tick_aligned c now s
  | TickAlignedEnded now => tick_aligned_ended c now s
  | TickIdle now others => tick_idle c now others s
  | Invalid => on_invalid c s
  | Triggers p k t now => (St (set_triggers p k t now (s_evse s)) (s_zero s) (s_db s), [])
  | TimeTrigger => let '(e, l) := time_trigger (s_evse s) in (St e (s_zero s) (s_db s), l)
  | OtherInsert id m => (St (s_evse s) (s_zero s) (fst (try_insert c id m (s_db s))), [])
  | OtherClear id => (St (s_evse s) (s_zero s) (db_clear id (s_db s)), [])
  end.
Fixpoint run (l : list (config * op)) (s : state) : state * list (list out) :=
  match l with
  | [] => (s, [])
  | (c, o) :: q => let '(s1, x) := step c o s in let '(s2, r) := run q s1 in (s2, x :: r)
  end.
(** A station that has just started. *)
Definition empty_value (t : Z) : mvalue := MV [] t None.
Definition boot (t : Z) : state :=
  let a := Avg (empty_value t) [] in
  St (Evse (empty_value t) a a None None None None false None) a (Db [] []).
