(** What is reported for one monitor: specification, independent of [MonModel]'s functions (its types are used). *)
From Coq Require Import ZArith List Bool.
From Verif Require Import MonModel.
Import ListNotations.
Local Open Scope Z_scope.

(** An event without its number. *)
Record report := Rep { r_var : Z; r_value : option Z; r_trig : etrig; r_conf : mconf; r_clear : option bool }.
(** What can be seen of a monitor: notifications and new reference values. *)
Inductive seen := Notice (l : list report) | NewRef (x : Z).

Definition threshold (t : mtype) : bool := match t with Lower | Upper => true | _ => false end.
(** Does a value trigger the monitor? Values of a text trigger on every change; numbers when they are beyond the threshold
    or further than the delta from the reference. *)
Definition beyond (d : dtype) (m : monitor) (before now : Z) : bool :=
  match d, n_type m with
  | Text, _ => if Z.eq_dec before now then false else true
  | _, Upper => now >? n_value m
  | _, Lower => n_value m >? now
  | _, Delta => match n_ref m with None => false | Some r => (r - now >? n_value m) || (now - r >? n_value m) end
  | _, _ => false
  end.
(** Is the monitor reported in this pass? Its severity must be within the level in force, and the monitoring base must
    admit it. *)
Definition admitted (v : env) (m : monitor) : bool :=
  negb (n_sev m >? (if v_offline v then v_offsev v else v_level v)) &&
  match n_conf m, v_base v with
  | HardWired, _ => true
  | Preconfigured, BaseHardWired => false
  | Preconfigured, _ => true
  | Custom, BaseAll => true
  | Custom, _ => false
  end.

(** A monitor that has triggered: the value it is at, whether that value is alarming, whether that is news, whether the
    CSMS was told of the alarm, reports waiting. *)
Record watch := W { w_mon : monitor; w_var : Z; w_wo : bool; w_value : Z; w_alarm : bool; w_news : bool; w_told : bool; w_queue : list report }.
(** A periodic monitor: last report, next clock-aligned one, reports waiting. *)
Record timed := T { t_mon : monitor; t_var : Z; t_last : Z; t_next : Z; t_queue : list report }.
Inductive life := Idle | Watching (w : watch) | Timing (t : timed).

Definition kind_of (t : mtype) : etrig := match t with Delta => EDelta | Lower => EAlerting | Upper => EAlerting | _ => EPeriodic end.
(** The report of a triggered monitor: no value if that is write-only, nothing on clearing if it is a delta. *)
Definition alarm_report (w : watch) : report :=
  Rep (w_var w) (if w_wo w then None else Some (w_value w)) (kind_of (n_type (w_mon w))) (n_conf (w_mon w))
      (match n_type (w_mon w) with Delta => None | _ => Some (negb (w_alarm w)) end).
Definition timed_report (t : timed) (x : Z) : report := Rep (t_var t) (Some x) (kind_of (n_type (t_mon t))) (n_conf (t_mon t)) None.
(** Reports that are due are sent together. *)
Definition notice (l : list report) : list seen := match l with [] => [] | _ => [Notice l] end.

(** A value of the variable is looked at. *)
Definition look (m : monitor) (var : Z) (d : dtype) (wo : bool) (before now : Z) (s : life) : life * list seen :=
  match d, n_type m with
  | OtherType, _ => (s, [])
  | _, Periodic | _, Aligned => (s, [])
  | _, _ =>
      let b := beyond d m before now in
      (match s with
       | Idle => if b then Watching (W m var wo now true true false []) else Idle
       | Watching w =>
           if threshold (n_type m)
           then Watching (W (w_mon w) (w_var w) (w_wo w) now b (w_news w || negb (eqb b (w_alarm w))) (w_told w) (w_queue w))
           else Watching (W (w_mon w) (w_var w) (w_wo w) now (w_alarm w || b) (w_news w || b) (w_told w) (w_queue w))
       | Timing t => Timing t
       end,
       match d, n_type m with Text, Delta => if b then [NewRef now] else [] | _, _ => [] end)
  end.
(** A pass at a triggered monitor. *)
Definition pass_watch (v : env) (w : watch) : life * list seen :=
  if admitted v (w_mon w) then
    let q := w_queue w ++ (if w_news w then [alarm_report w] else []) in
    if v_offline v
    then (if w_alarm w || w_told w
          then Watching (W (w_mon w) (w_var w) (w_wo w) (w_value w) (w_alarm w) false (w_told w) q)
          else Idle, [])
    else (if w_alarm w
          then Watching (W (w_mon w) (w_var w) (w_wo w) (w_value w) true false true [])
          else Idle, notice q)
  else (Idle, []).
(** The next time at which the minutes and seconds of the clock are a multiple of [s] seconds or zero, fractions of a
    second left aside (for a negative [s], the last such time). *)
Definition next_point (now s : Z) : Z :=
  let sec := (now mod 3600000) / 1000 in
  let start := now - now mod 3600000 in
  if 0 <? s
  then (if sec mod s =? 0 then start + sec * 1000 else start + 1000 * Z.min 3600 (sec - sec mod s + s))
  else start + 1000 * (sec - sec mod (- s)).
(** A pass at a periodic monitor; [x] is the value of its variable. *)
Definition pass_timed (v : env) (t : timed) : life * list seen :=
  let now_due :=
    match n_type (t_mon t) with
    | Periodic => v_steady v >? t_last t + 1000 * n_value (t_mon t)
    | _ => v_clock v >? t_next t
    end in
  if now_due then
    let q := t_queue t ++ match v_value v (t_var t) with Some x => [timed_report t x] | None => [] end in
    let t1 := match n_type (t_mon t) with
              | Periodic => T (t_mon t) (t_var t) (v_steady v) (t_next t)
              | _ => T (t_mon t) (t_var t) (t_last t) (next_point (v_clock v) (n_value (t_mon t)))
              end in
    if v_offline v then (Timing (t1 q), []) else (Timing (t1 []), notice q)
  else if v_offline v then (Timing t, []) else (Timing (T (t_mon t) (t_var t) (t_last t) (t_next t) []), notice (t_queue t)).
(** The periodic monitor with this id in the device model. *)
Definition configured (v : env) (i : Z) : option (Z * monitor) :=
  find (fun x => n_id (snd x) =? i) (flat_map (fun p => map (fun m => (fst p, m)) (snd p)) (v_periodic v)).
Definition appear (v : env) (i : Z) (s : life) : life :=
  match s, configured v i with
  | Idle, Some (var, m) =>
      Timing (match n_type m with
              | Periodic => T m var (v_steady v) 0 []
              | _ => T m var 0 (next_point (v_clock v) (n_value m)) []
              end)
  | Timing t, None => Idle
  | _, _ => s
  end.
Definition pass (v : env) (s : life) : life * list seen :=
  match s with Idle => (Idle, []) | Watching w => pass_watch v w | Timing t => pass_timed v t end.
Fixpoint look_all (i : Z) (ms : list monitor) (var : Z) (d : dtype) (wo : bool) (before now : Z) (s : life) : life * list seen :=
  match ms with
  | [] => (s, [])
  | m :: q =>
      let '(s1, a) := if n_id m =? i then look m var d wo before now s else (s, []) in
      let '(s2, b) := look_all i q var d wo before now s1 in (s2, a ++ b)
  end.
(** Another setting of the monitor: thresholds are looked at again. *)
Definition change_setting (m : monitor) (s : life) : life :=
  match s with
  | Idle => Idle
  | Watching w => Watching (W m (w_var w) (w_wo w) (w_value w) (w_alarm w) (w_news w) (w_told w) (w_queue w))
  | Timing t => Timing (T m (t_var t) (t_last t) (t_next t) (t_queue t))
  end.
(** What a call means for the monitor with id [i]. *)
Definition life_step (i : Z) (s : life) (o : op) : life * list seen :=
  match o with
  | OChange ms var d actual wo before now => if actual then look_all i ms var d wo before now s else (s, [])
  | OUpdate m var d wo now =>
      if n_id m =? i then
        match s with
        | Idle => (Idle, [])
        | _ => if threshold (n_type m) then look m var d wo now now (change_setting m s) else (change_setting m s, [])
        end
      else (s, [])
  | OTimer v => if v_enabled v then pass v (appear v i s) else (s, [])
  | OTriggered v => if v_enabled v then pass v s else (s, [])
  end.
Fixpoint life_run (i : Z) (s : life) (h : list op) : life * list seen :=
  match h with
  | [] => (s, [])
  | o :: q => let '(s1, a) := life_step i s o in let '(s2, b) := life_run i s1 q in (s2, a ++ b)
  end.

(** What the outputs of the updater show of the monitor with id [i]. *)
Definition report_of (e : event) : report := Rep (e_var e) (e_value e) (e_trig e) (e_conf e) (e_clear e).
Definition shows (i : Z) (o : out) : list seen :=
  match o with
  | OSend l => notice (map report_of (filter (fun e => e_mon e =? i) l))
  | ORef j x => if j =? i then [NewRef x] else []
  | OThrow => []
  end.
Definition shown (i : Z) (l : list out) : list seen := flat_map (shows i) l.
(** The events sent, in their order. *)
Definition events_sent (l : list out) : list event := flat_map (fun o => match o with OSend e => e | _ => [] end) l.
