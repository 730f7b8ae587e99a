(** Specification of OCPP 2.x composite schedules, independent of how profile.cpp
    computes them.  Only the record types of the model are used. *)

From Coq Require Import ZArith List Bool Permutation Sorted.
From Verif Require Import P2Model.
Import ListNotations.
Open Scope Z_scope.

(** What a list of periods says about the offset [o]: the last period that has started.
    (Lists are in ascending order of their starts.) *)
Fixpoint look {A} (st : A -> Z) (l : list A) (o : Z) : option A :=
  match l with
  | [] => None
  | x :: r => if st x <=? o then
                match look st r o with Some y => Some y | None => Some x end
              else None
  end.

(** Whole seconds of an instant given in nanoseconds. *)
Definition secs (t : Z) : Z := t / 1000000000.

(** A schedule whose periods start at 0 and are strictly increasing (as 32-bit numbers). *)
Definition ascending {A} (st : A -> Z) (l : list A) : Prop :=
  StronglySorted (fun a b => st a < st b) l.

Definition wf_schedule (s : sched) : Prop :=
  ascending sp_start (sc_periods s) /\
  match sc_periods s with [] => True | c :: _ => sp_start c = 0 end /\
  Forall (fun c => sp_start c <= 2147483647) (sc_periods s).

(** Only the first schedule of a profile is used. *)
Definition the_schedule (p : profile) : sched := hd no_sched (pf_scheds p).

(** Start of the occurrence of the schedule that is running at second [t]; [now] is the
    beginning of the window. *)
Definition day_or_week (r : recur) : Z := match r with Daily => 86400 | Weekly => 604800 end.

Definition occurrence (p : profile) (now : Z) (session : option Z) (t : Z) : option Z :=
  match pf_kind p with
  | Absolute => Some (match sc_start (the_schedule p), pf_from p with
                      | Some s, _ => secs s
                      | None, Some f => secs f
                      | None, None => now
                      end)
  | Relative => Some (match session with Some s => secs s | None => now end)
  | Dynamic => Some now
  | Recurring =>
      match pf_recur p, sc_start (the_schedule p) with
      | Some r, Some s => Some (t - (t - secs s) mod day_or_week r)
      | _, _ => None
      end
  end.

(** The period of the profile in force at second [t], if any: inside the validity interval,
    inside the schedule's duration, and less than 2^31-1 s after its start. *)
Definition in_force (p : profile) (now : Z) (session : option Z) (t : Z) : option csp :=
  match occurrence p now session t with
  | None => None
  | Some s =>
      if (match pf_from p with Some f => secs f <=? t | None => true end) &&
         (match pf_to p with Some u => t <? secs u | None => true end) &&
         (s <=? t) && (t - s <? 2147483647) &&
         (match sc_duration (the_schedule p) with Some d => t - s <? d | None => true end)
      then look sp_start (sc_periods (the_schedule p)) (t - s)
      else None
  end.

(** The validity end of a profile is not more than 2^31 s before the start of the occurrence
    (the code computes that distance in 32 bits). *)
Definition near_valid_to (p : profile) (now end_ : Z) (session : option Z) : Prop :=
  match pf_to p with
  | None => True
  | Some u => forall t s, now <= t < end_ -> occurrence p now session t = Some s ->
                          - 2147483648 <= secs u - s
  end.

(** The profile that decides about a purpose at [t], out of those satisfying [P]: one in
    force, of highest stack level. *)
Definition decides (P : profile -> Prop) (pu : purpose) (now : Z) (session : option Z) (t : Z)
           (r : option (profile * csp)) : Prop :=
  match r with
  | Some (p, c) =>
      P p /\ pf_purpose p = pu /\ in_force p now session t = Some c /\
      forall q, P q -> pf_purpose q = pu -> in_force q now session t <> None ->
                pf_stack q <= pf_stack p
  | None => forall q, P q -> pf_purpose q = pu -> in_force q now session t = None
  end.

(** What is demanded at an instant, in amperes and in watts: limits, discharge limits and
    setpoints, each for L1 (or the total) and perhaps for L2 and L3; and a number of phases. *)
Record want := {
  w_cur : otri;
  w_pow : otri;
  w_dcur : otri;
  w_dpow : otri;
  w_scur : otri;
  w_spow : otri;
  w_phases : option Z;
}.

Definition none3 : otri := {| t1 := None; t2 := None; t3 := None |}.

Definition nothing : want :=
  {| w_cur := none3; w_pow := none3; w_dcur := none3; w_dpow := none3; w_scur := none3;
     w_spow := none3; w_phases := None |}.

(** A charging-only period without a limit stands for 48 A or 33120 W. *)
Definition limit_of (c : csp) (u : runit) : otri :=
  match t1 (sp_limit c), sp_mode c with
  | None, (None | Some ChargingOnly) =>
      {| t1 := Some (match u with UA => 48 * 2 ^ 149 | UW => 33120 * 2 ^ 149 end);
         t2 := t2 (sp_limit c); t3 := t3 (sp_limit c) |}
  | _, _ => sp_limit c
  end.

Definition wanted_by (r : option (profile * csp)) : want :=
  match r with
  | None => nothing
  | Some (p, c) =>
      let u := sc_unit (the_schedule p) in
      match u with
      | UA => {| w_cur := limit_of c u; w_pow := none3; w_dcur := sp_dis c; w_dpow := none3;
                 w_scur := sp_set c; w_spow := none3; w_phases := sp_phases c |}
      | UW => {| w_cur := none3; w_pow := limit_of c u; w_dcur := none3; w_dpow := sp_dis c;
                 w_scur := none3; w_spow := sp_set c; w_phases := sp_phases c |}
      end
  end.

(** A TxProfile that demands anything overrides a TxDefaultProfile. *)
Definition silent3 (x : otri) : bool :=
  match t1 x, t2 x, t3 x with None, None, None => true | _, _, _ => false end.
Definition silent (w : want) : bool :=
  silent3 (w_cur w) && silent3 (w_pow w) && silent3 (w_dcur w) && silent3 (w_dpow w) &&
  silent3 (w_scur w) && silent3 (w_spow w).

Definition override (tx txdefault : want) : want :=
  if silent tx then if silent txdefault then nothing else txdefault else tx.

(** *** The strictest of several demands *)

Definition omin (a b : option Z) : option Z :=
  match a, b with
  | None, x => x
  | x, None => x
  | Some x, Some y => Some (Z.min x y)
  end.
Definition omax (a b : option Z) : option Z :=
  match a, b with
  | None, x => x
  | x, None => x
  | Some x, Some y => Some (Z.max x y)
  end.

Definition three (f : option Z -> option Z -> option Z) (a b : otri) : otri :=
  {| t1 := f (t1 a) (t1 b); t2 := f (t2 a) (t2 b); t3 := f (t3 a) (t3 b) |}.

(** Values for L2 or L3 are given somewhere. *)
Definition phased3 (x : otri) : bool :=
  match t2 x, t3 x with None, None => false | _, _ => true end.
Definition phased (w : want) : bool :=
  phased3 (w_cur w) || phased3 (w_pow w) || phased3 (w_dcur w) || phased3 (w_dpow w) ||
  phased3 (w_scur w) || phased3 (w_spow w).

(** With one phase the lowest of the values given for the phases counts. *)
Definition on_one (x : otri) : otri :=
  match t1 x with
  | None => x
  | Some _ => {| t1 := omin (t1 x) (omin (t2 x) (t3 x)); t2 := None; t3 := None |}
  end.
(** With several phases, a value without its counterparts for L2 and L3 counts for every phase
    (a current) or is shared by [n] phases (a power). *)
Definition on_each (share : Z -> Z) (x : otri) : otri :=
  match t1 x, t2 x, t3 x with
  | Some _, Some _, Some _ => x
  | Some v, _, _ => {| t1 := Some (share v); t2 := Some (share v); t3 := Some (share v) |}
  | None, _, _ => x
  end.

Definition equalised (ar : arith) (n : option Z) (w : want) : want :=
  let conv fc fp :=
    {| w_cur := fc (w_cur w); w_pow := fp (w_pow w); w_dcur := fc (w_dcur w);
       w_dpow := fp (w_dpow w); w_scur := fc (w_scur w); w_spow := fp (w_spow w);
       w_phases := w_phases w |} in
  match n with
  | None => w
  | Some k => if k =? 1 then conv on_one on_one
              else if 1 <? k then
                conv (on_each (fun v => v)) (on_each (fun v => f_div ar v (f_of_int ar k)))
              else w
  end.

(** Two setpoints: a negative (discharging) first one gives way to a higher one, another first
    one to a lower one. *)
Definition agree (a b : option Z) : option Z :=
  match a, b with
  | None, x => x
  | x, None => x
  | Some x, Some y => Some (if x <? 0 then Z.max x y else Z.min x y)
  end.

(** A setpoint stays within the limit or the discharge limit. *)
Definition capped (s limit discharge : option Z) : option Z :=
  match s with
  | None => None
  | Some x => if x <? 0 then omax s discharge else omin s limit
  end.

(** What happens to the setpoint of L2 or L3 ([ph]), demand after demand: nothing before
    there is a setpoint for L1; while that is charging, the lowest of the setpoints and of the
    limit; while it is discharging, the highest if there has been any. *)
Definition other_phase (ph : otri -> option Z) (l : list (otri * otri * otri)) : option Z :=
  let step st x :=
    let '(s1, s, lim, dis) := st in
    let '(xs, xl, xd) := x in
    let s1' := agree s1 (t1 xs) in
    let lim' := omin lim (ph xl) in
    let dis' := omax dis (ph xd) in
    let s' := match s1' with
              | None => s
              | Some v =>
                  if v <? 0
                  then match s with
                       | None => None
                       | Some _ => omax (omax s (match ph xs with
                                                 | Some y => if y <? 0 then Some y else None
                                                 | None => None
                                                 end)) dis'
                       end
                  else omin (omin s (match ph xs with
                                     | Some y => if y <? 0 then None else Some y
                                     | None => None
                                     end)) lim'
              end in
    (s1', s', lim', dis') in
  snd (fst (fst (fold_left step l (None, None, None, None)))).

(** The combined setpoint out of setpoints, limits and discharge limits. *)
Definition setpoint_of (l : list (otri * otri * otri)) : otri :=
  let lim := fold_left (fun a x => omin a (t1 (snd (fst x)))) l None in
  let dis := fold_left (fun a x => omax a (t1 (snd x))) l None in
  {| t1 := capped (fold_left (fun a x => agree a (t1 (fst (fst x)))) l None) lim dis;
     t2 := other_phase t2 l;
     t3 := other_phase t3 l |}.

Definition strictest_phases (l : list want) : option Z :=
  fold_left (fun a w => omin a (w_phases w)) l None.

(** [by_phase]: the demands are first brought to the same phases. *)
Definition strictest (ar : arith) (by_phase : bool) (l : list want) : want :=
  let n := strictest_phases l in
  let l := if by_phase then map (equalised ar n) l else l in
  {| w_cur := fold_left (fun a w => three omin a (w_cur w)) l none3;
     w_pow := fold_left (fun a w => three omin a (w_pow w)) l none3;
     w_dcur := fold_left (fun a w => three omax a (w_dcur w)) l none3;
     w_dpow := fold_left (fun a w => three omax a (w_dpow w)) l none3;
     w_scur := setpoint_of (map (fun w => (w_scur w, w_cur w, w_dcur w)) l);
     w_spow := setpoint_of (map (fun w => (w_spow w, w_pow w, w_dpow w)) l);
     w_phases := n |}.

(** Phases matter in OCPP 2.1 only, and only when some demand mentions L2 or L3. *)
Definition per_phase (v : version) (l : list want) : bool :=
  match v with V21 => existsb phased l | V201 => false end.

(** *** Adding up the EVSEs *)

Definition or_else (o : option Z) (d : Z) : Z := match o with Some x => x | None => d end.

Definition total (ar : arith) (by_phase : bool) (dflt : Z) (l : list otri) : otri :=
  let sum f := Some (fold_left (fun s x => f_add ar s (or_else (f x) dflt)) l 0) in
  {| t1 := sum t1; t2 := if by_phase then sum t2 else None; t3 := if by_phase then sum t3 else None |}.

(** The limits of the EVSEs are added; discharge limits and setpoints are not. *)
Definition added (ar : arith) (by_phase : bool) (cdef wdef : Z) (l : list want) : want :=
  let n := fold_left (fun a w => omax a (w_phases w)) l None in
  let l := if by_phase then map (equalised ar n) l else l in
  {| w_cur := total ar by_phase cdef (map w_cur l);
     w_pow := total ar by_phase wdef (map w_pow l);
     w_dcur := none3; w_dpow := none3; w_scur := none3; w_spow := none3;
     w_phases := n |}.

(** *** Expressing a demand in the requested unit *)

Definition map3 (f : Z -> Z) (x : otri) : otri :=
  {| t1 := option_map f (t1 x); t2 := option_map f (t2 x); t3 := option_map f (t3 x) |}.

(** Amperes into watts or watts into amperes: by the voltage, and by the number of phases unless
    every phase has its own value. *)
Definition converted (ar : arith) (u : runit) (volts n : Z) (x : otri) : otri :=
  let scale := match t2 x, t3 x with
               | Some _, Some _ => volts
               | _, _ => f_mul ar volts (f_of_int ar n)
               end in
  map3 (fun v => match u with UA => f_div ar v scale | UW => f_mul ar v scale end) x.

Definition expressed (ar : arith) (u : runit) (dflt dphases volts : Z) (w : want) : operiod :=
  let n := or_else (w_phases w) dphases in
  let pick f (amps watts : otri) :=
    match u with
    | UA => three f amps (converted ar UA volts n watts)
    | UW => three f watts (converted ar UW volts n amps)
    end in
  let lim := pick omin (w_cur w) (w_pow w) in
  {| op_start := 0;
     op_phases := w_phases w;
     op_limit :=
       {| t1 := match t1 lim with
                | None => Some dflt
                | Some x => match u, t1 (w_cur w), t1 (w_pow w) with
                            | UA, None, _ => Some (Z.min ((2 ^ 24 - 1) * 2 ^ 253) x)
                            | UW, _, None => Some (Z.min ((2 ^ 24 - 1) * 2 ^ 253) x)
                            | _, _, _ => Some x
                            end
                end;
          t2 := t2 lim; t3 := t3 lim |};
     op_dis := pick omax (w_dcur w) (w_dpow w);
     op_set := pick omin (w_scur w) (w_spow w) |}.

(** *** Well-behaved numbers *)

(** Multiples of 2^-52 (the epsilon of is_equal; every float of absolute value 2^-29 or more
    is one) below 2^127 in absolute value. *)
Definition regular (x : Z) : Prop := (2 ^ 97 | x) /\ Z.abs x < 2 ^ 276.

Definition opt_ok (P : Z -> Prop) (o : option Z) : Prop := match o with Some x => P x | None => True end.
Definition tri_ok (P : Z -> Prop) (x : otri) : Prop :=
  opt_ok P (t1 x) /\ opt_ok P (t2 x) /\ opt_ok P (t3 x).

(** Limits are not negative, discharge limits are negative. *)
Definition tidy (w : want) : Prop :=
  tri_ok (fun x => regular x /\ 0 <= x) (w_cur w) /\ tri_ok (fun x => regular x /\ 0 <= x) (w_pow w) /\
  tri_ok (fun x => regular x /\ x < 0) (w_dcur w) /\ tri_ok (fun x => regular x /\ x < 0) (w_dpow w) /\
  tri_ok regular (w_scur w) /\ tri_ok regular (w_spow w).

Definition tidy_profile (p : profile) : Prop :=
  Forall (fun c => tri_ok (fun x => regular x /\ 0 <= x) (sp_limit c) /\
                   tri_ok (fun x => regular x /\ x < 0) (sp_dis c) /\
                   tri_ok regular (sp_set c)) (sc_periods (the_schedule p)).

(** A sorting function as std::sort promises it. *)
Definition sorts (f : list entry -> list entry) (le : entry -> entry -> Prop) : Prop :=
  forall l, Permutation l (f l) /\ StronglySorted le (f l).

Definition by_start (a b : entry) : Prop := e_start a <= e_start b.
Definition by_stack (a b : entry) : Prop := e_stack b <= e_stack a.

(** Well-formedness of a produced schedule for a window of [len] seconds. *)
Definition first_phase (o : operiod) : option Z * option Z * option Z * option Z :=
  (t1 (op_limit o), t1 (op_dis o), t1 (op_set o), op_phases o).

Definition neighbours_differ (l : list operiod) : Prop :=
  forall a b x y, l = a ++ x :: y :: b -> first_phase x <> first_phase y.

Definition wf_output (len : Z) (l : list operiod) : Prop :=
  ascending op_start l /\
  (exists x r, l = x :: r /\ op_start x = 0) /\
  (0 < len -> Forall (fun o => 0 <= op_start o < len) l) /\
  neighbours_differ l.
