(** Specification of OCPP 1.6 composite schedules, independent of how profile.cpp
    computes them.  Only the record types of the model are used. *)

From Coq Require Import ZArith List Bool Permutation Sorted.
From Verif Require Import Prof16Model.
Import ListNotations.
Open Scope Z_scope.

(** What a list of periods says about the offset [o]: the last period that has started.
    (Lists are in ascending order of their starts.) *)
Fixpoint look {A} (st : A -> Z) (l : list A) (o : Z) : option A :=
  match l with
  | [] => None
  | x :: r => if st x <=? o then
                match look st r o with Some y => Some y | None => Some x end
              else None
  end.

(** Whole seconds of an instant given in nanoseconds. *)
Definition secs (t : Z) : Z := t / 1000000000.

(** A schedule whose periods start at 0 and are strictly increasing (as 32-bit numbers). *)
Definition ascending {A} (st : A -> Z) (l : list A) : Prop :=
  StronglySorted (fun a b => st a < st b) l.

Definition wf_schedule (s : sched) : Prop :=
  ascending sp_start (sc_periods s) /\
  match sc_periods s with [] => True | c :: _ => sp_start c = 0 end /\
  Forall (fun c => sp_start c <= 2147483647) (sc_periods s).

(** Limits are proper non-negative finite numbers below FLT_MAX. *)
Definition sane_limits (p : profile) : Prop :=
  Forall (fun c => 0 <= sp_limit c < (2 ^ 24 - 1) * 2 ^ 253) (sc_periods (pf_sched p)).

(** Start of the occurrence of the schedule that is running at second [t]; [now] is the
    beginning of the window. *)
Definition day_or_week (r : recur) : Z := match r with Daily => 86400 | Weekly => 604800 end.

Definition occurrence (p : profile) (now : Z) (session : option Z) (t : Z) : option Z :=
  match pf_kind p with
  | Absolute => Some (match sc_start (pf_sched p), pf_from p with
                      | Some s, _ => secs s
                      | None, Some f => secs f
                      | None, None => now
                      end)
  | Relative => Some (match session with Some s => secs s | None => now end)
  | Recurring =>
      match pf_recur p, sc_start (pf_sched p) with
      | Some r, Some s => Some (t - (t - secs s) mod day_or_week r)
      | _, _ => None
      end
  end.

(** The period of the profile in force at second [t], if any: inside the validity interval,
    inside the schedule's duration, and less than 2^31-1 s after its start. *)
Definition in_force (p : profile) (now : Z) (session : option Z) (t : Z) : option csp :=
  match occurrence p now session t with
  | None => None
  | Some s =>
      if (match pf_from p with Some f => secs f <=? t | None => true end) &&
         (match pf_to p with Some u => t <? secs u | None => true end) &&
         (s <=? t) && (t - s <? 2147483647) &&
         (match sc_duration (pf_sched p) with Some d => t - s <? d | None => true end)
      then look sp_start (sc_periods (pf_sched p)) (t - s)
      else None
  end.

(** The validity end of a profile is not more than 2^31 s before the start of the occurrence
    (the code computes that distance in 32 bits). *)
Definition near_valid_to (p : profile) (now end_ : Z) (session : option Z) : Prop :=
  match pf_to p with
  | None => True
  | Some u => forall t s, now <= t < end_ -> occurrence p now session t = Some s ->
                          - 2147483648 <= secs u - s
  end.

(** The profile that decides about a purpose at [t], out of those satisfying [P]: one in
    force, of highest stack level. *)
Definition decides (P : profile -> Prop) (pu : purpose) (now : Z) (session : option Z) (t : Z)
           (r : option (profile * csp)) : Prop :=
  match r with
  | Some (p, c) =>
      P p /\ pf_purpose p = pu /\ in_force p now session t = Some c /\
      forall q, P q -> pf_purpose q = pu -> in_force q now session t <> None ->
                pf_stack q <= pf_stack p
  | None => forall q, P q -> pf_purpose q = pu -> in_force q now session t = None
  end.

(** What is allowed at an instant: a current limit and a power limit (value, stack level) and
    a number of phases. *)
Record allowed := {
  a_cur : option (Z * Z);
  a_pow : option (Z * Z);
  a_phases : option Z;
}.

Definition allowed_none : allowed := {| a_cur := None; a_pow := None; a_phases := None |}.

Definition allowed_by (r : option (profile * csp)) : allowed :=
  match r with
  | None => allowed_none
  | Some (p, c) =>
      match sc_unit (pf_sched p) with
      | UA => {| a_cur := Some (sp_limit c, pf_stack p); a_pow := None; a_phases := sp_phases c |}
      | UW => {| a_cur := None; a_pow := Some (sp_limit c, pf_stack p); a_phases := sp_phases c |}
      end
  end.

(** A TxProfile overrides a TxDefaultProfile. *)
Definition override (tx txdefault : option (profile * csp)) : option (profile * csp) :=
  match tx with Some x => Some x | None => txdefault end.

(** The lower of two limits, the first on a tie; the lower number of phases. *)
Definition lower (a b : option (Z * Z)) : option (Z * Z) :=
  match a, b with
  | None, x => x
  | x, None => x
  | Some (x, s), Some (y, s') => if y <? x then Some (y, s') else Some (x, s)
  end.

Definition opt_min (a b : option Z) : option Z :=
  match a, b with
  | None, x => x
  | x, None => x
  | Some x, Some y => Some (Z.min x y)
  end.
Definition opt_max (a b : option Z) : option Z :=
  match a, b with
  | None, x => x
  | x, None => x
  | Some x, Some y => Some (Z.max x y)
  end.

Definition strictest (a b : allowed) : allowed :=
  {| a_cur := lower (a_cur a) (a_cur b);
     a_pow := lower (a_pow a) (a_pow b);
     a_phases := opt_min (a_phases a) (a_phases b) |}.

(** The sum over the connectors, in order, with a default for connectors without limit. *)
Definition value_or (d : Z) (o : option (Z * Z)) : Z := match o with Some (x, _) => x | None => d end.

Definition added (ar : arith) (cdef wdef : Z) (l : list allowed) : Z * Z * option Z :=
  (fold_left (fun s a => f_add ar s (value_or cdef (a_cur a))) l 0,
   fold_left (fun s a => f_add ar s (value_or wdef (a_pow a))) l 0,
   fold_left (fun s a => opt_max s (a_phases a)) l None).

(** A sum counts as a limit while it is a non-negative number below FLT_MAX. *)
Definition as_limit (x : Z) : option (Z * Z) :=
  if (0 <=? x) && (x <? (2 ^ 24 - 1) * 2 ^ 253) then Some (x, 0) else None.

Definition allowed_sum (ar : arith) (cdef wdef : Z) (l : list allowed) : allowed :=
  let '(c, w, n) := added ar cdef wdef l in
  {| a_cur := as_limit c; a_pow := as_limit w; a_phases := n |}.

(** Expressing what is allowed as one number in the requested unit. *)
Definition expressed (ar : arith) (u : runit) (dflt dphases volts : Z) (a : allowed) : Z * Z :=
  let scale := f_mul ar volts (f_of_int ar (match a_phases a with Some n => n | None => dphases end)) in
  let conv f o := match o with Some (x, s) => Some (f ar x scale, s) | None => None end in
  let '(direct, converted) :=
    match u with
    | UA => (a_cur a, conv f_div (a_pow a))
    | UW => (a_pow a, conv f_mul (a_cur a))
    end in
  match direct, converted with
  | None, None => (dflt, 0)
  | Some x, None => x
  | None, Some (y, s) => if y <? (2 ^ 24 - 1) * 2 ^ 253 then (y, s) else ((2 ^ 24 - 1) * 2 ^ 253, 0)
  | Some x, Some y => match lower (Some x) (Some y) with Some r => r | None => x end
  end.

(** A sorting function as std::sort promises it. *)
Definition sorts (f : list entry -> list entry) (le : entry -> entry -> Prop) : Prop :=
  forall l, Permutation l (f l) /\ StronglySorted le (f l).

Definition by_start (a b : entry) : Prop := e_start a <= e_start b.
Definition by_stack (a b : entry) : Prop := e_stack b <= e_stack a.

(** Well-formedness of a produced schedule for a window of [len] seconds. *)
Definition neighbours_differ (l : list operiod) : Prop :=
  forall a b x y, l = a ++ x :: y :: b ->
    (op_limit x, op_phases x, op_stack x) <> (op_limit y, op_phases y, op_stack y).

Definition wf_output (len : Z) (l : list operiod) : Prop :=
  ascending op_start l /\
  (exists x r, l = x :: r /\ op_start x = 0) /\
  (0 < len -> Forall (fun o => 0 <= op_start o < len) l) /\
  neighbours_differ l.
