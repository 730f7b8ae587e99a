(** What an EVSE is supposed to report of its meter values. *)
From Coq Require Import String ZArith QArith Qabs List Bool Permutation Sorted.
From Verif Require Import MvModel MvEvse MvSpec.
Import ListNotations.
Local Open Scope string_scope.
Local Open Scope list_scope.
Local Open Scope Z_scope.

(** ** The energy register *)
Definition is_register (s : sample) : Prop := s_measurand s = Some Energy_Active_Import_Register /\ s_phase s = None.
(** What one unit of a value is in Wh; 0 for other units. *)
Definition kilo := ["kWh"; "kWH"; "kwh"; "kwH"; "KWh"; "KWH"; "Kwh"; "KwH"].
Definition whole := ["Wh"; "WH"; "wh"; "wH"].
Inductive scale : option unit_of -> Q -> Prop :=
| ScaleNone : scale None 1
| ScalePlain : forall m c, scale (Some (Unit None m c)) (Qpower 10 (match m with Some x => x | None => 0 end))
| ScaleWh : forall t m c, In t whole -> scale (Some (Unit (Some t) m c)) (Qpower 10 (match m with Some x => x | None => 0 end))
| ScaleKwh : forall t m c, In t kilo -> scale (Some (Unit (Some t) m c)) (1000 * Qpower 10 (match m with Some x => x | None => 0 end)).
(** The register of a meter value in Wh: the first value of that measurand without a phase. *)
Definition register (m : mvalue) (q : Q) : Prop :=
  exists a s b k, m_samples m = a ++ s :: b /\ Forall (fun x => ~ is_register x) a /\ is_register s /\ scale (s_unit s) k /\ (q == s_value s * k)%Q.
Definition has_register (m : mvalue) : Prop := exists s, In s (m_samples m) /\ is_register s.
(** The nearest whole number, halves away from zero. *)
Definition nearest (q : Q) (n : Z) : Prop :=
  (Qabs (q - inject_Z n) <= 1 # 2)%Q /\ ((Qabs (q - inject_Z n) == 1 # 2)%Q -> (Qabs q <= Qabs (inject_Z n))%Q).

(** ** What happened *)
(** The values since the last report of each kind, the latest value, the transaction with the register at its start, whether
    its energy is watched, and the writing to the tables, the latest first. *)
Record past := Past {
  p_upd : list mvalue; p_end : list mvalue; p_zero : list mvalue; p_last : mvalue; p_tx : option (string * option Q);
  p_watch : bool; p_ops : list store_op }.
Definition clocked (s : sample) : sample :=
  Sample (s_value s) (s_measurand s) (Some Sample_Clock) (s_phase s) (s_location s) (s_signed s) (s_unit s) (s_custom s).
(** The averages, or the latest value when nothing has come since the last report. *)
Definition averaged_or_latest (h : list mvalue) (latest : mvalue) (l : list sample) : Prop :=
  (report h l /\ l <> []) \/ (report h [] /\ l = m_samples latest).
(** The time of a clock-aligned value. *)
Definition stamped (round : bool) (now interval : Z) (latest : mvalue) (t : Z) : Prop :=
  if round then (0 < interval -> exists m, midnight now m /\ on_grid m interval t /\ 2 * Z.abs (now - t) < interval * second + second)
  else t = m_time latest.
Definition aligned_sample (round : bool) (now interval : Z) (h : list mvalue) (latest v : mvalue) : Prop :=
  exists l, averaged_or_latest h latest l /\ m_samples v = map clocked l /\ stamped round now interval latest (m_time v) /\ m_custom v = m_custom latest.
(** A point of the clock lies between the start of a transaction and now. *)
Definition missed (c : config) (t0 now : Z) : Prop :=
  0 < c_interval_ended c /\ exists m g, midnight now m /\ on_grid m (c_interval_ended c) g /\ now - c_interval_ended c * second <= g <= now /\ t0 <= g.
Definition not_missed (c : config) (t0 now : Z) : Prop :=
  0 < c_interval_ended c -> exists m g, midnight now m /\ on_grid m (c_interval_ended c) g /\ now - c_interval_ended c * second <= g <= now /\ g < t0.
(** Values that cannot be written: custom data without a vendorId. *)
Definition no_vendor (j : option json) : Prop := match j with Some (Object None _) | Some (Array _) => True | _ => False end.
Definition unwritable (m : mvalue) : Prop :=
  exists s, In s (m_samples m) /\ (no_vendor (s_custom s) \/ match s_unit s with Some u => no_vendor (u_custom u) | None => False end).
Inductive noted (c : config) : op -> list out -> past -> past -> Prop :=
| NMeter : forall m x p w, (w = true -> p_watch p = true) ->
    noted c (Meter m) x p (Past (p_upd p ++ [m]) (p_end p ++ [m]) (p_zero p) m (p_tx p) w (p_ops p))
| NMeter0 : forall m x p, noted c (Meter0 m) x p (Past (p_upd p) (p_end p) (p_zero p ++ [m]) (p_last p) (p_tx p) (p_watch p) (p_ops p))
| NStart : forall id t0 now m x p r, ~ In Threw x -> not_missed c t0 now ->
    (match r with Some q => register (p_last p) q | None => ~ has_register (p_last p) end) ->
    noted c (Start id t0 now m) x p (Past [] [] (p_zero p) (p_last p) (Some (id, r)) false (Ins (c_fk c) id m :: p_ops p))
| NStartMissed : forall id t0 now m x p r v, (In Threw x -> unwritable v) -> missed c t0 now ->
    (match r with Some q => register (p_last p) q | None => ~ has_register (p_last p) end) ->
    aligned_sample (c_round c) now (c_interval_ended c) [] (p_last p) v ->
    noted c (Start id t0 now m) x p (Past [] [] (p_zero p) (p_last p) (Some (id, r)) false (Ins (c_fk c) id v :: Ins (c_fk c) id m :: p_ops p))
| NStartUnit : forall id t0 now m p, has_register (p_last p) -> (forall q, ~ register (p_last p) q) ->
    noted c (Start id t0 now m) [Threw] p (Past (p_upd p) (p_end p) (p_zero p) (p_last p) (Some (id, None)) false (p_ops p))
| NStartThrew : forall id t0 now m p r, unwritable m ->
    (match r with Some q => register (p_last p) q | None => ~ has_register (p_last p) end) ->
    noted c (Start id t0 now m) [Threw] p (Past (p_upd p) (p_end p) (p_zero p) (p_last p) (Some (id, r)) false (Ins (c_fk c) id m :: p_ops p))
| NFinishThrew : forall t1 m p id r, p_tx p = Some (id, r) -> unwritable m ->
    noted c (Finish t1 m) [Threw] p (Past (p_upd p) (p_end p) (p_zero p) (p_last p) (p_tx p) (p_watch p) (Ins (c_fk c) id m :: p_ops p))
| NFinish : forall t1 m x p id r, p_tx p = Some (id, r) -> ~ In Threw x ->
    noted c (Finish t1 m) x p (Past [] (p_end p) (p_zero p) (p_last p) None false (Clr id :: Ins (c_fk c) id m :: p_ops p))
| NTickEnded : forall x p id r, p_tx p = Some (id, r) -> (In Threw x -> unwritable (p_last p)) ->
    noted c TickEnded x p (Past (p_upd p) (p_end p) (p_zero p) (p_last p) (p_tx p) (p_watch p) (Ins (c_fk c) id (p_last p) :: p_ops p))
| NTickAligned : forall now x p id r, p_tx p = Some (id, r) -> c_idle c = false ->
    noted c (TickAligned now) x p (Past [] (p_end p) (p_zero p) (p_last p) (p_tx p) (p_watch p) (p_ops p))
| NTickAlignedEnded : forall now x p id r v, p_tx p = Some (id, r) -> ~ In Threw x -> aligned_sample (c_round c) now (c_interval_ended c) (p_end p) (p_last p) v ->
    noted c (TickAlignedEnded now) x p (Past (p_upd p) [] (p_zero p) (p_last p) (p_tx p) (p_watch p) (Ins (c_fk c) id v :: p_ops p))
| NTickAlignedEndedThrew : forall now p id r v, p_tx p = Some (id, r) -> aligned_sample (c_round c) now (c_interval_ended c) (p_end p) (p_last p) v -> unwritable v ->
    noted c (TickAlignedEnded now) [Threw] p (Past (p_upd p) (p_end p) (p_zero p) (p_last p) (p_tx p) (p_watch p) (Ins (c_fk c) id v :: p_ops p))
| NTickIdle : forall now others x p, p_tx p = None -> (c_idle c = true -> others = false) ->
    noted c (TickIdle now others) x p (Past [] (p_end p) [] (p_last p) (p_tx p) (p_watch p) (p_ops p))
| NTickIdleBusy : forall now others x p id r, p_tx p = Some (id, r) -> c_idle c = false ->
    noted c (TickIdle now others) x p (Past (p_upd p) (p_end p) [] (p_last p) (p_tx p) (p_watch p) (p_ops p))
| NInvalid : forall x p w id r, p_tx p = Some (id, r) ->
    noted c Invalid x p (Past (p_upd p) (p_end p) (p_zero p) (p_last p) (p_tx p) w (p_ops p))
| NOtherInsert : forall id m x p,
    noted c (OtherInsert id m) x p (Past (p_upd p) (p_end p) (p_zero p) (p_last p) (p_tx p) (p_watch p) (Ins (c_fk c) id m :: p_ops p))
| NOtherClear : forall id x p,
    noted c (OtherClear id) x p (Past (p_upd p) (p_end p) (p_zero p) (p_last p) (p_tx p) (p_watch p) (Clr id :: p_ops p))
| NNothing : forall o x p,
    match o with
    | Finish _ _ | TickEnded | TickAlignedEnded _ | Invalid => p_tx p = None
    | TickAligned _ => p_tx p = None \/ c_idle c = true
    | TickIdle _ others => c_idle c = true /\ (others = true \/ p_tx p <> None)
    | TickUpdated | Triggers _ _ _ _ | TimeTrigger => True
    | _ => False
    end -> noted c o x p p.

(** ** What is said *)
Definition told (k : kind) (id : string) (l : list sample) (m : mvalue) (x : list out) : Prop :=
  (l = [] /\ x = []) \/ (l <> [] /\ x = [Event k id [MV l (m_time m) (m_custom m)]]).
Definition watched (c : config) (p : past) (m : mvalue) : Prop :=
  exists id q0 q limit n, p_tx p = Some (id, Some q0) /\ register m q /\ c_max c = Some limit /\ nearest (q - q0) n /\ limit <= n.
(** What the EVSE says when an operation is called after [p]. *)
Definition says (c : config) (o : op) (p p' : past) (x : list out) : Prop :=
  match o with
  | Meter m =>
      (In Pause x <-> p_watch p = true /\ watched c p m) /\ (p_watch p' = true <-> p_watch p = true /\ ~ In Pause x)
  | Invalid =>
      (In Pause x <-> watched c p (p_last p)) /\ (p_watch p' = true <-> p_tx p <> None /\ ~ In Pause x)
  | Start id _ _ m =>
      x = [Threw] \/ x = [Event Started id (match filtered (c_started c) true (m_samples m) with [] => [] | l => [MV l (m_time m) (m_custom m)] end)]
  | Finish t1 m =>
      match p_tx p with
      | None => x = []
      | Some (id, _) =>
          x = [Threw] \/ (Forall (fun o => match o with Ins fk _ m => plain fk m | Clr _ => True end) (p_ops p) -> plain (c_fk c) m ->
          exists st v r, kept (Ins (c_fk c) id m :: p_ops p) st /\ Permutation (of_tx id st) v /\ StronglySorted earlier v /\
            all_selected (c_ended c) (c_aligned_ended c) t1 (c_sign c) (c_sign_aligned c) v r /\ x = [Event Ended id r])
      end
  | TickUpdated =>
      match p_tx p, context_of (p_last p) with
      | Some (id, _), Some n =>
          (n = Sample_Periodic -> told Updated id (filtered (c_updated c) true (m_samples (p_last p))) (p_last p) x) /\
          (n = Sample_Clock -> told Updated id (filtered (c_aligned c) true (m_samples (p_last p))) (p_last p) x) /\
          (n <> Sample_Periodic -> n <> Sample_Clock -> x = [])
      | _, _ => x = []
      end
  | TickAligned now =>
      match p_tx p, c_idle c with
      | Some (id, _), false =>
          exists v, aligned_sample (c_round c) now (c_interval c) (p_upd p) (p_last p) v /\ told Updated id (filtered (c_aligned c) true (m_samples v)) v x
      | _, _ => x = []
      end
  | TickIdle now others =>
      if c_idle c && (others || match p_tx p with Some _ => true | None => false end) then x = []
      else exists l0 l1 x0 x1, x = x0 ++ x1 /\ report (p_zero p) l0 /\
        (let f := filtered (c_aligned c) true (map clocked l0) in
         (f = [] /\ x0 = []) \/ (f <> [] /\ exists t, stamped (c_round c) now (c_interval c) (last (p_zero p) (MV [] 0 None)) t /\
                                   x0 = [Values true [MV f t (m_custom (last (p_zero p) (MV [] 0 None)))]])) /\
        match p_tx p with
        | Some _ => x1 = []
        | None => report (p_upd p) l1 /\
            let f := filtered (c_aligned c) true (map clocked l1) in
            (f = [] /\ x1 = []) \/ (f <> [] /\ exists t, stamped (c_round c) now (c_interval c) (p_last p) t /\ x1 = [Values false [MV f t (m_custom (p_last p))]])
        end
  | TimeTrigger => True
  | TickEnded | TickAlignedEnded _ => x = [] \/ x = [Threw]
  | _ => x = []
  end.
(** The latest first. *)
Inductive history (t : Z) : list (config * op * list out) -> past -> Prop :=
| HNil : history t [] (Past [] [] [] (MV [] t None) None false [])
| HCons : forall l p c o x p', history t l p -> noted c o x p p' -> says c o p p' x -> history t ((c, o, x) :: l) p'.
