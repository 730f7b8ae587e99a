(** What meter values are supposed to say. *)
From Coq Require Import String ZArith QArith List Bool Permutation Sorted.
From Verif Require Import MvModel.
Import ListNotations.
Local Open Scope Z_scope.

(** ** Filters *)
Definition wanted (ms : list Z) (s : sample) : bool :=
  match s_measurand s with Some m => if in_dec Z.eq_dec m ms then true else false | None => false end.
Definition stripped (keep : bool) (s : sample) : sample :=
  Sample (s_value s) (s_measurand s) (s_context s) (s_phase s) (s_location s) (if keep then s_signed s else None) (s_unit s) (s_custom s).
(** The sampled values with a configured measurand, in their order. *)
Definition filtered (ms : list Z) (keep : bool) (l : list sample) : list sample := map (stripped keep) (filter (wanted ms) l).
(** The reading contexts whose values the two lists of measurands are for. *)
Definition sampled_context (c : Z) : Prop :=
  In c [Transaction_Begin; Transaction_End; Interruption_Begin; Interruption_End; Sample_Periodic].
(** What the event that ends a transaction says of a stored value. *)
Inductive selected (sampled aligned : list Z) (max_time : Z) (sign_sampled sign_aligned : bool) (m : mvalue) : list mvalue -> Prop :=
| SelSampled : forall s q c, m_samples m = s :: q -> s_context s = Some c -> sampled_context c -> m_time m <= max_time ->
    filtered sampled sign_sampled (m_samples m) <> [] ->
    selected sampled aligned max_time sign_sampled sign_aligned m
      [MV (filtered sampled sign_sampled (m_samples m)) (m_time m) (m_custom m)]
| SelAligned : forall s q, m_samples m = s :: q -> s_context s = Some Sample_Clock -> m_time m <= max_time ->
    filtered aligned sign_aligned (m_samples m) <> [] ->
    selected sampled aligned max_time sign_sampled sign_aligned m
      [MV (filtered aligned sign_aligned (m_samples m)) (m_time m) (m_custom m)]
| SelNot :
    (m_samples m = [] \/ max_time < m_time m \/
     (exists s q, m_samples m = s :: q /\
        (s_context s = None \/
         (exists c, s_context s = Some c /\ ~ sampled_context c /\ c <> Sample_Clock) \/
         (exists c, s_context s = Some c /\ sampled_context c /\ filtered sampled sign_sampled (m_samples m) = []) \/
         (s_context s = Some Sample_Clock /\ filtered aligned sign_aligned (m_samples m) = [])))) ->
    selected sampled aligned max_time sign_sampled sign_aligned m [].
Inductive all_selected (sampled aligned : list Z) (max_time : Z) (ss sa : bool) : list mvalue -> list mvalue -> Prop :=
| AllNil : all_selected sampled aligned max_time ss sa [] []
| AllCons : forall m q x r, selected sampled aligned max_time ss sa m x -> all_selected sampled aligned max_time ss sa q r ->
    all_selected sampled aligned max_time ss sa (m :: q) (x ++ r).

(** ** Averages *)
Definition averaged (s : sample) : Prop :=
  exists m, s_measurand s = Some m /\ In m [Current_Import; Voltage; Power_Active_Import; Frequency].
Definition alike (a b : sample) : Prop :=
  s_measurand a = s_measurand b /\ s_phase a = s_phase b /\ s_location a = s_location b.
(** The values among [l] that are alike to [s], in any order. *)
Inductive values_alike (s : sample) : list sample -> list Q -> Prop :=
| ValNil : values_alike s [] []
| ValYes : forall x l v, alike s x -> values_alike s l v -> values_alike s (x :: l) (s_value x :: v)
| ValNo : forall x l v, ~ alike s x -> values_alike s l v -> values_alike s (x :: l) v.
Definition sum (l : list Q) : Q := fold_right Qplus 0%Q l.
Definition mean (l : list Q) : Q := (sum l / inject_Z (Z.of_nat (length l)))%Q.
Definition all_samples (h : list mvalue) : list sample := flat_map m_samples h.
(** [s'] is [s] with the mean over the history in place of its value, if it is averaged. *)
Definition averaged_over (h : list mvalue) (s s' : sample) : Prop :=
  s' = Sample (s_value s') (s_measurand s) (s_context s) (s_phase s) (s_location s) (s_signed s) (s_unit s) (s_custom s) /\
  (averaged s -> exists v, values_alike s (all_samples h) v /\ (s_value s' == mean v)%Q) /\
  (~ averaged s -> s_value s' = s_value s).
(** The report made of the values received, oldest first: the latest one, averaged. *)
Definition report (h : list mvalue) (l : list sample) : Prop :=
  match h with
  | [] => l = []
  | _ => Forall2 (averaged_over h) (m_samples (last h (MV [] 0 None))) l
  end.

(** ** Clock alignment *)
Definition on_grid (origin interval t : Z) : Prop := exists k, t = origin + k * (interval * second).
Definition midnight (t m : Z) : Prop := m <= t < m + day * second /\ exists k, m = k * (day * second).

(** ** The store *)
(** Times are kept to the millisecond, towards the epoch. *)
Definition ms (t : Z) : Z := Z.quot t 1000000 * 1000000.
Definition context_of (m : mvalue) : option Z := match m_samples m with s :: _ => s_context s | [] => None end.
(** All values have something, or none has. *)
Definition uniform {A B} (f : A -> option B) (l : list A) : Prop := Forall (fun x => f x = None) l \/ Forall (fun x => f x <> None) l.
Definition text_of (s : sample) : option string := match s_unit s with Some u => u_text u | None => None end.
Definition mult_of (s : sample) : option Z := match s_unit s with Some u => u_mult u | None => None end.
(** Values the store keeps unchanged. *)
Definition plain_sample (c : Z) (fk : bool) (s : sample) : Prop :=
  s_context s = Some c /\ s_custom s = None /\
  match s_unit s with Some u => u_custom u = None /\ (u_text u <> None \/ u_mult u <> None) | None => True end /\
  match s_signed s with Some g => g_method g <> None /\ g_key g <> None | None => True end /\
  (fk = true -> match s_measurand s with Some m => m <= Voltage | None => True end /\
                match s_location s with Some l => l <= Outlet | None => True end).
Definition plain (fk : bool) (m : mvalue) : Prop :=
  m_samples m <> [] /\ m_custom m = None /\ (exists c, Forall (plain_sample c fk) (m_samples m)) /\
  uniform s_location (m_samples m) /\ uniform text_of (m_samples m) /\ uniform mult_of (m_samples m).
(** The store: values by transaction. A value of the same transaction, time and context as one that is there is refused. *)
Definition store := list (string * mvalue).
Definition refused (tx : string) (m : mvalue) (s : store) : Prop :=
  exists m', In (tx, m') s /\ m_time m' = ms (m_time m) /\ context_of m' = context_of m.
Definition to_the_ms (m : mvalue) : mvalue := MV (m_samples m) (ms (m_time m)) (m_custom m).
Definition of_tx (tx : string) (s : store) : list mvalue :=
  map snd (filter (fun p => if string_dec (fst p) tx then true else false) s).
Definition without_tx (tx : string) (s : store) : store := filter (fun p => if string_dec (fst p) tx then false else true) s.
Definition earlier (a b : mvalue) : Prop := m_time a <= m_time b.
(** Insertions and deletions in the tables, and what is kept after them, the latest operation first. *)
Inductive store_op := Ins (fk : bool) (tx : string) (m : mvalue) | Clr (tx : string).
Inductive kept : list store_op -> store -> Prop :=
| KeptNil : kept [] []
| KeptAdd : forall fk tx m l s, kept l s -> ~ refused tx m s -> kept (Ins fk tx m :: l) (s ++ [(tx, to_the_ms m)])
| KeptRefuse : forall fk tx m l s, kept l s -> refused tx m s -> kept (Ins fk tx m :: l) s
| KeptClr : forall tx l s, kept l s -> kept (Clr tx :: l) (without_tx tx s).
