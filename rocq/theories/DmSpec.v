(** What the device model is supposed to do, said over its tables and without the functions of the model. *)
From Coq Require Import ZArith List Bool String Ascii QArith Qabs.
From Verif Require Import StrModel StrSpec DmModel.
Import ListNotations.
Local Open Scope string_scope.
Local Open Scope Z_scope.

(** ** Tables *)

(** Variable [k] is part of the device model. *)
Definition known (d : dm) (k : key) (m : meta) : Prop := In (k, m) (d_map d).
Definition known_component (d : dm) (c : component) : Prop := exists v m, known d (c, v) m.

(** Row [r] of the attribute table is attribute [a] of variable [k]. *)
Definition stored (d : dm) (k : key) (a : attr_type) (r : attr_row) : Prop :=
  In r (d_attrs d) /\ a_key r = k /\ a_type r = a.

(** Every variable once, every attribute of a variable at most once. *)
Definition tables_ok (d : dm) : Prop :=
  NoDup (map fst (d_map d)) /\ NoDup (map (fun r => (a_key r, a_type r)) (d_attrs d)).

(** ** Getting *)

Inductive get_outcome (d : dm) (c : component) (v : variable) (a : attr_type) : var_status -> option string -> Prop :=
| get_no_component : ~ known_component d c -> get_outcome d c v a UnknownComponent None
| get_no_variable : known_component d c -> (forall m, ~ known d (c, v) m) -> get_outcome d c v a UnknownVariable None
| get_no_value m : known d (c, v) m -> (forall r, stored d (c, v) a r -> a_value r = None) ->
    get_outcome d c v a NotSupportedAttributeType None
| get_secret m r s : known d (c, v) m -> stored d (c, v) a r -> a_value r = Some s -> a_mut r = WriteOnly ->
    get_outcome d c v a Rejected None
| get_value m r s : known d (c, v) m -> stored d (c, v) a r -> a_value r = Some s -> a_mut r <> WriteOnly ->
    get_outcome d c v a Accepted (Some s).

(** ** Values *)

(** The number a decimal literal denotes. *)
Definition pow10 (n : nat) : Z := Z.pow 10 (Z.of_nat n).
Definition dec_value (q : Q) (s : string) : Prop :=
  exists sg i f n, opt_sign sg /\ digits n (i ++ f) /\ (s = sg ++ i ++ f /\ f = "" \/ s = sg ++ i ++ "." ++ f) /\
    (q * inject_Z (pow10 (length f)) == inject_Z (if String.eqb sg "-" then - n else n))%Q.

(** A normal float can represent a number of this magnitude. *)
Definition float_range (q : Q) : Prop :=
  (Qabs q < inject_Z (2 ^ 128))%Q /\ ((q == 0)%Q \/ (1 <= Qabs q * inject_Z (2 ^ 126))%Q).

Definition at_least (l : option Q) (q : Q) : Prop := match l with Some m => (m <= q)%Q | None => True end.
Definition at_most (l : option Q) (q : Q) : Prop := match l with Some m => (q <= m)%Q | None => True end.

(** The text is a comma separated list of [fields]. *)
Definition csv (fields : list string) (s : string) : Prop :=
  s = joined "," fields /\ Forall (without ",") fields /\ (fields = [] \/ last fields "" <> "").

(** [value] conforms to the characteristics; [zero]: the value zero is allowed whatever the limits are. *)
Definition conforms (ch : characteristics) (zero : bool) (value : string) : Prop :=
  match ch_type ch with
  | TString => let n := inject_Z (Z.of_nat (length value)) in at_least (ch_min ch) n /\ at_most (ch_max ch) n
  | TDecimal => exists q, dec_value q value /\
                  (zero = true /\ (q == 0)%Q \/ at_least (ch_min ch) q /\ at_most (ch_max ch) q)
  | TInteger => exists n, int_literal n value /\
                  (zero = true /\ n = 0 \/ at_least (ch_min ch) (inject_Z n) /\ at_most (ch_max ch) (inject_Z n))
  | TDateTime => datetime value
  | TBoolean => value = "true" \/ value = "false"
  | TOptionList => forall opts l, ch_values ch = Some l -> csv opts l -> In value opts
  | TSequenceList | TMemberList =>
      forall opts fields l, ch_values ch = Some l -> csv opts l -> csv fields value -> incl fields opts
  end.

(** Variables for which zero is always allowed. *)
Inductive zero_allowed : component -> variable -> Prop :=
| zero_aligned : zero_allowed (mkC "AlignedDataCtrlr" None None) (mkV "Interval" None)
| zero_updated : zero_allowed (mkC "SampledDataCtrlr" None None) (mkV "TxUpdatedInterval" None)
| zero_ended : zero_allowed (mkC "SampledDataCtrlr" None None) (mkV "TxEndedInterval" None).

(** Read-only values the library itself may write. *)
Definition library_may_write (c : component) (v : variable) (a : attr_type) : Prop :=
  a = Actual /\
  (In c (map (fun n => mkC n None None) ["AuthCacheCtrlr"; "LocalAuthListCtrlr"; "OCPPCommCtrlr"; "SecurityCtrlr"]) \/
   In v (map (fun n => mkV n None) ["AvailabilityState"; "Power"])).

(** A limit that is a whole number of a size, or absent. *)
Definition size_limit (l : option Q) : Prop :=
  match l with None => True | Some q => exists n, 0 <= n < 2 ^ 63 /\ (q == inject_Z n)%Q end.

(** ** Setting *)

(** [d'] is [d] with attribute [a] of [k] set to [value] by [src]. *)
Definition attribute_set (d d' : dm) (k : key) (a : attr_type) (value src : string) : Prop :=
  d_map d' = d_map d /\ d_mons d' = d_mons d /\ d_seq d' = d_seq d /\
  (forall k' a' r', (k', a') <> (k, a) -> (stored d' k' a' r' <-> stored d k' a' r')) /\
  (forall r', stored d' k a r' <->
     exists r, stored d k a r /\ r' = mkA k a (Some value) (a_mut r) (a_persistent r) (a_constant r) (Some src)).

(** ** Reports *)

(** What an entry of a report tells about an attribute. *)
Definition tells (r : attr_row) (x : attr_report) : Prop :=
  ar_type x = a_type r /\ ar_mut x = a_mut r /\ ar_persistent x = a_persistent r /\ ar_constant x = a_constant r.

(** It shows the current value, except that of a write-only attribute. *)
Definition shows_safely (r : attr_row) (x : attr_report) : Prop :=
  tells r x /\ (a_mut r = WriteOnly -> ar_value x = None) /\ (a_mut r <> WriteOnly -> ar_value x = a_value r).
(** It shows the current value, whatever the mutability. *)
Definition shows_plainly (r : attr_row) (x : attr_report) : Prop := tells r x /\ ar_value x = a_value r.

(** The variables of a summary: availability of the station, its EVSEs and connectors, and raised alarms. *)
Definition summary_selects (k : key) (r : attr_row) : Prop :=
  (snd k = mkV "AvailabilityState" None /\
     (fst k = mkC "ChargingStation" None None \/ same_text (c_name (fst k)) "EVSE" \/ same_text (c_name (fst k)) "Connector"))
  \/ (In (snd k) (map (fun n => mkV n None) ["Fallback"; "Overload"; "Problem"; "Tripped"]) /\
      exists s, a_value r = Some s /\ same_text s "true").

Definition base_selects (b : report_base) (k : key) (r : attr_row) : Prop :=
  match b with
  | FullInventory => True
  | ConfigurationInventory => a_mut r <> ReadOnly
  | SummaryInventory => summary_selects k r
  end.

(** Two optional texts that differ at most in case. *)
Definition same_opt_text (a b : option string) : Prop :=
  match a, b with Some x, Some y => same_text x y | None, None => True | _, _ => False end.
Definition same_component (a b : component) : Prop :=
  c_name a = c_name b /\ same_opt_text (c_inst a) (c_inst b) /\ c_evse a = c_evse b.
Definition same_variable (a b : variable) : Prop := v_name a = v_name b /\ same_opt_text (v_inst a) (v_inst b).

(** The component can currently be said to satisfy one of the criteria: the variable of that name reads true, or it has
    no readable value and the criterion is not Problem. *)
Definition reads (d : dm) (c : component) (v : variable) (s : string) : Prop := get_outcome d c v Actual Accepted (Some s).
Definition criteria_select (d : dm) (c : component) (l : list criterion) : Prop :=
  exists cr, In cr l /\
    ((exists s, reads d c (mkV (criterion_name cr) None) s /\ same_text s "true") \/
     (cr <> CrProblem /\ forall s, ~ reads d c (mkV (criterion_name cr) None) s)).

(** A requested component, or component with variable, selects a variable of the device model. *)
Definition request_selects (cv : comp_var) (k : key) : Prop :=
  let c' := fst cv in let c := fst k in let v := snd k in
  match snd cv with
  | None => same_component c c'
  | Some v' =>
      (same_component c c' /\ (same_variable v v' \/ v_inst v' = None /\ same_text (v_name v) (v_name v'))) \/
      (c_evse c' = None /\ same_text (c_name c) (c_name c') /\ same_opt_text (c_inst c) (c_inst c') /\ same_variable v v')
  end.

Definition custom_selects (d : dm) (cvs : option (list comp_var)) (crs : option (list criterion)) (k : key) : Prop :=
  (forall l, crs = Some l -> criteria_select d (fst k) l) /\
  (forall l, cvs = Some l -> exists cv, In cv l /\ request_selects cv k).

(** The entries of a report are exactly the variables with a selected attribute, each once; an entry lists the selected
    attributes of its variable, as [shows] says. *)
Definition report_exact (d : dm) (selects : key -> attr_row -> Prop) (shows : attr_row -> attr_report -> Prop)
           (l : list report) : Prop :=
  NoDup (map rp_key l) /\
  (forall k, In k (map rp_key l) <->
     (exists m, known d k m) /\ exists r, In r (d_attrs d) /\ a_key r = k /\ selects k r) /\
  (forall rp, In rp l -> exists rows,
     NoDup rows /\ (forall r, In r rows <-> In r (d_attrs d) /\ a_key r = rp_key rp /\ selects (rp_key rp) r) /\
     Forall2 shows rows (rp_attrs rp)) /\
  (forall rp ch, In rp l -> rp_char rp = Some ch -> exists m, known d (rp_key rp) m /\ ch = m_char m).

(** ** Monitors *)

(** In memory variable [k] holds monitor [mo] under id [i]. *)
Definition in_memory (d : dm) (k : key) (i : Z) (mo : monitor) : Prop := exists m, known d k m /\ In (i, mo) (m_mons m).

Definition ids (l : list (key * monitor)) : list Z := map (fun e => mo_id (snd e)) l.

(** Memory and database agree, ids are unique and have been handed out. *)
Definition monitors_ok (d : dm) : Prop :=
  0 <= d_seq d /\
  NoDup (map fst (d_map d)) /\
  NoDup (ids (d_mons d)) /\
  (forall k mo, In (k, mo) (d_mons d) -> 0 <= mo_id mo <= d_seq d) /\
  (forall k m, known d k m -> NoDup (map fst (m_mons m))) /\
  (forall k i mo, in_memory d k i mo <-> In (k, mo) (d_mons d) /\ mo_id mo = i).

(** The monitor of a request. *)
Definition requested (q : monitor_req) (cfg : monitor_config) (mo : monitor) : Prop :=
  mo_severity mo = q_severity q /\ mo_tx mo = match q_tx q with Some b => b | None => false end /\
  mo_type mo = q_type q /\ mo_value mo = q_value q /\ mo_config mo = cfg.

(** The delta reference is the value at the time of the request. *)
Definition reference_of (d : dm) (q : monitor_req) (mo : monitor) : Prop :=
  (q_type q <> Delta -> mo_ref mo = None) /\
  (q_type q = Delta -> exists r s, stored d (q_comp q, q_var q) Actual r /\ a_value r = Some s /\ mo_ref mo = Some s).

Definition crit_of (c : mon_criterion) (t : monitor_type) : Prop :=
  match c with
  | McThreshold => t = UpperThreshold \/ t = LowerThreshold
  | McDelta => t = Delta
  | McPeriodic => t = Periodic \/ t = PeriodicClockAligned
  end.
Definition crits_select (l : list mon_criterion) (t : monitor_type) : Prop := l = [] \/ exists c, In c l /\ crit_of c t.

(** ** Histories of requests *)

(** What the CSMS and the library do to the device model; the booleans are outcomes of database statements. *)
Inductive op :=
| OSetVariables (l : list set_data) (valid : set_data -> bool) (oks : list bool)
| OSetMonitors (l : list monitor_req) (oks : list bool)
| OClearMonitors (l : list Z) (oks : list bool)
| OSetBase (b : monitoring_base) (ok_set ok_clear : bool)
| OReference (i : Z) (r : string) (ok : bool).

Definition run_op (d : dm) (o : op) : dm :=
  match o with
  | OSetVariables l valid oks => fst (fst (handle_set_variables_req d l valid oks))
  | OSetMonitors l oks => fst (set_monitors d l Custom oks)
  | OClearMonitors l oks => fst (clear_monitors d l false oks)
  | OSetBase b ok1 ok2 => fst (handle_set_monitoring_base_req d b ok1 ok2 true)
  | OReference i r ok => fst (update_monitor_reference d i r ok)
  end.
Definition run_ops (d : dm) (l : list op) : dm := fold_left run_op l d.

(** A request naming an id names a custom monitor of that very variable, if the id is in use at all. *)
Definition own_id (d : dm) (q : monitor_req) : Prop :=
  forall i k mo, q_id q = Some i -> In (k, mo) (d_mons d) -> mo_id mo = i ->
    k = (q_comp q, q_var q) /\ mo_config mo = Custom.
Fixpoint own_ids (d : dm) (l : list monitor_req) (oks : list bool) : Prop :=
  match l with
  | [] => True
  | q :: l' => own_id d q /\ own_ids (fst (fst (set_monitor d q Custom (hd true oks)))) l' (tl oks)
  end.
Definition op_guard (d : dm) (o : op) : Prop :=
  match o with
  | OSetMonitors l oks => own_ids d l oks
  | OSetBase _ _ ok_clear => ok_clear = true
  | _ => True
  end.
Fixpoint ops_guard (d : dm) (l : list op) : Prop :=
  match l with [] => True | o :: l' => op_guard d o /\ ops_guard (run_op d o) l' end.

(** A monitor up to its delta reference. *)
Definition same_setting (a b : monitor) : Prop :=
  mo_id a = mo_id b /\ mo_severity a = mo_severity b /\ mo_tx a = mo_tx b /\ mo_type a = mo_type b /\
  mo_value a = mo_value b /\ mo_config a = mo_config b.

(** ** SetVariables *)

(** The attribute a request names. *)
Definition names (s : set_data) : key * attr_type :=
  ((s_comp s, s_var s), match s_attr s with Some t => t | None => Actual end).

(** No two requests name the same variable. *)
Definition distinct_requests (l : list set_data) : Prop :=
  ForallOrdPairs (fun a b => ~ (same_component (s_comp a) (s_comp b) /\ s_var a = s_var b)) l.

(** [d'] is [d] with the accepted requests carried out. *)
Definition carried_out (d d' : dm) (src : string) (accepted : list set_data) : Prop :=
  d_map d' = d_map d /\ d_mons d' = d_mons d /\ d_seq d' = d_seq d /\
  forall k a r', stored d' k a r' <->
    (exists s r, In s accepted /\ names s = (k, a) /\ stored d k a r /\
       r' = mkA k a (Some (s_value s)) (a_mut r) (a_persistent r) (a_constant r) (Some src)) \/
    ((forall s, In s accepted -> names s <> (k, a)) /\ stored d k a r').

(** ** More on monitors *)

(** The number a float stands for. *)
Definition fvalue (f : fnum) : Q := Qmake (if f_neg f then - f_micro f else f_micro f) 1000000.

(** A monitor can be set on a variable of these characteristics with the requested value; [text_ok] says whether the
    text of a threshold is a value of the variable. *)
Definition monitor_fits (ch : characteristics) (q : monitor_req) (text_ok : Prop) : Prop :=
  ch_monitoring ch = true /\ (q_type q = Delta -> f_neg (q_value q) = false) /\
  (q_type q = Periodic \/ q_type q = PeriodicClockAligned \/
   (q_type q = Delta /\ ch_type ch <> TDecimal /\ ch_type ch <> TInteger) \/ text_ok).

(** A request without an id: what comes of it. *)
Inductive new_monitor_outcome (d : dm) (q : monitor_req) (fits : characteristics -> Prop) (ok : bool) : mon_status -> Prop :=
| nm_no_component : ~ known_component d (q_comp q) -> new_monitor_outcome d q fits ok MUnknownComponent
| nm_no_variable : known_component d (q_comp q) -> (forall m, ~ known d (q_comp q, q_var q) m) ->
    new_monitor_outcome d q fits ok MUnknownVariable
| nm_bad m : known d (q_comp q, q_var q) m -> ~ fits (m_char m) -> new_monitor_outcome d q fits ok MRejected
| nm_duplicate m i mo : known d (q_comp q, q_var q) m -> fits (m_char m) -> in_memory d (q_comp q, q_var q) i mo ->
    mo_type mo = q_type q -> mo_severity mo = q_severity q -> new_monitor_outcome d q fits ok MDuplicate
| nm_no_reference m : known d (q_comp q, q_var q) m -> fits (m_char m) -> q_type q = Delta ->
    (forall i mo, in_memory d (q_comp q, q_var q) i mo -> ~ (mo_type mo = q_type q /\ mo_severity mo = q_severity q)) ->
    (forall r, stored d (q_comp q, q_var q) Actual r -> a_value r = None) -> new_monitor_outcome d q fits ok MRejected
| nm_failed m : known d (q_comp q, q_var q) m -> fits (m_char m) -> ok = false ->
    (forall i mo, in_memory d (q_comp q, q_var q) i mo -> ~ (mo_type mo = q_type q /\ mo_severity mo = q_severity q)) ->
    new_monitor_outcome d q fits ok MRejected
| nm_ok m : known d (q_comp q, q_var q) m -> fits (m_char m) -> ok = true ->
    (forall i mo, in_memory d (q_comp q, q_var q) i mo -> ~ (mo_type mo = q_type q /\ mo_severity mo = q_severity q)) ->
    (q_type q = Delta -> exists r s, stored d (q_comp q, q_var q) Actual r /\ a_value r = Some s) ->
    new_monitor_outcome d q fits ok MAccepted.

(** [d'] is [d] with monitor [mo] of [k] put in the place of the one with the same id, if there is one. *)
Definition monitor_put (d d' : dm) (k : key) (mo : monitor) : Prop :=
  d_attrs d' = d_attrs d /\ d_seq d' = Z.max (d_seq d) (mo_id mo) /\
  (forall k' mo', In (k', mo') (d_mons d') <-> (k', mo') = (k, mo) \/ (In (k', mo') (d_mons d) /\ mo_id mo' <> mo_id mo)).

(** [d'] is [d] without the monitors of [gone]. *)
Definition monitors_removed (d d' : dm) (gone : monitor -> Prop) : Prop :=
  d_attrs d' = d_attrs d /\ d_seq d' = d_seq d /\
  (forall k mo, In (k, mo) (d_mons d') <-> In (k, mo) (d_mons d) /\ ~ gone mo).

(** A monitoring report: per selected variable its selected monitors. *)
Definition monitors_reported (d : dm) (sel : key -> Prop) (tsel : monitor_type -> Prop) (l : list (key * list monitor)) : Prop :=
  (forall k, In k (map fst l) <-> sel k /\ exists mo, In (k, mo) (d_mons d) /\ tsel (mo_type mo)) /\
  (forall k ms, In (k, ms) l -> NoDup ms /\ forall mo, In mo ms <-> In (k, mo) (d_mons d) /\ tsel (mo_type mo)).
