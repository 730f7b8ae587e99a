(** The OCPP 2.x device model and the request handlers on top of it.

    Model of
    - lib/ocpp/v2/device_model.cpp                 allow_zero, allow_set_read_only_value, filter_criteria_monitor,
                                                   component_criteria_match, component_variables_match, validate_value,
                                                   include_in_summary_inventory, request_value_internal, get_mutability,
                                                   set_value, set_read_only_value, get_base_report_data,
                                                   get_custom_report_data, update_monitor_reference, set_monitors,
                                                   get_periodic_monitors, get_monitors, clear_monitors,
                                                   clear_custom_monitors
    - lib/ocpp/v2/device_model_storage_sqlite.cpp  the queries behind them
    - include/ocpp/v2/comparators.hpp              comparison of components and variables
    - lib/ocpp/v2/functional_blocks/provisioning.cpp  get_variables, set_variables_internal, handle_variables_changed
    - lib/ocpp/v2/functional_blocks/diagnostics.cpp   handle_set_monitoring_base_req

    Simplifications. Component and variable rows of the database are identified by their names: a component (a variable
    of a component) is stored once, as the initialisation of the database makes sure of. Floats are exact: limits are
    rationals, std::stof gives the exact value of its text (it throws where the value is too large, or non-zero but too
    small, for a normal float), and a monitor value is a multiple of a millionth. Limits of 2^63 and above, where
    std::llround is unspecified, count as "rejected". customData, units and the source column of variables are left
    out, as are the length limits of the strings read back from the database. Whether a statement of the database
    succeeds is an input. *)
From Coq Require Import ZArith List Bool String Ascii QArith Qround.
From Verif Require Import StrModel JsonModel.
Import ListNotations.
Local Open Scope string_scope.
Local Open Scope Z_scope.

(** ** Identifiers *)

(** ocpp_types.hpp: Component, with EVSE as (id, connectorId). *)
Record component := mkC { c_name : string; c_inst : option string; c_evse : option (Z * option Z) }.
(** ocpp_types.hpp: Variable. *)
Record variable := mkV { v_name : string; v_inst : option string }.
Definition key : Type := component * variable.

(** std::optional's operator==. *)
Definition opt_eqb {A} (e : A -> A -> bool) (a b : option A) : bool :=
  match a, b with Some x, Some y => e x y | None, None => true | _, _ => false end.

(** comparators.hpp 11-13: operator==(EVSE, EVSE). *)
Definition evse_eq (a b : Z * option Z) : bool := (fst a =? fst b) && opt_eqb Z.eqb (snd a) (snd b).

(** comparators.hpp 22-24: operator==(Component, Component): the names are compared as byte strings, the instances as
    CiStrings. *)
Definition comp_eq (a b : component) : bool :=
  str_eq (c_name a) (c_name b) && opt_eqb ci_eq (c_inst a) (c_inst b) && opt_eqb evse_eq (c_evse a) (c_evse b).

(** comparators.hpp 36-38: operator==(Variable, Variable). *)
Definition var_eq (a b : variable) : bool := str_eq (v_name a) (v_name b) && opt_eqb ci_eq (v_inst a) (v_inst b).

(** comparators.hpp 26-34, 40-45: equivalence under operator<, which is what finds a key in a std::map. operator< of a
    CiString, and operator!= on it, look at the bytes. *)
Definition comp_same (a b : component) : bool :=
  str_eq (c_name a) (c_name b) && opt_eqb str_eq (c_inst a) (c_inst b) && opt_eqb evse_eq (c_evse a) (c_evse b).
Definition var_same (a b : variable) : bool := str_eq (v_name a) (v_name b) && opt_eqb str_eq (v_inst a) (v_inst b).
Definition key_same (a b : key) : bool := comp_same (fst a) (fst b) && var_same (snd a) (snd b).

(** ** Data *)

(** ocpp_enums.hpp: DataEnum, AttributeEnum, MutabilityEnum. *)
Inductive data_type := TString | TDecimal | TInteger | TDateTime | TBoolean | TOptionList | TSequenceList | TMemberList.
Inductive attr_type := Actual | Target | MinSet | MaxSet.
Inductive mutability := ReadOnly | WriteOnly | ReadWrite.

Definition attr_eqb (a b : attr_type) : bool :=
  match a, b with Actual, Actual | Target, Target | MinSet, MinSet | MaxSet, MaxSet => true | _, _ => false end.
Definition mut_eqb (a b : mutability) : bool :=
  match a, b with ReadOnly, ReadOnly | WriteOnly, WriteOnly | ReadWrite, ReadWrite => true | _, _ => false end.

(** ocpp_types.hpp 1509-1518: VariableCharacteristics. *)
Record characteristics := mkChar {
  ch_type : data_type; ch_min : option Q; ch_max : option Q; ch_values : option string; ch_monitoring : bool }.

(** ocpp_enums.hpp: MonitorEnum. *)
Inductive monitor_type := UpperThreshold | LowerThreshold | Delta | Periodic | PeriodicClockAligned.
Definition mt_eqb (a b : monitor_type) : bool :=
  match a, b with
  | UpperThreshold, UpperThreshold | LowerThreshold, LowerThreshold | Delta, Delta | Periodic, Periodic
  | PeriodicClockAligned, PeriodicClockAligned => true
  | _, _ => false
  end.

(** device_model_storage_interface.hpp: VariableMonitorType. *)
Inductive monitor_config := HardWired | Preconfigured | Custom.
Definition cfg_eqb (a b : monitor_config) : bool :=
  match a, b with HardWired, HardWired | Preconfigured, Preconfigured | Custom, Custom => true | _, _ => false end.

(** A float: sign bit and magnitude in millionths. *)
Record fnum := mkF { f_neg : bool; f_micro : Z }.

(** device_model_storage_interface.hpp: VariableMonitoringMeta with its VariableMonitoring. *)
Record monitor := mkMon {
  mo_id : Z; mo_severity : Z; mo_tx : bool; mo_type : monitor_type; mo_value : fnum; mo_config : monitor_config;
  mo_ref : option string }.

(** device_model_storage_interface.hpp: VariableMetaData; the unordered_map of monitors as an association list. *)
Record meta := mkMeta { m_char : characteristics; m_mons : list (Z * monitor) }.

(** A row of VARIABLE_ATTRIBUTE with its variable (1_up-initial.sql 18-30). *)
Record attr_row := mkA {
  a_key : key; a_type : attr_type; a_value : option string; a_mut : mutability; a_persistent : bool; a_constant : bool;
  a_source : option string }.

(** The device model: the map held in memory, the attribute table, the monitor table (1_up-initial.sql 43-54) and the
    last id handed out by AUTOINCREMENT. *)
Record dm := mkDm {
  d_map : list (key * meta); d_attrs : list attr_row; d_mons : list (key * monitor); d_seq : Z }.

Definition set_map (d : dm) (m : list (key * meta)) : dm := mkDm m (d_attrs d) (d_mons d) (d_seq d).
Definition set_attrs (d : dm) (a : list attr_row) : dm := mkDm (d_map d) a (d_mons d) (d_seq d).
Definition set_mons (d : dm) (m : list (key * monitor)) (s : Z) : dm := mkDm (d_map d) (d_attrs d) m s.

(** std::map::find. *)
Fixpoint find_meta (k : key) (l : list (key * meta)) : option meta :=
  match l with
  | [] => None
  | (k', m) :: l' => if key_same k k' then Some m else find_meta k l'
  end.

(** The component is a key of the outer map. *)
Definition has_component (c : component) (d : dm) : bool := existsb (fun e => comp_same c (fst (fst e))) (d_map d).

(** ** Well-known names (ctrlr_component_variables.cpp) *)

Definition ctrl (n : string) : component := mkC n None None.
Definition plain (n : string) : variable := mkV n None.

(** device_model.cpp 17-24: allow_zero. *)
Definition allow_zero (c : component) (v : variable) : bool :=
  (comp_eq c (ctrl "AlignedDataCtrlr") && var_eq v (plain "Interval"))
  || (comp_eq c (ctrl "SampledDataCtrlr") && var_eq v (plain "TxUpdatedInterval"))
  || (comp_eq c (ctrl "SampledDataCtrlr") && var_eq v (plain "TxEndedInterval")).

(** device_model.cpp 26-36: allow_set_read_only_value. *)
Definition allow_set_read_only_value (c : component) (v : variable) (a : attr_type) : bool :=
  if negb (attr_eqb a Actual) then false
  else comp_eq c (ctrl "AuthCacheCtrlr") || comp_eq c (ctrl "LocalAuthListCtrlr") || comp_eq c (ctrl "OCPPCommCtrlr")
       || comp_eq c (ctrl "SecurityCtrlr") || var_eq v (plain "AvailabilityState") || var_eq v (plain "Power")
       || var_eq v (plain "AvailabilityState").

(** ** Values *)

(** Digits of a decimal number and how many of them follow the point. *)
Fixpoint dec_scan (s : string) (acc : Z) (places : option nat) : Z * nat * nat :=
  match s with
  | EmptyString => (acc, match places with Some p => p | None => O end, O)
  | String c s' =>
      if is_dot c then dec_scan s' acc (Some O)
      else let '(v, p, n) := dec_scan s' (10 * acc + (code c - 48)) (match places with Some p => Some (S p) | None => None end)
           in (v, p, S n)
  end.

(** std::stof on a text accepted by is_decimal_number. *)
Definition stof (s : string) : result Q :=
  let '(neg, body) := match s with
                      | String c s' => if is_sign c then (Ascii.eqb c "-", s') else (false, s)
                      | EmptyString => (false, s)
                      end in
  let '(v, p, n) := dec_scan body 0 None in
  if Nat.eqb n 0 then Throws "invalid_argument"
  else let q := (Z.pow 10 (Z.of_nat p)) in
       if (Z.pow 2 128 * q <=? v) || ((0 <? v) && (v * Z.pow 2 126 <? q)) then Throws "out_of_range"
       else Ret (Qmake (if neg then - v else v) (Z.to_pos q)).

Definition size_mod : Z := 18446744073709551616.

(** Comparison of a size_t, or of an int converted to one, with a limit. *)
Definition below_limit (z : Z) (l : option Q) : result bool :=
  match l with
  | None => Ret false
  | Some q => match convert_to_positive_size_t q with Some n => Ret (z mod size_mod <? n) | None => Throws "unspecified" end
  end.
Definition above_limit (z : Z) (l : option Q) : result bool :=
  match l with
  | None => Ret false
  | Some q => match convert_to_positive_size_t q with Some n => Ret (n <? z mod size_mod) | None => Throws "unspecified" end
  end.

Definition in_size_limits (ch : characteristics) (z : Z) : result bool :=
  match below_limit z (ch_min ch) with
  | Throws w => Throws w
  | Ret true => Ret false
  | Ret false => match above_limit z (ch_max ch) with Throws w => Throws w | Ret b => Ret (negb b) end
  end.

Definition str_mem (s : string) (l : list string) : bool := existsb (str_eq s) l.

Definition Qltb (a b : Q) : bool := if Qlt_le_dec a b then true else false.

(** device_model.cpp 229-309: validate_value. *)
Definition validate_value (ch : characteristics) (value : string) (az : bool) : result bool :=
  match ch_type ch with
  | TString => in_size_limits ch (Z.of_nat (length value))
  | TDecimal =>
      if negb (is_decimal_number value) then Ret false
      else match stof value with
           | Throws w => Throws w
           | Ret f =>
               if az && Qeq_bool f 0 then Ret true
               else if match ch_min ch with Some l => Qltb f l | None => false end then Ret false
               else if match ch_max ch with Some l => Qltb l f | None => false end then Ret false
               else Ret true
           end
  | TInteger =>
      if negb (is_integer value) then Ret false
      else match stoi value with
           | Throws w => Throws w
           | Ret i => if az && (i =? 0) then Ret true else in_size_limits ch i
           end
  | TDateTime => Ret (is_rfc3339_datetime value)
  | TBoolean => Ret (str_eq value "true" || str_eq value "false")
  | TOptionList =>
      match ch_values ch with
      | None => Ret true
      | Some l => Ret (str_mem value (split_string l "," false))
      end
  | TSequenceList | TMemberList =>
      match ch_values ch with
      | None => Ret true
      | Some l => Ret (forallb (fun v => str_mem v (split_string l "," false)) (split_string value "," false))
      end
  end.

(** The try block around it (device_model.cpp 388-396 and 791-798): an exception is a rejection. *)
Definition value_ok (ch : characteristics) (value : string) (az : bool) : bool :=
  match validate_value ch value az with Ret b => b | Throws _ => false end.

(** ** Attributes *)

Definition row_of (k : key) (r : attr_row) : bool := key_same k (a_key r).

(** device_model_storage_sqlite.cpp 189-226: get_variable_attributes; the optional type restricts the query. *)
Definition get_variable_attributes (d : dm) (k : key) (a : option attr_type) : list attr_row :=
  filter (fun r => row_of k r && match a with Some t => attr_eqb t (a_type r) | None => true end) (d_attrs d).

(** device_model_storage_sqlite.cpp 179-187: get_variable_attribute. *)
Definition get_variable_attribute (d : dm) (k : key) (a : attr_type) : option attr_row :=
  match get_variable_attributes d k (Some a) with r :: _ => Some r | [] => None end.

(** device_model_storage_sqlite.cpp 228-256: set_variable_attribute_value; [ok]: the statement succeeds. *)
Definition set_variable_attribute_value (d : dm) (k : key) (a : attr_type) (value src : string) (ok : bool) : dm * bool :=
  if ok then
    (set_attrs d (map (fun r => if row_of k r && attr_eqb a (a_type r)
                                then mkA (a_key r) (a_type r) (Some value) (a_mut r) (a_persistent r) (a_constant r) (Some src)
                                else r) (d_attrs d)), true)
  else (d, false).

(** ** Getting and setting *)

(** ocpp_enums.hpp: GetVariableStatusEnum and SetVariableStatusEnum (RebootRequired is never produced). *)
Inductive var_status := Accepted | Rejected | UnknownComponent | UnknownVariable | NotSupportedAttributeType.

(** device_model.cpp 330-361: request_value_internal. *)
Definition request_value_internal (d : dm) (c : component) (v : variable) (a : attr_type) (allow_write_only : bool)
  : var_status * option string :=
  if negb (has_component c d) then (UnknownComponent, None)
  else match find_meta (c, v) (d_map d) with
       | None => (UnknownVariable, None)
       | Some _ =>
           match get_variable_attribute d (c, v) a with
           | None => (NotSupportedAttributeType, None)
           | Some r =>
               match a_value r with
               | None => (NotSupportedAttributeType, None)
               | Some s => if negb allow_write_only && mut_eqb (a_mut r) WriteOnly then (Rejected, None) else (Accepted, Some s)
               end
           end
       end.

(** device_model.cpp 363-371: get_mutability. *)
Definition get_mutability (d : dm) (c : component) (v : variable) (a : attr_type) : option mutability :=
  match get_variable_attribute d (c, v) a with Some r => Some (a_mut r) | None => None end.

(** device_model.cpp 373-433: set_value. The last result is what the variable listener is told: the values before and
    after. [listener]: one is registered. *)
Definition set_value (d : dm) (c : component) (v : variable) (a : attr_type) (value src : string)
           (allow_read_only ok listener : bool) : dm * var_status * option (string * string) :=
  if negb (has_component c d) then (d, UnknownComponent, None)
  else match find_meta (c, v) (d_map d) with
       | None => (d, UnknownVariable, None)
       | Some m =>
           if negb (value_ok (m_char m) value (allow_zero c v)) then (d, Rejected, None)
           else match get_variable_attribute d (c, v) a with
                | None => (d, NotSupportedAttributeType, None)
                | Some r =>
                    if mut_eqb (a_mut r) ReadOnly && negb allow_read_only then (d, Rejected, None)
                    else
                      let '(d', success) := set_variable_attribute_value d (c, v) a value src ok in
                      let status := if success then Accepted else Rejected in
                      if attr_eqb a Actual && success && listener && negb (Nat.eqb (List.length (m_mons m)) 0) then
                        let prev := match a_value r with Some s => s | None => "" end in
                        if negb (str_eq prev value) then (d', status, Some (prev, value)) else (d', status, None)
                      else (d', status, None)
                end
       end.

(** device_model.cpp 440-449: set_read_only_value; throws std::invalid_argument where it is not allowed. *)
Definition set_read_only_value (d : dm) (c : component) (v : variable) (a : attr_type) (value src : string)
           (ok listener : bool) : result (dm * var_status * option (string * string)) :=
  if allow_set_read_only_value c v a then Ret (set_value d c v a value src true ok listener)
  else Throws "invalid_argument".

(** ** GetVariables and SetVariables *)

Record get_data := mkGet { g_comp : component; g_var : variable; g_attr : option attr_type }.
Definition attr_or_actual (a : option attr_type) : attr_type := match a with Some t => t | None => Actual end.

(** provisioning.cpp 120-139: get_variables; per request the status and the value returned. *)
Definition get_variables (d : dm) (l : list get_data) : list (var_status * option string) :=
  map (fun g => match request_value_internal d (g_comp g) (g_var g) (attr_or_actual (g_attr g)) false with
                | (Accepted, Some s) => (Accepted, Some s)
                | (st, _) => (st, None)
                end) l.

Record set_data := mkSet { s_comp : component; s_var : variable; s_attr : option attr_type; s_value : string }.
(** One entry of the response. *)
Record set_result := mkRes { r_comp : component; r_var : variable; r_attr : attr_type; r_status : var_status }.

(** comparators.hpp 63-68: two set requests are the same key of the result map. *)
Definition set_key_same (a b : set_data) : bool := comp_eq (s_comp a) (s_comp b) && var_same (s_var a) (s_var b).

(** std::map::operator[] followed by assignment: an existing key object stays. *)
Fixpoint put_result (k : set_data) (r : set_result) (l : list (set_data * set_result)) : list (set_data * set_result) :=
  match l with
  | [] => [(k, r)]
  | (k', r') :: l' => if set_key_same k k' then (k', r) :: l' else (k', r') :: put_result k r l'
  end.

(** provisioning.cpp 683-709: set_variables_internal. [valid] stands for validate_set_variable (627-681), [okf] for the
    outcome of the database statement. The order of the result map is left open (the order of insertion is used). *)
Fixpoint set_variables_loop (d : dm) (l : list set_data) (src : string) (aro : bool) (valid : set_data -> bool)
         (oks : list bool) (acc : list (set_data * set_result)) : dm * list (set_data * set_result) :=
  match l with
  | [] => (d, acc)
  | s :: l' =>
      let '(d', st) :=
        if valid s then
          let '(d', st, _) := set_value d (s_comp s) (s_var s) (attr_or_actual (s_attr s)) (s_value s) src aro
                                        (hd true oks) false in (d', st)
        else (d, Rejected) in
      set_variables_loop d' l' src aro valid (tl oks)
                         (put_result s (mkRes (s_comp s) (s_var s) (attr_or_actual (s_attr s)) st) acc)
  end.
Definition set_variables_internal (d : dm) (l : list set_data) (src : string) (aro : bool) (valid : set_data -> bool)
           (oks : list bool) : dm * list (set_data * set_result) :=
  set_variables_loop d l src aro valid oks [].

(** provisioning.cpp 227-244: handle_set_variables_req: the response lists the values of the map, and then
    handle_variables_changed (598-621) passes every key with an accepted result on as "changed". *)
Definition handle_set_variables_req (d : dm) (l : list set_data) (valid : set_data -> bool) (oks : list bool)
  : dm * list set_result * list set_data :=
  let '(d', res) := set_variables_internal d l "csms" false valid oks in
  (d', map snd res, map fst (filter (fun e => match r_status (snd e) with Accepted => true | _ => false end) res)).

(** ** Reports *)

(** What a report says about an attribute (VariableAttribute, ocpp_types.hpp 1491-1498). *)
Record attr_report := mkAR { ar_type : attr_type; ar_value : option string; ar_mut : mutability; ar_persistent : bool; ar_constant : bool }.
Definition report_attr (r : attr_row) : attr_report := mkAR (a_type r) (a_value r) (a_mut r) (a_persistent r) (a_constant r).
Definition scrubbed (r : attr_row) : attr_report :=
  mkAR (a_type r) (if mut_eqb (a_mut r) WriteOnly then None else a_value r) (a_mut r) (a_persistent r) (a_constant r).

(** ocpp_types.hpp 1529-1535: ReportData. *)
Record report := mkRep { rp_key : key; rp_attrs : list attr_report; rp_char : option characteristics }.

Inductive report_base := ConfigurationInventory | FullInventory | SummaryInventory.

(** std::optional<Variable> == Variable, for the constants without an instance. *)
Definition is_var (v : variable) (n : string) : bool := var_eq v (plain n).

(** device_model.cpp 311-327: include_in_summary_inventory. The comparisons of a CiString with a literal ignore the case
    (cistring.hpp 57-59). *)
Definition include_in_summary_inventory (k : key) (r : attr_row) : bool :=
  if comp_eq (fst k) (ctrl "ChargingStation") && is_var (snd k) "AvailabilityState" then true
  else if ci_eq (c_name (fst k)) "EVSE" && is_var (snd k) "AvailabilityState" then true
  else if ci_eq (c_name (fst k)) "Connector" && is_var (snd k) "AvailabilityState" then true
  else if (is_var (snd k) "Fallback" || is_var (snd k) "Overload" || is_var (snd k) "Problem" || is_var (snd k) "Tripped")
          && ci_eq (match a_value r with Some s => s | None => "" end) "true" then true
  else false.

(** device_model.cpp 478-494: the loop over the attributes of one variable. *)
Definition base_attrs (b : report_base) (k : key) (rows : list attr_row) : list attr_report :=
  flat_map (fun r =>
    match b with
    | FullInventory => [scrubbed r]
    | ConfigurationInventory => if mut_eqb (a_mut r) ReadWrite || mut_eqb (a_mut r) WriteOnly then [scrubbed r] else []
    | SummaryInventory => if include_in_summary_inventory k r then [report_attr r] else []
    end) rows.

(** device_model.cpp 460-501: get_base_report_data. *)
Definition get_base_report_data (d : dm) (b : report_base) : list report :=
  flat_map (fun e =>
    match base_attrs b (fst e) (get_variable_attributes d (fst e) None) with
    | [] => []
    | ats => [mkRep (fst e) ats (match b with SummaryInventory => None | _ => Some (m_char (snd e)) end)]
    end) (d_map d).

(** ocpp_enums.hpp: ComponentCriterionEnum with its names (ocpp_enums.cpp 1997-2010). *)
Inductive criterion := CrActive | CrAvailable | CrEnabled | CrProblem.
Definition criterion_name (c : criterion) : string :=
  match c with CrActive => "Active" | CrAvailable => "Available" | CrEnabled => "Enabled" | CrProblem => "Problem" end.

(** types.cpp 1198-1205: string_to_bool. *)
Definition string_to_bool (s : string) : bool := iequals s "true".

(** device_model.cpp 88-108: component_criteria_match. *)
Fixpoint component_criteria_match (d : dm) (c : component) (l : list criterion) : bool :=
  match l with
  | [] => false
  | cr :: l' =>
      let '(st, value) := request_value_internal d c (plain (criterion_name cr)) Actual false in
      match value with
      | Some s => if string_to_bool s then true else component_criteria_match d c l'
      | None => if negb (str_eq (criterion_name cr) "Problem") then true else component_criteria_match d c l'
      end
  end.

(** ocpp_types.hpp: ComponentVariable as given in a request. *)
Definition comp_var : Type := component * option variable.

(** device_model.cpp 116-130: component_variables_match. *)
Definition component_variables_match (l : list comp_var) (c : component) (v : variable) : bool :=
  existsb (fun cv : comp_var =>
    let '(c', ov) := cv in
    match ov with
    | None => comp_eq c c'
    | Some v' =>
        (comp_eq c c' && var_eq v v')
        || (comp_eq c c' && (match v_inst v' with None => true | Some _ => false end) && ci_eq (v_name v) (v_name v'))
        || ((match c_evse c' with None => true | Some _ => false end) && ci_eq (c_name c) (c_name c')
            && opt_eqb ci_eq (c_inst c) (c_inst c') && var_eq v v')
    end) l.

(** device_model.cpp 503-534: get_custom_report_data. *)
Definition get_custom_report_data (d : dm) (cvs : option (list comp_var)) (crs : option (list criterion)) : list report :=
  flat_map (fun e =>
    if match crs with None => true | Some l => component_criteria_match d (fst (fst e)) l end
    then if match cvs with None => true | Some l => component_variables_match l (fst (fst e)) (snd (fst e)) end
         then match get_variable_attributes d (fst e) None with
              | [] => []
              | rows => [mkRep (fst e) (map report_attr rows) (Some (m_char (snd e)))]
              end
         else []
    else []) (d_map d).

(** ** Monitors *)

Definition digit6 (n : Z) : ascii := chr (48 + n mod 10).
(** std::to_string(float): six digits after the point. *)
Definition float_text (f : fnum) : string :=
  let n := f_micro f in
  let r := n mod 1000000 in
  (if f_neg f then "-" else "") ++ dec (n / 1000000) ++ "." ++
  String (digit6 (r / 100000)) (String (digit6 (r / 10000)) (String (digit6 (r / 1000))
    (String (digit6 (r / 100)) (String (digit6 (r / 10)) (String (digit6 r) ""))))).

Record monitor_req := mkReq {
  q_comp : component; q_var : variable; q_id : option Z; q_severity : Z; q_tx : option bool; q_type : monitor_type;
  q_value : fnum }.

Fixpoint mon_find (i : Z) (l : list (Z * monitor)) : option monitor :=
  match l with [] => None | (j, m) :: l' => if i =? j then Some m else mon_find i l' end.
Definition mon_erase (i : Z) (l : list (Z * monitor)) : list (Z * monitor) := filter (fun e => negb (i =? fst e)) l.
(** unordered_map::operator[] followed by assignment. *)
Definition mon_put (i : Z) (m : monitor) (l : list (Z * monitor)) : list (Z * monitor) := mon_erase i l ++ [(i, m)].

(** Some variable holds a monitor with this id (device_model.cpp 718-731). *)
Definition id_in_map (i : Z) (d : dm) : bool :=
  existsb (fun e => match mon_find i (m_mons (snd e)) with Some _ => true | None => false end) (d_map d).

(** Update of the entry found in the map. *)
Fixpoint upd_meta (k : key) (f : meta -> meta) (l : list (key * meta)) : list (key * meta) :=
  match l with
  | [] => []
  | (k', m) :: l' => if key_same k k' then (k', f m) :: l' else (k', m) :: upd_meta k f l'
  end.

Definition clamp32 (z : Z) : Z := if z <=? 2147483647 then z else 2147483647.

(** device_model_storage_sqlite.cpp 280-363: set_monitoring_data. *)
Definition set_monitoring_data (d : dm) (q : monitor_req) (cfg : monitor_config) (ok : bool) : dm * option monitor :=
  let actual :=
    if mt_eqb (q_type q) Delta then
      match get_variable_attribute d (q_comp q, q_var q) Actual with
      | Some r => match a_value r with Some s => Some (Some s) | None => None end
      | None => None
      end
    else Some None in
  match actual with
  | None => (d, None)
  | Some ref =>
      if negb ok then (d, None)
      else
        let rowid := match q_id q with Some i => i | None => d_seq d + 1 end in
        let tx := match q_tx q with Some b => b | None => false end in
        let row := mkMon rowid (q_severity q) tx (q_type q) (q_value q) cfg ref in
        (set_mons d (filter (fun e => negb (mo_id (snd e) =? rowid)) (d_mons d) ++ [((q_comp q, q_var q), row)])
                  (Z.max (d_seq d) rowid),
         Some (mkMon (clamp32 rowid) (q_severity q) tx (q_type q) (q_value q) cfg ref))
  end.

(** ocpp_enums.hpp: SetMonitoringStatusEnum. *)
Inductive mon_status := MAccepted | MRejected | MUnknownComponent | MUnknownVariable | MDuplicate.

(** device_model.cpp 769-802: is the requested value acceptable. *)
Definition monitor_value_ok (ch : characteristics) (q : monitor_req) : bool :=
  if ch_monitoring ch then
    if mt_eqb (q_type q) Delta && f_neg (q_value q) then false
    else if mt_eqb (q_type q) Delta && negb (match ch_type ch with TDecimal | TInteger => true | _ => false end) then true
    else if mt_eqb (q_type q) Periodic || mt_eqb (q_type q) PeriodicClockAligned then true
    else value_ok ch (float_text (q_value q)) (allow_zero (q_comp q) (q_var q))
  else false.

(** device_model.cpp 702-865: one request of set_monitors; status and the id in the answer. *)
Definition set_monitor (d : dm) (q : monitor_req) (cfg : monitor_config) (ok : bool) : dm * mon_status * option Z :=
  if match q_id q with Some i => negb (id_in_map i d) | None => false end then (d, MRejected, q_id q)
  else if negb (has_component (q_comp q) d)
       then (d, match q_id q with Some _ => MRejected | None => MUnknownComponent end, q_id q)
       else match find_meta (q_comp q, q_var q) (d_map d) with
            | None => (d, match q_id q with Some _ => MRejected | None => MUnknownVariable end, q_id q)
            | Some m =>
                if negb (monitor_value_ok (m_char m) q) then (d, MRejected, q_id q)
                else if match q_id q with
                        | Some _ => false
                        | None => existsb (fun e => mt_eqb (mo_type (snd e)) (q_type q) && (mo_severity (snd e) =? q_severity q)) (m_mons m)
                        end then (d, MDuplicate, q_id q)
                else match set_monitoring_data d q cfg ok with
                     | (d', Some mo) =>
                         (set_map d' (upd_meta (q_comp q, q_var q)
                                               (fun m => mkMeta (m_char m) (mon_put (mo_id mo) mo (m_mons m))) (d_map d')),
                          MAccepted, Some (mo_id mo))
                     | (d', None) => (d', MRejected, q_id q)
                     end
            end.

(** device_model.cpp 694-868: set_monitors. *)
Fixpoint set_monitors (d : dm) (l : list monitor_req) (cfg : monitor_config) (oks : list bool)
  : dm * list (mon_status * option Z) :=
  match l with
  | [] => (d, [])
  | q :: l' => let '(d', st, i) := set_monitor d q cfg (hd true oks) in
               let '(d'', r) := set_monitors d' l' cfg (tl oks) in (d'', (st, i) :: r)
  end.

(** ocpp_enums.hpp: ClearMonitoringStatusEnum. *)
Inductive clear_status := CAccepted | CRejected | CNotFound.

(** device_model_storage_sqlite.cpp 414-455: clear_variable_monitor. [ok]: the DELETE succeeds. *)
Definition clear_variable_monitor (d : dm) (i : Z) (allow_protected ok : bool) : dm * clear_status :=
  if negb (Nat.eqb (List.length (filter (fun e => mo_id (snd e) =? i) (d_mons d))) 1) then (d, CNotFound)
  else if negb ok then (d, CRejected)
  else
    let hit e := (mo_id (snd e) =? i) && (allow_protected || cfg_eqb (mo_config (snd e)) Custom) in
    (set_mons d (filter (fun e : key * monitor => negb (hit e)) (d_mons d)) (d_seq d),
     if Nat.eqb (List.length (filter hit (d_mons d))) 1 then CAccepted else CRejected).

(** device_model.cpp 981-1003: one id of clear_monitors. *)
Definition clear_monitor (d : dm) (i : Z) (allow_protected ok : bool) : dm * clear_status :=
  match clear_variable_monitor d i allow_protected ok with
  | (d', CAccepted) =>
      (set_map d' (map (fun e => (fst e, mkMeta (m_char (snd e)) (mon_erase i (m_mons (snd e))))) (d_map d')), CAccepted)
  | r => r
  end.

(** device_model.cpp 973-1006: clear_monitors. *)
Fixpoint clear_monitors (d : dm) (l : list Z) (allow_protected : bool) (oks : list bool) : dm * list clear_status :=
  match l with
  | [] => (d, [])
  | i :: l' => let '(d', st) := clear_monitor d i allow_protected (hd true oks) in
               let '(d'', r) := clear_monitors d' l' allow_protected (tl oks) in (d'', st :: r)
  end.

(** device_model.cpp 1008-1033 with device_model_storage_sqlite.cpp 457-472: clear_custom_monitors. *)
Definition clear_custom_monitors (d : dm) (ok : bool) : dm * Z :=
  let customs := filter (fun e : key * monitor => cfg_eqb (mo_config (snd e)) Custom) (d_mons d) in
  let d1 := if ok then set_mons d (filter (fun e => negb (cfg_eqb (mo_config (snd e)) Custom)) (d_mons d)) (d_seq d) else d in
  (set_map d1 (map (fun e => (fst e, mkMeta (m_char (snd e))
                                            (filter (fun x => negb (cfg_eqb (mo_config (snd x)) Custom)) (m_mons (snd e)))))
                   (d_map d1)),
   if ok then Z.of_nat (List.length customs) else 0).

(** ocpp_enums.hpp: MonitoringBaseEnum. *)
Inductive monitoring_base := MbAll | MbFactoryDefault | MbHardWiredOnly.
Definition base_name (b : monitoring_base) : string :=
  match b with MbAll => "All" | MbFactoryDefault => "FactoryDefault" | MbHardWiredOnly => "HardWiredOnly" end.

(** diagnostics.cpp 222-257: handle_set_monitoring_base_req; the second result is "Accepted". *)
Definition handle_set_monitoring_base_req (d : dm) (b : monitoring_base) (ok_set ok_clear listener : bool) : dm * bool :=
  let '(d1, st, _) := set_value d (ctrl "MonitoringCtrlr") (plain "ActiveMonitoringBase") Actual (base_name b) "csms" true
                                ok_set listener in
  match st with
  | Accepted => match b with
                | MbAll => (d1, true)
                | _ => (fst (clear_custom_monitors d1 ok_clear), true)
                end
  | _ => (d1, false)
  end.

(** device_model.cpp 637-692: update_monitor_reference. && binds tighter than ||, so the test for a delta monitor only
    applies to sequence lists. The DELETE of the row is not involved; an UPDATE that changes no row counts as failure. *)
Definition trivial_delta (ch : characteristics) (m : monitor) : bool :=
  match ch_type ch with
  | TBoolean | TString | TDateTime | TOptionList | TMemberList => true
  | TSequenceList => mt_eqb (mo_type m) Delta
  | _ => false
  end.

Definition with_ref (m : monitor) (r : string) : monitor :=
  mkMon (mo_id m) (mo_severity m) (mo_tx m) (mo_type m) (mo_value m) (mo_config m) (Some r).

Fixpoint find_holder (i : Z) (l : list (key * meta)) : option (key * meta * monitor) :=
  match l with
  | [] => None
  | (k, m) :: l' => match mon_find i (m_mons m) with Some mo => Some (k, m, mo) | None => find_holder i l' end
  end.

Definition update_monitor_reference (d : dm) (i : Z) (r : string) (ok : bool) : dm * bool :=
  match find_holder i (d_map d) with
  | None => (d, false)
  | Some (k, m, mo) =>
      if negb (trivial_delta (m_char m) mo) then (d, false)
      else if negb ok then (d, false)
      else
        let hits := filter (fun e : key * monitor => mo_id (snd e) =? i) (d_mons d) in
        let d1 := set_mons d (map (fun e => if mo_id (snd e) =? i then (fst e, with_ref (snd e) r) else e) (d_mons d)) (d_seq d) in
        if Nat.eqb (List.length hits) 1 then
          (set_map d1 (upd_meta k (fun m => mkMeta (m_char m)
                                                   (map (fun x => if i =? fst x then (fst x, with_ref (snd x) r) else x) (m_mons m)))
                                (d_map d1)), true)
        else (d1, false)
  end.

(** ocpp_enums.hpp: MonitoringCriterionEnum. *)
Inductive mon_criterion := McThreshold | McDelta | McPeriodic.

(** device_model.cpp 38-67: filter_criteria_monitor. *)
Definition filter_criteria_monitor (l : list mon_criterion) (m : monitor) : bool :=
  match l with
  | [] => true
  | _ => existsb (fun c => match c with
                           | McDelta => mt_eqb (mo_type m) Delta
                           | McThreshold => mt_eqb (mo_type m) LowerThreshold || mt_eqb (mo_type m) UpperThreshold
                           | McPeriodic => mt_eqb (mo_type m) Periodic || mt_eqb (mo_type m) PeriodicClockAligned
                           end) l
  end.

Definition some_mons (l : list mon_criterion) (k : key) (m : meta) : list (key * list monitor) :=
  match filter (filter_criteria_monitor l) (map snd (m_mons m)) with [] => [] | r => [(k, r)] end.

(** device_model.cpp 893-972: get_monitors. *)
Definition get_monitors (d : dm) (l : list mon_criterion) (cvs : list comp_var) : list (key * list monitor) :=
  match cvs with
  | [] => flat_map (fun e => some_mons l (fst e) (snd e)) (d_map d)
  | _ =>
      flat_map (fun cv : comp_var =>
        let '(c, ov) := cv in
        match ov with
        | None => flat_map (fun e => if comp_same c (fst (fst e)) then some_mons l (fst e) (snd e) else []) (d_map d)
        | Some v => match find_meta (c, v) (d_map d) with None => [] | Some m => some_mons l (c, v) m end
        end) cvs
  end.

(** device_model.cpp 870-891: get_periodic_monitors. *)
Definition get_periodic_monitors (d : dm) : list (key * list monitor) :=
  flat_map (fun e => match filter (fun m => mt_eqb (mo_type m) Periodic || mt_eqb (mo_type m) PeriodicClockAligned)
                                  (map snd (m_mons (snd e))) with
                     | [] => []
                     | r => [(fst e, r)]
                     end) (d_map d).

(** device_model_storage_sqlite.cpp 100-177 and 365-412: get_device_model at start-up: the monitors of the table are
    loaded for each variable. *)
Definition load_monitors (d : dm) : dm :=
  set_map d (map (fun e => (fst e, mkMeta (m_char (snd e))
                    (map (fun x : key * monitor => (mo_id (snd x), snd x))
                         (filter (fun x : key * monitor => key_same (fst e) (fst x)) (d_mons d))))) (d_map d)).
