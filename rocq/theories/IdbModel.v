(** How the device model database of an OCPP 2.x station is brought in line with its component configuration at every start.

    Model of lib/ocpp/v2/init_device_model_db.cpp (lines given alone are of that file) and of the statements of
    lib/ocpp/v2/device_model_storage_sqlite.cpp that change the database while the station runs.

    The tables are those of config/v2/device_model_migrations. The attributes and the monitors of a variable are kept in its
    row, as is its only row of VARIABLE_CHARACTERISTICS: every row belongs to exactly one variable (NOT NULL, FOREIGN KEY) and
    goes with it (ON DELETE CASCADE). Ids are those of AUTOINCREMENT.

    Simplifications. The configuration is given as parsed. A float is an integer, in units of 2^-149, and the difference of two
    floats is exact. Rows are read in the order of their ids; the std::map of components that are read is a list in the order
    of reading, that of the configuration a list. No SQL statement fails; the process can die between two statements. customData
    and maxElements, which are not stored, and the length limits of units and lists of values, which the configuration has as
    well, are left out. *)
From Coq Require Import ZArith String List Bool.
From Verif Require Import StrModel.
From Verif Require DmModel.
Import ListNotations.
Local Open Scope string_scope.
Local Open Scope list_scope.
Local Open Scope Z_scope.

(** ** Data *)
Notation data_type := DmModel.data_type.
Notation attr_type := DmModel.attr_type.
Notation mutability := DmModel.mutability.
Notation monitor_type := DmModel.monitor_type.
Notation monitor_config := DmModel.monitor_config.
Notation opt_eqb := DmModel.opt_eqb.

(** ComponentKey without its id (init_device_model_db.hpp 47-61). *)
Record ckey := CK { k_name : string; k_inst : option string; k_evse : option Z; k_conn : option Z }.
(** The key of a variable: its name and instance. *)
Record vkey := VK { vk_name : string; vk_inst : option string }.
(** VariableCharacteristics (ocpp_types.hpp 1509-1518). *)
Record chars := Ch { ch_type : data_type; ch_mon : bool; ch_unit : option string; ch_min : option Z; ch_max : option Z;
                     ch_values : option string }.
(** VariableMonitoringMeta without its id. *)
Record mon := Mon { m_sev : Z; m_tx : bool; m_type : monitor_type; m_cfg : monitor_config; m_val : Z; m_ref : option string }.
(** VariableAttribute (ocpp_types.hpp 1491-1498), as the configuration gives it. *)
Record cattr := CA { ca_type : option attr_type; ca_value : option string; ca_mut : option mutability;
                     ca_pers : option bool; ca_const : option bool }.
(** DeviceModelVariable (init_device_model_db.hpp 75-95), as the configuration gives it. *)
Record cvar := CV { cv_key : vkey; cv_chars : chars; cv_attrs : list cattr; cv_default : option string; cv_mons : list mon;
                    cv_source : option string }.
Definition config : Type := list (ckey * list cvar).

(** Rows of VARIABLE_ATTRIBUTE, VARIABLE and COMPONENT. *)
Record arow := AR { a_id : Z; a_type : option attr_type; a_mut : option mutability; a_pers : bool; a_const : bool;
                    a_value : option string; a_src : option string }.
Record vrow := VR { v_id : Z; v_cid : Z; v_key : vkey; v_source : option string; v_chars : chars; v_attrs : list arow;
                    v_mons : list (Z * mon) }.
Record db := Db { d_comps : list (Z * ckey); d_vars : list vrow; d_nc : Z; d_nv : Z; d_na : Z; d_nm : Z }.
(** What the first migration leaves behind. *)
Definition empty_db : db := Db [] [] 0 0 0 0.

Definition set_vars (d : db) (l : list vrow) : db := Db (d_comps d) l (d_nc d) (d_nv d) (d_na d) (d_nm d).
Definition set_attrs (v : vrow) (l : list arow) : vrow :=
  VR (v_id v) (v_cid v) (v_key v) (v_source v) (v_chars v) l (v_mons v).
Definition set_mons (v : vrow) (l : list (Z * mon)) : vrow :=
  VR (v_id v) (v_cid v) (v_key v) (v_source v) (v_chars v) (v_attrs v) l.

(** ** Comparisons *)
(** is_same_component_key (1393-1401). *)
Definition same_ckey (a b : ckey) : bool :=
  str_eq (k_name a) (k_name b) && opt_eqb Z.eqb (k_evse a) (k_evse b) && opt_eqb Z.eqb (k_conn a) (k_conn b)
  && opt_eqb str_eq (k_inst a) (k_inst b).
(** is_same_variable (1538-1540). *)
Definition same_vkey (a b : vkey) : bool := str_eq (vk_name a) (vk_name b) && opt_eqb str_eq (vk_inst a) (vk_inst b).
(** is_same_attribute_type (1409-1411). *)
Definition same_atype (a b : option attr_type) : bool := opt_eqb DmModel.attr_eqb a b.
(** is_attribute_different (1422-1430): values are CiStrings. *)
Definition attribute_different (c : cattr) (a : arow) : bool :=
  negb (same_atype (ca_type c) (a_type a) && opt_eqb DmModel.mut_eqb (ca_mut c) (a_mut a)
        && opt_eqb ci_eq (ca_value c) (a_value a)).
(** variable_has_same_attributes (1439-1462). *)
Definition same_attributes (cs : list cattr) (l : list arow) : bool :=
  Nat.eqb (length cs) (length l) && forallb (fun c => existsb (fun a => negb (attribute_different c a)) l) cs.
(** The same with the arguments the other way round, as is_variable_different is called (1070). *)
Definition same_attributes' (l : list arow) (cs : list cattr) : bool :=
  Nat.eqb (length l) (length cs) && forallb (fun a => existsb (fun c => negb (attribute_different c a)) cs) l.
(** is_monitor_duplicate (1464-1472). *)
Definition monitor_duplicate (a b : mon) : bool := DmModel.mt_eqb (m_type a) (m_type b) && (m_sev a =? m_sev b).
(** std::numeric_limits<float>::epsilon(), 2^-23. *)
Definition epsilon : Z := 2 ^ 126.
(** is_monitor_different (1474-1492). *)
Definition monitor_different (a b : mon) : bool :=
  negb (DmModel.cfg_eqb (m_cfg a) (m_cfg b)) || negb (opt_eqb str_eq (m_ref a) (m_ref b))
  || (epsilon <? Z.abs (m_val a - m_val b))
  || negb (m_sev a =? m_sev b) || negb (Bool.eqb (m_tx a) (m_tx b)) || negb (DmModel.mt_eqb (m_type a) (m_type b)).
(** variable_has_same_monitors (1494-1515). *)
Definition same_monitors (a b : list mon) : bool :=
  Nat.eqb (length a) (length b) && forallb (fun m => existsb (fun n => negb (monitor_different m n)) b) a.
(** The equality of data types, an enum. *)
Definition dt_eqb (a b : data_type) : bool :=
  match a, b with
  | DmModel.TString, DmModel.TString | DmModel.TDecimal, DmModel.TDecimal | DmModel.TInteger, DmModel.TInteger
  | DmModel.TDateTime, DmModel.TDateTime | DmModel.TBoolean, DmModel.TBoolean | DmModel.TOptionList, DmModel.TOptionList
  | DmModel.TSequenceList, DmModel.TSequenceList | DmModel.TMemberList, DmModel.TMemberList => true
  | _, _ => false
  end.
(** is_characteristics_different (1523-1530): units and lists of values are CiStrings. *)
Definition chars_different (a b : chars) : bool :=
  negb (Bool.eqb (ch_mon a) (ch_mon b) && dt_eqb (ch_type a) (ch_type b) && opt_eqb Z.eqb (ch_max a) (ch_max b)
        && opt_eqb Z.eqb (ch_min a) (ch_min b) && opt_eqb ci_eq (ch_unit a) (ch_unit b)
        && opt_eqb ci_eq (ch_values a) (ch_values b)).
(** is_variable_different (1548-1555). *)
Definition variable_different (v : vrow) (c : cvar) : bool :=
  negb (same_vkey (v_key v) (cv_key c) && negb (chars_different (v_chars v) (cv_chars c))
        && same_monitors (map snd (v_mons v)) (cv_mons c) && same_attributes' (v_attrs v) (cv_attrs c)).

(** ** Reading *)
(** CiString<2500>: longer values throw. *)
Definition value_fits (s : option string) : bool :=
  match s with Some x => Z.of_nat (String.length x) <=? 2500 | None => true end.
(** get_variable_monitors_from_db (1124-1170): custom monitors are ignored. *)
Definition read_mons (v : vrow) : list (Z * mon) :=
  filter (fun e => negb (DmModel.cfg_eqb (m_cfg (snd e)) DmModel.Custom)) (v_mons v).
(** 945-962: monitors that are not in the list yet. *)
Definition add_mons (l new : list (Z * mon)) : list (Z * mon) :=
  fold_left (fun acc e => if existsb (fun x => fst x =? fst e) acc then acc else acc ++ [e]) new l.
(** What has been read of a component: its row and its variables. *)
Definition comp : Type := (Z * ckey) * list vrow.
Definition same_comp (k : ckey) (c : comp) : bool := same_ckey (snd (fst c)) k.
Definition has_var (k : vkey) (l : list vrow) : bool := existsb (fun v => same_vkey (v_key v) k) l.
(** The monitors of a variable, looked up by its id. *)
Definition mons_of (d : db) (vid : Z) : list (Z * mon) :=
  flat_map (fun v => if v_id v =? vid then read_mons v else []) (d_vars d).
(** 919-962: a further attribute of a variable. *)
Definition more_attrs (d : db) (a : arow) (src : option string) (v : vrow) : vrow :=
  VR (v_id v) (v_cid v) (v_key v) (match src with Some _ => src | None => v_source v end) (v_chars v) (v_attrs v ++ [a])
     (add_mons (v_mons v) (mons_of d (v_id v))).
(** One row of the join (866-968). *)
Definition add_row (d : db) (acc : list comp) (c : Z * ckey) (v : vrow) (a : arow) : list comp :=
  let first := more_attrs d a (v_source v) (VR (v_id v) (v_cid v) (v_key v) None (v_chars v) [] []) in
  if existsb (same_comp (snd c)) acc then
    map (fun e => if same_comp (snd c) e then
                    (fst e, if has_var (v_key v) (snd e)
                            then map (fun w => if same_vkey (v_key w) (v_key v) then more_attrs d a (v_source v) w else w) (snd e)
                            else snd e ++ [first])
                  else e) acc
  else acc ++ [(c, [first])].
(** get_all_components_from_db (840-975); None: a value is too long. *)
Definition read_all (d : db) : option (list comp) :=
  if forallb (fun v => forallb (fun a => value_fits (a_value a)) (v_attrs v)) (d_vars d) then
    Some (fold_left (fun acc c =>
      fold_left (fun acc v => fold_left (fun acc a => add_row d acc c v a) (v_attrs v) acc)
                (filter (fun v => v_cid v =? fst c) (d_vars d)) acc) (d_comps d) [])
  else None.

(** ** The statements *)
(** UPDATE VARIABLE ... WHERE ID. *)
Definition at_var (vid : Z) (f : vrow -> vrow) (d : db) : db :=
  set_vars d (map (fun v => if v_id v =? vid then f v else v) (d_vars d)).
(** UPDATE VARIABLE_ATTRIBUTE ... WHERE ID. *)
Definition at_attr (aid : Z) (f : arow -> arow) (d : db) : db :=
  set_vars d (map (fun v => set_attrs v (map (fun a => if a_id a =? aid then f a else a) (v_attrs v))) (d_vars d)).
(** UPDATE VARIABLE_MONITORING ... WHERE ID. *)
Definition at_mon (mid : Z) (f : mon -> mon) (d : db) : db :=
  set_vars d (map (fun v => set_mons v (map (fun e => if fst e =? mid then (fst e, f (snd e)) else e) (v_mons v))) (d_vars d)).
(** delete_variable (488-511). *)
Definition delete_variable (vid : Z) (d : db) : db := set_vars d (filter (fun v => negb (v_id v =? vid)) (d_vars d)).
(** delete_attribute (662-682). *)
Definition delete_attribute (aid : Z) (d : db) : db :=
  set_vars d (map (fun v => set_attrs v (filter (fun a => negb (a_id a =? aid)) (v_attrs v))) (d_vars d)).
(** delete_variable_monitor (826-839). *)
Definition delete_monitor (mid : Z) (d : db) : db :=
  set_vars d (map (fun v => set_mons v (filter (fun e => negb (fst e =? mid)) (v_mons v))) (d_vars d)).
(** remove_component_from_db (1012-1034). *)
Definition remove_component (cid : Z) (d : db) : db :=
  Db (filter (fun c => negb (fst c =? cid)) (d_comps d)) (filter (fun v => negb (v_cid v =? cid)) (d_vars d))
     (d_nc d) (d_nv d) (d_na d) (d_nm d).
(** An empty instance is stored as NULL (264-268, 407-411, 453-457). *)
Definition stored_inst (i : option string) : option string :=
  match i with Some s => if str_eq s "" then None else Some s | None => None end.
(** Is a value one that the configuration may overwrite? (690-695) *)
Definition overwritable (s : option string) : bool :=
  match s with None => true | Some x => str_eq x "default" || str_eq x "" end.
(** insert_variable_attribute_value (684-718). *)
Definition set_value (aid : Z) (x : string) (d : db) : db :=
  at_attr aid (fun a => if overwritable (a_src a)
                        then AR (a_id a) (a_type a) (a_mut a) (a_pers a) (a_const a) (Some x) (Some "default") else a) d.
(** The value the configuration gives an attribute (has_attribute_actual_value 1563-1568; 545-551, 650-659). *)
Definition config_value (c : cattr) (def : option string) : option string :=
  match ca_value c with
  | Some x => Some x
  | None => match ca_type c with Some DmModel.Actual => def | _ => None end
  end.
Definition set_config_value (aid : Z) (c : cattr) (def : option string) (d : db) : db :=
  match config_value c def with Some x => set_value aid x d | None => d end.
(** insert_attribute (513-552) and insert_attributes (554-560). *)
Definition insert_attribute (c : cattr) (vid : Z) (def : option string) (d : db) : db :=
  let aid := d_na d + 1 in
  let d1 := at_var vid (fun v => set_attrs v (v_attrs v ++ [AR aid (ca_type c) (ca_mut c) true false None None])) d in
  set_config_value aid c def (Db (d_comps d1) (d_vars d1) (d_nc d1) (d_nv d1) aid (d_nm d1)).
(** update_attribute (596-660). *)
Definition update_attribute (c : cattr) (old : arow) (def : option string) (d : db) : db :=
  let pers := match ca_pers c with Some b => b | None => a_pers old end in
  let cnst := match ca_const c with Some b => b | None => a_const old end in
  set_config_value (a_id old) c def
    (at_attr (a_id old) (fun a => AR (a_id a) (ca_type c) (ca_mut c) pers cnst (a_value a) (a_src a)) d).
(** update_attributes (562-594). *)
Definition update_attributes (cs : list cattr) (old : list arow) (vid : Z) (def : option string) (d : db) : db :=
  let d1 := fold_left (fun d a => if existsb (fun c => same_atype (a_type a) (ca_type c)) cs then d
                                  else delete_attribute (a_id a) d) old d in
  fold_left (fun d c =>
    match find (fun a => same_atype (ca_type c) (a_type a)) old with
    | None => insert_attribute c vid def d
    | Some a => if attribute_different c a then update_attribute c a def d else d
    end) cs d1.
(** insert_variable_monitor (720-749); None: a delta monitor without a reference value. *)
Definition insert_monitor (m : mon) (vid : Z) (d : db) : option db :=
  match m_type m, m_ref m with
  | DmModel.Delta, None => None
  | _, _ =>
      let mid := d_nm d + 1 in
      let d1 := at_var vid (fun v => set_mons v (v_mons v ++ [(mid, m)])) d in
      Some (Db (d_comps d1) (d_vars d1) (d_nc d1) (d_nv d1) (d_na d1) mid)
  end.
(** A loop whose body can throw. *)
Fixpoint loop {A} (f : A -> db -> option db) (l : list A) (d : db) : option db :=
  match l with [] => Some d | x :: q => match f x d with Some d1 => loop f q d1 | None => None end end.
(** insert_variable_monitors (751-756). *)
Definition insert_monitors (l : list mon) (vid : Z) (d : db) : option db := loop (fun m => insert_monitor m vid) l d.
(** update_variable_monitor (758-787). *)
Definition update_monitor (m : mon) (mid : Z) (d : db) : db := at_mon mid (fun _ => m) d.
(** update_variable_monitors (789-824). *)
Definition update_monitors (l : list mon) (old : list (Z * mon)) (vid : Z) (d : db) : option db :=
  let d1 := fold_left (fun d e => if existsb (fun m => monitor_duplicate (snd e) m) l then d
                                  else delete_monitor (fst e) d) old d in
  loop (fun m d => match find (fun e => monitor_duplicate m (snd e)) old with
                   | None => insert_monitor m vid d
                   | Some e => Some (if monitor_different m (snd e) then update_monitor m (fst e) d else d)
                   end) l d1.
(** insert_variable (392-429), insert_variable_characteristics (286-337). *)
Definition insert_variable (cid : Z) (c : cvar) (d : db) : option db :=
  let vid := d_nv d + 1 in
  let row := VR vid cid (VK (vk_name (cv_key c)) (stored_inst (vk_inst (cv_key c)))) (cv_source c) (cv_chars c) [] [] in
  let d1 := Db (d_comps d) (d_vars d ++ [row]) (d_nc d) vid (d_na d) (d_nm d) in
  insert_monitors (cv_mons c) vid (fold_left (fun d a => insert_attribute a vid (cv_default c) d) (cv_attrs c) d1).
(** update_variable (431-486), update_variable_characteristics (339-390). *)
Definition update_variable (cid : Z) (c : cvar) (old : vrow) (d : db) : option db :=
  let vid := v_id old in
  let d1 := at_var vid (fun v => VR (v_id v) cid (VK (vk_name (cv_key c)) (stored_inst (vk_inst (cv_key c)))) (cv_source c)
                                    (v_chars v) (v_attrs v) (v_mons v)) d in
  let d2 := if chars_different (cv_chars c) (v_chars old)
            then at_var vid (fun v => VR (v_id v) (v_cid v) (v_key v) (v_source v) (cv_chars c) (v_attrs v) (v_mons v)) d1
            else d1 in
  let d3 := if same_attributes (cv_attrs c) (v_attrs old) then d2
            else update_attributes (cv_attrs c) (v_attrs old) vid (cv_default c) d2 in
  if same_monitors (cv_mons c) (map snd (v_mons old)) then Some d3
  else update_monitors (cv_mons c) (v_mons old) vid d3.
(** insert_component (237-284). *)
Definition insert_component (k : ckey) (vs : list cvar) (d : db) : option db :=
  let cid := d_nc d + 1 in
  let key := CK (k_name k) (stored_inst (k_inst k)) (k_evse k) (k_conn k) in
  loop (insert_variable cid) vs (Db (d_comps d ++ [(cid, key)]) (d_vars d) cid (d_nv d) (d_na d) (d_nm d)).
(** update_component_variables (1036-1076). *)
Definition update_component (c : comp) (vs : list cvar) (d : db) : option db :=
  let d1 := fold_left (fun d v => if existsb (fun w => same_vkey (cv_key w) (v_key v)) vs then d
                                  else delete_variable (v_id v) d) (snd c) d in
  loop (fun w d => match find (fun v => same_vkey (v_key v) (cv_key w)) (snd c) with
                   | None => insert_variable (fst (fst c)) w d
                   | Some v => if variable_different v w then update_variable (fst (fst c)) w v d else Some d
                   end) vs d1.
(** insert_components (220-235). *)
Definition insert_components (cfg : config) (existing : list comp) (d : db) : option db :=
  loop (fun e d => match find (same_comp (fst e)) existing with
                   | Some c => update_component c (snd e) d
                   | None => insert_component (fst e) (snd e) d
                   end) cfg d.
(** The components remove_not_existing_components_from_db (1002-1010) removes, one statement each. *)
Definition to_remove (cfg : config) (existing : list comp) : list Z :=
  map (fun c => fst (fst c)) (filter (fun c => negb (existsb (fun e => same_ckey (snd (fst c)) (fst e)) cfg)) existing).
Definition remove_components (l : list Z) (d : db) : db := fold_left (fun d i => remove_component i d) l d.

(** value_is_of_type (1355-1378). *)
Definition value_is_of_type (x : string) (t : data_type) : bool :=
  if str_eq x "" then true
  else match t with
       | DmModel.TDecimal => is_integer x || is_decimal_number x
       | DmModel.TInteger => is_integer x
       | DmModel.TDateTime => is_rfc3339_datetime x
       | DmModel.TBoolean => is_boolean x
       | _ => true
       end.
Definition opt_of_type (o : option string) (t : data_type) : bool :=
  match o with Some x => value_is_of_type x t | None => true end.
(** check_integrity (1281-1315) and check_integrity_value_type (1322-1347). *)
Definition check_integrity (cfg : config) : bool :=
  forallb (fun e => forallb (fun c => opt_of_type (cv_default c) (ch_type (cv_chars c))
                                      && forallb (fun a => opt_of_type (ca_value a) (ch_type (cv_chars c))) (cv_attrs c))
                            (snd e)) cfg.

(** initialize_database (77-101). [crash]: the process dies after so many statements that remove a component, or, if there are
    fewer, before the transaction that changes the rest is committed. *)
Inductive outcome := Done (d : db) | Failed (d : db) | Died (d : db).
Definition initialize (cfg : config) (crash : option nat) (d : db) : outcome :=
  match read_all d with
  | None => Failed d
  | Some existing =>
      if check_integrity cfg then
        let rem := to_remove cfg existing in
        match crash with
        | Some n => Died (remove_components (firstn n rem) d)
        | None =>
            let d1 := remove_components rem d in
            match insert_components cfg existing d1 with
            | Some d2 => Done d2
            | None => Failed d1
            end
        end
      else Failed d
  end.
Definition after (o : outcome) : db := match o with Done d | Failed d | Died d => d end.

(** get_all_component_configs (194-218) from the parsed files (read_component_config 168-189): a file without properties is left out, of two with the
    same key the first counts, and of a standardized and a custom one the custom one. *)
Definition read_config (files : list (ckey * option (list cvar))) : config :=
  fold_left (fun acc f => match snd f with
                          | Some vs => if existsb (fun e => same_ckey (fst e) (fst f)) acc then acc else acc ++ [(fst f, vs)]
                          | None => acc
                          end) files [].
Definition all_configs (standardized custom : list (ckey * option (list cvar))) : config :=
  let c := read_config custom in
  c ++ filter (fun e => negb (existsb (fun f => same_ckey (fst f) (fst e)) c)) (read_config standardized).

(** ** While the station runs (device_model_storage_sqlite.cpp) *)
(** get_component_id and get_variable_id (49-98): the first match. *)
Definition find_component (k : ckey) (d : db) : option Z :=
  option_map fst (find (fun c => same_ckey (snd c) k) (d_comps d)).
Definition find_variable (k : ckey) (v : vkey) (d : db) : option Z :=
  match find_component k d with
  | Some cid => option_map v_id (find (fun r => (v_cid r =? cid) && same_vkey (v_key r) v) (d_vars d))
  | None => None
  end.
(** set_variable_attribute_value (228-256). *)
Definition write_value (k : ckey) (v : vkey) (t : attr_type) (x src : string) (d : db) : db :=
  match find_variable k v d with
  | Some vid =>
      at_var vid (fun r => set_attrs r (map (fun a =>
        if same_atype (a_type a) (Some t)
        then AR (a_id a) (a_type a) (a_mut a) (a_pers a) (a_const a) (Some x) (Some src) else a) (v_attrs r))) d
  | None => d
  end.
(** set_monitoring_data (280-363) for a new custom monitor. *)
Definition add_monitor (k : ckey) (v : vkey) (m : mon) (d : db) : db :=
  match find_variable k v d with
  | Some vid =>
      let mid := d_nm d + 1 in
      let d1 := at_var vid (fun r => set_mons r (v_mons r ++ [(mid, m)])) d in
      Db (d_comps d1) (d_vars d1) (d_nc d1) (d_nv d1) (d_na d1) mid
  | None => d
  end.
(** update_monitoring_reference (258-278). *)
Definition set_reference (mid : Z) (r : string) (d : db) : db :=
  at_mon mid (fun m => Mon (m_sev m) (m_tx m) (m_type m) (m_cfg m) (m_val m) (Some r)) d.
(** clear_variable_monitor (414-455). *)
Definition clear_monitor (mid : Z) (protected : bool) (d : db) : db :=
  set_vars d (map (fun v => set_mons v (filter (fun e => negb ((fst e =? mid)
    && (protected || DmModel.cfg_eqb (m_cfg (snd e)) DmModel.Custom))) (v_mons v))) (d_vars d)).

(** What can happen to the database. *)
Inductive op :=
| Start (cfg : config) (crash : option nat)
| Write (k : ckey) (v : vkey) (t : attr_type) (x src : string)
| AddMonitor (k : ckey) (v : vkey) (m : mon)
| SetReference (mid : Z) (r : string)
| ClearMonitor (mid : Z) (protected : bool).
Definition step (d : db) (o : op) : db :=
  match o with
  | Start cfg crash => after (initialize cfg crash d)
  | Write k v t x src => write_value k v t x src d
  | AddMonitor k v m => add_monitor k v m d
  | SetReference mid r => set_reference mid r d
  | ClearMonitor mid p => clear_monitor mid p d
  end.
Definition run (d : db) (h : list op) : db := fold_left step h d.
