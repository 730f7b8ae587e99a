(** Meter values of OCPP 2.x: filtering, averaging, clock alignment and the store of the values of a transaction.
    Values are exact rationals: rounding, NaN and infinities of float are not modelled. Times are nanoseconds; leap seconds
    are not modelled. *)
From Coq Require Import String Ascii ZArith QArith List Bool.
Import ListNotations.
Local Open Scope Z_scope.

(** ** Types (ocpp_types.hpp 748-804) *)

(** nlohmann::json as far as it occurs here: an object with or without a string vendorId and with something else, or an array of
    one string. *)
Inductive json := Object (vendor : option string) (more : Z) | Array (s : string).
Record signed := Signed { g_data : string; g_encoding : string; g_method : option string; g_key : option string }.
Record unit_of := Unit { u_text : option string; u_mult : option Z; u_custom : option json }.
(** Enumerators are their positions (ocpp_enums.hpp 1301-1358, 1376-1385, 1403-1414, 1431-1438). The custom data of a signed
    value is left out. *)
Record sample := Sample {
  s_value : Q; s_measurand : option Z; s_context : option Z; s_phase : option Z; s_location : option Z;
  s_signed : option signed; s_unit : option unit_of; s_custom : option json }.
Record mvalue := MV { m_samples : list sample; m_time : Z; m_custom : option json }.

Definition Current_Import := 3.
Definition Energy_Active_Import_Register := 20.
Definition Frequency := 39.
Definition Power_Active_Import := 41.
Definition Voltage := 53.
Definition Interruption_Begin := 0.
Definition Interruption_End := 1.
Definition Other := 2.
Definition Sample_Clock := 3.
Definition Sample_Periodic := 4.
Definition Transaction_Begin := 5.
Definition Transaction_End := 6.
Definition Trigger := 7.
Definition Outlet := 4.

(** operator== of two std::optional, and of an optional and a value. *)
Definition oeqb (a b : option Z) : bool :=
  match a, b with None, None => true | Some x, Some y => x =? y | _, _ => false end.
(** Assignment to one member. *)
Definition with_value (v : Q) (s : sample) : sample :=
  Sample v (s_measurand s) (s_context s) (s_phase s) (s_location s) (s_signed s) (s_unit s) (s_custom s).
Definition with_context (c : Z) (s : sample) : sample :=
  Sample (s_value s) (s_measurand s) (Some c) (s_phase s) (s_location s) (s_signed s) (s_unit s) (s_custom s).
Definition unsigned (s : sample) : sample :=
  Sample (s_value s) (s_measurand s) (s_context s) (s_phase s) (s_location s) None (s_unit s) (s_custom s).
Definition with_samples (l : list sample) (m : mvalue) : mvalue := MV l (m_time m) (m_custom m).
Definition with_time (t : Z) (m : mvalue) : mvalue := MV (m_samples m) t (m_custom m).

(** ** Filters (v2/utils.cpp) *)

(** meter_value_has_any_measurand (31-36). *)
Definition has_any (m : mvalue) (ms : list Z) : bool :=
  existsb (fun s => existsb (fun x => oeqb (s_measurand s) (Some x)) ms) (m_samples m).
(** get_meter_value_with_measurands_applied (38-58). *)
Fixpoint applied (l : list sample) (ms : list Z) (include_signed : bool) : list sample :=
  match l with
  | [] => []
  | s :: q =>
      match s_measurand s with
      | Some x => if existsb (Z.eqb x) ms
                  then (if include_signed then s else unsigned s) :: applied q ms include_signed
                  else applied q ms include_signed
      | None => applied q ms include_signed
      end
  end.
Definition measurands_applied (m : mvalue) (ms : list Z) (include_signed : bool) : mvalue :=
  with_samples (applied (m_samples m) ms include_signed) m.
(** get_meter_values_with_measurands_applied (60-103). *)
Definition select_one (m : mvalue) (ms : list Z) (sig : bool) : list mvalue :=
  if has_any m ms then [measurands_applied m ms sig] else [].
Fixpoint all_applied (l : list mvalue) (sampled aligned : list Z) (max_time : Z) (sign_sampled sign_aligned : bool)
  : list mvalue :=
  match l with
  | [] => []
  | m :: q =>
      let rest := all_applied q sampled aligned max_time sign_sampled sign_aligned in
      match m_samples m with
      | [] => rest
      | s :: _ =>
          if max_time <? m_time m then rest
          else match s_context s with
               | None => rest
               | Some c =>
                   if (c =? Transaction_Begin) || (c =? Interruption_Begin) || (c =? Transaction_End) || (c =? Interruption_End)
                      || (c =? Sample_Periodic)
                   then select_one m sampled sign_sampled ++ rest
                   else if c =? Sample_Clock then select_one m aligned sign_aligned ++ rest
                   else rest
               end
      end
  end.
(** set_meter_value_reading_context (105-112). *)
Definition set_context (m : mvalue) (c : Z) : mvalue := with_samples (map (with_context c) (m_samples m)) m.
(** get_total_power_active_import (150-157). *)
Definition total_power (m : mvalue) : option Q :=
  option_map s_value
    (find (fun s => oeqb (s_measurand s) (Some Power_Active_Import) && match s_phase s with None => true | _ => false end)
          (m_samples m)).

(** ** AverageMeterValues (average_meter_values.cpp, average_meter_values.hpp 31-50) *)

Definition key : Type := (Z * option Z * option Z)%type.
Definition keqb (a b : key) : bool :=
  let '(m, p, l) := a in let '(m', p', l') := b in (m =? m') && oeqb p p' && oeqb l l'.
Record avg := Avg { a_last : mvalue; a_sums : list (key * (Q * Z)) }.
(** is_avg_meas (11-18). *)
Definition is_avg_meas (s : sample) : bool :=
  match s_measurand s with
  | Some m => (m =? Current_Import) || (m =? Voltage) || (m =? Power_Active_Import) || (m =? Frequency)
  | None => false
  end.
(** clear_values (21-25). *)
Definition clear_values (a : avg) : avg := Avg (with_samples [] (a_last a)) [].
(** try_emplace, += and ++ (37-43). *)
Fixpoint add_to (k : key) (v : Q) (l : list (key * (Q * Z))) : list (key * (Q * Z)) :=
  match l with
  | [] => [(k, ((0 + v)%Q, 0 + 1))]
  | (k', (s, n)) :: q => if keqb k k' then (k', ((s + v)%Q, n + 1)) :: q else (k', (s, n)) :: add_to k v q
  end.
(** The body of the loop of set_values (33-45). *)
Definition add_sample (l : list (key * (Q * Z))) (s : sample) : list (key * (Q * Z)) :=
  if is_avg_meas s then
    match s_measurand s with Some m => add_to (m, s_phase s, s_location s) (s_value s) l | None => l end
  else l.
(** set_values (27-46). *)
Definition set_values (m : mvalue) (a : avg) : avg := Avg m (fold_left add_sample (m_samples m) (a_sums a)).
(** aligned_meter_values.find. *)
Fixpoint lookup (k : key) (l : list (key * (Q * Z))) : option (Q * Z) :=
  match l with [] => None | (k', v) :: q => if keqb k k' then Some v else lookup k q end.
(** average_meter_value (54-69), one element. *)
Definition average_sample (l : list (key * (Q * Z))) (s : sample) : sample :=
  if is_avg_meas s then
    match s_measurand s with
    | Some m => match lookup (m, s_phase s, s_location s) l with
                | Some (sum, n) => with_value (sum / inject_Z n)%Q s
                | None => s
                end
    | None => s
    end
  else s.
(** retrieve_processed_values (48-52): what is returned is kept as well. *)
Definition retrieve (a : avg) : avg :=
  Avg (with_samples (map (average_sample (a_sums a)) (m_samples (a_last a))) (a_last a)) (a_sums a).

(** ** Clock alignment *)

Definition second := 1000000000.
Definition day := 86400.
(** align_timestamp (v2/utils.cpp 129-148); None: division by zero. *)
Definition align_timestamp (t interval : Z) : option Z :=
  if interval <? 0 then Some t
  else if interval =? 0 then None
  else
    let midnight := (t / (day * second)) * (day * second) in
    let since := Z.quot (t - midnight) second in
    let rounded := Z.quot (since + Z.quot interval 2) interval * interval in
    Some (midnight + rounded * second).
(** get_next_timepoint (common/aligned_timer.hpp 22-41). *)
Definition next_timepoint (start interval now : Z) : Z :=
  let diff := now - start in
  if 0 <? diff then start + (Z.quot (Z.quot diff second) interval + 1) * interval * second else start.

(** ** The store (v2/database_handler.cpp 382-627, config/v2/core_migrations/1_up-initial.sql 65-88) *)

Record row := Row { r_id : Z; r_tx : string; r_time : Z; r_context : Z }.
Record item := Item {
  i_value : Q; i_measurand : option Z; i_phase : option Z; i_location : option Z; i_custom : option string;
  i_ucustom : option string; i_utext : option string; i_umult : option Z;
  i_sdata : option string; i_smethod : option string; i_sencoding : option string; i_skey : option string }.
Record db := Db { d_rows : list row; d_items : list (Z * item) }.

(** to_unix_milliseconds and from_unix_milliseconds (26-32). *)
Definition to_ms (t : Z) : Z := Z.quot t 1000000.
Definition from_ms (t : Z) : Z := t * 1000000.
(** A new ROWID: one more than the largest. *)
Definition new_id (d : db) : Z := fold_right (fun r n => Z.max (r_id r) n) 0 (d_rows d) + 1.

(** How an insertion ends: normally, with a QueryExecutionException, with std::invalid_argument, or with an exception of
    nlohmann::json. *)
Inductive ended := Done (d : db) | QueryFailed (d : db) | BadContext | JsonThrew (d : db).
(** customData.at("vendorId").get<std::string>(). *)
Definition vendor_of (j : json) : option string := match j with Object v _ => v | Array _ => None end.
(** The parameters bound to the insert statement that are not bound for every item, and so keep what an earlier item left
    there. *)
Record bound := Bound { b_location : option Z; b_custom : option string; b_ucustom : option string; b_utext : option string; b_umult : option Z }.
(** Binding a text that may be absent; None: exception. *)
Definition bind_vendor (c : option json) (old : option string) : option (option string) :=
  match c with
  | None => Some old
  | Some j => match vendor_of j with Some v => Some (Some v) | None => None end
  end.
Definition bind_opt {A} (x old : option A) : option A := match x with Some _ => x | None => old end.
(** The bindings of one item (429-466); None: exception. *)
Definition bind_item (s : sample) (b : bound) : option bound :=
  match bind_vendor (s_custom s) (b_custom b) with
  | None => None
  | Some c =>
      match s_unit s with
      | None => Some (Bound (bind_opt (s_location s) (b_location b)) c (b_ucustom b) (b_utext b) (b_umult b))
      | Some u =>
          match bind_vendor (u_custom u) (b_ucustom b) with
          | None => None
          | Some uc => Some (Bound (bind_opt (s_location s) (b_location b)) c uc (bind_opt (u_text u) (b_utext b))
                                   (bind_opt (u_mult u) (b_umult b)))
          end
      end
  end.
(** The row that is inserted (429-496). *)
Definition item_of (s : sample) (b : bound) : item :=
  Item (s_value s) (s_measurand s) (s_phase s) (b_location b) (b_custom b) (b_ucustom b) (b_utext b) (b_umult b)
       (option_map g_data (s_signed s)) (match s_signed s with Some g => g_method g | None => None end)
       (option_map g_encoding (s_signed s)) (match s_signed s with Some g => g_key g | None => None end).
(** The foreign keys of an item (inintialize_enum_tables 64-73: the tables of measurands and locations are filled up to Voltage and Outlet). *)
Definition references_ok (i : item) : bool :=
  match i_measurand i with Some m => m <=? Voltage | None => true end &&
  match i_location i with Some l => l <=? Outlet | None => true end.
(** The loop over the items (428-499). *)
Inductive items_ended := Items (l : list item) | ItemFailed | ItemThrew.
Fixpoint insert_items (fk : bool) (l : list sample) (b : bound) : items_ended :=
  match l with
  | [] => Items []
  | s :: q =>
      match bind_item s b with
      | None => ItemThrew
      | Some b1 =>
          if fk && negb (references_ok (item_of s b1)) then ItemFailed
          else match insert_items fk q b1 with
               | Items r => Items (item_of s b1 :: r)
               | e => e
               end
      end
  end.
Definition same_row (tx : string) (t c : Z) (r : row) : bool :=
  String.eqb (r_tx r) tx && (r_time r =? t) && (r_context r =? c).
(** transaction_metervalues_insert (382-502). [fk]: whether the connection enforces foreign keys. The items are rolled back
    when one of them fails, the row of METER_VALUES is not. *)
Definition db_insert (fk : bool) (tx : string) (m : mvalue) (d : db) : ended :=
  match m_samples m with
  | [] => Done d
  | s0 :: _ =>
      match s_context s0 with
      | None => Done d
      | Some c =>
          if existsb (fun s => negb (oeqb (s_context s) (Some c))) (m_samples m) then BadContext
          else if existsb (same_row tx (to_ms (m_time m)) c) (d_rows d) then QueryFailed d
          else
            let id := new_id d in
            let rows := d_rows d ++ [Row id tx (to_ms (m_time m)) c] in
            match insert_items fk (m_samples m) (Bound None None None None None) with
            | Items l => Done (Db rows (d_items d ++ map (fun i => (id, i)) l))
            | ItemFailed => QueryFailed (Db rows (d_items d))
            | ItemThrew => JsonThrew (Db rows (d_items d))
            end
      end
  end.

(** The sampled value made of an item (529-578); the custom data of an item is read from the other statement, whose column 5
    does not exist: undefined, None. *)
Definition sample_of (c : Z) (i : item) : option sample :=
  match i_custom i with
  | Some _ => None
  | None =>
      Some (Sample (i_value i) (i_measurand i) (Some c) (i_phase i) (i_location i)
        (match i_sdata i, i_smethod i, i_sencoding i, i_skey i with
         | Some d, Some m, Some e, Some k => Some (Signed d e (Some m) (Some k))
         | _, _, _, _ => None
         end)
        (match i_ucustom i, i_utext i, i_umult i with
         | None, None, None => None
         | uc, t, m => Some (Unit t m (option_map Array uc))
         end)
        None)
  end.
Fixpoint samples_of (c : Z) (l : list item) : option (list sample) :=
  match l with
  | [] => Some []
  | i :: q => match sample_of c i, samples_of c q with Some s, Some r => Some (s :: r) | _, _ => None end
  end.
Definition items_of (id : Z) (d : db) : list item := map snd (filter (fun p => fst p =? id) (d_items d)).
(** The rows of a transaction in the order of the index of the UNIQUE constraint, which is the one SQLite uses here. *)
Definition row_before (a b : row) : bool :=
  (r_time a <? r_time b) || ((r_time a =? r_time b) && (r_context a <=? r_context b)).
Fixpoint place (r : row) (l : list row) : list row :=
  match l with [] => [r] | x :: q => if row_before r x then r :: l else x :: place r q end.
Fixpoint sorted (l : list row) : list row := match l with [] => [] | r :: q => place r (sorted q) end.
Definition rows_of (tx : string) (d : db) : list row := sorted (filter (fun r => String.eqb (r_tx r) tx) (d_rows d)).
Fixpoint read_rows (d : db) (l : list row) : option (list mvalue) :=
  match l with
  | [] => Some []
  | r :: q => match samples_of (r_context r) (items_of (r_id r) d), read_rows d q with
              | Some s, Some rest => Some (MV s (from_ms (r_time r)) None :: rest)
              | _, _ => None
              end
  end.
(** transaction_metervalues_get_all (504-594). *)
Definition db_get_all (tx : string) (d : db) : option (list mvalue) := read_rows d (rows_of tx d).
(** transaction_metervalues_clear (596-627). *)
Definition db_clear (tx : string) (d : db) : db :=
  let ids := map r_id (filter (fun r => String.eqb (r_tx r) tx) (d_rows d)) in
  Db (filter (fun r => negb (String.eqb (r_tx r) tx)) (d_rows d))
     (filter (fun p => negb (existsb (Z.eqb (fst p)) ids)) (d_items d)).
