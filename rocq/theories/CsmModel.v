(** Model of the OCPP 2.x availability and connector status bookkeeping: lib/ocpp/v2/component_state_manager.cpp, the
    AVAILABILITY table of lib/ocpp/v2/database_handler.cpp (lines 227-271, 629-659) and lib/ocpp/v2/connector.cpp.

    Simplifications: the vectors are modelled by a length and a total function (every access of the code is preceded by a
    range check, which is modelled); sizes are below 2^31; the result of every SQL insertion and of every
    StatusNotification callback is an input of the operation. *)
From Coq Require Import List ZArith Bool.
Import ListNotations.
Open Scope Z_scope.

(** OperationalStatusEnum, ConnectorStatusEnum: include/ocpp/v2/ocpp_enums.hpp. *)
Inductive opstat := Operative | Inoperative.
Inductive cstat := Available | Occupied | Reserved | Unavailable | Faulted.
(** operator!= on the enumerations. *)
Definition opstat_eqb (a b : opstat) : bool :=
  match a, b with Operative, Operative | Inoperative, Inoperative => true | _, _ => false end.
Definition cstat_eqb (a b : cstat) : bool :=
  match a, b with
  | Available, Available | Occupied, Occupied | Reserved, Reserved | Unavailable, Unavailable | Faulted, Faulted => true
  | _, _ => false
  end.

(** FullConnectorStatus, component_state_manager.hpp:55-72. *)
Record conn := Conn { c_op : opstat; c_faulted : bool; c_reserved : bool; c_occupied : bool; c_unavail : bool }.
(** FullConnectorStatus::to_connector_status (component_state_manager.cpp:231-246). *)
Definition to_connector_status (c : conn) : cstat :=
  if c_faulted c then Faulted
  else if c_unavail c then Unavailable
  else if c_occupied c then Occupied
  else if c_reserved c then Reserved
  else Available.

(** The AVAILABILITY table: (EVSE_ID, CONNECTOR_ID) is its primary key (config/v2/core_migrations/1_up-initial.sql). *)
Definition table := Z -> Z -> option opstat.
Definition empty_table : table := fun _ _ => None.

(** DatabaseHandler::insert_availability (database_handler.cpp:227-250), INSERT OR REPLACE and INSERT OR IGNORE. *)
Definition insert_availability (e c : Z) (v : opstat) (replace : bool) (t : table) : table :=
  fun e' c' =>
    if (e' =? e) && (c' =? c) then
      if replace then Some v else match t e c with Some w => Some w | None => Some v end
    else t e' c'.
(** DatabaseHandler::get_availability (database_handler.cpp:252-271); a missing row (exception) is [None]. *)
Definition get_availability (e c : Z) (t : table) : option opstat := t e c.

(** A ComponentStateManager and its database. [s_up] says whether the object exists; the callbacks (std::optional
    members) are represented by whether they are set. *)
Record st := St {
  s_db : table;
  s_up : bool;
  s_cs : opstat;                (* cs_individual_status *)
  s_nev : Z;                    (* evse_and_connector_individual_statuses.size() *)
  s_ncon : Z -> Z;              (* ....at(evse_id - 1).second.size() *)
  s_ev : Z -> opstat;           (* ....at(evse_id - 1).first *)
  s_con : Z -> Z -> conn;       (* ....at(evse_id - 1).second.at(connector_id - 1) *)
  s_lcs : opstat;               (* last_cs_effective_operational_status *)
  s_lev : Z -> opstat;          (* last_evse_and_connector_effective_operational_statuses *)
  s_lcon : Z -> Z -> opstat;
  s_rep : Z -> Z -> cstat;      (* last_connector_reported_statuses *)
  s_cbcs : bool; s_cbev : bool; s_cbcon : bool }.
(** Field updates. *)
Definition set_s_db (v : _) (s : st) : st := {| s_db := v; s_up := s_up s; s_cs := s_cs s; s_nev := s_nev s; s_ncon := s_ncon s; s_ev := s_ev s; s_con := s_con s; s_lcs := s_lcs s; s_lev := s_lev s; s_lcon := s_lcon s; s_rep := s_rep s; s_cbcs := s_cbcs s; s_cbev := s_cbev s; s_cbcon := s_cbcon s |}.
Definition set_s_up (v : _) (s : st) : st := {| s_db := s_db s; s_up := v; s_cs := s_cs s; s_nev := s_nev s; s_ncon := s_ncon s; s_ev := s_ev s; s_con := s_con s; s_lcs := s_lcs s; s_lev := s_lev s; s_lcon := s_lcon s; s_rep := s_rep s; s_cbcs := s_cbcs s; s_cbev := s_cbev s; s_cbcon := s_cbcon s |}.
Definition set_s_cs (v : _) (s : st) : st := {| s_db := s_db s; s_up := s_up s; s_cs := v; s_nev := s_nev s; s_ncon := s_ncon s; s_ev := s_ev s; s_con := s_con s; s_lcs := s_lcs s; s_lev := s_lev s; s_lcon := s_lcon s; s_rep := s_rep s; s_cbcs := s_cbcs s; s_cbev := s_cbev s; s_cbcon := s_cbcon s |}.
Definition set_s_nev (v : _) (s : st) : st := {| s_db := s_db s; s_up := s_up s; s_cs := s_cs s; s_nev := v; s_ncon := s_ncon s; s_ev := s_ev s; s_con := s_con s; s_lcs := s_lcs s; s_lev := s_lev s; s_lcon := s_lcon s; s_rep := s_rep s; s_cbcs := s_cbcs s; s_cbev := s_cbev s; s_cbcon := s_cbcon s |}.
Definition set_s_ncon (v : _) (s : st) : st := {| s_db := s_db s; s_up := s_up s; s_cs := s_cs s; s_nev := s_nev s; s_ncon := v; s_ev := s_ev s; s_con := s_con s; s_lcs := s_lcs s; s_lev := s_lev s; s_lcon := s_lcon s; s_rep := s_rep s; s_cbcs := s_cbcs s; s_cbev := s_cbev s; s_cbcon := s_cbcon s |}.
Definition set_s_ev (v : _) (s : st) : st := {| s_db := s_db s; s_up := s_up s; s_cs := s_cs s; s_nev := s_nev s; s_ncon := s_ncon s; s_ev := v; s_con := s_con s; s_lcs := s_lcs s; s_lev := s_lev s; s_lcon := s_lcon s; s_rep := s_rep s; s_cbcs := s_cbcs s; s_cbev := s_cbev s; s_cbcon := s_cbcon s |}.
Definition set_s_con (v : _) (s : st) : st := {| s_db := s_db s; s_up := s_up s; s_cs := s_cs s; s_nev := s_nev s; s_ncon := s_ncon s; s_ev := s_ev s; s_con := v; s_lcs := s_lcs s; s_lev := s_lev s; s_lcon := s_lcon s; s_rep := s_rep s; s_cbcs := s_cbcs s; s_cbev := s_cbev s; s_cbcon := s_cbcon s |}.
Definition set_s_lcs (v : _) (s : st) : st := {| s_db := s_db s; s_up := s_up s; s_cs := s_cs s; s_nev := s_nev s; s_ncon := s_ncon s; s_ev := s_ev s; s_con := s_con s; s_lcs := v; s_lev := s_lev s; s_lcon := s_lcon s; s_rep := s_rep s; s_cbcs := s_cbcs s; s_cbev := s_cbev s; s_cbcon := s_cbcon s |}.
Definition set_s_lev (v : _) (s : st) : st := {| s_db := s_db s; s_up := s_up s; s_cs := s_cs s; s_nev := s_nev s; s_ncon := s_ncon s; s_ev := s_ev s; s_con := s_con s; s_lcs := s_lcs s; s_lev := v; s_lcon := s_lcon s; s_rep := s_rep s; s_cbcs := s_cbcs s; s_cbev := s_cbev s; s_cbcon := s_cbcon s |}.
Definition set_s_lcon (v : _) (s : st) : st := {| s_db := s_db s; s_up := s_up s; s_cs := s_cs s; s_nev := s_nev s; s_ncon := s_ncon s; s_ev := s_ev s; s_con := s_con s; s_lcs := s_lcs s; s_lev := s_lev s; s_lcon := v; s_rep := s_rep s; s_cbcs := s_cbcs s; s_cbev := s_cbev s; s_cbcon := s_cbcon s |}.
Definition set_s_rep (v : _) (s : st) : st := {| s_db := s_db s; s_up := s_up s; s_cs := s_cs s; s_nev := s_nev s; s_ncon := s_ncon s; s_ev := s_ev s; s_con := s_con s; s_lcs := s_lcs s; s_lev := s_lev s; s_lcon := s_lcon s; s_rep := v; s_cbcs := s_cbcs s; s_cbev := s_cbev s; s_cbcon := s_cbcon s |}.
Definition set_s_cbcs (v : _) (s : st) : st := {| s_db := s_db s; s_up := s_up s; s_cs := s_cs s; s_nev := s_nev s; s_ncon := s_ncon s; s_ev := s_ev s; s_con := s_con s; s_lcs := s_lcs s; s_lev := s_lev s; s_lcon := s_lcon s; s_rep := s_rep s; s_cbcs := v; s_cbev := s_cbev s; s_cbcon := s_cbcon s |}.
Definition set_s_cbev (v : _) (s : st) : st := {| s_db := s_db s; s_up := s_up s; s_cs := s_cs s; s_nev := s_nev s; s_ncon := s_ncon s; s_ev := s_ev s; s_con := s_con s; s_lcs := s_lcs s; s_lev := s_lev s; s_lcon := s_lcon s; s_rep := s_rep s; s_cbcs := s_cbcs s; s_cbev := v; s_cbcon := s_cbcon s |}.
Definition set_s_cbcon (v : _) (s : st) : st := {| s_db := s_db s; s_up := s_up s; s_cs := s_cs s; s_nev := s_nev s; s_ncon := s_ncon s; s_ev := s_ev s; s_con := s_con s; s_lcs := s_lcs s; s_lev := s_lev s; s_lcon := s_lcon s; s_rep := s_rep s; s_cbcs := s_cbcs s; s_cbev := s_cbev s; s_cbcon := v |}.

(** vector[i] = v. *)
Definition fupd {A} (f : Z -> A) (i : Z) (v : A) : Z -> A := fun k => if k =? i then v else f k.
(** vector[i][j] = v. *)
Definition fupd2 {A} (f : Z -> Z -> A) (i j : Z) (v : A) : Z -> Z -> A :=
  fun k l => if (k =? i) && (l =? j) then v else f k l.

(** What the manager does to its surroundings: the three availability callbacks and the StatusNotification callback
    (with its result). *)
Inductive out :=
| OCs (v : opstat)
| OEvse (e : Z) (v : opstat)
| OConn (e c : Z) (v : opstat)
| ONote (e c : Z) (v : cstat) (triggered delivered : bool).

(** How an operation ends: the exceptions of component_state_manager.hpp:13-53, a database exception that is not caught,
    std::invalid_argument. *)
Inductive res := Ok | EvseOutOfRange | ConnectorOutOfRange | DbError | InvalidArgument | NoObject.

(** check_evse_id (component_state_manager.cpp:78-82). *)
Definition check_evse (s : st) (e : Z) : bool := negb ((e <=? 0) || (s_nev s <? e)).
(** check_evse_and_connector_id (component_state_manager.cpp:89-94). *)
Definition check_conn (s : st) (e c : Z) : res :=
  if negb (check_evse s e) then EvseOutOfRange
  else if (c <=? 0) || (s_ncon s e <? c) then ConnectorOutOfRange else Ok.

(** get_evse_effective_operational_status (component_state_manager.cpp:248-254). *)
Definition evse_effective (s : st) (e : Z) : opstat :=
  match s_cs s with Inoperative => Inoperative | Operative => s_ev s e end.
(** get_connector_effective_operational_status (component_state_manager.cpp:264-270). *)
Definition conn_effective (s : st) (e c : Z) : opstat :=
  match evse_effective s e with Inoperative => Inoperative | Operative => c_op (s_con s e c) end.
(** get_connector_effective_status (component_state_manager.cpp:255-263). *)
Definition conn_effective_status (s : st) (e c : Z) : cstat :=
  match evse_effective s e with Inoperative => Unavailable | Operative => to_connector_status (s_con s e c) end.

(** The getters with their range checks (component_state_manager.cpp:181-190, 248-283). *)
Definition get_evse_effective (s : st) (e : Z) : res * opstat :=
  if check_evse s e then (Ok, evse_effective s e) else (EvseOutOfRange, Inoperative).
Definition get_conn_effective (s : st) (e c : Z) : res * opstat :=
  if negb (check_evse s e) then (EvseOutOfRange, Inoperative)
  else match evse_effective s e with
       | Inoperative => (Ok, Inoperative)
       | Operative => match check_conn s e c with Ok => (Ok, c_op (s_con s e c)) | r => (r, Inoperative) end
       end.
Definition get_conn_effective_status (s : st) (e c : Z) : res * cstat :=
  match check_conn s e c with Ok => (Ok, conn_effective_status s e c) | r => (r, Unavailable) end.
Definition get_conn_persisted (s : st) (e c : Z) : res * opstat :=
  match check_conn s e c with
  | Ok => match get_availability e c (s_db s) with Some v => (Ok, v) | None => (DbError, Inoperative) end
  | r => (r, Inoperative)
  end.

(** for (id = 1; id <= n; id++). *)
Definition ids (n : Z) : list Z := map Z.of_nat (seq 1 (Z.to_nat n)).
(** The loops of the manager: state and emitted calls are threaded through the body. *)
Fixpoint loop (f : Z -> st -> st * list out) (l : list Z) (s : st) : st * list out :=
  match l with
  | [] => (s, [])
  | i :: q => let '(s1, o1) := f i s in let '(s2, o2) := loop f q s1 in (s2, o1 ++ o2)
  end.

(** trigger_callbacks_connector (component_state_manager.cpp:150-163). *)
Definition trigger_conn (only_if_changed : bool) (e c : Z) (s : st) : st * list out :=
  let cur := conn_effective s e c in
  if negb only_if_changed || negb (opstat_eqb (s_lcon s e c) cur) then
    (set_s_lcon (fupd2 (s_lcon s) e c cur) s, if s_cbcon s then [OConn e c cur] else [])
  else (s, []).

(** trigger_callbacks_evse (component_state_manager.cpp:137-148). *)
Definition trigger_evse (only_if_changed : bool) (e : Z) (s : st) : st * list out :=
  let cur := evse_effective s e in
  if negb only_if_changed || negb (opstat_eqb (s_lev s e) cur) then
    let o1 := if s_cbev s then [OEvse e cur] else [] in
    let s1 := set_s_lev (fupd (s_lev s) e cur) s in
    let '(s2, o2) := loop (trigger_conn only_if_changed e) (ids (s_ncon s e)) s1 in
    (s2, o1 ++ o2)
  else (s, []).

(** trigger_callbacks_cs (component_state_manager.cpp:124-135). *)
Definition trigger_cs (only_if_changed : bool) (s : st) : st * list out :=
  let cur := s_cs s in
  if negb only_if_changed || negb (opstat_eqb (s_lcs s) cur) then
    let o1 := if s_cbcs s then [OCs cur] else [] in
    let s1 := set_s_lcs cur s in
    let '(s2, o2) := loop (trigger_evse only_if_changed) (ids (s_nev s)) s1 in
    (s2, o1 ++ o2)
  else (s, []).

(** send_status_notification_single_connector_internal (component_state_manager.cpp:315-328). [d] is the result of the
    callback. *)
Definition send_status (only_if_changed triggered : bool) (e c : Z) (d : bool) (s : st) : st * list out :=
  let cur := to_connector_status (s_con s e c) in
  if negb only_if_changed || negb (cstat_eqb (s_rep s e c) cur) then
    (if d then set_s_rep (fupd2 (s_rep s) e c cur) s else s, [ONote e c cur triggered d])
  else (s, []).

(** send_status_notification_all_connectors / _changed_connectors (component_state_manager.cpp:329-342). *)
Definition send_status_all (only_if_changed : bool) (d : Z -> Z -> bool) (s : st) : st * list out :=
  loop (fun e s => loop (fun c => send_status only_if_changed false e c (d e c)) (ids (s_ncon s e)) s) (ids (s_nev s)) s.

(** Body of the constructor's inner loop (component_state_manager.cpp:26-34). *)
Definition init_conn (e : Z) (a : table * (Z -> Z -> conn)) (c : Z) : table * (Z -> Z -> conn) :=
  let '(t, con) := a in
  let t1 := insert_availability e c Operative false t in
  let v := match get_availability e c t1 with Some v => v | None => Operative end in
  (t1, fupd2 con e c (Conn v false false false false)).
(** Body of the constructor's outer loop (component_state_manager.cpp:17-38); [None] is std::invalid_argument. *)
Definition init_evse (structure : Z -> option Z) (a : table * (Z -> opstat) * (Z -> Z) * (Z -> Z -> conn)) (e : Z)
  : option (table * (Z -> opstat) * (Z -> Z) * (Z -> Z -> conn)) :=
  let '(t, ev, ncon, con) := a in
  match structure e with
  | None => None
  | Some n =>
      let t1 := insert_availability e 0 Operative false t in
      let v := match get_availability e 0 t1 with Some v => v | None => Operative end in
      let '(t2, con2) := fold_left (init_conn e) (ids n) (t1, con) in
      Some (t2, fupd ev e v, fupd ncon e (Z.of_nat (length (ids n))), con2)
  end.
(** The constructor's outer loop; [false]: it was left by the exception. *)
Fixpoint init_evses (structure : Z -> option Z) (l : list Z) (a : table * (Z -> opstat) * (Z -> Z) * (Z -> Z -> conn))
  : (table * (Z -> opstat) * (Z -> Z) * (Z -> Z -> conn)) * bool :=
  match l with
  | [] => (a, true)
  | e :: q => match init_evse structure a e with Some a1 => init_evses structure q a1 | None => (a, false) end
  end.
(** std::map from EVSE id to number of connectors. *)
Definition lookup_structure (m : list (Z * Z)) (e : Z) : option Z :=
  match find (fun p => fst p =? e) m with Some p => Some (snd p) | None => None end.

(** ComponentStateManager::ComponentStateManager (component_state_manager.cpp:11-72), including
    read_all_states_from_database_or_set_defaults and initialize_reported_state_cache. When the structure is refused the
    object does not exist; the rows inserted so far stay. *)
Definition boot (structure : list (Z * Z)) (t : table) : st * res :=
  let t0 := insert_availability 0 0 Operative false t in
  let cs := match get_availability 0 0 t0 with Some v => v | None => Operative end in
  let blank := fun _ _ => Conn Operative false false false false in
  let '((t1, ev, ncon, con), fine) :=
    init_evses (lookup_structure structure) (ids (Z.of_nat (length structure)))
      (t0, (fun _ => Operative), (fun _ => 0), blank) in
  let s := St t1 fine cs (Z.of_nat (length structure)) ncon ev con cs (fun _ => Operative)
              (fun _ _ => Operative) (fun _ _ => Available) false false false in
  (set_s_lev (evse_effective s)
    (set_s_lcon (conn_effective s) (set_s_rep (fun e c => to_connector_status (con e c)) s)),
   if fine then Ok else InvalidArgument).

(** Operations: the public interface. Booleans [db]... are the results of the SQL insertions, [d]... of the
    StatusNotification callback. *)
Inductive op :=
| SetCs (v : opstat) (persist db : bool)
| SetEvse (e : Z) (v : opstat) (persist db1 db2 : bool)
| SetConn (e c : Z) (v : opstat) (persist db : bool)
| RestoreConn (e c : Z)
| SetOccupied (e c : Z) (b d : bool)
| SetReserved (e c : Z) (b d : bool)
| SetFaulted (e c : Z) (b d : bool)
| SetUnavailable (e c : Z) (b d : bool)
| TriggerAll
| SendAll (d : Z -> Z -> bool)
| SendChanged (d : Z -> Z -> bool)
| SendOne (e c : Z) (d : bool)
| RegisterCs | RegisterEvse | RegisterConn
| Restart (structure : list (Z * Z)).

(** Updates of one connector's flags (component_state_manager.cpp:285-308). *)
Definition with_op (v : opstat) (c : conn) := Conn v (c_faulted c) (c_reserved c) (c_occupied c) (c_unavail c).
Definition with_faulted (b : bool) (c : conn) := Conn (c_op c) b (c_reserved c) (c_occupied c) (c_unavail c).
Definition with_reserved (b : bool) (c : conn) := Conn (c_op c) (c_faulted c) b (c_occupied c) (c_unavail c).
Definition with_occupied (b : bool) (c : conn) := Conn (c_op c) (c_faulted c) (c_reserved c) b (c_unavail c).
Definition with_unavail (b : bool) (c : conn) := Conn (c_op c) (c_faulted c) (c_reserved c) (c_occupied c) b.
Definition upd_conn (f : conn -> conn) (e c : Z) (s : st) : st := set_s_con (fupd2 (s_con s) e c (f (s_con s e c))) s.

(** set_cs_individual_operational_status (component_state_manager.cpp:192-202). *)
Definition set_cs (v : opstat) (persist db : bool) (s : st) : st * list out * res :=
  let s1 := set_s_cs v s in
  let s2 := if persist && db then set_s_db (insert_availability 0 0 v true (s_db s1)) s1 else s1 in
  (trigger_cs true s2, Ok).

(** set_evse_individual_operational_status (component_state_manager.cpp:203-215): the insertion is done twice, the second
    time outside of the try block. *)
Definition set_evse (e : Z) (v : opstat) (persist db1 db2 : bool) (s : st) : st * list out * res :=
  if negb (check_evse s e) then (s, [], EvseOutOfRange)
  else
    let s1 := set_s_ev (fupd (s_ev s) e v) s in
    let s2 := if persist && (db1 || db2) then set_s_db (insert_availability e 0 v true (s_db s1)) s1 else s1 in
    if persist && negb db2 then (s2, [], DbError)
    else (trigger_evse true e s2, Ok).

(** set_connector_individual_operational_status (component_state_manager.cpp:216-230). *)
Definition set_conn (e c : Z) (v : opstat) (persist db : bool) (s : st) : st * list out * res :=
  match check_conn s e c with
  | Ok =>
      let s1 := upd_conn (with_op v) e c s in
      let s2 := if persist && db then set_s_db (insert_availability e c v true (s_db s1)) s1 else s1 in
      (trigger_conn true e c s2, Ok)
  | r => (s, [], r)
  end.

(** Connector::restore_connector_operative_status (connector.cpp:78-92): all exceptions are caught. *)
Definition restore_conn (e c : Z) (s : st) : st * list out * res :=
  match get_conn_persisted s e c with
  | (Ok, v) => set_conn e c v false false s
  | _ => (s, [], Ok)
  end.

(** The flag setters (component_state_manager.cpp:285-308). *)
Definition set_occupied (e c : Z) (b d : bool) (s : st) : st * list out * res :=
  match check_conn s e c with
  | Ok =>
      let s1 := upd_conn (with_occupied b) e c s in
      if negb (c_reserved (s_con s1 e c)) then (send_status true false e c d s1, Ok) else (s1, [], Ok)
  | r => (s, [], r)
  end.
Definition set_flag (f : conn -> conn) (e c : Z) (d : bool) (s : st) : st * list out * res :=
  match check_conn s e c with
  | Ok => (send_status true false e c d (upd_conn f e c s), Ok)
  | r => (s, [], r)
  end.

(** send_status_notification_single_connector (component_state_manager.cpp:343-345). *)
Definition send_one (e c : Z) (d : bool) (s : st) : st * list out * res :=
  match check_conn s e c with
  | Ok => (send_status false true e c d s, Ok)
  | r => (s, [], r)
  end.

(** One call of the public interface. *)
Definition step (s : st) (o : op) : st * list out * res :=
  match o with
  | Restart m => let '(s', r) := boot m (s_db s) in (s', [], r)
  | _ =>
    if negb (s_up s) then (s, [], NoObject)
    else match o with
    | SetCs v p db => set_cs v p db s
    | SetEvse e v p d1 d2 => set_evse e v p d1 d2 s
    | SetConn e c v p db => set_conn e c v p db s
    | RestoreConn e c => restore_conn e c s
    | SetOccupied e c b d => set_occupied e c b d s
    | SetReserved e c b d => set_flag (with_reserved b) e c d s
    | SetFaulted e c b d => set_flag (with_faulted b) e c d s
    | SetUnavailable e c b d => set_flag (with_unavail b) e c d s
    | TriggerAll => (trigger_cs false s, Ok)
    | SendAll d => (send_status_all false d s, Ok)
    | SendChanged d => (send_status_all true d s, Ok)
    | SendOne e c d => send_one e c d s
    | RegisterCs => (set_s_cbcs true s, [], Ok)
    | RegisterEvse => (set_s_cbev true s, [], Ok)
    | RegisterConn => (set_s_cbcon true s, [], Ok)
    | Restart _ => (s, [], Ok)
    end
  end.

(** ConnectorEvent and Connector::submit_event (connector.cpp:44-72). *)
Inductive cevent := PlugIn | PlugOut | Reserve | ReservationCleared | Error | ErrorCleared | EvUnavailable | UnavailableCleared.
Definition submit_event (e c : Z) (ev : cevent) (d : bool) : op :=
  match ev with
  | PlugIn => SetOccupied e c true d
  | PlugOut => SetOccupied e c false d
  | Reserve => SetReserved e c true d
  | ReservationCleared => SetReserved e c false d
  | Error => SetFaulted e c true d
  | ErrorCleared => SetFaulted e c false d
  | EvUnavailable => SetUnavailable e c true d
  | UnavailableCleared => SetUnavailable e c false d
  end.
