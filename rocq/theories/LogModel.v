(** Model of the message log: lib/ocpp/common/ocpp_logging.cpp and include/ocpp/common/ocpp_logging.hpp.

    First part: one log file of a MessageLogging (the .log, the _raw.log, the .html, the _raw.html or the .security.log
    file) in its directory, how it is opened, written, rotated and closed.
    Second part: what the functions charge_point, central_system, sys and raw write to the log of the station and to the
    logs of the sessions, and the markup of one row of the HTML log.

    Simplified: the operations of the file system succeed; the number in an extension has no leading white space; a file
    holds lines with a size in bytes, not bytes; the time a line carries and the console are left out; calls follow each
    other (the lookup map of format_message is not guarded by a mutex). *)
From Coq Require Import ZArith String Ascii List Bool.
From Verif Require Import StrModel.
Import ListNotations.
Open Scope string_scope.
Open Scope list_scope.
Open Scope Z_scope.

(** A file of the directory as seen from a log file called "b" (ocpp_logging.cpp 206: filename() and stem()): "b" itself,
    "b.s" where s has no dot, and any other file. *)
Inductive name := Base | Ext (s : string) | Other (k : Z).

Definition name_eqb (a b : name) : bool :=
  match a, b with
  | Base, Base => true
  | Ext s, Ext t => String.eqb s t
  | Other k, Other l => k =? l
  | _, _ => false
  end.

(** One write to a file: what it says and how many bytes it has. *)
Record line := L { text : Z; bytes : Z }.

(** The regular files of the directory and what they hold. *)
Definition dir := name -> option (list line).

Definition put (d : dir) (x : name) (v : option (list line)) : dir := fun y => if name_eqb y x then v else d y.

(** Members 79-83 of ocpp_logging.hpp: rotate_logs, date_suffix, maximum_file_size_bytes, maximum_file_count; the tags of
    open_html_tags and close_html_tags (ocpp_logging.cpp 151-183) if this is a HTML file; whether the destructor writes
    the closing tags of this file (ocpp_logging.cpp 299-314: not those of the raw HTML file). *)
Record cfg := C { rotates : bool; dated : bool; max_size : Z; max_count : Z; opening : option line; closing : option line; closes : bool }.

(** ocpp_logging.hpp 38-42: LogRotationStatus; [Undefined]: the int of a file extension overflows (ocpp_logging.cpp 245). *)
Inductive status := NotRotated | Rotated | RotatedWithDeletion | Undefined.

(** std::filesystem::file_size. *)
Definition size_of (l : list line) : Z := fold_right (fun x n => bytes x + n) 0 l.

(** ocpp_logging.cpp 189-195: safe_file_size. *)
Definition safe_file_size (d : dir) (x : name) : Z := match d x with Some l => size_of l | None => 0 end.

(** std::greater on paths of one directory: the file names are compared byte by byte, a name is after its prefixes. *)
Definition name_gt (a b : name) : bool :=
  match a, b with
  | Ext s, Ext t => String.ltb t s
  | Ext _, Base => true
  | _, _ => false
  end.

(** ocpp_logging.cpp 211: std::sort with std::greater. *)
Fixpoint insert (x : name) (l : list name) : list name :=
  match l with
  | [] => [x]
  | y :: r => if name_gt y x then y :: insert x r else x :: y :: r
  end.
Definition sort (l : list name) : list name := fold_right insert [] l.

(** ocpp_logging.cpp 206: the file name or its stem is that of the log. *)
Definition belongs (x : name) : bool := match x with Other _ => false | _ => true end.

(** std::to_string of an int that is not negative, and of others. *)
Fixpoint to_digits (fuel : nat) (n : Z) (acc : string) : string :=
  match fuel with
  | O => acc
  | S f =>
    let a := String (ascii_of_nat (Z.to_nat (48 + n mod 10))) acc in
    if n <? 10 then a else to_digits f (n / 10) a
  end.
Definition to_string (n : Z) : string := if n <? 0 then String "-"%char (to_digits 10 (- n) "") else to_digits 10 n "".

(** std::filesystem::rename: replaces what is there. *)
Definition rename (d : dir) (a b : name) : dir := if name_eqb a b then d else put (put d b (d a)) a None.

(** The status "Rotated" unless there is another one already (ocpp_logging.cpp 235-237, 252-254). *)
Definition rotated (st : status) : status := match st with NotRotated => Rotated | _ => st end.

(** ocpp_logging.cpp 222-261: the body of the loop that renames. [now]: get_datetime_string. *)
Definition rename_one (c : cfg) (now : string) (s : dir * status) (f : name) : dir * status :=
  let '(d, st) := s in
  match f with
  | Base => (rename d Base (Ext (if dated c then now else "0")), rotated st)
  | Ext e =>
    if dated c then (d, st)
    else
      match stoi e with
      | Ret n => if n =? int_max then (d, Undefined) else (rename d f (Ext (to_string (n + 1))), rotated st)
      | Throws _ => (d, st)
      end
  | Other _ => (d, st)
  end.

(** ocpp_logging.cpp 198-263: rotate_log. [ls]: what directory_iterator lists, in any order. *)
Definition rotate_log (c : cfg) (now : string) (ls : list name) (d : dir) : dir * status :=
  let files := sort (filter belongs ls) in
  let '(files, d, st) :=
    if (0 <? max_count c) && (max_count c <=? Z.of_nat (List.length files)) then
      match files with
      | f :: r => (r, put d f None, RotatedWithDeletion)
      | [] => (files, d, NotRotated)
      end
    else (files, d, NotRotated) in
  fold_left (rename_one c now) files (d, st).

(** std::ofstream::open with app. *)
Definition open_app (d : dir) : dir := match d Base with Some _ => d | None => put d Base (Some []) end.

(** Writing to the open stream and flushing it. *)
Definition append (d : dir) (x : line) : dir :=
  match d Base with Some l => put d Base (Some (l ++ [x])) | None => d end.
Definition append_opt (d : dir) (x : option line) : dir := match x with Some l => append d l | None => d end.

(** ocpp_logging.cpp 265-297: rotate_log_if_needed. *)
Definition rotate_log_if_needed (c : cfg) (now : string) (ls : list name) (d : dir) : dir * status :=
  if negb (rotates c) then (d, NotRotated)
  else if max_size c <=? 0 then (d, NotRotated)
  else if max_size c <=? safe_file_size d Base then
    let d := append_opt d (closing c) in
    let '(d, st) := rotate_log c now ls d in
    (append_opt (open_app d) (opening c), st)
  else (d, NotRotated).

(** What happens to a log file: initialize opens it (ocpp_logging.cpp 77-148), log_output (403-460) or security (354-362)
    writes to it, the destructor (299-314) closes it. *)
Inductive op :=
| Start (now : string) (ls : list name)
| Write (now : string) (ls : list name) (x : line)
| Stop.

(** ocpp_logging.cpp 117-121 and 131-135: a HTML file that is empty gets its opening tags. *)
Definition first_tags (c : cfg) (d : dir) : dir :=
  if 0 <? safe_file_size d Base then d else append_opt d (opening c).

Definition step (c : cfg) (d : dir) (o : op) : dir * status :=
  match o with
  | Start now ls => let '(d, st) := rotate_log_if_needed c now ls (open_app d) in (first_tags c d, st)
  | Write now ls x => let '(d, st) := rotate_log_if_needed c now ls d in (append d x, st)
  | Stop => (if closes c then append_opt d (closing c) else d, NotRotated)
  end.

(* ------------------------------------------------------------------------------------------------------------------ *)

(** ocpp_logging.hpp 44-48: LogType. *)
Inductive log_type := ChargePoint | CentralSystem | System.

(** What json::parse and the accesses of format_message make of a text (ocpp_logging.cpp 466-478): no JSON or an access
    that throws, with the action when it is the id of a CALL that cannot be read; a CALL with its id and action; a CALLRESULT with its id; anything else. *)
Inductive frame := Unreadable (action : option string) | Call (id action : string) | Result (id : string) | AnyOther.

(** A text that goes to the log and what it reads as. *)
Record message := M { body : string; reads : frame }.

(** A line of the log: who wrote it, the message type, the text and whether it is in the form of dump(2). *)
Record entry := E { from : log_type; kind : string; said : string; pretty : bool }.

(** lookup_map: std::map from id to the type of the answer, the last write first. *)
Definition lookups := list (string * string).
Definition look (m : lookups) (id : string) : string :=
  match find (fun x => String.eqb (fst x) id) m with Some x => snd x | None => "" end.
Definition store (m : lookups) (id v : string) : lookups := (id, v) :: filter (fun x => negb (String.eqb (fst x) id)) m.

(** ocpp_logging.cpp 462-481: format_message. *)
Definition format_message (m : lookups) (t : log_type) (message_type : string) (x : message) : lookups * entry :=
  match reads x with
  | Unreadable a => (m, E t (match a with Some a => a | None => message_type end) (body x) false)
  | Call id a => (store m id (a ++ "Response"), E t a (body x) true)
  | Result id => (store m id "", E t (look m id) (body x) true)
  | AnyOther => (m, E t message_type (body x) true)
  end.

(** A MessageLogging: the lines of its log, of its raw log and its lookup map. *)
Record logger := G { lines : list entry; raws : list entry; map : lookups }.

(** The station's MessageLogging: log_raw, session_logging, itself, the session logs by session id (std::map), those
    stopped, and what message_callback got. *)
Record station := S { log_raw : bool; session_logging : bool; own : logger; sessions : list (string * logger); heard : list (string * log_type) }.

(** charge_point and central_system of one logger without sessions (ocpp_logging.cpp 320-321, 334-335). *)
Definition log_message (t : log_type) (message_type : string) (x : message) (g : logger) : logger :=
  let '(m, e) := format_message (map g) t message_type x in {| lines := lines g ++ [e]; raws := raws g; map := m |}.
(** log_output (ocpp_logging.cpp 403-460) of a system message. *)
Definition log_sys (msg : string) (g : logger) : logger :=
  {| lines := lines g ++ [E System msg "" false]; raws := raws g; map := map g |}.
(** log_output with raw (ocpp_logging.cpp 436-438, 445-449). *)
Definition log_raw_line (t : log_type) (message_type json : string) (g : logger) : logger :=
  {| lines := lines g; raws := raws g ++ [E t message_type json false]; map := map g |}.

(** A logger after initialize (ocpp_logging.cpp 146: sys). *)
Definition fresh : logger := log_sys "Session logging started." (G [] [] []).

(** Calls of the functions of MessageLogging; [up]: charge_point, otherwise central_system. *)
Inductive call :=
| Message (up : bool) (message_type : string) (x : message)
| Sys (msg : string)
| Raw (msg : string) (t : log_type)
| StartSession (id : string)
| StopSession (id : string).

Fixpoint times {A} (n : nat) (f : A -> A) (x : A) : A := match n with O => x | Datatypes.S k => f (times k f x) end.

(** charge_point 316-328, central_system 330-342, sys 344-352, raw 364-374, start_session_logging 483-487,
    stop_session_logging 489-498 of ocpp_logging.cpp. sys and raw write once more to the own log for each session. *)
Definition log_step (s : station) (o : call) : station :=
  match o with
  | Message up ty x =>
    let t := if up then ChargePoint else CentralSystem in
    S (log_raw s) (session_logging s) (log_message t ty x (own s))
      (if session_logging s then List.map (fun p => (fst p, log_message t ty x (snd p))) (sessions s) else sessions s)
      (heard s ++ [(body x, t)])
  | Sys msg =>
    let n := if session_logging s then List.length (sessions s) else O in
    S (log_raw s) (session_logging s) (times n (log_sys msg) (log_sys msg (own s))) (sessions s) (heard s)
  | Raw msg t =>
    if log_raw s then
      let n := if session_logging s then List.length (sessions s) else O in
      S (log_raw s) (session_logging s) (times n (log_raw_line t "" msg) (log_raw_line t msg "" (own s))) (sessions s) (heard s)
    else s
  | StartSession id =>
    S (log_raw s) (session_logging s) (own s) ((id, fresh) :: filter (fun p => negb (String.eqb (fst p) id)) (sessions s)) (heard s)
  | StopSession id =>
    S (log_raw s) (session_logging s) (own s) (filter (fun p => negb (String.eqb (fst p) id)) (sessions s)) (heard s)
  end.

Definition log_start (raw sessions : bool) : station := S raw sessions fresh [] [].
Definition log_run (raw sessions : bool) (l : list call) : station := fold_left log_step l (log_start raw sessions).

(** ocpp_logging.cpp 377-382: html_encode. *)
Fixpoint html_encode (s : string) : string :=
  match s with
  | EmptyString => EmptyString
  | String c r =>
    if Ascii.eqb c "<" then "&lt;" ++ html_encode r
    else if Ascii.eqb c ">" then "&gt;" ++ html_encode r
    else String c (html_encode r)
  end.

Definition origin (t : log_type) : string :=
  match t with ChargePoint => "ChargePoint" | CentralSystem => "CentralSystem" | System => "SYS" end.
Definition target (t : log_type) : string :=
  match t with ChargePoint => "CentralSystem" | CentralSystem => "ChargePoint" | System => "" end.
Definition quote : string := String (ascii_of_nat 34) EmptyString.

(** ocpp_logging.cpp 393-400: write_html_log_to_file. *)
Definition html_row (ts : string) (e : entry) : string :=
  ("<tr class=" ++ quote ++ origin (from e) ++ quote ++ "> <td>" ++ ts ++ "</td> <td>" ++ origin (from e) ++ "&gt;"
   ++ target (from e) ++ "</td> <td><b>" ++ (match from e with CentralSystem => "" | _ => kind e end)
   ++ "</b></td><td><b>" ++ (match from e with CentralSystem => kind e | _ => "" end)
   ++ "</b></td> <td><pre lang=" ++ quote ++ "json" ++ quote ++ ">" ++ html_encode (said e) ++ "</pre></td> </tr>")%string.
