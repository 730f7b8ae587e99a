(** OCPP-J frames and the splitting of reports.

    Model of
    - include/ocpp/common/call_types.hpp 22-29, 33-35, 47-52, 76-89, 112-124
    - lib/ocpp/common/types.cpp 91-106                           CallError
    - include/ocpp/common/message_queue.hpp 214-235, 728-737     getMessageId, getMessageTypeId, head of receive
    - lib/ocpp/v2/messages/NotifyReport.cpp 20-40                NotifyReportRequest
    - lib/ocpp/v2/notify_report_requests_splitter.cpp            NotifyReportRequestsSplitter
    - lib/ocpp/v2/functional_blocks/provisioning.cpp 149-170     notify_report_req

    Payloads are JSON values: the conversion between message structs and JSON is generated code and left out here. *)
From Coq Require Import ZArith List Bool String Ascii.
From Verif Require Import StrModel JsonModel.
Import ListNotations.
Local Open Scope string_scope.
Local Open Scope Z_scope.

(** call_types.hpp 47-52: MessageTypeId. *)
Inductive mtype := CALL | CALLRESULT | CALLERROR | UNKNOWN.
Definition type_number (t : mtype) : Z := match t with CALL => 2 | CALLRESULT => 3 | CALLERROR => 4 | UNKNOWN => 5 end.

(** call_types.hpp 33-35: a MessageId is a CiString<36>. *)
Definition message_id (s : string) : result string := ci_make 36 s TooLargeThrow.

(** json::at(size_t): throws on anything but an array and beyond its end. *)
Definition jat (j : json) (n : nat) : result json :=
  match j with
  | JArr l => match nth_error l n with Some x => Ret x | None => Throws "out_of_range" end
  | _ => Throws "type_error"
  end.

(** json::get<std::string>. *)
Definition get_string (j : json) : result string := match j with JStr s => Ret s | _ => Throws "type_error" end.

Definition bind {A B} (r : result A) (k : A -> result B) : result B :=
  match r with Ret a => k a | Throws w => Throws w end.

(** call_types.hpp 76-82: to_json of Call. *)
Definition call_to_json (id action : string) (payload : json) : json :=
  JArr [JInt (type_number CALL); JStr id; JStr action; payload].

(** call_types.hpp 85-89: from_json of Call: the payload, then the id. *)
Definition call_from_json (j : json) : result (string * json) :=
  bind (jat j 3) (fun p => bind (jat j 1) (fun i => bind (get_string i) (fun s => bind (message_id s) (fun id => Ret (id, p))))).

(** call_types.hpp 112-117 and 120-124: CallResult. *)
Definition callresult_to_json (id : string) (payload : json) : json :=
  JArr [JInt (type_number CALLRESULT); JStr id; payload].
Definition callresult_from_json (j : json) : result (string * json) :=
  bind (jat j 2) (fun p => bind (jat j 1) (fun i => bind (get_string i) (fun s => bind (message_id s) (fun id => Ret (id, p))))).

(** types.cpp 91-98 and 100-106: CallError. *)
Definition callerror_to_json (id errorCode description : string) (details : json) : json :=
  JArr [JInt (type_number CALLERROR); JStr id; JStr errorCode; JStr description; details].
Definition callerror_from_json (j : json) : result (string * string * string * json) :=
  bind (jat j 1) (fun i => bind (get_string i) (fun s => bind (message_id s) (fun id =>
  bind (jat j 2) (fun c => bind (get_string c) (fun code =>
  bind (jat j 3) (fun d => bind (get_string d) (fun descr =>
  bind (jat j 4) (fun details => Ret (id, code, descr, details))))))))).

(** message_queue.hpp 214-219: getMessageId; a value that is no array does not convert to json::array_t. *)
Definition getMessageId (j : json) : result string :=
  match j with
  | JArr l =>
      if Nat.ltb (List.length l) 2 then Throws "MalformedRpcMessage"
      else bind (jat j 1) (fun i => bind (get_string i) message_id)
  | _ => Throws "type_error"
  end.

(** message_queue.hpp 220-235: getMessageTypeId. Simplified: the library also takes a floating-point number equal to
    2, 3 or 4 for that type; here a float is UNKNOWN. *)
Definition is_number (n : Z) (j : json) : bool := match j with JInt z => z =? n | _ => false end.
Definition getMessageTypeId (j : json) : mtype :=
  match j with
  | JArr (x :: _) =>
      if is_number (type_number CALL) x then CALL
      else if is_number (type_number CALLRESULT) x then CALLRESULT
      else if is_number (type_number CALLERROR) x then CALLERROR
      else UNKNOWN
  | _ => UNKNOWN
  end.

(** message_queue.hpp 728-737: the head of receive: text to (kind, id, action of a CALL). The action is looked up among
    the known message types elsewhere; here it is the string. *)
Record received := { r_message : json; r_id : string; r_type : mtype; r_action : option string }.

Definition receive_head (text : string) : result received :=
  match parse text with
  | None => Throws "parse_error"
  | Some j =>
      bind (getMessageId j) (fun id =>
      let t := getMessageTypeId j in
      match t with
      | CALL => bind (jat j 2) (fun a => bind (get_string a) (fun action =>
                  Ret {| r_message := j; r_id := id; r_type := t; r_action := Some action |}))
      | _ => Ret {| r_message := j; r_id := id; r_type := t; r_action := None |}
      end)
  end.

(** ** NotifyReport *)

(** NotifyReportRequest; the entries of reportData are given as the JSON they are converted to. *)
Record notify_report := { nr_request_id : Z; nr_generated_at : string; nr_seq_no : Z; nr_report_data : option (list json);
                          nr_tbc : option bool; nr_custom_data : option json }.

Definition obj_set_opt (k : string) (v : option json) (l : list (string * json)) : list (string * json) :=
  match v with Some v => obj_set k v l | None => l end.

(** NotifyReport.cpp 20-40: to_json. *)
Definition report_to_json (k : notify_report) : list (string * json) :=
  let j := obj_set "seqNo" (JInt (nr_seq_no k)) (obj_set "generatedAt" (JStr (nr_generated_at k))
             (obj_set "requestId" (JInt (nr_request_id k)) [])) in
  let j := obj_set_opt "reportData" (option_map JArr (nr_report_data k)) j in
  let j := obj_set_opt "tbc" (option_map JBool (nr_tbc k)) j in
  obj_set_opt "customData" (nr_custom_data k) j.

Definition message_type : string := "NotifyReport".

(** notify_report_requests_splitter.cpp 100-104: the template. *)
Definition template (r : notify_report) : list (string * json) :=
  report_to_json {| nr_request_id := nr_request_id r; nr_generated_at := nr_generated_at r; nr_seq_no := 0;
                    nr_report_data := None; nr_tbc := Some false; nr_custom_data := None |}.

(** notify_report_requests_splitter.cpp 106-109: its size, with the key of the report data. *)
Definition skeleton_size (r : notify_report) : nat :=
  String.length (dump (JArr [JInt 2; JStr ""; JStr message_type; JObj (template r)])) +
  String.length ("," ++ dump_str "reportData" ++ ":").

(** notify_report_requests_splitter.cpp 55-66: the loop; [acc] are the entries taken after the first one. *)
Fixpoint take_entries (size remaining : nat) (l : list json) : list json * list json :=
  match l with
  | [] => ([], [])
  | x :: l' =>
      let add := (String.length (dump x) + 1)%nat in
      if Nat.leb (size + add) remaining
      then let (t, r) := take_entries (size + add) remaining l' in (x :: t, r)
      else ([], l)
  end.

(** notify_report_requests_splitter.cpp 40-69: create_next_report_data_json: the entries of the part and the rest. *)
Definition next_report_data (remaining : nat) (l : list json) : list json * list json :=
  match l with
  | [] => ([], [])
  | [x] => ([x], [])
  | x :: l' => let (t, r) := take_entries (String.length (dump (JArr [x]))) remaining l' in (x :: t, r)
  end.

(** notify_report_requests_splitter.cpp 71-89: create_next_payload. *)
Definition next_payload (r : notify_report) (max_size : nat) (seq_no : Z) (id : string) (l : list json) : json * list json :=
  let base := (skeleton_size r + String.length id)%nat in
  let remaining := if Nat.leb base max_size then (max_size - base)%nat else 0%nat in
  let (part, rest) := next_report_data remaining l in
  let j := obj_set "reportData" (JArr part) (template r) in
  let j := obj_set "tbc" (JBool (match rest with [] => false | _ => true end)) j in
  let j := obj_set "seqNo" (JInt seq_no) j in
  (JArr [JInt 2; JStr id; JStr message_type; JObj j], rest).

(** notify_report_requests_splitter.cpp 24-30: the loop. [ids n] is the id generated for part n, [fuel] bounds the number
    of rounds. *)
Fixpoint payload_loop (fuel : nat) (r : notify_report) (max_size : nat) (ids : nat -> string) (n : nat) (l : list json) : list json :=
  match fuel with
  | O => []
  | S fuel' =>
      match n, l with
      | S _, [] => []
      | _, _ => let (p, rest) := next_payload r max_size (Z.of_nat n) (ids n) l in
                p :: payload_loop fuel' r max_size ids (S n) rest
      end
  end.

(** notify_report_requests_splitter.cpp 13-38: create_call_payloads. *)
Definition create_call_payloads (r : notify_report) (max_size : nat) (ids : nat -> string) : list json :=
  match nr_report_data r with
  | None => [JArr [JInt 2; JStr (ids 0%nat); JStr message_type; JObj (report_to_json r)]]
  | Some l => payload_loop (S (List.length l)) r max_size ids 0 l
  end.

(** provisioning.cpp 149-170: notify_report_req; [now] is the current time, the ids are drawn in order. *)
Definition notify_report_req (request_id : Z) (now : string) (data : list json) (max_size : nat) (ids : nat -> string) : list json :=
  let req := {| nr_request_id := request_id; nr_generated_at := now; nr_seq_no := 0; nr_report_data := Some data;
                nr_tbc := Some false; nr_custom_data := None |} in
  if Nat.leb (List.length data) 1 then [call_to_json (ids 0%nat) message_type (JObj (report_to_json req))]
  else create_call_payloads req max_size ids.
