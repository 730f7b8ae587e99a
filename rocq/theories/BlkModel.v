(** Customer information, monitoring reports, display messages and costs of an OCPP 2.x station.
    Modelled, of the repository:
    - lib/ocpp/v2/functional_blocks/diagnostics.cpp  notify_customer_information_req (96-116), notify_monitoring_report_req
      (118-171), handle_customer_information_req (180-221), handle_get_monitoring_report_req (326-364),
      get_customer_information, clear_customer_information (379-428)
    - lib/ocpp/v2/functional_blocks/display_message.cpp (40-235)
    - lib/ocpp/v2/functional_blocks/tariff_and_cost.cpp (36-295)
    Simplified: what the application, the device model and the database say are arguments; times and prices are numbers that
    are only passed on; the sampled values are rational numbers; logging is left out. *)
From Coq Require Import String Ascii ZArith QArith Qround List Bool.
From Verif Require Import StrModel.
Import ListNotations.
Local Open Scope string_scope.
Local Open Scope list_scope.
Local Open Scope Z_scope.

(** ** Customer information *)

(** CustomerInformation.req (messages/CustomerInformation.hpp). *)
Record info_req := InfoReq { i_report : bool; i_clear : bool; i_cert : option string; i_token : option string; i_ident : option string; i_id : Z }.
Inductive info_status := IAccepted | IRejected | IInvalid.
(** What is seen. *)
Inductive info_out :=
| IAnswer (s : info_status)
| INotify (data : string) (seq : Z) (id : Z) (tbc : bool)      (* NotifyCustomerInformation.req *)
| IClear.                                                      (* clear_customer_information_callback *)
(** What the request meets: the answer of the application if it has a callback, whether it has one for clearing, whether
    reading and deleting in the database fail, MaxCustomerInformationDataLength. *)
Record info_env := InfoEnv { n_told : option string; n_clear : bool; n_read_fails : bool; n_delete_fails : bool; n_max : option Z }.
(** The authorization cache: from the hash of a token to its entry, as printed. *)
Definition cache := list (string * string).
Definition lookup (h : string) (c : cache) : option string := option_map snd (find (fun e => String.eqb (fst e) h) c).

(** notify_customer_information_req (diagnostics.cpp 96-116); a loop of at most [fuel] rounds. *)
Definition chunk : nat := 512.
Fixpoint info_loop (fuel : nat) (data : string) (id : Z) (pos : nat) (seq : Z) : list info_out :=
  match fuel with
  | O => []
  | S fuel =>
      if Nat.ltb pos (String.length data) || (Nat.eqb pos 0 && String.eqb data "")
      then INotify (substring pos chunk data) seq id (Nat.ltb chunk (String.length data - pos)) :: info_loop fuel data id (pos + chunk) (seq + 1)
      else []
  end.
Definition notify_info (data : string) (id : Z) : list info_out := info_loop (S (String.length data)) data id 0 0.

(** get_customer_information (diagnostics.cpp 379-408); [h] is generate_token_hash. *)
Definition nl : string := String (ascii_of_nat 10) "".
Definition get_info (e : info_env) (h : string -> string) (r : info_req) (c : cache) : string :=
  (match n_told e with Some s => s | None => "" end ++
   match i_token r with
   | Some t => if n_read_fails e then "" else
       match lookup (h t) c with
       | Some entry => "Hashed id_token stored in cache: " ++ h t ++ nl ++ "IdTokenInfo: " ++ entry
       | None => ""
       end
   | None => ""
   end)%string.
(** clear_customer_information (diagnostics.cpp 410-428). *)
Definition clear_info (e : info_env) (h : string -> string) (r : info_req) (c : cache) : cache * list info_out :=
  (match i_token r with
   | Some t => if n_delete_fails e then c else filter (fun x => negb (String.eqb (fst x) (h t))) c
   | None => c
   end, if n_clear e then [IClear] else []).
(** data.length() > max, an unsigned comparison with an int of 32 bits, and data.erase(max) (diagnostics.cpp 208-216). *)
Definition default_max : Z := 51200.
Definition crop (m : Z) (s : string) : string :=
  if (if m <? 0 then m + 2 ^ 64 else m) <? Z.of_nat (String.length s) then substring 0 (Z.to_nat m) s else s.
(** handle_customer_information_req (diagnostics.cpp 180-221). *)
Definition handle_info (e : info_env) (h : string -> string) (r : info_req) (c : cache) : cache * list info_out :=
  let status := IAccepted in
  let status := if negb (i_report r) && negb (i_clear r) then IRejected else status in
  let status := match i_cert r, i_token r, i_ident r with None, None, None => IInvalid | _, _, _ => status end in
  match status with
  | IAccepted =>
      let data := if i_report r then get_info e h r c else "" in
      let '(c1, o) := if i_clear r then clear_info e h r c else (c, []) in
      let data := crop (match n_max e with Some m => m | None => default_max end) data in
      (c1, IAnswer status :: o ++ notify_info data (i_id r))
  | _ => (c, [IAnswer status])
  end.

(** ** Monitoring reports *)

(** MonitoringData, VariableMonitoring (ocpp_types.hpp), as far as they are looked at. *)
Record monitor := Monitor { v_id : Z; v_value : Q; v_event : option string }.
Record mdata := MData { d_name : string; d_monitors : list monitor }.
Inductive report_status := RAccepted | REmpty | RRejected.
Inductive report_out :=
| RError (code : string)
| RAnswer (s : report_status)
| RNotify (id : Z) (seq : Z) (tbc : bool) (l : list mdata).     (* NotifyMonitoringReport.req *)
(** notify_monitoring_report_req (diagnostics.cpp 118-171). The index i + j is in range whenever the inner loop is entered,
    since that is so only for i = 0. *)
Definition maximum : nat := 10.
Definition without_event (m : mdata) : mdata := MData (d_name m) (map (fun v => Monitor (v_id v) (v_value v) None) (d_monitors m)).
Definition sub_data (i : nat) (l : list mdata) : list mdata :=
  flat_map (fun j => match nth_error l (i + j) with Some m => [m] | None => [] end) (seq i (Nat.min maximum (List.length l) - i)).
Fixpoint report_loop (fuel : nat) (id : Z) (l : list mdata) (i : nat) (sn : Z) : list report_out :=
  match fuel with
  | O => []
  | S fuel =>
      if Nat.ltb i (List.length l)
      then RNotify id sn (negb (Nat.leb (List.length l) (i + maximum))) (sub_data i l) :: report_loop fuel id l (i + maximum) (sn + 1)
      else []
  end.
Definition notify_report (id : Z) (l : list mdata) : list report_out :=
  let l := map without_event l in
  if Nat.leb (List.length l) maximum then [RNotify id 0 false l] else report_loop (S (List.length l)) id l 0 0.
(** handle_get_monitoring_report_req (diagnostics.cpp 326-364); [max] is ItemsPerMessageGetReport, [n] the number of component
    variables, [found] what get_monitors finds, None: it throws. *)
Definition handle_report (max : Z) (n : nat) (id : Z) (found : option (list mdata)) : list report_out :=
  if (if max <? 0 then max + 2 ^ 64 else max) <? Z.of_nat n then [RError "OccurenceConstraintViolation"]
  else match found with
       | None => [RAnswer RRejected]
       | Some [] => [RAnswer REmpty]
       | Some l => RAnswer RAccepted :: notify_report id l
       end.

(** ** Display messages *)

(** MessageContent, MessageInfo (ocpp_types.hpp 100-105, 1130-1141); enumerations by their names. *)
Record content := Content { k_format : string; k_text : string; k_language : option string }.
Record minfo := MInfo {
  m_id : Z; m_priority : string; m_message : content; m_display : option string; m_state : option string;
  m_start : option Z; m_end : option Z; m_transaction : option string; m_extra : option (list content) }.
(** DisplayMessageContent, DisplayMessage (common/types.hpp 357-392). *)
Record dcontent := DContent { x_text : string; x_language : option string; x_format : option string }.
Inductive idtype := SessionId | IdTokenId | TransactionId.
Record dmsg := DMsg {
  g_id : option Z; g_priority : option string; g_state : option string; g_from : option Z; g_to : option Z;
  g_identifier : option string; g_type : option idtype; g_message : dcontent; g_qr : option string }.
(** message_content_to_display_message_content (display_message.cpp 163-169). *)
Definition to_dcontent (k : content) : dcontent := DContent (k_text k) (k_language k) (Some (k_format k)).
(** A std::string assigned to a CiString: it throws if it is too long ([StrModel.ci_make]). *)
Definition fits (n : nat) (s : string) : bool := Nat.leb (String.length s) n.
Definition fits_opt (n : nat) (s : option string) : bool := match s with Some s => fits n s | None => true end.
(** display_message_to_message_info_type (display_message.cpp 176-207); None: it throws, Some None: nullopt. *)
Definition to_minfo (g : dmsg) : option (option minfo) :=
  match g_id g, g_priority g with
  | Some id, Some p =>
      if fits 1024 (x_text (g_message g)) && fits_opt 8 (x_language (g_message g)) && fits_opt 36 (g_identifier g)
      then Some (Some (MInfo id p (Content (match x_format (g_message g) with Some f => f | None => "UTF8" end) (x_text (g_message g)) (x_language (g_message g)))
             None (g_state g) (g_from g) (g_to g) (g_identifier g) None))
      else None
  | _, _ => Some None
  end.
(** message_info_to_display_message (display_message.cpp 214-227). *)
Definition to_dmsg (m : minfo) : dmsg :=
  DMsg (Some (m_id m)) (Some (m_priority m)) (m_state m) (m_start m) (m_end m) (m_transaction m) (Some TransactionId) (to_dcontent (m_message m)) None.
(** What is seen. *)
Inductive show_out :=
| SGot (accepted : bool)                          (* GetDisplayMessages.conf: Accepted or Unknown *)
| SMessages (id : Z) (l : list minfo)             (* NotifyDisplayMessages.req *)
| SAnswer (status : string)                       (* SetDisplayMessage.conf *)
| SSet (g : dmsg)                                 (* set_display_message_callback *)
| SFailed.                                        (* an exception: a CALLERROR *)
(** handle_get_display_message (display_message.cpp 40-74); [l]: the messages of the application. *)
Fixpoint convert (l : list dmsg) : option (list minfo) :=
  match l with
  | [] => Some []
  | g :: l => match to_minfo g, convert l with Some (Some m), Some l => Some (m :: l) | Some None, Some l => Some l | _, _ => None end
  end.
Definition get_messages (id : Z) (l : list dmsg) : list show_out :=
  match convert l with
  | None => [SFailed]
  | Some [] => [SGot false]
  | Some l => [SGot true; SMessages id l]
  end.
(** What SetDisplayMessage.req meets: the variables of DisplayMessageCtrlr (None: they have no value), the running
    transactions and the answer of the application. *)
Record show_env := ShowEnv {
  w_available : option bool; w_priorities : option string; w_formats : option string; w_states : option string;
  w_running : list string; w_answer : string }.
Definition listed (x : string) (l : string) : bool := existsb (String.eqb x) (split_string l "," true).
(** handle_set_display_message (display_message.cpp 76-148). *)
Definition set_message (e : show_env) (m : minfo) : list show_out :=
  match w_priorities e, w_formats e with
  | Some priorities, Some formats =>
      let transaction_valid := match m_transaction m with None => true | Some t => existsb (String.eqb t) (w_running e) end in
      if negb (match w_available e with Some b => b | None => false end) then [SAnswer "Rejected"]
      else if negb (listed (m_priority m) priorities) then [SAnswer "NotSupportedPriority"]
      else if negb (listed (k_format (m_message m)) formats) then [SAnswer "NotSupportedMessageFormat"]
      else if negb transaction_valid then [SAnswer "UnknownTransaction"]
      else if (match m_state m, w_states e with Some s, Some states => negb (listed s states) | _, _ => false end) then [SAnswer "NotSupportedState"]
      else [SSet (to_dmsg m); SAnswer (w_answer e)]
  | _, _ => [SFailed]
  end.

(** ** Costs *)

(** What the costs are made of: the variables of TariffCostCtrlr and DisplayMessageCtrlr and the callbacks that are set. *)
Record cost_env := CostEnv {
  z_tariff_available : option bool; z_tariff_enabled : option bool; z_cost_available : option bool; z_cost_enabled : option bool;
  z_qr : option bool; z_multi : option bool; z_california : option bool;
  z_languages : option string;            (* valuesList of Language *)
  z_decimals : option Z; z_currency : option string;
  z_tariff_callback : bool; z_cost_callback : bool;
  z_evse : string -> option Z }.          (* the EVSE of a transaction *)
Definition yes (b : option bool) : bool := match b with Some b => b | None => false end.
(** is_tariff_enabled, is_cost_enabled (tariff_and_cost.cpp 279-295). *)
Definition tariff_enabled (e : cost_env) : bool := yes (z_tariff_available e) && yes (z_tariff_enabled e).
Definition cost_enabled (e : cost_env) : bool := yes (z_cost_available e) && yes (z_cost_enabled e).
(** RunningCost (common/types.hpp 422-438); the prices that are only passed on are one number. *)
Inductive cost_state := Charging | Idle | Finished.
Record running := Running {
  r_transaction : string; r_time : option Z; r_meter : option Z; r_cost : Q; r_state : cost_state; r_prices : option Z;
  r_messages : option (list dcontent); r_qr : option string }.
(** SampledValue, as far as it is looked at. *)
Record sample := Sample { s_measurand : option string; s_phase : option string; s_value : Q }.
(** TransactionEventRequest and its response. *)
Record event := Event { e_transaction : string; e_ended : bool; e_time : Z; e_meter : option (list (list sample)) }.
Record custom := Custom { u_qr : option string; u_extra : option (list content) }.
Record event_resp := EventResp { p_cost : option Q; p_message : option content; p_custom : option custom }.
Inductive cost_out :=
| CTariff (transaction : string) (l : list dcontent)                     (* tariff_message_callback *)
| CCost (r : running) (decimals : Z) (currency : string)                 (* set_running_cost_callback *)
| CAnswer                                                                (* CostUpdated.conf *)
| CTriggers (evse : Z) (t : option Z * option Z * option Z)              (* set_meter_value_pricing_triggers *)
| CFailed                                                                (* an exception *)
| CUndefined.                                                            (* undefined behaviour *)
(** DEFAULT_PRICE_NUMBER_OF_DECIMALS (tariff_and_cost.cpp 14, 195-200). *)
Definition decimals (e : cost_env) : Z := match z_decimals e with Some d => if d <? 0 then 3 else d | None => 3 end.
(** The greatest of the first energy registers without a phase (tariff_and_cost.cpp 98-115). *)
Definition is_register (s : sample) : bool :=
  match s_measurand s, s_phase s with Some m, None => String.eqb m "Energy.Active.Import.Register" | _, _ => false end.
Definition max_step (old : option Q) (l : list sample) : option Q :=
  match find is_register l with
  | Some s => match old with Some o => if Qle_bool (s_value s) o then old else Some (s_value s) | None => Some (s_value s) end
  | None => old
  end.
Definition max_meter (l : list (list sample)) : option Q := fold_left max_step l None.
(** The conversion to std::int32_t truncates and is undefined out of range; then to std::uint32_t. *)
Definition truncate (q : Q) : Z := if 0 <=? Qnum q then Qfloor q else - Qfloor (- q).
Definition to_meter (q : Q) : option Z := if (- 2 ^ 31 <=? truncate q) && (truncate q <? 2 ^ 31) then Some (truncate q mod 2 ^ 32) else None.
(** The messages in other languages (tariff_and_cost.cpp 136-178). *)
Definition extra (e : cost_env) (u : custom) : list dcontent :=
  match u_extra u with
  | Some l =>
      if yes (z_multi e) then
        let languages := match z_languages e with Some s => split_string s "," true | None => [] end in
        map to_dcontent (filter (fun k => match k_language k with Some x => existsb (String.eqb x) languages | None => false end) l)
      else []
  | None => []
  end.
(** handle_cost_and_tariff (tariff_and_cost.cpp 36-205). *)
Definition handle_cost (e : cost_env) (p : event_resp) (m : event) : list cost_out :=
  let personal := match p_message p with Some k => if tariff_enabled e then [to_dcontent k] else [] | None => [] end in
  let o1 := match personal with
            | [] => []
            | l => if negb (cost_enabled e) && z_tariff_callback e then [CTariff (e_transaction m) l] else []
            end in
  o1 ++
  match p_cost p with
  | Some cost =>
      if cost_enabled e && z_cost_callback e then
        let meter := match e_meter m with Some l => max_meter l | None => None end in
        match match meter with Some q => option_map Some (to_meter q) | None => Some None end with
        | None => [CUndefined]
        | Some meter =>
            let qr := match p_custom p with Some u => if yes (z_qr e) then u_qr u else None | None => None end in
            let messages := personal ++ match p_custom p with Some u => extra e u | None => [] end in
            let messages := match messages with [] => None | l => if tariff_enabled e then Some l else None end in
            match z_currency e with
            | None => [CFailed]
            | Some currency => [CCost (Running (e_transaction m) (Some (e_time m)) meter cost (if e_ended m then Finished else Charging) None messages qr) (decimals e) currency]
            end
        end
      else []
  | None => []
  end.
(** CostUpdated.req; its custom data as read by from_json: a RunningCost and the triggers (power, energy, time). *)
Record updated := Updated { y_cost : Q; y_transaction : string; y_custom : option (running * (option Z * option Z * option Z)) }.
Definition none_set (t : option Z * option Z * option Z) : bool := match t with (None, None, None) => true | _ => false end.
(** handle_costupdated_req (tariff_and_cost.cpp 207-271). *)
Definition handle_updated (e : cost_env) (u : updated) : list cost_out :=
  if negb (cost_enabled e) || negb (z_cost_callback e) then [CAnswer]
  else
    let '(r, t) := match y_custom u with
                   | Some x => if yes (z_california e) then x else (Running "" None None 0 Charging None None None, (None, None, None))
                   | None => (Running "" None None 0 Charging None None None, (None, None, None))
                   end in
    let r := Running (y_transaction u) (r_time r) (r_meter r) (y_cost u) (r_state r) (r_prices r) (r_messages r) (r_qr r) in
    match z_currency e with
    | None => [CFailed]
    | Some currency =>
        CCost r (decimals e) currency :: CAnswer ::
        (if none_set t then [] else match z_evse e (y_transaction u) with Some evse => [CTriggers evse t] | None => [] end)
    end.
