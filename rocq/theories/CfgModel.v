(** The OCPP 1.6 configuration: reading and changing configuration keys.

    Model of lib/ocpp/v16/charge_point_configuration.cpp (ChargePointConfiguration). What the functions do for the
    single keys is in CfgTables.v, generated from the source; this file gives the meaning of the entries, and CfgApi.v
    puts them together.

    The configuration is a JSON object of sections, each a JSON object of keys.
    Simplified:
    - config[section][key] on a missing section or key inserts null before the conversion throws; here the
      configuration stays as it is.
    - The user configuration file holds a JSON object; reading and parsing it back always succeeds. Writing it may fail
      ([disk_ok]), which is only logged.
    - The recursive mutex makes every call of get, set and get_all_key_value atomic. *)
From Coq Require Import ZArith List Bool String Ascii.
From Verif Require Import StrModel JsonModel DtModel.
Import ListNotations.
Local Open Scope list_scope.
Local Open Scope string_scope.
Local Open Scope Z_scope.

(** ** The entries of the tables *)

(** When the value of a key is missing: the conversion throws, there is no answer, the answer is "false" (for the key or
    only for the section), the answer has no value. *)
Inductive need := Must | May | OrFalse | OrFalseSection | OrBlank.

(** How a stored value is turned into text. *)
Inductive kind :=
| KBool | KInt | KUnsigned | KText | KShort (n : nat) | KCommas | KColons | KPurposes | KPurposeText | KIfSingle | KPretty.

(** KeyValue::readonly. *)
Inductive access := ReadOnly | ReadWrite | ByCoreSchema | ByInternalSchema.

(** One comparison of get: the key compared with, the feature profile around it, where the value is stored, the key
    reported. *)
Record reader := Reader {
  r_match : string; r_profile : option string; r_section : string; r_key : string; r_name : string;
  r_need : need; r_kind : kind; r_access : access }.

Inductive item := Plain (r : reader) | PublicKeys | PriceTexts.

(** What has to hold before set looks at the value. *)
Inductive guard := Always | IfThere (k : kind) | IfProfile (p : string) | IfUnlockWritable.

(** What set does with the value. *)
Inductive rule :=
| RBool | RAnyBool | RInt (lo hi : Z) | RPhases | RText (lo hi : option nat) | RMeasurands | RPurposes | RRotation
| REvseIds | RAuthorizationKey | RTimeOffset | RJson | RFuture | RReboot.

(** One comparison of set. [w_present]: the setter stores only if there is a value already. *)
Record writer := Writer {
  w_match : string; w_guard : guard; w_rule : rule; w_section : string; w_key : string; w_present : bool }.

Inductive witem := Wanted (w : writer) | WPriceText | WCustom | WNothing (name : string).

(** ** The configuration and what it depends on *)

(** ChargePointConfiguration: config, the user configuration file, supported_feature_profiles, supported_measurands. *)
Record cp := Cp {
  running : list (string * json);
  user : list (string * json);
  profiles : list string;
  measurands : list (string * list string) }.

(** What is outside: "readOnly" of UnlockConnectorOnEVSideDisconnect in Core.json and of CentralSystemURI in
    Internal.json; Custom.json per key ("readOnly", "type") and its validator; std::stof (the stored number as printed);
    conversion of a float to an integer; the clock; the file system; evse_security. *)
Record world := World {
  unlock_readonly : bool;
  uri_readonly : bool;
  custom : string -> option (bool * string);
  custom_valid : list (string * json) -> bool;
  stof : string -> option string;
  truncated : string -> Z;
  now : Z;
  disk_ok : bool;
  ca_installed : bool;
  leaf_ok : bool;
  callbacks : list string;
  generic : bool }.

(** KeyValue (include/ocpp/v16/ocpp_types.hpp). *)
Record kv := Kv { kv_key : string; kv_readonly : bool; kv_value : option string }.

(** ConfigurationStatus (include/ocpp/v16/ocpp_enums.hpp). *)
Inductive status := Accepted | Rejected | RebootRequired | NotSupported.

(** ** Access to the configuration *)

(** config.contains(section) for a section that is an object. *)
Definition section (c : list (string * json)) (s : string) : option (list (string * json)) :=
  match obj_get s c with Some (JObj l) => Some l | _ => None end.

(** config[section][key], [None] if one of them is missing. *)
Definition lookup (c : list (string * json)) (s k : string) : option json :=
  match section c s with Some l => obj_get k l | None => None end.

(** config[section][key] = value. *)
Definition put (c : list (string * json)) (s k : string) (v : json) : list (string * json) :=
  match section c s with
  | Some l => obj_set s (JObj (obj_set k v l)) c
  | None => obj_set s (JObj [(k, v)]) c
  end.

(** The setters: config[section][key] = value; setInUserConfig(section, key, value) (230-248). *)
Definition store (w : world) (x : cp) (s k : string) (v : json) : cp :=
  Cp (put (running x) s k v) (if disk_ok w then put (user x) s k v else user x) (profiles x) (measurands x).

Definition supports (x : cp) (p : string) : bool := existsb (String.eqb p) (profiles x).

(** ** Values as text *)

(** json_type_error of a conversion, StringConversionException of a CiString. *)
Definition type_error {A} : result A := Throws "json".
Definition too_long {A} : result A := Throws "StringConversionException".

(** lib/ocpp/common/types.cpp 1191-1196: bool_to_string. *)
Definition bool_to_string (b : bool) : string := if b then "true" else "false".

(** ::tolower in the classic locale. *)
Definition tolower (c : ascii) : ascii :=
  if (65 <=? code c) && (code c <=? 90) then ascii_of_N (N_of_ascii c + 32) else c.
Fixpoint lower (s : string) : string :=
  match s with EmptyString => EmptyString | String c s' => String (tolower c) (lower s') end.

(** types.cpp 1198-1205: string_to_bool; charge_point_configuration.cpp 2214-2218: isBool. *)
Definition string_to_bool (s : string) : bool := String.eqb (lower s) "true".
Definition isBool (s : string) : bool := String.eqb (lower s) "true" || String.eqb (lower s) "false".

Definition wrap32 (z : Z) : Z := (z + 2147483648) mod 4294967296 - 2147483648.

(** json -> std::int32_t. *)
Definition to_int (w : world) (j : json) : result Z :=
  match j with
  | JInt z => Ret (wrap32 z)
  | JFloat t => Ret (truncated w t)
  | JBool b => Ret (if b then 1 else 0)
  | _ => type_error
  end.

Definition to_bool (j : json) : result bool := match j with JBool b => Ret b | _ => type_error end.
Definition to_text (j : json) : result string := match j with JStr s => Ret s | _ => type_error end.

(** std::vector<std::string> from json. *)
Fixpoint to_texts (l : list json) : result (list string) :=
  match l with
  | [] => Ret []
  | JStr s :: l' => match to_texts l' with Ret r => Ret (s :: r) | Throws e => Throws e end
  | _ => type_error
  end.

(** 250-261: to_csl; boost::algorithm::join. *)
Definition join (sep : string) (l : list string) : string := String.concat sep l.

(** lib/ocpp/v16/ocpp_enums.cpp 304-316: the texts string_to_charging_profile_purpose_type knows. *)
Definition purposes : list string := ["ChargePointMaxProfile"; "TxDefaultProfile"; "TxProfile"].
Definition is_purpose (s : string) : bool := existsb (String.eqb s) purposes.

Definition comma : ascii := ","%char.

(** nlohmann::json::dump(2): [n] is the indentation. *)
Fixpoint indent (n : nat) : string := match n with O => "" | S n' => String " " (indent n') end.
Definition newline : string := String (chr 10) "".
Fixpoint pretty (n : nat) (j : json) : string :=
  match j with
  | JArr [] => "[]"
  | JObj [] => "{}"
  | JArr l =>
      "[" ++ newline ++ String.concat ("," ++ newline) (map (fun v => indent (n + 2) ++ pretty (n + 2) v) l)
      ++ newline ++ indent n ++ "]"
  | JObj l =>
      "{" ++ newline
      ++ String.concat ("," ++ newline)
           (map (fun e => indent (n + 2) ++ dump_str (fst e) ++ ": " ++ pretty (n + 2) (snd e)) l)
      ++ newline ++ indent n ++ "}"
  | j => dump j
  end.

(** 1648-1650: getNumberOfConnectors. *)
Definition number_of_connectors (w : world) (c : list (string * json)) : result Z :=
  match lookup c "Core" "NumberOfConnectors" with Some v => to_int w v | None => type_error end.

(** The getters and the conversion to the text of the KeyValue (367-3275). *)
Definition text_of (w : world) (c : list (string * json)) (k : kind) (j : json) : result string :=
  match k with
  | KBool => match to_bool j with Ret b => Ret (bool_to_string b) | Throws e => Throws e end
  | KInt => match to_int w j with Ret z => Ret (dump_int z) | Throws e => Throws e end
  | KUnsigned => match to_int w j with Ret z => Ret (dump_int (z mod 4294967296)) | Throws e => Throws e end
  | KText => to_text j
  | KShort n =>
      match to_text j with
      | Ret s => if Nat.ltb n (String.length s) then too_long else Ret s
      | Throws e => Throws e
      end
  | KCommas => match j with
               | JArr l => match to_texts l with Ret r => Ret (join "," r) | Throws e => Throws e end
               | _ => type_error
               end
  | KColons => match j with
               | JArr l => match to_texts l with Ret r => Ret (join ":" r) | Throws e => Throws e end
               | _ => type_error
               end
  | KPurposes => match j with
                 | JArr l => match to_texts l with
                             | Ret r => Ret (join "," (filter is_purpose r))
                             | Throws e => Throws e
                             end
                 | _ => type_error
                 end
  | KPurposeText =>
      match to_text j with
      | Ret s => Ret (join "," (filter is_purpose (split_string s comma false)))
      | Throws e => Throws e
      end
  | KIfSingle =>
      match number_of_connectors w c with
      | Ret n => if n =? 1 then match to_bool j with Ret b => Ret (bool_to_string b) | Throws e => Throws e end
                 else Ret "false"
      | Throws e => Throws e
      end
  | KPretty => Ret (pretty 0 j)
  end.

(** KeyValue::value is a CiString<500>. *)
Definition as_value (s : string) : result (option string) :=
  if Nat.ltb 500 (String.length s) then too_long else Ret (Some s).

Definition readonly (w : world) (a : access) : bool :=
  match a with
  | ReadOnly => true
  | ReadWrite => false
  | ByCoreSchema => unlock_readonly w
  | ByInternalSchema => uri_readonly w
  end.

(** The KeyValue functions. *)
Definition read (w : world) (x : cp) (r : reader) : result (option kv) :=
  let answer t := match as_value t with
                  | Ret v => Ret (Some (Kv (r_name r) (readonly w (r_access r)) v))
                  | Throws e => Throws e
                  end in
  match lookup (running x) (r_section r) (r_key r) with
  | Some v => match text_of w (running x) (r_kind r) v with Ret t => answer t | Throws e => Throws e end
  | None =>
      match r_need r with
      | Must => type_error
      | May => Ret None
      | OrFalse => answer "false"
      | OrFalseSection => match section (running x) (r_section r) with Some _ => type_error | None => answer "false" end
      | OrBlank => Ret (Some (Kv (r_name r) (readonly w (r_access r)) None))
      end
  end.

(** std::string::rfind(p, 0) == 0 and find(p) == 0. *)
Fixpoint starts_with (p s : string) : bool :=
  match p, s with
  | EmptyString, _ => true
  | String a p', String b s' => Ascii.eqb a b && starts_with p' s'
  | _, _ => false
  end.

Fixpoint last_char (s : string) : option ascii :=
  match s with EmptyString => None | String c EmptyString => Some c | String _ s' => last_char s' end.

Definition uint32_max : Z := 4294967295.

(** 3340-3380: parse_meter_public_key_index. Overflow of std::stoull gives nullopt like a number beyond 32 bits. *)
Definition public_key_index (s : string) : option Z :=
  if Nat.leb (String.length s) 16 then None
  else if negb (starts_with "MeterPublicKey[" s) then None
  else match last_char s with
       | Some c =>
           if Ascii.eqb c "]" then
             let number := take (String.length s - 16) (drop 15 s) in
             if all_of isdigit number then
               let n := digits_value 0 number in if uint32_max <? n then None else Some n
             else None
           else None
       | None => None
       end.

(** 3185-3206: getPublicKeyKeyValue. *)
Definition public_key (x : cp) (id : Z) : result (option kv) :=
  match lookup (running x) "Internal" "MeterPublicKeys" with
  | Some (JArr l) =>
      if (Z.of_nat (List.length l) <? id) || (id <? 1) then Ret None
      else match nth_error l (Z.to_nat (id - 1)) with
           | Some j =>
               match to_text j with
               | Ret t => match as_value t with
                          | Ret v => Ret (Some (Kv ("MeterPublicKey[" ++ dump_int id ++ "]") true v))
                          | Throws e => Throws e
                          end
               | Throws e => Throws e
               end
           | None => Ret None
           end
  | _ => Ret None
  end.

(** std::optional<bool> getCustomMultiLanguageMessagesEnabled (3105-3112), value_or(false). *)
Definition multi_language (x : cp) : result bool :=
  match lookup (running x) "CostAndPrice" "CustomMultiLanguageMessages" with Some j => to_bool j | None => Ret false end.

(** price_text.value().at(key), ... of one element of "priceTexts". *)
Definition member (k : string) (j : json) : result json :=
  match j with JObj l => match obj_get k l with Some v => Ret v | None => type_error end | _ => type_error end.
Definition contains (k : string) (j : json) : bool :=
  match j with JObj l => match obj_get k l with Some _ => true | None => false end | _ => false end.

(** The object that is dumped for one element: priceText and, if there, priceTextOffline. *)
Definition price_object (j : json) : result json :=
  match member "priceText" j with
  | Ret t => match member "priceTextOffline" j with
             | Ret o => Ret (JObj [("priceText", t); ("priceTextOffline", o)])
             | Throws _ => Ret (JObj [("priceText", t)])
             end
  | Throws e => Throws e
  end.

(** 2744-2772: the loop of getDefaultPriceText. *)
Fixpoint find_price (language : string) (l : list json) : result (option json) :=
  match l with
  | [] => Ret None
  | j :: l' =>
      match member "language" j with
      | Ret (JStr s) =>
          if String.eqb language s then match price_object j with Ret o => Ret (Some o) | Throws e => Throws e end
          else find_price language l'
      | _ => type_error
      end
  end.

(** 2896-2912: getDefaultPriceTextKeyValue with getDefaultPriceText (2744-2772). "priceTexts" is an array, as the
    schema demands; anything else is not iterated over here but throws. *)
Definition price_text (x : cp) (language : string) : result (option kv) :=
  let answer t := match as_value t with
                  | Ret v => Ret (Some (Kv ("DefaultPriceText," ++ language) false v))
                  | Throws e => Throws e
                  end in
  match lookup (running x) "CostAndPrice" "DefaultPriceText" with
  | Some d =>
      if contains "priceTexts" d then
        match member "priceTexts" d with
        | Ret (JArr l) =>
            match find_price language l with
            | Ret (Some o) => answer (pretty 0 o)
            | Ret None => answer ""
            | Throws e => Throws e
            end
        | _ => type_error
        end
      else answer ""
  | None => answer ""
  end.

(** 3276-3295: getCustomKeyValue; every exception gives nullopt. *)
Definition custom_key (w : world) (x : cp) (key : string) : option kv :=
  match lookup (running x) "Custom" key, custom w key with
  | Some j, Some (ro, _) =>
      let t := match j with JStr s => s | _ => dump j end in
      if Nat.ltb 500 (String.length t) then None else Some (Kv key ro (Some t))
  | _, _ => None
  end.

(** 3382-3785: get, over the comparisons that are left. *)
Fixpoint get_from (w : world) (x : cp) (items : list item) (key : string) : result (option kv) :=
  match items with
  | [] => Ret (if supports x "Custom" then custom_key w x key else None)
  | Plain r :: rest =>
      let here := match r_profile r with Some p => supports x p | None => true end in
      if here && ci_eq key (r_match r) then read w x r else get_from w x rest key
  | PublicKeys :: rest =>
      if starts_with "MeterPublicKey[" key then
        match public_key_index key with
        | Some n => if n =? 0 then Ret None else public_key x n
        | None => Ret None
        end
      else get_from w x rest key
  | PriceTexts :: rest =>
      if supports x "CostAndPrice" && starts_with "DefaultPriceText" key then
        match multi_language x with
        | Ret true => match split_string key comma false with
                      | _ :: language :: _ => price_text x language
                      | _ => get_from w x rest key
                      end
        | Ret false => get_from w x rest key
        | Throws e => Throws e
        end
      else get_from w x rest key
  end.

(** ** Checks of values *)

(** std::stoi skips white space first. *)
Definition isspace (c : ascii) : bool := ((9 <=? code c) && (code c <=? 13)) || (code c =? 32).
Fixpoint skip_space (s : string) : string :=
  match s with String c s' => if isspace c then skip_space s' else s | EmptyString => s end.
Definition stoi_ws (s : string) : result Z := stoi (skip_space s).

(** boost::split(elements, s, boost::is_any_of(",")): a part more than there are commas. *)
Fixpoint boost_split (s : string) : list string :=
  match s with
  | EmptyString => [EmptyString]
  | String c s' =>
      if Ascii.eqb c comma then EmptyString :: boost_split s'
      else match boost_split s' with p :: r => String c p :: r | [] => [String c EmptyString] end
  end.

(** ocpp_enums.cpp 1069-1138: the texts string_to_measurand knows; with them the phases init_supported_measurands
    (263-305) gives the measurand. *)
Definition three_phases : list string := ["L1"; "L2"; "L3"].
Definition known_measurands : list (string * list string) := [
  ("Energy.Active.Export.Register", three_phases); ("Energy.Active.Import.Register", three_phases);
  ("Energy.Reactive.Export.Register", three_phases); ("Energy.Reactive.Import.Register", three_phases);
  ("Energy.Active.Export.Interval", three_phases); ("Energy.Active.Import.Interval", three_phases);
  ("Energy.Reactive.Export.Interval", three_phases); ("Energy.Reactive.Import.Interval", three_phases);
  ("Power.Active.Export", three_phases); ("Power.Active.Import", three_phases);
  ("Voltage", three_phases); ("Frequency", three_phases);
  ("Power.Reactive.Export", three_phases); ("Power.Reactive.Import", three_phases);
  ("Current.Import", ["L1"; "L2"; "L3"; "N"]); ("Current.Export", ["L1"; "L2"; "L3"; "N"]);
  ("Power.Factor", []); ("Current.Offered", []); ("Power.Offered", []); ("Temperature", []); ("SoC", []); ("RPM", [])].

Fixpoint phases_of (m : string) (l : list (string * list string)) : option (list string) :=
  match l with [] => None | (n, p) :: l' => if String.eqb m n then Some p else phases_of m l' end.

(** 263-305: init_supported_measurands, on the parts of SupportedMeasurands; [None] when it throws. *)
Fixpoint init_measurands (parts : list string) : option (list (string * list string)) :=
  match parts with
  | [] => Some []
  | m :: rest =>
      match phases_of m known_measurands, init_measurands rest with
      | Some p, Some l => Some ((m, p) :: l)
      | _, _ => None
      end
  end.

(** MeasurandWithPhase. *)
Definition with_phase := (string * option string)%type.
Definition same_phase (a b : with_phase) : bool :=
  String.eqb (fst a) (fst b)
  && match snd a, snd b with Some p, Some q => String.eqb p q | None, None => true | _, _ => false end.
Definition add_new (acc : list with_phase) (x : with_phase) : list with_phase :=
  (if existsb (same_phase x) acc then acc else acc ++ [x])%list.

(** 1024-1068: csv_to_measurand_with_phase_vector on a non-empty text whose parts are all known. *)
Fixpoint requested (supported : list (string * list string)) (acc : list with_phase) (parts : list string) : list with_phase :=
  match parts with
  | [] => acc
  | m :: rest =>
      let acc' :=
        match phases_of m supported with
        | Some (p :: ps) => fold_left add_new (map (fun q => (m, Some q)) (p :: ps)) (acc ++ [(m, None)])%list%list
        | _ => add_new acc (m, None)
        end in
      requested supported acc' rest
  end.

(** 1105-1140: measurands_supported. *)
Definition measurands_supported (supported : list (string * list string)) (csv : string) : bool :=
  match csv with
  | EmptyString => true
  | _ =>
      let parts := boost_split csv in
      if forallb (fun m => match phases_of m known_measurands with Some _ => true | None => false end) parts then
        forallb (fun x => match phases_of (fst x) supported with
                          | Some ps => match snd x with Some p => existsb (String.eqb p) ps | None => true end
                          | None => false
                          end) (requested supported [] parts)
      else false
  end.

(** 1087-1102: validate_connector_evse_ids. *)
Definition evse_ids_ok (s : string) : bool :=
  if Nat.ltb 1000 (String.length s) then false
  else forallb (fun e => Nat.leb 7 (String.length e) && Nat.leb (String.length e) 37) (split_string s comma false).

(** strtol(byte.c_str(), nullptr, 16) on one or two characters. *)
Definition hex_value (c : ascii) : option Z := hex_val c.
Definition strtol16 (a : ascii) (b : option ascii) : Z :=
  match hex_value a, b with
  | Some x, Some b' => match hex_value b' with Some y => 16 * x + y | None => x end
  | Some x, None => x
  | None, Some b' =>
      if isspace a || (code a =? 43) then match hex_value b' with Some y => y | None => 0 end
      else if code a =? 45 then match hex_value b' with Some y => - y | None => 0 end
      else 0
  | None, None => 0
  end.

(** (char) of it. *)
Definition as_char (z : Z) : ascii := chr (z mod 256).

(** 2095-2103: hexToString. *)
Fixpoint hex_to_string (n : nat) (s : string) : string :=
  match n, s with
  | S n', String a (String b s') => String (as_char (strtol16 a (Some b))) (hex_to_string n' s')
  | S _, String a EmptyString => String (as_char (strtol16 a None)) EmptyString
  | _, _ => EmptyString
  end.

(** 2105-2121: isHexNotation. *)
Definition is_hex_notation (s : string) : bool :=
  Nat.ltb 2 (String.length s)
  && all_of (fun c => match hex_value c with Some _ => true | None => false end) (drop 2 s)
  && all_of (fun c => negb (((signed_code c <? 32) || (126 <? signed_code c)) && negb (signed_code c =? 10)))
       (hex_to_string (String.length s) s).

(** 2123-2136: what setAuthorizationKey stores. *)
Definition authorization_key_of (s : string) : string :=
  if is_hex_notation s then hex_to_string (String.length s) s else s.

(** 2138-2176: isConnectorPhaseRotationValid. *)
Fixpoint without_space (s : string) : string :=
  match s with EmptyString => EmptyString | String c s' => if isspace c then without_space s' else String c (without_space s') end.
Definition erase_all (e : string) (l : list string) : list string := filter (fun x => negb (String.eqb x e)) l.
Fixpoint drop_unknown (n : nat) (id : Z) (l : list string) : list string :=
  match n with
  | O => l
  | S n' => drop_unknown n' (id + 1) (erase_all (dump_int id ++ ".Unknown") (erase_all (dump_int id ++ ".NotApplicable") l))
  end.
Definition rotations : list string := ["RST"; "RTS"; "SRT"; "STR"; "TRS"; "TSR"].
Definition rotation_element (connectors : Z) (e : string) : bool :=
  Nat.eqb (String.length e) 5
  && match stoi (take 1 e) with Ret c => (0 <=? c) && (c <=? connectors) | Throws _ => false end
  && existsb (String.eqb (take 5 (drop 2 e))) rotations.
Definition rotation_ok (connectors : Z) (s : string) : bool :=
  forallb (rotation_element connectors)
    (drop_unknown (Z.to_nat (connectors + 1)) 0 (boost_split (without_space s))).

(** 2179-2211: checkTimeOffset. *)
Definition time_offset_ok (s : string) : bool :=
  match split_string s ":" false with
  | [h; m] =>
      match stoi_ws h, stoi_ws m with
      | Ret h', Ret m' => (-24 <=? h') && (h' <=? 24) && (0 <=? m') && (m' <=? 59)
      | _, _ => false
      end
  | _ => false
  end.

(** ** Changing *)

(** What a setter does with the text: store a value (with the status to answer), or answer without storing. *)
Inductive verdict := Store (v : json) (s : status) | Answer (s : status).

Definition apply_rule (w : world) (x : cp) (r : rule) (text : string) : result verdict :=
  match r with
  | RBool => Ret (if isBool text then Store (JBool (string_to_bool text)) Accepted else Answer Rejected)
  | RAnyBool => Ret (Store (JBool (string_to_bool text)) Accepted)
  | RInt lo hi =>
      match is_positive_integer text with
      | Ret (true, z) => Ret (if (z <? lo) || (hi <? z) then Answer Rejected else Store (JInt z) Accepted)
      | Ret (false, _) => Ret (Answer Rejected)
      | Throws _ => Ret (Answer Rejected)
      end
  | RPhases =>
      match stoi_ws text with
      | Ret z => Ret (if (z <=? 0) || (3 <? z) then Answer Rejected else Store (JInt z) Accepted)
      | Throws _ => Ret (Answer Rejected)
      end
  | RText lo hi =>
      let n := String.length text in
      if match lo with Some m => Nat.ltb n m | None => false end || match hi with Some m => Nat.ltb m n | None => false end
      then Ret (Answer Rejected) else Ret (Store (JStr text) Accepted)
  | RMeasurands =>
      Ret (if measurands_supported (measurands x) text then Store (JStr text) Accepted else Answer Rejected)
  | RPurposes =>
      match lookup (running x) "Internal" "IgnoredProfilePurposesOffline" with
      | None => Ret (Answer Rejected)
      | Some j =>
          match text_of w (running x) KPurposeText j with
          | Throws e => Throws e
          | Ret t =>
              if Nat.ltb 500 (String.length t) then too_long
              else Ret (if forallb is_purpose (split_string text comma false) then Store (JStr text) Accepted
                        else Answer Rejected)
          end
      end
  | RRotation =>
      match number_of_connectors w (running x) with
      | Ret n => Ret (if rotation_ok n text then Store (JStr text) Accepted else Answer Rejected)
      | Throws e => Throws e
      end
  | REvseIds => Ret (if evse_ids_ok text then Store (JStr text) Accepted else Answer Rejected)
  | RAuthorizationKey =>
      Ret (if Nat.leb 8 (String.length text) then Store (JStr (authorization_key_of text)) Accepted else Answer Rejected)
  | RTimeOffset => Ret (if time_offset_ok text then Store (JStr text) Accepted else Answer Rejected)
  | RJson => Ret (match parse text with Some j => Store j Accepted | None => Answer Rejected end)
  | RFuture =>
      match from_rfc3339 text with
      | Some t => Ret (if now w <? t then Store (JStr text) Accepted else Answer Rejected)
      | None => Throws "time"
      end
  | RReboot => Ret (Store (JStr text) RebootRequired)
  end.

(** The conditions before the value is looked at; a status if they fail. *)
Definition check_guard (w : world) (x : cp) (wr : writer) : result (option status) :=
  match w_guard wr with
  | Always => Ret None
  | IfThere k =>
      match lookup (running x) (w_section wr) (w_key wr) with
      | None => Ret (Some NotSupported)
      | Some j => match text_of w (running x) k j with Ret _ => Ret None | Throws e => Throws e end
      end
  | IfProfile p => Ret (if supports x p then None else Some NotSupported)
  | IfUnlockWritable => Ret (if unlock_readonly w then Some Rejected else None)
  end.

Definition write (w : world) (x : cp) (wr : writer) (text : string) : result (status * cp) :=
  match check_guard w x wr with
  | Throws e => Throws e
  | Ret (Some s) => Ret (s, x)
  | Ret None =>
      match apply_rule w x (w_rule wr) text with
      | Throws e => Throws e
      | Ret (Answer s) => Ret (s, x)
      | Ret (Store v s) =>
          if w_present wr && match lookup (running x) (w_section wr) (w_key wr) with Some _ => false | None => true end
          then Ret (s, x)
          else Ret (s, store w x (w_section wr) (w_key wr) v)
      end
  end.

(** 2874-2886: replace the element of the language or add one. *)
Fixpoint replace_price (language : string) (j : json) (l : list json) : result (list json) :=
  match l with
  | [] => Ret [j]
  | e :: l' =>
      match member "language" e with
      | Ret (JStr s) =>
          if String.eqb s language then Ret (j :: l')
          else match replace_price language j l' with Ret r => Ret (e :: r) | Throws x => Throws x end
      | _ => type_error
      end
  end.

(** 2820-2894: setDefaultPriceText. *)
Definition write_price (w : world) (x : cp) (key text : string) : result (status * cp) :=
  match split_string key comma false with
  | _ :: language :: _ =>
      match lookup (running x) "CostAndPrice" "SupportedLanguages" with
      | None => Ret (Rejected, x)
      | Some (JStr languages) =>
          if existsb (fun l => String.eqb (trim_string l) (trim_string language)) (split_string languages comma false) then
            match parse text with
            | None => type_error
            | Some (JObj new) =>
                match obj_get "priceText" new with
                | None => Ret (Rejected, x)
                | Some _ =>
                    let j := JObj (obj_set "language" (JStr language) new) in
                    match lookup (running x) "CostAndPrice" "DefaultPriceText" with
                    | None => Ret (Accepted, store w x "CostAndPrice" "DefaultPriceText" (JObj [("priceTexts", JArr [j])]))
                    | Some (JObj d) =>
                        match obj_get "priceTexts" d with
                        | None =>
                            Ret (Accepted,
                                 store w x "CostAndPrice" "DefaultPriceText" (JObj (obj_set "priceTexts" (JArr [j]) d)))
                        | Some (JArr l) =>
                            match replace_price language j l with
                            | Ret l' =>
                                Ret (Accepted,
                                     store w x "CostAndPrice" "DefaultPriceText" (JObj (obj_set "priceTexts" (JArr l') d)))
                            | Throws e => Throws e
                            end
                        | Some _ => Ret (Rejected, x)
                        end
                    | Some _ => type_error
                    end
                end
            | Some _ => Ret (Rejected, x)
            end
          else Ret (Rejected, x)
      | Some _ => type_error
      end
  | _ => Ret (Rejected, x)
  end.

(** 3297-3331: setCustomKey with force = false. *)
Definition custom_value (w : world) (type text : string) : option json :=
  if String.eqb type "integer" then match stoi_ws text with Ret z => Some (JInt z) | Throws _ => None end
  else if String.eqb type "number" then match stof w text with Some t => Some (JFloat t) | None => None end
  else if String.eqb type "string" || String.eqb type "array" then Some (JStr text)
  else if String.eqb type "boolean" then Some (JBool (string_to_bool text))
  else None.

Definition write_custom (w : world) (x : cp) (key text : string) : status * cp :=
  match custom_key w x key, custom w key, section (running x) "Custom" with
  | Some k, Some (_, type), Some l =>
      if kv_readonly k then (Rejected, x)
      else match custom_value w type text with
           | Some v => if custom_valid w (obj_set key v l) then (Accepted, store w x "Custom" key v) else (Rejected, x)
           | None => (Rejected, x)
           end
  | _, _, _ => (Rejected, x)
  end.

(** 3826-4322: set, over the comparisons that are left; [None] in place of a status for nullopt. *)
Fixpoint set_from (w : world) (x : cp) (items : list witem) (key text : string) : result (option status * cp) :=
  match items with
  | [] => Ret (None, x)
  | Wanted wr :: rest =>
      if ci_eq key (w_match wr) then
        match write w x wr text with Ret (s, x') => Ret (Some s, x') | Throws e => Throws e end
      else set_from w x rest key text
  | WPriceText :: rest =>
      if starts_with "DefaultPriceText" key then
        match write_price w x key text with Ret (s, x') => Ret (Some s, x') | Throws e => Throws e end
      else set_from w x rest key text
  | WCustom :: rest =>
      match lookup (running x) "Custom" key with
      | Some _ => let (s, x') := write_custom w x key text in Ret (Some s, x')
      | None => set_from w x rest key text
      end
  | WNothing n :: rest => if ci_eq key n then Ret (Some Accepted, x) else set_from w x rest key text
  end.
