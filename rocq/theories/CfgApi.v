(** The OCPP 1.6 configuration: starting, reading, changing.

    Model of
    - lib/ocpp/v16/charge_point_configuration.cpp 28-222, 263-305, 1071-1085 (construction), 3382-4322 (get,
      get_all_key_value, set)
    - lib/ocpp/v16/charge_point_impl.cpp 1845-1994, 2021-2030, 2127-2133, 4923-4963 (ChangeConfiguration,
      GetConfiguration, set_configuration_key), 1443-1482 (exceptions of a handler)
    Timers, websocket, message queue and callbacks are effects; they never throw. *)
From Coq Require Import ZArith List Bool String Ascii.
From Verif Require Import StrModel JsonModel DtModel CfgModel CfgSchemaLang CfgSchema CfgTables.
Import ListNotations.
Local Open Scope string_scope.
Local Open Scope list_scope.
Local Open Scope Z_scope.

(** ** Starting *)

(** Config.json with the sections, closed; the section Custom is checked against Custom.json by [custom_ok].
    [number] as in CfgSchemaLang. *)
Definition config_valid (custom_ok : list (string * json) -> bool) (number : option Z -> option Z -> string -> bool) (c : list (string * json)) : bool :=
  forallb (fun s => match obj_get s c with Some _ => true | None => false end) required_sections
  && forallb (fun e => match obj_get (fst e) c with Some j => valid number (snd e) j | None => true end) sections
  && forallb (fun e => String.eqb (fst e) "Custom" || existsb (fun s => String.eqb (fst e) (fst s)) sections) c
  && match obj_get "Custom" c with
     | Some (JObj l) => custom_ok l
     | Some _ => false
     | None => true
     end.

(** types.hpp 120-132: SupportedFeatureProfiles in the order of the enumeration, hence of the std::set; types.cpp
    462-498: their texts. *)
Definition all_profiles : list string :=
  ["Internal"; "Core"; "CostAndPrice"; "FirmwareManagement"; "LocalAuthListManagement"; "Reservation"; "SmartCharging";
   "RemoteTrigger"; "Security"; "PnC"; "Custom"].

(** 99-143: the supported feature profiles; [None] when it throws. *)
Definition profiles_of (c : list (string * json)) : option (list string) :=
  match lookup c "Core" "SupportedFeatureProfiles" with
  | Some (JStr EmptyString) => Some []
  | Some (JStr s) =>
      let parts := boost_split s in
      let has n := match obj_get n c with Some _ => true | None => false end in
      if forallb (fun p => existsb (String.eqb p) all_profiles) parts then
        Some (filter (fun p => existsb (String.eqb p) parts || String.eqb p "Security" || String.eqb p "Internal"
                               || (String.eqb p "PnC" && has "PnC")
                               || (String.eqb p "CostAndPrice" && has "CostAndPrice")
                               || (String.eqb p "Custom" && has "Custom")) all_profiles)
      else None
  | _ => None
  end.

(** 1071-1085: validate_measurands. *)
Definition measurands_valid (supported : list (string * list string)) (c : list (string * json)) : bool :=
  forallb (fun k => match lookup c "Core" k with Some (JStr s) => measurands_supported supported s | _ => false end)
    ["MeterValuesAlignedData"; "MeterValuesSampledData"; "StopTxnAlignedData"; "StopTxnSampledData"].

(** 28-222: the constructor, on a configuration with its default values; [None] when it throws. *)
Definition start (custom_ok : list (string * json) -> bool) (number : option Z -> option Z -> string -> bool)
    (c u : list (string * json)) : option cp :=
  if config_valid custom_ok number c then
    match profiles_of c with
    | Some ps =>
        if existsb (String.eqb "Core") ps then
          match lookup c "Internal" "SupportedMeasurands" with
          | Some (JStr s) =>
              match init_measurands (split_string s comma false) with
              | Some ms => if measurands_valid ms c then Some (Cp c u ps ms) else None
              | None => None
              end
          | _ => None
          end
        else None
    | None => None
    end
  else None.

(** ** get, set, get_all_key_value *)

Definition get (w : world) (x : cp) (key : string) : result (option kv) := get_from w x readers key.
Definition set (w : world) (x : cp) (key text : string) : result (option status * cp) := set_from w x writers key text.

(** Appending what is found; the first exception ends it. *)
Fixpoint gather {A : Type} (l : list (result (list A))) : result (list A) :=
  match l with
  | [] => Ret []
  | Throws e :: _ => Throws e
  | Ret a :: l' => match gather l' with Ret b => Ret (a ++ b) | Throws e => Throws e end
  end.

(** 2914-2946: getAllDefaultPriceTextKeyValues, value_or({}). *)
Definition one_price (j : json) : result (list kv) :=
  match member "language" j with
  | Ret (JStr language) =>
      match price_object j with
      | Ret o =>
          if Nat.ltb 500 (String.length (pretty 0 o)) then too_long
          else if Nat.ltb 50 (String.length ("DefaultPriceText," ++ language)%string) then too_long
          else Ret [Kv ("DefaultPriceText," ++ language)%string false (Some (pretty 0 o))]
      | Throws e => Throws e
      end
  | _ => type_error
  end.
Definition all_prices (x : cp) : result (list kv) :=
  match lookup (running x) "CostAndPrice" "DefaultPriceText" with
  | Some d =>
      if contains "priceTexts" d then
        match member "priceTexts" d with Ret (JArr l) => gather (map one_price l) | _ => type_error end
      else Ret []
  | None => Ret []
  end.

(** 3208-3231: getAllMeterPublicKeyKeyValues, value_or({}). *)
Definition one_public_key (i : nat) (j : json) : result (list kv) :=
  match to_text j with
  | Ret t => match as_value t with
             | Ret v => Ret [Kv ("MeterPublicKey[" ++ dump_int (Z.of_nat i + 1) ++ "]")%string true v]
             | Throws e => Throws e
             end
  | Throws e => Throws e
  end.
Fixpoint public_keys_from (i : nat) (l : list json) : list (result (list kv)) :=
  match l with [] => [] | j :: l' => one_public_key i j :: public_keys_from (S i) l' end.
Definition all_public_keys (x : cp) : result (list kv) :=
  match lookup (running x) "Internal" "MeterPublicKeys" with
  | Some (JArr l) => gather (public_keys_from 0 l)
  | _ => Ret []
  end.

(** 3793-3818: one entry of a section; the key becomes a CiString<50>. *)
Definition entry (w : world) (x : cp) (key : string) : result (list kv) :=
  if Nat.ltb 50 (String.length key) then too_long
  else if starts_with "DefaultPriceText" key then all_prices x
  else if String.eqb key "MeterPublicKeys" then all_public_keys x
  else match get w x key with Ret (Some k) => Ret [k] | Ret None => Ret [] | Throws e => Throws e end.

(** 3787-3824: get_all_key_value. *)
Definition get_all (w : world) (x : cp) : result (list kv) :=
  gather (map (fun p => match section (running x) p with
                        | Some l => gather (map (fun e => entry w x (fst e)) l)
                        | None => Ret []
                        end) (profiles x)).

(** ** GetConfiguration *)

(** charge_point_impl.cpp 4935-4944: the loop over the requested keys. *)
Fixpoint get_each (w : world) (x : cp) (keys : list string) : result (list kv * list string) :=
  match keys with
  | [] => Ret ([], [])
  | k :: rest =>
      match get w x k with
      | Throws e => Throws e
      | Ret a =>
          match get_each w x rest with
          | Throws e => Throws e
          | Ret (known, unknown) => Ret (match a with Some v => (v :: known, unknown) | None => (known, k :: unknown) end)
          end
      end
  end.

(** 4923-4957: get_configuration_key; an empty list stands for an absent configurationKey or unknownKey. *)
Definition get_configuration (w : world) (x : cp) (keys : option (list string)) : result (list kv * list string) :=
  match keys with
  | None | Some [] => match get_all w x with Ret l => Ret (l, []) | Throws e => Throws e end
  | Some keys => get_each w x keys
  end.

(** ** ChangeConfiguration *)

Inductive effect :=
| Respond (s : status)
| RespondError (code : string)
| HeartbeatEvery (s : Z)
| SampleEvery (s : Z)
| ClockEvery (s : Z)
| ClockStopped
| NewAuthorizationKey (k : string)
| Reconnect
| SwitchProfile (p : Z)
| Disconnect
| ConnectionTimeOutIs (s : Z)
| AttemptsAre (n : Z)
| RetryEvery (s : Z)
| PingEvery (s pong : Z)
| CertificateTimers (started : bool)
| OcspEvery (s : Z)
| OffsetAt (t : string)
| Changed (key text : string)
| ChangedAny (key text : string).

Definition int_at (w : world) (x : cp) (s k : string) : result Z :=
  match lookup (running x) s k with Some v => to_int w v | None => type_error end.

(** An effect that needs an integer of the configuration. *)
Definition with_int (w : world) (x : cp) (s k : string) (f : Z -> list effect) : list effect * result (status * bool) :=
  match int_at w x s k with Ret z => (f z, Ret (Accepted, true)) | Throws e => ([], Throws e) end.

(** charge_point_impl.cpp 1877-1897: a new AuthorizationKey. The second component: is there still a response to send? *)
Definition new_key (w : world) (x : cp) (asked : bool) : list effect * result (status * bool) :=
  match lookup (running x) "Security" "AuthorizationKey" with
  | Some (JStr k) =>
      match int_at w x "Security" "SecurityProfile" with
      | Throws e => ([NewAuthorizationKey k], Throws e)
      | Ret p =>
          if p =? 0 then ([NewAuthorizationKey k], Ret (Accepted, true))
          else if (p =? 1) || (p =? 2) then
            (NewAuthorizationKey k :: (if asked then [Respond Accepted] else []) ++ [Reconnect], Ret (Accepted, false))
          else ([NewAuthorizationKey k], Ret (Accepted, true))
      end
  | _ => ([], type_error)
  end.

(** 1898-1937: SecurityProfile. Only std::invalid_argument is caught. *)
Definition new_profile (w : world) (x : cp) (text : string) (asked : bool) : list effect * result (status * bool) :=
  match stoi_ws text with
  | Throws e => if String.eqb e "invalid_argument" then ([], Ret (Rejected, true)) else ([], Throws e)
  | Ret p =>
      match int_at w x "Security" "SecurityProfile" with
      | Throws e => ([], Throws e)
      | Ret current =>
          let key := match lookup (running x) "Security" "AuthorizationKey" with Some _ => true | None => false end in
          if p <=? current then ([], Ret (Rejected, true))
          else if ((p =? 1) || (p =? 2)) && negb key then ([], Ret (Rejected, true))
          else if ((p =? 2) || (p =? 3)) && negb (ca_installed w) then ([], Ret (Rejected, true))
          else if (p =? 3) && negb (leaf_ok w) then ([], Ret (Rejected, true))
          else if 3 <? p then ([], Ret (Rejected, true))
          else ((if asked then [Respond Accepted] else []) ++ [SwitchProfile p; Disconnect], Ret (Accepted, false))
      end
  end.

(** 1866-1974: what follows an accepted change. *)
Definition react (w : world) (x : cp) (key text : string) (asked : bool) : list effect * result (status * bool) :=
  if ci_eq key "HeartbeatInterval" then with_int w x "Core" "HeartbeatInterval" (fun z => [HeartbeatEvery z])
  else if ci_eq key "MeterValueSampleInterval" then
    with_int w x "Core" "MeterValueSampleInterval" (fun z => [SampleEvery z])
  else if ci_eq key "ClockAlignedDataInterval" then
    with_int w x "Core" "ClockAlignedDataInterval" (fun z => if 0 <? z then [ClockEvery z] else [ClockStopped])
  else if ci_eq key "AuthorizationKey" then new_key w x asked
  else if ci_eq key "SecurityProfile" then new_profile w x text asked
  else if ci_eq key "ConnectionTimeout" then
    with_int w x "Core" "ConnectionTimeOut" (fun z => [ConnectionTimeOutIs z])
  else if ci_eq key "TransactionMessageAttempts" then
    with_int w x "Core" "TransactionMessageAttempts" (fun z => [AttemptsAre z])
  else if ci_eq key "TransactionMessageRetryInterval" then
    with_int w x "Core" "TransactionMessageRetryInterval" (fun z => [RetryEvery z])
  else if ci_eq key "WebSocketPingInterval" then
    match lookup (running x) "Core" "WebSocketPingInterval" with
    | None => ([], Ret (Accepted, true))
    | Some j =>
        match to_int w j with
        | Throws e => ([], Throws e)
        | Ret z => with_int w x "Internal" "WebsocketPongTimeout" (fun pong => [PingEvery z pong])
        end
    end
  else if ci_eq key "ISO15118CertificateManagementEnabled" then
    ([CertificateTimers (string_to_bool text)], Ret (Accepted, true))
  else if ci_eq key "OcspRequestInterval" then
    if supports x "PnC" then
      match lookup (running x) "PnC" "ISO15118CertificateManagementEnabled" with
      | Some (JBool true) => with_int w x "Internal" "OcspRequestInterval" (fun z => [OcspEvery z])
      | Some (JBool false) => ([], Ret (Accepted, true))
      | _ => ([], type_error)
      end
    else ([], Ret (Accepted, true))
  else if ci_eq key "NextTimeOffsetTransitionDateTime" then
    match lookup (running x) "CostAndPrice" "NextTimeOffsetTransitionDateTime" with
    | None => ([], Ret (Accepted, true))
    | Some (JStr t) =>
        match from_rfc3339 t with
        | Some d => (if d <? now w then [] else [OffsetAt t], Ret (Accepted, true))
        | None => ([], Throws "time")
        end
    | Some _ => ([], type_error)
    end
  else ([], Ret (Accepted, true)).

(** 1982-1992: the callbacks; the std::map of them is ordered by the case-sensitive operator<. *)
Definition notify (w : world) (s : status) (key text : string) : list effect :=
  match s with
  | Accepted =>
      if existsb (String.eqb key) (callbacks w) then [Changed key text]
      else if generic w then [ChangedAny key text] else []
  | _ => []
  end.

(** 1845-1994: set_configuration_key_internal; [asked] is uniqueId.has_value(). *)
Definition change (w : world) (x : cp) (key text : string) (asked : bool) : cp * list effect * result (status * bool) :=
  let finish x' (e : list effect) s (open : bool) := (x', e ++ notify w s key text, Ret (s, open)) in
  match get w x key with
  | Throws e => (x, [], Throws e)
  | Ret k =>
      if match k with Some _ => true | None => ci_eq key "AuthorizationKey" end then
        let go :=
          match set w x key text with
          | Throws e => (x, [], Throws e)
          | Ret (s, x') =>
              match s with
              | Some Accepted =>
                  match react w x' key text asked with
                  | (e, Throws why) => (x', e, Throws why)
                  | (e, Ret (s', open)) => finish x' e s' open
                  end
              | Some s' => finish x' [] s' true
              | None => finish x' [] Rejected true
              end
          end in
        if ci_ne key "AuthorizationKey" then
          match k with
          | Some v => if kv_readonly v then finish x [] Rejected true else go
          | None => (x, [], Throws "bad_optional_access")
          end
        else go
      else finish x [] NotSupported true
  end.

(** 1443-1482: what an exception of the handler is answered with. *)
Definition error_code (why : string) : string :=
  if String.eqb why "json" || String.eqb why "StringConversionException" then "FormationViolation" else "GenericError".

(** 2021-2030: handleChangeConfigurationRequest, with the exception handling around it. *)
Definition on_change (w : world) (x : cp) (key text : string) : cp * list effect :=
  match change w x key text true with
  | (x', e, Ret (s, true)) => (x', e ++ [Respond s])
  | (x', e, Ret (_, false)) => (x', e)
  | (x', e, Throws why) => (x', e ++ [RespondError (error_code why)])
  end.

(** 4959-4963: set_configuration_key, called by the charge point itself. *)
Definition set_configuration_key (w : world) (x : cp) (key text : string) : cp * list effect * result status :=
  match change w x key text false with
  | (x', e, Ret (s, _)) => (x', e, Ret s)
  | (x', e, Throws why) => (x', e, Throws why)
  end.

(** 2127-2133: handleGetConfigurationRequest, with the exception handling around it. *)
Definition on_get (w : world) (x : cp) (keys : option (list string)) : (list kv * list string) + string :=
  match get_configuration w x keys with Ret a => inl a | Throws why => inr (error_code why) end.
