(** What changing and reading the OCPP 1.6 configuration is supposed to do, said with the configuration schemas and
    without the model's functions. *)
From Coq Require Import ZArith List Bool String Ascii.
From Verif Require Import StrModel StrSpec JsonModel DtModel CfgSchemaLang CfgSchema CfgModel CfgApi.
Import ListNotations.
Local Open Scope string_scope.
Local Open Scope Z_scope.

(** The value of a key, if the section is an object and holds the key. *)
Definition held (c : list (string * json)) (s k : string) : option json :=
  match obj_get s c with Some (JObj l) => obj_get k l | _ => None end.

(** The schemas declare the key with this type. *)
Definition declared (s k : string) (t : schema) : Prop :=
  exists closed required props, In (s, SObject closed required props) sections /\ In (k, t) props.

(** The key can be written, by its schema. *)
Definition writable (s k : string) : Prop := In (s, k, true) catalogue.

Definition is_switch (t : schema) : Prop := t = SBool.
Definition is_number (t : schema) : Prop := exists lo hi, t = SInt lo hi \/ t = SNumber lo hi.
Definition bounds (t : schema) (z : Z) : Prop :=
  match t with SInt lo hi | SNumber lo hi => within lo hi z = true | _ => False end.

Definition blank (c : ascii) : Prop := In (nat_of_ascii c) [9; 10; 11; 12; 13; 32]%nat.
Definition ends_here (r : string) : Prop := forall c r', r = String c r' -> ~ is_digit c.

(** A text that begins with an integer literal, after white space. *)
Definition begins_with_number (text : string) (z : Z) : Prop :=
  exists b n r, text = (b ++ n ++ r)%string /\ Forall blank (chars b) /\ int_literal z n /\ ends_here r.

(** Two hexadecimal digits per character, in either case. *)
Definition hex_digit (n : nat) (c : ascii) : Prop :=
  nth_error (chars "0123456789abcdef") n = Some c \/ nth_error (chars "0123456789ABCDEF") n = Some c.
Inductive hex_spelling : string -> string -> Prop :=
| hex_nothing : hex_spelling "" ""
| hex_char m n a b text p :
    hex_digit m a -> hex_digit n b -> hex_spelling text p ->
    hex_spelling (String a (String b text)) (String (ascii_of_nat (16 * m + n)) p).

(** The key that a text stands for: a text in hexadecimal notation of printable characters stands for these, a text with
    any other character behind the second one stands for itself; nothing is said about other texts. *)
Definition secret (text p : string) : Prop :=
  (forall q, hex_spelling text q -> Forall printable (chars q) -> p = q) /\
  ((exists n c, (2 <= n)%nat /\ nth_error (chars text) n = Some c /\ forall m, ~ hex_digit m c) -> p = text).

Definition phases : string := "CompositeScheduleDefaultNumberPhases".

(** [means k t text j]: by the type the key is declared with, the text stands for this value. *)
Inductive means (k : string) : schema -> string -> json -> Prop :=
| means_true text : same_text text "true" -> means k SBool text (JBool true)
| means_false text : ~ same_text text "true" -> means k SBool text (JBool false)
| means_number t text z : is_number t -> k <> phases -> int_literal z text -> 0 <= z <= int_max -> bounds t z -> means k t text (JInt z)
| means_phases t text z : is_number t -> k = phases -> begins_with_number text z -> bounds t z -> means k t text (JInt z)
| means_text lo hi text : k <> "AuthorizationKey" -> means k (SText lo hi) text (JStr text)
| means_secret lo hi text p : k = "AuthorizationKey" -> 8 <= Z.of_nat (String.length text) -> secret text p ->
    means k (SText lo hi) text (JStr p)
| means_object c r p text j : parse text = Some j -> means k (SObject c r p) text j.

(** Exactly this key of this section got the value; every other section and key is as before. *)
Definition got (c c' : list (string * json)) (s k : string) (j : json) : Prop :=
  held c' s k = Some j /\
  (forall s' k', (s', k') <> (s, k) -> held c' s' k' = held c s' k') /\
  (forall s', s' <> s -> obj_get s' c' = obj_get s' c).

Definition changed (w : world) (x x' : cp) (s k : string) (j : json) : Prop :=
  got (running x) (running x') s k j /\
  (if disk_ok w then got (user x) (user x') s k j else user x' = user x) /\
  profiles x' = profiles x /\ measurands x' = measurands x.

(** ** Configurations as the library has them after starting *)

(** The form, without bounds. *)
Definition shape (t : schema) (j : json) : Prop :=
  match t with
  | SBool => exists b, j = JBool b
  | SInt _ _ => exists z, j = JInt z
  | SNumber _ _ => (exists z, j = JInt z) \/ exists f, j = JFloat f
  | SText _ _ => exists s, j = JStr s
  | SArray (SText _ _) => exists l, j = JArr (map JStr l)
  | _ => True
  end.

Definition price_shape (j : json) : Prop :=
  exists l t p, j = JObj l /\ obj_get "language" l = Some (JStr t) /\ obj_get "priceText" l = Some p.

(** Keys every configuration holds whose section is required or belongs to a supported feature profile. *)
Definition needed (s k : string) : Prop :=
  (exists closed required props, In (s, SObject closed required props) sections /\ In k required) \/ In (s, k) defaulted.

Definition proper (x : cp) : Prop :=
  (forall s j, obj_get s (running x) = Some j -> exists l, j = JObj l) /\
  (forall s k t j, declared s k t -> held (running x) s k = Some j -> shape t j) /\
  (forall s k, needed s k -> In s required_sections \/ In s (profiles x) \/ obj_get s (running x) <> None ->
    held (running x) s k <> None) /\
  (forall j, held (running x) "CostAndPrice" "DefaultPriceText" = Some j ->
    exists l, j = JObj l /\
      (obj_get "priceTexts" l = None \/ exists ps, obj_get "priceTexts" l = Some (JArr ps) /\ Forall price_shape ps)).

(** No key of the section Custom is spelled like a key of the schemas. *)
Definition no_shadow (x : cp) : Prop :=
  forall k j, held (running x) "Custom" k = Some j -> forall s k' b, In (s, k', b) catalogue -> ~ same_text k k'.

(** Keys with a setter of their own: not the texts of prices per language and not the keys of the section Custom. *)
Definition ordinary (x : cp) (key : string) : Prop :=
  ~ is_beginning "DefaultPriceText" key /\ held (running x) "Custom" key = None /\ ~ same_text key "SecurityProfile".

(** ** Values that are accepted *)

(** A text that lists the fields; a separator behind the last field is allowed. *)
Definition lists (c : ascii) (text : string) (l : list string) : Prop :=
  Forall (without c) l /\ (text = joined c l \/ l <> [] /\ text = (joined c l ++ String c "")%string).

Definition purpose (t : string) : Prop := In t ["ChargePointMaxProfile"; "TxDefaultProfile"; "TxProfile"].
Definition evse_id (t : string) : Prop := (7 <= String.length t <= 37)%nat.

(** Hours and minutes; anything may follow each number. *)
Definition time_offset (text : string) : Prop :=
  exists h m zh zm, lists ":" text [h; m] /\ begins_with_number h zh /\ begins_with_number m zm /\ -24 <= zh <= 24 /\ 0 <= zm <= 59.

(** No measurand, or a list of supported ones. *)
Definition supported_list (x : cp) (text : string) : Prop :=
  text = "" \/ exists l, l <> [] /\ Forall (without ",") l /\ text = joined "," l /\ Forall (fun m => In m (map fst (measurands x))) l.
Definition known_only (x : cp) : Prop := Forall (fun e => In e known_measurands) (measurands x).

(** A number in decimal notation, without a superfluous zero. *)
Definition decimal (n : Z) (t : string) : Prop := digits n t /\ (is_beginning "0" t -> t = "0").

(** The rotation of a connector: unknown or not applicable, or the phases; the character in between may be any. *)
Definition rotation_entry (connectors : Z) (e : string) : Prop :=
  (exists n t, n <= connectors /\ decimal n t /\ In e [(t ++ ".NotApplicable")%string; (t ++ ".Unknown")%string]) \/
  (exists d c r, (d <= 9)%nat /\ Z.of_nat d <= connectors /\ e = String (digit_char d) (String c r) /\
     In r ["RST"; "RTS"; "SRT"; "STR"; "TRS"; "TSR"]).
Inductive blank_free : string -> string -> Prop :=
| blank_free_end : blank_free "" ""
| blank_free_skip c text s : blank c -> blank_free text s -> blank_free (String c text) s
| blank_free_keep c text s : ~ blank c -> blank_free text s -> blank_free (String c text) (String c s).
Definition rotation_list (connectors : Z) (text : string) : Prop :=
  exists s l, blank_free text s /\ l <> [] /\ Forall (without ",") l /\ s = joined "," l /\ Forall (rotation_entry connectors) l.

(** Switches that take any text. *)
Definition lenient : list string :=
  ["AuthorizeRemoteTxRequests"; "CentralContractValidationAllowed"; "ContractValidationOffline"; "DisableSecurityEventNotifications";
   "ISO15118CertificateManagementEnabled"; "ISO15118PnCEnabled"; "AllowChargingProfileWithoutStartSchedule"; "CustomIdleFeeAfterStop"].
(** Writable keys without a setter. *)
Definition unsettable : list string := ["RetryBackoffRandomRange"; "RetryBackoffRepeatTimes"; "RetryBackoffWaitMinimum"].

(** ** Runs *)

(** Every key with a default value is there: the defaults of the schemas were merged before. *)
Definition complete (x : cp) : Prop :=
  forall s k, needed s k -> In s required_sections \/ In s (profiles x) \/ obj_get s (running x) <> None -> held (running x) s k <> None.

(** The states a charge point can be in after starting and any changes. *)
Inductive reached (custom_ok : list (string * json) -> bool) (number : option Z -> option Z -> string -> bool) : cp -> Prop :=
| reached_start c u x : start custom_ok number c u = Some x -> complete x -> no_shadow x -> reached custom_ok number x
| reached_change w x key text asked x' e r :
    reached custom_ok number x -> change w x key text asked = (x', e, r) -> reached custom_ok number x'.

(** How a value is shown. *)
Inductive shows : json -> string -> Prop :=
| shows_true : shows (JBool true) "true"
| shows_false : shows (JBool false) "false"
| shows_number z t : decimal z t -> shows (JInt z) t
| shows_text t : shows (JStr t) t.

(** ** Which texts are accepted *)

Definition bytes_within (lo hi : option Z) (text : string) : Prop :=
  (forall m, lo = Some m -> m <= Z.of_nat (String.length text)) /\ (forall m, hi = Some m -> Z.of_nat (String.length text) <= m).

Definition measurand_keys : list string := ["MeterValuesAlignedData"; "MeterValuesSampledData"; "StopTxnAlignedData"; "StopTxnSampledData"].
Definition offset_keys : list string := ["TimeOffset"; "TimeOffsetNextTransition"].
(** Texts with a form of their own. *)
Definition formed : list string :=
  (measurand_keys ++ offset_keys ++
  ["ConnectorPhaseRotation"; "IgnoredProfilePurposesOffline"; "ConnectorEvseIds"; "NextTimeOffsetTransitionDateTime"; "AuthorizationKey"])%list.

Definition acceptable (w : world) (x : cp) (k : string) (t : schema) (text : string) : Prop :=
  match t with
  | SBool => In k lenient \/ same_text text "true" \/ same_text text "false"
  | SInt _ _ | SNumber _ _ =>
      exists z, bounds t z /\ (k <> phases /\ int_literal z text /\ 0 <= z <= int_max \/ k = phases /\ begins_with_number text z)
  | SText lo hi =>
      (In k measurand_keys -> supported_list x text) /\
      (In k offset_keys -> time_offset text) /\
      (k = "ConnectorPhaseRotation" ->
         exists n, held (running x) "Core" "NumberOfConnectors" = Some (JInt n) /\ rotation_list n text) /\
      (k = "IgnoredProfilePurposesOffline" -> exists l, lists "," text l /\ Forall purpose l) /\
      (k = "ConnectorEvseIds" -> (String.length text <= 1000)%nat /\ exists l, lists "," text l /\ Forall evse_id l) /\
      (k = "NextTimeOffsetTransitionDateTime" -> exists d, from_rfc3339 text = Some d /\ now w < d) /\
      (~ In k formed -> bytes_within lo hi text)
  | _ => exists j, parse text = Some j
  end.

(** ** Answers *)

Definition answer (e : effect) : Prop := (exists s, e = Respond s) \/ exists code, e = RespondError code.
(** The request is answered with this status. *)
Definition answered_with (w : world) (x : cp) (key text : string) (s : status) : Prop :=
  exists x' e, on_change w x key text = (x', e) /\ In (Respond s) e.

(** Each requested key is answered, in order: with a value under its name or as unknown. *)
Inductive answered : list string -> list kv -> list string -> Prop :=
| answered_all : answered [] [] []
| answered_known k v keys known unknown : same_text k (kv_key v) -> answered keys known unknown -> answered (k :: keys) (v :: known) unknown
| answered_unknown k keys known unknown : answered keys known unknown -> answered (k :: keys) known (k :: unknown).

(** ** The security profile *)

(** The text asks for a higher profile, and what the profile needs is there: a key for basic authentication, the root
    certificate of the CSMS for TLS, a certificate of the charge point for its own authentication. *)
Definition allowed (w : world) (x : cp) (cur : Z) (text : string) (p : Z) : Prop :=
  begins_with_number text p /\ cur < p <= 3 /\
  (p <= 2 -> held (running x) "Security" "AuthorizationKey" <> None) /\ (2 <= p -> ca_installed w = true) /\ (p = 3 -> leaf_ok w = true).
