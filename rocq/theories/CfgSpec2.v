(** What an accepted change of the OCPP 1.6 configuration makes the charge point do. *)
From Coq Require Import ZArith List Bool String Ascii.
From Verif Require Import StrModel StrSpec JsonModel CfgSchemaLang CfgModel CfgApi CfgSpec.
Import ListNotations.
Local Open Scope string_scope.
Local Open Scope list_scope.
Local Open Scope Z_scope.

(** The keys whose value is handed to another part of the charge point, with their types. *)
Definition driving : list (string * string * schema) :=
  [("Core", "HeartbeatInterval", SInt None None); ("Core", "MeterValueSampleInterval", SInt None None);
   ("Core", "ClockAlignedDataInterval", SInt None None); ("Core", "ConnectionTimeOut", SInt None None);
   ("Core", "TransactionMessageAttempts", SInt None None); ("Core", "TransactionMessageRetryInterval", SInt None None);
   ("Core", "WebSocketPingInterval", SInt None None); ("PnC", "ISO15118CertificateManagementEnabled", SBool);
   ("Security", "AuthorizationKey", SText None None)].

(** The effect hands over this value of the key. *)
Inductive carries : string -> string -> json -> effect -> Prop :=
| carries_heartbeat z : carries "Core" "HeartbeatInterval" (JInt z) (HeartbeatEvery z)
| carries_sample z : carries "Core" "MeterValueSampleInterval" (JInt z) (SampleEvery z)
| carries_clock z : 0 < z -> carries "Core" "ClockAlignedDataInterval" (JInt z) (ClockEvery z)
| carries_no_clock z : z <= 0 -> carries "Core" "ClockAlignedDataInterval" (JInt z) ClockStopped
| carries_connection z : carries "Core" "ConnectionTimeOut" (JInt z) (ConnectionTimeOutIs z)
| carries_attempts z : carries "Core" "TransactionMessageAttempts" (JInt z) (AttemptsAre z)
| carries_retry z : carries "Core" "TransactionMessageRetryInterval" (JInt z) (RetryEvery z)
| carries_ping z pong : carries "Core" "WebSocketPingInterval" (JInt z) (PingEvery z pong)
| carries_certificates b : carries "PnC" "ISO15118CertificateManagementEnabled" (JBool b) (CertificateTimers b)
| carries_key t : carries "Security" "AuthorizationKey" (JStr t) (NewAuthorizationKey t).

(** This value was handed over last. *)
Definition in_force (s k : string) (e : list effect) (j : json) : Prop :=
  exists e1 f e2, e = e1 ++ f :: e2 /\ carries s k j f /\ forall f' j', In f' e2 -> ~ carries s k j' f'.

(** Changes of the configuration one after the other, by requests of the central system or by the user of the library,
    and everything they made the charge point do. *)
Inductive changes : cp -> list effect -> cp -> Prop :=
| no_changes x : changes x [] x
| one_more x e x1 w key text asked x2 e2 r :
    changes x e x1 -> change w x1 key text asked = (x2, e2, r) -> changes x (e ++ e2) x2.

(** ** Price texts per language *)

Definition named (language : string) (j : json) : Prop := exists o, j = JObj o /\ obj_get "language" o = Some (JStr language).
(** The first one of this language. *)
Definition first_named (language : string) (j : json) (l : list json) : Prop :=
  exists a b, l = a ++ j :: b /\ named language j /\ forall i, In i a -> ~ named language i.
Definition price_for (x : cp) (language : string) (j : json) : Prop :=
  exists d l, held (running x) "CostAndPrice" "DefaultPriceText" = Some (JObj d) /\ obj_get "priceTexts" d = Some (JArr l) /\ first_named language j l.
Definition text_key (language : string) : string := ("DefaultPriceText," ++ language)%string.
(** The members of the object and the language. *)
Definition tagged (language : string) (new o : list (string * json)) : Prop :=
  obj_get "language" o = Some (JStr language) /\ forall k, k <> "language" -> obj_get k o = obj_get k new.
(** The language is in the list of the supported languages; blanks around the names do not matter. *)
Definition supported_language (x : cp) (language : string) : Prop :=
  exists languages l, held (running x) "CostAndPrice" "SupportedLanguages" = Some (JStr languages) /\
    In l (split_string languages "," false) /\ trim_string l = trim_string language.
(** Price texts per language can be set at all. *)
Definition multilingual (x : cp) : Prop :=
  In "CostAndPrice" (profiles x) /\ held (running x) "CostAndPrice" "CustomMultiLanguageMessages" = Some (JBool true).

(** ** Keys of the section Custom *)

(** By the type the schema of the section Custom gives the key. *)
Definition custom_meaning (w : world) (type text : string) (j : json) : Prop :=
  (type = "integer" /\ exists z, begins_with_number text z /\ int_min <= z <= int_max /\ j = JInt z) \/
  (type = "number" /\ exists t, stof w text = Some t /\ j = JFloat t) \/
  ((type = "string" \/ type = "array") /\ j = JStr text) \/
  (type = "boolean" /\ ((same_text text "true" /\ j = JBool true) \/ (~ same_text text "true" /\ j = JBool false))).

(** ** The authorization key *)

(** The two charge points differ in nothing but the authorization key. *)
Definition same_but_key (x y : cp) : Prop :=
  profiles x = profiles y /\ measurands x = measurands y /\
  (exists l k1 k2, obj_get "Security" (running x) = Some (JObj (obj_set "AuthorizationKey" (JStr k1) l)) /\
     obj_get "Security" (running y) = Some (JObj (obj_set "AuthorizationKey" (JStr k2) l))) /\
  forall s, s <> "Security" -> obj_get s (running x) = obj_get s (running y).
