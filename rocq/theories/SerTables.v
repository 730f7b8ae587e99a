(** Written by tools/gen_messages.py from the sources. Per struct: the members of its declaration (name, optional, type),
    the statements of its to_json and those of its from_json, each in the order of the source. *)
From Coq Require Import String ZArith List.
From Verif Require Import EnumModel EnumTables SerModel.
Import ListNotations.
Local Open Scope string_scope.
Local Open Scope Z_scope.

(** IdTagInfo: include/ocpp/v16/ocpp_types.hpp 19-23, lib/ocpp/v16/ocpp_types.cpp 19-31 and 34-45. *)
Definition v16_IdTagInfo : ty := Struct
  [("status", false, Enm e_v16_authorization_status);
   ("expiryDate", true, Time);
   ("parentIdTag", true, Str (Some 20))]
  [WReq "status" "status" (Conv e_v16_authorization_status);
   WOpt "expiryDate" "expiryDate" "expiryDate" (Text);
   WOpt "parentIdTag" "parentIdTag" "parentIdTag" (Plain)]
  [RReq "status" "status" (Conv e_v16_authorization_status);
   ROpt "expiryDate" "expiryDate" "expiryDate" (Text);
   ROpt "parentIdTag" "parentIdTag" "parentIdTag" (Plain)].

(** CertificateHashDataType: include/ocpp/v16/ocpp_types.hpp 34-39, lib/ocpp/v16/ocpp_types.cpp 55-64 and 67-75. *)
Definition v16_CertificateHashDataType : ty := Struct
  [("hashAlgorithm", false, Enm e_v16_hash_algorithm_enum_type);
   ("issuerNameHash", false, Str (Some 128));
   ("issuerKeyHash", false, Str (Some 128));
   ("serialNumber", false, Str (Some 40))]
  [WReq "hashAlgorithm" "hashAlgorithm" (Conv e_v16_hash_algorithm_enum_type);
   WReq "issuerNameHash" "issuerNameHash" (Plain);
   WReq "issuerKeyHash" "issuerKeyHash" (Plain);
   WReq "serialNumber" "serialNumber" (Plain)]
  [RReq "hashAlgorithm" "hashAlgorithm" (Conv e_v16_hash_algorithm_enum_type);
   RReq "issuerNameHash" "issuerNameHash" (Plain);
   RReq "issuerKeyHash" "issuerKeyHash" (Plain);
   RReq "serialNumber" "serialNumber" (Plain)].

(** ChargingSchedulePeriod: include/ocpp/v16/ocpp_types.hpp 50-54, lib/ocpp/v16/ocpp_types.cpp 85-95 and 98-107. *)
Definition v16_ChargingSchedulePeriod : ty := Struct
  [("startPeriod", false, Int);
   ("limit", false, Float);
   ("numberPhases", true, Int)]
  [WReq "startPeriod" "startPeriod" (Plain);
   WReq "limit" "limit" (Plain);
   WOpt "numberPhases" "numberPhases" "numberPhases" (Plain)]
  [RReq "startPeriod" "startPeriod" (Plain);
   RReq "limit" "limit" (Plain);
   ROpt "numberPhases" "numberPhases" "numberPhases" (Plain)].

(** ChargingSchedule: include/ocpp/v16/ocpp_types.hpp 65-71, lib/ocpp/v16/ocpp_types.cpp 117-133 and 136-153. *)
Definition v16_ChargingSchedule : ty := Struct
  [("chargingRateUnit", false, Enm e_v16_charging_rate_unit);
   ("chargingSchedulePeriod", false, Vec (v16_ChargingSchedulePeriod));
   ("duration", true, Int);
   ("startSchedule", true, Time);
   ("minChargingRate", true, Float)]
  [WReq "chargingRateUnit" "chargingRateUnit" (Conv e_v16_charging_rate_unit);
   WReq "chargingSchedulePeriod" "chargingSchedulePeriod" (Plain);
   WOpt "duration" "duration" "duration" (Plain);
   WOpt "startSchedule" "startSchedule" "startSchedule" (Text);
   WOpt "minChargingRate" "minChargingRate" "minChargingRate" (Plain)]
  [RReq "chargingRateUnit" "chargingRateUnit" (Conv e_v16_charging_rate_unit);
   RReq "chargingSchedulePeriod" "chargingSchedulePeriod" Each;
   ROpt "duration" "duration" "duration" (Plain);
   ROpt "startSchedule" "startSchedule" "startSchedule" (Text);
   ROpt "minChargingRate" "minChargingRate" "minChargingRate" (Plain)].

(** KeyValue: include/ocpp/v16/ocpp_types.hpp 82-86, lib/ocpp/v16/ocpp_types.cpp 163-173 and 176-185. *)
Definition v16_KeyValue : ty := Struct
  [("key", false, Str (Some 50));
   ("readonly", false, Flag);
   ("value", true, Str (Some 500))]
  [WReq "key" "key" (Plain);
   WReq "readonly" "readonly" (Plain);
   WOpt "value" "value" "value" (Plain)]
  [RReq "key" "key" (Plain);
   RReq "readonly" "readonly" (Plain);
   ROpt "value" "value" "value" (Plain)].

(** LogParametersType: include/ocpp/v16/ocpp_types.hpp 97-101, lib/ocpp/v16/ocpp_types.cpp 195-207 and 210-221. *)
Definition v16_LogParametersType : ty := Struct
  [("remoteLocation", false, Str (Some 512));
   ("oldestTimestamp", true, Time);
   ("latestTimestamp", true, Time)]
  [WReq "remoteLocation" "remoteLocation" (Plain);
   WOpt "oldestTimestamp" "oldestTimestamp" "oldestTimestamp" (Text);
   WOpt "latestTimestamp" "latestTimestamp" "latestTimestamp" (Text)]
  [RReq "remoteLocation" "remoteLocation" (Plain);
   ROpt "oldestTimestamp" "oldestTimestamp" "oldestTimestamp" (Text);
   ROpt "latestTimestamp" "latestTimestamp" "latestTimestamp" (Text)].

(** SampledValue: include/ocpp/v16/ocpp_types.hpp 112-120, lib/ocpp/v16/ocpp_types.cpp 231-255 and 258-281. *)
Definition v16_SampledValue : ty := Struct
  [("value", false, Str None);
   ("context", true, Enm e_v16_reading_context);
   ("format", true, Enm e_v16_value_format);
   ("measurand", true, Enm e_v16_measurand);
   ("phase", true, Enm e_v16_phase);
   ("location", true, Enm e_v16_location);
   ("unit", true, Enm e_v16_unit_of_measure)]
  [WReq "value" "value" (Plain);
   WOpt "context" "context" "context" (Conv e_v16_reading_context);
   WOpt "format" "format" "format" (Conv e_v16_value_format);
   WOpt "measurand" "measurand" "measurand" (Conv e_v16_measurand);
   WOpt "phase" "phase" "phase" (Conv e_v16_phase);
   WOpt "location" "location" "location" (Conv e_v16_location);
   WOpt "unit" "unit" "unit" (Conv e_v16_unit_of_measure)]
  [RReq "value" "value" (Plain);
   ROpt "context" "context" "context" (Conv e_v16_reading_context);
   ROpt "format" "format" "format" (Conv e_v16_value_format);
   ROpt "measurand" "measurand" "measurand" (Conv e_v16_measurand);
   ROpt "phase" "phase" "phase" (Conv e_v16_phase);
   ROpt "location" "location" "location" (Conv e_v16_location);
   ROpt "unit" "unit" "unit" (Conv e_v16_unit_of_measure)].

(** MeterValue: include/ocpp/v16/ocpp_types.hpp 131-134, lib/ocpp/v16/ocpp_types.cpp 291-298 and 301-309. *)
Definition v16_MeterValue : ty := Struct
  [("timestamp", false, Time);
   ("sampledValue", false, Vec (v16_SampledValue))]
  [WReq "timestamp" "timestamp" (Text);
   WReq "sampledValue" "sampledValue" (Plain)]
  [RReq "timestamp" "timestamp" (Text);
   RReq "sampledValue" "sampledValue" Each].

(** ChargingProfile: include/ocpp/v16/ocpp_types.hpp 145-155, lib/ocpp/v16/ocpp_types.cpp 319-341 and 344-365. *)
Definition v16_ChargingProfile : ty := Struct
  [("chargingProfileId", false, Int);
   ("stackLevel", false, Int);
   ("chargingProfilePurpose", false, Enm e_v16_charging_profile_purpose_type);
   ("chargingProfileKind", false, Enm e_v16_charging_profile_kind_type);
   ("chargingSchedule", false, v16_ChargingSchedule);
   ("transactionId", true, Int);
   ("recurrencyKind", true, Enm e_v16_recurrency_kind_type);
   ("validFrom", true, Time);
   ("validTo", true, Time)]
  [WReq "chargingProfileId" "chargingProfileId" (Plain);
   WReq "stackLevel" "stackLevel" (Plain);
   WReq "chargingProfilePurpose" "chargingProfilePurpose" (Conv e_v16_charging_profile_purpose_type);
   WReq "chargingProfileKind" "chargingProfileKind" (Conv e_v16_charging_profile_kind_type);
   WReq "chargingSchedule" "chargingSchedule" (Plain);
   WOpt "transactionId" "transactionId" "transactionId" (Plain);
   WOpt "recurrencyKind" "recurrencyKind" "recurrencyKind" (Conv e_v16_recurrency_kind_type);
   WOpt "validFrom" "validFrom" "validFrom" (Text);
   WOpt "validTo" "validTo" "validTo" (Text)]
  [RReq "chargingProfileId" "chargingProfileId" (Plain);
   RReq "stackLevel" "stackLevel" (Plain);
   RReq "chargingProfilePurpose" "chargingProfilePurpose" (Conv e_v16_charging_profile_purpose_type);
   RReq "chargingProfileKind" "chargingProfileKind" (Conv e_v16_charging_profile_kind_type);
   RReq "chargingSchedule" "chargingSchedule" (Plain);
   ROpt "transactionId" "transactionId" "transactionId" (Plain);
   ROpt "recurrencyKind" "recurrencyKind" "recurrencyKind" (Conv e_v16_recurrency_kind_type);
   ROpt "validFrom" "validFrom" "validFrom" (Text);
   ROpt "validTo" "validTo" "validTo" (Text)].

(** LocalAuthorizationList: include/ocpp/v16/ocpp_types.hpp 166-169, lib/ocpp/v16/ocpp_types.cpp 375-384 and 387-395. *)
Definition v16_LocalAuthorizationList : ty := Struct
  [("idTag", false, Str (Some 20));
   ("idTagInfo", true, v16_IdTagInfo)]
  [WReq "idTag" "idTag" (Plain);
   WOpt "idTagInfo" "idTagInfo" "idTagInfo" (Plain)]
  [RReq "idTag" "idTag" (Plain);
   ROpt "idTagInfo" "idTagInfo" "idTagInfo" (Plain)].

(** FirmwareType: include/ocpp/v16/ocpp_types.hpp 180-186, lib/ocpp/v16/ocpp_types.cpp 405-417 and 420-431. *)
Definition v16_FirmwareType : ty := Struct
  [("location", false, Str (Some 512));
   ("retrieveDateTime", false, Time);
   ("signingCertificate", false, Str (Some 5500));
   ("signature", false, Str (Some 800));
   ("installDateTime", true, Time)]
  [WReq "location" "location" (Plain);
   WReq "retrieveDateTime" "retrieveDateTime" (Text);
   WReq "signingCertificate" "signingCertificate" (Plain);
   WReq "signature" "signature" (Plain);
   WOpt "installDateTime" "installDateTime" "installDateTime" (Text)]
  [RReq "location" "location" (Plain);
   RReq "retrieveDateTime" "retrieveDateTime" (Text);
   RReq "signingCertificate" "signingCertificate" (Plain);
   RReq "signature" "signature" (Plain);
   ROpt "installDateTime" "installDateTime" "installDateTime" (Text)].

(** TransactionData: include/ocpp/v16/ocpp_types.hpp 197-200, lib/ocpp/v16/ocpp_types.cpp 441-448 and 451-459. *)
Definition v16_TransactionData : ty := Struct
  [("timestamp", false, Time);
   ("sampledValue", false, Vec (v16_SampledValue))]
  [WReq "timestamp" "timestamp" (Text);
   WReq "sampledValue" "sampledValue" (Plain)]
  [RReq "timestamp" "timestamp" (Text);
   RReq "sampledValue" "sampledValue" Each].

(** AuthorizeRequest: include/ocpp/v16/messages/Authorize.hpp 19-25, lib/ocpp/v16/messages/Authorize.cpp 20-26 and 28-33. *)
Definition v16_AuthorizeRequest : ty := Struct
  [("idTag", false, Str (Some 20))]
  [WReq "idTag" "idTag" (Plain)]
  [RReq "idTag" "idTag" (Plain)].

(** AuthorizeResponse: include/ocpp/v16/messages/Authorize.hpp 38-44, lib/ocpp/v16/messages/Authorize.cpp 46-52 and 54-59. *)
Definition v16_AuthorizeResponse : ty := Struct
  [("idTagInfo", false, v16_IdTagInfo)]
  [WReq "idTagInfo" "idTagInfo" (Plain)]
  [RReq "idTagInfo" "idTagInfo" (Plain)].

(** BootNotificationRequest: include/ocpp/v16/messages/BootNotification.hpp 19-33, lib/ocpp/v16/messages/BootNotification.cpp 20-48 and 50-77. *)
Definition v16_BootNotificationRequest : ty := Struct
  [("chargePointVendor", false, Str (Some 20));
   ("chargePointModel", false, Str (Some 20));
   ("chargePointSerialNumber", true, Str (Some 25));
   ("chargeBoxSerialNumber", true, Str (Some 25));
   ("firmwareVersion", true, Str (Some 50));
   ("iccid", true, Str (Some 20));
   ("imsi", true, Str (Some 20));
   ("meterType", true, Str (Some 25));
   ("meterSerialNumber", true, Str (Some 25))]
  [WReq "chargePointVendor" "chargePointVendor" (Plain);
   WReq "chargePointModel" "chargePointModel" (Plain);
   WOpt "chargePointSerialNumber" "chargePointSerialNumber" "chargePointSerialNumber" (Plain);
   WOpt "chargeBoxSerialNumber" "chargeBoxSerialNumber" "chargeBoxSerialNumber" (Plain);
   WOpt "firmwareVersion" "firmwareVersion" "firmwareVersion" (Plain);
   WOpt "iccid" "iccid" "iccid" (Plain);
   WOpt "imsi" "imsi" "imsi" (Plain);
   WOpt "meterType" "meterType" "meterType" (Plain);
   WOpt "meterSerialNumber" "meterSerialNumber" "meterSerialNumber" (Plain)]
  [RReq "chargePointVendor" "chargePointVendor" (Plain);
   RReq "chargePointModel" "chargePointModel" (Plain);
   ROpt "chargePointSerialNumber" "chargePointSerialNumber" "chargePointSerialNumber" (Plain);
   ROpt "chargeBoxSerialNumber" "chargeBoxSerialNumber" "chargeBoxSerialNumber" (Plain);
   ROpt "firmwareVersion" "firmwareVersion" "firmwareVersion" (Plain);
   ROpt "iccid" "iccid" "iccid" (Plain);
   ROpt "imsi" "imsi" "imsi" (Plain);
   ROpt "meterType" "meterType" "meterType" (Plain);
   ROpt "meterSerialNumber" "meterSerialNumber" "meterSerialNumber" (Plain)].

(** BootNotificationResponse: include/ocpp/v16/messages/BootNotification.hpp 46-54, lib/ocpp/v16/messages/BootNotification.cpp 90-98 and 100-107. *)
Definition v16_BootNotificationResponse : ty := Struct
  [("status", false, Enm e_v16_registration_status);
   ("currentTime", false, Time);
   ("interval", false, Int)]
  [WReq "status" "status" (Conv e_v16_registration_status);
   WReq "currentTime" "currentTime" (Text);
   WReq "interval" "interval" (Plain)]
  [RReq "status" "status" (Conv e_v16_registration_status);
   RReq "currentTime" "currentTime" (Text);
   RReq "interval" "interval" (Plain)].

(** CancelReservationRequest: include/ocpp/v16/messages/CancelReservation.hpp 17-23, lib/ocpp/v16/messages/CancelReservation.cpp 19-25 and 27-32. *)
Definition v16_CancelReservationRequest : ty := Struct
  [("reservationId", false, Int)]
  [WReq "reservationId" "reservationId" (Plain)]
  [RReq "reservationId" "reservationId" (Plain)].

(** CancelReservationResponse: include/ocpp/v16/messages/CancelReservation.hpp 36-42, lib/ocpp/v16/messages/CancelReservation.cpp 45-51 and 53-58. *)
Definition v16_CancelReservationResponse : ty := Struct
  [("status", false, Enm e_v16_cancel_reservation_status)]
  [WReq "status" "status" (Conv e_v16_cancel_reservation_status)]
  [RReq "status" "status" (Conv e_v16_cancel_reservation_status)].

(** CertificateSignedRequest: include/ocpp/v16/messages/CertificateSigned.hpp 17-23, lib/ocpp/v16/messages/CertificateSigned.cpp 19-25 and 27-32. *)
Definition v16_CertificateSignedRequest : ty := Struct
  [("certificateChain", false, Str (Some 10000))]
  [WReq "certificateChain" "certificateChain" (Plain)]
  [RReq "certificateChain" "certificateChain" (Plain)].

(** CertificateSignedResponse: include/ocpp/v16/messages/CertificateSigned.hpp 36-42, lib/ocpp/v16/messages/CertificateSigned.cpp 45-51 and 53-58. *)
Definition v16_CertificateSignedResponse : ty := Struct
  [("status", false, Enm e_v16_certificate_signed_status_enum_type)]
  [WReq "status" "status" (Conv e_v16_certificate_signed_status_enum_type)]
  [RReq "status" "status" (Conv e_v16_certificate_signed_status_enum_type)].

(** ChangeAvailabilityRequest: include/ocpp/v16/messages/ChangeAvailability.hpp 17-24, lib/ocpp/v16/messages/ChangeAvailability.cpp 19-26 and 28-34. *)
Definition v16_ChangeAvailabilityRequest : ty := Struct
  [("connectorId", false, Int);
   ("type", false, Enm e_v16_availability_type)]
  [WReq "connectorId" "connectorId" (Plain);
   WReq "type" "type" (Conv e_v16_availability_type)]
  [RReq "connectorId" "connectorId" (Plain);
   RReq "type" "type" (Conv e_v16_availability_type)].

(** ChangeAvailabilityResponse: include/ocpp/v16/messages/ChangeAvailability.hpp 37-43, lib/ocpp/v16/messages/ChangeAvailability.cpp 47-53 and 55-60. *)
Definition v16_ChangeAvailabilityResponse : ty := Struct
  [("status", false, Enm e_v16_availability_status)]
  [WReq "status" "status" (Conv e_v16_availability_status)]
  [RReq "status" "status" (Conv e_v16_availability_status)].

(** ChangeConfigurationRequest: include/ocpp/v16/messages/ChangeConfiguration.hpp 18-25, lib/ocpp/v16/messages/ChangeConfiguration.cpp 19-26 and 28-34. *)
Definition v16_ChangeConfigurationRequest : ty := Struct
  [("key", false, Str (Some 50));
   ("value", false, Str (Some 500))]
  [WReq "key" "key" (Plain);
   WReq "value" "value" (Plain)]
  [RReq "key" "key" (Plain);
   RReq "value" "value" (Plain)].

(** ChangeConfigurationResponse: include/ocpp/v16/messages/ChangeConfiguration.hpp 39-45, lib/ocpp/v16/messages/ChangeConfiguration.cpp 48-54 and 56-61. *)
Definition v16_ChangeConfigurationResponse : ty := Struct
  [("status", false, Enm e_v16_configuration_status)]
  [WReq "status" "status" (Conv e_v16_configuration_status)]
  [RReq "status" "status" (Conv e_v16_configuration_status)].

(** ClearCacheRequest: include/ocpp/v16/messages/ClearCache.hpp 17-22, lib/ocpp/v16/messages/ClearCache.cpp 19-24 and 26-33. *)
Definition v16_ClearCacheRequest : ty := Struct
  []
  []
  [].

(** ClearCacheResponse: include/ocpp/v16/messages/ClearCache.hpp 35-41, lib/ocpp/v16/messages/ClearCache.cpp 46-52 and 54-59. *)
Definition v16_ClearCacheResponse : ty := Struct
  [("status", false, Enm e_v16_clear_cache_status)]
  [WReq "status" "status" (Conv e_v16_clear_cache_status)]
  [RReq "status" "status" (Conv e_v16_clear_cache_status)].

(** ClearChargingProfileRequest: include/ocpp/v16/messages/ClearChargingProfile.hpp 18-27, lib/ocpp/v16/messages/ClearChargingProfile.cpp 20-37 and 39-56. *)
Definition v16_ClearChargingProfileRequest : ty := Struct
  [("id", true, Int);
   ("connectorId", true, Int);
   ("chargingProfilePurpose", true, Enm e_v16_charging_profile_purpose_type);
   ("stackLevel", true, Int)]
  [WOpt "id" "id" "id" (Plain);
   WOpt "connectorId" "connectorId" "connectorId" (Plain);
   WOpt "chargingProfilePurpose" "chargingProfilePurpose" "chargingProfilePurpose" (Conv e_v16_charging_profile_purpose_type);
   WOpt "stackLevel" "stackLevel" "stackLevel" (Plain)]
  [ROpt "id" "id" "id" (Plain);
   ROpt "connectorId" "connectorId" "connectorId" (Plain);
   ROpt "chargingProfilePurpose" "chargingProfilePurpose" "chargingProfilePurpose" (Conv e_v16_charging_profile_purpose_type);
   ROpt "stackLevel" "stackLevel" "stackLevel" (Plain)].

(** ClearChargingProfileResponse: include/ocpp/v16/messages/ClearChargingProfile.hpp 41-47, lib/ocpp/v16/messages/ClearChargingProfile.cpp 70-76 and 78-83. *)
Definition v16_ClearChargingProfileResponse : ty := Struct
  [("status", false, Enm e_v16_clear_charging_profile_status)]
  [WReq "status" "status" (Conv e_v16_clear_charging_profile_status)]
  [RReq "status" "status" (Conv e_v16_clear_charging_profile_status)].

(** DataTransferRequest: include/ocpp/v16/messages/DataTransfer.hpp 19-27, lib/ocpp/v16/messages/DataTransfer.cpp 20-32 and 34-45. *)
Definition v16_DataTransferRequest : ty := Struct
  [("vendorId", false, Str (Some 255));
   ("messageId", true, Str (Some 50));
   ("data", true, Str None)]
  [WReq "vendorId" "vendorId" (Plain);
   WOpt "messageId" "messageId" "messageId" (Plain);
   WOpt "data" "data" "data" (Plain)]
  [RReq "vendorId" "vendorId" (Plain);
   ROpt "messageId" "messageId" "messageId" (Plain);
   ROpt "data" "data" "data" (Plain)].

(** DataTransferResponse: include/ocpp/v16/messages/DataTransfer.hpp 40-47, lib/ocpp/v16/messages/DataTransfer.cpp 58-67 and 69-77. *)
Definition v16_DataTransferResponse : ty := Struct
  [("status", false, Enm e_v16_data_transfer_status);
   ("data", true, Str None)]
  [WReq "status" "status" (Conv e_v16_data_transfer_status);
   WOpt "data" "data" "data" (Plain)]
  [RReq "status" "status" (Conv e_v16_data_transfer_status);
   ROpt "data" "data" "data" (Plain)].

(** DeleteCertificateRequest: include/ocpp/v16/messages/DeleteCertificate.hpp 17-23, lib/ocpp/v16/messages/DeleteCertificate.cpp 19-25 and 27-32. *)
Definition v16_DeleteCertificateRequest : ty := Struct
  [("certificateHashData", false, v16_CertificateHashDataType)]
  [WReq "certificateHashData" "certificateHashData" (Plain)]
  [RReq "certificateHashData" "certificateHashData" (Plain)].

(** DeleteCertificateResponse: include/ocpp/v16/messages/DeleteCertificate.hpp 36-42, lib/ocpp/v16/messages/DeleteCertificate.cpp 45-51 and 53-58. *)
Definition v16_DeleteCertificateResponse : ty := Struct
  [("status", false, Enm e_v16_delete_certificate_status_enum_type)]
  [WReq "status" "status" (Conv e_v16_delete_certificate_status_enum_type)]
  [RReq "status" "status" (Conv e_v16_delete_certificate_status_enum_type)].

(** DiagnosticsStatusNotificationRequest: include/ocpp/v16/messages/DiagnosticsStatusNotification.hpp 17-23, lib/ocpp/v16/messages/DiagnosticsStatusNotification.cpp 19-25 and 27-32. *)
Definition v16_DiagnosticsStatusNotificationRequest : ty := Struct
  [("status", false, Enm e_v16_diagnostics_status)]
  [WReq "status" "status" (Conv e_v16_diagnostics_status)]
  [RReq "status" "status" (Conv e_v16_diagnostics_status)].

(** DiagnosticsStatusNotificationResponse: include/ocpp/v16/messages/DiagnosticsStatusNotification.hpp 37-42, lib/ocpp/v16/messages/DiagnosticsStatusNotification.cpp 46-51 and 53-60. *)
Definition v16_DiagnosticsStatusNotificationResponse : ty := Struct
  []
  []
  [].

(** ExtendedTriggerMessageRequest: include/ocpp/v16/messages/ExtendedTriggerMessage.hpp 18-25, lib/ocpp/v16/messages/ExtendedTriggerMessage.cpp 20-29 and 31-39. *)
Definition v16_ExtendedTriggerMessageRequest : ty := Struct
  [("requestedMessage", false, Enm e_v16_message_trigger_enum_type);
   ("connectorId", true, Int)]
  [WReq "requestedMessage" "requestedMessage" (Conv e_v16_message_trigger_enum_type);
   WOpt "connectorId" "connectorId" "connectorId" (Plain)]
  [RReq "requestedMessage" "requestedMessage" (Conv e_v16_message_trigger_enum_type);
   ROpt "connectorId" "connectorId" "connectorId" (Plain)].

(** ExtendedTriggerMessageResponse: include/ocpp/v16/messages/ExtendedTriggerMessage.hpp 39-45, lib/ocpp/v16/messages/ExtendedTriggerMessage.cpp 53-59 and 61-66. *)
Definition v16_ExtendedTriggerMessageResponse : ty := Struct
  [("status", false, Enm e_v16_trigger_message_status_enum_type)]
  [WReq "status" "status" (Conv e_v16_trigger_message_status_enum_type)]
  [RReq "status" "status" (Conv e_v16_trigger_message_status_enum_type)].

(** FirmwareStatusNotificationRequest: include/ocpp/v16/messages/FirmwareStatusNotification.hpp 17-23, lib/ocpp/v16/messages/FirmwareStatusNotification.cpp 19-25 and 27-32. *)
Definition v16_FirmwareStatusNotificationRequest : ty := Struct
  [("status", false, Enm e_v16_firmware_status)]
  [WReq "status" "status" (Conv e_v16_firmware_status)]
  [RReq "status" "status" (Conv e_v16_firmware_status)].

(** FirmwareStatusNotificationResponse: include/ocpp/v16/messages/FirmwareStatusNotification.hpp 37-42, lib/ocpp/v16/messages/FirmwareStatusNotification.cpp 46-51 and 53-60. *)
Definition v16_FirmwareStatusNotificationResponse : ty := Struct
  []
  []
  [].

(** GetCompositeScheduleRequest: include/ocpp/v16/messages/GetCompositeSchedule.hpp 18-26, lib/ocpp/v16/messages/GetCompositeSchedule.cpp 20-30 and 32-41. *)
Definition v16_GetCompositeScheduleRequest : ty := Struct
  [("connectorId", false, Int);
   ("duration", false, Int);
   ("chargingRateUnit", true, Enm e_v16_charging_rate_unit)]
  [WReq "connectorId" "connectorId" (Plain);
   WReq "duration" "duration" (Plain);
   WOpt "chargingRateUnit" "chargingRateUnit" "chargingRateUnit" (Conv e_v16_charging_rate_unit)]
  [RReq "connectorId" "connectorId" (Plain);
   RReq "duration" "duration" (Plain);
   ROpt "chargingRateUnit" "chargingRateUnit" "chargingRateUnit" (Conv e_v16_charging_rate_unit)].

(** GetCompositeScheduleResponse: include/ocpp/v16/messages/GetCompositeSchedule.hpp 40-49, lib/ocpp/v16/messages/GetCompositeSchedule.cpp 55-70 and 72-86. *)
Definition v16_GetCompositeScheduleResponse : ty := Struct
  [("status", false, Enm e_v16_get_composite_schedule_status);
   ("connectorId", true, Int);
   ("scheduleStart", true, Time);
   ("chargingSchedule", true, v16_ChargingSchedule)]
  [WReq "status" "status" (Conv e_v16_get_composite_schedule_status);
   WOpt "connectorId" "connectorId" "connectorId" (Plain);
   WOpt "scheduleStart" "scheduleStart" "scheduleStart" (Text);
   WOpt "chargingSchedule" "chargingSchedule" "chargingSchedule" (Plain)]
  [RReq "status" "status" (Conv e_v16_get_composite_schedule_status);
   ROpt "connectorId" "connectorId" "connectorId" (Plain);
   ROpt "scheduleStart" "scheduleStart" "scheduleStart" (Text);
   ROpt "chargingSchedule" "chargingSchedule" "chargingSchedule" (Plain)].

(** GetConfigurationRequest: include/ocpp/v16/messages/GetConfiguration.hpp 18-24, lib/ocpp/v16/messages/GetConfiguration.cpp 20-34 and 36-48. *)
Definition v16_GetConfigurationRequest : ty := Struct
  [("key", true, Vec (Str (Some 50)))]
  [WOpt "key" "key" "key" (Each)]
  [ROpt "key" "key" "key" (Each)].

(** GetConfigurationResponse: include/ocpp/v16/messages/GetConfiguration.hpp 37-44, lib/ocpp/v16/messages/GetConfiguration.cpp 61-85 and 87-107. *)
Definition v16_GetConfigurationResponse : ty := Struct
  [("configurationKey", true, Vec (v16_KeyValue));
   ("unknownKey", true, Vec (Str (Some 50)))]
  [WOpt "configurationKey" "configurationKey" "configurationKey" (Each);
   WOpt "unknownKey" "unknownKey" "unknownKey" (Each)]
  [ROpt "configurationKey" "configurationKey" "configurationKey" (Each);
   ROpt "unknownKey" "unknownKey" "unknownKey" (Each)].

(** GetDiagnosticsRequest: include/ocpp/v16/messages/GetDiagnostics.hpp 18-28, lib/ocpp/v16/messages/GetDiagnostics.cpp 20-38 and 40-57. *)
Definition v16_GetDiagnosticsRequest : ty := Struct
  [("location", false, Str None);
   ("retries", true, Int);
   ("retryInterval", true, Int);
   ("startTime", true, Time);
   ("stopTime", true, Time)]
  [WReq "location" "location" (Plain);
   WOpt "retries" "retries" "retries" (Plain);
   WOpt "retryInterval" "retryInterval" "retryInterval" (Plain);
   WOpt "startTime" "startTime" "startTime" (Text);
   WOpt "stopTime" "stopTime" "stopTime" (Text)]
  [RReq "location" "location" (Plain);
   ROpt "retries" "retries" "retries" (Plain);
   ROpt "retryInterval" "retryInterval" "retryInterval" (Plain);
   ROpt "startTime" "startTime" "startTime" (Text);
   ROpt "stopTime" "stopTime" "stopTime" (Text)].

(** GetDiagnosticsResponse: include/ocpp/v16/messages/GetDiagnostics.hpp 41-47, lib/ocpp/v16/messages/GetDiagnostics.cpp 70-77 and 79-86. *)
Definition v16_GetDiagnosticsResponse : ty := Struct
  [("fileName", true, Str (Some 255))]
  [WOpt "fileName" "fileName" "fileName" (Plain)]
  [ROpt "fileName" "fileName" "fileName" (Plain)].

(** GetInstalledCertificateIdsRequest: include/ocpp/v16/messages/GetInstalledCertificateIds.hpp 18-24, lib/ocpp/v16/messages/GetInstalledCertificateIds.cpp 20-26 and 28-33. *)
Definition v16_GetInstalledCertificateIdsRequest : ty := Struct
  [("certificateType", false, Enm e_v16_certificate_use_enum_type)]
  [WReq "certificateType" "certificateType" (Conv e_v16_certificate_use_enum_type)]
  [RReq "certificateType" "certificateType" (Conv e_v16_certificate_use_enum_type)].

(** GetInstalledCertificateIdsResponse: include/ocpp/v16/messages/GetInstalledCertificateIds.hpp 38-45, lib/ocpp/v16/messages/GetInstalledCertificateIds.cpp 47-59 and 61-74. *)
Definition v16_GetInstalledCertificateIdsResponse : ty := Struct
  [("status", false, Enm e_v16_get_installed_certificate_status_enum_type);
   ("certificateHashData", true, Vec (v16_CertificateHashDataType))]
  [WReq "status" "status" (Conv e_v16_get_installed_certificate_status_enum_type);
   WOpt "certificateHashData" "certificateHashData" "certificateHashData" (Each)]
  [RReq "status" "status" (Conv e_v16_get_installed_certificate_status_enum_type);
   ROpt "certificateHashData" "certificateHashData" "certificateHashData" (Each)].

(** GetLocalListVersionRequest: include/ocpp/v16/messages/GetLocalListVersion.hpp 16-21, lib/ocpp/v16/messages/GetLocalListVersion.cpp 19-24 and 26-33. *)
Definition v16_GetLocalListVersionRequest : ty := Struct
  []
  []
  [].

(** GetLocalListVersionResponse: include/ocpp/v16/messages/GetLocalListVersion.hpp 35-41, lib/ocpp/v16/messages/GetLocalListVersion.cpp 47-53 and 55-60. *)
Definition v16_GetLocalListVersionResponse : ty := Struct
  [("listVersion", false, Int)]
  [WReq "listVersion" "listVersion" (Plain)]
  [RReq "listVersion" "listVersion" (Plain)].

(** GetLogRequest: include/ocpp/v16/messages/GetLog.hpp 19-29, lib/ocpp/v16/messages/GetLog.cpp 20-34 and 36-49. *)
Definition v16_GetLogRequest : ty := Struct
  [("log", false, v16_LogParametersType);
   ("logType", false, Enm e_v16_log_enum_type);
   ("requestId", false, Int);
   ("retries", true, Int);
   ("retryInterval", true, Int)]
  [WReq "log" "log" (Plain);
   WReq "logType" "logType" (Conv e_v16_log_enum_type);
   WReq "requestId" "requestId" (Plain);
   WOpt "retries" "retries" "retries" (Plain);
   WOpt "retryInterval" "retryInterval" "retryInterval" (Plain)]
  [RReq "log" "log" (Plain);
   RReq "logType" "logType" (Conv e_v16_log_enum_type);
   RReq "requestId" "requestId" (Plain);
   ROpt "retries" "retries" "retries" (Plain);
   ROpt "retryInterval" "retryInterval" "retryInterval" (Plain)].

(** GetLogResponse: include/ocpp/v16/messages/GetLog.hpp 42-49, lib/ocpp/v16/messages/GetLog.cpp 62-71 and 73-81. *)
Definition v16_GetLogResponse : ty := Struct
  [("status", false, Enm e_v16_log_status_enum_type);
   ("filename", true, Str (Some 255))]
  [WReq "status" "status" (Conv e_v16_log_status_enum_type);
   WOpt "filename" "filename" "filename" (Plain)]
  [RReq "status" "status" (Conv e_v16_log_status_enum_type);
   ROpt "filename" "filename" "filename" (Plain)].

(** HeartbeatRequest: include/ocpp/v16/messages/Heartbeat.hpp 16-21, lib/ocpp/v16/messages/Heartbeat.cpp 19-24 and 26-33. *)
Definition v16_HeartbeatRequest : ty := Struct
  []
  []
  [].

(** HeartbeatResponse: include/ocpp/v16/messages/Heartbeat.hpp 34-40, lib/ocpp/v16/messages/Heartbeat.cpp 46-52 and 54-59. *)
Definition v16_HeartbeatResponse : ty := Struct
  [("currentTime", false, Time)]
  [WReq "currentTime" "currentTime" (Text)]
  [RReq "currentTime" "currentTime" (Text)].

(** InstallCertificateRequest: include/ocpp/v16/messages/InstallCertificate.hpp 17-24, lib/ocpp/v16/messages/InstallCertificate.cpp 19-26 and 28-34. *)
Definition v16_InstallCertificateRequest : ty := Struct
  [("certificateType", false, Enm e_v16_certificate_use_enum_type);
   ("certificate", false, Str (Some 5500))]
  [WReq "certificateType" "certificateType" (Conv e_v16_certificate_use_enum_type);
   WReq "certificate" "certificate" (Plain)]
  [RReq "certificateType" "certificateType" (Conv e_v16_certificate_use_enum_type);
   RReq "certificate" "certificate" (Plain)].

(** InstallCertificateResponse: include/ocpp/v16/messages/InstallCertificate.hpp 37-43, lib/ocpp/v16/messages/InstallCertificate.cpp 47-53 and 55-60. *)
Definition v16_InstallCertificateResponse : ty := Struct
  [("status", false, Enm e_v16_install_certificate_status_enum_type)]
  [WReq "status" "status" (Conv e_v16_install_certificate_status_enum_type)]
  [RReq "status" "status" (Conv e_v16_install_certificate_status_enum_type)].

(** LogStatusNotificationRequest: include/ocpp/v16/messages/LogStatusNotification.hpp 18-25, lib/ocpp/v16/messages/LogStatusNotification.cpp 20-29 and 31-39. *)
Definition v16_LogStatusNotificationRequest : ty := Struct
  [("status", false, Enm e_v16_upload_log_status_enum_type);
   ("requestId", true, Int)]
  [WReq "status" "status" (Conv e_v16_upload_log_status_enum_type);
   WOpt "requestId" "requestId" "requestId" (Plain)]
  [RReq "status" "status" (Conv e_v16_upload_log_status_enum_type);
   ROpt "requestId" "requestId" "requestId" (Plain)].

(** LogStatusNotificationResponse: include/ocpp/v16/messages/LogStatusNotification.hpp 39-44, lib/ocpp/v16/messages/LogStatusNotification.cpp 53-58 and 60-67. *)
Definition v16_LogStatusNotificationResponse : ty := Struct
  []
  []
  [].

(** MeterValuesRequest: include/ocpp/v16/messages/MeterValues.hpp 18-26, lib/ocpp/v16/messages/MeterValues.cpp 20-30 and 32-43. *)
Definition v16_MeterValuesRequest : ty := Struct
  [("connectorId", false, Int);
   ("meterValue", false, Vec (v16_MeterValue));
   ("transactionId", true, Int)]
  [WReq "connectorId" "connectorId" (Plain);
   WReq "meterValue" "meterValue" (Plain);
   WOpt "transactionId" "transactionId" "transactionId" (Plain)]
  [RReq "connectorId" "connectorId" (Plain);
   RReq "meterValue" "meterValue" Each;
   ROpt "transactionId" "transactionId" "transactionId" (Plain)].

(** MeterValuesResponse: include/ocpp/v16/messages/MeterValues.hpp 39-44, lib/ocpp/v16/messages/MeterValues.cpp 56-61 and 63-70. *)
Definition v16_MeterValuesResponse : ty := Struct
  []
  []
  [].

(** RemoteStartTransactionRequest: include/ocpp/v16/messages/RemoteStartTransaction.hpp 19-27, lib/ocpp/v16/messages/RemoteStartTransaction.cpp 20-32 and 34-45. *)
Definition v16_RemoteStartTransactionRequest : ty := Struct
  [("idTag", false, Str (Some 20));
   ("connectorId", true, Int);
   ("chargingProfile", true, v16_ChargingProfile)]
  [WReq "idTag" "idTag" (Plain);
   WOpt "connectorId" "connectorId" "connectorId" (Plain);
   WOpt "chargingProfile" "chargingProfile" "chargingProfile" (Plain)]
  [RReq "idTag" "idTag" (Plain);
   ROpt "connectorId" "connectorId" "connectorId" (Plain);
   ROpt "chargingProfile" "chargingProfile" "chargingProfile" (Plain)].

(** RemoteStartTransactionResponse: include/ocpp/v16/messages/RemoteStartTransaction.hpp 41-47, lib/ocpp/v16/messages/RemoteStartTransaction.cpp 59-65 and 67-72. *)
Definition v16_RemoteStartTransactionResponse : ty := Struct
  [("status", false, Enm e_v16_remote_start_stop_status)]
  [WReq "status" "status" (Conv e_v16_remote_start_stop_status)]
  [RReq "status" "status" (Conv e_v16_remote_start_stop_status)].

(** RemoteStopTransactionRequest: include/ocpp/v16/messages/RemoteStopTransaction.hpp 17-23, lib/ocpp/v16/messages/RemoteStopTransaction.cpp 19-25 and 27-32. *)
Definition v16_RemoteStopTransactionRequest : ty := Struct
  [("transactionId", false, Int)]
  [WReq "transactionId" "transactionId" (Plain)]
  [RReq "transactionId" "transactionId" (Plain)].

(** RemoteStopTransactionResponse: include/ocpp/v16/messages/RemoteStopTransaction.hpp 37-43, lib/ocpp/v16/messages/RemoteStopTransaction.cpp 46-52 and 54-59. *)
Definition v16_RemoteStopTransactionResponse : ty := Struct
  [("status", false, Enm e_v16_remote_start_stop_status)]
  [WReq "status" "status" (Conv e_v16_remote_start_stop_status)]
  [RReq "status" "status" (Conv e_v16_remote_start_stop_status)].

(** ReserveNowRequest: include/ocpp/v16/messages/ReserveNow.hpp 19-29, lib/ocpp/v16/messages/ReserveNow.cpp 20-32 and 34-45. *)
Definition v16_ReserveNowRequest : ty := Struct
  [("connectorId", false, Int);
   ("expiryDate", false, Time);
   ("idTag", false, Str (Some 20));
   ("reservationId", false, Int);
   ("parentIdTag", true, Str (Some 20))]
  [WReq "connectorId" "connectorId" (Plain);
   WReq "expiryDate" "expiryDate" (Text);
   WReq "idTag" "idTag" (Plain);
   WReq "reservationId" "reservationId" (Plain);
   WOpt "parentIdTag" "parentIdTag" "parentIdTag" (Plain)]
  [RReq "connectorId" "connectorId" (Plain);
   RReq "expiryDate" "expiryDate" (Text);
   RReq "idTag" "idTag" (Plain);
   RReq "reservationId" "reservationId" (Plain);
   ROpt "parentIdTag" "parentIdTag" "parentIdTag" (Plain)].

(** ReserveNowResponse: include/ocpp/v16/messages/ReserveNow.hpp 42-48, lib/ocpp/v16/messages/ReserveNow.cpp 58-64 and 66-71. *)
Definition v16_ReserveNowResponse : ty := Struct
  [("status", false, Enm e_v16_reservation_status)]
  [WReq "status" "status" (Conv e_v16_reservation_status)]
  [RReq "status" "status" (Conv e_v16_reservation_status)].

(** ResetRequest: include/ocpp/v16/messages/Reset.hpp 17-23, lib/ocpp/v16/messages/Reset.cpp 19-25 and 27-32. *)
Definition v16_ResetRequest : ty := Struct
  [("type", false, Enm e_v16_reset_type)]
  [WReq "type" "type" (Conv e_v16_reset_type)]
  [RReq "type" "type" (Conv e_v16_reset_type)].

(** ResetResponse: include/ocpp/v16/messages/Reset.hpp 36-42, lib/ocpp/v16/messages/Reset.cpp 45-51 and 53-58. *)
Definition v16_ResetResponse : ty := Struct
  [("status", false, Enm e_v16_reset_status)]
  [WReq "status" "status" (Conv e_v16_reset_status)]
  [RReq "status" "status" (Conv e_v16_reset_status)].

(** SecurityEventNotificationRequest: include/ocpp/v16/messages/SecurityEventNotification.hpp 18-26, lib/ocpp/v16/messages/SecurityEventNotification.cpp 20-30 and 32-41. *)
Definition v16_SecurityEventNotificationRequest : ty := Struct
  [("type", false, Str (Some 50));
   ("timestamp", false, Time);
   ("techInfo", true, Str (Some 255))]
  [WReq "type" "type" (Plain);
   WReq "timestamp" "timestamp" (Text);
   WOpt "techInfo" "techInfo" "techInfo" (Plain)]
  [RReq "type" "type" (Plain);
   RReq "timestamp" "timestamp" (Text);
   ROpt "techInfo" "techInfo" "techInfo" (Plain)].

(** SecurityEventNotificationResponse: include/ocpp/v16/messages/SecurityEventNotification.hpp 40-45, lib/ocpp/v16/messages/SecurityEventNotification.cpp 55-60 and 62-69. *)
Definition v16_SecurityEventNotificationResponse : ty := Struct
  []
  []
  [].

(** SendLocalListRequest: include/ocpp/v16/messages/SendLocalList.hpp 19-27, lib/ocpp/v16/messages/SendLocalList.cpp 20-33 and 35-49. *)
Definition v16_SendLocalListRequest : ty := Struct
  [("listVersion", false, Int);
   ("updateType", false, Enm e_v16_update_type);
   ("localAuthorizationList", true, Vec (v16_LocalAuthorizationList))]
  [WReq "listVersion" "listVersion" (Plain);
   WReq "updateType" "updateType" (Conv e_v16_update_type);
   WOpt "localAuthorizationList" "localAuthorizationList" "localAuthorizationList" (Each)]
  [RReq "listVersion" "listVersion" (Plain);
   RReq "updateType" "updateType" (Conv e_v16_update_type);
   ROpt "localAuthorizationList" "localAuthorizationList" "localAuthorizationList" (Each)].

(** SendLocalListResponse: include/ocpp/v16/messages/SendLocalList.hpp 40-46, lib/ocpp/v16/messages/SendLocalList.cpp 62-68 and 70-75. *)
Definition v16_SendLocalListResponse : ty := Struct
  [("status", false, Enm e_v16_update_status)]
  [WReq "status" "status" (Conv e_v16_update_status)]
  [RReq "status" "status" (Conv e_v16_update_status)].

(** SetChargingProfileRequest: include/ocpp/v16/messages/SetChargingProfile.hpp 18-25, lib/ocpp/v16/messages/SetChargingProfile.cpp 20-27 and 29-35. *)
Definition v16_SetChargingProfileRequest : ty := Struct
  [("connectorId", false, Int);
   ("csChargingProfiles", false, v16_ChargingProfile)]
  [WReq "connectorId" "connectorId" (Plain);
   WReq "csChargingProfiles" "csChargingProfiles" (Plain)]
  [RReq "connectorId" "connectorId" (Plain);
   RReq "csChargingProfiles" "csChargingProfiles" (Plain)].

(** SetChargingProfileResponse: include/ocpp/v16/messages/SetChargingProfile.hpp 38-44, lib/ocpp/v16/messages/SetChargingProfile.cpp 48-54 and 56-61. *)
Definition v16_SetChargingProfileResponse : ty := Struct
  [("status", false, Enm e_v16_charging_profile_status)]
  [WReq "status" "status" (Conv e_v16_charging_profile_status)]
  [RReq "status" "status" (Conv e_v16_charging_profile_status)].

(** SignCertificateRequest: include/ocpp/v16/messages/SignCertificate.hpp 17-23, lib/ocpp/v16/messages/SignCertificate.cpp 19-25 and 27-32. *)
Definition v16_SignCertificateRequest : ty := Struct
  [("csr", false, Str (Some 5500))]
  [WReq "csr" "csr" (Plain)]
  [RReq "csr" "csr" (Plain)].

(** SignCertificateResponse: include/ocpp/v16/messages/SignCertificate.hpp 36-42, lib/ocpp/v16/messages/SignCertificate.cpp 45-51 and 53-58. *)
Definition v16_SignCertificateResponse : ty := Struct
  [("status", false, Enm e_v16_generic_status_enum_type)]
  [WReq "status" "status" (Conv e_v16_generic_status_enum_type)]
  [RReq "status" "status" (Conv e_v16_generic_status_enum_type)].

(** SignedFirmwareStatusNotificationRequest: include/ocpp/v16/messages/SignedFirmwareStatusNotification.hpp 18-25, lib/ocpp/v16/messages/SignedFirmwareStatusNotification.cpp 20-29 and 31-39. *)
Definition v16_SignedFirmwareStatusNotificationRequest : ty := Struct
  [("status", false, Enm e_v16_firmware_status_enum_type);
   ("requestId", true, Int)]
  [WReq "status" "status" (Conv e_v16_firmware_status_enum_type);
   WOpt "requestId" "requestId" "requestId" (Plain)]
  [RReq "status" "status" (Conv e_v16_firmware_status_enum_type);
   ROpt "requestId" "requestId" "requestId" (Plain)].

(** SignedFirmwareStatusNotificationResponse: include/ocpp/v16/messages/SignedFirmwareStatusNotification.hpp 39-44, lib/ocpp/v16/messages/SignedFirmwareStatusNotification.cpp 53-58 and 60-67. *)
Definition v16_SignedFirmwareStatusNotificationResponse : ty := Struct
  []
  []
  [].

(** SignedUpdateFirmwareRequest: include/ocpp/v16/messages/SignedUpdateFirmware.hpp 18-27, lib/ocpp/v16/messages/SignedUpdateFirmware.cpp 20-33 and 35-47. *)
Definition v16_SignedUpdateFirmwareRequest : ty := Struct
  [("requestId", false, Int);
   ("firmware", false, v16_FirmwareType);
   ("retries", true, Int);
   ("retryInterval", true, Int)]
  [WReq "requestId" "requestId" (Plain);
   WReq "firmware" "firmware" (Plain);
   WOpt "retries" "retries" "retries" (Plain);
   WOpt "retryInterval" "retryInterval" "retryInterval" (Plain)]
  [RReq "requestId" "requestId" (Plain);
   RReq "firmware" "firmware" (Plain);
   ROpt "retries" "retries" "retries" (Plain);
   ROpt "retryInterval" "retryInterval" "retryInterval" (Plain)].

(** SignedUpdateFirmwareResponse: include/ocpp/v16/messages/SignedUpdateFirmware.hpp 41-47, lib/ocpp/v16/messages/SignedUpdateFirmware.cpp 61-67 and 69-74. *)
Definition v16_SignedUpdateFirmwareResponse : ty := Struct
  [("status", false, Enm e_v16_update_firmware_status_enum_type)]
  [WReq "status" "status" (Conv e_v16_update_firmware_status_enum_type)]
  [RReq "status" "status" (Conv e_v16_update_firmware_status_enum_type)].

(** StartTransactionRequest: include/ocpp/v16/messages/StartTransaction.hpp 19-29, lib/ocpp/v16/messages/StartTransaction.cpp 20-32 and 34-45. *)
Definition v16_StartTransactionRequest : ty := Struct
  [("connectorId", false, Int);
   ("idTag", false, Str (Some 20));
   ("meterStart", false, Int);
   ("timestamp", false, Time);
   ("reservationId", true, Int)]
  [WReq "connectorId" "connectorId" (Plain);
   WReq "idTag" "idTag" (Plain);
   WReq "meterStart" "meterStart" (Plain);
   WReq "timestamp" "timestamp" (Text);
   WOpt "reservationId" "reservationId" "reservationId" (Plain)]
  [RReq "connectorId" "connectorId" (Plain);
   RReq "idTag" "idTag" (Plain);
   RReq "meterStart" "meterStart" (Plain);
   RReq "timestamp" "timestamp" (Text);
   ROpt "reservationId" "reservationId" "reservationId" (Plain)].

(** StartTransactionResponse: include/ocpp/v16/messages/StartTransaction.hpp 42-49, lib/ocpp/v16/messages/StartTransaction.cpp 58-65 and 67-73. *)
Definition v16_StartTransactionResponse : ty := Struct
  [("idTagInfo", false, v16_IdTagInfo);
   ("transactionId", false, Int)]
  [WReq "idTagInfo" "idTagInfo" (Plain);
   WReq "transactionId" "transactionId" (Plain)]
  [RReq "idTagInfo" "idTagInfo" (Plain);
   RReq "transactionId" "transactionId" (Plain)].

(** StatusNotificationRequest: include/ocpp/v16/messages/StatusNotification.hpp 19-31, lib/ocpp/v16/messages/StatusNotification.cpp 20-40 and 42-61. *)
Definition v16_StatusNotificationRequest : ty := Struct
  [("connectorId", false, Int);
   ("errorCode", false, Enm e_v16_charge_point_error_code);
   ("status", false, Enm e_v16_charge_point_status);
   ("info", true, Str (Some 50));
   ("timestamp", true, Time);
   ("vendorId", true, Str (Some 255));
   ("vendorErrorCode", true, Str (Some 50))]
  [WReq "connectorId" "connectorId" (Plain);
   WReq "errorCode" "errorCode" (Conv e_v16_charge_point_error_code);
   WReq "status" "status" (Conv e_v16_charge_point_status);
   WOpt "info" "info" "info" (Plain);
   WOpt "timestamp" "timestamp" "timestamp" (Text);
   WOpt "vendorId" "vendorId" "vendorId" (Plain);
   WOpt "vendorErrorCode" "vendorErrorCode" "vendorErrorCode" (Plain)]
  [RReq "connectorId" "connectorId" (Plain);
   RReq "errorCode" "errorCode" (Conv e_v16_charge_point_error_code);
   RReq "status" "status" (Conv e_v16_charge_point_status);
   ROpt "info" "info" "info" (Plain);
   ROpt "timestamp" "timestamp" "timestamp" (Text);
   ROpt "vendorId" "vendorId" "vendorId" (Plain);
   ROpt "vendorErrorCode" "vendorErrorCode" "vendorErrorCode" (Plain)].

(** StatusNotificationResponse: include/ocpp/v16/messages/StatusNotification.hpp 44-49, lib/ocpp/v16/messages/StatusNotification.cpp 74-79 and 81-88. *)
Definition v16_StatusNotificationResponse : ty := Struct
  []
  []
  [].

(** StopTransactionRequest: include/ocpp/v16/messages/StopTransaction.hpp 19-30, lib/ocpp/v16/messages/StopTransaction.cpp 20-40 and 42-63. *)
Definition v16_StopTransactionRequest : ty := Struct
  [("meterStop", false, Int);
   ("timestamp", false, Time);
   ("transactionId", false, Int);
   ("idTag", true, Str (Some 20));
   ("reason", true, Enm e_v16_reason);
   ("transactionData", true, Vec (v16_TransactionData))]
  [WReq "meterStop" "meterStop" (Plain);
   WReq "timestamp" "timestamp" (Text);
   WReq "transactionId" "transactionId" (Plain);
   WOpt "idTag" "idTag" "idTag" (Plain);
   WOpt "reason" "reason" "reason" (Conv e_v16_reason);
   WOpt "transactionData" "transactionData" "transactionData" (Each)]
  [RReq "meterStop" "meterStop" (Plain);
   RReq "timestamp" "timestamp" (Text);
   RReq "transactionId" "transactionId" (Plain);
   ROpt "idTag" "idTag" "idTag" (Plain);
   ROpt "reason" "reason" "reason" (Conv e_v16_reason);
   ROpt "transactionData" "transactionData" "transactionData" (Each)].

(** StopTransactionResponse: include/ocpp/v16/messages/StopTransaction.hpp 43-49, lib/ocpp/v16/messages/StopTransaction.cpp 76-83 and 85-92. *)
Definition v16_StopTransactionResponse : ty := Struct
  [("idTagInfo", true, v16_IdTagInfo)]
  [WOpt "idTagInfo" "idTagInfo" "idTagInfo" (Plain)]
  [ROpt "idTagInfo" "idTagInfo" "idTagInfo" (Plain)].

(** TriggerMessageRequest: include/ocpp/v16/messages/TriggerMessage.hpp 18-25, lib/ocpp/v16/messages/TriggerMessage.cpp 20-29 and 31-39. *)
Definition v16_TriggerMessageRequest : ty := Struct
  [("requestedMessage", false, Enm e_v16_message_trigger);
   ("connectorId", true, Int)]
  [WReq "requestedMessage" "requestedMessage" (Conv e_v16_message_trigger);
   WOpt "connectorId" "connectorId" "connectorId" (Plain)]
  [RReq "requestedMessage" "requestedMessage" (Conv e_v16_message_trigger);
   ROpt "connectorId" "connectorId" "connectorId" (Plain)].

(** TriggerMessageResponse: include/ocpp/v16/messages/TriggerMessage.hpp 38-44, lib/ocpp/v16/messages/TriggerMessage.cpp 52-58 and 60-65. *)
Definition v16_TriggerMessageResponse : ty := Struct
  [("status", false, Enm e_v16_trigger_message_status)]
  [WReq "status" "status" (Conv e_v16_trigger_message_status)]
  [RReq "status" "status" (Conv e_v16_trigger_message_status)].

(** UnlockConnectorRequest: include/ocpp/v16/messages/UnlockConnector.hpp 17-23, lib/ocpp/v16/messages/UnlockConnector.cpp 19-25 and 27-32. *)
Definition v16_UnlockConnectorRequest : ty := Struct
  [("connectorId", false, Int)]
  [WReq "connectorId" "connectorId" (Plain)]
  [RReq "connectorId" "connectorId" (Plain)].

(** UnlockConnectorResponse: include/ocpp/v16/messages/UnlockConnector.hpp 36-42, lib/ocpp/v16/messages/UnlockConnector.cpp 45-51 and 53-58. *)
Definition v16_UnlockConnectorResponse : ty := Struct
  [("status", false, Enm e_v16_unlock_status)]
  [WReq "status" "status" (Conv e_v16_unlock_status)]
  [RReq "status" "status" (Conv e_v16_unlock_status)].

(** UpdateFirmwareRequest: include/ocpp/v16/messages/UpdateFirmware.hpp 17-26, lib/ocpp/v16/messages/UpdateFirmware.cpp 20-33 and 35-47. *)
Definition v16_UpdateFirmwareRequest : ty := Struct
  [("location", false, Str None);
   ("retrieveDate", false, Time);
   ("retries", true, Int);
   ("retryInterval", true, Int)]
  [WReq "location" "location" (Plain);
   WReq "retrieveDate" "retrieveDate" (Text);
   WOpt "retries" "retries" "retries" (Plain);
   WOpt "retryInterval" "retryInterval" "retryInterval" (Plain)]
  [RReq "location" "location" (Plain);
   RReq "retrieveDate" "retrieveDate" (Text);
   ROpt "retries" "retries" "retries" (Plain);
   ROpt "retryInterval" "retryInterval" "retryInterval" (Plain)].

(** UpdateFirmwareResponse: include/ocpp/v16/messages/UpdateFirmware.hpp 39-44, lib/ocpp/v16/messages/UpdateFirmware.cpp 60-65 and 67-74. *)
Definition v16_UpdateFirmwareResponse : ty := Struct
  []
  []
  [].

(** StatusInfo: include/ocpp/v2/ocpp_types.hpp 21-25, lib/ocpp/v2/ocpp_types.cpp 19-31 and 34-45. *)
Definition v2_StatusInfo : ty := Struct
  [("reasonCode", false, Str (Some 20));
   ("additionalInfo", true, Str (Some 1024));
   ("customData", true, Any)]
  [WReq "reasonCode" "reasonCode" (Plain);
   WOpt "additionalInfo" "additionalInfo" "additionalInfo" (Plain);
   WOpt "customData" "customData" "customData" (Plain)]
  [RReq "reasonCode" "reasonCode" (Plain);
   ROpt "additionalInfo" "additionalInfo" "additionalInfo" (Plain);
   ROpt "customData" "customData" "customData" (Plain)].

(** PeriodicEventStreamParams: include/ocpp/v2/ocpp_types.hpp 36-40, lib/ocpp/v2/ocpp_types.cpp 55-68 and 71-84. *)
Definition v2_PeriodicEventStreamParams : ty := Struct
  [("interval", true, Int);
   ("values", true, Int);
   ("customData", true, Any)]
  [WOpt "interval" "interval" "interval" (Plain);
   WOpt "values" "values" "values" (Plain);
   WOpt "customData" "customData" "customData" (Plain)]
  [ROpt "interval" "interval" "interval" (Plain);
   ROpt "values" "values" "values" (Plain);
   ROpt "customData" "customData" "customData" (Plain)].

(** AdditionalInfo: include/ocpp/v2/ocpp_types.hpp 51-55, lib/ocpp/v2/ocpp_types.cpp 94-104 and 107-116. *)
Definition v2_AdditionalInfo : ty := Struct
  [("additionalIdToken", false, Str (Some 255));
   ("type", false, Str (Some 50));
   ("customData", true, Any)]
  [WReq "additionalIdToken" "additionalIdToken" (Plain);
   WReq "type" "type" (Plain);
   WOpt "customData" "customData" "customData" (Plain)]
  [RReq "additionalIdToken" "additionalIdToken" (Plain);
   RReq "type" "type" (Plain);
   ROpt "customData" "customData" "customData" (Plain)].

(** IdToken: include/ocpp/v2/ocpp_types.hpp 66-71, lib/ocpp/v2/ocpp_types.cpp 126-142 and 145-162. *)
Definition v2_IdToken : ty := Struct
  [("idToken", false, Str (Some 255));
   ("type", false, Str (Some 20));
   ("additionalInfo", true, Vec (v2_AdditionalInfo));
   ("customData", true, Any)]
  [WReq "idToken" "idToken" (Plain);
   WReq "type" "type" (Plain);
   WOpt "additionalInfo" "additionalInfo" "additionalInfo" (Each);
   WOpt "customData" "customData" "customData" (Plain)]
  [RReq "idToken" "idToken" (Plain);
   RReq "type" "type" (Plain);
   ROpt "additionalInfo" "additionalInfo" "additionalInfo" (Each);
   ROpt "customData" "customData" "customData" (Plain)].

(** OCSPRequestData: include/ocpp/v2/ocpp_types.hpp 82-89, lib/ocpp/v2/ocpp_types.cpp 172-185 and 188-200. *)
Definition v2_OCSPRequestData : ty := Struct
  [("hashAlgorithm", false, Enm e_v2_hash_algorithm_enum);
   ("issuerNameHash", false, Str (Some 128));
   ("issuerKeyHash", false, Str (Some 128));
   ("serialNumber", false, Str (Some 40));
   ("responderURL", false, Str (Some 2000));
   ("customData", true, Any)]
  [WReq "hashAlgorithm" "hashAlgorithm" (Conv e_v2_hash_algorithm_enum);
   WReq "issuerNameHash" "issuerNameHash" (Plain);
   WReq "issuerKeyHash" "issuerKeyHash" (Plain);
   WReq "serialNumber" "serialNumber" (Plain);
   WReq "responderURL" "responderURL" (Plain);
   WOpt "customData" "customData" "customData" (Plain)]
  [RReq "hashAlgorithm" "hashAlgorithm" (Conv e_v2_hash_algorithm_enum);
   RReq "issuerNameHash" "issuerNameHash" (Plain);
   RReq "issuerKeyHash" "issuerKeyHash" (Plain);
   RReq "serialNumber" "serialNumber" (Plain);
   RReq "responderURL" "responderURL" (Plain);
   ROpt "customData" "customData" "customData" (Plain)].

(** MessageContent: include/ocpp/v2/ocpp_types.hpp 100-105, lib/ocpp/v2/ocpp_types.cpp 210-223 and 226-238. *)
Definition v2_MessageContent : ty := Struct
  [("format", false, Enm e_v2_message_format_enum);
   ("content", false, Str (Some 1024));
   ("language", true, Str (Some 8));
   ("customData", true, Any)]
  [WReq "format" "format" (Conv e_v2_message_format_enum);
   WReq "content" "content" (Plain);
   WOpt "language" "language" "language" (Plain);
   WOpt "customData" "customData" "customData" (Plain)]
  [RReq "format" "format" (Conv e_v2_message_format_enum);
   RReq "content" "content" (Plain);
   ROpt "language" "language" "language" (Plain);
   ROpt "customData" "customData" "customData" (Plain)].

(** IdTokenInfo: include/ocpp/v2/ocpp_types.hpp 116-126, lib/ocpp/v2/ocpp_types.cpp 248-281 and 284-318. *)
Definition v2_IdTokenInfo : ty := Struct
  [("status", false, Enm e_v2_authorization_status_enum);
   ("cacheExpiryDateTime", true, Time);
   ("chargingPriority", true, Int);
   ("groupIdToken", true, v2_IdToken);
   ("language1", true, Str (Some 8));
   ("language2", true, Str (Some 8));
   ("evseId", true, Vec (Int));
   ("personalMessage", true, v2_MessageContent);
   ("customData", true, Any)]
  [WReq "status" "status" (Conv e_v2_authorization_status_enum);
   WOpt "cacheExpiryDateTime" "cacheExpiryDateTime" "cacheExpiryDateTime" (Text);
   WOpt "chargingPriority" "chargingPriority" "chargingPriority" (Plain);
   WOpt "groupIdToken" "groupIdToken" "groupIdToken" (Plain);
   WOpt "language1" "language1" "language1" (Plain);
   WOpt "language2" "language2" "language2" (Plain);
   WOpt "evseId" "evseId" "evseId" (Each);
   WOpt "personalMessage" "personalMessage" "personalMessage" (Plain);
   WOpt "customData" "customData" "customData" (Plain)]
  [RReq "status" "status" (Conv e_v2_authorization_status_enum);
   ROpt "cacheExpiryDateTime" "cacheExpiryDateTime" "cacheExpiryDateTime" (Text);
   ROpt "chargingPriority" "chargingPriority" "chargingPriority" (Plain);
   ROpt "groupIdToken" "groupIdToken" "groupIdToken" (Plain);
   ROpt "language1" "language1" "language1" (Plain);
   ROpt "language2" "language2" "language2" (Plain);
   ROpt "evseId" "evseId" "evseId" (Each);
   ROpt "personalMessage" "personalMessage" "personalMessage" (Plain);
   ROpt "customData" "customData" "customData" (Plain)].

(** TariffConditions: include/ocpp/v2/ocpp_types.hpp 137-157, lib/ocpp/v2/ocpp_types.cpp 328-396 and 399-465. *)
Definition v2_TariffConditions : ty := Struct
  [("startTimeOfDay", true, Str None);
   ("endTimeOfDay", true, Str None);
   ("dayOfWeek", true, Vec (Enm e_v2_day_of_week_enum));
   ("validFromDate", true, Str None);
   ("validToDate", true, Str None);
   ("evseKind", true, Enm e_v2_evse_kind_enum);
   ("minEnergy", true, Float);
   ("maxEnergy", true, Float);
   ("minCurrent", true, Float);
   ("maxCurrent", true, Float);
   ("minPower", true, Float);
   ("maxPower", true, Float);
   ("minTime", true, Int);
   ("maxTime", true, Int);
   ("minChargingTime", true, Int);
   ("maxChargingTime", true, Int);
   ("minIdleTime", true, Int);
   ("maxIdleTime", true, Int);
   ("customData", true, Any)]
  [WOpt "startTimeOfDay" "startTimeOfDay" "startTimeOfDay" (Plain);
   WOpt "endTimeOfDay" "endTimeOfDay" "endTimeOfDay" (Plain);
   WOpt "dayOfWeek" "dayOfWeek" "dayOfWeek" (EachConv e_v2_day_of_week_enum);
   WOpt "validFromDate" "validFromDate" "validFromDate" (Plain);
   WOpt "validToDate" "validToDate" "validToDate" (Plain);
   WOpt "evseKind" "evseKind" "evseKind" (Conv e_v2_evse_kind_enum);
   WOpt "minEnergy" "minEnergy" "minEnergy" (Plain);
   WOpt "maxEnergy" "maxEnergy" "maxEnergy" (Plain);
   WOpt "minCurrent" "minCurrent" "minCurrent" (Plain);
   WOpt "maxCurrent" "maxCurrent" "maxCurrent" (Plain);
   WOpt "minPower" "minPower" "minPower" (Plain);
   WOpt "maxPower" "maxPower" "maxPower" (Plain);
   WOpt "minTime" "minTime" "minTime" (Plain);
   WOpt "maxTime" "maxTime" "maxTime" (Plain);
   WOpt "minChargingTime" "minChargingTime" "minChargingTime" (Plain);
   WOpt "maxChargingTime" "maxChargingTime" "maxChargingTime" (Plain);
   WOpt "minIdleTime" "minIdleTime" "minIdleTime" (Plain);
   WOpt "maxIdleTime" "maxIdleTime" "maxIdleTime" (Plain);
   WOpt "customData" "customData" "customData" (Plain)]
  [ROpt "startTimeOfDay" "startTimeOfDay" "startTimeOfDay" (Plain);
   ROpt "endTimeOfDay" "endTimeOfDay" "endTimeOfDay" (Plain);
   ROpt "dayOfWeek" "dayOfWeek" "dayOfWeek" (EachConv e_v2_day_of_week_enum);
   ROpt "validFromDate" "validFromDate" "validFromDate" (Plain);
   ROpt "validToDate" "validToDate" "validToDate" (Plain);
   ROpt "evseKind" "evseKind" "evseKind" (Conv e_v2_evse_kind_enum);
   ROpt "minEnergy" "minEnergy" "minEnergy" (Plain);
   ROpt "maxEnergy" "maxEnergy" "maxEnergy" (Plain);
   ROpt "minCurrent" "minCurrent" "minCurrent" (Plain);
   ROpt "maxCurrent" "maxCurrent" "maxCurrent" (Plain);
   ROpt "minPower" "minPower" "minPower" (Plain);
   ROpt "maxPower" "maxPower" "maxPower" (Plain);
   ROpt "minTime" "minTime" "minTime" (Plain);
   ROpt "maxTime" "maxTime" "maxTime" (Plain);
   ROpt "minChargingTime" "minChargingTime" "minChargingTime" (Plain);
   ROpt "maxChargingTime" "maxChargingTime" "maxChargingTime" (Plain);
   ROpt "minIdleTime" "minIdleTime" "minIdleTime" (Plain);
   ROpt "maxIdleTime" "maxIdleTime" "maxIdleTime" (Plain);
   ROpt "customData" "customData" "customData" (Plain)].

(** TariffEnergyPrice: include/ocpp/v2/ocpp_types.hpp 168-172, lib/ocpp/v2/ocpp_types.cpp 475-487 and 490-501. *)
Definition v2_TariffEnergyPrice : ty := Struct
  [("priceKwh", false, Float);
   ("conditions", true, v2_TariffConditions);
   ("customData", true, Any)]
  [WReq "priceKwh" "priceKwh" (Plain);
   WOpt "conditions" "conditions" "conditions" (Plain);
   WOpt "customData" "customData" "customData" (Plain)]
  [RReq "priceKwh" "priceKwh" (Plain);
   ROpt "conditions" "conditions" "conditions" (Plain);
   ROpt "customData" "customData" "customData" (Plain)].

(** TaxRate: include/ocpp/v2/ocpp_types.hpp 183-188, lib/ocpp/v2/ocpp_types.cpp 511-524 and 527-539. *)
Definition v2_TaxRate : ty := Struct
  [("type", false, Str (Some 20));
   ("tax", false, Float);
   ("stack", true, Int);
   ("customData", true, Any)]
  [WReq "type" "type" (Plain);
   WReq "tax" "tax" (Plain);
   WOpt "stack" "stack" "stack" (Plain);
   WOpt "customData" "customData" "customData" (Plain)]
  [RReq "type" "type" (Plain);
   RReq "tax" "tax" (Plain);
   ROpt "stack" "stack" "stack" (Plain);
   ROpt "customData" "customData" "customData" (Plain)].

(** TariffEnergy: include/ocpp/v2/ocpp_types.hpp 199-203, lib/ocpp/v2/ocpp_types.cpp 549-564 and 567-585. *)
Definition v2_TariffEnergy : ty := Struct
  [("prices", false, Vec (v2_TariffEnergyPrice));
   ("taxRates", true, Vec (v2_TaxRate));
   ("customData", true, Any)]
  [WReq "prices" "prices" (Plain);
   WOpt "taxRates" "taxRates" "taxRates" (Each);
   WOpt "customData" "customData" "customData" (Plain)]
  [RReq "prices" "prices" Each;
   ROpt "taxRates" "taxRates" "taxRates" (Each);
   ROpt "customData" "customData" "customData" (Plain)].

(** TariffTimePrice: include/ocpp/v2/ocpp_types.hpp 214-218, lib/ocpp/v2/ocpp_types.cpp 595-607 and 610-621. *)
Definition v2_TariffTimePrice : ty := Struct
  [("priceMinute", false, Float);
   ("conditions", true, v2_TariffConditions);
   ("customData", true, Any)]
  [WReq "priceMinute" "priceMinute" (Plain);
   WOpt "conditions" "conditions" "conditions" (Plain);
   WOpt "customData" "customData" "customData" (Plain)]
  [RReq "priceMinute" "priceMinute" (Plain);
   ROpt "conditions" "conditions" "conditions" (Plain);
   ROpt "customData" "customData" "customData" (Plain)].

(** TariffTime: include/ocpp/v2/ocpp_types.hpp 229-233, lib/ocpp/v2/ocpp_types.cpp 631-646 and 649-667. *)
Definition v2_TariffTime : ty := Struct
  [("prices", false, Vec (v2_TariffTimePrice));
   ("taxRates", true, Vec (v2_TaxRate));
   ("customData", true, Any)]
  [WReq "prices" "prices" (Plain);
   WOpt "taxRates" "taxRates" "taxRates" (Each);
   WOpt "customData" "customData" "customData" (Plain)]
  [RReq "prices" "prices" Each;
   ROpt "taxRates" "taxRates" "taxRates" (Each);
   ROpt "customData" "customData" "customData" (Plain)].

(** TariffConditionsFixed: include/ocpp/v2/ocpp_types.hpp 244-254, lib/ocpp/v2/ocpp_types.cpp 677-715 and 718-754. *)
Definition v2_TariffConditionsFixed : ty := Struct
  [("startTimeOfDay", true, Str None);
   ("endTimeOfDay", true, Str None);
   ("dayOfWeek", true, Vec (Enm e_v2_day_of_week_enum));
   ("validFromDate", true, Str None);
   ("validToDate", true, Str None);
   ("evseKind", true, Enm e_v2_evse_kind_enum);
   ("paymentBrand", true, Str (Some 20));
   ("paymentRecognition", true, Str (Some 20));
   ("customData", true, Any)]
  [WOpt "startTimeOfDay" "startTimeOfDay" "startTimeOfDay" (Plain);
   WOpt "endTimeOfDay" "endTimeOfDay" "endTimeOfDay" (Plain);
   WOpt "dayOfWeek" "dayOfWeek" "dayOfWeek" (EachConv e_v2_day_of_week_enum);
   WOpt "validFromDate" "validFromDate" "validFromDate" (Plain);
   WOpt "validToDate" "validToDate" "validToDate" (Plain);
   WOpt "evseKind" "evseKind" "evseKind" (Conv e_v2_evse_kind_enum);
   WOpt "paymentBrand" "paymentBrand" "paymentBrand" (Plain);
   WOpt "paymentRecognition" "paymentRecognition" "paymentRecognition" (Plain);
   WOpt "customData" "customData" "customData" (Plain)]
  [ROpt "startTimeOfDay" "startTimeOfDay" "startTimeOfDay" (Plain);
   ROpt "endTimeOfDay" "endTimeOfDay" "endTimeOfDay" (Plain);
   ROpt "dayOfWeek" "dayOfWeek" "dayOfWeek" (EachConv e_v2_day_of_week_enum);
   ROpt "validFromDate" "validFromDate" "validFromDate" (Plain);
   ROpt "validToDate" "validToDate" "validToDate" (Plain);
   ROpt "evseKind" "evseKind" "evseKind" (Conv e_v2_evse_kind_enum);
   ROpt "paymentBrand" "paymentBrand" "paymentBrand" (Plain);
   ROpt "paymentRecognition" "paymentRecognition" "paymentRecognition" (Plain);
   ROpt "customData" "customData" "customData" (Plain)].

(** TariffFixedPrice: include/ocpp/v2/ocpp_types.hpp 265-269, lib/ocpp/v2/ocpp_types.cpp 764-776 and 779-790. *)
Definition v2_TariffFixedPrice : ty := Struct
  [("priceFixed", false, Float);
   ("conditions", true, v2_TariffConditionsFixed);
   ("customData", true, Any)]
  [WReq "priceFixed" "priceFixed" (Plain);
   WOpt "conditions" "conditions" "conditions" (Plain);
   WOpt "customData" "customData" "customData" (Plain)]
  [RReq "priceFixed" "priceFixed" (Plain);
   ROpt "conditions" "conditions" "conditions" (Plain);
   ROpt "customData" "customData" "customData" (Plain)].

(** TariffFixed: include/ocpp/v2/ocpp_types.hpp 280-284, lib/ocpp/v2/ocpp_types.cpp 800-815 and 818-836. *)
Definition v2_TariffFixed : ty := Struct
  [("prices", false, Vec (v2_TariffFixedPrice));
   ("taxRates", true, Vec (v2_TaxRate));
   ("customData", true, Any)]
  [WReq "prices" "prices" (Plain);
   WOpt "taxRates" "taxRates" "taxRates" (Each);
   WOpt "customData" "customData" "customData" (Plain)]
  [RReq "prices" "prices" Each;
   ROpt "taxRates" "taxRates" "taxRates" (Each);
   ROpt "customData" "customData" "customData" (Plain)].

(** Price: include/ocpp/v2/ocpp_types.hpp 295-300, lib/ocpp/v2/ocpp_types.cpp 846-869 and 872-893. *)
Definition v2_Price : ty := Struct
  [("exclTax", true, Float);
   ("inclTax", true, Float);
   ("taxRates", true, Vec (v2_TaxRate));
   ("customData", true, Any)]
  [WOpt "exclTax" "exclTax" "exclTax" (Plain);
   WOpt "inclTax" "inclTax" "inclTax" (Plain);
   WOpt "taxRates" "taxRates" "taxRates" (Each);
   WOpt "customData" "customData" "customData" (Plain)]
  [ROpt "exclTax" "exclTax" "exclTax" (Plain);
   ROpt "inclTax" "inclTax" "inclTax" (Plain);
   ROpt "taxRates" "taxRates" "taxRates" (Each);
   ROpt "customData" "customData" "customData" (Plain)].

(** Tariff: include/ocpp/v2/ocpp_types.hpp 311-325, lib/ocpp/v2/ocpp_types.cpp 903-946 and 949-993. *)
Definition v2_Tariff : ty := Struct
  [("tariffId", false, Str (Some 60));
   ("currency", false, Str (Some 3));
   ("description", true, Vec (v2_MessageContent));
   ("energy", true, v2_TariffEnergy);
   ("validFrom", true, Time);
   ("chargingTime", true, v2_TariffTime);
   ("idleTime", true, v2_TariffTime);
   ("fixedFee", true, v2_TariffFixed);
   ("reservationTime", true, v2_TariffTime);
   ("reservationFixed", true, v2_TariffFixed);
   ("minCost", true, v2_Price);
   ("maxCost", true, v2_Price);
   ("customData", true, Any)]
  [WReq "tariffId" "tariffId" (Plain);
   WReq "currency" "currency" (Plain);
   WOpt "description" "description" "description" (Each);
   WOpt "energy" "energy" "energy" (Plain);
   WOpt "validFrom" "validFrom" "validFrom" (Text);
   WOpt "chargingTime" "chargingTime" "chargingTime" (Plain);
   WOpt "idleTime" "idleTime" "idleTime" (Plain);
   WOpt "fixedFee" "fixedFee" "fixedFee" (Plain);
   WOpt "reservationTime" "reservationTime" "reservationTime" (Plain);
   WOpt "reservationFixed" "reservationFixed" "reservationFixed" (Plain);
   WOpt "minCost" "minCost" "minCost" (Plain);
   WOpt "maxCost" "maxCost" "maxCost" (Plain);
   WOpt "customData" "customData" "customData" (Plain)]
  [RReq "tariffId" "tariffId" (Plain);
   RReq "currency" "currency" (Plain);
   ROpt "description" "description" "description" (Each);
   ROpt "energy" "energy" "energy" (Plain);
   ROpt "validFrom" "validFrom" "validFrom" (Text);
   ROpt "chargingTime" "chargingTime" "chargingTime" (Plain);
   ROpt "idleTime" "idleTime" "idleTime" (Plain);
   ROpt "fixedFee" "fixedFee" "fixedFee" (Plain);
   ROpt "reservationTime" "reservationTime" "reservationTime" (Plain);
   ROpt "reservationFixed" "reservationFixed" "reservationFixed" (Plain);
   ROpt "minCost" "minCost" "minCost" (Plain);
   ROpt "maxCost" "maxCost" "maxCost" (Plain);
   ROpt "customData" "customData" "customData" (Plain)].

(** BatteryData: include/ocpp/v2/ocpp_types.hpp 336-344, lib/ocpp/v2/ocpp_types.cpp 1003-1021 and 1024-1041. *)
Definition v2_BatteryData : ty := Struct
  [("evseId", false, Int);
   ("serialNumber", false, Str (Some 50));
   ("soC", false, Float);
   ("soH", false, Float);
   ("productionDate", true, Time);
   ("vendorInfo", true, Str (Some 500));
   ("customData", true, Any)]
  [WReq "evseId" "evseId" (Plain);
   WReq "serialNumber" "serialNumber" (Plain);
   WReq "soC" "soC" (Plain);
   WReq "soH" "soH" (Plain);
   WOpt "productionDate" "productionDate" "productionDate" (Text);
   WOpt "vendorInfo" "vendorInfo" "vendorInfo" (Plain);
   WOpt "customData" "customData" "customData" (Plain)]
  [RReq "evseId" "evseId" (Plain);
   RReq "serialNumber" "serialNumber" (Plain);
   RReq "soC" "soC" (Plain);
   RReq "soH" "soH" (Plain);
   ROpt "productionDate" "productionDate" "productionDate" (Text);
   ROpt "vendorInfo" "vendorInfo" "vendorInfo" (Plain);
   ROpt "customData" "customData" "customData" (Plain)].

(** Modem: include/ocpp/v2/ocpp_types.hpp 355-359, lib/ocpp/v2/ocpp_types.cpp 1051-1064 and 1067-1080. *)
Definition v2_Modem : ty := Struct
  [("iccid", true, Str (Some 20));
   ("imsi", true, Str (Some 20));
   ("customData", true, Any)]
  [WOpt "iccid" "iccid" "iccid" (Plain);
   WOpt "imsi" "imsi" "imsi" (Plain);
   WOpt "customData" "customData" "customData" (Plain)]
  [ROpt "iccid" "iccid" "iccid" (Plain);
   ROpt "imsi" "imsi" "imsi" (Plain);
   ROpt "customData" "customData" "customData" (Plain)].

(** ChargingStation: include/ocpp/v2/ocpp_types.hpp 370-377, lib/ocpp/v2/ocpp_types.cpp 1090-1109 and 1112-1130. *)
Definition v2_ChargingStation : ty := Struct
  [("model", false, Str (Some 20));
   ("vendorName", false, Str (Some 50));
   ("serialNumber", true, Str (Some 25));
   ("modem", true, v2_Modem);
   ("firmwareVersion", true, Str (Some 50));
   ("customData", true, Any)]
  [WReq "model" "model" (Plain);
   WReq "vendorName" "vendorName" (Plain);
   WOpt "serialNumber" "serialNumber" "serialNumber" (Plain);
   WOpt "modem" "modem" "modem" (Plain);
   WOpt "firmwareVersion" "firmwareVersion" "firmwareVersion" (Plain);
   WOpt "customData" "customData" "customData" (Plain)]
  [RReq "model" "model" (Plain);
   RReq "vendorName" "vendorName" (Plain);
   ROpt "serialNumber" "serialNumber" "serialNumber" (Plain);
   ROpt "modem" "modem" "modem" (Plain);
   ROpt "firmwareVersion" "firmwareVersion" "firmwareVersion" (Plain);
   ROpt "customData" "customData" "customData" (Plain)].

(** EVSE: include/ocpp/v2/ocpp_types.hpp 388-392, lib/ocpp/v2/ocpp_types.cpp 1140-1152 and 1155-1166. *)
Definition v2_EVSE : ty := Struct
  [("id", false, Int);
   ("connectorId", true, Int);
   ("customData", true, Any)]
  [WReq "id" "id" (Plain);
   WOpt "connectorId" "connectorId" "connectorId" (Plain);
   WOpt "customData" "customData" "customData" (Plain)]
  [RReq "id" "id" (Plain);
   ROpt "connectorId" "connectorId" "connectorId" (Plain);
   ROpt "customData" "customData" "customData" (Plain)].

(** ClearChargingProfile: include/ocpp/v2/ocpp_types.hpp 403-408, lib/ocpp/v2/ocpp_types.cpp 1176-1193 and 1196-1213. *)
Definition v2_ClearChargingProfile : ty := Struct
  [("evseId", true, Int);
   ("chargingProfilePurpose", true, Enm e_v2_charging_profile_purpose_enum);
   ("stackLevel", true, Int);
   ("customData", true, Any)]
  [WOpt "evseId" "evseId" "evseId" (Plain);
   WOpt "chargingProfilePurpose" "chargingProfilePurpose" "chargingProfilePurpose" (Conv e_v2_charging_profile_purpose_enum);
   WOpt "stackLevel" "stackLevel" "stackLevel" (Plain);
   WOpt "customData" "customData" "customData" (Plain)]
  [ROpt "evseId" "evseId" "evseId" (Plain);
   ROpt "chargingProfilePurpose" "chargingProfilePurpose" "chargingProfilePurpose" (Conv e_v2_charging_profile_purpose_enum);
   ROpt "stackLevel" "stackLevel" "stackLevel" (Plain);
   ROpt "customData" "customData" "customData" (Plain)].

(** ClearTariffsResult: include/ocpp/v2/ocpp_types.hpp 419-424, lib/ocpp/v2/ocpp_types.cpp 1223-1238 and 1241-1255. *)
Definition v2_ClearTariffsResult : ty := Struct
  [("status", false, Enm e_v2_tariff_clear_status_enum);
   ("statusInfo", true, v2_StatusInfo);
   ("tariffId", true, Str (Some 60));
   ("customData", true, Any)]
  [WReq "status" "status" (Conv e_v2_tariff_clear_status_enum);
   WOpt "statusInfo" "statusInfo" "statusInfo" (Plain);
   WOpt "tariffId" "tariffId" "tariffId" (Plain);
   WOpt "customData" "customData" "customData" (Plain)]
  [RReq "status" "status" (Conv e_v2_tariff_clear_status_enum);
   ROpt "statusInfo" "statusInfo" "statusInfo" (Plain);
   ROpt "tariffId" "tariffId" "tariffId" (Plain);
   ROpt "customData" "customData" "customData" (Plain)].

(** ClearMonitoringResult: include/ocpp/v2/ocpp_types.hpp 435-440, lib/ocpp/v2/ocpp_types.cpp 1265-1278 and 1281-1293. *)
Definition v2_ClearMonitoringResult : ty := Struct
  [("status", false, Enm e_v2_clear_monitoring_status_enum);
   ("id", false, Int);
   ("statusInfo", true, v2_StatusInfo);
   ("customData", true, Any)]
  [WReq "status" "status" (Conv e_v2_clear_monitoring_status_enum);
   WReq "id" "id" (Plain);
   WOpt "statusInfo" "statusInfo" "statusInfo" (Plain);
   WOpt "customData" "customData" "customData" (Plain)]
  [RReq "status" "status" (Conv e_v2_clear_monitoring_status_enum);
   RReq "id" "id" (Plain);
   ROpt "statusInfo" "statusInfo" "statusInfo" (Plain);
   ROpt "customData" "customData" "customData" (Plain)].

(** CertificateHashDataType: include/ocpp/v2/ocpp_types.hpp 451-457, lib/ocpp/v2/ocpp_types.cpp 1303-1315 and 1318-1329. *)
Definition v2_CertificateHashDataType : ty := Struct
  [("hashAlgorithm", false, Enm e_v2_hash_algorithm_enum);
   ("issuerNameHash", false, Str (Some 128));
   ("issuerKeyHash", false, Str (Some 128));
   ("serialNumber", false, Str (Some 40));
   ("customData", true, Any)]
  [WReq "hashAlgorithm" "hashAlgorithm" (Conv e_v2_hash_algorithm_enum);
   WReq "issuerNameHash" "issuerNameHash" (Plain);
   WReq "issuerKeyHash" "issuerKeyHash" (Plain);
   WReq "serialNumber" "serialNumber" (Plain);
   WOpt "customData" "customData" "customData" (Plain)]
  [RReq "hashAlgorithm" "hashAlgorithm" (Conv e_v2_hash_algorithm_enum);
   RReq "issuerNameHash" "issuerNameHash" (Plain);
   RReq "issuerKeyHash" "issuerKeyHash" (Plain);
   RReq "serialNumber" "serialNumber" (Plain);
   ROpt "customData" "customData" "customData" (Plain)].

(** CertificateStatusRequestInfo: include/ocpp/v2/ocpp_types.hpp 468-473, lib/ocpp/v2/ocpp_types.cpp 1339-1350 and 1353-1365. *)
Definition v2_CertificateStatusRequestInfo : ty := Struct
  [("certificateHashData", false, v2_CertificateHashDataType);
   ("source", false, Enm e_v2_certificate_status_source_enum);
   ("urls", false, Vec (Str (Some 2000)));
   ("customData", true, Any)]
  [WReq "certificateHashData" "certificateHashData" (Plain);
   WReq "source" "source" (Conv e_v2_certificate_status_source_enum);
   WReq "urls" "urls" (Plain);
   WOpt "customData" "customData" "customData" (Plain)]
  [RReq "certificateHashData" "certificateHashData" (Plain);
   RReq "source" "source" (Conv e_v2_certificate_status_source_enum);
   RReq "urls" "urls" Each;
   ROpt "customData" "customData" "customData" (Plain)].

(** CertificateStatus: include/ocpp/v2/ocpp_types.hpp 485-491, lib/ocpp/v2/ocpp_types.cpp 1376-1388 and 1391-1402. *)
Definition v2_CertificateStatus : ty := Struct
  [("certificateHashData", false, v2_CertificateHashDataType);
   ("source", false, Enm e_v2_certificate_status_source_enum);
   ("status", false, Enm e_v2_certificate_status_enum);
   ("nextUpdate", false, Time);
   ("customData", true, Any)]
  [WReq "certificateHashData" "certificateHashData" (Plain);
   WReq "source" "source" (Conv e_v2_certificate_status_source_enum);
   WReq "status" "status" (Conv e_v2_certificate_status_enum);
   WReq "nextUpdate" "nextUpdate" (Text);
   WOpt "customData" "customData" "customData" (Plain)]
  [RReq "certificateHashData" "certificateHashData" (Plain);
   RReq "source" "source" (Conv e_v2_certificate_status_source_enum);
   RReq "status" "status" (Conv e_v2_certificate_status_enum);
   RReq "nextUpdate" "nextUpdate" (Text);
   ROpt "customData" "customData" "customData" (Plain)].

(** ChargingProfileCriterion: include/ocpp/v2/ocpp_types.hpp 502-508, lib/ocpp/v2/ocpp_types.cpp 1412-1446 and 1449-1479. *)
Definition v2_ChargingProfileCriterion : ty := Struct
  [("chargingProfilePurpose", true, Enm e_v2_charging_profile_purpose_enum);
   ("stackLevel", true, Int);
   ("chargingProfileId", true, Vec (Int));
   ("chargingLimitSource", true, Vec (Str (Some 20)));
   ("customData", true, Any)]
  [WOpt "chargingProfilePurpose" "chargingProfilePurpose" "chargingProfilePurpose" (Conv e_v2_charging_profile_purpose_enum);
   WOpt "stackLevel" "stackLevel" "stackLevel" (Plain);
   WOpt "chargingProfileId" "chargingProfileId" "chargingProfileId" (Each);
   WOpt "chargingLimitSource" "chargingLimitSource" "chargingLimitSource" (Each);
   WOpt "customData" "customData" "customData" (Plain)]
  [ROpt "chargingProfilePurpose" "chargingProfilePurpose" "chargingProfilePurpose" (Conv e_v2_charging_profile_purpose_enum);
   ROpt "stackLevel" "stackLevel" "stackLevel" (Plain);
   ROpt "chargingProfileId" "chargingProfileId" "chargingProfileId" (Each);
   ROpt "chargingLimitSource" "chargingLimitSource" "chargingLimitSource" (Each);
   ROpt "customData" "customData" "customData" (Plain)].

(** V2XFreqWattPoint: include/ocpp/v2/ocpp_types.hpp 519-523, lib/ocpp/v2/ocpp_types.cpp 1489-1499 and 1502-1511. *)
Definition v2_V2XFreqWattPoint : ty := Struct
  [("frequency", false, Float);
   ("power", false, Float);
   ("customData", true, Any)]
  [WReq "frequency" "frequency" (Plain);
   WReq "power" "power" (Plain);
   WOpt "customData" "customData" "customData" (Plain)]
  [RReq "frequency" "frequency" (Plain);
   RReq "power" "power" (Plain);
   ROpt "customData" "customData" "customData" (Plain)].

(** V2XSignalWattPoint: include/ocpp/v2/ocpp_types.hpp 534-538, lib/ocpp/v2/ocpp_types.cpp 1521-1531 and 1534-1543. *)
Definition v2_V2XSignalWattPoint : ty := Struct
  [("signal", false, Int);
   ("power", false, Float);
   ("customData", true, Any)]
  [WReq "signal" "signal" (Plain);
   WReq "power" "power" (Plain);
   WOpt "customData" "customData" "customData" (Plain)]
  [RReq "signal" "signal" (Plain);
   RReq "power" "power" (Plain);
   ROpt "customData" "customData" "customData" (Plain)].

(** ChargingSchedulePeriod: include/ocpp/v2/ocpp_types.hpp 549-572, lib/ocpp/v2/ocpp_types.cpp 1553-1628 and 1631-1709. *)
Definition v2_ChargingSchedulePeriod : ty := Struct
  [("startPeriod", false, Int);
   ("limit", true, Float);
   ("limit_L2", true, Float);
   ("limit_L3", true, Float);
   ("numberPhases", true, Int);
   ("phaseToUse", true, Int);
   ("dischargeLimit", true, Float);
   ("dischargeLimit_L2", true, Float);
   ("dischargeLimit_L3", true, Float);
   ("setpoint", true, Float);
   ("setpoint_L2", true, Float);
   ("setpoint_L3", true, Float);
   ("setpointReactive", true, Float);
   ("setpointReactive_L2", true, Float);
   ("setpointReactive_L3", true, Float);
   ("preconditioningRequest", true, Flag);
   ("evseSleep", true, Flag);
   ("v2xBaseline", true, Float);
   ("operationMode", true, Enm e_v2_operation_mode_enum);
   ("v2xFreqWattCurve", true, Vec (v2_V2XFreqWattPoint));
   ("v2xSignalWattCurve", true, Vec (v2_V2XSignalWattPoint));
   ("customData", true, Any)]
  [WReq "startPeriod" "startPeriod" (Plain);
   WOpt "limit" "limit" "limit" (Plain);
   WOpt "limit_L2" "limit_L2" "limit_L2" (Plain);
   WOpt "limit_L3" "limit_L3" "limit_L3" (Plain);
   WOpt "numberPhases" "numberPhases" "numberPhases" (Plain);
   WOpt "phaseToUse" "phaseToUse" "phaseToUse" (Plain);
   WOpt "dischargeLimit" "dischargeLimit" "dischargeLimit" (Plain);
   WOpt "dischargeLimit_L2" "dischargeLimit_L2" "dischargeLimit_L2" (Plain);
   WOpt "dischargeLimit_L3" "dischargeLimit_L3" "dischargeLimit_L3" (Plain);
   WOpt "setpoint" "setpoint" "setpoint" (Plain);
   WOpt "setpoint_L2" "setpoint_L2" "setpoint_L2" (Plain);
   WOpt "setpoint_L3" "setpoint_L3" "setpoint_L3" (Plain);
   WOpt "setpointReactive" "setpointReactive" "setpointReactive" (Plain);
   WOpt "setpointReactive_L2" "setpointReactive_L2" "setpointReactive_L2" (Plain);
   WOpt "setpointReactive_L3" "setpointReactive_L3" "setpointReactive_L3" (Plain);
   WOpt "preconditioningRequest" "preconditioningRequest" "preconditioningRequest" (Plain);
   WOpt "evseSleep" "evseSleep" "evseSleep" (Plain);
   WOpt "v2xBaseline" "v2xBaseline" "v2xBaseline" (Plain);
   WOpt "operationMode" "operationMode" "operationMode" (Conv e_v2_operation_mode_enum);
   WOpt "v2xFreqWattCurve" "v2xFreqWattCurve" "v2xFreqWattCurve" (Each);
   WOpt "v2xSignalWattCurve" "v2xSignalWattCurve" "v2xSignalWattCurve" (Each);
   WOpt "customData" "customData" "customData" (Plain)]
  [RReq "startPeriod" "startPeriod" (Plain);
   ROpt "limit" "limit" "limit" (Plain);
   ROpt "limit_L2" "limit_L2" "limit_L2" (Plain);
   ROpt "limit_L3" "limit_L3" "limit_L3" (Plain);
   ROpt "numberPhases" "numberPhases" "numberPhases" (Plain);
   ROpt "phaseToUse" "phaseToUse" "phaseToUse" (Plain);
   ROpt "dischargeLimit" "dischargeLimit" "dischargeLimit" (Plain);
   ROpt "dischargeLimit_L2" "dischargeLimit_L2" "dischargeLimit_L2" (Plain);
   ROpt "dischargeLimit_L3" "dischargeLimit_L3" "dischargeLimit_L3" (Plain);
   ROpt "setpoint" "setpoint" "setpoint" (Plain);
   ROpt "setpoint_L2" "setpoint_L2" "setpoint_L2" (Plain);
   ROpt "setpoint_L3" "setpoint_L3" "setpoint_L3" (Plain);
   ROpt "setpointReactive" "setpointReactive" "setpointReactive" (Plain);
   ROpt "setpointReactive_L2" "setpointReactive_L2" "setpointReactive_L2" (Plain);
   ROpt "setpointReactive_L3" "setpointReactive_L3" "setpointReactive_L3" (Plain);
   ROpt "preconditioningRequest" "preconditioningRequest" "preconditioningRequest" (Plain);
   ROpt "evseSleep" "evseSleep" "evseSleep" (Plain);
   ROpt "v2xBaseline" "v2xBaseline" "v2xBaseline" (Plain);
   ROpt "operationMode" "operationMode" "operationMode" (Conv e_v2_operation_mode_enum);
   ROpt "v2xFreqWattCurve" "v2xFreqWattCurve" "v2xFreqWattCurve" (Each);
   ROpt "v2xSignalWattCurve" "v2xSignalWattCurve" "v2xSignalWattCurve" (Each);
   ROpt "customData" "customData" "customData" (Plain)].

(** CompositeSchedule: include/ocpp/v2/ocpp_types.hpp 583-590, lib/ocpp/v2/ocpp_types.cpp 1719-1732 and 1735-1749. *)
Definition v2_CompositeSchedule : ty := Struct
  [("evseId", false, Int);
   ("duration", false, Int);
   ("scheduleStart", false, Time);
   ("chargingRateUnit", false, Enm e_v2_charging_rate_unit_enum);
   ("chargingSchedulePeriod", false, Vec (v2_ChargingSchedulePeriod));
   ("customData", true, Any)]
  [WReq "evseId" "evseId" (Plain);
   WReq "duration" "duration" (Plain);
   WReq "scheduleStart" "scheduleStart" (Text);
   WReq "chargingRateUnit" "chargingRateUnit" (Conv e_v2_charging_rate_unit_enum);
   WReq "chargingSchedulePeriod" "chargingSchedulePeriod" (Plain);
   WOpt "customData" "customData" "customData" (Plain)]
  [RReq "evseId" "evseId" (Plain);
   RReq "duration" "duration" (Plain);
   RReq "scheduleStart" "scheduleStart" (Text);
   RReq "chargingRateUnit" "chargingRateUnit" (Conv e_v2_charging_rate_unit_enum);
   RReq "chargingSchedulePeriod" "chargingSchedulePeriod" Each;
   ROpt "customData" "customData" "customData" (Plain)].

(** CertificateHashDataChain: include/ocpp/v2/ocpp_types.hpp 601-606, lib/ocpp/v2/ocpp_types.cpp 1759-1775 and 1778-1795. *)
Definition v2_CertificateHashDataChain : ty := Struct
  [("certificateHashData", false, v2_CertificateHashDataType);
   ("certificateType", false, Enm e_v2_get_certificate_id_use_enum);
   ("childCertificateHashData", true, Vec (v2_CertificateHashDataType));
   ("customData", true, Any)]
  [WReq "certificateHashData" "certificateHashData" (Plain);
   WReq "certificateType" "certificateType" (Conv e_v2_get_certificate_id_use_enum);
   WOpt "childCertificateHashData" "childCertificateHashData" "childCertificateHashData" (Each);
   WOpt "customData" "customData" "customData" (Plain)]
  [RReq "certificateHashData" "certificateHashData" (Plain);
   RReq "certificateType" "certificateType" (Conv e_v2_get_certificate_id_use_enum);
   ROpt "childCertificateHashData" "childCertificateHashData" "childCertificateHashData" (Each);
   ROpt "customData" "customData" "customData" (Plain)].

(** LogParameters: include/ocpp/v2/ocpp_types.hpp 617-622, lib/ocpp/v2/ocpp_types.cpp 1805-1820 and 1823-1837. *)
Definition v2_LogParameters : ty := Struct
  [("remoteLocation", false, Str (Some 2000));
   ("oldestTimestamp", true, Time);
   ("latestTimestamp", true, Time);
   ("customData", true, Any)]
  [WReq "remoteLocation" "remoteLocation" (Plain);
   WOpt "oldestTimestamp" "oldestTimestamp" "oldestTimestamp" (Text);
   WOpt "latestTimestamp" "latestTimestamp" "latestTimestamp" (Text);
   WOpt "customData" "customData" "customData" (Plain)]
  [RReq "remoteLocation" "remoteLocation" (Plain);
   ROpt "oldestTimestamp" "oldestTimestamp" "oldestTimestamp" (Text);
   ROpt "latestTimestamp" "latestTimestamp" "latestTimestamp" (Text);
   ROpt "customData" "customData" "customData" (Plain)].

(** Component: include/ocpp/v2/ocpp_types.hpp 633-638, lib/ocpp/v2/ocpp_types.cpp 1847-1862 and 1865-1879. *)
Definition v2_Component : ty := Struct
  [("name", false, Str (Some 50));
   ("evse", true, v2_EVSE);
   ("instance", true, Str (Some 50));
   ("customData", true, Any)]
  [WReq "name" "name" (Plain);
   WOpt "evse" "evse" "evse" (Plain);
   WOpt "instance" "instance" "instance" (Plain);
   WOpt "customData" "customData" "customData" (Plain)]
  [RReq "name" "name" (Plain);
   ROpt "evse" "evse" "evse" (Plain);
   ROpt "instance" "instance" "instance" (Plain);
   ROpt "customData" "customData" "customData" (Plain)].

(** Variable: include/ocpp/v2/ocpp_types.hpp 649-653, lib/ocpp/v2/ocpp_types.cpp 1889-1901 and 1904-1915. *)
Definition v2_Variable : ty := Struct
  [("name", false, Str (Some 50));
   ("instance", true, Str (Some 50));
   ("customData", true, Any)]
  [WReq "name" "name" (Plain);
   WOpt "instance" "instance" "instance" (Plain);
   WOpt "customData" "customData" "customData" (Plain)]
  [RReq "name" "name" (Plain);
   ROpt "instance" "instance" "instance" (Plain);
   ROpt "customData" "customData" "customData" (Plain)].

(** ComponentVariable: include/ocpp/v2/ocpp_types.hpp 664-668, lib/ocpp/v2/ocpp_types.cpp 1925-1937 and 1940-1951. *)
Definition v2_ComponentVariable : ty := Struct
  [("component", false, v2_Component);
   ("variable", true, v2_Variable);
   ("customData", true, Any)]
  [WReq "component" "component" (Plain);
   WOpt "variable" "variable" "variable" (Plain);
   WOpt "customData" "customData" "customData" (Plain)]
  [RReq "component" "component" (Plain);
   ROpt "variable" "variable" "variable" (Plain);
   ROpt "customData" "customData" "customData" (Plain)].

(** ConstantStreamData: include/ocpp/v2/ocpp_types.hpp 679-684, lib/ocpp/v2/ocpp_types.cpp 1961-1972 and 1975-1985. *)
Definition v2_ConstantStreamData : ty := Struct
  [("id", false, Int);
   ("params", false, v2_PeriodicEventStreamParams);
   ("variableMonitoringId", false, Int);
   ("customData", true, Any)]
  [WReq "id" "id" (Plain);
   WReq "params" "params" (Plain);
   WReq "variableMonitoringId" "variableMonitoringId" (Plain);
   WOpt "customData" "customData" "customData" (Plain)]
  [RReq "id" "id" (Plain);
   RReq "params" "params" (Plain);
   RReq "variableMonitoringId" "variableMonitoringId" (Plain);
   ROpt "customData" "customData" "customData" (Plain)].

(** TariffAssignment: include/ocpp/v2/ocpp_types.hpp 695-702, lib/ocpp/v2/ocpp_types.cpp 1995-2020 and 2023-2051. *)
Definition v2_TariffAssignment : ty := Struct
  [("tariffId", false, Str (Some 60));
   ("tariffKind", false, Enm e_v2_tariff_kind_enum);
   ("validFrom", true, Time);
   ("evseIds", true, Vec (Int));
   ("idTokens", true, Vec (Str (Some 255)));
   ("customData", true, Any)]
  [WReq "tariffId" "tariffId" (Plain);
   WReq "tariffKind" "tariffKind" (Conv e_v2_tariff_kind_enum);
   WOpt "validFrom" "validFrom" "validFrom" (Text);
   WOpt "evseIds" "evseIds" "evseIds" (Each);
   WOpt "idTokens" "idTokens" "idTokens" (Each);
   WOpt "customData" "customData" "customData" (Plain)]
  [RReq "tariffId" "tariffId" (Plain);
   RReq "tariffKind" "tariffKind" (Conv e_v2_tariff_kind_enum);
   ROpt "validFrom" "validFrom" "validFrom" (Text);
   ROpt "evseIds" "evseIds" "evseIds" (Each);
   ROpt "idTokens" "idTokens" "idTokens" (Each);
   ROpt "customData" "customData" "customData" (Plain)].

(** GetVariableData: include/ocpp/v2/ocpp_types.hpp 713-718, lib/ocpp/v2/ocpp_types.cpp 2061-2074 and 2077-2089. *)
Definition v2_GetVariableData : ty := Struct
  [("component", false, v2_Component);
   ("variable", false, v2_Variable);
   ("attributeType", true, Enm e_v2_attribute_enum);
   ("customData", true, Any)]
  [WReq "component" "component" (Plain);
   WReq "variable" "variable" (Plain);
   WOpt "attributeType" "attributeType" "attributeType" (Conv e_v2_attribute_enum);
   WOpt "customData" "customData" "customData" (Plain)]
  [RReq "component" "component" (Plain);
   RReq "variable" "variable" (Plain);
   ROpt "attributeType" "attributeType" "attributeType" (Conv e_v2_attribute_enum);
   ROpt "customData" "customData" "customData" (Plain)].

(** GetVariableResult: include/ocpp/v2/ocpp_types.hpp 729-737, lib/ocpp/v2/ocpp_types.cpp 2099-2119 and 2122-2141. *)
Definition v2_GetVariableResult : ty := Struct
  [("attributeStatus", false, Enm e_v2_get_variable_status_enum);
   ("component", false, v2_Component);
   ("variable", false, v2_Variable);
   ("attributeStatusInfo", true, v2_StatusInfo);
   ("attributeType", true, Enm e_v2_attribute_enum);
   ("attributeValue", true, Str (Some 2500));
   ("customData", true, Any)]
  [WReq "attributeStatus" "attributeStatus" (Conv e_v2_get_variable_status_enum);
   WReq "component" "component" (Plain);
   WReq "variable" "variable" (Plain);
   WOpt "attributeStatusInfo" "attributeStatusInfo" "attributeStatusInfo" (Plain);
   WOpt "attributeType" "attributeType" "attributeType" (Conv e_v2_attribute_enum);
   WOpt "attributeValue" "attributeValue" "attributeValue" (Plain);
   WOpt "customData" "customData" "customData" (Plain)]
  [RReq "attributeStatus" "attributeStatus" (Conv e_v2_get_variable_status_enum);
   RReq "component" "component" (Plain);
   RReq "variable" "variable" (Plain);
   ROpt "attributeStatusInfo" "attributeStatusInfo" "attributeStatusInfo" (Plain);
   ROpt "attributeType" "attributeType" "attributeType" (Conv e_v2_attribute_enum);
   ROpt "attributeValue" "attributeValue" "attributeValue" (Plain);
   ROpt "customData" "customData" "customData" (Plain)].

(** SignedMeterValue: include/ocpp/v2/ocpp_types.hpp 748-754, lib/ocpp/v2/ocpp_types.cpp 2151-2167 and 2170-2185. *)
Definition v2_SignedMeterValue : ty := Struct
  [("signedMeterData", false, Str (Some 32768));
   ("encodingMethod", false, Str (Some 50));
   ("signingMethod", true, Str (Some 50));
   ("publicKey", true, Str (Some 2500));
   ("customData", true, Any)]
  [WReq "signedMeterData" "signedMeterData" (Plain);
   WReq "encodingMethod" "encodingMethod" (Plain);
   WOpt "signingMethod" "signingMethod" "signingMethod" (Plain);
   WOpt "publicKey" "publicKey" "publicKey" (Plain);
   WOpt "customData" "customData" "customData" (Plain)]
  [RReq "signedMeterData" "signedMeterData" (Plain);
   RReq "encodingMethod" "encodingMethod" (Plain);
   ROpt "signingMethod" "signingMethod" "signingMethod" (Plain);
   ROpt "publicKey" "publicKey" "publicKey" (Plain);
   ROpt "customData" "customData" "customData" (Plain)].

(** UnitOfMeasure: include/ocpp/v2/ocpp_types.hpp 765-769, lib/ocpp/v2/ocpp_types.cpp 2195-2208 and 2211-2224. *)
Definition v2_UnitOfMeasure : ty := Struct
  [("unit", true, Str (Some 20));
   ("multiplier", true, Int);
   ("customData", true, Any)]
  [WOpt "unit" "unit" "unit" (Plain);
   WOpt "multiplier" "multiplier" "multiplier" (Plain);
   WOpt "customData" "customData" "customData" (Plain)]
  [ROpt "unit" "unit" "unit" (Plain);
   ROpt "multiplier" "multiplier" "multiplier" (Plain);
   ROpt "customData" "customData" "customData" (Plain)].

(** SampledValue: include/ocpp/v2/ocpp_types.hpp 780-789, lib/ocpp/v2/ocpp_types.cpp 2234-2261 and 2264-2290. *)
Definition v2_SampledValue : ty := Struct
  [("value", false, Float);
   ("measurand", true, Enm e_v2_measurand_enum);
   ("context", true, Enm e_v2_reading_context_enum);
   ("phase", true, Enm e_v2_phase_enum);
   ("location", true, Enm e_v2_location_enum);
   ("signedMeterValue", true, v2_SignedMeterValue);
   ("unitOfMeasure", true, v2_UnitOfMeasure);
   ("customData", true, Any)]
  [WReq "value" "value" (Plain);
   WOpt "measurand" "measurand" "measurand" (Conv e_v2_measurand_enum);
   WOpt "context" "context" "context" (Conv e_v2_reading_context_enum);
   WOpt "phase" "phase" "phase" (Conv e_v2_phase_enum);
   WOpt "location" "location" "location" (Conv e_v2_location_enum);
   WOpt "signedMeterValue" "signedMeterValue" "signedMeterValue" (Plain);
   WOpt "unitOfMeasure" "unitOfMeasure" "unitOfMeasure" (Plain);
   WOpt "customData" "customData" "customData" (Plain)]
  [RReq "value" "value" (Plain);
   ROpt "measurand" "measurand" "measurand" (Conv e_v2_measurand_enum);
   ROpt "context" "context" "context" (Conv e_v2_reading_context_enum);
   ROpt "phase" "phase" "phase" (Conv e_v2_phase_enum);
   ROpt "location" "location" "location" (Conv e_v2_location_enum);
   ROpt "signedMeterValue" "signedMeterValue" "signedMeterValue" (Plain);
   ROpt "unitOfMeasure" "unitOfMeasure" "unitOfMeasure" (Plain);
   ROpt "customData" "customData" "customData" (Plain)].

(** MeterValue: include/ocpp/v2/ocpp_types.hpp 800-804, lib/ocpp/v2/ocpp_types.cpp 2300-2310 and 2313-2324. *)
Definition v2_MeterValue : ty := Struct
  [("sampledValue", false, Vec (v2_SampledValue));
   ("timestamp", false, Time);
   ("customData", true, Any)]
  [WReq "sampledValue" "sampledValue" (Plain);
   WReq "timestamp" "timestamp" (Text);
   WOpt "customData" "customData" "customData" (Plain)]
  [RReq "sampledValue" "sampledValue" Each;
   RReq "timestamp" "timestamp" (Text);
   ROpt "customData" "customData" "customData" (Plain)].

(** LimitAtSoC: include/ocpp/v2/ocpp_types.hpp 815-819, lib/ocpp/v2/ocpp_types.cpp 2334-2344 and 2347-2356. *)
Definition v2_LimitAtSoC : ty := Struct
  [("soc", false, Int);
   ("limit", false, Float);
   ("customData", true, Any)]
  [WReq "soc" "soc" (Plain);
   WReq "limit" "limit" (Plain);
   WOpt "customData" "customData" "customData" (Plain)]
  [RReq "soc" "soc" (Plain);
   RReq "limit" "limit" (Plain);
   ROpt "customData" "customData" "customData" (Plain)].

(** RelativeTimeInterval: include/ocpp/v2/ocpp_types.hpp 830-834, lib/ocpp/v2/ocpp_types.cpp 2366-2378 and 2381-2392. *)
Definition v2_RelativeTimeInterval : ty := Struct
  [("start", false, Int);
   ("duration", true, Int);
   ("customData", true, Any)]
  [WReq "start" "start" (Plain);
   WOpt "duration" "duration" "duration" (Plain);
   WOpt "customData" "customData" "customData" (Plain)]
  [RReq "start" "start" (Plain);
   ROpt "duration" "duration" "duration" (Plain);
   ROpt "customData" "customData" "customData" (Plain)].

(** Cost: include/ocpp/v2/ocpp_types.hpp 845-850, lib/ocpp/v2/ocpp_types.cpp 2402-2415 and 2418-2430. *)
Definition v2_Cost : ty := Struct
  [("costKind", false, Enm e_v2_cost_kind_enum);
   ("amount", false, Int);
   ("amountMultiplier", true, Int);
   ("customData", true, Any)]
  [WReq "costKind" "costKind" (Conv e_v2_cost_kind_enum);
   WReq "amount" "amount" (Plain);
   WOpt "amountMultiplier" "amountMultiplier" "amountMultiplier" (Plain);
   WOpt "customData" "customData" "customData" (Plain)]
  [RReq "costKind" "costKind" (Conv e_v2_cost_kind_enum);
   RReq "amount" "amount" (Plain);
   ROpt "amountMultiplier" "amountMultiplier" "amountMultiplier" (Plain);
   ROpt "customData" "customData" "customData" (Plain)].

(** ConsumptionCost: include/ocpp/v2/ocpp_types.hpp 861-865, lib/ocpp/v2/ocpp_types.cpp 2440-2450 and 2453-2464. *)
Definition v2_ConsumptionCost : ty := Struct
  [("startValue", false, Float);
   ("cost", false, Vec (v2_Cost));
   ("customData", true, Any)]
  [WReq "startValue" "startValue" (Plain);
   WReq "cost" "cost" (Plain);
   WOpt "customData" "customData" "customData" (Plain)]
  [RReq "startValue" "startValue" (Plain);
   RReq "cost" "cost" Each;
   ROpt "customData" "customData" "customData" (Plain)].

(** SalesTariffEntry: include/ocpp/v2/ocpp_types.hpp 876-881, lib/ocpp/v2/ocpp_types.cpp 2474-2492 and 2495-2514. *)
Definition v2_SalesTariffEntry : ty := Struct
  [("relativeTimeInterval", false, v2_RelativeTimeInterval);
   ("ePriceLevel", true, Int);
   ("consumptionCost", true, Vec (v2_ConsumptionCost));
   ("customData", true, Any)]
  [WReq "relativeTimeInterval" "relativeTimeInterval" (Plain);
   WOpt "ePriceLevel" "ePriceLevel" "ePriceLevel" (Plain);
   WOpt "consumptionCost" "consumptionCost" "consumptionCost" (Each);
   WOpt "customData" "customData" "customData" (Plain)]
  [RReq "relativeTimeInterval" "relativeTimeInterval" (Plain);
   ROpt "ePriceLevel" "ePriceLevel" "ePriceLevel" (Plain);
   ROpt "consumptionCost" "consumptionCost" "consumptionCost" (Each);
   ROpt "customData" "customData" "customData" (Plain)].

(** SalesTariff: include/ocpp/v2/ocpp_types.hpp 892-898, lib/ocpp/v2/ocpp_types.cpp 2524-2540 and 2543-2560. *)
Definition v2_SalesTariff : ty := Struct
  [("id", false, Int);
   ("salesTariffEntry", false, Vec (v2_SalesTariffEntry));
   ("salesTariffDescription", true, Str (Some 32));
   ("numEPriceLevels", true, Int);
   ("customData", true, Any)]
  [WReq "id" "id" (Plain);
   WReq "salesTariffEntry" "salesTariffEntry" (Plain);
   WOpt "salesTariffDescription" "salesTariffDescription" "salesTariffDescription" (Plain);
   WOpt "numEPriceLevels" "numEPriceLevels" "numEPriceLevels" (Plain);
   WOpt "customData" "customData" "customData" (Plain)]
  [RReq "id" "id" (Plain);
   RReq "salesTariffEntry" "salesTariffEntry" Each;
   ROpt "salesTariffDescription" "salesTariffDescription" "salesTariffDescription" (Plain);
   ROpt "numEPriceLevels" "numEPriceLevels" "numEPriceLevels" (Plain);
   ROpt "customData" "customData" "customData" (Plain)].

(** RationalNumber: include/ocpp/v2/ocpp_types.hpp 909-913, lib/ocpp/v2/ocpp_types.cpp 2570-2580 and 2583-2592. *)
Definition v2_RationalNumber : ty := Struct
  [("exponent", false, Int);
   ("value", false, Int);
   ("customData", true, Any)]
  [WReq "exponent" "exponent" (Plain);
   WReq "value" "value" (Plain);
   WOpt "customData" "customData" "customData" (Plain)]
  [RReq "exponent" "exponent" (Plain);
   RReq "value" "value" (Plain);
   ROpt "customData" "customData" "customData" (Plain)].

(** PriceRule: include/ocpp/v2/ocpp_types.hpp 924-932, lib/ocpp/v2/ocpp_types.cpp 2602-2624 and 2627-2648. *)
Definition v2_PriceRule : ty := Struct
  [("energyFee", false, v2_RationalNumber);
   ("powerRangeStart", false, v2_RationalNumber);
   ("parkingFeePeriod", true, Int);
   ("carbonDioxideEmission", true, Int);
   ("renewableGenerationPercentage", true, Int);
   ("parkingFee", true, v2_RationalNumber);
   ("customData", true, Any)]
  [WReq "energyFee" "energyFee" (Plain);
   WReq "powerRangeStart" "powerRangeStart" (Plain);
   WOpt "parkingFeePeriod" "parkingFeePeriod" "parkingFeePeriod" (Plain);
   WOpt "carbonDioxideEmission" "carbonDioxideEmission" "carbonDioxideEmission" (Plain);
   WOpt "renewableGenerationPercentage" "renewableGenerationPercentage" "renewableGenerationPercentage" (Plain);
   WOpt "parkingFee" "parkingFee" "parkingFee" (Plain);
   WOpt "customData" "customData" "customData" (Plain)]
  [RReq "energyFee" "energyFee" (Plain);
   RReq "powerRangeStart" "powerRangeStart" (Plain);
   ROpt "parkingFeePeriod" "parkingFeePeriod" "parkingFeePeriod" (Plain);
   ROpt "carbonDioxideEmission" "carbonDioxideEmission" "carbonDioxideEmission" (Plain);
   ROpt "renewableGenerationPercentage" "renewableGenerationPercentage" "renewableGenerationPercentage" (Plain);
   ROpt "parkingFee" "parkingFee" "parkingFee" (Plain);
   ROpt "customData" "customData" "customData" (Plain)].

(** PriceRuleStack: include/ocpp/v2/ocpp_types.hpp 943-947, lib/ocpp/v2/ocpp_types.cpp 2658-2668 and 2671-2682. *)
Definition v2_PriceRuleStack : ty := Struct
  [("duration", false, Int);
   ("priceRule", false, Vec (v2_PriceRule));
   ("customData", true, Any)]
  [WReq "duration" "duration" (Plain);
   WReq "priceRule" "priceRule" (Plain);
   WOpt "customData" "customData" "customData" (Plain)]
  [RReq "duration" "duration" (Plain);
   RReq "priceRule" "priceRule" Each;
   ROpt "customData" "customData" "customData" (Plain)].

(** TaxRule: include/ocpp/v2/ocpp_types.hpp 958-968, lib/ocpp/v2/ocpp_types.cpp 2692-2712 and 2715-2734. *)
Definition v2_TaxRule : ty := Struct
  [("taxRuleID", false, Int);
   ("appliesToEnergyFee", false, Flag);
   ("appliesToParkingFee", false, Flag);
   ("appliesToOverstayFee", false, Flag);
   ("appliesToMinimumMaximumCost", false, Flag);
   ("taxRate", false, v2_RationalNumber);
   ("taxRuleName", true, Str (Some 100));
   ("taxIncludedInPrice", true, Flag);
   ("customData", true, Any)]
  [WReq "taxRuleID" "taxRuleID" (Plain);
   WReq "appliesToEnergyFee" "appliesToEnergyFee" (Plain);
   WReq "appliesToParkingFee" "appliesToParkingFee" (Plain);
   WReq "appliesToOverstayFee" "appliesToOverstayFee" (Plain);
   WReq "appliesToMinimumMaximumCost" "appliesToMinimumMaximumCost" (Plain);
   WReq "taxRate" "taxRate" (Plain);
   WOpt "taxRuleName" "taxRuleName" "taxRuleName" (Plain);
   WOpt "taxIncludedInPrice" "taxIncludedInPrice" "taxIncludedInPrice" (Plain);
   WOpt "customData" "customData" "customData" (Plain)]
  [RReq "taxRuleID" "taxRuleID" (Plain);
   RReq "appliesToEnergyFee" "appliesToEnergyFee" (Plain);
   RReq "appliesToParkingFee" "appliesToParkingFee" (Plain);
   RReq "appliesToOverstayFee" "appliesToOverstayFee" (Plain);
   RReq "appliesToMinimumMaximumCost" "appliesToMinimumMaximumCost" (Plain);
   RReq "taxRate" "taxRate" (Plain);
   ROpt "taxRuleName" "taxRuleName" "taxRuleName" (Plain);
   ROpt "taxIncludedInPrice" "taxIncludedInPrice" "taxIncludedInPrice" (Plain);
   ROpt "customData" "customData" "customData" (Plain)].

(** OverstayRule: include/ocpp/v2/ocpp_types.hpp 979-985, lib/ocpp/v2/ocpp_types.cpp 2744-2758 and 2761-2774. *)
Definition v2_OverstayRule : ty := Struct
  [("overstayFee", false, v2_RationalNumber);
   ("startTime", false, Int);
   ("overstayFeePeriod", false, Int);
   ("overstayRuleDescription", true, Str (Some 32));
   ("customData", true, Any)]
  [WReq "overstayFee" "overstayFee" (Plain);
   WReq "startTime" "startTime" (Plain);
   WReq "overstayFeePeriod" "overstayFeePeriod" (Plain);
   WOpt "overstayRuleDescription" "overstayRuleDescription" "overstayRuleDescription" (Plain);
   WOpt "customData" "customData" "customData" (Plain)]
  [RReq "overstayFee" "overstayFee" (Plain);
   RReq "startTime" "startTime" (Plain);
   RReq "overstayFeePeriod" "overstayFeePeriod" (Plain);
   ROpt "overstayRuleDescription" "overstayRuleDescription" "overstayRuleDescription" (Plain);
   ROpt "customData" "customData" "customData" (Plain)].

(** OverstayRuleList: include/ocpp/v2/ocpp_types.hpp 996-1001, lib/ocpp/v2/ocpp_types.cpp 2784-2799 and 2802-2818. *)
Definition v2_OverstayRuleList : ty := Struct
  [("overstayRule", false, Vec (v2_OverstayRule));
   ("overstayPowerThreshold", true, v2_RationalNumber);
   ("overstayTimeThreshold", true, Int);
   ("customData", true, Any)]
  [WReq "overstayRule" "overstayRule" (Plain);
   WOpt "overstayPowerThreshold" "overstayPowerThreshold" "overstayPowerThreshold" (Plain);
   WOpt "overstayTimeThreshold" "overstayTimeThreshold" "overstayTimeThreshold" (Plain);
   WOpt "customData" "customData" "customData" (Plain)]
  [RReq "overstayRule" "overstayRule" Each;
   ROpt "overstayPowerThreshold" "overstayPowerThreshold" "overstayPowerThreshold" (Plain);
   ROpt "overstayTimeThreshold" "overstayTimeThreshold" "overstayTimeThreshold" (Plain);
   ROpt "customData" "customData" "customData" (Plain)].

(** AdditionalSelectedServices: include/ocpp/v2/ocpp_types.hpp 1012-1016, lib/ocpp/v2/ocpp_types.cpp 2828-2838 and 2841-2850. *)
Definition v2_AdditionalSelectedServices : ty := Struct
  [("serviceFee", false, v2_RationalNumber);
   ("serviceName", false, Str (Some 80));
   ("customData", true, Any)]
  [WReq "serviceFee" "serviceFee" (Plain);
   WReq "serviceName" "serviceName" (Plain);
   WOpt "customData" "customData" "customData" (Plain)]
  [RReq "serviceFee" "serviceFee" (Plain);
   RReq "serviceName" "serviceName" (Plain);
   ROpt "customData" "customData" "customData" (Plain)].

(** AbsolutePriceSchedule: include/ocpp/v2/ocpp_types.hpp 1028-1042, lib/ocpp/v2/ocpp_types.cpp 2860-2898 and 2901-2944. *)
Definition v2_AbsolutePriceSchedule : ty := Struct
  [("timeAnchor", false, Time);
   ("priceScheduleID", false, Int);
   ("currency", false, Str (Some 3));
   ("language", false, Str (Some 8));
   ("priceAlgorithm", false, Str (Some 2000));
   ("priceRuleStacks", false, Vec (v2_PriceRuleStack));
   ("priceScheduleDescription", true, Str (Some 160));
   ("minimumCost", true, v2_RationalNumber);
   ("maximumCost", true, v2_RationalNumber);
   ("taxRules", true, Vec (v2_TaxRule));
   ("overstayRuleList", true, v2_OverstayRuleList);
   ("additionalSelectedServices", true, Vec (v2_AdditionalSelectedServices));
   ("customData", true, Any)]
  [WReq "timeAnchor" "timeAnchor" (Text);
   WReq "priceScheduleID" "priceScheduleID" (Plain);
   WReq "currency" "currency" (Plain);
   WReq "language" "language" (Plain);
   WReq "priceAlgorithm" "priceAlgorithm" (Plain);
   WReq "priceRuleStacks" "priceRuleStacks" (Plain);
   WOpt "priceScheduleDescription" "priceScheduleDescription" "priceScheduleDescription" (Plain);
   WOpt "minimumCost" "minimumCost" "minimumCost" (Plain);
   WOpt "maximumCost" "maximumCost" "maximumCost" (Plain);
   WOpt "taxRules" "taxRules" "taxRules" (Each);
   WOpt "overstayRuleList" "overstayRuleList" "overstayRuleList" (Plain);
   WOpt "additionalSelectedServices" "additionalSelectedServices" "additionalSelectedServices" (Each);
   WOpt "customData" "customData" "customData" (Plain)]
  [RReq "timeAnchor" "timeAnchor" (Text);
   RReq "priceScheduleID" "priceScheduleID" (Plain);
   RReq "currency" "currency" (Plain);
   RReq "language" "language" (Plain);
   RReq "priceAlgorithm" "priceAlgorithm" (Plain);
   RReq "priceRuleStacks" "priceRuleStacks" Each;
   ROpt "priceScheduleDescription" "priceScheduleDescription" "priceScheduleDescription" (Plain);
   ROpt "minimumCost" "minimumCost" "minimumCost" (Plain);
   ROpt "maximumCost" "maximumCost" "maximumCost" (Plain);
   ROpt "taxRules" "taxRules" "taxRules" (Each);
   ROpt "overstayRuleList" "overstayRuleList" "overstayRuleList" (Plain);
   ROpt "additionalSelectedServices" "additionalSelectedServices" "additionalSelectedServices" (Each);
   ROpt "customData" "customData" "customData" (Plain)].

(** PriceLevelScheduleEntry: include/ocpp/v2/ocpp_types.hpp 1053-1057, lib/ocpp/v2/ocpp_types.cpp 2954-2964 and 2967-2976. *)
Definition v2_PriceLevelScheduleEntry : ty := Struct
  [("duration", false, Int);
   ("priceLevel", false, Int);
   ("customData", true, Any)]
  [WReq "duration" "duration" (Plain);
   WReq "priceLevel" "priceLevel" (Plain);
   WOpt "customData" "customData" "customData" (Plain)]
  [RReq "duration" "duration" (Plain);
   RReq "priceLevel" "priceLevel" (Plain);
   ROpt "customData" "customData" "customData" (Plain)].

(** PriceLevelSchedule: include/ocpp/v2/ocpp_types.hpp 1068-1075, lib/ocpp/v2/ocpp_types.cpp 2986-3001 and 3004-3020. *)
Definition v2_PriceLevelSchedule : ty := Struct
  [("priceLevelScheduleEntries", false, Vec (v2_PriceLevelScheduleEntry));
   ("timeAnchor", false, Time);
   ("priceScheduleId", false, Int);
   ("numberOfPriceLevels", false, Int);
   ("priceScheduleDescription", true, Str (Some 32));
   ("customData", true, Any)]
  [WReq "priceLevelScheduleEntries" "priceLevelScheduleEntries" (Plain);
   WReq "timeAnchor" "timeAnchor" (Text);
   WReq "priceScheduleId" "priceScheduleId" (Plain);
   WReq "numberOfPriceLevels" "numberOfPriceLevels" (Plain);
   WOpt "priceScheduleDescription" "priceScheduleDescription" "priceScheduleDescription" (Plain);
   WOpt "customData" "customData" "customData" (Plain)]
  [RReq "priceLevelScheduleEntries" "priceLevelScheduleEntries" Each;
   RReq "timeAnchor" "timeAnchor" (Text);
   RReq "priceScheduleId" "priceScheduleId" (Plain);
   RReq "numberOfPriceLevels" "numberOfPriceLevels" (Plain);
   ROpt "priceScheduleDescription" "priceScheduleDescription" "priceScheduleDescription" (Plain);
   ROpt "customData" "customData" "customData" (Plain)].

(** ChargingSchedule: include/ocpp/v2/ocpp_types.hpp 1086-1103, lib/ocpp/v2/ocpp_types.cpp 3030-3077 and 3080-3128. *)
Definition v2_ChargingSchedule : ty := Struct
  [("id", false, Int);
   ("chargingRateUnit", false, Enm e_v2_charging_rate_unit_enum);
   ("chargingSchedulePeriod", false, Vec (v2_ChargingSchedulePeriod));
   ("limitAtSoC", true, v2_LimitAtSoC);
   ("startSchedule", true, Time);
   ("duration", true, Int);
   ("minChargingRate", true, Float);
   ("powerTolerance", true, Float);
   ("signatureId", true, Int);
   ("digestValue", true, Str (Some 88));
   ("useLocalTime", true, Flag);
   ("randomizedDelay", true, Int);
   ("salesTariff", true, v2_SalesTariff);
   ("absolutePriceSchedule", true, v2_AbsolutePriceSchedule);
   ("priceLevelSchedule", true, v2_PriceLevelSchedule);
   ("customData", true, Any)]
  [WReq "id" "id" (Plain);
   WReq "chargingRateUnit" "chargingRateUnit" (Conv e_v2_charging_rate_unit_enum);
   WReq "chargingSchedulePeriod" "chargingSchedulePeriod" (Plain);
   WOpt "limitAtSoC" "limitAtSoC" "limitAtSoC" (Plain);
   WOpt "startSchedule" "startSchedule" "startSchedule" (Text);
   WOpt "duration" "duration" "duration" (Plain);
   WOpt "minChargingRate" "minChargingRate" "minChargingRate" (Plain);
   WOpt "powerTolerance" "powerTolerance" "powerTolerance" (Plain);
   WOpt "signatureId" "signatureId" "signatureId" (Plain);
   WOpt "digestValue" "digestValue" "digestValue" (Plain);
   WOpt "useLocalTime" "useLocalTime" "useLocalTime" (Plain);
   WOpt "randomizedDelay" "randomizedDelay" "randomizedDelay" (Plain);
   WOpt "salesTariff" "salesTariff" "salesTariff" (Plain);
   WOpt "absolutePriceSchedule" "absolutePriceSchedule" "absolutePriceSchedule" (Plain);
   WOpt "priceLevelSchedule" "priceLevelSchedule" "priceLevelSchedule" (Plain);
   WOpt "customData" "customData" "customData" (Plain)]
  [RReq "id" "id" (Plain);
   RReq "chargingRateUnit" "chargingRateUnit" (Conv e_v2_charging_rate_unit_enum);
   RReq "chargingSchedulePeriod" "chargingSchedulePeriod" Each;
   ROpt "limitAtSoC" "limitAtSoC" "limitAtSoC" (Plain);
   ROpt "startSchedule" "startSchedule" "startSchedule" (Text);
   ROpt "duration" "duration" "duration" (Plain);
   ROpt "minChargingRate" "minChargingRate" "minChargingRate" (Plain);
   ROpt "powerTolerance" "powerTolerance" "powerTolerance" (Plain);
   ROpt "signatureId" "signatureId" "signatureId" (Plain);
   ROpt "digestValue" "digestValue" "digestValue" (Plain);
   ROpt "useLocalTime" "useLocalTime" "useLocalTime" (Plain);
   ROpt "randomizedDelay" "randomizedDelay" "randomizedDelay" (Plain);
   ROpt "salesTariff" "salesTariff" "salesTariff" (Plain);
   ROpt "absolutePriceSchedule" "absolutePriceSchedule" "absolutePriceSchedule" (Plain);
   ROpt "priceLevelSchedule" "priceLevelSchedule" "priceLevelSchedule" (Plain);
   ROpt "customData" "customData" "customData" (Plain)].

(** ChargingLimit: include/ocpp/v2/ocpp_types.hpp 1114-1119, lib/ocpp/v2/ocpp_types.cpp 3138-3153 and 3156-3170. *)
Definition v2_ChargingLimit : ty := Struct
  [("chargingLimitSource", false, Str (Some 20));
   ("isLocalGeneration", true, Flag);
   ("isGridCritical", true, Flag);
   ("customData", true, Any)]
  [WReq "chargingLimitSource" "chargingLimitSource" (Plain);
   WOpt "isLocalGeneration" "isLocalGeneration" "isLocalGeneration" (Plain);
   WOpt "isGridCritical" "isGridCritical" "isGridCritical" (Plain);
   WOpt "customData" "customData" "customData" (Plain)]
  [RReq "chargingLimitSource" "chargingLimitSource" (Plain);
   ROpt "isLocalGeneration" "isLocalGeneration" "isLocalGeneration" (Plain);
   ROpt "isGridCritical" "isGridCritical" "isGridCritical" (Plain);
   ROpt "customData" "customData" "customData" (Plain)].

(** MessageInfo: include/ocpp/v2/ocpp_types.hpp 1130-1141, lib/ocpp/v2/ocpp_types.cpp 3180-3212 and 3215-3248. *)
Definition v2_MessageInfo : ty := Struct
  [("id", false, Int);
   ("priority", false, Enm e_v2_message_priority_enum);
   ("message", false, v2_MessageContent);
   ("display", true, v2_Component);
   ("state", true, Enm e_v2_message_state_enum);
   ("startDateTime", true, Time);
   ("endDateTime", true, Time);
   ("transactionId", true, Str (Some 36));
   ("messageExtra", true, Vec (v2_MessageContent));
   ("customData", true, Any)]
  [WReq "id" "id" (Plain);
   WReq "priority" "priority" (Conv e_v2_message_priority_enum);
   WReq "message" "message" (Plain);
   WOpt "display" "display" "display" (Plain);
   WOpt "state" "state" "state" (Conv e_v2_message_state_enum);
   WOpt "startDateTime" "startDateTime" "startDateTime" (Text);
   WOpt "endDateTime" "endDateTime" "endDateTime" (Text);
   WOpt "transactionId" "transactionId" "transactionId" (Plain);
   WOpt "messageExtra" "messageExtra" "messageExtra" (Each);
   WOpt "customData" "customData" "customData" (Plain)]
  [RReq "id" "id" (Plain);
   RReq "priority" "priority" (Conv e_v2_message_priority_enum);
   RReq "message" "message" (Plain);
   ROpt "display" "display" "display" (Plain);
   ROpt "state" "state" "state" (Conv e_v2_message_state_enum);
   ROpt "startDateTime" "startDateTime" "startDateTime" (Text);
   ROpt "endDateTime" "endDateTime" "endDateTime" (Text);
   ROpt "transactionId" "transactionId" "transactionId" (Plain);
   ROpt "messageExtra" "messageExtra" "messageExtra" (Each);
   ROpt "customData" "customData" "customData" (Plain)].

(** ACChargingParameters: include/ocpp/v2/ocpp_types.hpp 1152-1158, lib/ocpp/v2/ocpp_types.cpp 3258-3270 and 3273-3284. *)
Definition v2_ACChargingParameters : ty := Struct
  [("energyAmount", false, Float);
   ("evMinCurrent", false, Float);
   ("evMaxCurrent", false, Float);
   ("evMaxVoltage", false, Float);
   ("customData", true, Any)]
  [WReq "energyAmount" "energyAmount" (Plain);
   WReq "evMinCurrent" "evMinCurrent" (Plain);
   WReq "evMaxCurrent" "evMaxCurrent" (Plain);
   WReq "evMaxVoltage" "evMaxVoltage" (Plain);
   WOpt "customData" "customData" "customData" (Plain)]
  [RReq "energyAmount" "energyAmount" (Plain);
   RReq "evMinCurrent" "evMinCurrent" (Plain);
   RReq "evMaxCurrent" "evMaxCurrent" (Plain);
   RReq "evMaxVoltage" "evMaxVoltage" (Plain);
   ROpt "customData" "customData" "customData" (Plain)].

(** DERChargingParameters: include/ocpp/v2/ocpp_types.hpp 1169-1212, lib/ocpp/v2/ocpp_types.cpp 3294-3438 and 3441-3581. *)
Definition v2_DERChargingParameters : ty := Struct
  [("evSupportedDERControl", true, Vec (Enm e_v2_dercontrol_enum));
   ("evOverExcitedMaxDischargePower", true, Float);
   ("evOverExcitedPowerFactor", true, Float);
   ("evUnderExcitedMaxDischargePower", true, Float);
   ("evUnderExcitedPowerFactor", true, Float);
   ("maxApparentPower", true, Float);
   ("maxChargeApparentPower", true, Float);
   ("maxChargeApparentPower_L2", true, Float);
   ("maxChargeApparentPower_L3", true, Float);
   ("maxDischargeApparentPower", true, Float);
   ("maxDischargeApparentPower_L2", true, Float);
   ("maxDischargeApparentPower_L3", true, Float);
   ("maxChargeReactivePower", true, Float);
   ("maxChargeReactivePower_L2", true, Float);
   ("maxChargeReactivePower_L3", true, Float);
   ("minChargeReactivePower", true, Float);
   ("minChargeReactivePower_L2", true, Float);
   ("minChargeReactivePower_L3", true, Float);
   ("maxDischargeReactivePower", true, Float);
   ("maxDischargeReactivePower_L2", true, Float);
   ("maxDischargeReactivePower_L3", true, Float);
   ("minDischargeReactivePower", true, Float);
   ("minDischargeReactivePower_L2", true, Float);
   ("minDischargeReactivePower_L3", true, Float);
   ("nominalVoltage", true, Float);
   ("nominalVoltageOffset", true, Float);
   ("maxNominalVoltage", true, Float);
   ("minNominalVoltage", true, Float);
   ("evInverterManufacturer", true, Str (Some 50));
   ("evInverterModel", true, Str (Some 50));
   ("evInverterSerialNumber", true, Str (Some 50));
   ("evInverterSwVersion", true, Str (Some 50));
   ("evInverterHwVersion", true, Str (Some 50));
   ("evIslandingDetectionMethod", true, Vec (Enm e_v2_islanding_detection_enum));
   ("evIslandingTripTime", true, Float);
   ("evMaximumLevel1DCInjection", true, Float);
   ("evDurationLevel1DCInjection", true, Float);
   ("evMaximumLevel2DCInjection", true, Float);
   ("evDurationLevel2DCInjection", true, Float);
   ("evReactiveSusceptance", true, Float);
   ("evSessionTotalDischargeEnergyAvailable", true, Float);
   ("customData", true, Any)]
  [WOpt "evSupportedDERControl" "evSupportedDERControl" "evSupportedDERControl" (EachConv e_v2_dercontrol_enum);
   WOpt "evOverExcitedMaxDischargePower" "evOverExcitedMaxDischargePower" "evOverExcitedMaxDischargePower" (Plain);
   WOpt "evOverExcitedPowerFactor" "evOverExcitedPowerFactor" "evOverExcitedPowerFactor" (Plain);
   WOpt "evUnderExcitedMaxDischargePower" "evUnderExcitedMaxDischargePower" "evUnderExcitedMaxDischargePower" (Plain);
   WOpt "evUnderExcitedPowerFactor" "evUnderExcitedPowerFactor" "evUnderExcitedPowerFactor" (Plain);
   WOpt "maxApparentPower" "maxApparentPower" "maxApparentPower" (Plain);
   WOpt "maxChargeApparentPower" "maxChargeApparentPower" "maxChargeApparentPower" (Plain);
   WOpt "maxChargeApparentPower_L2" "maxChargeApparentPower_L2" "maxChargeApparentPower_L2" (Plain);
   WOpt "maxChargeApparentPower_L3" "maxChargeApparentPower_L3" "maxChargeApparentPower_L3" (Plain);
   WOpt "maxDischargeApparentPower" "maxDischargeApparentPower" "maxDischargeApparentPower" (Plain);
   WOpt "maxDischargeApparentPower_L2" "maxDischargeApparentPower_L2" "maxDischargeApparentPower_L2" (Plain);
   WOpt "maxDischargeApparentPower_L3" "maxDischargeApparentPower_L3" "maxDischargeApparentPower_L3" (Plain);
   WOpt "maxChargeReactivePower" "maxChargeReactivePower" "maxChargeReactivePower" (Plain);
   WOpt "maxChargeReactivePower_L2" "maxChargeReactivePower_L2" "maxChargeReactivePower_L2" (Plain);
   WOpt "maxChargeReactivePower_L3" "maxChargeReactivePower_L3" "maxChargeReactivePower_L3" (Plain);
   WOpt "minChargeReactivePower" "minChargeReactivePower" "minChargeReactivePower" (Plain);
   WOpt "minChargeReactivePower_L2" "minChargeReactivePower_L2" "minChargeReactivePower_L2" (Plain);
   WOpt "minChargeReactivePower_L3" "minChargeReactivePower_L3" "minChargeReactivePower_L3" (Plain);
   WOpt "maxDischargeReactivePower" "maxDischargeReactivePower" "maxDischargeReactivePower" (Plain);
   WOpt "maxDischargeReactivePower_L2" "maxDischargeReactivePower_L2" "maxDischargeReactivePower_L2" (Plain);
   WOpt "maxDischargeReactivePower_L3" "maxDischargeReactivePower_L3" "maxDischargeReactivePower_L3" (Plain);
   WOpt "minDischargeReactivePower" "minDischargeReactivePower" "minDischargeReactivePower" (Plain);
   WOpt "minDischargeReactivePower_L2" "minDischargeReactivePower_L2" "minDischargeReactivePower_L2" (Plain);
   WOpt "minDischargeReactivePower_L3" "minDischargeReactivePower_L3" "minDischargeReactivePower_L3" (Plain);
   WOpt "nominalVoltage" "nominalVoltage" "nominalVoltage" (Plain);
   WOpt "nominalVoltageOffset" "nominalVoltageOffset" "nominalVoltageOffset" (Plain);
   WOpt "maxNominalVoltage" "maxNominalVoltage" "maxNominalVoltage" (Plain);
   WOpt "minNominalVoltage" "minNominalVoltage" "minNominalVoltage" (Plain);
   WOpt "evInverterManufacturer" "evInverterManufacturer" "evInverterManufacturer" (Plain);
   WOpt "evInverterModel" "evInverterModel" "evInverterModel" (Plain);
   WOpt "evInverterSerialNumber" "evInverterSerialNumber" "evInverterSerialNumber" (Plain);
   WOpt "evInverterSwVersion" "evInverterSwVersion" "evInverterSwVersion" (Plain);
   WOpt "evInverterHwVersion" "evInverterHwVersion" "evInverterHwVersion" (Plain);
   WOpt "evIslandingDetectionMethod" "evIslandingDetectionMethod" "evIslandingDetectionMethod" (EachConv e_v2_islanding_detection_enum);
   WOpt "evIslandingTripTime" "evIslandingTripTime" "evIslandingTripTime" (Plain);
   WOpt "evMaximumLevel1DCInjection" "evMaximumLevel1DCInjection" "evMaximumLevel1DCInjection" (Plain);
   WOpt "evDurationLevel1DCInjection" "evDurationLevel1DCInjection" "evDurationLevel1DCInjection" (Plain);
   WOpt "evMaximumLevel2DCInjection" "evMaximumLevel2DCInjection" "evMaximumLevel2DCInjection" (Plain);
   WOpt "evDurationLevel2DCInjection" "evDurationLevel2DCInjection" "evDurationLevel2DCInjection" (Plain);
   WOpt "evReactiveSusceptance" "evReactiveSusceptance" "evReactiveSusceptance" (Plain);
   WOpt "evSessionTotalDischargeEnergyAvailable" "evSessionTotalDischargeEnergyAvailable" "evSessionTotalDischargeEnergyAvailable" (Plain);
   WOpt "customData" "customData" "customData" (Plain)]
  [ROpt "evSupportedDERControl" "evSupportedDERControl" "evSupportedDERControl" (EachConv e_v2_dercontrol_enum);
   ROpt "evOverExcitedMaxDischargePower" "evOverExcitedMaxDischargePower" "evOverExcitedMaxDischargePower" (Plain);
   ROpt "evOverExcitedPowerFactor" "evOverExcitedPowerFactor" "evOverExcitedPowerFactor" (Plain);
   ROpt "evUnderExcitedMaxDischargePower" "evUnderExcitedMaxDischargePower" "evUnderExcitedMaxDischargePower" (Plain);
   ROpt "evUnderExcitedPowerFactor" "evUnderExcitedPowerFactor" "evUnderExcitedPowerFactor" (Plain);
   ROpt "maxApparentPower" "maxApparentPower" "maxApparentPower" (Plain);
   ROpt "maxChargeApparentPower" "maxChargeApparentPower" "maxChargeApparentPower" (Plain);
   ROpt "maxChargeApparentPower_L2" "maxChargeApparentPower_L2" "maxChargeApparentPower_L2" (Plain);
   ROpt "maxChargeApparentPower_L3" "maxChargeApparentPower_L3" "maxChargeApparentPower_L3" (Plain);
   ROpt "maxDischargeApparentPower" "maxDischargeApparentPower" "maxDischargeApparentPower" (Plain);
   ROpt "maxDischargeApparentPower_L2" "maxDischargeApparentPower_L2" "maxDischargeApparentPower_L2" (Plain);
   ROpt "maxDischargeApparentPower_L3" "maxDischargeApparentPower_L3" "maxDischargeApparentPower_L3" (Plain);
   ROpt "maxChargeReactivePower" "maxChargeReactivePower" "maxChargeReactivePower" (Plain);
   ROpt "maxChargeReactivePower_L2" "maxChargeReactivePower_L2" "maxChargeReactivePower_L2" (Plain);
   ROpt "maxChargeReactivePower_L3" "maxChargeReactivePower_L3" "maxChargeReactivePower_L3" (Plain);
   ROpt "minChargeReactivePower" "minChargeReactivePower" "minChargeReactivePower" (Plain);
   ROpt "minChargeReactivePower_L2" "minChargeReactivePower_L2" "minChargeReactivePower_L2" (Plain);
   ROpt "minChargeReactivePower_L3" "minChargeReactivePower_L3" "minChargeReactivePower_L3" (Plain);
   ROpt "maxDischargeReactivePower" "maxDischargeReactivePower" "maxDischargeReactivePower" (Plain);
   ROpt "maxDischargeReactivePower_L2" "maxDischargeReactivePower_L2" "maxDischargeReactivePower_L2" (Plain);
   ROpt "maxDischargeReactivePower_L3" "maxDischargeReactivePower_L3" "maxDischargeReactivePower_L3" (Plain);
   ROpt "minDischargeReactivePower" "minDischargeReactivePower" "minDischargeReactivePower" (Plain);
   ROpt "minDischargeReactivePower_L2" "minDischargeReactivePower_L2" "minDischargeReactivePower_L2" (Plain);
   ROpt "minDischargeReactivePower_L3" "minDischargeReactivePower_L3" "minDischargeReactivePower_L3" (Plain);
   ROpt "nominalVoltage" "nominalVoltage" "nominalVoltage" (Plain);
   ROpt "nominalVoltageOffset" "nominalVoltageOffset" "nominalVoltageOffset" (Plain);
   ROpt "maxNominalVoltage" "maxNominalVoltage" "maxNominalVoltage" (Plain);
   ROpt "minNominalVoltage" "minNominalVoltage" "minNominalVoltage" (Plain);
   ROpt "evInverterManufacturer" "evInverterManufacturer" "evInverterManufacturer" (Plain);
   ROpt "evInverterModel" "evInverterModel" "evInverterModel" (Plain);
   ROpt "evInverterSerialNumber" "evInverterSerialNumber" "evInverterSerialNumber" (Plain);
   ROpt "evInverterSwVersion" "evInverterSwVersion" "evInverterSwVersion" (Plain);
   ROpt "evInverterHwVersion" "evInverterHwVersion" "evInverterHwVersion" (Plain);
   ROpt "evIslandingDetectionMethod" "evIslandingDetectionMethod" "evIslandingDetectionMethod" (EachConv e_v2_islanding_detection_enum);
   ROpt "evIslandingTripTime" "evIslandingTripTime" "evIslandingTripTime" (Plain);
   ROpt "evMaximumLevel1DCInjection" "evMaximumLevel1DCInjection" "evMaximumLevel1DCInjection" (Plain);
   ROpt "evDurationLevel1DCInjection" "evDurationLevel1DCInjection" "evDurationLevel1DCInjection" (Plain);
   ROpt "evMaximumLevel2DCInjection" "evMaximumLevel2DCInjection" "evMaximumLevel2DCInjection" (Plain);
   ROpt "evDurationLevel2DCInjection" "evDurationLevel2DCInjection" "evDurationLevel2DCInjection" (Plain);
   ROpt "evReactiveSusceptance" "evReactiveSusceptance" "evReactiveSusceptance" (Plain);
   ROpt "evSessionTotalDischargeEnergyAvailable" "evSessionTotalDischargeEnergyAvailable" "evSessionTotalDischargeEnergyAvailable" (Plain);
   ROpt "customData" "customData" "customData" (Plain)].

(** EVPriceRule: include/ocpp/v2/ocpp_types.hpp 1223-1227, lib/ocpp/v2/ocpp_types.cpp 3591-3601 and 3604-3613. *)
Definition v2_EVPriceRule : ty := Struct
  [("energyFee", false, Float);
   ("powerRangeStart", false, Float);
   ("customData", true, Any)]
  [WReq "energyFee" "energyFee" (Plain);
   WReq "powerRangeStart" "powerRangeStart" (Plain);
   WOpt "customData" "customData" "customData" (Plain)]
  [RReq "energyFee" "energyFee" (Plain);
   RReq "powerRangeStart" "powerRangeStart" (Plain);
   ROpt "customData" "customData" "customData" (Plain)].

(** EVAbsolutePriceScheduleEntry: include/ocpp/v2/ocpp_types.hpp 1238-1242, lib/ocpp/v2/ocpp_types.cpp 3623-3633 and 3636-3647. *)
Definition v2_EVAbsolutePriceScheduleEntry : ty := Struct
  [("duration", false, Int);
   ("evPriceRule", false, Vec (v2_EVPriceRule));
   ("customData", true, Any)]
  [WReq "duration" "duration" (Plain);
   WReq "evPriceRule" "evPriceRule" (Plain);
   WOpt "customData" "customData" "customData" (Plain)]
  [RReq "duration" "duration" (Plain);
   RReq "evPriceRule" "evPriceRule" Each;
   ROpt "customData" "customData" "customData" (Plain)].

(** EVAbsolutePriceSchedule: include/ocpp/v2/ocpp_types.hpp 1254-1260, lib/ocpp/v2/ocpp_types.cpp 3658-3670 and 3673-3686. *)
Definition v2_EVAbsolutePriceSchedule : ty := Struct
  [("timeAnchor", false, Time);
   ("currency", false, Str (Some 3));
   ("evAbsolutePriceScheduleEntries", false, Vec (v2_EVAbsolutePriceScheduleEntry));
   ("priceAlgorithm", false, Str (Some 2000));
   ("customData", true, Any)]
  [WReq "timeAnchor" "timeAnchor" (Text);
   WReq "currency" "currency" (Plain);
   WReq "evAbsolutePriceScheduleEntries" "evAbsolutePriceScheduleEntries" (Plain);
   WReq "priceAlgorithm" "priceAlgorithm" (Plain);
   WOpt "customData" "customData" "customData" (Plain)]
  [RReq "timeAnchor" "timeAnchor" (Text);
   RReq "currency" "currency" (Plain);
   RReq "evAbsolutePriceScheduleEntries" "evAbsolutePriceScheduleEntries" Each;
   RReq "priceAlgorithm" "priceAlgorithm" (Plain);
   ROpt "customData" "customData" "customData" (Plain)].

(** EVPowerScheduleEntry: include/ocpp/v2/ocpp_types.hpp 1271-1275, lib/ocpp/v2/ocpp_types.cpp 3696-3706 and 3709-3718. *)
Definition v2_EVPowerScheduleEntry : ty := Struct
  [("duration", false, Int);
   ("power", false, Float);
   ("customData", true, Any)]
  [WReq "duration" "duration" (Plain);
   WReq "power" "power" (Plain);
   WOpt "customData" "customData" "customData" (Plain)]
  [RReq "duration" "duration" (Plain);
   RReq "power" "power" (Plain);
   ROpt "customData" "customData" "customData" (Plain)].

(** EVPowerSchedule: include/ocpp/v2/ocpp_types.hpp 1286-1290, lib/ocpp/v2/ocpp_types.cpp 3728-3738 and 3741-3752. *)
Definition v2_EVPowerSchedule : ty := Struct
  [("evPowerScheduleEntries", false, Vec (v2_EVPowerScheduleEntry));
   ("timeAnchor", false, Time);
   ("customData", true, Any)]
  [WReq "evPowerScheduleEntries" "evPowerScheduleEntries" (Plain);
   WReq "timeAnchor" "timeAnchor" (Text);
   WOpt "customData" "customData" "customData" (Plain)]
  [RReq "evPowerScheduleEntries" "evPowerScheduleEntries" Each;
   RReq "timeAnchor" "timeAnchor" (Text);
   ROpt "customData" "customData" "customData" (Plain)].

(** EVEnergyOffer: include/ocpp/v2/ocpp_types.hpp 1301-1305, lib/ocpp/v2/ocpp_types.cpp 3762-3774 and 3777-3788. *)
Definition v2_EVEnergyOffer : ty := Struct
  [("evPowerSchedule", false, v2_EVPowerSchedule);
   ("evAbsolutePriceSchedule", true, v2_EVAbsolutePriceSchedule);
   ("customData", true, Any)]
  [WReq "evPowerSchedule" "evPowerSchedule" (Plain);
   WOpt "evAbsolutePriceSchedule" "evAbsolutePriceSchedule" "evAbsolutePriceSchedule" (Plain);
   WOpt "customData" "customData" "customData" (Plain)]
  [RReq "evPowerSchedule" "evPowerSchedule" (Plain);
   ROpt "evAbsolutePriceSchedule" "evAbsolutePriceSchedule" "evAbsolutePriceSchedule" (Plain);
   ROpt "customData" "customData" "customData" (Plain)].

(** DCChargingParameters: include/ocpp/v2/ocpp_types.hpp 1316-1326, lib/ocpp/v2/ocpp_types.cpp 3798-3826 and 3829-3856. *)
Definition v2_DCChargingParameters : ty := Struct
  [("evMaxCurrent", false, Float);
   ("evMaxVoltage", false, Float);
   ("evMaxPower", true, Float);
   ("evEnergyCapacity", true, Float);
   ("energyAmount", true, Float);
   ("stateOfCharge", true, Int);
   ("fullSoC", true, Int);
   ("bulkSoC", true, Int);
   ("customData", true, Any)]
  [WReq "evMaxCurrent" "evMaxCurrent" (Plain);
   WReq "evMaxVoltage" "evMaxVoltage" (Plain);
   WOpt "evMaxPower" "evMaxPower" "evMaxPower" (Plain);
   WOpt "evEnergyCapacity" "evEnergyCapacity" "evEnergyCapacity" (Plain);
   WOpt "energyAmount" "energyAmount" "energyAmount" (Plain);
   WOpt "stateOfCharge" "stateOfCharge" "stateOfCharge" (Plain);
   WOpt "fullSoC" "fullSoC" "fullSoC" (Plain);
   WOpt "bulkSoC" "bulkSoC" "bulkSoC" (Plain);
   WOpt "customData" "customData" "customData" (Plain)]
  [RReq "evMaxCurrent" "evMaxCurrent" (Plain);
   RReq "evMaxVoltage" "evMaxVoltage" (Plain);
   ROpt "evMaxPower" "evMaxPower" "evMaxPower" (Plain);
   ROpt "evEnergyCapacity" "evEnergyCapacity" "evEnergyCapacity" (Plain);
   ROpt "energyAmount" "energyAmount" "energyAmount" (Plain);
   ROpt "stateOfCharge" "stateOfCharge" "stateOfCharge" (Plain);
   ROpt "fullSoC" "fullSoC" "fullSoC" (Plain);
   ROpt "bulkSoC" "bulkSoC" "bulkSoC" (Plain);
   ROpt "customData" "customData" "customData" (Plain)].

(** V2XChargingParameters: include/ocpp/v2/ocpp_types.hpp 1337-1363, lib/ocpp/v2/ocpp_types.cpp 3866-3945 and 3948-4027. *)
Definition v2_V2XChargingParameters : ty := Struct
  [("minChargePower", true, Float);
   ("minChargePower_L2", true, Float);
   ("minChargePower_L3", true, Float);
   ("maxChargePower", true, Float);
   ("maxChargePower_L2", true, Float);
   ("maxChargePower_L3", true, Float);
   ("minDischargePower", true, Float);
   ("minDischargePower_L2", true, Float);
   ("minDischargePower_L3", true, Float);
   ("maxDischargePower", true, Float);
   ("maxDischargePower_L2", true, Float);
   ("maxDischargePower_L3", true, Float);
   ("minChargeCurrent", true, Float);
   ("maxChargeCurrent", true, Float);
   ("minDischargeCurrent", true, Float);
   ("maxDischargeCurrent", true, Float);
   ("minVoltage", true, Float);
   ("maxVoltage", true, Float);
   ("evTargetEnergyRequest", true, Float);
   ("evMinEnergyRequest", true, Float);
   ("evMaxEnergyRequest", true, Float);
   ("evMinV2XEnergyRequest", true, Float);
   ("evMaxV2XEnergyRequest", true, Float);
   ("targetSoC", true, Int);
   ("customData", true, Any)]
  [WOpt "minChargePower" "minChargePower" "minChargePower" (Plain);
   WOpt "minChargePower_L2" "minChargePower_L2" "minChargePower_L2" (Plain);
   WOpt "minChargePower_L3" "minChargePower_L3" "minChargePower_L3" (Plain);
   WOpt "maxChargePower" "maxChargePower" "maxChargePower" (Plain);
   WOpt "maxChargePower_L2" "maxChargePower_L2" "maxChargePower_L2" (Plain);
   WOpt "maxChargePower_L3" "maxChargePower_L3" "maxChargePower_L3" (Plain);
   WOpt "minDischargePower" "minDischargePower" "minDischargePower" (Plain);
   WOpt "minDischargePower_L2" "minDischargePower_L2" "minDischargePower_L2" (Plain);
   WOpt "minDischargePower_L3" "minDischargePower_L3" "minDischargePower_L3" (Plain);
   WOpt "maxDischargePower" "maxDischargePower" "maxDischargePower" (Plain);
   WOpt "maxDischargePower_L2" "maxDischargePower_L2" "maxDischargePower_L2" (Plain);
   WOpt "maxDischargePower_L3" "maxDischargePower_L3" "maxDischargePower_L3" (Plain);
   WOpt "minChargeCurrent" "minChargeCurrent" "minChargeCurrent" (Plain);
   WOpt "maxChargeCurrent" "maxChargeCurrent" "maxChargeCurrent" (Plain);
   WOpt "minDischargeCurrent" "minDischargeCurrent" "minDischargeCurrent" (Plain);
   WOpt "maxDischargeCurrent" "maxDischargeCurrent" "maxDischargeCurrent" (Plain);
   WOpt "minVoltage" "minVoltage" "minVoltage" (Plain);
   WOpt "maxVoltage" "maxVoltage" "maxVoltage" (Plain);
   WOpt "evTargetEnergyRequest" "evTargetEnergyRequest" "evTargetEnergyRequest" (Plain);
   WOpt "evMinEnergyRequest" "evMinEnergyRequest" "evMinEnergyRequest" (Plain);
   WOpt "evMaxEnergyRequest" "evMaxEnergyRequest" "evMaxEnergyRequest" (Plain);
   WOpt "evMinV2XEnergyRequest" "evMinV2XEnergyRequest" "evMinV2XEnergyRequest" (Plain);
   WOpt "evMaxV2XEnergyRequest" "evMaxV2XEnergyRequest" "evMaxV2XEnergyRequest" (Plain);
   WOpt "targetSoC" "targetSoC" "targetSoC" (Plain);
   WOpt "customData" "customData" "customData" (Plain)]
  [ROpt "minChargePower" "minChargePower" "minChargePower" (Plain);
   ROpt "minChargePower_L2" "minChargePower_L2" "minChargePower_L2" (Plain);
   ROpt "minChargePower_L3" "minChargePower_L3" "minChargePower_L3" (Plain);
   ROpt "maxChargePower" "maxChargePower" "maxChargePower" (Plain);
   ROpt "maxChargePower_L2" "maxChargePower_L2" "maxChargePower_L2" (Plain);
   ROpt "maxChargePower_L3" "maxChargePower_L3" "maxChargePower_L3" (Plain);
   ROpt "minDischargePower" "minDischargePower" "minDischargePower" (Plain);
   ROpt "minDischargePower_L2" "minDischargePower_L2" "minDischargePower_L2" (Plain);
   ROpt "minDischargePower_L3" "minDischargePower_L3" "minDischargePower_L3" (Plain);
   ROpt "maxDischargePower" "maxDischargePower" "maxDischargePower" (Plain);
   ROpt "maxDischargePower_L2" "maxDischargePower_L2" "maxDischargePower_L2" (Plain);
   ROpt "maxDischargePower_L3" "maxDischargePower_L3" "maxDischargePower_L3" (Plain);
   ROpt "minChargeCurrent" "minChargeCurrent" "minChargeCurrent" (Plain);
   ROpt "maxChargeCurrent" "maxChargeCurrent" "maxChargeCurrent" (Plain);
   ROpt "minDischargeCurrent" "minDischargeCurrent" "minDischargeCurrent" (Plain);
   ROpt "maxDischargeCurrent" "maxDischargeCurrent" "maxDischargeCurrent" (Plain);
   ROpt "minVoltage" "minVoltage" "minVoltage" (Plain);
   ROpt "maxVoltage" "maxVoltage" "maxVoltage" (Plain);
   ROpt "evTargetEnergyRequest" "evTargetEnergyRequest" "evTargetEnergyRequest" (Plain);
   ROpt "evMinEnergyRequest" "evMinEnergyRequest" "evMinEnergyRequest" (Plain);
   ROpt "evMaxEnergyRequest" "evMaxEnergyRequest" "evMaxEnergyRequest" (Plain);
   ROpt "evMinV2XEnergyRequest" "evMinV2XEnergyRequest" "evMinV2XEnergyRequest" (Plain);
   ROpt "evMaxV2XEnergyRequest" "evMaxV2XEnergyRequest" "evMaxV2XEnergyRequest" (Plain);
   ROpt "targetSoC" "targetSoC" "targetSoC" (Plain);
   ROpt "customData" "customData" "customData" (Plain)].

(** ChargingNeeds: include/ocpp/v2/ocpp_types.hpp 1374-1386, lib/ocpp/v2/ocpp_types.cpp 4037-4076 and 4079-4119. *)
Definition v2_ChargingNeeds : ty := Struct
  [("requestedEnergyTransfer", false, Enm e_v2_energy_transfer_mode_enum);
   ("acChargingParameters", true, v2_ACChargingParameters);
   ("derChargingParameters", true, v2_DERChargingParameters);
   ("evEnergyOffer", true, v2_EVEnergyOffer);
   ("dcChargingParameters", true, v2_DCChargingParameters);
   ("v2xChargingParameters", true, v2_V2XChargingParameters);
   ("availableEnergyTransfer", true, Vec (Enm e_v2_energy_transfer_mode_enum));
   ("controlMode", true, Enm e_v2_control_mode_enum);
   ("mobilityNeedsMode", true, Enm e_v2_mobility_needs_mode_enum);
   ("departureTime", true, Time);
   ("customData", true, Any)]
  [WReq "requestedEnergyTransfer" "requestedEnergyTransfer" (Conv e_v2_energy_transfer_mode_enum);
   WOpt "acChargingParameters" "acChargingParameters" "acChargingParameters" (Plain);
   WOpt "derChargingParameters" "derChargingParameters" "derChargingParameters" (Plain);
   WOpt "evEnergyOffer" "evEnergyOffer" "evEnergyOffer" (Plain);
   WOpt "dcChargingParameters" "dcChargingParameters" "dcChargingParameters" (Plain);
   WOpt "v2xChargingParameters" "v2xChargingParameters" "v2xChargingParameters" (Plain);
   WOpt "availableEnergyTransfer" "availableEnergyTransfer" "availableEnergyTransfer" (EachConv e_v2_energy_transfer_mode_enum);
   WOpt "controlMode" "controlMode" "controlMode" (Conv e_v2_control_mode_enum);
   WOpt "mobilityNeedsMode" "mobilityNeedsMode" "mobilityNeedsMode" (Conv e_v2_mobility_needs_mode_enum);
   WOpt "departureTime" "departureTime" "departureTime" (Text);
   WOpt "customData" "customData" "customData" (Plain)]
  [RReq "requestedEnergyTransfer" "requestedEnergyTransfer" (Conv e_v2_energy_transfer_mode_enum);
   ROpt "acChargingParameters" "acChargingParameters" "acChargingParameters" (Plain);
   ROpt "derChargingParameters" "derChargingParameters" "derChargingParameters" (Plain);
   ROpt "evEnergyOffer" "evEnergyOffer" "evEnergyOffer" (Plain);
   ROpt "dcChargingParameters" "dcChargingParameters" "dcChargingParameters" (Plain);
   ROpt "v2xChargingParameters" "v2xChargingParameters" "v2xChargingParameters" (Plain);
   ROpt "availableEnergyTransfer" "availableEnergyTransfer" "availableEnergyTransfer" (EachConv e_v2_energy_transfer_mode_enum);
   ROpt "controlMode" "controlMode" "controlMode" (Conv e_v2_control_mode_enum);
   ROpt "mobilityNeedsMode" "mobilityNeedsMode" "mobilityNeedsMode" (Conv e_v2_mobility_needs_mode_enum);
   ROpt "departureTime" "departureTime" "departureTime" (Text);
   ROpt "customData" "customData" "customData" (Plain)].

(** EventData: include/ocpp/v2/ocpp_types.hpp 1397-1413, lib/ocpp/v2/ocpp_types.cpp 4129-4165 and 4168-4203. *)
Definition v2_EventData : ty := Struct
  [("eventId", false, Int);
   ("timestamp", false, Time);
   ("trigger", false, Enm e_v2_event_trigger_enum);
   ("actualValue", false, Str (Some 2500));
   ("component", false, v2_Component);
   ("eventNotificationType", false, Enm e_v2_event_notification_enum);
   ("variable", false, v2_Variable);
   ("cause", true, Int);
   ("techCode", true, Str (Some 50));
   ("techInfo", true, Str (Some 500));
   ("cleared", true, Flag);
   ("transactionId", true, Str (Some 36));
   ("variableMonitoringId", true, Int);
   ("severity", true, Int);
   ("customData", true, Any)]
  [WReq "eventId" "eventId" (Plain);
   WReq "timestamp" "timestamp" (Text);
   WReq "trigger" "trigger" (Conv e_v2_event_trigger_enum);
   WReq "actualValue" "actualValue" (Plain);
   WReq "component" "component" (Plain);
   WReq "eventNotificationType" "eventNotificationType" (Conv e_v2_event_notification_enum);
   WReq "variable" "variable" (Plain);
   WOpt "cause" "cause" "cause" (Plain);
   WOpt "techCode" "techCode" "techCode" (Plain);
   WOpt "techInfo" "techInfo" "techInfo" (Plain);
   WOpt "cleared" "cleared" "cleared" (Plain);
   WOpt "transactionId" "transactionId" "transactionId" (Plain);
   WOpt "variableMonitoringId" "variableMonitoringId" "variableMonitoringId" (Plain);
   WOpt "severity" "severity" "severity" (Plain);
   WOpt "customData" "customData" "customData" (Plain)]
  [RReq "eventId" "eventId" (Plain);
   RReq "timestamp" "timestamp" (Text);
   RReq "trigger" "trigger" (Conv e_v2_event_trigger_enum);
   RReq "actualValue" "actualValue" (Plain);
   RReq "component" "component" (Plain);
   RReq "eventNotificationType" "eventNotificationType" (Conv e_v2_event_notification_enum);
   RReq "variable" "variable" (Plain);
   ROpt "cause" "cause" "cause" (Plain);
   ROpt "techCode" "techCode" "techCode" (Plain);
   ROpt "techInfo" "techInfo" "techInfo" (Plain);
   ROpt "cleared" "cleared" "cleared" (Plain);
   ROpt "transactionId" "transactionId" "transactionId" (Plain);
   ROpt "variableMonitoringId" "variableMonitoringId" "variableMonitoringId" (Plain);
   ROpt "severity" "severity" "severity" (Plain);
   ROpt "customData" "customData" "customData" (Plain)].

(** VariableMonitoring: include/ocpp/v2/ocpp_types.hpp 1424-1432, lib/ocpp/v2/ocpp_types.cpp 4213-4229 and 4232-4247. *)
Definition v2_VariableMonitoring : ty := Struct
  [("id", false, Int);
   ("transaction", false, Flag);
   ("value", false, Float);
   ("type", false, Enm e_v2_monitor_enum);
   ("severity", false, Int);
   ("eventNotificationType", true, Enm e_v2_event_notification_enum);
   ("customData", true, Any)]
  [WReq "id" "id" (Plain);
   WReq "transaction" "transaction" (Plain);
   WReq "value" "value" (Plain);
   WReq "type" "type" (Conv e_v2_monitor_enum);
   WReq "severity" "severity" (Plain);
   WOpt "eventNotificationType" "eventNotificationType" "eventNotificationType" (Conv e_v2_event_notification_enum);
   WOpt "customData" "customData" "customData" (Plain)]
  [RReq "id" "id" (Plain);
   RReq "transaction" "transaction" (Plain);
   RReq "value" "value" (Plain);
   RReq "type" "type" (Conv e_v2_monitor_enum);
   RReq "severity" "severity" (Plain);
   ROpt "eventNotificationType" "eventNotificationType" "eventNotificationType" (Conv e_v2_event_notification_enum);
   ROpt "customData" "customData" "customData" (Plain)].

(** MonitoringData: include/ocpp/v2/ocpp_types.hpp 1443-1448, lib/ocpp/v2/ocpp_types.cpp 4257-4268 and 4271-4283. *)
Definition v2_MonitoringData : ty := Struct
  [("component", false, v2_Component);
   ("variable", false, v2_Variable);
   ("variableMonitoring", false, Vec (v2_VariableMonitoring));
   ("customData", true, Any)]
  [WReq "component" "component" (Plain);
   WReq "variable" "variable" (Plain);
   WReq "variableMonitoring" "variableMonitoring" (Plain);
   WOpt "customData" "customData" "customData" (Plain)]
  [RReq "component" "component" (Plain);
   RReq "variable" "variable" (Plain);
   RReq "variableMonitoring" "variableMonitoring" Each;
   ROpt "customData" "customData" "customData" (Plain)].

(** StreamDataElement: include/ocpp/v2/ocpp_types.hpp 1459-1463, lib/ocpp/v2/ocpp_types.cpp 4293-4303 and 4306-4315. *)
Definition v2_StreamDataElement : ty := Struct
  [("t", false, Float);
   ("v", false, Str (Some 2500));
   ("customData", true, Any)]
  [WReq "t" "t" (Plain);
   WReq "v" "v" (Plain);
   WOpt "customData" "customData" "customData" (Plain)]
  [RReq "t" "t" (Plain);
   RReq "v" "v" (Plain);
   ROpt "customData" "customData" "customData" (Plain)].

(** NotifyPeriodicEventStream: include/ocpp/v2/ocpp_types.hpp 1474-1480, lib/ocpp/v2/ocpp_types.cpp 4325-4337 and 4340-4353. *)
Definition v2_NotifyPeriodicEventStream : ty := Struct
  [("data", false, Vec (v2_StreamDataElement));
   ("id", false, Int);
   ("pending", false, Int);
   ("basetime", false, Time);
   ("customData", true, Any)]
  [WReq "data" "data" (Plain);
   WReq "id" "id" (Plain);
   WReq "pending" "pending" (Plain);
   WReq "basetime" "basetime" (Text);
   WOpt "customData" "customData" "customData" (Plain)]
  [RReq "data" "data" Each;
   RReq "id" "id" (Plain);
   RReq "pending" "pending" (Plain);
   RReq "basetime" "basetime" (Text);
   ROpt "customData" "customData" "customData" (Plain)].

(** VariableAttribute: include/ocpp/v2/ocpp_types.hpp 1491-1498, lib/ocpp/v2/ocpp_types.cpp 4363-4385 and 4388-4426. *)
Definition v2_VariableAttribute : ty := Struct
  [("type", true, Enm e_v2_attribute_enum);
   ("value", true, Str (Some 2500));
   ("mutability", true, Enm e_v2_mutability_enum);
   ("persistent", true, Flag);
   ("constant", true, Flag);
   ("customData", true, Any)]
  [WOpt "type" "type" "type" (Conv e_v2_attribute_enum);
   WOpt "value" "value" "value" (Plain);
   WOpt "mutability" "mutability" "mutability" (Conv e_v2_mutability_enum);
   WOpt "persistent" "persistent" "persistent" (Plain);
   WOpt "constant" "constant" "constant" (Plain);
   WOpt "customData" "customData" "customData" (Plain)]
  [ROpt "type" "type" "type" (Conv e_v2_attribute_enum);
   ROpt "value" "value" "value" Dumped;
   ROpt "mutability" "mutability" "mutability" (Conv e_v2_mutability_enum);
   ROpt "persistent" "persistent" "persistent" (Plain);
   ROpt "constant" "constant" "constant" (Plain);
   ROpt "customData" "customData" "customData" (Plain)].

(** VariableCharacteristics: include/ocpp/v2/ocpp_types.hpp 1509-1518, lib/ocpp/v2/ocpp_types.cpp 4436-4461 and 4464-4488. *)
Definition v2_VariableCharacteristics : ty := Struct
  [("dataType", false, Enm e_v2_data_enum);
   ("supportsMonitoring", false, Flag);
   ("unit", true, Str (Some 16));
   ("minLimit", true, Float);
   ("maxLimit", true, Float);
   ("maxElements", true, Int);
   ("valuesList", true, Str (Some 1000));
   ("customData", true, Any)]
  [WReq "dataType" "dataType" (Conv e_v2_data_enum);
   WReq "supportsMonitoring" "supportsMonitoring" (Plain);
   WOpt "unit" "unit" "unit" (Plain);
   WOpt "minLimit" "minLimit" "minLimit" (Plain);
   WOpt "maxLimit" "maxLimit" "maxLimit" (Plain);
   WOpt "maxElements" "maxElements" "maxElements" (Plain);
   WOpt "valuesList" "valuesList" "valuesList" (Plain);
   WOpt "customData" "customData" "customData" (Plain)]
  [RReq "dataType" "dataType" (Conv e_v2_data_enum);
   RReq "supportsMonitoring" "supportsMonitoring" (Plain);
   ROpt "unit" "unit" "unit" (Plain);
   ROpt "minLimit" "minLimit" "minLimit" (Plain);
   ROpt "maxLimit" "maxLimit" "maxLimit" (Plain);
   ROpt "maxElements" "maxElements" "maxElements" (Plain);
   ROpt "valuesList" "valuesList" "valuesList" (Plain);
   ROpt "customData" "customData" "customData" (Plain)].

(** ReportData: include/ocpp/v2/ocpp_types.hpp 1529-1535, lib/ocpp/v2/ocpp_types.cpp 4498-4512 and 4515-4530. *)
Definition v2_ReportData : ty := Struct
  [("component", false, v2_Component);
   ("variable", false, v2_Variable);
   ("variableAttribute", false, Vec (v2_VariableAttribute));
   ("variableCharacteristics", true, v2_VariableCharacteristics);
   ("customData", true, Any)]
  [WReq "component" "component" (Plain);
   WReq "variable" "variable" (Plain);
   WReq "variableAttribute" "variableAttribute" (Plain);
   WOpt "variableCharacteristics" "variableCharacteristics" "variableCharacteristics" (Plain);
   WOpt "customData" "customData" "customData" (Plain)]
  [RReq "component" "component" (Plain);
   RReq "variable" "variable" (Plain);
   RReq "variableAttribute" "variableAttribute" Each;
   ROpt "variableCharacteristics" "variableCharacteristics" "variableCharacteristics" (Plain);
   ROpt "customData" "customData" "customData" (Plain)].

(** Address: include/ocpp/v2/ocpp_types.hpp 1546-1554, lib/ocpp/v2/ocpp_types.cpp 4540-4558 and 4561-4578. *)
Definition v2_Address : ty := Struct
  [("name", false, Str (Some 50));
   ("address1", false, Str (Some 100));
   ("city", false, Str (Some 100));
   ("country", false, Str (Some 50));
   ("address2", true, Str (Some 100));
   ("postalCode", true, Str (Some 20));
   ("customData", true, Any)]
  [WReq "name" "name" (Plain);
   WReq "address1" "address1" (Plain);
   WReq "city" "city" (Plain);
   WReq "country" "country" (Plain);
   WOpt "address2" "address2" "address2" (Plain);
   WOpt "postalCode" "postalCode" "postalCode" (Plain);
   WOpt "customData" "customData" "customData" (Plain)]
  [RReq "name" "name" (Plain);
   RReq "address1" "address1" (Plain);
   RReq "city" "city" (Plain);
   RReq "country" "country" (Plain);
   ROpt "address2" "address2" "address2" (Plain);
   ROpt "postalCode" "postalCode" "postalCode" (Plain);
   ROpt "customData" "customData" "customData" (Plain)].

(** ChargingScheduleUpdate: include/ocpp/v2/ocpp_types.hpp 1565-1579, lib/ocpp/v2/ocpp_types.cpp 4588-4631 and 4634-4677. *)
Definition v2_ChargingScheduleUpdate : ty := Struct
  [("limit", true, Float);
   ("limit_L2", true, Float);
   ("limit_L3", true, Float);
   ("dischargeLimit", true, Float);
   ("dischargeLimit_L2", true, Float);
   ("dischargeLimit_L3", true, Float);
   ("setpoint", true, Float);
   ("setpoint_L2", true, Float);
   ("setpoint_L3", true, Float);
   ("setpointReactive", true, Float);
   ("setpointReactive_L2", true, Float);
   ("setpointReactive_L3", true, Float);
   ("customData", true, Any)]
  [WOpt "limit" "limit" "limit" (Plain);
   WOpt "limit_L2" "limit_L2" "limit_L2" (Plain);
   WOpt "limit_L3" "limit_L3" "limit_L3" (Plain);
   WOpt "dischargeLimit" "dischargeLimit" "dischargeLimit" (Plain);
   WOpt "dischargeLimit_L2" "dischargeLimit_L2" "dischargeLimit_L2" (Plain);
   WOpt "dischargeLimit_L3" "dischargeLimit_L3" "dischargeLimit_L3" (Plain);
   WOpt "setpoint" "setpoint" "setpoint" (Plain);
   WOpt "setpoint_L2" "setpoint_L2" "setpoint_L2" (Plain);
   WOpt "setpoint_L3" "setpoint_L3" "setpoint_L3" (Plain);
   WOpt "setpointReactive" "setpointReactive" "setpointReactive" (Plain);
   WOpt "setpointReactive_L2" "setpointReactive_L2" "setpointReactive_L2" (Plain);
   WOpt "setpointReactive_L3" "setpointReactive_L3" "setpointReactive_L3" (Plain);
   WOpt "customData" "customData" "customData" (Plain)]
  [ROpt "limit" "limit" "limit" (Plain);
   ROpt "limit_L2" "limit_L2" "limit_L2" (Plain);
   ROpt "limit_L3" "limit_L3" "limit_L3" (Plain);
   ROpt "dischargeLimit" "dischargeLimit" "dischargeLimit" (Plain);
   ROpt "dischargeLimit_L2" "dischargeLimit_L2" "dischargeLimit_L2" (Plain);
   ROpt "dischargeLimit_L3" "dischargeLimit_L3" "dischargeLimit_L3" (Plain);
   ROpt "setpoint" "setpoint" "setpoint" (Plain);
   ROpt "setpoint_L2" "setpoint_L2" "setpoint_L2" (Plain);
   ROpt "setpoint_L3" "setpoint_L3" "setpoint_L3" (Plain);
   ROpt "setpointReactive" "setpointReactive" "setpointReactive" (Plain);
   ROpt "setpointReactive_L2" "setpointReactive_L2" "setpointReactive_L2" (Plain);
   ROpt "setpointReactive_L3" "setpointReactive_L3" "setpointReactive_L3" (Plain);
   ROpt "customData" "customData" "customData" (Plain)].

(** ChargingProfile: include/ocpp/v2/ocpp_types.hpp 1590-1606, lib/ocpp/v2/ocpp_types.cpp 4687-4727 and 4730-4771. *)
Definition v2_ChargingProfile : ty := Struct
  [("id", false, Int);
   ("stackLevel", false, Int);
   ("chargingProfilePurpose", false, Enm e_v2_charging_profile_purpose_enum);
   ("chargingProfileKind", false, Enm e_v2_charging_profile_kind_enum);
   ("chargingSchedule", false, Vec (v2_ChargingSchedule));
   ("recurrencyKind", true, Enm e_v2_recurrency_kind_enum);
   ("validFrom", true, Time);
   ("validTo", true, Time);
   ("transactionId", true, Str (Some 36));
   ("maxOfflineDuration", true, Int);
   ("invalidAfterOfflineDuration", true, Flag);
   ("dynUpdateInterval", true, Int);
   ("dynUpdateTime", true, Time);
   ("priceScheduleSignature", true, Str (Some 256));
   ("customData", true, Any)]
  [WReq "id" "id" (Plain);
   WReq "stackLevel" "stackLevel" (Plain);
   WReq "chargingProfilePurpose" "chargingProfilePurpose" (Conv e_v2_charging_profile_purpose_enum);
   WReq "chargingProfileKind" "chargingProfileKind" (Conv e_v2_charging_profile_kind_enum);
   WReq "chargingSchedule" "chargingSchedule" (Plain);
   WOpt "recurrencyKind" "recurrencyKind" "recurrencyKind" (Conv e_v2_recurrency_kind_enum);
   WOpt "validFrom" "validFrom" "validFrom" (Text);
   WOpt "validTo" "validTo" "validTo" (Text);
   WOpt "transactionId" "transactionId" "transactionId" (Plain);
   WOpt "maxOfflineDuration" "maxOfflineDuration" "maxOfflineDuration" (Plain);
   WOpt "invalidAfterOfflineDuration" "invalidAfterOfflineDuration" "invalidAfterOfflineDuration" (Plain);
   WOpt "dynUpdateInterval" "dynUpdateInterval" "dynUpdateInterval" (Plain);
   WOpt "dynUpdateTime" "dynUpdateTime" "dynUpdateTime" (Text);
   WOpt "priceScheduleSignature" "priceScheduleSignature" "priceScheduleSignature" (Plain);
   WOpt "customData" "customData" "customData" (Plain)]
  [RReq "id" "id" (Plain);
   RReq "stackLevel" "stackLevel" (Plain);
   RReq "chargingProfilePurpose" "chargingProfilePurpose" (Conv e_v2_charging_profile_purpose_enum);
   RReq "chargingProfileKind" "chargingProfileKind" (Conv e_v2_charging_profile_kind_enum);
   RReq "chargingSchedule" "chargingSchedule" Each;
   ROpt "recurrencyKind" "recurrencyKind" "recurrencyKind" (Conv e_v2_recurrency_kind_enum);
   ROpt "validFrom" "validFrom" "validFrom" (Text);
   ROpt "validTo" "validTo" "validTo" (Text);
   ROpt "transactionId" "transactionId" "transactionId" (Plain);
   ROpt "maxOfflineDuration" "maxOfflineDuration" "maxOfflineDuration" (Plain);
   ROpt "invalidAfterOfflineDuration" "invalidAfterOfflineDuration" "invalidAfterOfflineDuration" (Plain);
   ROpt "dynUpdateInterval" "dynUpdateInterval" "dynUpdateInterval" (Plain);
   ROpt "dynUpdateTime" "dynUpdateTime" "dynUpdateTime" (Text);
   ROpt "priceScheduleSignature" "priceScheduleSignature" "priceScheduleSignature" (Plain);
   ROpt "customData" "customData" "customData" (Plain)].

(** DERCurvePoints: include/ocpp/v2/ocpp_types.hpp 1617-1621, lib/ocpp/v2/ocpp_types.cpp 4781-4791 and 4794-4803. *)
Definition v2_DERCurvePoints : ty := Struct
  [("x", false, Float);
   ("y", false, Float);
   ("customData", true, Any)]
  [WReq "x" "x" (Plain);
   WReq "y" "y" (Plain);
   WOpt "customData" "customData" "customData" (Plain)]
  [RReq "x" "x" (Plain);
   RReq "y" "y" (Plain);
   ROpt "customData" "customData" "customData" (Plain)].

(** Hysteresis: include/ocpp/v2/ocpp_types.hpp 1632-1638, lib/ocpp/v2/ocpp_types.cpp 4813-4832 and 4835-4854. *)
Definition v2_Hysteresis : ty := Struct
  [("hysteresisHigh", true, Float);
   ("hysteresisLow", true, Float);
   ("hysteresisDelay", true, Float);
   ("hysteresisGradient", true, Float);
   ("customData", true, Any)]
  [WOpt "hysteresisHigh" "hysteresisHigh" "hysteresisHigh" (Plain);
   WOpt "hysteresisLow" "hysteresisLow" "hysteresisLow" (Plain);
   WOpt "hysteresisDelay" "hysteresisDelay" "hysteresisDelay" (Plain);
   WOpt "hysteresisGradient" "hysteresisGradient" "hysteresisGradient" (Plain);
   WOpt "customData" "customData" "customData" (Plain)]
  [ROpt "hysteresisHigh" "hysteresisHigh" "hysteresisHigh" (Plain);
   ROpt "hysteresisLow" "hysteresisLow" "hysteresisLow" (Plain);
   ROpt "hysteresisDelay" "hysteresisDelay" "hysteresisDelay" (Plain);
   ROpt "hysteresisGradient" "hysteresisGradient" "hysteresisGradient" (Plain);
   ROpt "customData" "customData" "customData" (Plain)].

(** ReactivePowerParams: include/ocpp/v2/ocpp_types.hpp 1649-1654, lib/ocpp/v2/ocpp_types.cpp 4864-4880 and 4883-4899. *)
Definition v2_ReactivePowerParams : ty := Struct
  [("vRef", true, Float);
   ("autonomousVRefEnable", true, Flag);
   ("autonomousVRefTimeConstant", true, Float);
   ("customData", true, Any)]
  [WOpt "vRef" "vRef" "vRef" (Plain);
   WOpt "autonomousVRefEnable" "autonomousVRefEnable" "autonomousVRefEnable" (Plain);
   WOpt "autonomousVRefTimeConstant" "autonomousVRefTimeConstant" "autonomousVRefTimeConstant" (Plain);
   WOpt "customData" "customData" "customData" (Plain)]
  [ROpt "vRef" "vRef" "vRef" (Plain);
   ROpt "autonomousVRefEnable" "autonomousVRefEnable" "autonomousVRefEnable" (Plain);
   ROpt "autonomousVRefTimeConstant" "autonomousVRefTimeConstant" "autonomousVRefTimeConstant" (Plain);
   ROpt "customData" "customData" "customData" (Plain)].

(** VoltageParams: include/ocpp/v2/ocpp_types.hpp 1665-1670, lib/ocpp/v2/ocpp_types.cpp 4909-4925 and 4928-4945. *)
Definition v2_VoltageParams : ty := Struct
  [("hv10MinMeanValue", true, Float);
   ("hv10MinMeanTripDelay", true, Float);
   ("powerDuringCessation", true, Enm e_v2_power_during_cessation_enum);
   ("customData", true, Any)]
  [WOpt "hv10MinMeanValue" "hv10MinMeanValue" "hv10MinMeanValue" (Plain);
   WOpt "hv10MinMeanTripDelay" "hv10MinMeanTripDelay" "hv10MinMeanTripDelay" (Plain);
   WOpt "powerDuringCessation" "powerDuringCessation" "powerDuringCessation" (Conv e_v2_power_during_cessation_enum);
   WOpt "customData" "customData" "customData" (Plain)]
  [ROpt "hv10MinMeanValue" "hv10MinMeanValue" "hv10MinMeanValue" (Plain);
   ROpt "hv10MinMeanTripDelay" "hv10MinMeanTripDelay" "hv10MinMeanTripDelay" (Plain);
   ROpt "powerDuringCessation" "powerDuringCessation" "powerDuringCessation" (Conv e_v2_power_during_cessation_enum);
   ROpt "customData" "customData" "customData" (Plain)].

(** DERCurve: include/ocpp/v2/ocpp_types.hpp 1681-1692, lib/ocpp/v2/ocpp_types.cpp 4955-4984 and 4987-5017. *)
Definition v2_DERCurve : ty := Struct
  [("curveData", false, Vec (v2_DERCurvePoints));
   ("priority", false, Int);
   ("yUnit", false, Enm e_v2_derunit_enum);
   ("hysteresis", true, v2_Hysteresis);
   ("reactivePowerParams", true, v2_ReactivePowerParams);
   ("voltageParams", true, v2_VoltageParams);
   ("responseTime", true, Float);
   ("startTime", true, Time);
   ("duration", true, Float);
   ("customData", true, Any)]
  [WReq "curveData" "curveData" (Plain);
   WReq "priority" "priority" (Plain);
   WReq "yUnit" "yUnit" (Conv e_v2_derunit_enum);
   WOpt "hysteresis" "hysteresis" "hysteresis" (Plain);
   WOpt "reactivePowerParams" "reactivePowerParams" "reactivePowerParams" (Plain);
   WOpt "voltageParams" "voltageParams" "voltageParams" (Plain);
   WOpt "responseTime" "responseTime" "responseTime" (Plain);
   WOpt "startTime" "startTime" "startTime" (Text);
   WOpt "duration" "duration" "duration" (Plain);
   WOpt "customData" "customData" "customData" (Plain)]
  [RReq "curveData" "curveData" Each;
   RReq "priority" "priority" (Plain);
   RReq "yUnit" "yUnit" (Conv e_v2_derunit_enum);
   ROpt "hysteresis" "hysteresis" "hysteresis" (Plain);
   ROpt "reactivePowerParams" "reactivePowerParams" "reactivePowerParams" (Plain);
   ROpt "voltageParams" "voltageParams" "voltageParams" (Plain);
   ROpt "responseTime" "responseTime" "responseTime" (Plain);
   ROpt "startTime" "startTime" "startTime" (Text);
   ROpt "duration" "duration" "duration" (Plain);
   ROpt "customData" "customData" "customData" (Plain)].

(** DERCurveGet: include/ocpp/v2/ocpp_types.hpp 1703-1710, lib/ocpp/v2/ocpp_types.cpp 5027-5040 and 5043-5055. *)
Definition v2_DERCurveGet : ty := Struct
  [("curve", false, v2_DERCurve);
   ("id", false, Str (Some 36));
   ("curveType", false, Enm e_v2_dercontrol_enum);
   ("isDefault", false, Flag);
   ("isSuperseded", false, Flag);
   ("customData", true, Any)]
  [WReq "curve" "curve" (Plain);
   WReq "id" "id" (Plain);
   WReq "curveType" "curveType" (Conv e_v2_dercontrol_enum);
   WReq "isDefault" "isDefault" (Plain);
   WReq "isSuperseded" "isSuperseded" (Plain);
   WOpt "customData" "customData" "customData" (Plain)]
  [RReq "curve" "curve" (Plain);
   RReq "id" "id" (Plain);
   RReq "curveType" "curveType" (Conv e_v2_dercontrol_enum);
   RReq "isDefault" "isDefault" (Plain);
   RReq "isSuperseded" "isSuperseded" (Plain);
   ROpt "customData" "customData" "customData" (Plain)].

(** EnterService: include/ocpp/v2/ocpp_types.hpp 1721-1731, lib/ocpp/v2/ocpp_types.cpp 5065-5084 and 5087-5108. *)
Definition v2_EnterService : ty := Struct
  [("priority", false, Int);
   ("highVoltage", false, Float);
   ("lowVoltage", false, Float);
   ("highFreq", false, Float);
   ("lowFreq", false, Float);
   ("delay", true, Float);
   ("randomDelay", true, Float);
   ("rampRate", true, Float);
   ("customData", true, Any)]
  [WReq "priority" "priority" (Plain);
   WReq "highVoltage" "highVoltage" (Plain);
   WReq "lowVoltage" "lowVoltage" (Plain);
   WReq "highFreq" "highFreq" (Plain);
   WReq "lowFreq" "lowFreq" (Plain);
   WOpt "delay" "delay" "delay" (Plain);
   WOpt "randomDelay" "randomDelay" "randomDelay" (Plain);
   WOpt "rampRate" "rampRate" "rampRate" (Plain);
   WOpt "customData" "customData" "customData" (Plain)]
  [RReq "priority" "priority" (Plain);
   RReq "highVoltage" "highVoltage" (Plain);
   RReq "lowVoltage" "lowVoltage" (Plain);
   RReq "highFreq" "highFreq" (Plain);
   RReq "lowFreq" "lowFreq" (Plain);
   ROpt "delay" "delay" "delay" (Plain);
   ROpt "randomDelay" "randomDelay" "randomDelay" (Plain);
   ROpt "rampRate" "rampRate" "rampRate" (Plain);
   ROpt "customData" "customData" "customData" (Plain)].

(** EnterServiceGet: include/ocpp/v2/ocpp_types.hpp 1742-1746, lib/ocpp/v2/ocpp_types.cpp 5118-5128 and 5131-5140. *)
Definition v2_EnterServiceGet : ty := Struct
  [("enterService", false, v2_EnterService);
   ("id", false, Str (Some 36));
   ("customData", true, Any)]
  [WReq "enterService" "enterService" (Plain);
   WReq "id" "id" (Plain);
   WOpt "customData" "customData" "customData" (Plain)]
  [RReq "enterService" "enterService" (Plain);
   RReq "id" "id" (Plain);
   ROpt "customData" "customData" "customData" (Plain)].

(** FixedPF: include/ocpp/v2/ocpp_types.hpp 1757-1764, lib/ocpp/v2/ocpp_types.cpp 5150-5167 and 5170-5186. *)
Definition v2_FixedPF : ty := Struct
  [("priority", false, Int);
   ("displacement", false, Float);
   ("excitation", false, Flag);
   ("startTime", true, Time);
   ("duration", true, Float);
   ("customData", true, Any)]
  [WReq "priority" "priority" (Plain);
   WReq "displacement" "displacement" (Plain);
   WReq "excitation" "excitation" (Plain);
   WOpt "startTime" "startTime" "startTime" (Text);
   WOpt "duration" "duration" "duration" (Plain);
   WOpt "customData" "customData" "customData" (Plain)]
  [RReq "priority" "priority" (Plain);
   RReq "displacement" "displacement" (Plain);
   RReq "excitation" "excitation" (Plain);
   ROpt "startTime" "startTime" "startTime" (Text);
   ROpt "duration" "duration" "duration" (Plain);
   ROpt "customData" "customData" "customData" (Plain)].

(** FixedPFGet: include/ocpp/v2/ocpp_types.hpp 1775-1781, lib/ocpp/v2/ocpp_types.cpp 5196-5208 and 5211-5222. *)
Definition v2_FixedPFGet : ty := Struct
  [("fixedPF", false, v2_FixedPF);
   ("id", false, Str (Some 36));
   ("isDefault", false, Flag);
   ("isSuperseded", false, Flag);
   ("customData", true, Any)]
  [WReq "fixedPF" "fixedPF" (Plain);
   WReq "id" "id" (Plain);
   WReq "isDefault" "isDefault" (Plain);
   WReq "isSuperseded" "isSuperseded" (Plain);
   WOpt "customData" "customData" "customData" (Plain)]
  [RReq "fixedPF" "fixedPF" (Plain);
   RReq "id" "id" (Plain);
   RReq "isDefault" "isDefault" (Plain);
   RReq "isSuperseded" "isSuperseded" (Plain);
   ROpt "customData" "customData" "customData" (Plain)].

(** FixedVar: include/ocpp/v2/ocpp_types.hpp 1792-1799, lib/ocpp/v2/ocpp_types.cpp 5232-5249 and 5252-5268. *)
Definition v2_FixedVar : ty := Struct
  [("priority", false, Int);
   ("setpoint", false, Float);
   ("unit", false, Enm e_v2_derunit_enum);
   ("startTime", true, Time);
   ("duration", true, Float);
   ("customData", true, Any)]
  [WReq "priority" "priority" (Plain);
   WReq "setpoint" "setpoint" (Plain);
   WReq "unit" "unit" (Conv e_v2_derunit_enum);
   WOpt "startTime" "startTime" "startTime" (Text);
   WOpt "duration" "duration" "duration" (Plain);
   WOpt "customData" "customData" "customData" (Plain)]
  [RReq "priority" "priority" (Plain);
   RReq "setpoint" "setpoint" (Plain);
   RReq "unit" "unit" (Conv e_v2_derunit_enum);
   ROpt "startTime" "startTime" "startTime" (Text);
   ROpt "duration" "duration" "duration" (Plain);
   ROpt "customData" "customData" "customData" (Plain)].

(** FixedVarGet: include/ocpp/v2/ocpp_types.hpp 1810-1816, lib/ocpp/v2/ocpp_types.cpp 5278-5290 and 5293-5304. *)
Definition v2_FixedVarGet : ty := Struct
  [("fixedVar", false, v2_FixedVar);
   ("id", false, Str (Some 36));
   ("isDefault", false, Flag);
   ("isSuperseded", false, Flag);
   ("customData", true, Any)]
  [WReq "fixedVar" "fixedVar" (Plain);
   WReq "id" "id" (Plain);
   WReq "isDefault" "isDefault" (Plain);
   WReq "isSuperseded" "isSuperseded" (Plain);
   WOpt "customData" "customData" "customData" (Plain)]
  [RReq "fixedVar" "fixedVar" (Plain);
   RReq "id" "id" (Plain);
   RReq "isDefault" "isDefault" (Plain);
   RReq "isSuperseded" "isSuperseded" (Plain);
   ROpt "customData" "customData" "customData" (Plain)].

(** FreqDroop: include/ocpp/v2/ocpp_types.hpp 1827-1837, lib/ocpp/v2/ocpp_types.cpp 5314-5330 and 5333-5352. *)
Definition v2_FreqDroop : ty := Struct
  [("priority", false, Int);
   ("overFreq", false, Float);
   ("underFreq", false, Float);
   ("overDroop", false, Float);
   ("underDroop", false, Float);
   ("responseTime", false, Float);
   ("startTime", true, Time);
   ("duration", true, Float);
   ("customData", true, Any)]
  [WReq "priority" "priority" (Plain);
   WReq "overFreq" "overFreq" (Plain);
   WReq "underFreq" "underFreq" (Plain);
   WReq "overDroop" "overDroop" (Plain);
   WReq "underDroop" "underDroop" (Plain);
   WReq "responseTime" "responseTime" (Plain);
   WOpt "startTime" "startTime" "startTime" (Text);
   WOpt "duration" "duration" "duration" (Plain);
   WOpt "customData" "customData" "customData" (Plain)]
  [RReq "priority" "priority" (Plain);
   RReq "overFreq" "overFreq" (Plain);
   RReq "underFreq" "underFreq" (Plain);
   RReq "overDroop" "overDroop" (Plain);
   RReq "underDroop" "underDroop" (Plain);
   RReq "responseTime" "responseTime" (Plain);
   ROpt "startTime" "startTime" "startTime" (Text);
   ROpt "duration" "duration" "duration" (Plain);
   ROpt "customData" "customData" "customData" (Plain)].

(** FreqDroopGet: include/ocpp/v2/ocpp_types.hpp 1848-1854, lib/ocpp/v2/ocpp_types.cpp 5362-5374 and 5377-5388. *)
Definition v2_FreqDroopGet : ty := Struct
  [("freqDroop", false, v2_FreqDroop);
   ("id", false, Str (Some 36));
   ("isDefault", false, Flag);
   ("isSuperseded", false, Flag);
   ("customData", true, Any)]
  [WReq "freqDroop" "freqDroop" (Plain);
   WReq "id" "id" (Plain);
   WReq "isDefault" "isDefault" (Plain);
   WReq "isSuperseded" "isSuperseded" (Plain);
   WOpt "customData" "customData" "customData" (Plain)]
  [RReq "freqDroop" "freqDroop" (Plain);
   RReq "id" "id" (Plain);
   RReq "isDefault" "isDefault" (Plain);
   RReq "isSuperseded" "isSuperseded" (Plain);
   ROpt "customData" "customData" "customData" (Plain)].

(** Gradient: include/ocpp/v2/ocpp_types.hpp 1865-1870, lib/ocpp/v2/ocpp_types.cpp 5398-5409 and 5412-5422. *)
Definition v2_Gradient : ty := Struct
  [("priority", false, Int);
   ("gradient", false, Float);
   ("softGradient", false, Float);
   ("customData", true, Any)]
  [WReq "priority" "priority" (Plain);
   WReq "gradient" "gradient" (Plain);
   WReq "softGradient" "softGradient" (Plain);
   WOpt "customData" "customData" "customData" (Plain)]
  [RReq "priority" "priority" (Plain);
   RReq "gradient" "gradient" (Plain);
   RReq "softGradient" "softGradient" (Plain);
   ROpt "customData" "customData" "customData" (Plain)].

(** GradientGet: include/ocpp/v2/ocpp_types.hpp 1881-1885, lib/ocpp/v2/ocpp_types.cpp 5432-5442 and 5445-5454. *)
Definition v2_GradientGet : ty := Struct
  [("gradient", false, v2_Gradient);
   ("id", false, Str (Some 36));
   ("customData", true, Any)]
  [WReq "gradient" "gradient" (Plain);
   WReq "id" "id" (Plain);
   WOpt "customData" "customData" "customData" (Plain)]
  [RReq "gradient" "gradient" (Plain);
   RReq "id" "id" (Plain);
   ROpt "customData" "customData" "customData" (Plain)].

(** LimitMaxDischarge: include/ocpp/v2/ocpp_types.hpp 1896-1903, lib/ocpp/v2/ocpp_types.cpp 5464-5485 and 5488-5508. *)
Definition v2_LimitMaxDischarge : ty := Struct
  [("priority", false, Int);
   ("pctMaxDischargePower", true, Float);
   ("powerMonitoringMustTrip", true, v2_DERCurve);
   ("startTime", true, Time);
   ("duration", true, Float);
   ("customData", true, Any)]
  [WReq "priority" "priority" (Plain);
   WOpt "pctMaxDischargePower" "pctMaxDischargePower" "pctMaxDischargePower" (Plain);
   WOpt "powerMonitoringMustTrip" "powerMonitoringMustTrip" "powerMonitoringMustTrip" (Plain);
   WOpt "startTime" "startTime" "startTime" (Text);
   WOpt "duration" "duration" "duration" (Plain);
   WOpt "customData" "customData" "customData" (Plain)]
  [RReq "priority" "priority" (Plain);
   ROpt "pctMaxDischargePower" "pctMaxDischargePower" "pctMaxDischargePower" (Plain);
   ROpt "powerMonitoringMustTrip" "powerMonitoringMustTrip" "powerMonitoringMustTrip" (Plain);
   ROpt "startTime" "startTime" "startTime" (Text);
   ROpt "duration" "duration" "duration" (Plain);
   ROpt "customData" "customData" "customData" (Plain)].

(** LimitMaxDischargeGet: include/ocpp/v2/ocpp_types.hpp 1914-1920, lib/ocpp/v2/ocpp_types.cpp 5518-5530 and 5533-5544. *)
Definition v2_LimitMaxDischargeGet : ty := Struct
  [("id", false, Str (Some 36));
   ("isDefault", false, Flag);
   ("isSuperseded", false, Flag);
   ("limitMaxDischarge", false, v2_LimitMaxDischarge);
   ("customData", true, Any)]
  [WReq "id" "id" (Plain);
   WReq "isDefault" "isDefault" (Plain);
   WReq "isSuperseded" "isSuperseded" (Plain);
   WReq "limitMaxDischarge" "limitMaxDischarge" (Plain);
   WOpt "customData" "customData" "customData" (Plain)]
  [RReq "id" "id" (Plain);
   RReq "isDefault" "isDefault" (Plain);
   RReq "isSuperseded" "isSuperseded" (Plain);
   RReq "limitMaxDischarge" "limitMaxDischarge" (Plain);
   ROpt "customData" "customData" "customData" (Plain)].

(** AuthorizationData: include/ocpp/v2/ocpp_types.hpp 1931-1935, lib/ocpp/v2/ocpp_types.cpp 5554-5566 and 5569-5580. *)
Definition v2_AuthorizationData : ty := Struct
  [("idToken", false, v2_IdToken);
   ("idTokenInfo", true, v2_IdTokenInfo);
   ("customData", true, Any)]
  [WReq "idToken" "idToken" (Plain);
   WOpt "idTokenInfo" "idTokenInfo" "idTokenInfo" (Plain);
   WOpt "customData" "customData" "customData" (Plain)]
  [RReq "idToken" "idToken" (Plain);
   ROpt "idTokenInfo" "idTokenInfo" "idTokenInfo" (Plain);
   ROpt "customData" "customData" "customData" (Plain)].

(** APN: include/ocpp/v2/ocpp_types.hpp 1946-1955, lib/ocpp/v2/ocpp_types.cpp 5590-5615 and 5618-5642. *)
Definition v2_APN : ty := Struct
  [("apn", false, Str (Some 2000));
   ("apnAuthentication", false, Enm e_v2_apnauthentication_enum);
   ("apnUserName", true, Str (Some 50));
   ("apnPassword", true, Str (Some 64));
   ("simPin", true, Int);
   ("preferredNetwork", true, Str (Some 6));
   ("useOnlyPreferredNetwork", true, Flag);
   ("customData", true, Any)]
  [WReq "apn" "apn" (Plain);
   WReq "apnAuthentication" "apnAuthentication" (Conv e_v2_apnauthentication_enum);
   WOpt "apnUserName" "apnUserName" "apnUserName" (Plain);
   WOpt "apnPassword" "apnPassword" "apnPassword" (Plain);
   WOpt "simPin" "simPin" "simPin" (Plain);
   WOpt "preferredNetwork" "preferredNetwork" "preferredNetwork" (Plain);
   WOpt "useOnlyPreferredNetwork" "useOnlyPreferredNetwork" "useOnlyPreferredNetwork" (Plain);
   WOpt "customData" "customData" "customData" (Plain)]
  [RReq "apn" "apn" (Plain);
   RReq "apnAuthentication" "apnAuthentication" (Conv e_v2_apnauthentication_enum);
   ROpt "apnUserName" "apnUserName" "apnUserName" (Plain);
   ROpt "apnPassword" "apnPassword" "apnPassword" (Plain);
   ROpt "simPin" "simPin" "simPin" (Plain);
   ROpt "preferredNetwork" "preferredNetwork" "preferredNetwork" (Plain);
   ROpt "useOnlyPreferredNetwork" "useOnlyPreferredNetwork" "useOnlyPreferredNetwork" (Plain);
   ROpt "customData" "customData" "customData" (Plain)].

(** VPN: include/ocpp/v2/ocpp_types.hpp 1966-1974, lib/ocpp/v2/ocpp_types.cpp 5652-5668 and 5671-5686. *)
Definition v2_VPN : ty := Struct
  [("server", false, Str (Some 2000));
   ("user", false, Str (Some 50));
   ("password", false, Str (Some 64));
   ("key", false, Str (Some 255));
   ("type", false, Enm e_v2_vpnenum);
   ("group", true, Str (Some 50));
   ("customData", true, Any)]
  [WReq "server" "server" (Plain);
   WReq "user" "user" (Plain);
   WReq "password" "password" (Plain);
   WReq "key" "key" (Plain);
   WReq "type" "type" (Conv e_v2_vpnenum);
   WOpt "group" "group" "group" (Plain);
   WOpt "customData" "customData" "customData" (Plain)]
  [RReq "server" "server" (Plain);
   RReq "user" "user" (Plain);
   RReq "password" "password" (Plain);
   RReq "key" "key" (Plain);
   RReq "type" "type" (Conv e_v2_vpnenum);
   ROpt "group" "group" "group" (Plain);
   ROpt "customData" "customData" "customData" (Plain)].

(** NetworkConnectionProfile: include/ocpp/v2/ocpp_types.hpp 1985-1997, lib/ocpp/v2/ocpp_types.cpp 5696-5724 and 5727-5754. *)
Definition v2_NetworkConnectionProfile : ty := Struct
  [("ocppInterface", false, Enm e_v2_ocppinterface_enum);
   ("ocppTransport", false, Enm e_v2_ocpptransport_enum);
   ("messageTimeout", false, Int);
   ("ocppCsmsUrl", false, Str (Some 2000));
   ("securityProfile", false, Int);
   ("apn", true, v2_APN);
   ("ocppVersion", true, Enm e_v2_ocppversion_enum);
   ("identity", true, Str (Some 48));
   ("basicAuthPassword", true, Str (Some 64));
   ("vpn", true, v2_VPN);
   ("customData", true, Any)]
  [WReq "ocppInterface" "ocppInterface" (Conv e_v2_ocppinterface_enum);
   WReq "ocppTransport" "ocppTransport" (Conv e_v2_ocpptransport_enum);
   WReq "messageTimeout" "messageTimeout" (Plain);
   WReq "ocppCsmsUrl" "ocppCsmsUrl" (Plain);
   WReq "securityProfile" "securityProfile" (Plain);
   WOpt "apn" "apn" "apn" (Plain);
   WOpt "ocppVersion" "ocppVersion" "ocppVersion" (Conv e_v2_ocppversion_enum);
   WOpt "identity" "identity" "identity" (Plain);
   WOpt "basicAuthPassword" "basicAuthPassword" "basicAuthPassword" (Plain);
   WOpt "vpn" "vpn" "vpn" (Plain);
   WOpt "customData" "customData" "customData" (Plain)]
  [RReq "ocppInterface" "ocppInterface" (Conv e_v2_ocppinterface_enum);
   RReq "ocppTransport" "ocppTransport" (Conv e_v2_ocpptransport_enum);
   RReq "messageTimeout" "messageTimeout" (Plain);
   RReq "ocppCsmsUrl" "ocppCsmsUrl" (Plain);
   RReq "securityProfile" "securityProfile" (Plain);
   ROpt "apn" "apn" "apn" (Plain);
   ROpt "ocppVersion" "ocppVersion" "ocppVersion" (Conv e_v2_ocppversion_enum);
   ROpt "identity" "identity" "identity" (Plain);
   ROpt "basicAuthPassword" "basicAuthPassword" "basicAuthPassword" (Plain);
   ROpt "vpn" "vpn" "vpn" (Plain);
   ROpt "customData" "customData" "customData" (Plain)].

(** SetMonitoringData: include/ocpp/v2/ocpp_types.hpp 2008-2018, lib/ocpp/v2/ocpp_types.cpp 5764-5784 and 5787-5808. *)
Definition v2_SetMonitoringData : ty := Struct
  [("value", false, Float);
   ("type", false, Enm e_v2_monitor_enum);
   ("severity", false, Int);
   ("component", false, v2_Component);
   ("variable", false, v2_Variable);
   ("id", true, Int);
   ("periodicEventStream", true, v2_PeriodicEventStreamParams);
   ("transaction", true, Flag);
   ("customData", true, Any)]
  [WReq "value" "value" (Plain);
   WReq "type" "type" (Conv e_v2_monitor_enum);
   WReq "severity" "severity" (Plain);
   WReq "component" "component" (Plain);
   WReq "variable" "variable" (Plain);
   WOpt "id" "id" "id" (Plain);
   WOpt "periodicEventStream" "periodicEventStream" "periodicEventStream" (Plain);
   WOpt "transaction" "transaction" "transaction" (Plain);
   WOpt "customData" "customData" "customData" (Plain)]
  [RReq "value" "value" (Plain);
   RReq "type" "type" (Conv e_v2_monitor_enum);
   RReq "severity" "severity" (Plain);
   RReq "component" "component" (Plain);
   RReq "variable" "variable" (Plain);
   ROpt "id" "id" "id" (Plain);
   ROpt "periodicEventStream" "periodicEventStream" "periodicEventStream" (Plain);
   ROpt "transaction" "transaction" "transaction" (Plain);
   ROpt "customData" "customData" "customData" (Plain)].

(** SetMonitoringResult: include/ocpp/v2/ocpp_types.hpp 2029-2038, lib/ocpp/v2/ocpp_types.cpp 5818-5837 and 5840-5858. *)
Definition v2_SetMonitoringResult : ty := Struct
  [("status", false, Enm e_v2_set_monitoring_status_enum);
   ("type", false, Enm e_v2_monitor_enum);
   ("component", false, v2_Component);
   ("variable", false, v2_Variable);
   ("severity", false, Int);
   ("id", true, Int);
   ("statusInfo", true, v2_StatusInfo);
   ("customData", true, Any)]
  [WReq "status" "status" (Conv e_v2_set_monitoring_status_enum);
   WReq "type" "type" (Conv e_v2_monitor_enum);
   WReq "component" "component" (Plain);
   WReq "variable" "variable" (Plain);
   WReq "severity" "severity" (Plain);
   WOpt "id" "id" "id" (Plain);
   WOpt "statusInfo" "statusInfo" "statusInfo" (Plain);
   WOpt "customData" "customData" "customData" (Plain)]
  [RReq "status" "status" (Conv e_v2_set_monitoring_status_enum);
   RReq "type" "type" (Conv e_v2_monitor_enum);
   RReq "component" "component" (Plain);
   RReq "variable" "variable" (Plain);
   RReq "severity" "severity" (Plain);
   ROpt "id" "id" "id" (Plain);
   ROpt "statusInfo" "statusInfo" "statusInfo" (Plain);
   ROpt "customData" "customData" "customData" (Plain)].

(** SetVariableData: include/ocpp/v2/ocpp_types.hpp 2049-2055, lib/ocpp/v2/ocpp_types.cpp 5868-5882 and 5885-5898. *)
Definition v2_SetVariableData : ty := Struct
  [("attributeValue", false, Str (Some 2500));
   ("component", false, v2_Component);
   ("variable", false, v2_Variable);
   ("attributeType", true, Enm e_v2_attribute_enum);
   ("customData", true, Any)]
  [WReq "attributeValue" "attributeValue" (Plain);
   WReq "component" "component" (Plain);
   WReq "variable" "variable" (Plain);
   WOpt "attributeType" "attributeType" "attributeType" (Conv e_v2_attribute_enum);
   WOpt "customData" "customData" "customData" (Plain)]
  [RReq "attributeValue" "attributeValue" (Plain);
   RReq "component" "component" (Plain);
   RReq "variable" "variable" (Plain);
   ROpt "attributeType" "attributeType" "attributeType" (Conv e_v2_attribute_enum);
   ROpt "customData" "customData" "customData" (Plain)].

(** SetVariableResult: include/ocpp/v2/ocpp_types.hpp 2066-2073, lib/ocpp/v2/ocpp_types.cpp 5908-5925 and 5928-5944. *)
Definition v2_SetVariableResult : ty := Struct
  [("attributeStatus", false, Enm e_v2_set_variable_status_enum);
   ("component", false, v2_Component);
   ("variable", false, v2_Variable);
   ("attributeType", true, Enm e_v2_attribute_enum);
   ("attributeStatusInfo", true, v2_StatusInfo);
   ("customData", true, Any)]
  [WReq "attributeStatus" "attributeStatus" (Conv e_v2_set_variable_status_enum);
   WReq "component" "component" (Plain);
   WReq "variable" "variable" (Plain);
   WOpt "attributeType" "attributeType" "attributeType" (Conv e_v2_attribute_enum);
   WOpt "attributeStatusInfo" "attributeStatusInfo" "attributeStatusInfo" (Plain);
   WOpt "customData" "customData" "customData" (Plain)]
  [RReq "attributeStatus" "attributeStatus" (Conv e_v2_set_variable_status_enum);
   RReq "component" "component" (Plain);
   RReq "variable" "variable" (Plain);
   ROpt "attributeType" "attributeType" "attributeType" (Conv e_v2_attribute_enum);
   ROpt "attributeStatusInfo" "attributeStatusInfo" "attributeStatusInfo" (Plain);
   ROpt "customData" "customData" "customData" (Plain)].

(** CostDimension: include/ocpp/v2/ocpp_types.hpp 2084-2088, lib/ocpp/v2/ocpp_types.cpp 5954-5964 and 5967-5976. *)
Definition v2_CostDimension : ty := Struct
  [("type", false, Enm e_v2_cost_dimension_enum);
   ("volume", false, Float);
   ("customData", true, Any)]
  [WReq "type" "type" (Conv e_v2_cost_dimension_enum);
   WReq "volume" "volume" (Plain);
   WOpt "customData" "customData" "customData" (Plain)]
  [RReq "type" "type" (Conv e_v2_cost_dimension_enum);
   RReq "volume" "volume" (Plain);
   ROpt "customData" "customData" "customData" (Plain)].

(** ChargingPeriod: include/ocpp/v2/ocpp_types.hpp 2099-2104, lib/ocpp/v2/ocpp_types.cpp 5986-6004 and 6007-6026. *)
Definition v2_ChargingPeriod : ty := Struct
  [("startPeriod", false, Time);
   ("dimensions", true, Vec (v2_CostDimension));
   ("tariffId", true, Str (Some 60));
   ("customData", true, Any)]
  [WReq "startPeriod" "startPeriod" (Text);
   WOpt "dimensions" "dimensions" "dimensions" (Each);
   WOpt "tariffId" "tariffId" "tariffId" (Plain);
   WOpt "customData" "customData" "customData" (Plain)]
  [RReq "startPeriod" "startPeriod" (Text);
   ROpt "dimensions" "dimensions" "dimensions" (Each);
   ROpt "tariffId" "tariffId" "tariffId" (Plain);
   ROpt "customData" "customData" "customData" (Plain)].

(** TotalPrice: include/ocpp/v2/ocpp_types.hpp 2115-2119, lib/ocpp/v2/ocpp_types.cpp 6036-6049 and 6052-6065. *)
Definition v2_TotalPrice : ty := Struct
  [("exclTax", true, Float);
   ("inclTax", true, Float);
   ("customData", true, Any)]
  [WOpt "exclTax" "exclTax" "exclTax" (Plain);
   WOpt "inclTax" "inclTax" "inclTax" (Plain);
   WOpt "customData" "customData" "customData" (Plain)]
  [ROpt "exclTax" "exclTax" "exclTax" (Plain);
   ROpt "inclTax" "inclTax" "inclTax" (Plain);
   ROpt "customData" "customData" "customData" (Plain)].

(** TotalCost: include/ocpp/v2/ocpp_types.hpp 2130-2141, lib/ocpp/v2/ocpp_types.cpp 6075-6104 and 6107-6135. *)
Definition v2_TotalCost : ty := Struct
  [("currency", false, Str (Some 3));
   ("typeOfCost", false, Enm e_v2_tariff_cost_enum);
   ("total", false, v2_TotalPrice);
   ("fixed", true, v2_Price);
   ("energy", true, v2_Price);
   ("chargingTime", true, v2_Price);
   ("idleTime", true, v2_Price);
   ("reservationTime", true, v2_Price);
   ("reservationFixed", true, v2_Price);
   ("customData", true, Any)]
  [WReq "currency" "currency" (Plain);
   WReq "typeOfCost" "typeOfCost" (Conv e_v2_tariff_cost_enum);
   WReq "total" "total" (Plain);
   WOpt "fixed" "fixed" "fixed" (Plain);
   WOpt "energy" "energy" "energy" (Plain);
   WOpt "chargingTime" "chargingTime" "chargingTime" (Plain);
   WOpt "idleTime" "idleTime" "idleTime" (Plain);
   WOpt "reservationTime" "reservationTime" "reservationTime" (Plain);
   WOpt "reservationFixed" "reservationFixed" "reservationFixed" (Plain);
   WOpt "customData" "customData" "customData" (Plain)]
  [RReq "currency" "currency" (Plain);
   RReq "typeOfCost" "typeOfCost" (Conv e_v2_tariff_cost_enum);
   RReq "total" "total" (Plain);
   ROpt "fixed" "fixed" "fixed" (Plain);
   ROpt "energy" "energy" "energy" (Plain);
   ROpt "chargingTime" "chargingTime" "chargingTime" (Plain);
   ROpt "idleTime" "idleTime" "idleTime" (Plain);
   ROpt "reservationTime" "reservationTime" "reservationTime" (Plain);
   ROpt "reservationFixed" "reservationFixed" "reservationFixed" (Plain);
   ROpt "customData" "customData" "customData" (Plain)].

(** TotalUsage: include/ocpp/v2/ocpp_types.hpp 2152-2158, lib/ocpp/v2/ocpp_types.cpp 6145-6159 and 6162-6175. *)
Definition v2_TotalUsage : ty := Struct
  [("energy", false, Float);
   ("chargingTime", false, Int);
   ("idleTime", false, Int);
   ("reservationTime", true, Int);
   ("customData", true, Any)]
  [WReq "energy" "energy" (Plain);
   WReq "chargingTime" "chargingTime" (Plain);
   WReq "idleTime" "idleTime" (Plain);
   WOpt "reservationTime" "reservationTime" "reservationTime" (Plain);
   WOpt "customData" "customData" "customData" (Plain)]
  [RReq "energy" "energy" (Plain);
   RReq "chargingTime" "chargingTime" (Plain);
   RReq "idleTime" "idleTime" (Plain);
   ROpt "reservationTime" "reservationTime" "reservationTime" (Plain);
   ROpt "customData" "customData" "customData" (Plain)].

(** CostDetails: include/ocpp/v2/ocpp_types.hpp 2169-2176, lib/ocpp/v2/ocpp_types.cpp 6185-6207 and 6210-6233. *)
Definition v2_CostDetails : ty := Struct
  [("totalCost", false, v2_TotalCost);
   ("totalUsage", false, v2_TotalUsage);
   ("chargingPeriods", true, Vec (v2_ChargingPeriod));
   ("failureToCalculate", true, Flag);
   ("failureReason", true, Str (Some 500));
   ("customData", true, Any)]
  [WReq "totalCost" "totalCost" (Plain);
   WReq "totalUsage" "totalUsage" (Plain);
   WOpt "chargingPeriods" "chargingPeriods" "chargingPeriods" (Each);
   WOpt "failureToCalculate" "failureToCalculate" "failureToCalculate" (Plain);
   WOpt "failureReason" "failureReason" "failureReason" (Plain);
   WOpt "customData" "customData" "customData" (Plain)]
  [RReq "totalCost" "totalCost" (Plain);
   RReq "totalUsage" "totalUsage" (Plain);
   ROpt "chargingPeriods" "chargingPeriods" "chargingPeriods" (Each);
   ROpt "failureToCalculate" "failureToCalculate" "failureToCalculate" (Plain);
   ROpt "failureReason" "failureReason" "failureReason" (Plain);
   ROpt "customData" "customData" "customData" (Plain)].

(** TransactionLimit: include/ocpp/v2/ocpp_types.hpp 2187-2193, lib/ocpp/v2/ocpp_types.cpp 6243-6262 and 6265-6284. *)
Definition v2_TransactionLimit : ty := Struct
  [("maxCost", true, Float);
   ("maxEnergy", true, Float);
   ("maxTime", true, Int);
   ("maxSoC", true, Int);
   ("customData", true, Any)]
  [WOpt "maxCost" "maxCost" "maxCost" (Plain);
   WOpt "maxEnergy" "maxEnergy" "maxEnergy" (Plain);
   WOpt "maxTime" "maxTime" "maxTime" (Plain);
   WOpt "maxSoC" "maxSoC" "maxSoC" (Plain);
   WOpt "customData" "customData" "customData" (Plain)]
  [ROpt "maxCost" "maxCost" "maxCost" (Plain);
   ROpt "maxEnergy" "maxEnergy" "maxEnergy" (Plain);
   ROpt "maxTime" "maxTime" "maxTime" (Plain);
   ROpt "maxSoC" "maxSoC" "maxSoC" (Plain);
   ROpt "customData" "customData" "customData" (Plain)].

(** Transaction: include/ocpp/v2/ocpp_types.hpp 2204-2214, lib/ocpp/v2/ocpp_types.cpp 6294-6324 and 6327-6356. *)
Definition v2_Transaction : ty := Struct
  [("transactionId", false, Str (Some 36));
   ("chargingState", true, Enm e_v2_charging_state_enum);
   ("timeSpentCharging", true, Int);
   ("stoppedReason", true, Enm e_v2_reason_enum);
   ("remoteStartId", true, Int);
   ("operationMode", true, Enm e_v2_operation_mode_enum);
   ("tariffId", true, Str (Some 60));
   ("transactionLimit", true, v2_TransactionLimit);
   ("customData", true, Any)]
  [WReq "transactionId" "transactionId" (Plain);
   WOpt "chargingState" "chargingState" "chargingState" (Conv e_v2_charging_state_enum);
   WOpt "timeSpentCharging" "timeSpentCharging" "timeSpentCharging" (Plain);
   WOpt "stoppedReason" "stoppedReason" "stoppedReason" (Conv e_v2_reason_enum);
   WOpt "remoteStartId" "remoteStartId" "remoteStartId" (Plain);
   WOpt "operationMode" "operationMode" "operationMode" (Conv e_v2_operation_mode_enum);
   WOpt "tariffId" "tariffId" "tariffId" (Plain);
   WOpt "transactionLimit" "transactionLimit" "transactionLimit" (Plain);
   WOpt "customData" "customData" "customData" (Plain)]
  [RReq "transactionId" "transactionId" (Plain);
   ROpt "chargingState" "chargingState" "chargingState" (Conv e_v2_charging_state_enum);
   ROpt "timeSpentCharging" "timeSpentCharging" "timeSpentCharging" (Plain);
   ROpt "stoppedReason" "stoppedReason" "stoppedReason" (Conv e_v2_reason_enum);
   ROpt "remoteStartId" "remoteStartId" "remoteStartId" (Plain);
   ROpt "operationMode" "operationMode" "operationMode" (Conv e_v2_operation_mode_enum);
   ROpt "tariffId" "tariffId" "tariffId" (Plain);
   ROpt "transactionLimit" "transactionLimit" "transactionLimit" (Plain);
   ROpt "customData" "customData" "customData" (Plain)].

(** Firmware: include/ocpp/v2/ocpp_types.hpp 2225-2232, lib/ocpp/v2/ocpp_types.cpp 6366-6385 and 6388-6406. *)
Definition v2_Firmware : ty := Struct
  [("location", false, Str (Some 2000));
   ("retrieveDateTime", false, Time);
   ("installDateTime", true, Time);
   ("signingCertificate", true, Str (Some 5500));
   ("signature", true, Str (Some 800));
   ("customData", true, Any)]
  [WReq "location" "location" (Plain);
   WReq "retrieveDateTime" "retrieveDateTime" (Text);
   WOpt "installDateTime" "installDateTime" "installDateTime" (Text);
   WOpt "signingCertificate" "signingCertificate" "signingCertificate" (Plain);
   WOpt "signature" "signature" "signature" (Plain);
   WOpt "customData" "customData" "customData" (Plain)]
  [RReq "location" "location" (Plain);
   RReq "retrieveDateTime" "retrieveDateTime" (Text);
   ROpt "installDateTime" "installDateTime" "installDateTime" (Text);
   ROpt "signingCertificate" "signingCertificate" "signingCertificate" (Plain);
   ROpt "signature" "signature" "signature" (Plain);
   ROpt "customData" "customData" "customData" (Plain)].

(** AuthorizeRequest: include/ocpp/v2/messages/Authorize.hpp 19-28, lib/ocpp/v2/messages/Authorize.cpp 20-38 and 40-59. *)
Definition v2_AuthorizeRequest : ty := Struct
  [("idToken", false, v2_IdToken);
   ("certificate", true, Str (Some 10000));
   ("iso15118CertificateHashData", true, Vec (v2_OCSPRequestData));
   ("customData", true, Any)]
  [WReq "idToken" "idToken" (Plain);
   WOpt "certificate" "certificate" "certificate" (Plain);
   WOpt "iso15118CertificateHashData" "iso15118CertificateHashData" "iso15118CertificateHashData" (Each);
   WOpt "customData" "customData" "customData" (Plain)]
  [RReq "idToken" "idToken" (Plain);
   ROpt "certificate" "certificate" "certificate" (Plain);
   ROpt "iso15118CertificateHashData" "iso15118CertificateHashData" "iso15118CertificateHashData" (Each);
   ROpt "customData" "customData" "customData" (Plain)].

(** AuthorizeResponse: include/ocpp/v2/messages/Authorize.hpp 41-51, lib/ocpp/v2/messages/Authorize.cpp 72-93 and 95-118. *)
Definition v2_AuthorizeResponse : ty := Struct
  [("idTokenInfo", false, v2_IdTokenInfo);
   ("certificateStatus", true, Enm e_v2_authorize_certificate_status_enum);
   ("allowedEnergyTransfer", true, Vec (Enm e_v2_energy_transfer_mode_enum));
   ("tariff", true, v2_Tariff);
   ("customData", true, Any)]
  [WReq "idTokenInfo" "idTokenInfo" (Plain);
   WOpt "certificateStatus" "certificateStatus" "certificateStatus" (Conv e_v2_authorize_certificate_status_enum);
   WOpt "allowedEnergyTransfer" "allowedEnergyTransfer" "allowedEnergyTransfer" (EachConv e_v2_energy_transfer_mode_enum);
   WOpt "tariff" "tariff" "tariff" (Plain);
   WOpt "customData" "customData" "customData" (Plain)]
  [RReq "idTokenInfo" "idTokenInfo" (Plain);
   ROpt "certificateStatus" "certificateStatus" "certificateStatus" (Conv e_v2_authorize_certificate_status_enum);
   ROpt "allowedEnergyTransfer" "allowedEnergyTransfer" "allowedEnergyTransfer" (EachConv e_v2_energy_transfer_mode_enum);
   ROpt "tariff" "tariff" "tariff" (Plain);
   ROpt "customData" "customData" "customData" (Plain)].

(** BootNotificationRequest: include/ocpp/v2/messages/BootNotification.hpp 19-27, lib/ocpp/v2/messages/BootNotification.cpp 20-30 and 32-41. *)
Definition v2_BootNotificationRequest : ty := Struct
  [("chargingStation", false, v2_ChargingStation);
   ("reason", false, Enm e_v2_boot_reason_enum);
   ("customData", true, Any)]
  [WReq "chargingStation" "chargingStation" (Plain);
   WReq "reason" "reason" (Conv e_v2_boot_reason_enum);
   WOpt "customData" "customData" "customData" (Plain)]
  [RReq "chargingStation" "chargingStation" (Plain);
   RReq "reason" "reason" (Conv e_v2_boot_reason_enum);
   ROpt "customData" "customData" "customData" (Plain)].

(** BootNotificationResponse: include/ocpp/v2/messages/BootNotification.hpp 40-50, lib/ocpp/v2/messages/BootNotification.cpp 54-68 and 70-83. *)
Definition v2_BootNotificationResponse : ty := Struct
  [("currentTime", false, Time);
   ("interval", false, Int);
   ("status", false, Enm e_v2_registration_status_enum);
   ("statusInfo", true, v2_StatusInfo);
   ("customData", true, Any)]
  [WReq "currentTime" "currentTime" (Text);
   WReq "interval" "interval" (Plain);
   WReq "status" "status" (Conv e_v2_registration_status_enum);
   WOpt "statusInfo" "statusInfo" "statusInfo" (Plain);
   WOpt "customData" "customData" "customData" (Plain)]
  [RReq "currentTime" "currentTime" (Text);
   RReq "interval" "interval" (Plain);
   RReq "status" "status" (Conv e_v2_registration_status_enum);
   ROpt "statusInfo" "statusInfo" "statusInfo" (Plain);
   ROpt "customData" "customData" "customData" (Plain)].

(** CancelReservationRequest: include/ocpp/v2/messages/CancelReservation.hpp 19-26, lib/ocpp/v2/messages/CancelReservation.cpp 20-29 and 31-39. *)
Definition v2_CancelReservationRequest : ty := Struct
  [("reservationId", false, Int);
   ("customData", true, Any)]
  [WReq "reservationId" "reservationId" (Plain);
   WOpt "customData" "customData" "customData" (Plain)]
  [RReq "reservationId" "reservationId" (Plain);
   ROpt "customData" "customData" "customData" (Plain)].

(** CancelReservationResponse: include/ocpp/v2/messages/CancelReservation.hpp 39-47, lib/ocpp/v2/messages/CancelReservation.cpp 52-64 and 66-77. *)
Definition v2_CancelReservationResponse : ty := Struct
  [("status", false, Enm e_v2_cancel_reservation_status_enum);
   ("statusInfo", true, v2_StatusInfo);
   ("customData", true, Any)]
  [WReq "status" "status" (Conv e_v2_cancel_reservation_status_enum);
   WOpt "statusInfo" "statusInfo" "statusInfo" (Plain);
   WOpt "customData" "customData" "customData" (Plain)]
  [RReq "status" "status" (Conv e_v2_cancel_reservation_status_enum);
   ROpt "statusInfo" "statusInfo" "statusInfo" (Plain);
   ROpt "customData" "customData" "customData" (Plain)].

(** CertificateSignedRequest: include/ocpp/v2/messages/CertificateSigned.hpp 19-28, lib/ocpp/v2/messages/CertificateSigned.cpp 20-35 and 37-51. *)
Definition v2_CertificateSignedRequest : ty := Struct
  [("certificateChain", false, Str (Some 10000));
   ("certificateType", true, Enm e_v2_certificate_signing_use_enum);
   ("requestId", true, Int);
   ("customData", true, Any)]
  [WReq "certificateChain" "certificateChain" (Plain);
   WOpt "certificateType" "certificateType" "certificateType" (Conv e_v2_certificate_signing_use_enum);
   WOpt "requestId" "requestId" "requestId" (Plain);
   WOpt "customData" "customData" "customData" (Plain)]
  [RReq "certificateChain" "certificateChain" (Plain);
   ROpt "certificateType" "certificateType" "certificateType" (Conv e_v2_certificate_signing_use_enum);
   ROpt "requestId" "requestId" "requestId" (Plain);
   ROpt "customData" "customData" "customData" (Plain)].

(** CertificateSignedResponse: include/ocpp/v2/messages/CertificateSigned.hpp 41-49, lib/ocpp/v2/messages/CertificateSigned.cpp 64-76 and 78-89. *)
Definition v2_CertificateSignedResponse : ty := Struct
  [("status", false, Enm e_v2_certificate_signed_status_enum);
   ("statusInfo", true, v2_StatusInfo);
   ("customData", true, Any)]
  [WReq "status" "status" (Conv e_v2_certificate_signed_status_enum);
   WOpt "statusInfo" "statusInfo" "statusInfo" (Plain);
   WOpt "customData" "customData" "customData" (Plain)]
  [RReq "status" "status" (Conv e_v2_certificate_signed_status_enum);
   ROpt "statusInfo" "statusInfo" "statusInfo" (Plain);
   ROpt "customData" "customData" "customData" (Plain)].

(** ChangeAvailabilityRequest: include/ocpp/v2/messages/ChangeAvailability.hpp 19-27, lib/ocpp/v2/messages/ChangeAvailability.cpp 20-32 and 34-45. *)
Definition v2_ChangeAvailabilityRequest : ty := Struct
  [("operationalStatus", false, Enm e_v2_operational_status_enum);
   ("evse", true, v2_EVSE);
   ("customData", true, Any)]
  [WReq "operationalStatus" "operationalStatus" (Conv e_v2_operational_status_enum);
   WOpt "evse" "evse" "evse" (Plain);
   WOpt "customData" "customData" "customData" (Plain)]
  [RReq "operationalStatus" "operationalStatus" (Conv e_v2_operational_status_enum);
   ROpt "evse" "evse" "evse" (Plain);
   ROpt "customData" "customData" "customData" (Plain)].

(** ChangeAvailabilityResponse: include/ocpp/v2/messages/ChangeAvailability.hpp 40-48, lib/ocpp/v2/messages/ChangeAvailability.cpp 58-70 and 72-83. *)
Definition v2_ChangeAvailabilityResponse : ty := Struct
  [("status", false, Enm e_v2_change_availability_status_enum);
   ("statusInfo", true, v2_StatusInfo);
   ("customData", true, Any)]
  [WReq "status" "status" (Conv e_v2_change_availability_status_enum);
   WOpt "statusInfo" "statusInfo" "statusInfo" (Plain);
   WOpt "customData" "customData" "customData" (Plain)]
  [RReq "status" "status" (Conv e_v2_change_availability_status_enum);
   ROpt "statusInfo" "statusInfo" "statusInfo" (Plain);
   ROpt "customData" "customData" "customData" (Plain)].

(** ClearCacheRequest: include/ocpp/v2/messages/ClearCache.hpp 19-25, lib/ocpp/v2/messages/ClearCache.cpp 20-27 and 29-36. *)
Definition v2_ClearCacheRequest : ty := Struct
  [("customData", true, Any)]
  [WOpt "customData" "customData" "customData" (Plain)]
  [ROpt "customData" "customData" "customData" (Plain)].

(** ClearCacheResponse: include/ocpp/v2/messages/ClearCache.hpp 38-46, lib/ocpp/v2/messages/ClearCache.cpp 49-61 and 63-74. *)
Definition v2_ClearCacheResponse : ty := Struct
  [("status", false, Enm e_v2_clear_cache_status_enum);
   ("statusInfo", true, v2_StatusInfo);
   ("customData", true, Any)]
  [WReq "status" "status" (Conv e_v2_clear_cache_status_enum);
   WOpt "statusInfo" "statusInfo" "statusInfo" (Plain);
   WOpt "customData" "customData" "customData" (Plain)]
  [RReq "status" "status" (Conv e_v2_clear_cache_status_enum);
   ROpt "statusInfo" "statusInfo" "statusInfo" (Plain);
   ROpt "customData" "customData" "customData" (Plain)].

(** ClearChargingProfileRequest: include/ocpp/v2/messages/ClearChargingProfile.hpp 19-27, lib/ocpp/v2/messages/ClearChargingProfile.cpp 20-33 and 35-48. *)
Definition v2_ClearChargingProfileRequest : ty := Struct
  [("chargingProfileId", true, Int);
   ("chargingProfileCriteria", true, v2_ClearChargingProfile);
   ("customData", true, Any)]
  [WOpt "chargingProfileId" "chargingProfileId" "chargingProfileId" (Plain);
   WOpt "chargingProfileCriteria" "chargingProfileCriteria" "chargingProfileCriteria" (Plain);
   WOpt "customData" "customData" "customData" (Plain)]
  [ROpt "chargingProfileId" "chargingProfileId" "chargingProfileId" (Plain);
   ROpt "chargingProfileCriteria" "chargingProfileCriteria" "chargingProfileCriteria" (Plain);
   ROpt "customData" "customData" "customData" (Plain)].

(** ClearChargingProfileResponse: include/ocpp/v2/messages/ClearChargingProfile.hpp 41-49, lib/ocpp/v2/messages/ClearChargingProfile.cpp 62-74 and 76-87. *)
Definition v2_ClearChargingProfileResponse : ty := Struct
  [("status", false, Enm e_v2_clear_charging_profile_status_enum);
   ("statusInfo", true, v2_StatusInfo);
   ("customData", true, Any)]
  [WReq "status" "status" (Conv e_v2_clear_charging_profile_status_enum);
   WOpt "statusInfo" "statusInfo" "statusInfo" (Plain);
   WOpt "customData" "customData" "customData" (Plain)]
  [RReq "status" "status" (Conv e_v2_clear_charging_profile_status_enum);
   ROpt "statusInfo" "statusInfo" "statusInfo" (Plain);
   ROpt "customData" "customData" "customData" (Plain)].

(** ClearDisplayMessageRequest: include/ocpp/v2/messages/ClearDisplayMessage.hpp 19-26, lib/ocpp/v2/messages/ClearDisplayMessage.cpp 20-29 and 31-39. *)
Definition v2_ClearDisplayMessageRequest : ty := Struct
  [("id", false, Int);
   ("customData", true, Any)]
  [WReq "id" "id" (Plain);
   WOpt "customData" "customData" "customData" (Plain)]
  [RReq "id" "id" (Plain);
   ROpt "customData" "customData" "customData" (Plain)].

(** ClearDisplayMessageResponse: include/ocpp/v2/messages/ClearDisplayMessage.hpp 40-48, lib/ocpp/v2/messages/ClearDisplayMessage.cpp 53-65 and 67-78. *)
Definition v2_ClearDisplayMessageResponse : ty := Struct
  [("status", false, Enm e_v2_clear_message_status_enum);
   ("statusInfo", true, v2_StatusInfo);
   ("customData", true, Any)]
  [WReq "status" "status" (Conv e_v2_clear_message_status_enum);
   WOpt "statusInfo" "statusInfo" "statusInfo" (Plain);
   WOpt "customData" "customData" "customData" (Plain)]
  [RReq "status" "status" (Conv e_v2_clear_message_status_enum);
   ROpt "statusInfo" "statusInfo" "statusInfo" (Plain);
   ROpt "customData" "customData" "customData" (Plain)].

(** ClearVariableMonitoringRequest: include/ocpp/v2/messages/ClearVariableMonitoring.hpp 19-26, lib/ocpp/v2/messages/ClearVariableMonitoring.cpp 20-29 and 31-41. *)
Definition v2_ClearVariableMonitoringRequest : ty := Struct
  [("id", false, Vec (Int));
   ("customData", true, Any)]
  [WReq "id" "id" (Plain);
   WOpt "customData" "customData" "customData" (Plain)]
  [RReq "id" "id" Each;
   ROpt "customData" "customData" "customData" (Plain)].

(** ClearVariableMonitoringResponse: include/ocpp/v2/messages/ClearVariableMonitoring.hpp 40-47, lib/ocpp/v2/messages/ClearVariableMonitoring.cpp 55-64 and 66-76. *)
Definition v2_ClearVariableMonitoringResponse : ty := Struct
  [("clearMonitoringResult", false, Vec (v2_ClearMonitoringResult));
   ("customData", true, Any)]
  [WReq "clearMonitoringResult" "clearMonitoringResult" (Plain);
   WOpt "customData" "customData" "customData" (Plain)]
  [RReq "clearMonitoringResult" "clearMonitoringResult" Each;
   ROpt "customData" "customData" "customData" (Plain)].

(** ClearedChargingLimitRequest: include/ocpp/v2/messages/ClearedChargingLimit.hpp 18-26, lib/ocpp/v2/messages/ClearedChargingLimit.cpp 20-32 and 34-45. *)
Definition v2_ClearedChargingLimitRequest : ty := Struct
  [("chargingLimitSource", false, Str (Some 20));
   ("evseId", true, Int);
   ("customData", true, Any)]
  [WReq "chargingLimitSource" "chargingLimitSource" (Plain);
   WOpt "evseId" "evseId" "evseId" (Plain);
   WOpt "customData" "customData" "customData" (Plain)]
  [RReq "chargingLimitSource" "chargingLimitSource" (Plain);
   ROpt "evseId" "evseId" "evseId" (Plain);
   ROpt "customData" "customData" "customData" (Plain)].

(** ClearedChargingLimitResponse: include/ocpp/v2/messages/ClearedChargingLimit.hpp 40-46, lib/ocpp/v2/messages/ClearedChargingLimit.cpp 59-66 and 68-75. *)
Definition v2_ClearedChargingLimitResponse : ty := Struct
  [("customData", true, Any)]
  [WOpt "customData" "customData" "customData" (Plain)]
  [ROpt "customData" "customData" "customData" (Plain)].

(** CostUpdatedRequest: include/ocpp/v2/messages/CostUpdated.hpp 18-26, lib/ocpp/v2/messages/CostUpdated.cpp 20-30 and 32-41. *)
Definition v2_CostUpdatedRequest : ty := Struct
  [("totalCost", false, Float);
   ("transactionId", false, Str (Some 36));
   ("customData", true, Any)]
  [WReq "totalCost" "totalCost" (Plain);
   WReq "transactionId" "transactionId" (Plain);
   WOpt "customData" "customData" "customData" (Plain)]
  [RReq "totalCost" "totalCost" (Plain);
   RReq "transactionId" "transactionId" (Plain);
   ROpt "customData" "customData" "customData" (Plain)].

(** CostUpdatedResponse: include/ocpp/v2/messages/CostUpdated.hpp 39-45, lib/ocpp/v2/messages/CostUpdated.cpp 54-61 and 63-70. *)
Definition v2_CostUpdatedResponse : ty := Struct
  [("customData", true, Any)]
  [WOpt "customData" "customData" "customData" (Plain)]
  [ROpt "customData" "customData" "customData" (Plain)].

(** CustomerInformationRequest: include/ocpp/v2/messages/CustomerInformation.hpp 19-31, lib/ocpp/v2/messages/CustomerInformation.cpp 20-40 and 42-61. *)
Definition v2_CustomerInformationRequest : ty := Struct
  [("requestId", false, Int);
   ("report", false, Flag);
   ("clear", false, Flag);
   ("customerCertificate", true, v2_CertificateHashDataType);
   ("idToken", true, v2_IdToken);
   ("customerIdentifier", true, Str (Some 64));
   ("customData", true, Any)]
  [WReq "requestId" "requestId" (Plain);
   WReq "report" "report" (Plain);
   WReq "clear" "clear" (Plain);
   WOpt "customerCertificate" "customerCertificate" "customerCertificate" (Plain);
   WOpt "idToken" "idToken" "idToken" (Plain);
   WOpt "customerIdentifier" "customerIdentifier" "customerIdentifier" (Plain);
   WOpt "customData" "customData" "customData" (Plain)]
  [RReq "requestId" "requestId" (Plain);
   RReq "report" "report" (Plain);
   RReq "clear" "clear" (Plain);
   ROpt "customerCertificate" "customerCertificate" "customerCertificate" (Plain);
   ROpt "idToken" "idToken" "idToken" (Plain);
   ROpt "customerIdentifier" "customerIdentifier" "customerIdentifier" (Plain);
   ROpt "customData" "customData" "customData" (Plain)].

(** CustomerInformationResponse: include/ocpp/v2/messages/CustomerInformation.hpp 45-53, lib/ocpp/v2/messages/CustomerInformation.cpp 75-87 and 89-100. *)
Definition v2_CustomerInformationResponse : ty := Struct
  [("status", false, Enm e_v2_customer_information_status_enum);
   ("statusInfo", true, v2_StatusInfo);
   ("customData", true, Any)]
  [WReq "status" "status" (Conv e_v2_customer_information_status_enum);
   WOpt "statusInfo" "statusInfo" "statusInfo" (Plain);
   WOpt "customData" "customData" "customData" (Plain)]
  [RReq "status" "status" (Conv e_v2_customer_information_status_enum);
   ROpt "statusInfo" "statusInfo" "statusInfo" (Plain);
   ROpt "customData" "customData" "customData" (Plain)].

(** DataTransferRequest: include/ocpp/v2/messages/DataTransfer.hpp 19-28, lib/ocpp/v2/messages/DataTransfer.cpp 20-35 and 37-51. *)
Definition v2_DataTransferRequest : ty := Struct
  [("vendorId", false, Str (Some 255));
   ("messageId", true, Str (Some 50));
   ("data", true, Any);
   ("customData", true, Any)]
  [WReq "vendorId" "vendorId" (Plain);
   WOpt "messageId" "messageId" "messageId" (Plain);
   WOpt "data" "data" "data" (Plain);
   WOpt "customData" "customData" "customData" (Plain)]
  [RReq "vendorId" "vendorId" (Plain);
   ROpt "messageId" "messageId" "messageId" (Plain);
   ROpt "data" "data" "data" (Plain);
   ROpt "customData" "customData" "customData" (Plain)].

(** DataTransferResponse: include/ocpp/v2/messages/DataTransfer.hpp 41-50, lib/ocpp/v2/messages/DataTransfer.cpp 64-79 and 81-95. *)
Definition v2_DataTransferResponse : ty := Struct
  [("status", false, Enm e_v2_data_transfer_status_enum);
   ("statusInfo", true, v2_StatusInfo);
   ("data", true, Any);
   ("customData", true, Any)]
  [WReq "status" "status" (Conv e_v2_data_transfer_status_enum);
   WOpt "statusInfo" "statusInfo" "statusInfo" (Plain);
   WOpt "data" "data" "data" (Plain);
   WOpt "customData" "customData" "customData" (Plain)]
  [RReq "status" "status" (Conv e_v2_data_transfer_status_enum);
   ROpt "statusInfo" "statusInfo" "statusInfo" (Plain);
   ROpt "data" "data" "data" (Plain);
   ROpt "customData" "customData" "customData" (Plain)].

(** DeleteCertificateRequest: include/ocpp/v2/messages/DeleteCertificate.hpp 19-26, lib/ocpp/v2/messages/DeleteCertificate.cpp 20-29 and 31-39. *)
Definition v2_DeleteCertificateRequest : ty := Struct
  [("certificateHashData", false, v2_CertificateHashDataType);
   ("customData", true, Any)]
  [WReq "certificateHashData" "certificateHashData" (Plain);
   WOpt "customData" "customData" "customData" (Plain)]
  [RReq "certificateHashData" "certificateHashData" (Plain);
   ROpt "customData" "customData" "customData" (Plain)].

(** DeleteCertificateResponse: include/ocpp/v2/messages/DeleteCertificate.hpp 39-47, lib/ocpp/v2/messages/DeleteCertificate.cpp 52-64 and 66-77. *)
Definition v2_DeleteCertificateResponse : ty := Struct
  [("status", false, Enm e_v2_delete_certificate_status_enum);
   ("statusInfo", true, v2_StatusInfo);
   ("customData", true, Any)]
  [WReq "status" "status" (Conv e_v2_delete_certificate_status_enum);
   WOpt "statusInfo" "statusInfo" "statusInfo" (Plain);
   WOpt "customData" "customData" "customData" (Plain)]
  [RReq "status" "status" (Conv e_v2_delete_certificate_status_enum);
   ROpt "statusInfo" "statusInfo" "statusInfo" (Plain);
   ROpt "customData" "customData" "customData" (Plain)].

(** FirmwareStatusNotificationRequest: include/ocpp/v2/messages/FirmwareStatusNotification.hpp 19-28, lib/ocpp/v2/messages/FirmwareStatusNotification.cpp 20-35 and 37-51. *)
Definition v2_FirmwareStatusNotificationRequest : ty := Struct
  [("status", false, Enm e_v2_firmware_status_enum);
   ("requestId", true, Int);
   ("statusInfo", true, v2_StatusInfo);
   ("customData", true, Any)]
  [WReq "status" "status" (Conv e_v2_firmware_status_enum);
   WOpt "requestId" "requestId" "requestId" (Plain);
   WOpt "statusInfo" "statusInfo" "statusInfo" (Plain);
   WOpt "customData" "customData" "customData" (Plain)]
  [RReq "status" "status" (Conv e_v2_firmware_status_enum);
   ROpt "requestId" "requestId" "requestId" (Plain);
   ROpt "statusInfo" "statusInfo" "statusInfo" (Plain);
   ROpt "customData" "customData" "customData" (Plain)].

(** FirmwareStatusNotificationResponse: include/ocpp/v2/messages/FirmwareStatusNotification.hpp 42-48, lib/ocpp/v2/messages/FirmwareStatusNotification.cpp 65-72 and 74-81. *)
Definition v2_FirmwareStatusNotificationResponse : ty := Struct
  [("customData", true, Any)]
  [WOpt "customData" "customData" "customData" (Plain)]
  [ROpt "customData" "customData" "customData" (Plain)].

(** Get15118EVCertificateRequest: include/ocpp/v2/messages/Get15118EVCertificate.hpp 20-31, lib/ocpp/v2/messages/Get15118EVCertificate.cpp 20-40 and 42-63. *)
Definition v2_Get15118EVCertificateRequest : ty := Struct
  [("iso15118SchemaVersion", false, Str (Some 50));
   ("action", false, Enm e_v2_certificate_action_enum);
   ("exiRequest", false, Str (Some 11000));
   ("maximumContractCertificateChains", true, Int);
   ("prioritizedEMAIDs", true, Vec (Str (Some 255)));
   ("customData", true, Any)]
  [WReq "iso15118SchemaVersion" "iso15118SchemaVersion" (Plain);
   WReq "action" "action" (Conv e_v2_certificate_action_enum);
   WReq "exiRequest" "exiRequest" (Plain);
   WOpt "maximumContractCertificateChains" "maximumContractCertificateChains" "maximumContractCertificateChains" (Plain);
   WOpt "prioritizedEMAIDs" "prioritizedEMAIDs" "prioritizedEMAIDs" (Each);
   WOpt "customData" "customData" "customData" (Plain)]
  [RReq "iso15118SchemaVersion" "iso15118SchemaVersion" (Plain);
   RReq "action" "action" (Conv e_v2_certificate_action_enum);
   RReq "exiRequest" "exiRequest" (Plain);
   ROpt "maximumContractCertificateChains" "maximumContractCertificateChains" "maximumContractCertificateChains" (Plain);
   ROpt "prioritizedEMAIDs" "prioritizedEMAIDs" "prioritizedEMAIDs" (Each);
   ROpt "customData" "customData" "customData" (Plain)].

(** Get15118EVCertificateResponse: include/ocpp/v2/messages/Get15118EVCertificate.hpp 45-55, lib/ocpp/v2/messages/Get15118EVCertificate.cpp 77-93 and 95-110. *)
Definition v2_Get15118EVCertificateResponse : ty := Struct
  [("status", false, Enm e_v2_iso15118evcertificate_status_enum);
   ("exiResponse", false, Str (Some 17000));
   ("statusInfo", true, v2_StatusInfo);
   ("remainingContracts", true, Int);
   ("customData", true, Any)]
  [WReq "status" "status" (Conv e_v2_iso15118evcertificate_status_enum);
   WReq "exiResponse" "exiResponse" (Plain);
   WOpt "statusInfo" "statusInfo" "statusInfo" (Plain);
   WOpt "remainingContracts" "remainingContracts" "remainingContracts" (Plain);
   WOpt "customData" "customData" "customData" (Plain)]
  [RReq "status" "status" (Conv e_v2_iso15118evcertificate_status_enum);
   RReq "exiResponse" "exiResponse" (Plain);
   ROpt "statusInfo" "statusInfo" "statusInfo" (Plain);
   ROpt "remainingContracts" "remainingContracts" "remainingContracts" (Plain);
   ROpt "customData" "customData" "customData" (Plain)].

(** GetBaseReportRequest: include/ocpp/v2/messages/GetBaseReport.hpp 19-27, lib/ocpp/v2/messages/GetBaseReport.cpp 20-30 and 32-41. *)
Definition v2_GetBaseReportRequest : ty := Struct
  [("requestId", false, Int);
   ("reportBase", false, Enm e_v2_report_base_enum);
   ("customData", true, Any)]
  [WReq "requestId" "requestId" (Plain);
   WReq "reportBase" "reportBase" (Conv e_v2_report_base_enum);
   WOpt "customData" "customData" "customData" (Plain)]
  [RReq "requestId" "requestId" (Plain);
   RReq "reportBase" "reportBase" (Conv e_v2_report_base_enum);
   ROpt "customData" "customData" "customData" (Plain)].

(** GetBaseReportResponse: include/ocpp/v2/messages/GetBaseReport.hpp 40-48, lib/ocpp/v2/messages/GetBaseReport.cpp 54-66 and 68-79. *)
Definition v2_GetBaseReportResponse : ty := Struct
  [("status", false, Enm e_v2_generic_device_model_status_enum);
   ("statusInfo", true, v2_StatusInfo);
   ("customData", true, Any)]
  [WReq "status" "status" (Conv e_v2_generic_device_model_status_enum);
   WOpt "statusInfo" "statusInfo" "statusInfo" (Plain);
   WOpt "customData" "customData" "customData" (Plain)]
  [RReq "status" "status" (Conv e_v2_generic_device_model_status_enum);
   ROpt "statusInfo" "statusInfo" "statusInfo" (Plain);
   ROpt "customData" "customData" "customData" (Plain)].

(** GetCertificateStatusRequest: include/ocpp/v2/messages/GetCertificateStatus.hpp 19-26, lib/ocpp/v2/messages/GetCertificateStatus.cpp 20-29 and 31-39. *)
Definition v2_GetCertificateStatusRequest : ty := Struct
  [("ocspRequestData", false, v2_OCSPRequestData);
   ("customData", true, Any)]
  [WReq "ocspRequestData" "ocspRequestData" (Plain);
   WOpt "customData" "customData" "customData" (Plain)]
  [RReq "ocspRequestData" "ocspRequestData" (Plain);
   ROpt "customData" "customData" "customData" (Plain)].

(** GetCertificateStatusResponse: include/ocpp/v2/messages/GetCertificateStatus.hpp 40-49, lib/ocpp/v2/messages/GetCertificateStatus.cpp 53-68 and 70-84. *)
Definition v2_GetCertificateStatusResponse : ty := Struct
  [("status", false, Enm e_v2_get_certificate_status_enum);
   ("statusInfo", true, v2_StatusInfo);
   ("ocspResult", true, Str (Some 18000));
   ("customData", true, Any)]
  [WReq "status" "status" (Conv e_v2_get_certificate_status_enum);
   WOpt "statusInfo" "statusInfo" "statusInfo" (Plain);
   WOpt "ocspResult" "ocspResult" "ocspResult" (Plain);
   WOpt "customData" "customData" "customData" (Plain)]
  [RReq "status" "status" (Conv e_v2_get_certificate_status_enum);
   ROpt "statusInfo" "statusInfo" "statusInfo" (Plain);
   ROpt "ocspResult" "ocspResult" "ocspResult" (Plain);
   ROpt "customData" "customData" "customData" (Plain)].

(** GetChargingProfilesRequest: include/ocpp/v2/messages/GetChargingProfiles.hpp 19-28, lib/ocpp/v2/messages/GetChargingProfiles.cpp 20-33 and 35-47. *)
Definition v2_GetChargingProfilesRequest : ty := Struct
  [("requestId", false, Int);
   ("chargingProfile", false, v2_ChargingProfileCriterion);
   ("evseId", true, Int);
   ("customData", true, Any)]
  [WReq "requestId" "requestId" (Plain);
   WReq "chargingProfile" "chargingProfile" (Plain);
   WOpt "evseId" "evseId" "evseId" (Plain);
   WOpt "customData" "customData" "customData" (Plain)]
  [RReq "requestId" "requestId" (Plain);
   RReq "chargingProfile" "chargingProfile" (Plain);
   ROpt "evseId" "evseId" "evseId" (Plain);
   ROpt "customData" "customData" "customData" (Plain)].

(** GetChargingProfilesResponse: include/ocpp/v2/messages/GetChargingProfiles.hpp 42-50, lib/ocpp/v2/messages/GetChargingProfiles.cpp 61-73 and 75-86. *)
Definition v2_GetChargingProfilesResponse : ty := Struct
  [("status", false, Enm e_v2_get_charging_profile_status_enum);
   ("statusInfo", true, v2_StatusInfo);
   ("customData", true, Any)]
  [WReq "status" "status" (Conv e_v2_get_charging_profile_status_enum);
   WOpt "statusInfo" "statusInfo" "statusInfo" (Plain);
   WOpt "customData" "customData" "customData" (Plain)]
  [RReq "status" "status" (Conv e_v2_get_charging_profile_status_enum);
   ROpt "statusInfo" "statusInfo" "statusInfo" (Plain);
   ROpt "customData" "customData" "customData" (Plain)].

(** GetCompositeScheduleRequest: include/ocpp/v2/messages/GetCompositeSchedule.hpp 19-28, lib/ocpp/v2/messages/GetCompositeSchedule.cpp 20-33 and 35-47. *)
Definition v2_GetCompositeScheduleRequest : ty := Struct
  [("duration", false, Int);
   ("evseId", false, Int);
   ("chargingRateUnit", true, Enm e_v2_charging_rate_unit_enum);
   ("customData", true, Any)]
  [WReq "duration" "duration" (Plain);
   WReq "evseId" "evseId" (Plain);
   WOpt "chargingRateUnit" "chargingRateUnit" "chargingRateUnit" (Conv e_v2_charging_rate_unit_enum);
   WOpt "customData" "customData" "customData" (Plain)]
  [RReq "duration" "duration" (Plain);
   RReq "evseId" "evseId" (Plain);
   ROpt "chargingRateUnit" "chargingRateUnit" "chargingRateUnit" (Conv e_v2_charging_rate_unit_enum);
   ROpt "customData" "customData" "customData" (Plain)].

(** GetCompositeScheduleResponse: include/ocpp/v2/messages/GetCompositeSchedule.hpp 42-51, lib/ocpp/v2/messages/GetCompositeSchedule.cpp 61-76 and 78-92. *)
Definition v2_GetCompositeScheduleResponse : ty := Struct
  [("status", false, Enm e_v2_generic_status_enum);
   ("statusInfo", true, v2_StatusInfo);
   ("schedule", true, v2_CompositeSchedule);
   ("customData", true, Any)]
  [WReq "status" "status" (Conv e_v2_generic_status_enum);
   WOpt "statusInfo" "statusInfo" "statusInfo" (Plain);
   WOpt "schedule" "schedule" "schedule" (Plain);
   WOpt "customData" "customData" "customData" (Plain)]
  [RReq "status" "status" (Conv e_v2_generic_status_enum);
   ROpt "statusInfo" "statusInfo" "statusInfo" (Plain);
   ROpt "schedule" "schedule" "schedule" (Plain);
   ROpt "customData" "customData" "customData" (Plain)].

(** GetDisplayMessagesRequest: include/ocpp/v2/messages/GetDisplayMessages.hpp 19-29, lib/ocpp/v2/messages/GetDisplayMessages.cpp 20-41 and 43-65. *)
Definition v2_GetDisplayMessagesRequest : ty := Struct
  [("requestId", false, Int);
   ("id", true, Vec (Int));
   ("priority", true, Enm e_v2_message_priority_enum);
   ("state", true, Enm e_v2_message_state_enum);
   ("customData", true, Any)]
  [WReq "requestId" "requestId" (Plain);
   WOpt "id" "id" "id" (Each);
   WOpt "priority" "priority" "priority" (Conv e_v2_message_priority_enum);
   WOpt "state" "state" "state" (Conv e_v2_message_state_enum);
   WOpt "customData" "customData" "customData" (Plain)]
  [RReq "requestId" "requestId" (Plain);
   ROpt "id" "id" "id" (Each);
   ROpt "priority" "priority" "priority" (Conv e_v2_message_priority_enum);
   ROpt "state" "state" "state" (Conv e_v2_message_state_enum);
   ROpt "customData" "customData" "customData" (Plain)].

(** GetDisplayMessagesResponse: include/ocpp/v2/messages/GetDisplayMessages.hpp 42-50, lib/ocpp/v2/messages/GetDisplayMessages.cpp 78-90 and 92-103. *)
Definition v2_GetDisplayMessagesResponse : ty := Struct
  [("status", false, Enm e_v2_get_display_messages_status_enum);
   ("statusInfo", true, v2_StatusInfo);
   ("customData", true, Any)]
  [WReq "status" "status" (Conv e_v2_get_display_messages_status_enum);
   WOpt "statusInfo" "statusInfo" "statusInfo" (Plain);
   WOpt "customData" "customData" "customData" (Plain)]
  [RReq "status" "status" (Conv e_v2_get_display_messages_status_enum);
   ROpt "statusInfo" "statusInfo" "statusInfo" (Plain);
   ROpt "customData" "customData" "customData" (Plain)].

(** GetInstalledCertificateIdsRequest: include/ocpp/v2/messages/GetInstalledCertificateIds.hpp 19-26, lib/ocpp/v2/messages/GetInstalledCertificateIds.cpp 20-37 and 39-54. *)
Definition v2_GetInstalledCertificateIdsRequest : ty := Struct
  [("certificateType", true, Vec (Enm e_v2_get_certificate_id_use_enum));
   ("customData", true, Any)]
  [WOpt "certificateType" "certificateType" "certificateType" (EachConv e_v2_get_certificate_id_use_enum);
   WOpt "customData" "customData" "customData" (Plain)]
  [ROpt "certificateType" "certificateType" "certificateType" (EachConv e_v2_get_certificate_id_use_enum);
   ROpt "customData" "customData" "customData" (Plain)].

(** GetInstalledCertificateIdsResponse: include/ocpp/v2/messages/GetInstalledCertificateIds.hpp 40-49, lib/ocpp/v2/messages/GetInstalledCertificateIds.cpp 68-86 and 88-107. *)
Definition v2_GetInstalledCertificateIdsResponse : ty := Struct
  [("status", false, Enm e_v2_get_installed_certificate_status_enum);
   ("statusInfo", true, v2_StatusInfo);
   ("certificateHashDataChain", true, Vec (v2_CertificateHashDataChain));
   ("customData", true, Any)]
  [WReq "status" "status" (Conv e_v2_get_installed_certificate_status_enum);
   WOpt "statusInfo" "statusInfo" "statusInfo" (Plain);
   WOpt "certificateHashDataChain" "certificateHashDataChain" "certificateHashDataChain" (Each);
   WOpt "customData" "customData" "customData" (Plain)]
  [RReq "status" "status" (Conv e_v2_get_installed_certificate_status_enum);
   ROpt "statusInfo" "statusInfo" "statusInfo" (Plain);
   ROpt "certificateHashDataChain" "certificateHashDataChain" "certificateHashDataChain" (Each);
   ROpt "customData" "customData" "customData" (Plain)].

(** GetLocalListVersionRequest: include/ocpp/v2/messages/GetLocalListVersion.hpp 18-24, lib/ocpp/v2/messages/GetLocalListVersion.cpp 20-27 and 29-36. *)
Definition v2_GetLocalListVersionRequest : ty := Struct
  [("customData", true, Any)]
  [WOpt "customData" "customData" "customData" (Plain)]
  [ROpt "customData" "customData" "customData" (Plain)].

(** GetLocalListVersionResponse: include/ocpp/v2/messages/GetLocalListVersion.hpp 38-45, lib/ocpp/v2/messages/GetLocalListVersion.cpp 50-59 and 61-69. *)
Definition v2_GetLocalListVersionResponse : ty := Struct
  [("versionNumber", false, Int);
   ("customData", true, Any)]
  [WReq "versionNumber" "versionNumber" (Plain);
   WOpt "customData" "customData" "customData" (Plain)]
  [RReq "versionNumber" "versionNumber" (Plain);
   ROpt "customData" "customData" "customData" (Plain)].

(** GetLogRequest: include/ocpp/v2/messages/GetLog.hpp 19-30, lib/ocpp/v2/messages/GetLog.cpp 20-37 and 39-55. *)
Definition v2_GetLogRequest : ty := Struct
  [("log", false, v2_LogParameters);
   ("logType", false, Enm e_v2_log_enum);
   ("requestId", false, Int);
   ("retries", true, Int);
   ("retryInterval", true, Int);
   ("customData", true, Any)]
  [WReq "log" "log" (Plain);
   WReq "logType" "logType" (Conv e_v2_log_enum);
   WReq "requestId" "requestId" (Plain);
   WOpt "retries" "retries" "retries" (Plain);
   WOpt "retryInterval" "retryInterval" "retryInterval" (Plain);
   WOpt "customData" "customData" "customData" (Plain)]
  [RReq "log" "log" (Plain);
   RReq "logType" "logType" (Conv e_v2_log_enum);
   RReq "requestId" "requestId" (Plain);
   ROpt "retries" "retries" "retries" (Plain);
   ROpt "retryInterval" "retryInterval" "retryInterval" (Plain);
   ROpt "customData" "customData" "customData" (Plain)].

(** GetLogResponse: include/ocpp/v2/messages/GetLog.hpp 43-52, lib/ocpp/v2/messages/GetLog.cpp 68-83 and 85-99. *)
Definition v2_GetLogResponse : ty := Struct
  [("status", false, Enm e_v2_log_status_enum);
   ("statusInfo", true, v2_StatusInfo);
   ("filename", true, Str (Some 255));
   ("customData", true, Any)]
  [WReq "status" "status" (Conv e_v2_log_status_enum);
   WOpt "statusInfo" "statusInfo" "statusInfo" (Plain);
   WOpt "filename" "filename" "filename" (Plain);
   WOpt "customData" "customData" "customData" (Plain)]
  [RReq "status" "status" (Conv e_v2_log_status_enum);
   ROpt "statusInfo" "statusInfo" "statusInfo" (Plain);
   ROpt "filename" "filename" "filename" (Plain);
   ROpt "customData" "customData" "customData" (Plain)].

(** GetMonitoringReportRequest: include/ocpp/v2/messages/GetMonitoringReport.hpp 19-28, lib/ocpp/v2/messages/GetMonitoringReport.cpp 20-41 and 43-67. *)
Definition v2_GetMonitoringReportRequest : ty := Struct
  [("requestId", false, Int);
   ("componentVariable", true, Vec (v2_ComponentVariable));
   ("monitoringCriteria", true, Vec (Enm e_v2_monitoring_criterion_enum));
   ("customData", true, Any)]
  [WReq "requestId" "requestId" (Plain);
   WOpt "componentVariable" "componentVariable" "componentVariable" (Each);
   WOpt "monitoringCriteria" "monitoringCriteria" "monitoringCriteria" (EachConv e_v2_monitoring_criterion_enum);
   WOpt "customData" "customData" "customData" (Plain)]
  [RReq "requestId" "requestId" (Plain);
   ROpt "componentVariable" "componentVariable" "componentVariable" (Each);
   ROpt "monitoringCriteria" "monitoringCriteria" "monitoringCriteria" (EachConv e_v2_monitoring_criterion_enum);
   ROpt "customData" "customData" "customData" (Plain)].

(** GetMonitoringReportResponse: include/ocpp/v2/messages/GetMonitoringReport.hpp 42-50, lib/ocpp/v2/messages/GetMonitoringReport.cpp 81-93 and 95-106. *)
Definition v2_GetMonitoringReportResponse : ty := Struct
  [("status", false, Enm e_v2_generic_device_model_status_enum);
   ("statusInfo", true, v2_StatusInfo);
   ("customData", true, Any)]
  [WReq "status" "status" (Conv e_v2_generic_device_model_status_enum);
   WOpt "statusInfo" "statusInfo" "statusInfo" (Plain);
   WOpt "customData" "customData" "customData" (Plain)]
  [RReq "status" "status" (Conv e_v2_generic_device_model_status_enum);
   ROpt "statusInfo" "statusInfo" "statusInfo" (Plain);
   ROpt "customData" "customData" "customData" (Plain)].

(** GetReportRequest: include/ocpp/v2/messages/GetReport.hpp 19-28, lib/ocpp/v2/messages/GetReport.cpp 20-41 and 43-67. *)
Definition v2_GetReportRequest : ty := Struct
  [("requestId", false, Int);
   ("componentVariable", true, Vec (v2_ComponentVariable));
   ("componentCriteria", true, Vec (Enm e_v2_component_criterion_enum));
   ("customData", true, Any)]
  [WReq "requestId" "requestId" (Plain);
   WOpt "componentVariable" "componentVariable" "componentVariable" (Each);
   WOpt "componentCriteria" "componentCriteria" "componentCriteria" (EachConv e_v2_component_criterion_enum);
   WOpt "customData" "customData" "customData" (Plain)]
  [RReq "requestId" "requestId" (Plain);
   ROpt "componentVariable" "componentVariable" "componentVariable" (Each);
   ROpt "componentCriteria" "componentCriteria" "componentCriteria" (EachConv e_v2_component_criterion_enum);
   ROpt "customData" "customData" "customData" (Plain)].

(** GetReportResponse: include/ocpp/v2/messages/GetReport.hpp 41-49, lib/ocpp/v2/messages/GetReport.cpp 80-92 and 94-105. *)
Definition v2_GetReportResponse : ty := Struct
  [("status", false, Enm e_v2_generic_device_model_status_enum);
   ("statusInfo", true, v2_StatusInfo);
   ("customData", true, Any)]
  [WReq "status" "status" (Conv e_v2_generic_device_model_status_enum);
   WOpt "statusInfo" "statusInfo" "statusInfo" (Plain);
   WOpt "customData" "customData" "customData" (Plain)]
  [RReq "status" "status" (Conv e_v2_generic_device_model_status_enum);
   ROpt "statusInfo" "statusInfo" "statusInfo" (Plain);
   ROpt "customData" "customData" "customData" (Plain)].

(** GetTransactionStatusRequest: include/ocpp/v2/messages/GetTransactionStatus.hpp 18-25, lib/ocpp/v2/messages/GetTransactionStatus.cpp 20-30 and 32-42. *)
Definition v2_GetTransactionStatusRequest : ty := Struct
  [("transactionId", true, Str (Some 36));
   ("customData", true, Any)]
  [WOpt "transactionId" "transactionId" "transactionId" (Plain);
   WOpt "customData" "customData" "customData" (Plain)]
  [ROpt "transactionId" "transactionId" "transactionId" (Plain);
   ROpt "customData" "customData" "customData" (Plain)].

(** GetTransactionStatusResponse: include/ocpp/v2/messages/GetTransactionStatus.hpp 39-47, lib/ocpp/v2/messages/GetTransactionStatus.cpp 56-68 and 70-81. *)
Definition v2_GetTransactionStatusResponse : ty := Struct
  [("messagesInQueue", false, Flag);
   ("ongoingIndicator", true, Flag);
   ("customData", true, Any)]
  [WReq "messagesInQueue" "messagesInQueue" (Plain);
   WOpt "ongoingIndicator" "ongoingIndicator" "ongoingIndicator" (Plain);
   WOpt "customData" "customData" "customData" (Plain)]
  [RReq "messagesInQueue" "messagesInQueue" (Plain);
   ROpt "ongoingIndicator" "ongoingIndicator" "ongoingIndicator" (Plain);
   ROpt "customData" "customData" "customData" (Plain)].

(** GetVariablesRequest: include/ocpp/v2/messages/GetVariables.hpp 19-26, lib/ocpp/v2/messages/GetVariables.cpp 20-29 and 31-41. *)
Definition v2_GetVariablesRequest : ty := Struct
  [("getVariableData", false, Vec (v2_GetVariableData));
   ("customData", true, Any)]
  [WReq "getVariableData" "getVariableData" (Plain);
   WOpt "customData" "customData" "customData" (Plain)]
  [RReq "getVariableData" "getVariableData" Each;
   ROpt "customData" "customData" "customData" (Plain)].

(** GetVariablesResponse: include/ocpp/v2/messages/GetVariables.hpp 39-46, lib/ocpp/v2/messages/GetVariables.cpp 54-63 and 65-75. *)
Definition v2_GetVariablesResponse : ty := Struct
  [("getVariableResult", false, Vec (v2_GetVariableResult));
   ("customData", true, Any)]
  [WReq "getVariableResult" "getVariableResult" (Plain);
   WOpt "customData" "customData" "customData" (Plain)]
  [RReq "getVariableResult" "getVariableResult" Each;
   ROpt "customData" "customData" "customData" (Plain)].

(** HeartbeatRequest: include/ocpp/v2/messages/Heartbeat.hpp 18-24, lib/ocpp/v2/messages/Heartbeat.cpp 20-27 and 29-36. *)
Definition v2_HeartbeatRequest : ty := Struct
  [("customData", true, Any)]
  [WOpt "customData" "customData" "customData" (Plain)]
  [ROpt "customData" "customData" "customData" (Plain)].

(** HeartbeatResponse: include/ocpp/v2/messages/Heartbeat.hpp 37-44, lib/ocpp/v2/messages/Heartbeat.cpp 49-58 and 60-68. *)
Definition v2_HeartbeatResponse : ty := Struct
  [("currentTime", false, Time);
   ("customData", true, Any)]
  [WReq "currentTime" "currentTime" (Text);
   WOpt "customData" "customData" "customData" (Plain)]
  [RReq "currentTime" "currentTime" (Text);
   ROpt "customData" "customData" "customData" (Plain)].

(** InstallCertificateRequest: include/ocpp/v2/messages/InstallCertificate.hpp 19-27, lib/ocpp/v2/messages/InstallCertificate.cpp 20-30 and 32-41. *)
Definition v2_InstallCertificateRequest : ty := Struct
  [("certificateType", false, Enm e_v2_install_certificate_use_enum);
   ("certificate", false, Str (Some 10000));
   ("customData", true, Any)]
  [WReq "certificateType" "certificateType" (Conv e_v2_install_certificate_use_enum);
   WReq "certificate" "certificate" (Plain);
   WOpt "customData" "customData" "customData" (Plain)]
  [RReq "certificateType" "certificateType" (Conv e_v2_install_certificate_use_enum);
   RReq "certificate" "certificate" (Plain);
   ROpt "customData" "customData" "customData" (Plain)].

(** InstallCertificateResponse: include/ocpp/v2/messages/InstallCertificate.hpp 40-48, lib/ocpp/v2/messages/InstallCertificate.cpp 54-66 and 68-79. *)
Definition v2_InstallCertificateResponse : ty := Struct
  [("status", false, Enm e_v2_install_certificate_status_enum);
   ("statusInfo", true, v2_StatusInfo);
   ("customData", true, Any)]
  [WReq "status" "status" (Conv e_v2_install_certificate_status_enum);
   WOpt "statusInfo" "statusInfo" "statusInfo" (Plain);
   WOpt "customData" "customData" "customData" (Plain)]
  [RReq "status" "status" (Conv e_v2_install_certificate_status_enum);
   ROpt "statusInfo" "statusInfo" "statusInfo" (Plain);
   ROpt "customData" "customData" "customData" (Plain)].

(** LogStatusNotificationRequest: include/ocpp/v2/messages/LogStatusNotification.hpp 19-28, lib/ocpp/v2/messages/LogStatusNotification.cpp 20-35 and 37-51. *)
Definition v2_LogStatusNotificationRequest : ty := Struct
  [("status", false, Enm e_v2_upload_log_status_enum);
   ("requestId", true, Int);
   ("statusInfo", true, v2_StatusInfo);
   ("customData", true, Any)]
  [WReq "status" "status" (Conv e_v2_upload_log_status_enum);
   WOpt "requestId" "requestId" "requestId" (Plain);
   WOpt "statusInfo" "statusInfo" "statusInfo" (Plain);
   WOpt "customData" "customData" "customData" (Plain)]
  [RReq "status" "status" (Conv e_v2_upload_log_status_enum);
   ROpt "requestId" "requestId" "requestId" (Plain);
   ROpt "statusInfo" "statusInfo" "statusInfo" (Plain);
   ROpt "customData" "customData" "customData" (Plain)].

(** LogStatusNotificationResponse: include/ocpp/v2/messages/LogStatusNotification.hpp 42-48, lib/ocpp/v2/messages/LogStatusNotification.cpp 65-72 and 74-81. *)
Definition v2_LogStatusNotificationResponse : ty := Struct
  [("customData", true, Any)]
  [WOpt "customData" "customData" "customData" (Plain)]
  [ROpt "customData" "customData" "customData" (Plain)].

(** MeterValuesRequest: include/ocpp/v2/messages/MeterValues.hpp 19-27, lib/ocpp/v2/messages/MeterValues.cpp 20-30 and 32-43. *)
Definition v2_MeterValuesRequest : ty := Struct
  [("evseId", false, Int);
   ("meterValue", false, Vec (v2_MeterValue));
   ("customData", true, Any)]
  [WReq "evseId" "evseId" (Plain);
   WReq "meterValue" "meterValue" (Plain);
   WOpt "customData" "customData" "customData" (Plain)]
  [RReq "evseId" "evseId" (Plain);
   RReq "meterValue" "meterValue" Each;
   ROpt "customData" "customData" "customData" (Plain)].

(** MeterValuesResponse: include/ocpp/v2/messages/MeterValues.hpp 40-46, lib/ocpp/v2/messages/MeterValues.cpp 56-63 and 65-72. *)
Definition v2_MeterValuesResponse : ty := Struct
  [("customData", true, Any)]
  [WOpt "customData" "customData" "customData" (Plain)]
  [ROpt "customData" "customData" "customData" (Plain)].

(** NotifyChargingLimitRequest: include/ocpp/v2/messages/NotifyChargingLimit.hpp 19-28, lib/ocpp/v2/messages/NotifyChargingLimit.cpp 20-38 and 40-59. *)
Definition v2_NotifyChargingLimitRequest : ty := Struct
  [("chargingLimit", false, v2_ChargingLimit);
   ("chargingSchedule", true, Vec (v2_ChargingSchedule));
   ("evseId", true, Int);
   ("customData", true, Any)]
  [WReq "chargingLimit" "chargingLimit" (Plain);
   WOpt "chargingSchedule" "chargingSchedule" "chargingSchedule" (Each);
   WOpt "evseId" "evseId" "evseId" (Plain);
   WOpt "customData" "customData" "customData" (Plain)]
  [RReq "chargingLimit" "chargingLimit" (Plain);
   ROpt "chargingSchedule" "chargingSchedule" "chargingSchedule" (Each);
   ROpt "evseId" "evseId" "evseId" (Plain);
   ROpt "customData" "customData" "customData" (Plain)].

(** NotifyChargingLimitResponse: include/ocpp/v2/messages/NotifyChargingLimit.hpp 42-48, lib/ocpp/v2/messages/NotifyChargingLimit.cpp 73-80 and 82-89. *)
Definition v2_NotifyChargingLimitResponse : ty := Struct
  [("customData", true, Any)]
  [WOpt "customData" "customData" "customData" (Plain)]
  [ROpt "customData" "customData" "customData" (Plain)].

(** NotifyCustomerInformationRequest: include/ocpp/v2/messages/NotifyCustomerInformation.hpp 18-29, lib/ocpp/v2/messages/NotifyCustomerInformation.cpp 20-35 and 37-51. *)
Definition v2_NotifyCustomerInformationRequest : ty := Struct
  [("data", false, Str (Some 512));
   ("seqNo", false, Int);
   ("generatedAt", false, Time);
   ("requestId", false, Int);
   ("tbc", true, Flag);
   ("customData", true, Any)]
  [WReq "data" "data" (Plain);
   WReq "seqNo" "seqNo" (Plain);
   WReq "generatedAt" "generatedAt" (Text);
   WReq "requestId" "requestId" (Plain);
   WOpt "tbc" "tbc" "tbc" (Plain);
   WOpt "customData" "customData" "customData" (Plain)]
  [RReq "data" "data" (Plain);
   RReq "seqNo" "seqNo" (Plain);
   RReq "generatedAt" "generatedAt" (Text);
   RReq "requestId" "requestId" (Plain);
   ROpt "tbc" "tbc" "tbc" (Plain);
   ROpt "customData" "customData" "customData" (Plain)].

(** NotifyCustomerInformationResponse: include/ocpp/v2/messages/NotifyCustomerInformation.hpp 43-49, lib/ocpp/v2/messages/NotifyCustomerInformation.cpp 65-72 and 74-81. *)
Definition v2_NotifyCustomerInformationResponse : ty := Struct
  [("customData", true, Any)]
  [WOpt "customData" "customData" "customData" (Plain)]
  [ROpt "customData" "customData" "customData" (Plain)].

(** NotifyDisplayMessagesRequest: include/ocpp/v2/messages/NotifyDisplayMessages.hpp 19-28, lib/ocpp/v2/messages/NotifyDisplayMessages.cpp 20-38 and 40-59. *)
Definition v2_NotifyDisplayMessagesRequest : ty := Struct
  [("requestId", false, Int);
   ("messageInfo", true, Vec (v2_MessageInfo));
   ("tbc", true, Flag);
   ("customData", true, Any)]
  [WReq "requestId" "requestId" (Plain);
   WOpt "messageInfo" "messageInfo" "messageInfo" (Each);
   WOpt "tbc" "tbc" "tbc" (Plain);
   WOpt "customData" "customData" "customData" (Plain)]
  [RReq "requestId" "requestId" (Plain);
   ROpt "messageInfo" "messageInfo" "messageInfo" (Each);
   ROpt "tbc" "tbc" "tbc" (Plain);
   ROpt "customData" "customData" "customData" (Plain)].

(** NotifyDisplayMessagesResponse: include/ocpp/v2/messages/NotifyDisplayMessages.hpp 42-48, lib/ocpp/v2/messages/NotifyDisplayMessages.cpp 73-80 and 82-89. *)
Definition v2_NotifyDisplayMessagesResponse : ty := Struct
  [("customData", true, Any)]
  [WOpt "customData" "customData" "customData" (Plain)]
  [ROpt "customData" "customData" "customData" (Plain)].

(** NotifyEVChargingNeedsRequest: include/ocpp/v2/messages/NotifyEVChargingNeeds.hpp 19-29, lib/ocpp/v2/messages/NotifyEVChargingNeeds.cpp 20-36 and 38-53. *)
Definition v2_NotifyEVChargingNeedsRequest : ty := Struct
  [("evseId", false, Int);
   ("chargingNeeds", false, v2_ChargingNeeds);
   ("maxScheduleTuples", true, Int);
   ("timestamp", true, Time);
   ("customData", true, Any)]
  [WReq "evseId" "evseId" (Plain);
   WReq "chargingNeeds" "chargingNeeds" (Plain);
   WOpt "maxScheduleTuples" "maxScheduleTuples" "maxScheduleTuples" (Plain);
   WOpt "timestamp" "timestamp" "timestamp" (Text);
   WOpt "customData" "customData" "customData" (Plain)]
  [RReq "evseId" "evseId" (Plain);
   RReq "chargingNeeds" "chargingNeeds" (Plain);
   ROpt "maxScheduleTuples" "maxScheduleTuples" "maxScheduleTuples" (Plain);
   ROpt "timestamp" "timestamp" "timestamp" (Text);
   ROpt "customData" "customData" "customData" (Plain)].

(** NotifyEVChargingNeedsResponse: include/ocpp/v2/messages/NotifyEVChargingNeeds.hpp 43-51, lib/ocpp/v2/messages/NotifyEVChargingNeeds.cpp 67-79 and 81-92. *)
Definition v2_NotifyEVChargingNeedsResponse : ty := Struct
  [("status", false, Enm e_v2_notify_evcharging_needs_status_enum);
   ("statusInfo", true, v2_StatusInfo);
   ("customData", true, Any)]
  [WReq "status" "status" (Conv e_v2_notify_evcharging_needs_status_enum);
   WOpt "statusInfo" "statusInfo" "statusInfo" (Plain);
   WOpt "customData" "customData" "customData" (Plain)]
  [RReq "status" "status" (Conv e_v2_notify_evcharging_needs_status_enum);
   ROpt "statusInfo" "statusInfo" "statusInfo" (Plain);
   ROpt "customData" "customData" "customData" (Plain)].

(** NotifyEVChargingScheduleRequest: include/ocpp/v2/messages/NotifyEVChargingSchedule.hpp 19-30, lib/ocpp/v2/messages/NotifyEVChargingSchedule.cpp 20-37 and 39-55. *)
Definition v2_NotifyEVChargingScheduleRequest : ty := Struct
  [("timeBase", false, Time);
   ("chargingSchedule", false, v2_ChargingSchedule);
   ("evseId", false, Int);
   ("selectedChargingScheduleId", true, Int);
   ("powerToleranceAcceptance", true, Flag);
   ("customData", true, Any)]
  [WReq "timeBase" "timeBase" (Text);
   WReq "chargingSchedule" "chargingSchedule" (Plain);
   WReq "evseId" "evseId" (Plain);
   WOpt "selectedChargingScheduleId" "selectedChargingScheduleId" "selectedChargingScheduleId" (Plain);
   WOpt "powerToleranceAcceptance" "powerToleranceAcceptance" "powerToleranceAcceptance" (Plain);
   WOpt "customData" "customData" "customData" (Plain)]
  [RReq "timeBase" "timeBase" (Text);
   RReq "chargingSchedule" "chargingSchedule" (Plain);
   RReq "evseId" "evseId" (Plain);
   ROpt "selectedChargingScheduleId" "selectedChargingScheduleId" "selectedChargingScheduleId" (Plain);
   ROpt "powerToleranceAcceptance" "powerToleranceAcceptance" "powerToleranceAcceptance" (Plain);
   ROpt "customData" "customData" "customData" (Plain)].

(** NotifyEVChargingScheduleResponse: include/ocpp/v2/messages/NotifyEVChargingSchedule.hpp 44-52, lib/ocpp/v2/messages/NotifyEVChargingSchedule.cpp 69-81 and 83-94. *)
Definition v2_NotifyEVChargingScheduleResponse : ty := Struct
  [("status", false, Enm e_v2_generic_status_enum);
   ("statusInfo", true, v2_StatusInfo);
   ("customData", true, Any)]
  [WReq "status" "status" (Conv e_v2_generic_status_enum);
   WOpt "statusInfo" "statusInfo" "statusInfo" (Plain);
   WOpt "customData" "customData" "customData" (Plain)]
  [RReq "status" "status" (Conv e_v2_generic_status_enum);
   ROpt "statusInfo" "statusInfo" "statusInfo" (Plain);
   ROpt "customData" "customData" "customData" (Plain)].

(** NotifyEventRequest: include/ocpp/v2/messages/NotifyEvent.hpp 19-29, lib/ocpp/v2/messages/NotifyEvent.cpp 20-34 and 36-51. *)
Definition v2_NotifyEventRequest : ty := Struct
  [("generatedAt", false, Time);
   ("seqNo", false, Int);
   ("eventData", false, Vec (v2_EventData));
   ("tbc", true, Flag);
   ("customData", true, Any)]
  [WReq "generatedAt" "generatedAt" (Text);
   WReq "seqNo" "seqNo" (Plain);
   WReq "eventData" "eventData" (Plain);
   WOpt "tbc" "tbc" "tbc" (Plain);
   WOpt "customData" "customData" "customData" (Plain)]
  [RReq "generatedAt" "generatedAt" (Text);
   RReq "seqNo" "seqNo" (Plain);
   RReq "eventData" "eventData" Each;
   ROpt "tbc" "tbc" "tbc" (Plain);
   ROpt "customData" "customData" "customData" (Plain)].

(** NotifyEventResponse: include/ocpp/v2/messages/NotifyEvent.hpp 42-48, lib/ocpp/v2/messages/NotifyEvent.cpp 64-71 and 73-80. *)
Definition v2_NotifyEventResponse : ty := Struct
  [("customData", true, Any)]
  [WOpt "customData" "customData" "customData" (Plain)]
  [ROpt "customData" "customData" "customData" (Plain)].

(** NotifyMonitoringReportRequest: include/ocpp/v2/messages/NotifyMonitoringReport.hpp 19-30, lib/ocpp/v2/messages/NotifyMonitoringReport.cpp 20-40 and 42-63. *)
Definition v2_NotifyMonitoringReportRequest : ty := Struct
  [("requestId", false, Int);
   ("seqNo", false, Int);
   ("generatedAt", false, Time);
   ("monitor", true, Vec (v2_MonitoringData));
   ("tbc", true, Flag);
   ("customData", true, Any)]
  [WReq "requestId" "requestId" (Plain);
   WReq "seqNo" "seqNo" (Plain);
   WReq "generatedAt" "generatedAt" (Text);
   WOpt "monitor" "monitor" "monitor" (Each);
   WOpt "tbc" "tbc" "tbc" (Plain);
   WOpt "customData" "customData" "customData" (Plain)]
  [RReq "requestId" "requestId" (Plain);
   RReq "seqNo" "seqNo" (Plain);
   RReq "generatedAt" "generatedAt" (Text);
   ROpt "monitor" "monitor" "monitor" (Each);
   ROpt "tbc" "tbc" "tbc" (Plain);
   ROpt "customData" "customData" "customData" (Plain)].

(** NotifyMonitoringReportResponse: include/ocpp/v2/messages/NotifyMonitoringReport.hpp 44-50, lib/ocpp/v2/messages/NotifyMonitoringReport.cpp 77-84 and 86-93. *)
Definition v2_NotifyMonitoringReportResponse : ty := Struct
  [("customData", true, Any)]
  [WOpt "customData" "customData" "customData" (Plain)]
  [ROpt "customData" "customData" "customData" (Plain)].

(** NotifyReportRequest: include/ocpp/v2/messages/NotifyReport.hpp 19-30, lib/ocpp/v2/messages/NotifyReport.cpp 20-40 and 42-63. *)
Definition v2_NotifyReportRequest : ty := Struct
  [("requestId", false, Int);
   ("generatedAt", false, Time);
   ("seqNo", false, Int);
   ("reportData", true, Vec (v2_ReportData));
   ("tbc", true, Flag);
   ("customData", true, Any)]
  [WReq "requestId" "requestId" (Plain);
   WReq "generatedAt" "generatedAt" (Text);
   WReq "seqNo" "seqNo" (Plain);
   WOpt "reportData" "reportData" "reportData" (Each);
   WOpt "tbc" "tbc" "tbc" (Plain);
   WOpt "customData" "customData" "customData" (Plain)]
  [RReq "requestId" "requestId" (Plain);
   RReq "generatedAt" "generatedAt" (Text);
   RReq "seqNo" "seqNo" (Plain);
   ROpt "reportData" "reportData" "reportData" (Each);
   ROpt "tbc" "tbc" "tbc" (Plain);
   ROpt "customData" "customData" "customData" (Plain)].

(** NotifyReportResponse: include/ocpp/v2/messages/NotifyReport.hpp 43-49, lib/ocpp/v2/messages/NotifyReport.cpp 76-83 and 85-92. *)
Definition v2_NotifyReportResponse : ty := Struct
  [("customData", true, Any)]
  [WOpt "customData" "customData" "customData" (Plain)]
  [ROpt "customData" "customData" "customData" (Plain)].

(** PublishFirmwareRequest: include/ocpp/v2/messages/PublishFirmware.hpp 19-30, lib/ocpp/v2/messages/PublishFirmware.cpp 20-37 and 39-55. *)
Definition v2_PublishFirmwareRequest : ty := Struct
  [("location", false, Str (Some 2000));
   ("checksum", false, Str (Some 32));
   ("requestId", false, Int);
   ("retries", true, Int);
   ("retryInterval", true, Int);
   ("customData", true, Any)]
  [WReq "location" "location" (Plain);
   WReq "checksum" "checksum" (Plain);
   WReq "requestId" "requestId" (Plain);
   WOpt "retries" "retries" "retries" (Plain);
   WOpt "retryInterval" "retryInterval" "retryInterval" (Plain);
   WOpt "customData" "customData" "customData" (Plain)]
  [RReq "location" "location" (Plain);
   RReq "checksum" "checksum" (Plain);
   RReq "requestId" "requestId" (Plain);
   ROpt "retries" "retries" "retries" (Plain);
   ROpt "retryInterval" "retryInterval" "retryInterval" (Plain);
   ROpt "customData" "customData" "customData" (Plain)].

(** PublishFirmwareResponse: include/ocpp/v2/messages/PublishFirmware.hpp 43-51, lib/ocpp/v2/messages/PublishFirmware.cpp 68-80 and 82-93. *)
Definition v2_PublishFirmwareResponse : ty := Struct
  [("status", false, Enm e_v2_generic_status_enum);
   ("statusInfo", true, v2_StatusInfo);
   ("customData", true, Any)]
  [WReq "status" "status" (Conv e_v2_generic_status_enum);
   WOpt "statusInfo" "statusInfo" "statusInfo" (Plain);
   WOpt "customData" "customData" "customData" (Plain)]
  [RReq "status" "status" (Conv e_v2_generic_status_enum);
   ROpt "statusInfo" "statusInfo" "statusInfo" (Plain);
   ROpt "customData" "customData" "customData" (Plain)].

(** PublishFirmwareStatusNotificationRequest: include/ocpp/v2/messages/PublishFirmwareStatusNotification.hpp 19-29, lib/ocpp/v2/messages/PublishFirmwareStatusNotification.cpp 20-41 and 43-65. *)
Definition v2_PublishFirmwareStatusNotificationRequest : ty := Struct
  [("status", false, Enm e_v2_publish_firmware_status_enum);
   ("location", true, Vec (Str (Some 2000)));
   ("requestId", true, Int);
   ("statusInfo", true, v2_StatusInfo);
   ("customData", true, Any)]
  [WReq "status" "status" (Conv e_v2_publish_firmware_status_enum);
   WOpt "location" "location" "location" (Each);
   WOpt "requestId" "requestId" "requestId" (Plain);
   WOpt "statusInfo" "statusInfo" "statusInfo" (Plain);
   WOpt "customData" "customData" "customData" (Plain)]
  [RReq "status" "status" (Conv e_v2_publish_firmware_status_enum);
   ROpt "location" "location" "location" (Each);
   ROpt "requestId" "requestId" "requestId" (Plain);
   ROpt "statusInfo" "statusInfo" "statusInfo" (Plain);
   ROpt "customData" "customData" "customData" (Plain)].

(** PublishFirmwareStatusNotificationResponse: include/ocpp/v2/messages/PublishFirmwareStatusNotification.hpp 43-49, lib/ocpp/v2/messages/PublishFirmwareStatusNotification.cpp 79-86 and 88-95. *)
Definition v2_PublishFirmwareStatusNotificationResponse : ty := Struct
  [("customData", true, Any)]
  [WOpt "customData" "customData" "customData" (Plain)]
  [ROpt "customData" "customData" "customData" (Plain)].

(** ReportChargingProfilesRequest: include/ocpp/v2/messages/ReportChargingProfiles.hpp 19-30, lib/ocpp/v2/messages/ReportChargingProfiles.cpp 20-35 and 37-53. *)
Definition v2_ReportChargingProfilesRequest : ty := Struct
  [("requestId", false, Int);
   ("chargingLimitSource", false, Str (Some 20));
   ("chargingProfile", false, Vec (v2_ChargingProfile));
   ("evseId", false, Int);
   ("tbc", true, Flag);
   ("customData", true, Any)]
  [WReq "requestId" "requestId" (Plain);
   WReq "chargingLimitSource" "chargingLimitSource" (Plain);
   WReq "chargingProfile" "chargingProfile" (Plain);
   WReq "evseId" "evseId" (Plain);
   WOpt "tbc" "tbc" "tbc" (Plain);
   WOpt "customData" "customData" "customData" (Plain)]
  [RReq "requestId" "requestId" (Plain);
   RReq "chargingLimitSource" "chargingLimitSource" (Plain);
   RReq "chargingProfile" "chargingProfile" Each;
   RReq "evseId" "evseId" (Plain);
   ROpt "tbc" "tbc" "tbc" (Plain);
   ROpt "customData" "customData" "customData" (Plain)].

(** ReportChargingProfilesResponse: include/ocpp/v2/messages/ReportChargingProfiles.hpp 44-50, lib/ocpp/v2/messages/ReportChargingProfiles.cpp 67-74 and 76-83. *)
Definition v2_ReportChargingProfilesResponse : ty := Struct
  [("customData", true, Any)]
  [WOpt "customData" "customData" "customData" (Plain)]
  [ROpt "customData" "customData" "customData" (Plain)].

(** RequestStartTransactionRequest: include/ocpp/v2/messages/RequestStartTransaction.hpp 19-30, lib/ocpp/v2/messages/RequestStartTransaction.cpp 20-39 and 41-59. *)
Definition v2_RequestStartTransactionRequest : ty := Struct
  [("idToken", false, v2_IdToken);
   ("remoteStartId", false, Int);
   ("evseId", true, Int);
   ("groupIdToken", true, v2_IdToken);
   ("chargingProfile", true, v2_ChargingProfile);
   ("customData", true, Any)]
  [WReq "idToken" "idToken" (Plain);
   WReq "remoteStartId" "remoteStartId" (Plain);
   WOpt "evseId" "evseId" "evseId" (Plain);
   WOpt "groupIdToken" "groupIdToken" "groupIdToken" (Plain);
   WOpt "chargingProfile" "chargingProfile" "chargingProfile" (Plain);
   WOpt "customData" "customData" "customData" (Plain)]
  [RReq "idToken" "idToken" (Plain);
   RReq "remoteStartId" "remoteStartId" (Plain);
   ROpt "evseId" "evseId" "evseId" (Plain);
   ROpt "groupIdToken" "groupIdToken" "groupIdToken" (Plain);
   ROpt "chargingProfile" "chargingProfile" "chargingProfile" (Plain);
   ROpt "customData" "customData" "customData" (Plain)].

(** RequestStartTransactionResponse: include/ocpp/v2/messages/RequestStartTransaction.hpp 44-53, lib/ocpp/v2/messages/RequestStartTransaction.cpp 73-88 and 90-104. *)
Definition v2_RequestStartTransactionResponse : ty := Struct
  [("status", false, Enm e_v2_request_start_stop_status_enum);
   ("statusInfo", true, v2_StatusInfo);
   ("transactionId", true, Str (Some 36));
   ("customData", true, Any)]
  [WReq "status" "status" (Conv e_v2_request_start_stop_status_enum);
   WOpt "statusInfo" "statusInfo" "statusInfo" (Plain);
   WOpt "transactionId" "transactionId" "transactionId" (Plain);
   WOpt "customData" "customData" "customData" (Plain)]
  [RReq "status" "status" (Conv e_v2_request_start_stop_status_enum);
   ROpt "statusInfo" "statusInfo" "statusInfo" (Plain);
   ROpt "transactionId" "transactionId" "transactionId" (Plain);
   ROpt "customData" "customData" "customData" (Plain)].

(** RequestStopTransactionRequest: include/ocpp/v2/messages/RequestStopTransaction.hpp 19-26, lib/ocpp/v2/messages/RequestStopTransaction.cpp 20-29 and 31-39. *)
Definition v2_RequestStopTransactionRequest : ty := Struct
  [("transactionId", false, Str (Some 36));
   ("customData", true, Any)]
  [WReq "transactionId" "transactionId" (Plain);
   WOpt "customData" "customData" "customData" (Plain)]
  [RReq "transactionId" "transactionId" (Plain);
   ROpt "customData" "customData" "customData" (Plain)].

(** RequestStopTransactionResponse: include/ocpp/v2/messages/RequestStopTransaction.hpp 40-48, lib/ocpp/v2/messages/RequestStopTransaction.cpp 53-65 and 67-78. *)
Definition v2_RequestStopTransactionResponse : ty := Struct
  [("status", false, Enm e_v2_request_start_stop_status_enum);
   ("statusInfo", true, v2_StatusInfo);
   ("customData", true, Any)]
  [WReq "status" "status" (Conv e_v2_request_start_stop_status_enum);
   WOpt "statusInfo" "statusInfo" "statusInfo" (Plain);
   WOpt "customData" "customData" "customData" (Plain)]
  [RReq "status" "status" (Conv e_v2_request_start_stop_status_enum);
   ROpt "statusInfo" "statusInfo" "statusInfo" (Plain);
   ROpt "customData" "customData" "customData" (Plain)].

(** ReservationStatusUpdateRequest: include/ocpp/v2/messages/ReservationStatusUpdate.hpp 19-27, lib/ocpp/v2/messages/ReservationStatusUpdate.cpp 20-30 and 32-41. *)
Definition v2_ReservationStatusUpdateRequest : ty := Struct
  [("reservationId", false, Int);
   ("reservationUpdateStatus", false, Enm e_v2_reservation_update_status_enum);
   ("customData", true, Any)]
  [WReq "reservationId" "reservationId" (Plain);
   WReq "reservationUpdateStatus" "reservationUpdateStatus" (Conv e_v2_reservation_update_status_enum);
   WOpt "customData" "customData" "customData" (Plain)]
  [RReq "reservationId" "reservationId" (Plain);
   RReq "reservationUpdateStatus" "reservationUpdateStatus" (Conv e_v2_reservation_update_status_enum);
   ROpt "customData" "customData" "customData" (Plain)].

(** ReservationStatusUpdateResponse: include/ocpp/v2/messages/ReservationStatusUpdate.hpp 41-47, lib/ocpp/v2/messages/ReservationStatusUpdate.cpp 55-62 and 64-71. *)
Definition v2_ReservationStatusUpdateResponse : ty := Struct
  [("customData", true, Any)]
  [WOpt "customData" "customData" "customData" (Plain)]
  [ROpt "customData" "customData" "customData" (Plain)].

(** ReserveNowRequest: include/ocpp/v2/messages/ReserveNow.hpp 19-31, lib/ocpp/v2/messages/ReserveNow.cpp 20-40 and 42-61. *)
Definition v2_ReserveNowRequest : ty := Struct
  [("id", false, Int);
   ("expiryDateTime", false, Time);
   ("idToken", false, v2_IdToken);
   ("connectorType", true, Str (Some 20));
   ("evseId", true, Int);
   ("groupIdToken", true, v2_IdToken);
   ("customData", true, Any)]
  [WReq "id" "id" (Plain);
   WReq "expiryDateTime" "expiryDateTime" (Text);
   WReq "idToken" "idToken" (Plain);
   WOpt "connectorType" "connectorType" "connectorType" (Plain);
   WOpt "evseId" "evseId" "evseId" (Plain);
   WOpt "groupIdToken" "groupIdToken" "groupIdToken" (Plain);
   WOpt "customData" "customData" "customData" (Plain)]
  [RReq "id" "id" (Plain);
   RReq "expiryDateTime" "expiryDateTime" (Text);
   RReq "idToken" "idToken" (Plain);
   ROpt "connectorType" "connectorType" "connectorType" (Plain);
   ROpt "evseId" "evseId" "evseId" (Plain);
   ROpt "groupIdToken" "groupIdToken" "groupIdToken" (Plain);
   ROpt "customData" "customData" "customData" (Plain)].

(** ReserveNowResponse: include/ocpp/v2/messages/ReserveNow.hpp 44-52, lib/ocpp/v2/messages/ReserveNow.cpp 74-86 and 88-99. *)
Definition v2_ReserveNowResponse : ty := Struct
  [("status", false, Enm e_v2_reserve_now_status_enum);
   ("statusInfo", true, v2_StatusInfo);
   ("customData", true, Any)]
  [WReq "status" "status" (Conv e_v2_reserve_now_status_enum);
   WOpt "statusInfo" "statusInfo" "statusInfo" (Plain);
   WOpt "customData" "customData" "customData" (Plain)]
  [RReq "status" "status" (Conv e_v2_reserve_now_status_enum);
   ROpt "statusInfo" "statusInfo" "statusInfo" (Plain);
   ROpt "customData" "customData" "customData" (Plain)].

(** ResetRequest: include/ocpp/v2/messages/Reset.hpp 19-27, lib/ocpp/v2/messages/Reset.cpp 20-32 and 34-45. *)
Definition v2_ResetRequest : ty := Struct
  [("type", false, Enm e_v2_reset_enum);
   ("evseId", true, Int);
   ("customData", true, Any)]
  [WReq "type" "type" (Conv e_v2_reset_enum);
   WOpt "evseId" "evseId" "evseId" (Plain);
   WOpt "customData" "customData" "customData" (Plain)]
  [RReq "type" "type" (Conv e_v2_reset_enum);
   ROpt "evseId" "evseId" "evseId" (Plain);
   ROpt "customData" "customData" "customData" (Plain)].

(** ResetResponse: include/ocpp/v2/messages/Reset.hpp 40-48, lib/ocpp/v2/messages/Reset.cpp 58-70 and 72-83. *)
Definition v2_ResetResponse : ty := Struct
  [("status", false, Enm e_v2_reset_status_enum);
   ("statusInfo", true, v2_StatusInfo);
   ("customData", true, Any)]
  [WReq "status" "status" (Conv e_v2_reset_status_enum);
   WOpt "statusInfo" "statusInfo" "statusInfo" (Plain);
   WOpt "customData" "customData" "customData" (Plain)]
  [RReq "status" "status" (Conv e_v2_reset_status_enum);
   ROpt "statusInfo" "statusInfo" "statusInfo" (Plain);
   ROpt "customData" "customData" "customData" (Plain)].

(** SecurityEventNotificationRequest: include/ocpp/v2/messages/SecurityEventNotification.hpp 18-27, lib/ocpp/v2/messages/SecurityEventNotification.cpp 20-33 and 35-47. *)
Definition v2_SecurityEventNotificationRequest : ty := Struct
  [("type", false, Str (Some 50));
   ("timestamp", false, Time);
   ("techInfo", true, Str (Some 255));
   ("customData", true, Any)]
  [WReq "type" "type" (Plain);
   WReq "timestamp" "timestamp" (Text);
   WOpt "techInfo" "techInfo" "techInfo" (Plain);
   WOpt "customData" "customData" "customData" (Plain)]
  [RReq "type" "type" (Plain);
   RReq "timestamp" "timestamp" (Text);
   ROpt "techInfo" "techInfo" "techInfo" (Plain);
   ROpt "customData" "customData" "customData" (Plain)].

(** SecurityEventNotificationResponse: include/ocpp/v2/messages/SecurityEventNotification.hpp 41-47, lib/ocpp/v2/messages/SecurityEventNotification.cpp 61-68 and 70-77. *)
Definition v2_SecurityEventNotificationResponse : ty := Struct
  [("customData", true, Any)]
  [WOpt "customData" "customData" "customData" (Plain)]
  [ROpt "customData" "customData" "customData" (Plain)].

(** SendLocalListRequest: include/ocpp/v2/messages/SendLocalList.hpp 19-28, lib/ocpp/v2/messages/SendLocalList.cpp 20-36 and 38-55. *)
Definition v2_SendLocalListRequest : ty := Struct
  [("versionNumber", false, Int);
   ("updateType", false, Enm e_v2_update_enum);
   ("localAuthorizationList", true, Vec (v2_AuthorizationData));
   ("customData", true, Any)]
  [WReq "versionNumber" "versionNumber" (Plain);
   WReq "updateType" "updateType" (Conv e_v2_update_enum);
   WOpt "localAuthorizationList" "localAuthorizationList" "localAuthorizationList" (Each);
   WOpt "customData" "customData" "customData" (Plain)]
  [RReq "versionNumber" "versionNumber" (Plain);
   RReq "updateType" "updateType" (Conv e_v2_update_enum);
   ROpt "localAuthorizationList" "localAuthorizationList" "localAuthorizationList" (Each);
   ROpt "customData" "customData" "customData" (Plain)].

(** SendLocalListResponse: include/ocpp/v2/messages/SendLocalList.hpp 41-49, lib/ocpp/v2/messages/SendLocalList.cpp 68-80 and 82-93. *)
Definition v2_SendLocalListResponse : ty := Struct
  [("status", false, Enm e_v2_send_local_list_status_enum);
   ("statusInfo", true, v2_StatusInfo);
   ("customData", true, Any)]
  [WReq "status" "status" (Conv e_v2_send_local_list_status_enum);
   WOpt "statusInfo" "statusInfo" "statusInfo" (Plain);
   WOpt "customData" "customData" "customData" (Plain)]
  [RReq "status" "status" (Conv e_v2_send_local_list_status_enum);
   ROpt "statusInfo" "statusInfo" "statusInfo" (Plain);
   ROpt "customData" "customData" "customData" (Plain)].

(** SetChargingProfileRequest: include/ocpp/v2/messages/SetChargingProfile.hpp 19-27, lib/ocpp/v2/messages/SetChargingProfile.cpp 20-30 and 32-41. *)
Definition v2_SetChargingProfileRequest : ty := Struct
  [("evseId", false, Int);
   ("chargingProfile", false, v2_ChargingProfile);
   ("customData", true, Any)]
  [WReq "evseId" "evseId" (Plain);
   WReq "chargingProfile" "chargingProfile" (Plain);
   WOpt "customData" "customData" "customData" (Plain)]
  [RReq "evseId" "evseId" (Plain);
   RReq "chargingProfile" "chargingProfile" (Plain);
   ROpt "customData" "customData" "customData" (Plain)].

(** SetChargingProfileResponse: include/ocpp/v2/messages/SetChargingProfile.hpp 40-48, lib/ocpp/v2/messages/SetChargingProfile.cpp 54-66 and 68-79. *)
Definition v2_SetChargingProfileResponse : ty := Struct
  [("status", false, Enm e_v2_charging_profile_status_enum);
   ("statusInfo", true, v2_StatusInfo);
   ("customData", true, Any)]
  [WReq "status" "status" (Conv e_v2_charging_profile_status_enum);
   WOpt "statusInfo" "statusInfo" "statusInfo" (Plain);
   WOpt "customData" "customData" "customData" (Plain)]
  [RReq "status" "status" (Conv e_v2_charging_profile_status_enum);
   ROpt "statusInfo" "statusInfo" "statusInfo" (Plain);
   ROpt "customData" "customData" "customData" (Plain)].

(** SetDisplayMessageRequest: include/ocpp/v2/messages/SetDisplayMessage.hpp 19-26, lib/ocpp/v2/messages/SetDisplayMessage.cpp 20-29 and 31-39. *)
Definition v2_SetDisplayMessageRequest : ty := Struct
  [("message", false, v2_MessageInfo);
   ("customData", true, Any)]
  [WReq "message" "message" (Plain);
   WOpt "customData" "customData" "customData" (Plain)]
  [RReq "message" "message" (Plain);
   ROpt "customData" "customData" "customData" (Plain)].

(** SetDisplayMessageResponse: include/ocpp/v2/messages/SetDisplayMessage.hpp 39-47, lib/ocpp/v2/messages/SetDisplayMessage.cpp 52-64 and 66-77. *)
Definition v2_SetDisplayMessageResponse : ty := Struct
  [("status", false, Enm e_v2_display_message_status_enum);
   ("statusInfo", true, v2_StatusInfo);
   ("customData", true, Any)]
  [WReq "status" "status" (Conv e_v2_display_message_status_enum);
   WOpt "statusInfo" "statusInfo" "statusInfo" (Plain);
   WOpt "customData" "customData" "customData" (Plain)]
  [RReq "status" "status" (Conv e_v2_display_message_status_enum);
   ROpt "statusInfo" "statusInfo" "statusInfo" (Plain);
   ROpt "customData" "customData" "customData" (Plain)].

(** SetMonitoringBaseRequest: include/ocpp/v2/messages/SetMonitoringBase.hpp 19-26, lib/ocpp/v2/messages/SetMonitoringBase.cpp 20-29 and 31-39. *)
Definition v2_SetMonitoringBaseRequest : ty := Struct
  [("monitoringBase", false, Enm e_v2_monitoring_base_enum);
   ("customData", true, Any)]
  [WReq "monitoringBase" "monitoringBase" (Conv e_v2_monitoring_base_enum);
   WOpt "customData" "customData" "customData" (Plain)]
  [RReq "monitoringBase" "monitoringBase" (Conv e_v2_monitoring_base_enum);
   ROpt "customData" "customData" "customData" (Plain)].

(** SetMonitoringBaseResponse: include/ocpp/v2/messages/SetMonitoringBase.hpp 39-47, lib/ocpp/v2/messages/SetMonitoringBase.cpp 52-64 and 66-77. *)
Definition v2_SetMonitoringBaseResponse : ty := Struct
  [("status", false, Enm e_v2_generic_device_model_status_enum);
   ("statusInfo", true, v2_StatusInfo);
   ("customData", true, Any)]
  [WReq "status" "status" (Conv e_v2_generic_device_model_status_enum);
   WOpt "statusInfo" "statusInfo" "statusInfo" (Plain);
   WOpt "customData" "customData" "customData" (Plain)]
  [RReq "status" "status" (Conv e_v2_generic_device_model_status_enum);
   ROpt "statusInfo" "statusInfo" "statusInfo" (Plain);
   ROpt "customData" "customData" "customData" (Plain)].

(** SetMonitoringLevelRequest: include/ocpp/v2/messages/SetMonitoringLevel.hpp 19-26, lib/ocpp/v2/messages/SetMonitoringLevel.cpp 20-29 and 31-39. *)
Definition v2_SetMonitoringLevelRequest : ty := Struct
  [("severity", false, Int);
   ("customData", true, Any)]
  [WReq "severity" "severity" (Plain);
   WOpt "customData" "customData" "customData" (Plain)]
  [RReq "severity" "severity" (Plain);
   ROpt "customData" "customData" "customData" (Plain)].

(** SetMonitoringLevelResponse: include/ocpp/v2/messages/SetMonitoringLevel.hpp 39-47, lib/ocpp/v2/messages/SetMonitoringLevel.cpp 52-64 and 66-77. *)
Definition v2_SetMonitoringLevelResponse : ty := Struct
  [("status", false, Enm e_v2_generic_status_enum);
   ("statusInfo", true, v2_StatusInfo);
   ("customData", true, Any)]
  [WReq "status" "status" (Conv e_v2_generic_status_enum);
   WOpt "statusInfo" "statusInfo" "statusInfo" (Plain);
   WOpt "customData" "customData" "customData" (Plain)]
  [RReq "status" "status" (Conv e_v2_generic_status_enum);
   ROpt "statusInfo" "statusInfo" "statusInfo" (Plain);
   ROpt "customData" "customData" "customData" (Plain)].

(** SetNetworkProfileRequest: include/ocpp/v2/messages/SetNetworkProfile.hpp 19-27, lib/ocpp/v2/messages/SetNetworkProfile.cpp 20-30 and 32-41. *)
Definition v2_SetNetworkProfileRequest : ty := Struct
  [("configurationSlot", false, Int);
   ("connectionData", false, v2_NetworkConnectionProfile);
   ("customData", true, Any)]
  [WReq "configurationSlot" "configurationSlot" (Plain);
   WReq "connectionData" "connectionData" (Plain);
   WOpt "customData" "customData" "customData" (Plain)]
  [RReq "configurationSlot" "configurationSlot" (Plain);
   RReq "connectionData" "connectionData" (Plain);
   ROpt "customData" "customData" "customData" (Plain)].

(** SetNetworkProfileResponse: include/ocpp/v2/messages/SetNetworkProfile.hpp 40-48, lib/ocpp/v2/messages/SetNetworkProfile.cpp 54-66 and 68-79. *)
Definition v2_SetNetworkProfileResponse : ty := Struct
  [("status", false, Enm e_v2_set_network_profile_status_enum);
   ("statusInfo", true, v2_StatusInfo);
   ("customData", true, Any)]
  [WReq "status" "status" (Conv e_v2_set_network_profile_status_enum);
   WOpt "statusInfo" "statusInfo" "statusInfo" (Plain);
   WOpt "customData" "customData" "customData" (Plain)]
  [RReq "status" "status" (Conv e_v2_set_network_profile_status_enum);
   ROpt "statusInfo" "statusInfo" "statusInfo" (Plain);
   ROpt "customData" "customData" "customData" (Plain)].

(** SetVariableMonitoringRequest: include/ocpp/v2/messages/SetVariableMonitoring.hpp 19-26, lib/ocpp/v2/messages/SetVariableMonitoring.cpp 20-29 and 31-41. *)
Definition v2_SetVariableMonitoringRequest : ty := Struct
  [("setMonitoringData", false, Vec (v2_SetMonitoringData));
   ("customData", true, Any)]
  [WReq "setMonitoringData" "setMonitoringData" (Plain);
   WOpt "customData" "customData" "customData" (Plain)]
  [RReq "setMonitoringData" "setMonitoringData" Each;
   ROpt "customData" "customData" "customData" (Plain)].

(** SetVariableMonitoringResponse: include/ocpp/v2/messages/SetVariableMonitoring.hpp 40-47, lib/ocpp/v2/messages/SetVariableMonitoring.cpp 55-64 and 66-76. *)
Definition v2_SetVariableMonitoringResponse : ty := Struct
  [("setMonitoringResult", false, Vec (v2_SetMonitoringResult));
   ("customData", true, Any)]
  [WReq "setMonitoringResult" "setMonitoringResult" (Plain);
   WOpt "customData" "customData" "customData" (Plain)]
  [RReq "setMonitoringResult" "setMonitoringResult" Each;
   ROpt "customData" "customData" "customData" (Plain)].

(** SetVariablesRequest: include/ocpp/v2/messages/SetVariables.hpp 19-26, lib/ocpp/v2/messages/SetVariables.cpp 20-29 and 31-41. *)
Definition v2_SetVariablesRequest : ty := Struct
  [("setVariableData", false, Vec (v2_SetVariableData));
   ("customData", true, Any)]
  [WReq "setVariableData" "setVariableData" (Plain);
   WOpt "customData" "customData" "customData" (Plain)]
  [RReq "setVariableData" "setVariableData" Each;
   ROpt "customData" "customData" "customData" (Plain)].

(** SetVariablesResponse: include/ocpp/v2/messages/SetVariables.hpp 39-46, lib/ocpp/v2/messages/SetVariables.cpp 54-63 and 65-75. *)
Definition v2_SetVariablesResponse : ty := Struct
  [("setVariableResult", false, Vec (v2_SetVariableResult));
   ("customData", true, Any)]
  [WReq "setVariableResult" "setVariableResult" (Plain);
   WOpt "customData" "customData" "customData" (Plain)]
  [RReq "setVariableResult" "setVariableResult" Each;
   ROpt "customData" "customData" "customData" (Plain)].

(** SignCertificateRequest: include/ocpp/v2/messages/SignCertificate.hpp 19-29, lib/ocpp/v2/messages/SignCertificate.cpp 20-38 and 40-57. *)
Definition v2_SignCertificateRequest : ty := Struct
  [("csr", false, Str (Some 5500));
   ("certificateType", true, Enm e_v2_certificate_signing_use_enum);
   ("hashRootCertificate", true, v2_CertificateHashDataType);
   ("requestId", true, Int);
   ("customData", true, Any)]
  [WReq "csr" "csr" (Plain);
   WOpt "certificateType" "certificateType" "certificateType" (Conv e_v2_certificate_signing_use_enum);
   WOpt "hashRootCertificate" "hashRootCertificate" "hashRootCertificate" (Plain);
   WOpt "requestId" "requestId" "requestId" (Plain);
   WOpt "customData" "customData" "customData" (Plain)]
  [RReq "csr" "csr" (Plain);
   ROpt "certificateType" "certificateType" "certificateType" (Conv e_v2_certificate_signing_use_enum);
   ROpt "hashRootCertificate" "hashRootCertificate" "hashRootCertificate" (Plain);
   ROpt "requestId" "requestId" "requestId" (Plain);
   ROpt "customData" "customData" "customData" (Plain)].

(** SignCertificateResponse: include/ocpp/v2/messages/SignCertificate.hpp 42-50, lib/ocpp/v2/messages/SignCertificate.cpp 70-82 and 84-95. *)
Definition v2_SignCertificateResponse : ty := Struct
  [("status", false, Enm e_v2_generic_status_enum);
   ("statusInfo", true, v2_StatusInfo);
   ("customData", true, Any)]
  [WReq "status" "status" (Conv e_v2_generic_status_enum);
   WOpt "statusInfo" "statusInfo" "statusInfo" (Plain);
   WOpt "customData" "customData" "customData" (Plain)]
  [RReq "status" "status" (Conv e_v2_generic_status_enum);
   ROpt "statusInfo" "statusInfo" "statusInfo" (Plain);
   ROpt "customData" "customData" "customData" (Plain)].

(** StatusNotificationRequest: include/ocpp/v2/messages/StatusNotification.hpp 19-29, lib/ocpp/v2/messages/StatusNotification.cpp 20-32 and 34-45. *)
Definition v2_StatusNotificationRequest : ty := Struct
  [("timestamp", false, Time);
   ("connectorStatus", false, Enm e_v2_connector_status_enum);
   ("evseId", false, Int);
   ("connectorId", false, Int);
   ("customData", true, Any)]
  [WReq "timestamp" "timestamp" (Text);
   WReq "connectorStatus" "connectorStatus" (Conv e_v2_connector_status_enum);
   WReq "evseId" "evseId" (Plain);
   WReq "connectorId" "connectorId" (Plain);
   WOpt "customData" "customData" "customData" (Plain)]
  [RReq "timestamp" "timestamp" (Text);
   RReq "connectorStatus" "connectorStatus" (Conv e_v2_connector_status_enum);
   RReq "evseId" "evseId" (Plain);
   RReq "connectorId" "connectorId" (Plain);
   ROpt "customData" "customData" "customData" (Plain)].

(** StatusNotificationResponse: include/ocpp/v2/messages/StatusNotification.hpp 42-48, lib/ocpp/v2/messages/StatusNotification.cpp 58-65 and 67-74. *)
Definition v2_StatusNotificationResponse : ty := Struct
  [("customData", true, Any)]
  [WOpt "customData" "customData" "customData" (Plain)]
  [ROpt "customData" "customData" "customData" (Plain)].

(** TransactionEventRequest: include/ocpp/v2/messages/TransactionEvent.hpp 19-40, lib/ocpp/v2/messages/TransactionEvent.cpp 20-67 and 69-117. *)
Definition v2_TransactionEventRequest : ty := Struct
  [("eventType", false, Enm e_v2_transaction_event_enum);
   ("timestamp", false, Time);
   ("triggerReason", false, Enm e_v2_trigger_reason_enum);
   ("seqNo", false, Int);
   ("transactionInfo", false, v2_Transaction);
   ("costDetails", true, v2_CostDetails);
   ("meterValue", true, Vec (v2_MeterValue));
   ("offline", true, Flag);
   ("numberOfPhasesUsed", true, Int);
   ("cableMaxCurrent", true, Int);
   ("reservationId", true, Int);
   ("preconditioningStatus", true, Enm e_v2_preconditioning_status_enum);
   ("evseSleep", true, Flag);
   ("evse", true, v2_EVSE);
   ("idToken", true, v2_IdToken);
   ("customData", true, Any)]
  [WReq "eventType" "eventType" (Conv e_v2_transaction_event_enum);
   WReq "timestamp" "timestamp" (Text);
   WReq "triggerReason" "triggerReason" (Conv e_v2_trigger_reason_enum);
   WReq "seqNo" "seqNo" (Plain);
   WReq "transactionInfo" "transactionInfo" (Plain);
   WOpt "costDetails" "costDetails" "costDetails" (Plain);
   WOpt "meterValue" "meterValue" "meterValue" (Each);
   WOpt "offline" "offline" "offline" (Plain);
   WOpt "numberOfPhasesUsed" "numberOfPhasesUsed" "numberOfPhasesUsed" (Plain);
   WOpt "cableMaxCurrent" "cableMaxCurrent" "cableMaxCurrent" (Plain);
   WOpt "reservationId" "reservationId" "reservationId" (Plain);
   WOpt "preconditioningStatus" "preconditioningStatus" "preconditioningStatus" (Conv e_v2_preconditioning_status_enum);
   WOpt "evseSleep" "evseSleep" "evseSleep" (Plain);
   WOpt "evse" "evse" "evse" (Plain);
   WOpt "idToken" "idToken" "idToken" (Plain);
   WOpt "customData" "customData" "customData" (Plain)]
  [RReq "eventType" "eventType" (Conv e_v2_transaction_event_enum);
   RReq "timestamp" "timestamp" (Text);
   RReq "triggerReason" "triggerReason" (Conv e_v2_trigger_reason_enum);
   RReq "seqNo" "seqNo" (Plain);
   RReq "transactionInfo" "transactionInfo" (Plain);
   ROpt "costDetails" "costDetails" "costDetails" (Plain);
   ROpt "meterValue" "meterValue" "meterValue" (Each);
   ROpt "offline" "offline" "offline" (Plain);
   ROpt "numberOfPhasesUsed" "numberOfPhasesUsed" "numberOfPhasesUsed" (Plain);
   ROpt "cableMaxCurrent" "cableMaxCurrent" "cableMaxCurrent" (Plain);
   ROpt "reservationId" "reservationId" "reservationId" (Plain);
   ROpt "preconditioningStatus" "preconditioningStatus" "preconditioningStatus" (Conv e_v2_preconditioning_status_enum);
   ROpt "evseSleep" "evseSleep" "evseSleep" (Plain);
   ROpt "evse" "evse" "evse" (Plain);
   ROpt "idToken" "idToken" "idToken" (Plain);
   ROpt "customData" "customData" "customData" (Plain)].

(** TransactionEventResponse: include/ocpp/v2/messages/TransactionEvent.hpp 53-65, lib/ocpp/v2/messages/TransactionEvent.cpp 130-162 and 164-194. *)
Definition v2_TransactionEventResponse : ty := Struct
  [("totalCost", true, Float);
   ("chargingPriority", true, Int);
   ("idTokenInfo", true, v2_IdTokenInfo);
   ("transactionLimit", true, v2_TransactionLimit);
   ("updatedPersonalMessage", true, v2_MessageContent);
   ("updatedPersonalMessageExtra", true, Vec (v2_MessageContent));
   ("customData", true, Any)]
  [WOpt "totalCost" "totalCost" "totalCost" (Plain);
   WOpt "chargingPriority" "chargingPriority" "chargingPriority" (Plain);
   WOpt "idTokenInfo" "idTokenInfo" "idTokenInfo" (Plain);
   WOpt "transactionLimit" "transactionLimit" "transactionLimit" (Plain);
   WOpt "updatedPersonalMessage" "updatedPersonalMessage" "updatedPersonalMessage" (Plain);
   WOpt "updatedPersonalMessageExtra" "updatedPersonalMessageExtra" "updatedPersonalMessageExtra" (Each);
   WOpt "customData" "customData" "customData" (Plain)]
  [ROpt "totalCost" "totalCost" "totalCost" (Plain);
   ROpt "chargingPriority" "chargingPriority" "chargingPriority" (Plain);
   ROpt "idTokenInfo" "idTokenInfo" "idTokenInfo" (Plain);
   ROpt "transactionLimit" "transactionLimit" "transactionLimit" (Plain);
   ROpt "updatedPersonalMessage" "updatedPersonalMessage" "updatedPersonalMessage" (Plain);
   ROpt "updatedPersonalMessageExtra" "updatedPersonalMessageExtra" "updatedPersonalMessageExtra" (Each);
   ROpt "customData" "customData" "customData" (Plain)].

(** TriggerMessageRequest: include/ocpp/v2/messages/TriggerMessage.hpp 19-28, lib/ocpp/v2/messages/TriggerMessage.cpp 20-35 and 37-51. *)
Definition v2_TriggerMessageRequest : ty := Struct
  [("requestedMessage", false, Enm e_v2_message_trigger_enum);
   ("evse", true, v2_EVSE);
   ("customTrigger", true, Str (Some 50));
   ("customData", true, Any)]
  [WReq "requestedMessage" "requestedMessage" (Conv e_v2_message_trigger_enum);
   WOpt "evse" "evse" "evse" (Plain);
   WOpt "customTrigger" "customTrigger" "customTrigger" (Plain);
   WOpt "customData" "customData" "customData" (Plain)]
  [RReq "requestedMessage" "requestedMessage" (Conv e_v2_message_trigger_enum);
   ROpt "evse" "evse" "evse" (Plain);
   ROpt "customTrigger" "customTrigger" "customTrigger" (Plain);
   ROpt "customData" "customData" "customData" (Plain)].

(** TriggerMessageResponse: include/ocpp/v2/messages/TriggerMessage.hpp 41-49, lib/ocpp/v2/messages/TriggerMessage.cpp 64-76 and 78-89. *)
Definition v2_TriggerMessageResponse : ty := Struct
  [("status", false, Enm e_v2_trigger_message_status_enum);
   ("statusInfo", true, v2_StatusInfo);
   ("customData", true, Any)]
  [WReq "status" "status" (Conv e_v2_trigger_message_status_enum);
   WOpt "statusInfo" "statusInfo" "statusInfo" (Plain);
   WOpt "customData" "customData" "customData" (Plain)]
  [RReq "status" "status" (Conv e_v2_trigger_message_status_enum);
   ROpt "statusInfo" "statusInfo" "statusInfo" (Plain);
   ROpt "customData" "customData" "customData" (Plain)].

(** UnlockConnectorRequest: include/ocpp/v2/messages/UnlockConnector.hpp 19-27, lib/ocpp/v2/messages/UnlockConnector.cpp 20-30 and 32-41. *)
Definition v2_UnlockConnectorRequest : ty := Struct
  [("evseId", false, Int);
   ("connectorId", false, Int);
   ("customData", true, Any)]
  [WReq "evseId" "evseId" (Plain);
   WReq "connectorId" "connectorId" (Plain);
   WOpt "customData" "customData" "customData" (Plain)]
  [RReq "evseId" "evseId" (Plain);
   RReq "connectorId" "connectorId" (Plain);
   ROpt "customData" "customData" "customData" (Plain)].

(** UnlockConnectorResponse: include/ocpp/v2/messages/UnlockConnector.hpp 40-48, lib/ocpp/v2/messages/UnlockConnector.cpp 54-66 and 68-79. *)
Definition v2_UnlockConnectorResponse : ty := Struct
  [("status", false, Enm e_v2_unlock_status_enum);
   ("statusInfo", true, v2_StatusInfo);
   ("customData", true, Any)]
  [WReq "status" "status" (Conv e_v2_unlock_status_enum);
   WOpt "statusInfo" "statusInfo" "statusInfo" (Plain);
   WOpt "customData" "customData" "customData" (Plain)]
  [RReq "status" "status" (Conv e_v2_unlock_status_enum);
   ROpt "statusInfo" "statusInfo" "statusInfo" (Plain);
   ROpt "customData" "customData" "customData" (Plain)].

(** UnpublishFirmwareRequest: include/ocpp/v2/messages/UnpublishFirmware.hpp 19-26, lib/ocpp/v2/messages/UnpublishFirmware.cpp 20-29 and 31-39. *)
Definition v2_UnpublishFirmwareRequest : ty := Struct
  [("checksum", false, Str (Some 32));
   ("customData", true, Any)]
  [WReq "checksum" "checksum" (Plain);
   WOpt "customData" "customData" "customData" (Plain)]
  [RReq "checksum" "checksum" (Plain);
   ROpt "customData" "customData" "customData" (Plain)].

(** UnpublishFirmwareResponse: include/ocpp/v2/messages/UnpublishFirmware.hpp 39-46, lib/ocpp/v2/messages/UnpublishFirmware.cpp 52-61 and 63-71. *)
Definition v2_UnpublishFirmwareResponse : ty := Struct
  [("status", false, Enm e_v2_unpublish_firmware_status_enum);
   ("customData", true, Any)]
  [WReq "status" "status" (Conv e_v2_unpublish_firmware_status_enum);
   WOpt "customData" "customData" "customData" (Plain)]
  [RReq "status" "status" (Conv e_v2_unpublish_firmware_status_enum);
   ROpt "customData" "customData" "customData" (Plain)].

(** UpdateFirmwareRequest: include/ocpp/v2/messages/UpdateFirmware.hpp 19-29, lib/ocpp/v2/messages/UpdateFirmware.cpp 20-36 and 38-53. *)
Definition v2_UpdateFirmwareRequest : ty := Struct
  [("requestId", false, Int);
   ("firmware", false, v2_Firmware);
   ("retries", true, Int);
   ("retryInterval", true, Int);
   ("customData", true, Any)]
  [WReq "requestId" "requestId" (Plain);
   WReq "firmware" "firmware" (Plain);
   WOpt "retries" "retries" "retries" (Plain);
   WOpt "retryInterval" "retryInterval" "retryInterval" (Plain);
   WOpt "customData" "customData" "customData" (Plain)]
  [RReq "requestId" "requestId" (Plain);
   RReq "firmware" "firmware" (Plain);
   ROpt "retries" "retries" "retries" (Plain);
   ROpt "retryInterval" "retryInterval" "retryInterval" (Plain);
   ROpt "customData" "customData" "customData" (Plain)].

(** UpdateFirmwareResponse: include/ocpp/v2/messages/UpdateFirmware.hpp 42-50, lib/ocpp/v2/messages/UpdateFirmware.cpp 66-78 and 80-91. *)
Definition v2_UpdateFirmwareResponse : ty := Struct
  [("status", false, Enm e_v2_update_firmware_status_enum);
   ("statusInfo", true, v2_StatusInfo);
   ("customData", true, Any)]
  [WReq "status" "status" (Conv e_v2_update_firmware_status_enum);
   WOpt "statusInfo" "statusInfo" "statusInfo" (Plain);
   WOpt "customData" "customData" "customData" (Plain)]
  [RReq "status" "status" (Conv e_v2_update_firmware_status_enum);
   ROpt "statusInfo" "statusInfo" "statusInfo" (Plain);
   ROpt "customData" "customData" "customData" (Plain)].

(** Every struct with its name. *)
Definition all_types : list (string * ty) :=
  [("v16_IdTagInfo", v16_IdTagInfo);
   ("v16_CertificateHashDataType", v16_CertificateHashDataType);
   ("v16_ChargingSchedulePeriod", v16_ChargingSchedulePeriod);
   ("v16_ChargingSchedule", v16_ChargingSchedule);
   ("v16_KeyValue", v16_KeyValue);
   ("v16_LogParametersType", v16_LogParametersType);
   ("v16_SampledValue", v16_SampledValue);
   ("v16_MeterValue", v16_MeterValue);
   ("v16_ChargingProfile", v16_ChargingProfile);
   ("v16_LocalAuthorizationList", v16_LocalAuthorizationList);
   ("v16_FirmwareType", v16_FirmwareType);
   ("v16_TransactionData", v16_TransactionData);
   ("v16_AuthorizeRequest", v16_AuthorizeRequest);
   ("v16_AuthorizeResponse", v16_AuthorizeResponse);
   ("v16_BootNotificationRequest", v16_BootNotificationRequest);
   ("v16_BootNotificationResponse", v16_BootNotificationResponse);
   ("v16_CancelReservationRequest", v16_CancelReservationRequest);
   ("v16_CancelReservationResponse", v16_CancelReservationResponse);
   ("v16_CertificateSignedRequest", v16_CertificateSignedRequest);
   ("v16_CertificateSignedResponse", v16_CertificateSignedResponse);
   ("v16_ChangeAvailabilityRequest", v16_ChangeAvailabilityRequest);
   ("v16_ChangeAvailabilityResponse", v16_ChangeAvailabilityResponse);
   ("v16_ChangeConfigurationRequest", v16_ChangeConfigurationRequest);
   ("v16_ChangeConfigurationResponse", v16_ChangeConfigurationResponse);
   ("v16_ClearCacheRequest", v16_ClearCacheRequest);
   ("v16_ClearCacheResponse", v16_ClearCacheResponse);
   ("v16_ClearChargingProfileRequest", v16_ClearChargingProfileRequest);
   ("v16_ClearChargingProfileResponse", v16_ClearChargingProfileResponse);
   ("v16_DataTransferRequest", v16_DataTransferRequest);
   ("v16_DataTransferResponse", v16_DataTransferResponse);
   ("v16_DeleteCertificateRequest", v16_DeleteCertificateRequest);
   ("v16_DeleteCertificateResponse", v16_DeleteCertificateResponse);
   ("v16_DiagnosticsStatusNotificationRequest", v16_DiagnosticsStatusNotificationRequest);
   ("v16_DiagnosticsStatusNotificationResponse", v16_DiagnosticsStatusNotificationResponse);
   ("v16_ExtendedTriggerMessageRequest", v16_ExtendedTriggerMessageRequest);
   ("v16_ExtendedTriggerMessageResponse", v16_ExtendedTriggerMessageResponse);
   ("v16_FirmwareStatusNotificationRequest", v16_FirmwareStatusNotificationRequest);
   ("v16_FirmwareStatusNotificationResponse", v16_FirmwareStatusNotificationResponse);
   ("v16_GetCompositeScheduleRequest", v16_GetCompositeScheduleRequest);
   ("v16_GetCompositeScheduleResponse", v16_GetCompositeScheduleResponse);
   ("v16_GetConfigurationRequest", v16_GetConfigurationRequest);
   ("v16_GetConfigurationResponse", v16_GetConfigurationResponse);
   ("v16_GetDiagnosticsRequest", v16_GetDiagnosticsRequest);
   ("v16_GetDiagnosticsResponse", v16_GetDiagnosticsResponse);
   ("v16_GetInstalledCertificateIdsRequest", v16_GetInstalledCertificateIdsRequest);
   ("v16_GetInstalledCertificateIdsResponse", v16_GetInstalledCertificateIdsResponse);
   ("v16_GetLocalListVersionRequest", v16_GetLocalListVersionRequest);
   ("v16_GetLocalListVersionResponse", v16_GetLocalListVersionResponse);
   ("v16_GetLogRequest", v16_GetLogRequest);
   ("v16_GetLogResponse", v16_GetLogResponse);
   ("v16_HeartbeatRequest", v16_HeartbeatRequest);
   ("v16_HeartbeatResponse", v16_HeartbeatResponse);
   ("v16_InstallCertificateRequest", v16_InstallCertificateRequest);
   ("v16_InstallCertificateResponse", v16_InstallCertificateResponse);
   ("v16_LogStatusNotificationRequest", v16_LogStatusNotificationRequest);
   ("v16_LogStatusNotificationResponse", v16_LogStatusNotificationResponse);
   ("v16_MeterValuesRequest", v16_MeterValuesRequest);
   ("v16_MeterValuesResponse", v16_MeterValuesResponse);
   ("v16_RemoteStartTransactionRequest", v16_RemoteStartTransactionRequest);
   ("v16_RemoteStartTransactionResponse", v16_RemoteStartTransactionResponse);
   ("v16_RemoteStopTransactionRequest", v16_RemoteStopTransactionRequest);
   ("v16_RemoteStopTransactionResponse", v16_RemoteStopTransactionResponse);
   ("v16_ReserveNowRequest", v16_ReserveNowRequest);
   ("v16_ReserveNowResponse", v16_ReserveNowResponse);
   ("v16_ResetRequest", v16_ResetRequest);
   ("v16_ResetResponse", v16_ResetResponse);
   ("v16_SecurityEventNotificationRequest", v16_SecurityEventNotificationRequest);
   ("v16_SecurityEventNotificationResponse", v16_SecurityEventNotificationResponse);
   ("v16_SendLocalListRequest", v16_SendLocalListRequest);
   ("v16_SendLocalListResponse", v16_SendLocalListResponse);
   ("v16_SetChargingProfileRequest", v16_SetChargingProfileRequest);
   ("v16_SetChargingProfileResponse", v16_SetChargingProfileResponse);
   ("v16_SignCertificateRequest", v16_SignCertificateRequest);
   ("v16_SignCertificateResponse", v16_SignCertificateResponse);
   ("v16_SignedFirmwareStatusNotificationRequest", v16_SignedFirmwareStatusNotificationRequest);
   ("v16_SignedFirmwareStatusNotificationResponse", v16_SignedFirmwareStatusNotificationResponse);
   ("v16_SignedUpdateFirmwareRequest", v16_SignedUpdateFirmwareRequest);
   ("v16_SignedUpdateFirmwareResponse", v16_SignedUpdateFirmwareResponse);
   ("v16_StartTransactionRequest", v16_StartTransactionRequest);
   ("v16_StartTransactionResponse", v16_StartTransactionResponse);
   ("v16_StatusNotificationRequest", v16_StatusNotificationRequest);
   ("v16_StatusNotificationResponse", v16_StatusNotificationResponse);
   ("v16_StopTransactionRequest", v16_StopTransactionRequest);
   ("v16_StopTransactionResponse", v16_StopTransactionResponse);
   ("v16_TriggerMessageRequest", v16_TriggerMessageRequest);
   ("v16_TriggerMessageResponse", v16_TriggerMessageResponse);
   ("v16_UnlockConnectorRequest", v16_UnlockConnectorRequest);
   ("v16_UnlockConnectorResponse", v16_UnlockConnectorResponse);
   ("v16_UpdateFirmwareRequest", v16_UpdateFirmwareRequest);
   ("v16_UpdateFirmwareResponse", v16_UpdateFirmwareResponse);
   ("v2_StatusInfo", v2_StatusInfo);
   ("v2_PeriodicEventStreamParams", v2_PeriodicEventStreamParams);
   ("v2_AdditionalInfo", v2_AdditionalInfo);
   ("v2_IdToken", v2_IdToken);
   ("v2_OCSPRequestData", v2_OCSPRequestData);
   ("v2_MessageContent", v2_MessageContent);
   ("v2_IdTokenInfo", v2_IdTokenInfo);
   ("v2_TariffConditions", v2_TariffConditions);
   ("v2_TariffEnergyPrice", v2_TariffEnergyPrice);
   ("v2_TaxRate", v2_TaxRate);
   ("v2_TariffEnergy", v2_TariffEnergy);
   ("v2_TariffTimePrice", v2_TariffTimePrice);
   ("v2_TariffTime", v2_TariffTime);
   ("v2_TariffConditionsFixed", v2_TariffConditionsFixed);
   ("v2_TariffFixedPrice", v2_TariffFixedPrice);
   ("v2_TariffFixed", v2_TariffFixed);
   ("v2_Price", v2_Price);
   ("v2_Tariff", v2_Tariff);
   ("v2_BatteryData", v2_BatteryData);
   ("v2_Modem", v2_Modem);
   ("v2_ChargingStation", v2_ChargingStation);
   ("v2_EVSE", v2_EVSE);
   ("v2_ClearChargingProfile", v2_ClearChargingProfile);
   ("v2_ClearTariffsResult", v2_ClearTariffsResult);
   ("v2_ClearMonitoringResult", v2_ClearMonitoringResult);
   ("v2_CertificateHashDataType", v2_CertificateHashDataType);
   ("v2_CertificateStatusRequestInfo", v2_CertificateStatusRequestInfo);
   ("v2_CertificateStatus", v2_CertificateStatus);
   ("v2_ChargingProfileCriterion", v2_ChargingProfileCriterion);
   ("v2_V2XFreqWattPoint", v2_V2XFreqWattPoint);
   ("v2_V2XSignalWattPoint", v2_V2XSignalWattPoint);
   ("v2_ChargingSchedulePeriod", v2_ChargingSchedulePeriod);
   ("v2_CompositeSchedule", v2_CompositeSchedule);
   ("v2_CertificateHashDataChain", v2_CertificateHashDataChain);
   ("v2_LogParameters", v2_LogParameters);
   ("v2_Component", v2_Component);
   ("v2_Variable", v2_Variable);
   ("v2_ComponentVariable", v2_ComponentVariable);
   ("v2_ConstantStreamData", v2_ConstantStreamData);
   ("v2_TariffAssignment", v2_TariffAssignment);
   ("v2_GetVariableData", v2_GetVariableData);
   ("v2_GetVariableResult", v2_GetVariableResult);
   ("v2_SignedMeterValue", v2_SignedMeterValue);
   ("v2_UnitOfMeasure", v2_UnitOfMeasure);
   ("v2_SampledValue", v2_SampledValue);
   ("v2_MeterValue", v2_MeterValue);
   ("v2_LimitAtSoC", v2_LimitAtSoC);
   ("v2_RelativeTimeInterval", v2_RelativeTimeInterval);
   ("v2_Cost", v2_Cost);
   ("v2_ConsumptionCost", v2_ConsumptionCost);
   ("v2_SalesTariffEntry", v2_SalesTariffEntry);
   ("v2_SalesTariff", v2_SalesTariff);
   ("v2_RationalNumber", v2_RationalNumber);
   ("v2_PriceRule", v2_PriceRule);
   ("v2_PriceRuleStack", v2_PriceRuleStack);
   ("v2_TaxRule", v2_TaxRule);
   ("v2_OverstayRule", v2_OverstayRule);
   ("v2_OverstayRuleList", v2_OverstayRuleList);
   ("v2_AdditionalSelectedServices", v2_AdditionalSelectedServices);
   ("v2_AbsolutePriceSchedule", v2_AbsolutePriceSchedule);
   ("v2_PriceLevelScheduleEntry", v2_PriceLevelScheduleEntry);
   ("v2_PriceLevelSchedule", v2_PriceLevelSchedule);
   ("v2_ChargingSchedule", v2_ChargingSchedule);
   ("v2_ChargingLimit", v2_ChargingLimit);
   ("v2_MessageInfo", v2_MessageInfo);
   ("v2_ACChargingParameters", v2_ACChargingParameters);
   ("v2_DERChargingParameters", v2_DERChargingParameters);
   ("v2_EVPriceRule", v2_EVPriceRule);
   ("v2_EVAbsolutePriceScheduleEntry", v2_EVAbsolutePriceScheduleEntry);
   ("v2_EVAbsolutePriceSchedule", v2_EVAbsolutePriceSchedule);
   ("v2_EVPowerScheduleEntry", v2_EVPowerScheduleEntry);
   ("v2_EVPowerSchedule", v2_EVPowerSchedule);
   ("v2_EVEnergyOffer", v2_EVEnergyOffer);
   ("v2_DCChargingParameters", v2_DCChargingParameters);
   ("v2_V2XChargingParameters", v2_V2XChargingParameters);
   ("v2_ChargingNeeds", v2_ChargingNeeds);
   ("v2_EventData", v2_EventData);
   ("v2_VariableMonitoring", v2_VariableMonitoring);
   ("v2_MonitoringData", v2_MonitoringData);
   ("v2_StreamDataElement", v2_StreamDataElement);
   ("v2_NotifyPeriodicEventStream", v2_NotifyPeriodicEventStream);
   ("v2_VariableAttribute", v2_VariableAttribute);
   ("v2_VariableCharacteristics", v2_VariableCharacteristics);
   ("v2_ReportData", v2_ReportData);
   ("v2_Address", v2_Address);
   ("v2_ChargingScheduleUpdate", v2_ChargingScheduleUpdate);
   ("v2_ChargingProfile", v2_ChargingProfile);
   ("v2_DERCurvePoints", v2_DERCurvePoints);
   ("v2_Hysteresis", v2_Hysteresis);
   ("v2_ReactivePowerParams", v2_ReactivePowerParams);
   ("v2_VoltageParams", v2_VoltageParams);
   ("v2_DERCurve", v2_DERCurve);
   ("v2_DERCurveGet", v2_DERCurveGet);
   ("v2_EnterService", v2_EnterService);
   ("v2_EnterServiceGet", v2_EnterServiceGet);
   ("v2_FixedPF", v2_FixedPF);
   ("v2_FixedPFGet", v2_FixedPFGet);
   ("v2_FixedVar", v2_FixedVar);
   ("v2_FixedVarGet", v2_FixedVarGet);
   ("v2_FreqDroop", v2_FreqDroop);
   ("v2_FreqDroopGet", v2_FreqDroopGet);
   ("v2_Gradient", v2_Gradient);
   ("v2_GradientGet", v2_GradientGet);
   ("v2_LimitMaxDischarge", v2_LimitMaxDischarge);
   ("v2_LimitMaxDischargeGet", v2_LimitMaxDischargeGet);
   ("v2_AuthorizationData", v2_AuthorizationData);
   ("v2_APN", v2_APN);
   ("v2_VPN", v2_VPN);
   ("v2_NetworkConnectionProfile", v2_NetworkConnectionProfile);
   ("v2_SetMonitoringData", v2_SetMonitoringData);
   ("v2_SetMonitoringResult", v2_SetMonitoringResult);
   ("v2_SetVariableData", v2_SetVariableData);
   ("v2_SetVariableResult", v2_SetVariableResult);
   ("v2_CostDimension", v2_CostDimension);
   ("v2_ChargingPeriod", v2_ChargingPeriod);
   ("v2_TotalPrice", v2_TotalPrice);
   ("v2_TotalCost", v2_TotalCost);
   ("v2_TotalUsage", v2_TotalUsage);
   ("v2_CostDetails", v2_CostDetails);
   ("v2_TransactionLimit", v2_TransactionLimit);
   ("v2_Transaction", v2_Transaction);
   ("v2_Firmware", v2_Firmware);
   ("v2_AuthorizeRequest", v2_AuthorizeRequest);
   ("v2_AuthorizeResponse", v2_AuthorizeResponse);
   ("v2_BootNotificationRequest", v2_BootNotificationRequest);
   ("v2_BootNotificationResponse", v2_BootNotificationResponse);
   ("v2_CancelReservationRequest", v2_CancelReservationRequest);
   ("v2_CancelReservationResponse", v2_CancelReservationResponse);
   ("v2_CertificateSignedRequest", v2_CertificateSignedRequest);
   ("v2_CertificateSignedResponse", v2_CertificateSignedResponse);
   ("v2_ChangeAvailabilityRequest", v2_ChangeAvailabilityRequest);
   ("v2_ChangeAvailabilityResponse", v2_ChangeAvailabilityResponse);
   ("v2_ClearCacheRequest", v2_ClearCacheRequest);
   ("v2_ClearCacheResponse", v2_ClearCacheResponse);
   ("v2_ClearChargingProfileRequest", v2_ClearChargingProfileRequest);
   ("v2_ClearChargingProfileResponse", v2_ClearChargingProfileResponse);
   ("v2_ClearDisplayMessageRequest", v2_ClearDisplayMessageRequest);
   ("v2_ClearDisplayMessageResponse", v2_ClearDisplayMessageResponse);
   ("v2_ClearVariableMonitoringRequest", v2_ClearVariableMonitoringRequest);
   ("v2_ClearVariableMonitoringResponse", v2_ClearVariableMonitoringResponse);
   ("v2_ClearedChargingLimitRequest", v2_ClearedChargingLimitRequest);
   ("v2_ClearedChargingLimitResponse", v2_ClearedChargingLimitResponse);
   ("v2_CostUpdatedRequest", v2_CostUpdatedRequest);
   ("v2_CostUpdatedResponse", v2_CostUpdatedResponse);
   ("v2_CustomerInformationRequest", v2_CustomerInformationRequest);
   ("v2_CustomerInformationResponse", v2_CustomerInformationResponse);
   ("v2_DataTransferRequest", v2_DataTransferRequest);
   ("v2_DataTransferResponse", v2_DataTransferResponse);
   ("v2_DeleteCertificateRequest", v2_DeleteCertificateRequest);
   ("v2_DeleteCertificateResponse", v2_DeleteCertificateResponse);
   ("v2_FirmwareStatusNotificationRequest", v2_FirmwareStatusNotificationRequest);
   ("v2_FirmwareStatusNotificationResponse", v2_FirmwareStatusNotificationResponse);
   ("v2_Get15118EVCertificateRequest", v2_Get15118EVCertificateRequest);
   ("v2_Get15118EVCertificateResponse", v2_Get15118EVCertificateResponse);
   ("v2_GetBaseReportRequest", v2_GetBaseReportRequest);
   ("v2_GetBaseReportResponse", v2_GetBaseReportResponse);
   ("v2_GetCertificateStatusRequest", v2_GetCertificateStatusRequest);
   ("v2_GetCertificateStatusResponse", v2_GetCertificateStatusResponse);
   ("v2_GetChargingProfilesRequest", v2_GetChargingProfilesRequest);
   ("v2_GetChargingProfilesResponse", v2_GetChargingProfilesResponse);
   ("v2_GetCompositeScheduleRequest", v2_GetCompositeScheduleRequest);
   ("v2_GetCompositeScheduleResponse", v2_GetCompositeScheduleResponse);
   ("v2_GetDisplayMessagesRequest", v2_GetDisplayMessagesRequest);
   ("v2_GetDisplayMessagesResponse", v2_GetDisplayMessagesResponse);
   ("v2_GetInstalledCertificateIdsRequest", v2_GetInstalledCertificateIdsRequest);
   ("v2_GetInstalledCertificateIdsResponse", v2_GetInstalledCertificateIdsResponse);
   ("v2_GetLocalListVersionRequest", v2_GetLocalListVersionRequest);
   ("v2_GetLocalListVersionResponse", v2_GetLocalListVersionResponse);
   ("v2_GetLogRequest", v2_GetLogRequest);
   ("v2_GetLogResponse", v2_GetLogResponse);
   ("v2_GetMonitoringReportRequest", v2_GetMonitoringReportRequest);
   ("v2_GetMonitoringReportResponse", v2_GetMonitoringReportResponse);
   ("v2_GetReportRequest", v2_GetReportRequest);
   ("v2_GetReportResponse", v2_GetReportResponse);
   ("v2_GetTransactionStatusRequest", v2_GetTransactionStatusRequest);
   ("v2_GetTransactionStatusResponse", v2_GetTransactionStatusResponse);
   ("v2_GetVariablesRequest", v2_GetVariablesRequest);
   ("v2_GetVariablesResponse", v2_GetVariablesResponse);
   ("v2_HeartbeatRequest", v2_HeartbeatRequest);
   ("v2_HeartbeatResponse", v2_HeartbeatResponse);
   ("v2_InstallCertificateRequest", v2_InstallCertificateRequest);
   ("v2_InstallCertificateResponse", v2_InstallCertificateResponse);
   ("v2_LogStatusNotificationRequest", v2_LogStatusNotificationRequest);
   ("v2_LogStatusNotificationResponse", v2_LogStatusNotificationResponse);
   ("v2_MeterValuesRequest", v2_MeterValuesRequest);
   ("v2_MeterValuesResponse", v2_MeterValuesResponse);
   ("v2_NotifyChargingLimitRequest", v2_NotifyChargingLimitRequest);
   ("v2_NotifyChargingLimitResponse", v2_NotifyChargingLimitResponse);
   ("v2_NotifyCustomerInformationRequest", v2_NotifyCustomerInformationRequest);
   ("v2_NotifyCustomerInformationResponse", v2_NotifyCustomerInformationResponse);
   ("v2_NotifyDisplayMessagesRequest", v2_NotifyDisplayMessagesRequest);
   ("v2_NotifyDisplayMessagesResponse", v2_NotifyDisplayMessagesResponse);
   ("v2_NotifyEVChargingNeedsRequest", v2_NotifyEVChargingNeedsRequest);
   ("v2_NotifyEVChargingNeedsResponse", v2_NotifyEVChargingNeedsResponse);
   ("v2_NotifyEVChargingScheduleRequest", v2_NotifyEVChargingScheduleRequest);
   ("v2_NotifyEVChargingScheduleResponse", v2_NotifyEVChargingScheduleResponse);
   ("v2_NotifyEventRequest", v2_NotifyEventRequest);
   ("v2_NotifyEventResponse", v2_NotifyEventResponse);
   ("v2_NotifyMonitoringReportRequest", v2_NotifyMonitoringReportRequest);
   ("v2_NotifyMonitoringReportResponse", v2_NotifyMonitoringReportResponse);
   ("v2_NotifyReportRequest", v2_NotifyReportRequest);
   ("v2_NotifyReportResponse", v2_NotifyReportResponse);
   ("v2_PublishFirmwareRequest", v2_PublishFirmwareRequest);
   ("v2_PublishFirmwareResponse", v2_PublishFirmwareResponse);
   ("v2_PublishFirmwareStatusNotificationRequest", v2_PublishFirmwareStatusNotificationRequest);
   ("v2_PublishFirmwareStatusNotificationResponse", v2_PublishFirmwareStatusNotificationResponse);
   ("v2_ReportChargingProfilesRequest", v2_ReportChargingProfilesRequest);
   ("v2_ReportChargingProfilesResponse", v2_ReportChargingProfilesResponse);
   ("v2_RequestStartTransactionRequest", v2_RequestStartTransactionRequest);
   ("v2_RequestStartTransactionResponse", v2_RequestStartTransactionResponse);
   ("v2_RequestStopTransactionRequest", v2_RequestStopTransactionRequest);
   ("v2_RequestStopTransactionResponse", v2_RequestStopTransactionResponse);
   ("v2_ReservationStatusUpdateRequest", v2_ReservationStatusUpdateRequest);
   ("v2_ReservationStatusUpdateResponse", v2_ReservationStatusUpdateResponse);
   ("v2_ReserveNowRequest", v2_ReserveNowRequest);
   ("v2_ReserveNowResponse", v2_ReserveNowResponse);
   ("v2_ResetRequest", v2_ResetRequest);
   ("v2_ResetResponse", v2_ResetResponse);
   ("v2_SecurityEventNotificationRequest", v2_SecurityEventNotificationRequest);
   ("v2_SecurityEventNotificationResponse", v2_SecurityEventNotificationResponse);
   ("v2_SendLocalListRequest", v2_SendLocalListRequest);
   ("v2_SendLocalListResponse", v2_SendLocalListResponse);
   ("v2_SetChargingProfileRequest", v2_SetChargingProfileRequest);
   ("v2_SetChargingProfileResponse", v2_SetChargingProfileResponse);
   ("v2_SetDisplayMessageRequest", v2_SetDisplayMessageRequest);
   ("v2_SetDisplayMessageResponse", v2_SetDisplayMessageResponse);
   ("v2_SetMonitoringBaseRequest", v2_SetMonitoringBaseRequest);
   ("v2_SetMonitoringBaseResponse", v2_SetMonitoringBaseResponse);
   ("v2_SetMonitoringLevelRequest", v2_SetMonitoringLevelRequest);
   ("v2_SetMonitoringLevelResponse", v2_SetMonitoringLevelResponse);
   ("v2_SetNetworkProfileRequest", v2_SetNetworkProfileRequest);
   ("v2_SetNetworkProfileResponse", v2_SetNetworkProfileResponse);
   ("v2_SetVariableMonitoringRequest", v2_SetVariableMonitoringRequest);
   ("v2_SetVariableMonitoringResponse", v2_SetVariableMonitoringResponse);
   ("v2_SetVariablesRequest", v2_SetVariablesRequest);
   ("v2_SetVariablesResponse", v2_SetVariablesResponse);
   ("v2_SignCertificateRequest", v2_SignCertificateRequest);
   ("v2_SignCertificateResponse", v2_SignCertificateResponse);
   ("v2_StatusNotificationRequest", v2_StatusNotificationRequest);
   ("v2_StatusNotificationResponse", v2_StatusNotificationResponse);
   ("v2_TransactionEventRequest", v2_TransactionEventRequest);
   ("v2_TransactionEventResponse", v2_TransactionEventResponse);
   ("v2_TriggerMessageRequest", v2_TriggerMessageRequest);
   ("v2_TriggerMessageResponse", v2_TriggerMessageResponse);
   ("v2_UnlockConnectorRequest", v2_UnlockConnectorRequest);
   ("v2_UnlockConnectorResponse", v2_UnlockConnectorResponse);
   ("v2_UnpublishFirmwareRequest", v2_UnpublishFirmwareRequest);
   ("v2_UnpublishFirmwareResponse", v2_UnpublishFirmwareResponse);
   ("v2_UpdateFirmwareRequest", v2_UpdateFirmwareRequest);
   ("v2_UpdateFirmwareResponse", v2_UpdateFirmwareResponse)].

(** Messages: version, name of the struct, what get_type returns. *)
Definition all_messages : list (string * string * string * ty) :=
  [("v16", "AuthorizeRequest", "Authorize", v16_AuthorizeRequest);
   ("v16", "AuthorizeResponse", "AuthorizeResponse", v16_AuthorizeResponse);
   ("v16", "BootNotificationRequest", "BootNotification", v16_BootNotificationRequest);
   ("v16", "BootNotificationResponse", "BootNotificationResponse", v16_BootNotificationResponse);
   ("v16", "CancelReservationRequest", "CancelReservation", v16_CancelReservationRequest);
   ("v16", "CancelReservationResponse", "CancelReservationResponse", v16_CancelReservationResponse);
   ("v16", "CertificateSignedRequest", "CertificateSigned", v16_CertificateSignedRequest);
   ("v16", "CertificateSignedResponse", "CertificateSignedResponse", v16_CertificateSignedResponse);
   ("v16", "ChangeAvailabilityRequest", "ChangeAvailability", v16_ChangeAvailabilityRequest);
   ("v16", "ChangeAvailabilityResponse", "ChangeAvailabilityResponse", v16_ChangeAvailabilityResponse);
   ("v16", "ChangeConfigurationRequest", "ChangeConfiguration", v16_ChangeConfigurationRequest);
   ("v16", "ChangeConfigurationResponse", "ChangeConfigurationResponse", v16_ChangeConfigurationResponse);
   ("v16", "ClearCacheRequest", "ClearCache", v16_ClearCacheRequest);
   ("v16", "ClearCacheResponse", "ClearCacheResponse", v16_ClearCacheResponse);
   ("v16", "ClearChargingProfileRequest", "ClearChargingProfile", v16_ClearChargingProfileRequest);
   ("v16", "ClearChargingProfileResponse", "ClearChargingProfileResponse", v16_ClearChargingProfileResponse);
   ("v16", "DataTransferRequest", "DataTransfer", v16_DataTransferRequest);
   ("v16", "DataTransferResponse", "DataTransferResponse", v16_DataTransferResponse);
   ("v16", "DeleteCertificateRequest", "DeleteCertificate", v16_DeleteCertificateRequest);
   ("v16", "DeleteCertificateResponse", "DeleteCertificateResponse", v16_DeleteCertificateResponse);
   ("v16", "DiagnosticsStatusNotificationRequest", "DiagnosticsStatusNotification", v16_DiagnosticsStatusNotificationRequest);
   ("v16", "DiagnosticsStatusNotificationResponse", "DiagnosticsStatusNotificationResponse", v16_DiagnosticsStatusNotificationResponse);
   ("v16", "ExtendedTriggerMessageRequest", "ExtendedTriggerMessage", v16_ExtendedTriggerMessageRequest);
   ("v16", "ExtendedTriggerMessageResponse", "ExtendedTriggerMessageResponse", v16_ExtendedTriggerMessageResponse);
   ("v16", "FirmwareStatusNotificationRequest", "FirmwareStatusNotification", v16_FirmwareStatusNotificationRequest);
   ("v16", "FirmwareStatusNotificationResponse", "FirmwareStatusNotificationResponse", v16_FirmwareStatusNotificationResponse);
   ("v16", "GetCompositeScheduleRequest", "GetCompositeSchedule", v16_GetCompositeScheduleRequest);
   ("v16", "GetCompositeScheduleResponse", "GetCompositeScheduleResponse", v16_GetCompositeScheduleResponse);
   ("v16", "GetConfigurationRequest", "GetConfiguration", v16_GetConfigurationRequest);
   ("v16", "GetConfigurationResponse", "GetConfigurationResponse", v16_GetConfigurationResponse);
   ("v16", "GetDiagnosticsRequest", "GetDiagnostics", v16_GetDiagnosticsRequest);
   ("v16", "GetDiagnosticsResponse", "GetDiagnosticsResponse", v16_GetDiagnosticsResponse);
   ("v16", "GetInstalledCertificateIdsRequest", "GetInstalledCertificateIds", v16_GetInstalledCertificateIdsRequest);
   ("v16", "GetInstalledCertificateIdsResponse", "GetInstalledCertificateIdsResponse", v16_GetInstalledCertificateIdsResponse);
   ("v16", "GetLocalListVersionRequest", "GetLocalListVersion", v16_GetLocalListVersionRequest);
   ("v16", "GetLocalListVersionResponse", "GetLocalListVersionResponse", v16_GetLocalListVersionResponse);
   ("v16", "GetLogRequest", "GetLog", v16_GetLogRequest);
   ("v16", "GetLogResponse", "GetLogResponse", v16_GetLogResponse);
   ("v16", "HeartbeatRequest", "Heartbeat", v16_HeartbeatRequest);
   ("v16", "HeartbeatResponse", "HeartbeatResponse", v16_HeartbeatResponse);
   ("v16", "InstallCertificateRequest", "InstallCertificate", v16_InstallCertificateRequest);
   ("v16", "InstallCertificateResponse", "InstallCertificateResponse", v16_InstallCertificateResponse);
   ("v16", "LogStatusNotificationRequest", "LogStatusNotification", v16_LogStatusNotificationRequest);
   ("v16", "LogStatusNotificationResponse", "LogStatusNotificationResponse", v16_LogStatusNotificationResponse);
   ("v16", "MeterValuesRequest", "MeterValues", v16_MeterValuesRequest);
   ("v16", "MeterValuesResponse", "MeterValuesResponse", v16_MeterValuesResponse);
   ("v16", "RemoteStartTransactionRequest", "RemoteStartTransaction", v16_RemoteStartTransactionRequest);
   ("v16", "RemoteStartTransactionResponse", "RemoteStartTransactionResponse", v16_RemoteStartTransactionResponse);
   ("v16", "RemoteStopTransactionRequest", "RemoteStopTransaction", v16_RemoteStopTransactionRequest);
   ("v16", "RemoteStopTransactionResponse", "RemoteStopTransactionResponse", v16_RemoteStopTransactionResponse);
   ("v16", "ReserveNowRequest", "ReserveNow", v16_ReserveNowRequest);
   ("v16", "ReserveNowResponse", "ReserveNowResponse", v16_ReserveNowResponse);
   ("v16", "ResetRequest", "Reset", v16_ResetRequest);
   ("v16", "ResetResponse", "ResetResponse", v16_ResetResponse);
   ("v16", "SecurityEventNotificationRequest", "SecurityEventNotification", v16_SecurityEventNotificationRequest);
   ("v16", "SecurityEventNotificationResponse", "SecurityEventNotificationResponse", v16_SecurityEventNotificationResponse);
   ("v16", "SendLocalListRequest", "SendLocalList", v16_SendLocalListRequest);
   ("v16", "SendLocalListResponse", "SendLocalListResponse", v16_SendLocalListResponse);
   ("v16", "SetChargingProfileRequest", "SetChargingProfile", v16_SetChargingProfileRequest);
   ("v16", "SetChargingProfileResponse", "SetChargingProfileResponse", v16_SetChargingProfileResponse);
   ("v16", "SignCertificateRequest", "SignCertificate", v16_SignCertificateRequest);
   ("v16", "SignCertificateResponse", "SignCertificateResponse", v16_SignCertificateResponse);
   ("v16", "SignedFirmwareStatusNotificationRequest", "SignedFirmwareStatusNotification", v16_SignedFirmwareStatusNotificationRequest);
   ("v16", "SignedFirmwareStatusNotificationResponse", "SignedFirmwareStatusNotificationResponse", v16_SignedFirmwareStatusNotificationResponse);
   ("v16", "SignedUpdateFirmwareRequest", "SignedUpdateFirmware", v16_SignedUpdateFirmwareRequest);
   ("v16", "SignedUpdateFirmwareResponse", "SignedUpdateFirmwareResponse", v16_SignedUpdateFirmwareResponse);
   ("v16", "StartTransactionRequest", "StartTransaction", v16_StartTransactionRequest);
   ("v16", "StartTransactionResponse", "StartTransactionResponse", v16_StartTransactionResponse);
   ("v16", "StatusNotificationRequest", "StatusNotification", v16_StatusNotificationRequest);
   ("v16", "StatusNotificationResponse", "StatusNotificationResponse", v16_StatusNotificationResponse);
   ("v16", "StopTransactionRequest", "StopTransaction", v16_StopTransactionRequest);
   ("v16", "StopTransactionResponse", "StopTransactionResponse", v16_StopTransactionResponse);
   ("v16", "TriggerMessageRequest", "TriggerMessage", v16_TriggerMessageRequest);
   ("v16", "TriggerMessageResponse", "TriggerMessageResponse", v16_TriggerMessageResponse);
   ("v16", "UnlockConnectorRequest", "UnlockConnector", v16_UnlockConnectorRequest);
   ("v16", "UnlockConnectorResponse", "UnlockConnectorResponse", v16_UnlockConnectorResponse);
   ("v16", "UpdateFirmwareRequest", "UpdateFirmware", v16_UpdateFirmwareRequest);
   ("v16", "UpdateFirmwareResponse", "UpdateFirmwareResponse", v16_UpdateFirmwareResponse);
   ("v2", "AuthorizeRequest", "Authorize", v2_AuthorizeRequest);
   ("v2", "AuthorizeResponse", "AuthorizeResponse", v2_AuthorizeResponse);
   ("v2", "BootNotificationRequest", "BootNotification", v2_BootNotificationRequest);
   ("v2", "BootNotificationResponse", "BootNotificationResponse", v2_BootNotificationResponse);
   ("v2", "CancelReservationRequest", "CancelReservation", v2_CancelReservationRequest);
   ("v2", "CancelReservationResponse", "CancelReservationResponse", v2_CancelReservationResponse);
   ("v2", "CertificateSignedRequest", "CertificateSigned", v2_CertificateSignedRequest);
   ("v2", "CertificateSignedResponse", "CertificateSignedResponse", v2_CertificateSignedResponse);
   ("v2", "ChangeAvailabilityRequest", "ChangeAvailability", v2_ChangeAvailabilityRequest);
   ("v2", "ChangeAvailabilityResponse", "ChangeAvailabilityResponse", v2_ChangeAvailabilityResponse);
   ("v2", "ClearCacheRequest", "ClearCache", v2_ClearCacheRequest);
   ("v2", "ClearCacheResponse", "ClearCacheResponse", v2_ClearCacheResponse);
   ("v2", "ClearChargingProfileRequest", "ClearChargingProfile", v2_ClearChargingProfileRequest);
   ("v2", "ClearChargingProfileResponse", "ClearChargingProfileResponse", v2_ClearChargingProfileResponse);
   ("v2", "ClearDisplayMessageRequest", "ClearDisplayMessage", v2_ClearDisplayMessageRequest);
   ("v2", "ClearDisplayMessageResponse", "ClearDisplayMessageResponse", v2_ClearDisplayMessageResponse);
   ("v2", "ClearVariableMonitoringRequest", "ClearVariableMonitoring", v2_ClearVariableMonitoringRequest);
   ("v2", "ClearVariableMonitoringResponse", "ClearVariableMonitoringResponse", v2_ClearVariableMonitoringResponse);
   ("v2", "ClearedChargingLimitRequest", "ClearedChargingLimit", v2_ClearedChargingLimitRequest);
   ("v2", "ClearedChargingLimitResponse", "ClearedChargingLimitResponse", v2_ClearedChargingLimitResponse);
   ("v2", "CostUpdatedRequest", "CostUpdated", v2_CostUpdatedRequest);
   ("v2", "CostUpdatedResponse", "CostUpdatedResponse", v2_CostUpdatedResponse);
   ("v2", "CustomerInformationRequest", "CustomerInformation", v2_CustomerInformationRequest);
   ("v2", "CustomerInformationResponse", "CustomerInformationResponse", v2_CustomerInformationResponse);
   ("v2", "DataTransferRequest", "DataTransfer", v2_DataTransferRequest);
   ("v2", "DataTransferResponse", "DataTransferResponse", v2_DataTransferResponse);
   ("v2", "DeleteCertificateRequest", "DeleteCertificate", v2_DeleteCertificateRequest);
   ("v2", "DeleteCertificateResponse", "DeleteCertificateResponse", v2_DeleteCertificateResponse);
   ("v2", "FirmwareStatusNotificationRequest", "FirmwareStatusNotification", v2_FirmwareStatusNotificationRequest);
   ("v2", "FirmwareStatusNotificationResponse", "FirmwareStatusNotificationResponse", v2_FirmwareStatusNotificationResponse);
   ("v2", "Get15118EVCertificateRequest", "Get15118EVCertificate", v2_Get15118EVCertificateRequest);
   ("v2", "Get15118EVCertificateResponse", "Get15118EVCertificateResponse", v2_Get15118EVCertificateResponse);
   ("v2", "GetBaseReportRequest", "GetBaseReport", v2_GetBaseReportRequest);
   ("v2", "GetBaseReportResponse", "GetBaseReportResponse", v2_GetBaseReportResponse);
   ("v2", "GetCertificateStatusRequest", "GetCertificateStatus", v2_GetCertificateStatusRequest);
   ("v2", "GetCertificateStatusResponse", "GetCertificateStatusResponse", v2_GetCertificateStatusResponse);
   ("v2", "GetChargingProfilesRequest", "GetChargingProfiles", v2_GetChargingProfilesRequest);
   ("v2", "GetChargingProfilesResponse", "GetChargingProfilesResponse", v2_GetChargingProfilesResponse);
   ("v2", "GetCompositeScheduleRequest", "GetCompositeSchedule", v2_GetCompositeScheduleRequest);
   ("v2", "GetCompositeScheduleResponse", "GetCompositeScheduleResponse", v2_GetCompositeScheduleResponse);
   ("v2", "GetDisplayMessagesRequest", "GetDisplayMessages", v2_GetDisplayMessagesRequest);
   ("v2", "GetDisplayMessagesResponse", "GetDisplayMessagesResponse", v2_GetDisplayMessagesResponse);
   ("v2", "GetInstalledCertificateIdsRequest", "GetInstalledCertificateIds", v2_GetInstalledCertificateIdsRequest);
   ("v2", "GetInstalledCertificateIdsResponse", "GetInstalledCertificateIdsResponse", v2_GetInstalledCertificateIdsResponse);
   ("v2", "GetLocalListVersionRequest", "GetLocalListVersion", v2_GetLocalListVersionRequest);
   ("v2", "GetLocalListVersionResponse", "GetLocalListVersionResponse", v2_GetLocalListVersionResponse);
   ("v2", "GetLogRequest", "GetLog", v2_GetLogRequest);
   ("v2", "GetLogResponse", "GetLogResponse", v2_GetLogResponse);
   ("v2", "GetMonitoringReportRequest", "GetMonitoringReport", v2_GetMonitoringReportRequest);
   ("v2", "GetMonitoringReportResponse", "GetMonitoringReportResponse", v2_GetMonitoringReportResponse);
   ("v2", "GetReportRequest", "GetReport", v2_GetReportRequest);
   ("v2", "GetReportResponse", "GetReportResponse", v2_GetReportResponse);
   ("v2", "GetTransactionStatusRequest", "GetTransactionStatus", v2_GetTransactionStatusRequest);
   ("v2", "GetTransactionStatusResponse", "GetTransactionStatusResponse", v2_GetTransactionStatusResponse);
   ("v2", "GetVariablesRequest", "GetVariables", v2_GetVariablesRequest);
   ("v2", "GetVariablesResponse", "GetVariablesResponse", v2_GetVariablesResponse);
   ("v2", "HeartbeatRequest", "Heartbeat", v2_HeartbeatRequest);
   ("v2", "HeartbeatResponse", "HeartbeatResponse", v2_HeartbeatResponse);
   ("v2", "InstallCertificateRequest", "InstallCertificate", v2_InstallCertificateRequest);
   ("v2", "InstallCertificateResponse", "InstallCertificateResponse", v2_InstallCertificateResponse);
   ("v2", "LogStatusNotificationRequest", "LogStatusNotification", v2_LogStatusNotificationRequest);
   ("v2", "LogStatusNotificationResponse", "LogStatusNotificationResponse", v2_LogStatusNotificationResponse);
   ("v2", "MeterValuesRequest", "MeterValues", v2_MeterValuesRequest);
   ("v2", "MeterValuesResponse", "MeterValuesResponse", v2_MeterValuesResponse);
   ("v2", "NotifyChargingLimitRequest", "NotifyChargingLimit", v2_NotifyChargingLimitRequest);
   ("v2", "NotifyChargingLimitResponse", "NotifyChargingLimitResponse", v2_NotifyChargingLimitResponse);
   ("v2", "NotifyCustomerInformationRequest", "NotifyCustomerInformation", v2_NotifyCustomerInformationRequest);
   ("v2", "NotifyCustomerInformationResponse", "NotifyCustomerInformationResponse", v2_NotifyCustomerInformationResponse);
   ("v2", "NotifyDisplayMessagesRequest", "NotifyDisplayMessages", v2_NotifyDisplayMessagesRequest);
   ("v2", "NotifyDisplayMessagesResponse", "NotifyDisplayMessagesResponse", v2_NotifyDisplayMessagesResponse);
   ("v2", "NotifyEVChargingNeedsRequest", "NotifyEVChargingNeeds", v2_NotifyEVChargingNeedsRequest);
   ("v2", "NotifyEVChargingNeedsResponse", "NotifyEVChargingNeedsResponse", v2_NotifyEVChargingNeedsResponse);
   ("v2", "NotifyEVChargingScheduleRequest", "NotifyEVChargingSchedule", v2_NotifyEVChargingScheduleRequest);
   ("v2", "NotifyEVChargingScheduleResponse", "NotifyEVChargingScheduleResponse", v2_NotifyEVChargingScheduleResponse);
   ("v2", "NotifyEventRequest", "NotifyEvent", v2_NotifyEventRequest);
   ("v2", "NotifyEventResponse", "NotifyEventResponse", v2_NotifyEventResponse);
   ("v2", "NotifyMonitoringReportRequest", "NotifyMonitoringReport", v2_NotifyMonitoringReportRequest);
   ("v2", "NotifyMonitoringReportResponse", "NotifyMonitoringReportResponse", v2_NotifyMonitoringReportResponse);
   ("v2", "NotifyReportRequest", "NotifyReport", v2_NotifyReportRequest);
   ("v2", "NotifyReportResponse", "NotifyReportResponse", v2_NotifyReportResponse);
   ("v2", "PublishFirmwareRequest", "PublishFirmware", v2_PublishFirmwareRequest);
   ("v2", "PublishFirmwareResponse", "PublishFirmwareResponse", v2_PublishFirmwareResponse);
   ("v2", "PublishFirmwareStatusNotificationRequest", "PublishFirmwareStatusNotification", v2_PublishFirmwareStatusNotificationRequest);
   ("v2", "PublishFirmwareStatusNotificationResponse", "PublishFirmwareStatusNotificationResponse", v2_PublishFirmwareStatusNotificationResponse);
   ("v2", "ReportChargingProfilesRequest", "ReportChargingProfiles", v2_ReportChargingProfilesRequest);
   ("v2", "ReportChargingProfilesResponse", "ReportChargingProfilesResponse", v2_ReportChargingProfilesResponse);
   ("v2", "RequestStartTransactionRequest", "RequestStartTransaction", v2_RequestStartTransactionRequest);
   ("v2", "RequestStartTransactionResponse", "RequestStartTransactionResponse", v2_RequestStartTransactionResponse);
   ("v2", "RequestStopTransactionRequest", "RequestStopTransaction", v2_RequestStopTransactionRequest);
   ("v2", "RequestStopTransactionResponse", "RequestStopTransactionResponse", v2_RequestStopTransactionResponse);
   ("v2", "ReservationStatusUpdateRequest", "ReservationStatusUpdate", v2_ReservationStatusUpdateRequest);
   ("v2", "ReservationStatusUpdateResponse", "ReservationStatusUpdateResponse", v2_ReservationStatusUpdateResponse);
   ("v2", "ReserveNowRequest", "ReserveNow", v2_ReserveNowRequest);
   ("v2", "ReserveNowResponse", "ReserveNowResponse", v2_ReserveNowResponse);
   ("v2", "ResetRequest", "Reset", v2_ResetRequest);
   ("v2", "ResetResponse", "ResetResponse", v2_ResetResponse);
   ("v2", "SecurityEventNotificationRequest", "SecurityEventNotification", v2_SecurityEventNotificationRequest);
   ("v2", "SecurityEventNotificationResponse", "SecurityEventNotificationResponse", v2_SecurityEventNotificationResponse);
   ("v2", "SendLocalListRequest", "SendLocalList", v2_SendLocalListRequest);
   ("v2", "SendLocalListResponse", "SendLocalListResponse", v2_SendLocalListResponse);
   ("v2", "SetChargingProfileRequest", "SetChargingProfile", v2_SetChargingProfileRequest);
   ("v2", "SetChargingProfileResponse", "SetChargingProfileResponse", v2_SetChargingProfileResponse);
   ("v2", "SetDisplayMessageRequest", "SetDisplayMessage", v2_SetDisplayMessageRequest);
   ("v2", "SetDisplayMessageResponse", "SetDisplayMessageResponse", v2_SetDisplayMessageResponse);
   ("v2", "SetMonitoringBaseRequest", "SetMonitoringBase", v2_SetMonitoringBaseRequest);
   ("v2", "SetMonitoringBaseResponse", "SetMonitoringBaseResponse", v2_SetMonitoringBaseResponse);
   ("v2", "SetMonitoringLevelRequest", "SetMonitoringLevel", v2_SetMonitoringLevelRequest);
   ("v2", "SetMonitoringLevelResponse", "SetMonitoringLevelResponse", v2_SetMonitoringLevelResponse);
   ("v2", "SetNetworkProfileRequest", "SetNetworkProfile", v2_SetNetworkProfileRequest);
   ("v2", "SetNetworkProfileResponse", "SetNetworkProfileResponse", v2_SetNetworkProfileResponse);
   ("v2", "SetVariableMonitoringRequest", "SetVariableMonitoring", v2_SetVariableMonitoringRequest);
   ("v2", "SetVariableMonitoringResponse", "SetVariableMonitoringResponse", v2_SetVariableMonitoringResponse);
   ("v2", "SetVariablesRequest", "SetVariables", v2_SetVariablesRequest);
   ("v2", "SetVariablesResponse", "SetVariablesResponse", v2_SetVariablesResponse);
   ("v2", "SignCertificateRequest", "SignCertificate", v2_SignCertificateRequest);
   ("v2", "SignCertificateResponse", "SignCertificateResponse", v2_SignCertificateResponse);
   ("v2", "StatusNotificationRequest", "StatusNotification", v2_StatusNotificationRequest);
   ("v2", "StatusNotificationResponse", "StatusNotificationResponse", v2_StatusNotificationResponse);
   ("v2", "TransactionEventRequest", "TransactionEvent", v2_TransactionEventRequest);
   ("v2", "TransactionEventResponse", "TransactionEventResponse", v2_TransactionEventResponse);
   ("v2", "TriggerMessageRequest", "TriggerMessage", v2_TriggerMessageRequest);
   ("v2", "TriggerMessageResponse", "TriggerMessageResponse", v2_TriggerMessageResponse);
   ("v2", "UnlockConnectorRequest", "UnlockConnector", v2_UnlockConnectorRequest);
   ("v2", "UnlockConnectorResponse", "UnlockConnectorResponse", v2_UnlockConnectorResponse);
   ("v2", "UnpublishFirmwareRequest", "UnpublishFirmware", v2_UnpublishFirmwareRequest);
   ("v2", "UnpublishFirmwareResponse", "UnpublishFirmwareResponse", v2_UnpublishFirmwareResponse);
   ("v2", "UpdateFirmwareRequest", "UpdateFirmware", v2_UpdateFirmwareRequest);
   ("v2", "UpdateFirmwareResponse", "UpdateFirmwareResponse", v2_UpdateFirmwareResponse)].
