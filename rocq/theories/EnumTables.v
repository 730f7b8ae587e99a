(** Written by tools/gen_enums.py from the sources. Per enumeration: the enumerators of its declaration, the cases of
    the switch of ..._to_string and the comparisons of string_to_..., each in the order of the source. After the last case
    and the last comparison both throw. *)
From Coq Require Import String List.
From Verif Require Import EnumModel.
Import ListNotations.
Local Open Scope string_scope.

(** SessionStartedReason: include/ocpp/common/types.hpp 156-159, lib/ocpp/common/types.cpp 115-123 and 125-133. *)
Definition e_common_session_started_reason : enum := Enum "SessionStartedReason"
  ["EVConnected"; "Authorized"]
  [("Authorized", "Authorized"); ("EVConnected", "EVConnected")]
  [("Authorized", "Authorized"); ("EVConnected", "EVConnected")].

(** RunningCostState: include/ocpp/common/types.hpp 411-415, lib/ocpp/common/types.cpp 639-649 and 625-637. *)
Definition e_common_running_cost_state : enum := Enum "RunningCostState"
  ["Charging"; "Idle"; "Finished"]
  [("Charging", "Charging"); ("Idle", "Idle"); ("Finished", "Finished")]
  [("Charging", "Charging"); ("Idle", "Idle"); ("Finished", "Finished")].

(** CaCertificateType: include/ocpp/common/types.hpp 449-455, lib/ocpp/common/types.cpp 766-781 and 783-800. *)
Definition e_common_ca_certificate_type : enum := Enum "CaCertificateType"
  ["V2G"; "MO"; "CSMS"; "MF"; "OEM"]
  [("V2G", "V2G"); ("MO", "MO"); ("CSMS", "CSMS"); ("MF", "MF"); ("OEM", "OEM")]
  [("V2G", "V2G"); ("MO", "MO"); ("CSMS", "CSMS"); ("MF", "MF"); ("OEM", "OEM")].

(** CertificateValidationResult: include/ocpp/common/types.hpp 473-481, lib/ocpp/common/types.cpp 809-828 and 830-853. *)
Definition e_common_certificate_validation_result : enum := Enum "CertificateValidationResult"
  ["Valid"; "Expired"; "InvalidSignature"; "IssuerNotFound"; "InvalidLeafSignature"; "InvalidChain"; "Unknown"]
  [("Valid", "Valid"); ("Expired", "Expired"); ("InvalidSignature", "InvalidSignature"); ("IssuerNotFound", "IssuerNotFound"); ("InvalidLeafSignature", "InvalidLeafSignature"); ("InvalidChain", "InvalidChain"); ("Unknown", "Unknown")]
  [("Valid", "Valid"); ("Expired", "Expired"); ("InvalidSignature", "InvalidSignature"); ("IssuerNotFound", "IssuerNotFound"); ("InvalidLeafSignature", "InvalidLeafSignature"); ("InvalidChain", "InvalidChain"); ("Unknown", "Unknown")].

(** InstallCertificateResult: include/ocpp/common/types.hpp 498-508, lib/ocpp/common/types.cpp 862-885 and 887-916. *)
Definition e_common_install_certificate_result : enum := Enum "InstallCertificateResult"
  ["InvalidSignature"; "InvalidCertificateChain"; "InvalidFormat"; "InvalidCommonName"; "NoRootCertificateInstalled"; "Expired"; "CertificateStoreMaxLengthExceeded"; "WriteError"; "Accepted"]
  [("InvalidSignature", "InvalidSignature"); ("InvalidCertificateChain", "InvalidCertificateChain"); ("InvalidFormat", "InvalidFormat"); ("InvalidCommonName", "InvalidCommonName"); ("NoRootCertificateInstalled", "NoRootCertificateInstalled"); ("Expired", "Expired"); ("CertificateStoreMaxLengthExceeded", "CertificateStoreMaxLengthExceeded"); ("WriteError", "WriteError"); ("Accepted", "Accepted")]
  [("InvalidSignature", "InvalidSignature"); ("InvalidCertificateChain", "InvalidCertificateChain"); ("InvalidFormat", "InvalidFormat"); ("InvalidCommonName", "InvalidCommonName"); ("NoRootCertificateInstalled", "NoRootCertificateInstalled"); ("Expired", "Expired"); ("CertificateStoreMaxLengthExceeded", "CertificateStoreMaxLengthExceeded"); ("WriteError", "WriteError"); ("Accepted", "Accepted")].

(** DeleteCertificateResult: include/ocpp/common/types.hpp 525-529, lib/ocpp/common/types.cpp 925-936 and 938-950. *)
Definition e_common_delete_certificate_result : enum := Enum "DeleteCertificateResult"
  ["Accepted"; "Failed"; "NotFound"]
  [("Accepted", "Accepted"); ("Failed", "Failed"); ("NotFound", "NotFound")]
  [("Accepted", "Accepted"); ("Failed", "Failed"); ("NotFound", "NotFound")].

(** HashAlgorithmEnumType: include/ocpp/common/types.hpp 547-551, lib/ocpp/common/types.cpp 1030-1041 and 1043-1055. *)
Definition e_common_hash_algorithm_enum_type : enum := Enum "HashAlgorithmEnumType"
  ["SHA256"; "SHA384"; "SHA512"]
  [("SHA256", "SHA256"); ("SHA384", "SHA384"); ("SHA512", "SHA512")]
  [("SHA256", "SHA256"); ("SHA384", "SHA384"); ("SHA512", "SHA512")].

(** OcppProtocolVersion: include/ocpp/common/types.hpp 621-626, lib/ocpp/common/types.cpp 1064-1077 and 1079-1093. *)
Definition e_common_ocpp_protocol_version : enum := Enum "OcppProtocolVersion"
  ["v16"; "v201"; "v21"; "Unknown"]
  [("v16", "ocpp1.6"); ("v201", "ocpp2.0.1"); ("v21", "ocpp2.1"); ("Unknown", "unknown")]
  [("ocpp1.6", "v16"); ("ocpp2.0.1", "v201"); ("ocpp2.1", "v21"); ("unknown", "Unknown")].

(** CertificateSigningUseEnum: include/ocpp/common/types.hpp 643-648, lib/ocpp/common/types.cpp 1102-1115 and 1117-1132. *)
Definition e_common_certificate_signing_use_enum : enum := Enum "CertificateSigningUseEnum"
  ["ChargingStationCertificate"; "V2GCertificate"; "ManufacturerCertificate"; "V2G20Certificate"]
  [("ChargingStationCertificate", "ChargingStationCertificate"); ("V2GCertificate", "V2GCertificate"); ("ManufacturerCertificate", "ManufacturerCertificate"); ("V2G20Certificate", "V2G20Certificate")]
  [("ChargingStationCertificate", "ChargingStationCertificate"); ("V2GCertificate", "V2GCertificate"); ("ManufacturerCertificate", "ManufacturerCertificate"); ("V2G20Certificate", "V2G20Certificate")].

(** CertificateType: include/ocpp/common/types.hpp 583-590, lib/ocpp/common/types.cpp 1141-1158 and 1160-1181. *)
Definition e_common_certificate_type : enum := Enum "CertificateType"
  ["V2GRootCertificate"; "MORootCertificate"; "CSMSRootCertificate"; "V2GCertificateChain"; "MFRootCertificate"; "OEMRootCertificate"]
  [("V2GRootCertificate", "V2GRootCertificate"); ("MORootCertificate", "MORootCertificate"); ("CSMSRootCertificate", "CSMSRootCertificate"); ("V2GCertificateChain", "V2GCertificateChain"); ("MFRootCertificate", "MFRootCertificate"); ("OEMRootCertificate", "OEMRootCertificate")]
  [("V2GRootCertificate", "V2GRootCertificate"); ("MORootCertificate", "MORootCertificate"); ("CSMSRootCertificate", "CSMSRootCertificate"); ("V2GCertificateChain", "V2GCertificateChain"); ("MFRootCertificate", "MFRootCertificate"); ("OEMRootCertificate", "OEMRootCertificate")].

(** MessageType: include/ocpp/v16/types.hpp 23-103, lib/ocpp/v16/types.cpp 17-180 and 182-419. *)
Definition e_v16_messagetype : enum := Enum "MessageType"
  ["Authorize"; "AuthorizeResponse"; "BootNotification"; "BootNotificationResponse"; "CancelReservation"; "CancelReservationResponse"; "CertificateSigned"; "CertificateSignedResponse"; "ChangeAvailability"; "ChangeAvailabilityResponse"; "ChangeConfiguration"; "ChangeConfigurationResponse"; "ClearCache"; "ClearCacheResponse"; "ClearChargingProfile"; "ClearChargingProfileResponse"; "DataTransfer"; "DataTransferResponse"; "DeleteCertificate"; "DeleteCertificateResponse"; "DiagnosticsStatusNotification"; "DiagnosticsStatusNotificationResponse"; "ExtendedTriggerMessage"; "ExtendedTriggerMessageResponse"; "FirmwareStatusNotification"; "FirmwareStatusNotificationResponse"; "GetCompositeSchedule"; "GetCompositeScheduleResponse"; "GetConfiguration"; "GetConfigurationResponse"; "GetDiagnostics"; "GetDiagnosticsResponse"; "GetInstalledCertificateIds"; "GetInstalledCertificateIdsResponse"; "GetLocalListVersion"; "GetLocalListVersionResponse"; "GetLog"; "GetLogResponse"; "Heartbeat"; "HeartbeatResponse"; "InstallCertificate"; "InstallCertificateResponse"; "LogStatusNotification"; "LogStatusNotificationResponse"; "MeterValues"; "MeterValuesResponse"; "RemoteStartTransaction"; "RemoteStartTransactionResponse"; "RemoteStopTransaction"; "RemoteStopTransactionResponse"; "ReserveNow"; "ReserveNowResponse"; "Reset"; "ResetResponse"; "SecurityEventNotification"; "SecurityEventNotificationResponse"; "SendLocalList"; "SendLocalListResponse"; "SetChargingProfile"; "SetChargingProfileResponse"; "SignCertificate"; "SignCertificateResponse"; "SignedFirmwareStatusNotification"; "SignedFirmwareStatusNotificationResponse"; "SignedUpdateFirmware"; "SignedUpdateFirmwareResponse"; "StartTransaction"; "StartTransactionResponse"; "StatusNotification"; "StatusNotificationResponse"; "StopTransaction"; "StopTransactionResponse"; "TriggerMessage"; "TriggerMessageResponse"; "UnlockConnector"; "UnlockConnectorResponse"; "UpdateFirmware"; "UpdateFirmwareResponse"; "InternalError"]
  [("Authorize", "Authorize"); ("AuthorizeResponse", "AuthorizeResponse"); ("BootNotification", "BootNotification"); ("BootNotificationResponse", "BootNotificationResponse"); ("CancelReservation", "CancelReservation"); ("CancelReservationResponse", "CancelReservationResponse"); ("CertificateSigned", "CertificateSigned"); ("CertificateSignedResponse", "CertificateSignedResponse"); ("ChangeAvailability", "ChangeAvailability"); ("ChangeAvailabilityResponse", "ChangeAvailabilityResponse"); ("ChangeConfiguration", "ChangeConfiguration"); ("ChangeConfigurationResponse", "ChangeConfigurationResponse"); ("ClearCache", "ClearCache"); ("ClearCacheResponse", "ClearCacheResponse"); ("ClearChargingProfile", "ClearChargingProfile"); ("ClearChargingProfileResponse", "ClearChargingProfileResponse"); ("DataTransfer", "DataTransfer"); ("DataTransferResponse", "DataTransferResponse"); ("DeleteCertificate", "DeleteCertificate"); ("DeleteCertificateResponse", "DeleteCertificateResponse"); ("DiagnosticsStatusNotification", "DiagnosticsStatusNotification"); ("DiagnosticsStatusNotificationResponse", "DiagnosticsStatusNotificationResponse"); ("ExtendedTriggerMessage", "ExtendedTriggerMessage"); ("ExtendedTriggerMessageResponse", "ExtendedTriggerMessageResponse"); ("FirmwareStatusNotification", "FirmwareStatusNotification"); ("FirmwareStatusNotificationResponse", "FirmwareStatusNotificationResponse"); ("GetCompositeSchedule", "GetCompositeSchedule"); ("GetCompositeScheduleResponse", "GetCompositeScheduleResponse"); ("GetConfiguration", "GetConfiguration"); ("GetConfigurationResponse", "GetConfigurationResponse"); ("GetDiagnostics", "GetDiagnostics"); ("GetDiagnosticsResponse", "GetDiagnosticsResponse"); ("GetInstalledCertificateIds", "GetInstalledCertificateIds"); ("GetInstalledCertificateIdsResponse", "GetInstalledCertificateIdsResponse"); ("GetLocalListVersion", "GetLocalListVersion"); ("GetLocalListVersionResponse", "GetLocalListVersionResponse"); ("GetLog", "GetLog"); ("GetLogResponse", "GetLogResponse"); ("Heartbeat", "Heartbeat"); ("HeartbeatResponse", "HeartbeatResponse"); ("InstallCertificate", "InstallCertificate"); ("InstallCertificateResponse", "InstallCertificateResponse"); ("LogStatusNotification", "LogStatusNotification"); ("LogStatusNotificationResponse", "LogStatusNotificationResponse"); ("MeterValues", "MeterValues"); ("MeterValuesResponse", "MeterValuesResponse"); ("RemoteStartTransaction", "RemoteStartTransaction"); ("RemoteStartTransactionResponse", "RemoteStartTransactionResponse"); ("RemoteStopTransaction", "RemoteStopTransaction"); ("RemoteStopTransactionResponse", "RemoteStopTransactionResponse"); ("ReserveNow", "ReserveNow"); ("ReserveNowResponse", "ReserveNowResponse"); ("Reset", "Reset"); ("ResetResponse", "ResetResponse"); ("SecurityEventNotification", "SecurityEventNotification"); ("SecurityEventNotificationResponse", "SecurityEventNotificationResponse"); ("SendLocalList", "SendLocalList"); ("SendLocalListResponse", "SendLocalListResponse"); ("SetChargingProfile", "SetChargingProfile"); ("SetChargingProfileResponse", "SetChargingProfileResponse"); ("SignCertificate", "SignCertificate"); ("SignCertificateResponse", "SignCertificateResponse"); ("SignedFirmwareStatusNotification", "SignedFirmwareStatusNotification"); ("SignedFirmwareStatusNotificationResponse", "SignedFirmwareStatusNotificationResponse"); ("SignedUpdateFirmware", "SignedUpdateFirmware"); ("SignedUpdateFirmwareResponse", "SignedUpdateFirmwareResponse"); ("StartTransaction", "StartTransaction"); ("StartTransactionResponse", "StartTransactionResponse"); ("StatusNotification", "StatusNotification"); ("StatusNotificationResponse", "StatusNotificationResponse"); ("StopTransaction", "StopTransaction"); ("StopTransactionResponse", "StopTransactionResponse"); ("TriggerMessage", "TriggerMessage"); ("TriggerMessageResponse", "TriggerMessageResponse"); ("UnlockConnector", "UnlockConnector"); ("UnlockConnectorResponse", "UnlockConnectorResponse"); ("UpdateFirmware", "UpdateFirmware"); ("UpdateFirmwareResponse", "UpdateFirmwareResponse"); ("InternalError", "InternalError")]
  [("Authorize", "Authorize"); ("AuthorizeResponse", "AuthorizeResponse"); ("BootNotification", "BootNotification"); ("BootNotificationResponse", "BootNotificationResponse"); ("CancelReservation", "CancelReservation"); ("CancelReservationResponse", "CancelReservationResponse"); ("CertificateSigned", "CertificateSigned"); ("CertificateSignedResponse", "CertificateSignedResponse"); ("ChangeAvailability", "ChangeAvailability"); ("ChangeAvailabilityResponse", "ChangeAvailabilityResponse"); ("ChangeConfiguration", "ChangeConfiguration"); ("ChangeConfigurationResponse", "ChangeConfigurationResponse"); ("ClearCache", "ClearCache"); ("ClearCacheResponse", "ClearCacheResponse"); ("ClearChargingProfile", "ClearChargingProfile"); ("ClearChargingProfileResponse", "ClearChargingProfileResponse"); ("DataTransfer", "DataTransfer"); ("DataTransferResponse", "DataTransferResponse"); ("DeleteCertificate", "DeleteCertificate"); ("DeleteCertificateResponse", "DeleteCertificateResponse"); ("DiagnosticsStatusNotification", "DiagnosticsStatusNotification"); ("DiagnosticsStatusNotificationResponse", "DiagnosticsStatusNotificationResponse"); ("ExtendedTriggerMessage", "ExtendedTriggerMessage"); ("ExtendedTriggerMessageResponse", "ExtendedTriggerMessageResponse"); ("FirmwareStatusNotification", "FirmwareStatusNotification"); ("FirmwareStatusNotificationResponse", "FirmwareStatusNotificationResponse"); ("GetCompositeSchedule", "GetCompositeSchedule"); ("GetCompositeScheduleResponse", "GetCompositeScheduleResponse"); ("GetConfiguration", "GetConfiguration"); ("GetConfigurationResponse", "GetConfigurationResponse"); ("GetDiagnostics", "GetDiagnostics"); ("GetDiagnosticsResponse", "GetDiagnosticsResponse"); ("GetInstalledCertificateIds", "GetInstalledCertificateIds"); ("GetInstalledCertificateIdsResponse", "GetInstalledCertificateIdsResponse"); ("GetLocalListVersion", "GetLocalListVersion"); ("GetLocalListVersionResponse", "GetLocalListVersionResponse"); ("GetLog", "GetLog"); ("GetLogResponse", "GetLogResponse"); ("Heartbeat", "Heartbeat"); ("HeartbeatResponse", "HeartbeatResponse"); ("InstallCertificate", "InstallCertificate"); ("InstallCertificateResponse", "InstallCertificateResponse"); ("LogStatusNotification", "LogStatusNotification"); ("LogStatusNotificationResponse", "LogStatusNotificationResponse"); ("MeterValues", "MeterValues"); ("MeterValuesResponse", "MeterValuesResponse"); ("RemoteStartTransaction", "RemoteStartTransaction"); ("RemoteStartTransactionResponse", "RemoteStartTransactionResponse"); ("RemoteStopTransaction", "RemoteStopTransaction"); ("RemoteStopTransactionResponse", "RemoteStopTransactionResponse"); ("ReserveNow", "ReserveNow"); ("ReserveNowResponse", "ReserveNowResponse"); ("Reset", "Reset"); ("ResetResponse", "ResetResponse"); ("SecurityEventNotification", "SecurityEventNotification"); ("SecurityEventNotificationResponse", "SecurityEventNotificationResponse"); ("SendLocalList", "SendLocalList"); ("SendLocalListResponse", "SendLocalListResponse"); ("SetChargingProfile", "SetChargingProfile"); ("SetChargingProfileResponse", "SetChargingProfileResponse"); ("SignCertificate", "SignCertificate"); ("SignCertificateResponse", "SignCertificateResponse"); ("SignedFirmwareStatusNotification", "SignedFirmwareStatusNotification"); ("SignedFirmwareStatusNotificationResponse", "SignedFirmwareStatusNotificationResponse"); ("SignedUpdateFirmware", "SignedUpdateFirmware"); ("SignedUpdateFirmwareResponse", "SignedUpdateFirmwareResponse"); ("StartTransaction", "StartTransaction"); ("StartTransactionResponse", "StartTransactionResponse"); ("StatusNotification", "StatusNotification"); ("StatusNotificationResponse", "StatusNotificationResponse"); ("StopTransaction", "StopTransaction"); ("StopTransactionResponse", "StopTransactionResponse"); ("TriggerMessage", "TriggerMessage"); ("TriggerMessageResponse", "TriggerMessageResponse"); ("UnlockConnector", "UnlockConnector"); ("UnlockConnectorResponse", "UnlockConnectorResponse"); ("UpdateFirmware", "UpdateFirmware"); ("UpdateFirmwareResponse", "UpdateFirmwareResponse")].

(** SupportedFeatureProfiles: include/ocpp/v16/types.hpp 120-132, lib/ocpp/v16/types.cpp 431-458 and 462-498. *)
Definition e_v16_supported_feature_profiles : enum := Enum "SupportedFeatureProfiles"
  ["Internal"; "Core"; "CostAndPrice"; "FirmwareManagement"; "LocalAuthListManagement"; "Reservation"; "SmartCharging"; "RemoteTrigger"; "Security"; "PnC"; "Custom"]
  [("Internal", "Internal"); ("Core", "Core"); ("FirmwareManagement", "FirmwareManagement"); ("LocalAuthListManagement", "LocalAuthListManagement"); ("Reservation", "Reservation"); ("SmartCharging", "SmartCharging"); ("RemoteTrigger", "RemoteTrigger"); ("Security", "Security"); ("PnC", "PnC"); ("CostAndPrice", "CostAndPrice"); ("Custom", "Custom")]
  [("Internal", "Internal"); ("Core", "Core"); ("FirmwareManagement", "FirmwareManagement"); ("LocalAuthListManagement", "LocalAuthListManagement"); ("Reservation", "Reservation"); ("SmartCharging", "SmartCharging"); ("RemoteTrigger", "RemoteTrigger"); ("Security", "Security"); ("PnC", "PnC"); ("CostAndPrice", "CostAndPrice"); ("Custom", "Custom")].

(** ChargePointConnectionState: include/ocpp/v16/types.hpp 148-154, lib/ocpp/v16/types.cpp 510-525 and 527-545. *)
Definition e_v16_charge_point_connection_state : enum := Enum "ChargePointConnectionState"
  ["Disconnected"; "Connected"; "Booted"; "Pending"; "Rejected"]
  [("Disconnected", "Disconnected"); ("Connected", "Connected"); ("Booted", "Booted"); ("Pending", "Pending"); ("Rejected", "Rejected")]
  [("Disconnected", "Disconnected"); ("Connected", "Connected"); ("Booted", "Booted"); ("Pending", "Pending"); ("Rejected", "Rejected")].

(** AuthorizationStatus: include/ocpp/v16/ocpp_enums.hpp 15-21, lib/ocpp/v16/ocpp_enums.cpp 16-31 and 33-51. *)
Definition e_v16_authorization_status : enum := Enum "AuthorizationStatus"
  ["Accepted"; "Blocked"; "Expired"; "Invalid"; "ConcurrentTx"]
  [("Accepted", "Accepted"); ("Blocked", "Blocked"); ("Expired", "Expired"); ("Invalid", "Invalid"); ("ConcurrentTx", "ConcurrentTx")]
  [("Accepted", "Accepted"); ("Blocked", "Blocked"); ("Expired", "Expired"); ("Invalid", "Invalid"); ("ConcurrentTx", "ConcurrentTx")].

(** RegistrationStatus: include/ocpp/v16/ocpp_enums.hpp 39-43, lib/ocpp/v16/ocpp_enums.cpp 61-72 and 74-86. *)
Definition e_v16_registration_status : enum := Enum "RegistrationStatus"
  ["Accepted"; "Pending"; "Rejected"]
  [("Accepted", "Accepted"); ("Pending", "Pending"); ("Rejected", "Rejected")]
  [("Accepted", "Accepted"); ("Pending", "Pending"); ("Rejected", "Rejected")].

(** CancelReservationStatus: include/ocpp/v16/ocpp_enums.hpp 61-64, lib/ocpp/v16/ocpp_enums.cpp 96-105 and 107-116. *)
Definition e_v16_cancel_reservation_status : enum := Enum "CancelReservationStatus"
  ["Accepted"; "Rejected"]
  [("Accepted", "Accepted"); ("Rejected", "Rejected")]
  [("Accepted", "Accepted"); ("Rejected", "Rejected")].

(** CertificateSignedStatusEnumType: include/ocpp/v16/ocpp_enums.hpp 82-85, lib/ocpp/v16/ocpp_enums.cpp 126-135 and 137-146. *)
Definition e_v16_certificate_signed_status_enum_type : enum := Enum "CertificateSignedStatusEnumType"
  ["Accepted"; "Rejected"]
  [("Accepted", "Accepted"); ("Rejected", "Rejected")]
  [("Accepted", "Accepted"); ("Rejected", "Rejected")].

(** AvailabilityType: include/ocpp/v16/ocpp_enums.hpp 103-106, lib/ocpp/v16/ocpp_enums.cpp 156-165 and 167-176. *)
Definition e_v16_availability_type : enum := Enum "AvailabilityType"
  ["Inoperative"; "Operative"]
  [("Inoperative", "Inoperative"); ("Operative", "Operative")]
  [("Inoperative", "Inoperative"); ("Operative", "Operative")].

(** AvailabilityStatus: include/ocpp/v16/ocpp_enums.hpp 124-128, lib/ocpp/v16/ocpp_enums.cpp 186-197 and 199-211. *)
Definition e_v16_availability_status : enum := Enum "AvailabilityStatus"
  ["Accepted"; "Rejected"; "Scheduled"]
  [("Accepted", "Accepted"); ("Rejected", "Rejected"); ("Scheduled", "Scheduled")]
  [("Accepted", "Accepted"); ("Rejected", "Rejected"); ("Scheduled", "Scheduled")].

(** ConfigurationStatus: include/ocpp/v16/ocpp_enums.hpp 146-151, lib/ocpp/v16/ocpp_enums.cpp 221-234 and 236-251. *)
Definition e_v16_configuration_status : enum := Enum "ConfigurationStatus"
  ["Accepted"; "Rejected"; "RebootRequired"; "NotSupported"]
  [("Accepted", "Accepted"); ("Rejected", "Rejected"); ("RebootRequired", "RebootRequired"); ("NotSupported", "NotSupported")]
  [("Accepted", "Accepted"); ("Rejected", "Rejected"); ("RebootRequired", "RebootRequired"); ("NotSupported", "NotSupported")].

(** ClearCacheStatus: include/ocpp/v16/ocpp_enums.hpp 169-172, lib/ocpp/v16/ocpp_enums.cpp 261-270 and 272-281. *)
Definition e_v16_clear_cache_status : enum := Enum "ClearCacheStatus"
  ["Accepted"; "Rejected"]
  [("Accepted", "Accepted"); ("Rejected", "Rejected")]
  [("Accepted", "Accepted"); ("Rejected", "Rejected")].

(** ChargingProfilePurposeType: include/ocpp/v16/ocpp_enums.hpp 190-194, lib/ocpp/v16/ocpp_enums.cpp 291-302 and 304-316. *)
Definition e_v16_charging_profile_purpose_type : enum := Enum "ChargingProfilePurposeType"
  ["ChargePointMaxProfile"; "TxDefaultProfile"; "TxProfile"]
  [("ChargePointMaxProfile", "ChargePointMaxProfile"); ("TxDefaultProfile", "TxDefaultProfile"); ("TxProfile", "TxProfile")]
  [("ChargePointMaxProfile", "ChargePointMaxProfile"); ("TxDefaultProfile", "TxDefaultProfile"); ("TxProfile", "TxProfile")].

(** ClearChargingProfileStatus: include/ocpp/v16/ocpp_enums.hpp 212-215, lib/ocpp/v16/ocpp_enums.cpp 326-335 and 337-346. *)
Definition e_v16_clear_charging_profile_status : enum := Enum "ClearChargingProfileStatus"
  ["Accepted"; "Unknown"]
  [("Accepted", "Accepted"); ("Unknown", "Unknown")]
  [("Accepted", "Accepted"); ("Unknown", "Unknown")].

(** DataTransferStatus: include/ocpp/v16/ocpp_enums.hpp 233-238, lib/ocpp/v16/ocpp_enums.cpp 356-369 and 371-386. *)
Definition e_v16_data_transfer_status : enum := Enum "DataTransferStatus"
  ["Accepted"; "Rejected"; "UnknownMessageId"; "UnknownVendorId"]
  [("Accepted", "Accepted"); ("Rejected", "Rejected"); ("UnknownMessageId", "UnknownMessageId"); ("UnknownVendorId", "UnknownVendorId")]
  [("Accepted", "Accepted"); ("Rejected", "Rejected"); ("UnknownMessageId", "UnknownMessageId"); ("UnknownVendorId", "UnknownVendorId")].

(** HashAlgorithmEnumType: include/ocpp/v16/ocpp_enums.hpp 256-260, lib/ocpp/v16/ocpp_enums.cpp 396-407 and 409-421. *)
Definition e_v16_hash_algorithm_enum_type : enum := Enum "HashAlgorithmEnumType"
  ["SHA256"; "SHA384"; "SHA512"]
  [("SHA256", "SHA256"); ("SHA384", "SHA384"); ("SHA512", "SHA512")]
  [("SHA256", "SHA256"); ("SHA384", "SHA384"); ("SHA512", "SHA512")].

(** DeleteCertificateStatusEnumType: include/ocpp/v16/ocpp_enums.hpp 278-282, lib/ocpp/v16/ocpp_enums.cpp 431-442 and 444-456. *)
Definition e_v16_delete_certificate_status_enum_type : enum := Enum "DeleteCertificateStatusEnumType"
  ["Accepted"; "Failed"; "NotFound"]
  [("Accepted", "Accepted"); ("Failed", "Failed"); ("NotFound", "NotFound")]
  [("Accepted", "Accepted"); ("Failed", "Failed"); ("NotFound", "NotFound")].

(** DiagnosticsStatus: include/ocpp/v16/ocpp_enums.hpp 300-305, lib/ocpp/v16/ocpp_enums.cpp 466-479 and 481-496. *)
Definition e_v16_diagnostics_status : enum := Enum "DiagnosticsStatus"
  ["Idle"; "Uploaded"; "UploadFailed"; "Uploading"]
  [("Idle", "Idle"); ("Uploaded", "Uploaded"); ("UploadFailed", "UploadFailed"); ("Uploading", "Uploading")]
  [("Idle", "Idle"); ("Uploaded", "Uploaded"); ("UploadFailed", "UploadFailed"); ("Uploading", "Uploading")].

(** MessageTriggerEnumType: include/ocpp/v16/ocpp_enums.hpp 323-331, lib/ocpp/v16/ocpp_enums.cpp 506-525 and 527-551. *)
Definition e_v16_message_trigger_enum_type : enum := Enum "MessageTriggerEnumType"
  ["BootNotification"; "LogStatusNotification"; "FirmwareStatusNotification"; "Heartbeat"; "MeterValues"; "SignChargePointCertificate"; "StatusNotification"]
  [("BootNotification", "BootNotification"); ("LogStatusNotification", "LogStatusNotification"); ("FirmwareStatusNotification", "FirmwareStatusNotification"); ("Heartbeat", "Heartbeat"); ("MeterValues", "MeterValues"); ("SignChargePointCertificate", "SignChargePointCertificate"); ("StatusNotification", "StatusNotification")]
  [("BootNotification", "BootNotification"); ("LogStatusNotification", "LogStatusNotification"); ("FirmwareStatusNotification", "FirmwareStatusNotification"); ("Heartbeat", "Heartbeat"); ("MeterValues", "MeterValues"); ("SignChargePointCertificate", "SignChargePointCertificate"); ("StatusNotification", "StatusNotification")].

(** TriggerMessageStatusEnumType: include/ocpp/v16/ocpp_enums.hpp 349-353, lib/ocpp/v16/ocpp_enums.cpp 561-572 and 574-586. *)
Definition e_v16_trigger_message_status_enum_type : enum := Enum "TriggerMessageStatusEnumType"
  ["Accepted"; "Rejected"; "NotImplemented"]
  [("Accepted", "Accepted"); ("Rejected", "Rejected"); ("NotImplemented", "NotImplemented")]
  [("Accepted", "Accepted"); ("Rejected", "Rejected"); ("NotImplemented", "NotImplemented")].

(** FirmwareStatus: include/ocpp/v16/ocpp_enums.hpp 371-379, lib/ocpp/v16/ocpp_enums.cpp 596-615 and 617-641. *)
Definition e_v16_firmware_status : enum := Enum "FirmwareStatus"
  ["Downloaded"; "DownloadFailed"; "Downloading"; "Idle"; "InstallationFailed"; "Installing"; "Installed"]
  [("Downloaded", "Downloaded"); ("DownloadFailed", "DownloadFailed"); ("Downloading", "Downloading"); ("Idle", "Idle"); ("InstallationFailed", "InstallationFailed"); ("Installing", "Installing"); ("Installed", "Installed")]
  [("Downloaded", "Downloaded"); ("DownloadFailed", "DownloadFailed"); ("Downloading", "Downloading"); ("Idle", "Idle"); ("InstallationFailed", "InstallationFailed"); ("Installing", "Installing"); ("Installed", "Installed")].

(** ChargingRateUnit: include/ocpp/v16/ocpp_enums.hpp 397-400, lib/ocpp/v16/ocpp_enums.cpp 651-660 and 662-671. *)
Definition e_v16_charging_rate_unit : enum := Enum "ChargingRateUnit"
  ["A"; "W"]
  [("A", "A"); ("W", "W")]
  [("A", "A"); ("W", "W")].

(** GetCompositeScheduleStatus: include/ocpp/v16/ocpp_enums.hpp 418-421, lib/ocpp/v16/ocpp_enums.cpp 681-690 and 692-701. *)
Definition e_v16_get_composite_schedule_status : enum := Enum "GetCompositeScheduleStatus"
  ["Accepted"; "Rejected"]
  [("Accepted", "Accepted"); ("Rejected", "Rejected")]
  [("Accepted", "Accepted"); ("Rejected", "Rejected")].

(** CertificateUseEnumType: include/ocpp/v16/ocpp_enums.hpp 439-442, lib/ocpp/v16/ocpp_enums.cpp 711-720 and 722-731. *)
Definition e_v16_certificate_use_enum_type : enum := Enum "CertificateUseEnumType"
  ["CentralSystemRootCertificate"; "ManufacturerRootCertificate"]
  [("CentralSystemRootCertificate", "CentralSystemRootCertificate"); ("ManufacturerRootCertificate", "ManufacturerRootCertificate")]
  [("CentralSystemRootCertificate", "CentralSystemRootCertificate"); ("ManufacturerRootCertificate", "ManufacturerRootCertificate")].

(** GetInstalledCertificateStatusEnumType: include/ocpp/v16/ocpp_enums.hpp 460-463, lib/ocpp/v16/ocpp_enums.cpp 741-750 and 752-761. *)
Definition e_v16_get_installed_certificate_status_enum_type : enum := Enum "GetInstalledCertificateStatusEnumType"
  ["Accepted"; "NotFound"]
  [("Accepted", "Accepted"); ("NotFound", "NotFound")]
  [("Accepted", "Accepted"); ("NotFound", "NotFound")].

(** LogEnumType: include/ocpp/v16/ocpp_enums.hpp 482-485, lib/ocpp/v16/ocpp_enums.cpp 772-781 and 783-792. *)
Definition e_v16_log_enum_type : enum := Enum "LogEnumType"
  ["DiagnosticsLog"; "SecurityLog"]
  [("DiagnosticsLog", "DiagnosticsLog"); ("SecurityLog", "SecurityLog")]
  [("DiagnosticsLog", "DiagnosticsLog"); ("SecurityLog", "SecurityLog")].

(** LogStatusEnumType: include/ocpp/v16/ocpp_enums.hpp 502-506, lib/ocpp/v16/ocpp_enums.cpp 802-813 and 815-827. *)
Definition e_v16_log_status_enum_type : enum := Enum "LogStatusEnumType"
  ["Accepted"; "Rejected"; "AcceptedCanceled"]
  [("Accepted", "Accepted"); ("Rejected", "Rejected"); ("AcceptedCanceled", "AcceptedCanceled")]
  [("Accepted", "Accepted"); ("Rejected", "Rejected"); ("AcceptedCanceled", "AcceptedCanceled")].

(** InstallCertificateStatusEnumType: include/ocpp/v16/ocpp_enums.hpp 524-528, lib/ocpp/v16/ocpp_enums.cpp 837-848 and 850-862. *)
Definition e_v16_install_certificate_status_enum_type : enum := Enum "InstallCertificateStatusEnumType"
  ["Accepted"; "Failed"; "Rejected"]
  [("Accepted", "Accepted"); ("Failed", "Failed"); ("Rejected", "Rejected")]
  [("Accepted", "Accepted"); ("Failed", "Failed"); ("Rejected", "Rejected")].

(** UploadLogStatusEnumType: include/ocpp/v16/ocpp_enums.hpp 547-555, lib/ocpp/v16/ocpp_enums.cpp 873-892 and 894-918. *)
Definition e_v16_upload_log_status_enum_type : enum := Enum "UploadLogStatusEnumType"
  ["BadMessage"; "Idle"; "NotSupportedOperation"; "PermissionDenied"; "Uploaded"; "UploadFailure"; "Uploading"]
  [("BadMessage", "BadMessage"); ("Idle", "Idle"); ("NotSupportedOperation", "NotSupportedOperation"); ("PermissionDenied", "PermissionDenied"); ("Uploaded", "Uploaded"); ("UploadFailure", "UploadFailure"); ("Uploading", "Uploading")]
  [("BadMessage", "BadMessage"); ("Idle", "Idle"); ("NotSupportedOperation", "NotSupportedOperation"); ("PermissionDenied", "PermissionDenied"); ("Uploaded", "Uploaded"); ("UploadFailure", "UploadFailure"); ("Uploading", "Uploading")].

(** ReadingContext: include/ocpp/v16/ocpp_enums.hpp 573-582, lib/ocpp/v16/ocpp_enums.cpp 928-949 and 951-978. *)
Definition e_v16_reading_context : enum := Enum "ReadingContext"
  ["Interruption_Begin"; "Interruption_End"; "Sample_Clock"; "Sample_Periodic"; "Transaction_Begin"; "Transaction_End"; "Trigger"; "Other"]
  [("Interruption_Begin", "Interruption.Begin"); ("Interruption_End", "Interruption.End"); ("Sample_Clock", "Sample.Clock"); ("Sample_Periodic", "Sample.Periodic"); ("Transaction_Begin", "Transaction.Begin"); ("Transaction_End", "Transaction.End"); ("Trigger", "Trigger"); ("Other", "Other")]
  [("Interruption.Begin", "Interruption_Begin"); ("Interruption.End", "Interruption_End"); ("Sample.Clock", "Sample_Clock"); ("Sample.Periodic", "Sample_Periodic"); ("Transaction.Begin", "Transaction_Begin"); ("Transaction.End", "Transaction_End"); ("Trigger", "Trigger"); ("Other", "Other")].

(** ValueFormat: include/ocpp/v16/ocpp_enums.hpp 600-603, lib/ocpp/v16/ocpp_enums.cpp 988-997 and 999-1008. *)
Definition e_v16_value_format : enum := Enum "ValueFormat"
  ["Raw"; "SignedData"]
  [("Raw", "Raw"); ("SignedData", "SignedData")]
  [("Raw", "Raw"); ("SignedData", "SignedData")].

(** Measurand: include/ocpp/v16/ocpp_enums.hpp 620-643, lib/ocpp/v16/ocpp_enums.cpp 1018-1067 and 1069-1138. *)
Definition e_v16_measurand : enum := Enum "Measurand"
  ["Energy_Active_Export_Register"; "Energy_Active_Import_Register"; "Energy_Reactive_Export_Register"; "Energy_Reactive_Import_Register"; "Energy_Active_Export_Interval"; "Energy_Active_Import_Interval"; "Energy_Reactive_Export_Interval"; "Energy_Reactive_Import_Interval"; "Power_Active_Export"; "Power_Active_Import"; "Power_Offered"; "Power_Reactive_Export"; "Power_Reactive_Import"; "Power_Factor"; "Current_Import"; "Current_Export"; "Current_Offered"; "Voltage"; "Frequency"; "Temperature"; "SoC"; "RPM"]
  [("Energy_Active_Export_Register", "Energy.Active.Export.Register"); ("Energy_Active_Import_Register", "Energy.Active.Import.Register"); ("Energy_Reactive_Export_Register", "Energy.Reactive.Export.Register"); ("Energy_Reactive_Import_Register", "Energy.Reactive.Import.Register"); ("Energy_Active_Export_Interval", "Energy.Active.Export.Interval"); ("Energy_Active_Import_Interval", "Energy.Active.Import.Interval"); ("Energy_Reactive_Export_Interval", "Energy.Reactive.Export.Interval"); ("Energy_Reactive_Import_Interval", "Energy.Reactive.Import.Interval"); ("Power_Active_Export", "Power.Active.Export"); ("Power_Active_Import", "Power.Active.Import"); ("Power_Offered", "Power.Offered"); ("Power_Reactive_Export", "Power.Reactive.Export"); ("Power_Reactive_Import", "Power.Reactive.Import"); ("Power_Factor", "Power.Factor"); ("Current_Import", "Current.Import"); ("Current_Export", "Current.Export"); ("Current_Offered", "Current.Offered"); ("Voltage", "Voltage"); ("Frequency", "Frequency"); ("Temperature", "Temperature"); ("SoC", "SoC"); ("RPM", "RPM")]
  [("Energy.Active.Export.Register", "Energy_Active_Export_Register"); ("Energy.Active.Import.Register", "Energy_Active_Import_Register"); ("Energy.Reactive.Export.Register", "Energy_Reactive_Export_Register"); ("Energy.Reactive.Import.Register", "Energy_Reactive_Import_Register"); ("Energy.Active.Export.Interval", "Energy_Active_Export_Interval"); ("Energy.Active.Import.Interval", "Energy_Active_Import_Interval"); ("Energy.Reactive.Export.Interval", "Energy_Reactive_Export_Interval"); ("Energy.Reactive.Import.Interval", "Energy_Reactive_Import_Interval"); ("Power.Active.Export", "Power_Active_Export"); ("Power.Active.Import", "Power_Active_Import"); ("Power.Offered", "Power_Offered"); ("Power.Reactive.Export", "Power_Reactive_Export"); ("Power.Reactive.Import", "Power_Reactive_Import"); ("Power.Factor", "Power_Factor"); ("Current.Import", "Current_Import"); ("Current.Export", "Current_Export"); ("Current.Offered", "Current_Offered"); ("Voltage", "Voltage"); ("Frequency", "Frequency"); ("Temperature", "Temperature"); ("SoC", "SoC"); ("RPM", "RPM")].

(** Phase: include/ocpp/v16/ocpp_enums.hpp 660-671, lib/ocpp/v16/ocpp_enums.cpp 1148-1173 and 1175-1208. *)
Definition e_v16_phase : enum := Enum "Phase"
  ["L1"; "L2"; "L3"; "N"; "L1_N"; "L2_N"; "L3_N"; "L1_L2"; "L2_L3"; "L3_L1"]
  [("L1", "L1"); ("L2", "L2"); ("L3", "L3"); ("N", "N"); ("L1_N", "L1-N"); ("L2_N", "L2-N"); ("L3_N", "L3-N"); ("L1_L2", "L1-L2"); ("L2_L3", "L2-L3"); ("L3_L1", "L3-L1")]
  [("L1", "L1"); ("L2", "L2"); ("L3", "L3"); ("N", "N"); ("L1-N", "L1_N"); ("L2-N", "L2_N"); ("L3-N", "L3_N"); ("L1-L2", "L1_L2"); ("L2-L3", "L2_L3"); ("L3-L1", "L3_L1")].

(** Location: include/ocpp/v16/ocpp_enums.hpp 688-694, lib/ocpp/v16/ocpp_enums.cpp 1218-1233 and 1235-1253. *)
Definition e_v16_location : enum := Enum "Location"
  ["Cable"; "EV"; "Inlet"; "Outlet"; "Body"]
  [("Cable", "Cable"); ("EV", "EV"); ("Inlet", "Inlet"); ("Outlet", "Outlet"); ("Body", "Body")]
  [("Cable", "Cable"); ("EV", "EV"); ("Inlet", "Inlet"); ("Outlet", "Outlet"); ("Body", "Body")].

(** UnitOfMeasure: include/ocpp/v16/ocpp_enums.hpp 711-729, lib/ocpp/v16/ocpp_enums.cpp 1263-1302 and 1304-1358. *)
Definition e_v16_unit_of_measure : enum := Enum "UnitOfMeasure"
  ["Wh"; "kWh"; "varh"; "kvarh"; "W"; "kW"; "VA"; "kVA"; "var"; "kvar"; "A"; "V"; "K"; "Celcius"; "Celsius"; "Fahrenheit"; "Percent"]
  [("Wh", "Wh"); ("kWh", "kWh"); ("varh", "varh"); ("kvarh", "kvarh"); ("W", "W"); ("kW", "kW"); ("VA", "VA"); ("kVA", "kVA"); ("var", "var"); ("kvar", "kvar"); ("A", "A"); ("V", "V"); ("K", "K"); ("Celcius", "Celcius"); ("Celsius", "Celsius"); ("Fahrenheit", "Fahrenheit"); ("Percent", "Percent")]
  [("Wh", "Wh"); ("kWh", "kWh"); ("varh", "varh"); ("kvarh", "kvarh"); ("W", "W"); ("kW", "kW"); ("VA", "VA"); ("kVA", "kVA"); ("var", "var"); ("kvar", "kvar"); ("A", "A"); ("V", "V"); ("K", "K"); ("Celcius", "Celcius"); ("Celsius", "Celsius"); ("Fahrenheit", "Fahrenheit"); ("Percent", "Percent")].

(** ChargingProfileKindType: include/ocpp/v16/ocpp_enums.hpp 747-751, lib/ocpp/v16/ocpp_enums.cpp 1368-1379 and 1381-1393. *)
Definition e_v16_charging_profile_kind_type : enum := Enum "ChargingProfileKindType"
  ["Absolute"; "Recurring"; "Relative"]
  [("Absolute", "Absolute"); ("Recurring", "Recurring"); ("Relative", "Relative")]
  [("Absolute", "Absolute"); ("Recurring", "Recurring"); ("Relative", "Relative")].

(** RecurrencyKindType: include/ocpp/v16/ocpp_enums.hpp 769-772, lib/ocpp/v16/ocpp_enums.cpp 1403-1412 and 1414-1423. *)
Definition e_v16_recurrency_kind_type : enum := Enum "RecurrencyKindType"
  ["Daily"; "Weekly"]
  [("Daily", "Daily"); ("Weekly", "Weekly")]
  [("Daily", "Daily"); ("Weekly", "Weekly")].

(** RemoteStartStopStatus: include/ocpp/v16/ocpp_enums.hpp 790-793, lib/ocpp/v16/ocpp_enums.cpp 1433-1442 and 1444-1453. *)
Definition e_v16_remote_start_stop_status : enum := Enum "RemoteStartStopStatus"
  ["Accepted"; "Rejected"]
  [("Accepted", "Accepted"); ("Rejected", "Rejected")]
  [("Accepted", "Accepted"); ("Rejected", "Rejected")].

(** ReservationStatus: include/ocpp/v16/ocpp_enums.hpp 811-817, lib/ocpp/v16/ocpp_enums.cpp 1463-1478 and 1480-1498. *)
Definition e_v16_reservation_status : enum := Enum "ReservationStatus"
  ["Accepted"; "Faulted"; "Occupied"; "Rejected"; "Unavailable"]
  [("Accepted", "Accepted"); ("Faulted", "Faulted"); ("Occupied", "Occupied"); ("Rejected", "Rejected"); ("Unavailable", "Unavailable")]
  [("Accepted", "Accepted"); ("Faulted", "Faulted"); ("Occupied", "Occupied"); ("Rejected", "Rejected"); ("Unavailable", "Unavailable")].

(** ResetType: include/ocpp/v16/ocpp_enums.hpp 835-838, lib/ocpp/v16/ocpp_enums.cpp 1508-1517 and 1519-1528. *)
Definition e_v16_reset_type : enum := Enum "ResetType"
  ["Hard"; "Soft"]
  [("Hard", "Hard"); ("Soft", "Soft")]
  [("Hard", "Hard"); ("Soft", "Soft")].

(** ResetStatus: include/ocpp/v16/ocpp_enums.hpp 855-858, lib/ocpp/v16/ocpp_enums.cpp 1538-1547 and 1549-1558. *)
Definition e_v16_reset_status : enum := Enum "ResetStatus"
  ["Accepted"; "Rejected"]
  [("Accepted", "Accepted"); ("Rejected", "Rejected")]
  [("Accepted", "Accepted"); ("Rejected", "Rejected")].

(** UpdateType: include/ocpp/v16/ocpp_enums.hpp 875-878, lib/ocpp/v16/ocpp_enums.cpp 1568-1577 and 1579-1588. *)
Definition e_v16_update_type : enum := Enum "UpdateType"
  ["Differential"; "Full"]
  [("Differential", "Differential"); ("Full", "Full")]
  [("Differential", "Differential"); ("Full", "Full")].

(** UpdateStatus: include/ocpp/v16/ocpp_enums.hpp 895-900, lib/ocpp/v16/ocpp_enums.cpp 1598-1611 and 1613-1628. *)
Definition e_v16_update_status : enum := Enum "UpdateStatus"
  ["Accepted"; "Failed"; "NotSupported"; "VersionMismatch"]
  [("Accepted", "Accepted"); ("Failed", "Failed"); ("NotSupported", "NotSupported"); ("VersionMismatch", "VersionMismatch")]
  [("Accepted", "Accepted"); ("Failed", "Failed"); ("NotSupported", "NotSupported"); ("VersionMismatch", "VersionMismatch")].

(** ChargingProfileStatus: include/ocpp/v16/ocpp_enums.hpp 917-921, lib/ocpp/v16/ocpp_enums.cpp 1638-1649 and 1651-1663. *)
Definition e_v16_charging_profile_status : enum := Enum "ChargingProfileStatus"
  ["Accepted"; "Rejected"; "NotSupported"]
  [("Accepted", "Accepted"); ("Rejected", "Rejected"); ("NotSupported", "NotSupported")]
  [("Accepted", "Accepted"); ("Rejected", "Rejected"); ("NotSupported", "NotSupported")].

(** GenericStatusEnumType: include/ocpp/v16/ocpp_enums.hpp 939-942, lib/ocpp/v16/ocpp_enums.cpp 1673-1682 and 1684-1693. *)
Definition e_v16_generic_status_enum_type : enum := Enum "GenericStatusEnumType"
  ["Accepted"; "Rejected"]
  [("Accepted", "Accepted"); ("Rejected", "Rejected")]
  [("Accepted", "Accepted"); ("Rejected", "Rejected")].

(** FirmwareStatusEnumType: include/ocpp/v16/ocpp_enums.hpp 960-975, lib/ocpp/v16/ocpp_enums.cpp 1703-1736 and 1738-1783. *)
Definition e_v16_firmware_status_enum_type : enum := Enum "FirmwareStatusEnumType"
  ["Downloaded"; "DownloadFailed"; "Downloading"; "DownloadScheduled"; "DownloadPaused"; "Idle"; "InstallationFailed"; "Installing"; "Installed"; "InstallRebooting"; "InstallScheduled"; "InstallVerificationFailed"; "InvalidSignature"; "SignatureVerified"]
  [("Downloaded", "Downloaded"); ("DownloadFailed", "DownloadFailed"); ("Downloading", "Downloading"); ("DownloadScheduled", "DownloadScheduled"); ("DownloadPaused", "DownloadPaused"); ("Idle", "Idle"); ("InstallationFailed", "InstallationFailed"); ("Installing", "Installing"); ("Installed", "Installed"); ("InstallRebooting", "InstallRebooting"); ("InstallScheduled", "InstallScheduled"); ("InstallVerificationFailed", "InstallVerificationFailed"); ("InvalidSignature", "InvalidSignature"); ("SignatureVerified", "SignatureVerified")]
  [("Downloaded", "Downloaded"); ("DownloadFailed", "DownloadFailed"); ("Downloading", "Downloading"); ("DownloadScheduled", "DownloadScheduled"); ("DownloadPaused", "DownloadPaused"); ("Idle", "Idle"); ("InstallationFailed", "InstallationFailed"); ("Installing", "Installing"); ("Installed", "Installed"); ("InstallRebooting", "InstallRebooting"); ("InstallScheduled", "InstallScheduled"); ("InstallVerificationFailed", "InstallVerificationFailed"); ("InvalidSignature", "InvalidSignature"); ("SignatureVerified", "SignatureVerified")].

(** UpdateFirmwareStatusEnumType: include/ocpp/v16/ocpp_enums.hpp 993-999, lib/ocpp/v16/ocpp_enums.cpp 1793-1808 and 1810-1828. *)
Definition e_v16_update_firmware_status_enum_type : enum := Enum "UpdateFirmwareStatusEnumType"
  ["Accepted"; "Rejected"; "AcceptedCanceled"; "InvalidCertificate"; "RevokedCertificate"]
  [("Accepted", "Accepted"); ("Rejected", "Rejected"); ("AcceptedCanceled", "AcceptedCanceled"); ("InvalidCertificate", "InvalidCertificate"); ("RevokedCertificate", "RevokedCertificate")]
  [("Accepted", "Accepted"); ("Rejected", "Rejected"); ("AcceptedCanceled", "AcceptedCanceled"); ("InvalidCertificate", "InvalidCertificate"); ("RevokedCertificate", "RevokedCertificate")].

(** ChargePointErrorCode: include/ocpp/v16/ocpp_enums.hpp 1017-1034, lib/ocpp/v16/ocpp_enums.cpp 1838-1875 and 1877-1928. *)
Definition e_v16_charge_point_error_code : enum := Enum "ChargePointErrorCode"
  ["ConnectorLockFailure"; "EVCommunicationError"; "GroundFailure"; "HighTemperature"; "InternalError"; "LocalListConflict"; "NoError"; "OtherError"; "OverCurrentFailure"; "PowerMeterFailure"; "PowerSwitchFailure"; "ReaderFailure"; "ResetFailure"; "UnderVoltage"; "OverVoltage"; "WeakSignal"]
  [("ConnectorLockFailure", "ConnectorLockFailure"); ("EVCommunicationError", "EVCommunicationError"); ("GroundFailure", "GroundFailure"); ("HighTemperature", "HighTemperature"); ("InternalError", "InternalError"); ("LocalListConflict", "LocalListConflict"); ("NoError", "NoError"); ("OtherError", "OtherError"); ("OverCurrentFailure", "OverCurrentFailure"); ("PowerMeterFailure", "PowerMeterFailure"); ("PowerSwitchFailure", "PowerSwitchFailure"); ("ReaderFailure", "ReaderFailure"); ("ResetFailure", "ResetFailure"); ("UnderVoltage", "UnderVoltage"); ("OverVoltage", "OverVoltage"); ("WeakSignal", "WeakSignal")]
  [("ConnectorLockFailure", "ConnectorLockFailure"); ("EVCommunicationError", "EVCommunicationError"); ("GroundFailure", "GroundFailure"); ("HighTemperature", "HighTemperature"); ("InternalError", "InternalError"); ("LocalListConflict", "LocalListConflict"); ("NoError", "NoError"); ("OtherError", "OtherError"); ("OverCurrentFailure", "OverCurrentFailure"); ("PowerMeterFailure", "PowerMeterFailure"); ("PowerSwitchFailure", "PowerSwitchFailure"); ("ReaderFailure", "ReaderFailure"); ("ResetFailure", "ResetFailure"); ("UnderVoltage", "UnderVoltage"); ("OverVoltage", "OverVoltage"); ("WeakSignal", "WeakSignal")].

(** ChargePointStatus: include/ocpp/v16/ocpp_enums.hpp 1052-1062, lib/ocpp/v16/ocpp_enums.cpp 1938-1961 and 1963-1993. *)
Definition e_v16_charge_point_status : enum := Enum "ChargePointStatus"
  ["Available"; "Preparing"; "Charging"; "SuspendedEVSE"; "SuspendedEV"; "Finishing"; "Reserved"; "Unavailable"; "Faulted"]
  [("Available", "Available"); ("Preparing", "Preparing"); ("Charging", "Charging"); ("SuspendedEVSE", "SuspendedEVSE"); ("SuspendedEV", "SuspendedEV"); ("Finishing", "Finishing"); ("Reserved", "Reserved"); ("Unavailable", "Unavailable"); ("Faulted", "Faulted")]
  [("Available", "Available"); ("Preparing", "Preparing"); ("Charging", "Charging"); ("SuspendedEVSE", "SuspendedEVSE"); ("SuspendedEV", "SuspendedEV"); ("Finishing", "Finishing"); ("Reserved", "Reserved"); ("Unavailable", "Unavailable"); ("Faulted", "Faulted")].

(** Reason: include/ocpp/v16/ocpp_enums.hpp 1080-1092, lib/ocpp/v16/ocpp_enums.cpp 2003-2030 and 2032-2068. *)
Definition e_v16_reason : enum := Enum "Reason"
  ["EmergencyStop"; "EVDisconnected"; "HardReset"; "Local"; "Other"; "PowerLoss"; "Reboot"; "Remote"; "SoftReset"; "UnlockCommand"; "DeAuthorized"]
  [("EmergencyStop", "EmergencyStop"); ("EVDisconnected", "EVDisconnected"); ("HardReset", "HardReset"); ("Local", "Local"); ("Other", "Other"); ("PowerLoss", "PowerLoss"); ("Reboot", "Reboot"); ("Remote", "Remote"); ("SoftReset", "SoftReset"); ("UnlockCommand", "UnlockCommand"); ("DeAuthorized", "DeAuthorized")]
  [("EmergencyStop", "EmergencyStop"); ("EVDisconnected", "EVDisconnected"); ("HardReset", "HardReset"); ("Local", "Local"); ("Other", "Other"); ("PowerLoss", "PowerLoss"); ("Reboot", "Reboot"); ("Remote", "Remote"); ("SoftReset", "SoftReset"); ("UnlockCommand", "UnlockCommand"); ("DeAuthorized", "DeAuthorized")].

(** MessageTrigger: include/ocpp/v16/ocpp_enums.hpp 1109-1116, lib/ocpp/v16/ocpp_enums.cpp 2078-2095 and 2097-2118. *)
Definition e_v16_message_trigger : enum := Enum "MessageTrigger"
  ["BootNotification"; "DiagnosticsStatusNotification"; "FirmwareStatusNotification"; "Heartbeat"; "MeterValues"; "StatusNotification"]
  [("BootNotification", "BootNotification"); ("DiagnosticsStatusNotification", "DiagnosticsStatusNotification"); ("FirmwareStatusNotification", "FirmwareStatusNotification"); ("Heartbeat", "Heartbeat"); ("MeterValues", "MeterValues"); ("StatusNotification", "StatusNotification")]
  [("BootNotification", "BootNotification"); ("DiagnosticsStatusNotification", "DiagnosticsStatusNotification"); ("FirmwareStatusNotification", "FirmwareStatusNotification"); ("Heartbeat", "Heartbeat"); ("MeterValues", "MeterValues"); ("StatusNotification", "StatusNotification")].

(** TriggerMessageStatus: include/ocpp/v16/ocpp_enums.hpp 1134-1138, lib/ocpp/v16/ocpp_enums.cpp 2128-2139 and 2141-2153. *)
Definition e_v16_trigger_message_status : enum := Enum "TriggerMessageStatus"
  ["Accepted"; "Rejected"; "NotImplemented"]
  [("Accepted", "Accepted"); ("Rejected", "Rejected"); ("NotImplemented", "NotImplemented")]
  [("Accepted", "Accepted"); ("Rejected", "Rejected"); ("NotImplemented", "NotImplemented")].

(** UnlockStatus: include/ocpp/v16/ocpp_enums.hpp 1156-1160, lib/ocpp/v16/ocpp_enums.cpp 2163-2174 and 2176-2188. *)
Definition e_v16_unlock_status : enum := Enum "UnlockStatus"
  ["Unlocked"; "UnlockFailed"; "NotSupported"]
  [("Unlocked", "Unlocked"); ("UnlockFailed", "UnlockFailed"); ("NotSupported", "NotSupported")]
  [("Unlocked", "Unlocked"); ("UnlockFailed", "UnlockFailed"); ("NotSupported", "NotSupported")].

(** MessageType: include/ocpp/v2/types.hpp 15-195, lib/ocpp/v2/types.cpp 13-375 and 377-916. *)
Definition e_v2_messagetype : enum := Enum "MessageType"
  ["Authorize"; "AuthorizeResponse"; "BootNotification"; "BootNotificationResponse"; "CancelReservation"; "CancelReservationResponse"; "CertificateSigned"; "CertificateSignedResponse"; "ChangeAvailability"; "ChangeAvailabilityResponse"; "ClearCache"; "ClearCacheResponse"; "ClearChargingProfile"; "ClearChargingProfileResponse"; "ClearDisplayMessage"; "ClearDisplayMessageResponse"; "ClearedChargingLimit"; "ClearedChargingLimitResponse"; "ClearVariableMonitoring"; "ClearVariableMonitoringResponse"; "CostUpdated"; "CostUpdatedResponse"; "CustomerInformation"; "CustomerInformationResponse"; "DataTransfer"; "DataTransferResponse"; "DeleteCertificate"; "DeleteCertificateResponse"; "FirmwareStatusNotification"; "FirmwareStatusNotificationResponse"; "Get15118EVCertificate"; "Get15118EVCertificateResponse"; "GetBaseReport"; "GetBaseReportResponse"; "GetCertificateStatus"; "GetCertificateStatusResponse"; "GetChargingProfiles"; "GetChargingProfilesResponse"; "GetCompositeSchedule"; "GetCompositeScheduleResponse"; "GetDisplayMessages"; "GetDisplayMessagesResponse"; "GetInstalledCertificateIds"; "GetInstalledCertificateIdsResponse"; "GetLocalListVersion"; "GetLocalListVersionResponse"; "GetLog"; "GetLogResponse"; "GetMonitoringReport"; "GetMonitoringReportResponse"; "GetReport"; "GetReportResponse"; "GetTransactionStatus"; "GetTransactionStatusResponse"; "GetVariables"; "GetVariablesResponse"; "Heartbeat"; "HeartbeatResponse"; "InstallCertificate"; "InstallCertificateResponse"; "LogStatusNotification"; "LogStatusNotificationResponse"; "MeterValues"; "MeterValuesResponse"; "NotifyChargingLimit"; "NotifyChargingLimitResponse"; "NotifyCustomerInformation"; "NotifyCustomerInformationResponse"; "NotifyDisplayMessages"; "NotifyDisplayMessagesResponse"; "NotifyEVChargingNeeds"; "NotifyEVChargingNeedsResponse"; "NotifyEVChargingSchedule"; "NotifyEVChargingScheduleResponse"; "NotifyEvent"; "NotifyEventResponse"; "NotifyMonitoringReport"; "NotifyMonitoringReportResponse"; "NotifyReport"; "NotifyReportResponse"; "PublishFirmware"; "PublishFirmwareResponse"; "PublishFirmwareStatusNotification"; "PublishFirmwareStatusNotificationResponse"; "ReportChargingProfiles"; "ReportChargingProfilesResponse"; "RequestStartTransaction"; "RequestStartTransactionResponse"; "RequestStopTransaction"; "RequestStopTransactionResponse"; "ReservationStatusUpdate"; "ReservationStatusUpdateResponse"; "ReserveNow"; "ReserveNowResponse"; "Reset"; "ResetResponse"; "SecurityEventNotification"; "SecurityEventNotificationResponse"; "SendLocalList"; "SendLocalListResponse"; "SetChargingProfile"; "SetChargingProfileResponse"; "SetDisplayMessage"; "SetDisplayMessageResponse"; "SetMonitoringBase"; "SetMonitoringBaseResponse"; "SetMonitoringLevel"; "SetMonitoringLevelResponse"; "SetNetworkProfile"; "SetNetworkProfileResponse"; "SetVariableMonitoring"; "SetVariableMonitoringResponse"; "SetVariables"; "SetVariablesResponse"; "SignCertificate"; "SignCertificateResponse"; "StatusNotification"; "StatusNotificationResponse"; "TransactionEvent"; "TransactionEventResponse"; "TriggerMessage"; "TriggerMessageResponse"; "UnlockConnector"; "UnlockConnectorResponse"; "UnpublishFirmware"; "UnpublishFirmwareResponse"; "UpdateFirmware"; "UpdateFirmwareResponse"; "AdjustPeriodicEventStream"; "AdjustPeriodicEventStreamResponse"; "AFRRSignal"; "AFRRSignalResponse"; "BatterySwap"; "BatterySwapResponse"; "ChangeTransactionTariff"; "ChangeTransactionTariffResponse"; "ClearDERControl"; "ClearDERControlResponse"; "ClearTariffs"; "ClearTariffsResponse"; "ClosePeriodicEventStream"; "ClosePeriodicEventStreamResponse"; "GetCRL"; "GetCRLResponse"; "GetDERControl"; "GetDERControlResponse"; "GetPeriodicEventStream"; "GetPeriodicEventStreamResponse"; "GetTariffs"; "GetTariffsResponse"; "NotifyAllowedEnergyTransfer"; "NotifyAllowedEnergyTransferResponse"; "NotifyDERAlarm"; "NotifyDERAlarmResponse"; "NotifyDERStartStop"; "NotifyDERStartStopResponse"; "NotifyPeriodicEventStream"; "NotifyPeriodicEventStreamResponse"; "NotifyPriorityCharging"; "NotifyPriorityChargingResponse"; "NotifySettlement"; "NotifySettlementResponse"; "OpenPeriodicEventStream"; "OpenPeriodicEventStreamResponse"; "PullDynamicScheduleUpdate"; "PullDynamicScheduleUpdateResponse"; "RequestBatterySwap"; "RequestBatterySwapResponse"; "SetDefaultTariff"; "SetDefaultTariffResponse"; "SetDERControl"; "SetDERControlResponse"; "UpdateDynamicSchedule"; "UpdateDynamicScheduleResponse"; "UsePriorityCharging"; "UsePriorityChargingResponse"; "VatNumberValidation"; "VatNumberValidationResponse"; "InternalError"]
  [("Authorize", "Authorize"); ("AuthorizeResponse", "AuthorizeResponse"); ("BootNotification", "BootNotification"); ("BootNotificationResponse", "BootNotificationResponse"); ("CancelReservation", "CancelReservation"); ("CancelReservationResponse", "CancelReservationResponse"); ("CertificateSigned", "CertificateSigned"); ("CertificateSignedResponse", "CertificateSignedResponse"); ("ChangeAvailability", "ChangeAvailability"); ("ChangeAvailabilityResponse", "ChangeAvailabilityResponse"); ("ClearCache", "ClearCache"); ("ClearCacheResponse", "ClearCacheResponse"); ("ClearChargingProfile", "ClearChargingProfile"); ("ClearChargingProfileResponse", "ClearChargingProfileResponse"); ("ClearDisplayMessage", "ClearDisplayMessage"); ("ClearDisplayMessageResponse", "ClearDisplayMessageResponse"); ("ClearedChargingLimit", "ClearedChargingLimit"); ("ClearedChargingLimitResponse", "ClearedChargingLimitResponse"); ("ClearVariableMonitoring", "ClearVariableMonitoring"); ("ClearVariableMonitoringResponse", "ClearVariableMonitoringResponse"); ("CostUpdated", "CostUpdated"); ("CostUpdatedResponse", "CostUpdatedResponse"); ("CustomerInformation", "CustomerInformation"); ("CustomerInformationResponse", "CustomerInformationResponse"); ("DataTransfer", "DataTransfer"); ("DataTransferResponse", "DataTransferResponse"); ("DeleteCertificate", "DeleteCertificate"); ("DeleteCertificateResponse", "DeleteCertificateResponse"); ("FirmwareStatusNotification", "FirmwareStatusNotification"); ("FirmwareStatusNotificationResponse", "FirmwareStatusNotificationResponse"); ("Get15118EVCertificate", "Get15118EVCertificate"); ("Get15118EVCertificateResponse", "Get15118EVCertificateResponse"); ("GetBaseReport", "GetBaseReport"); ("GetBaseReportResponse", "GetBaseReportResponse"); ("GetCertificateStatus", "GetCertificateStatus"); ("GetCertificateStatusResponse", "GetCertificateStatusResponse"); ("GetChargingProfiles", "GetChargingProfiles"); ("GetChargingProfilesResponse", "GetChargingProfilesResponse"); ("GetCompositeSchedule", "GetCompositeSchedule"); ("GetCompositeScheduleResponse", "GetCompositeScheduleResponse"); ("GetDisplayMessages", "GetDisplayMessages"); ("GetDisplayMessagesResponse", "GetDisplayMessagesResponse"); ("GetInstalledCertificateIds", "GetInstalledCertificateIds"); ("GetInstalledCertificateIdsResponse", "GetInstalledCertificateIdsResponse"); ("GetLocalListVersion", "GetLocalListVersion"); ("GetLocalListVersionResponse", "GetLocalListVersionResponse"); ("GetLog", "GetLog"); ("GetLogResponse", "GetLogResponse"); ("GetMonitoringReport", "GetMonitoringReport"); ("GetMonitoringReportResponse", "GetMonitoringReportResponse"); ("GetReport", "GetReport"); ("GetReportResponse", "GetReportResponse"); ("GetTransactionStatus", "GetTransactionStatus"); ("GetTransactionStatusResponse", "GetTransactionStatusResponse"); ("GetVariables", "GetVariables"); ("GetVariablesResponse", "GetVariablesResponse"); ("Heartbeat", "Heartbeat"); ("HeartbeatResponse", "HeartbeatResponse"); ("InstallCertificate", "InstallCertificate"); ("InstallCertificateResponse", "InstallCertificateResponse"); ("LogStatusNotification", "LogStatusNotification"); ("LogStatusNotificationResponse", "LogStatusNotificationResponse"); ("MeterValues", "MeterValues"); ("MeterValuesResponse", "MeterValuesResponse"); ("NotifyChargingLimit", "NotifyChargingLimit"); ("NotifyChargingLimitResponse", "NotifyChargingLimitResponse"); ("NotifyCustomerInformation", "NotifyCustomerInformation"); ("NotifyCustomerInformationResponse", "NotifyCustomerInformationResponse"); ("NotifyDisplayMessages", "NotifyDisplayMessages"); ("NotifyDisplayMessagesResponse", "NotifyDisplayMessagesResponse"); ("NotifyEVChargingNeeds", "NotifyEVChargingNeeds"); ("NotifyEVChargingNeedsResponse", "NotifyEVChargingNeedsResponse"); ("NotifyEVChargingSchedule", "NotifyEVChargingSchedule"); ("NotifyEVChargingScheduleResponse", "NotifyEVChargingScheduleResponse"); ("NotifyEvent", "NotifyEvent"); ("NotifyEventResponse", "NotifyEventResponse"); ("NotifyMonitoringReport", "NotifyMonitoringReport"); ("NotifyMonitoringReportResponse", "NotifyMonitoringReportResponse"); ("NotifyReport", "NotifyReport"); ("NotifyReportResponse", "NotifyReportResponse"); ("PublishFirmware", "PublishFirmware"); ("PublishFirmwareResponse", "PublishFirmwareResponse"); ("PublishFirmwareStatusNotification", "PublishFirmwareStatusNotification"); ("PublishFirmwareStatusNotificationResponse", "PublishFirmwareStatusNotificationResponse"); ("ReportChargingProfiles", "ReportChargingProfiles"); ("ReportChargingProfilesResponse", "ReportChargingProfilesResponse"); ("RequestStartTransaction", "RequestStartTransaction"); ("RequestStartTransactionResponse", "RequestStartTransactionResponse"); ("RequestStopTransaction", "RequestStopTransaction"); ("RequestStopTransactionResponse", "RequestStopTransactionResponse"); ("ReservationStatusUpdate", "ReservationStatusUpdate"); ("ReservationStatusUpdateResponse", "ReservationStatusUpdateResponse"); ("ReserveNow", "ReserveNow"); ("ReserveNowResponse", "ReserveNowResponse"); ("Reset", "Reset"); ("ResetResponse", "ResetResponse"); ("SecurityEventNotification", "SecurityEventNotification"); ("SecurityEventNotificationResponse", "SecurityEventNotificationResponse"); ("SendLocalList", "SendLocalList"); ("SendLocalListResponse", "SendLocalListResponse"); ("SetChargingProfile", "SetChargingProfile"); ("SetChargingProfileResponse", "SetChargingProfileResponse"); ("SetDisplayMessage", "SetDisplayMessage"); ("SetDisplayMessageResponse", "SetDisplayMessageResponse"); ("SetMonitoringBase", "SetMonitoringBase"); ("SetMonitoringBaseResponse", "SetMonitoringBaseResponse"); ("SetMonitoringLevel", "SetMonitoringLevel"); ("SetMonitoringLevelResponse", "SetMonitoringLevelResponse"); ("SetNetworkProfile", "SetNetworkProfile"); ("SetNetworkProfileResponse", "SetNetworkProfileResponse"); ("SetVariableMonitoring", "SetVariableMonitoring"); ("SetVariableMonitoringResponse", "SetVariableMonitoringResponse"); ("SetVariables", "SetVariables"); ("SetVariablesResponse", "SetVariablesResponse"); ("SignCertificate", "SignCertificate"); ("SignCertificateResponse", "SignCertificateResponse"); ("StatusNotification", "StatusNotification"); ("StatusNotificationResponse", "StatusNotificationResponse"); ("TransactionEvent", "TransactionEvent"); ("TransactionEventResponse", "TransactionEventResponse"); ("TriggerMessage", "TriggerMessage"); ("TriggerMessageResponse", "TriggerMessageResponse"); ("UnlockConnector", "UnlockConnector"); ("UnlockConnectorResponse", "UnlockConnectorResponse"); ("UnpublishFirmware", "UnpublishFirmware"); ("UnpublishFirmwareResponse", "UnpublishFirmwareResponse"); ("UpdateFirmware", "UpdateFirmware"); ("UpdateFirmwareResponse", "UpdateFirmwareResponse"); ("AdjustPeriodicEventStream", "AdjustPeriodicEventStream"); ("AdjustPeriodicEventStreamResponse", "AdjustPeriodicEventStreamResponse"); ("AFRRSignal", "AFRRSignal"); ("AFRRSignalResponse", "AFRRSignalResponse"); ("BatterySwap", "BatterySwap"); ("BatterySwapResponse", "BatterySwapResponse"); ("ChangeTransactionTariff", "ChangeTransactionTariff"); ("ChangeTransactionTariffResponse", "ChangeTransactionTariffResponse"); ("ClearDERControl", "ClearDERControl"); ("ClearDERControlResponse", "ClearDERControlResponse"); ("ClearTariffs", "ClearTariffs"); ("ClearTariffsResponse", "ClearTariffsResponse"); ("ClosePeriodicEventStream", "ClosePeriodicEventStream"); ("ClosePeriodicEventStreamResponse", "ClosePeriodicEventStreamResponse"); ("GetCRL", "GetCRL"); ("GetCRLResponse", "GetCRLResponse"); ("GetDERControl", "GetDERControl"); ("GetDERControlResponse", "GetDERControlResponse"); ("GetPeriodicEventStream", "GetPeriodicEventStream"); ("GetPeriodicEventStreamResponse", "GetPeriodicEventStreamResponse"); ("GetTariffs", "GetTariffs"); ("GetTariffsResponse", "GetTariffsResponse"); ("NotifyAllowedEnergyTransfer", "NotifyAllowedEnergyTransfer"); ("NotifyAllowedEnergyTransferResponse", "NotifyAllowedEnergyTransferResponse"); ("NotifyDERAlarm", "NotifyDERAlarm"); ("NotifyDERAlarmResponse", "NotifyDERAlarmResponse"); ("NotifyDERStartStop", "NotifyDERStartStop"); ("NotifyDERStartStopResponse", "NotifyDERStartStopResponse"); ("NotifyPeriodicEventStream", "NotifyPeriodicEventStream"); ("NotifyPeriodicEventStreamResponse", "NotifyPeriodicEventStreamResponse"); ("NotifyPriorityCharging", "NotifyPriorityCharging"); ("NotifyPriorityChargingResponse", "NotifyPriorityChargingResponse"); ("NotifySettlement", "NotifySettlement"); ("NotifySettlementResponse", "NotifySettlementResponse"); ("OpenPeriodicEventStream", "OpenPeriodicEventStream"); ("OpenPeriodicEventStreamResponse", "OpenPeriodicEventStreamResponse"); ("PullDynamicScheduleUpdate", "PullDynamicScheduleUpdate"); ("PullDynamicScheduleUpdateResponse", "PullDynamicScheduleUpdateResponse"); ("RequestBatterySwap", "RequestBatterySwap"); ("RequestBatterySwapResponse", "RequestBatterySwapResponse"); ("SetDefaultTariff", "SetDefaultTariff"); ("SetDefaultTariffResponse", "SetDefaultTariffResponse"); ("SetDERControl", "SetDERControl"); ("SetDERControlResponse", "SetDERControlResponse"); ("UpdateDynamicSchedule", "UpdateDynamicSchedule"); ("UpdateDynamicScheduleResponse", "UpdateDynamicScheduleResponse"); ("UsePriorityCharging", "UsePriorityCharging"); ("UsePriorityChargingResponse", "UsePriorityChargingResponse"); ("VatNumberValidation", "VatNumberValidation"); ("VatNumberValidationResponse", "VatNumberValidationResponse"); ("InternalError", "InternalError")]
  [("Authorize", "Authorize"); ("AuthorizeResponse", "AuthorizeResponse"); ("BootNotification", "BootNotification"); ("BootNotificationResponse", "BootNotificationResponse"); ("CancelReservation", "CancelReservation"); ("CancelReservationResponse", "CancelReservationResponse"); ("CertificateSigned", "CertificateSigned"); ("CertificateSignedResponse", "CertificateSignedResponse"); ("ChangeAvailability", "ChangeAvailability"); ("ChangeAvailabilityResponse", "ChangeAvailabilityResponse"); ("ClearCache", "ClearCache"); ("ClearCacheResponse", "ClearCacheResponse"); ("ClearChargingProfile", "ClearChargingProfile"); ("ClearChargingProfileResponse", "ClearChargingProfileResponse"); ("ClearDisplayMessage", "ClearDisplayMessage"); ("ClearDisplayMessageResponse", "ClearDisplayMessageResponse"); ("ClearedChargingLimit", "ClearedChargingLimit"); ("ClearedChargingLimitResponse", "ClearedChargingLimitResponse"); ("ClearVariableMonitoring", "ClearVariableMonitoring"); ("ClearVariableMonitoringResponse", "ClearVariableMonitoringResponse"); ("CostUpdated", "CostUpdated"); ("CostUpdatedResponse", "CostUpdatedResponse"); ("CustomerInformation", "CustomerInformation"); ("CustomerInformationResponse", "CustomerInformationResponse"); ("DataTransfer", "DataTransfer"); ("DataTransferResponse", "DataTransferResponse"); ("DeleteCertificate", "DeleteCertificate"); ("DeleteCertificateResponse", "DeleteCertificateResponse"); ("FirmwareStatusNotification", "FirmwareStatusNotification"); ("FirmwareStatusNotificationResponse", "FirmwareStatusNotificationResponse"); ("Get15118EVCertificate", "Get15118EVCertificate"); ("Get15118EVCertificateResponse", "Get15118EVCertificateResponse"); ("GetBaseReport", "GetBaseReport"); ("GetBaseReportResponse", "GetBaseReportResponse"); ("GetCertificateStatus", "GetCertificateStatus"); ("GetCertificateStatusResponse", "GetCertificateStatusResponse"); ("GetChargingProfiles", "GetChargingProfiles"); ("GetChargingProfilesResponse", "GetChargingProfilesResponse"); ("GetCompositeSchedule", "GetCompositeSchedule"); ("GetCompositeScheduleResponse", "GetCompositeScheduleResponse"); ("GetDisplayMessages", "GetDisplayMessages"); ("GetDisplayMessagesResponse", "GetDisplayMessagesResponse"); ("GetInstalledCertificateIds", "GetInstalledCertificateIds"); ("GetInstalledCertificateIdsResponse", "GetInstalledCertificateIdsResponse"); ("GetLocalListVersion", "GetLocalListVersion"); ("GetLocalListVersionResponse", "GetLocalListVersionResponse"); ("GetLog", "GetLog"); ("GetLogResponse", "GetLogResponse"); ("GetMonitoringReport", "GetMonitoringReport"); ("GetMonitoringReportResponse", "GetMonitoringReportResponse"); ("GetReport", "GetReport"); ("GetReportResponse", "GetReportResponse"); ("GetTransactionStatus", "GetTransactionStatus"); ("GetTransactionStatusResponse", "GetTransactionStatusResponse"); ("GetVariables", "GetVariables"); ("GetVariablesResponse", "GetVariablesResponse"); ("Heartbeat", "Heartbeat"); ("HeartbeatResponse", "HeartbeatResponse"); ("InstallCertificate", "InstallCertificate"); ("InstallCertificateResponse", "InstallCertificateResponse"); ("LogStatusNotification", "LogStatusNotification"); ("LogStatusNotificationResponse", "LogStatusNotificationResponse"); ("MeterValues", "MeterValues"); ("MeterValuesResponse", "MeterValuesResponse"); ("NotifyChargingLimit", "NotifyChargingLimit"); ("NotifyChargingLimitResponse", "NotifyChargingLimitResponse"); ("NotifyCustomerInformation", "NotifyCustomerInformation"); ("NotifyCustomerInformationResponse", "NotifyCustomerInformationResponse"); ("NotifyDisplayMessages", "NotifyDisplayMessages"); ("NotifyDisplayMessagesResponse", "NotifyDisplayMessagesResponse"); ("NotifyEVChargingNeeds", "NotifyEVChargingNeeds"); ("NotifyEVChargingNeedsResponse", "NotifyEVChargingNeedsResponse"); ("NotifyEVChargingSchedule", "NotifyEVChargingSchedule"); ("NotifyEVChargingScheduleResponse", "NotifyEVChargingScheduleResponse"); ("NotifyEvent", "NotifyEvent"); ("NotifyEventResponse", "NotifyEventResponse"); ("NotifyMonitoringReport", "NotifyMonitoringReport"); ("NotifyMonitoringReportResponse", "NotifyMonitoringReportResponse"); ("NotifyReport", "NotifyReport"); ("NotifyReportResponse", "NotifyReportResponse"); ("PublishFirmware", "PublishFirmware"); ("PublishFirmwareResponse", "PublishFirmwareResponse"); ("PublishFirmwareStatusNotification", "PublishFirmwareStatusNotification"); ("PublishFirmwareStatusNotificationResponse", "PublishFirmwareStatusNotificationResponse"); ("ReportChargingProfiles", "ReportChargingProfiles"); ("ReportChargingProfilesResponse", "ReportChargingProfilesResponse"); ("RequestStartTransaction", "RequestStartTransaction"); ("RequestStartTransactionResponse", "RequestStartTransactionResponse"); ("RequestStopTransaction", "RequestStopTransaction"); ("RequestStopTransactionResponse", "RequestStopTransactionResponse"); ("ReservationStatusUpdate", "ReservationStatusUpdate"); ("ReservationStatusUpdateResponse", "ReservationStatusUpdateResponse"); ("ReserveNow", "ReserveNow"); ("ReserveNowResponse", "ReserveNowResponse"); ("Reset", "Reset"); ("ResetResponse", "ResetResponse"); ("SecurityEventNotification", "SecurityEventNotification"); ("SecurityEventNotificationResponse", "SecurityEventNotificationResponse"); ("SendLocalList", "SendLocalList"); ("SendLocalListResponse", "SendLocalListResponse"); ("SetChargingProfile", "SetChargingProfile"); ("SetChargingProfileResponse", "SetChargingProfileResponse"); ("SetDisplayMessage", "SetDisplayMessage"); ("SetDisplayMessageResponse", "SetDisplayMessageResponse"); ("SetMonitoringBase", "SetMonitoringBase"); ("SetMonitoringBaseResponse", "SetMonitoringBaseResponse"); ("SetMonitoringLevel", "SetMonitoringLevel"); ("SetMonitoringLevelResponse", "SetMonitoringLevelResponse"); ("SetNetworkProfile", "SetNetworkProfile"); ("SetNetworkProfileResponse", "SetNetworkProfileResponse"); ("SetVariableMonitoring", "SetVariableMonitoring"); ("SetVariableMonitoringResponse", "SetVariableMonitoringResponse"); ("SetVariables", "SetVariables"); ("SetVariablesResponse", "SetVariablesResponse"); ("SignCertificate", "SignCertificate"); ("SignCertificateResponse", "SignCertificateResponse"); ("StatusNotification", "StatusNotification"); ("StatusNotificationResponse", "StatusNotificationResponse"); ("TransactionEvent", "TransactionEvent"); ("TransactionEventResponse", "TransactionEventResponse"); ("TriggerMessage", "TriggerMessage"); ("TriggerMessageResponse", "TriggerMessageResponse"); ("UnlockConnector", "UnlockConnector"); ("UnlockConnectorResponse", "UnlockConnectorResponse"); ("UnpublishFirmware", "UnpublishFirmware"); ("UnpublishFirmwareResponse", "UnpublishFirmwareResponse"); ("UpdateFirmware", "UpdateFirmware"); ("UpdateFirmwareResponse", "UpdateFirmwareResponse"); ("InternalError", "InternalError"); ("AdjustPeriodicEventStream", "AdjustPeriodicEventStream"); ("AdjustPeriodicEventStreamResponse", "AdjustPeriodicEventStreamResponse"); ("AFRRSignal", "AFRRSignal"); ("AFRRSignalResponse", "AFRRSignalResponse"); ("BatterySwap", "BatterySwap"); ("BatterySwapResponse", "BatterySwapResponse"); ("ChangeTransactionTariff", "ChangeTransactionTariff"); ("ChangeTransactionTariffResponse", "ChangeTransactionTariffResponse"); ("ClearDERControl", "ClearDERControl"); ("ClearDERControlResponse", "ClearDERControlResponse"); ("ClearTariffs", "ClearTariffs"); ("ClearTariffsResponse", "ClearTariffsResponse"); ("ClosePeriodicEventStream", "ClosePeriodicEventStream"); ("ClosePeriodicEventStreamResponse", "ClosePeriodicEventStreamResponse"); ("GetCRL", "GetCRL"); ("GetCRLResponse", "GetCRLResponse"); ("GetDERControl", "GetDERControl"); ("GetDERControlResponse", "GetDERControlResponse"); ("GetPeriodicEventStream", "GetPeriodicEventStream"); ("GetPeriodicEventStreamResponse", "GetPeriodicEventStreamResponse"); ("GetTariffs", "GetTariffs"); ("GetTariffsResponse", "GetTariffsResponse"); ("NotifyAllowedEnergyTransfer", "NotifyAllowedEnergyTransfer"); ("NotifyAllowedEnergyTransferResponse", "NotifyAllowedEnergyTransferResponse"); ("NotifyDERAlarm", "NotifyDERAlarm"); ("NotifyDERAlarmResponse", "NotifyDERAlarmResponse"); ("NotifyDERStartStop", "NotifyDERStartStop"); ("NotifyDERStartStopResponse", "NotifyDERStartStopResponse"); ("NotifyPeriodicEventStream", "NotifyPeriodicEventStream"); ("NotifyPeriodicEventStreamResponse", "NotifyPeriodicEventStreamResponse"); ("NotifyPriorityCharging", "NotifyPriorityCharging"); ("NotifyPriorityChargingResponse", "NotifyPriorityChargingResponse"); ("NotifySettlement", "NotifySettlement"); ("NotifySettlementResponse", "NotifySettlementResponse"); ("OpenPeriodicEventStream", "OpenPeriodicEventStream"); ("OpenPeriodicEventStreamResponse", "OpenPeriodicEventStreamResponse"); ("PullDynamicScheduleUpdate", "PullDynamicScheduleUpdate"); ("PullDynamicScheduleUpdateResponse", "PullDynamicScheduleUpdateResponse"); ("RequestBatterySwap", "RequestBatterySwap"); ("RequestBatterySwapResponse", "RequestBatterySwapResponse"); ("SetDefaultTariff", "SetDefaultTariff"); ("SetDefaultTariffResponse", "SetDefaultTariffResponse"); ("SetDERControl", "SetDERControl"); ("SetDERControlResponse", "SetDERControlResponse"); ("UpdateDynamicSchedule", "UpdateDynamicSchedule"); ("UpdateDynamicScheduleResponse", "UpdateDynamicScheduleResponse"); ("UsePriorityCharging", "UsePriorityCharging"); ("UsePriorityChargingResponse", "UsePriorityChargingResponse"); ("VatNumberValidation", "VatNumberValidation"); ("VatNumberValidationResponse", "VatNumberValidationResponse")].

(** GenericStatusEnum: include/ocpp/v2/ocpp_enums.hpp 15-18, lib/ocpp/v2/ocpp_enums.cpp 16-25 and 27-36. *)
Definition e_v2_generic_status_enum : enum := Enum "GenericStatusEnum"
  ["Accepted"; "Rejected"]
  [("Accepted", "Accepted"); ("Rejected", "Rejected")]
  [("Accepted", "Accepted"); ("Rejected", "Rejected")].

(** HashAlgorithmEnum: include/ocpp/v2/ocpp_enums.hpp 36-40, lib/ocpp/v2/ocpp_enums.cpp 46-57 and 59-71. *)
Definition e_v2_hash_algorithm_enum : enum := Enum "HashAlgorithmEnum"
  ["SHA256"; "SHA384"; "SHA512"]
  [("SHA256", "SHA256"); ("SHA384", "SHA384"); ("SHA512", "SHA512")]
  [("SHA256", "SHA256"); ("SHA384", "SHA384"); ("SHA512", "SHA512")].

(** AuthorizationStatusEnum: include/ocpp/v2/ocpp_enums.hpp 58-69, lib/ocpp/v2/ocpp_enums.cpp 81-106 and 108-141. *)
Definition e_v2_authorization_status_enum : enum := Enum "AuthorizationStatusEnum"
  ["Accepted"; "Blocked"; "ConcurrentTx"; "Expired"; "Invalid"; "NoCredit"; "NotAllowedTypeEVSE"; "NotAtThisLocation"; "NotAtThisTime"; "Unknown"]
  [("Accepted", "Accepted"); ("Blocked", "Blocked"); ("ConcurrentTx", "ConcurrentTx"); ("Expired", "Expired"); ("Invalid", "Invalid"); ("NoCredit", "NoCredit"); ("NotAllowedTypeEVSE", "NotAllowedTypeEVSE"); ("NotAtThisLocation", "NotAtThisLocation"); ("NotAtThisTime", "NotAtThisTime"); ("Unknown", "Unknown")]
  [("Accepted", "Accepted"); ("Blocked", "Blocked"); ("ConcurrentTx", "ConcurrentTx"); ("Expired", "Expired"); ("Invalid", "Invalid"); ("NoCredit", "NoCredit"); ("NotAllowedTypeEVSE", "NotAllowedTypeEVSE"); ("NotAtThisLocation", "NotAtThisLocation"); ("NotAtThisTime", "NotAtThisTime"); ("Unknown", "Unknown")].

(** MessageFormatEnum: include/ocpp/v2/ocpp_enums.hpp 87-93, lib/ocpp/v2/ocpp_enums.cpp 151-166 and 168-186. *)
Definition e_v2_message_format_enum : enum := Enum "MessageFormatEnum"
  ["ASCII"; "HTML"; "URI"; "UTF8"; "QRCODE"]
  [("ASCII", "ASCII"); ("HTML", "HTML"); ("URI", "URI"); ("UTF8", "UTF8"); ("QRCODE", "QRCODE")]
  [("ASCII", "ASCII"); ("HTML", "HTML"); ("URI", "URI"); ("UTF8", "UTF8"); ("QRCODE", "QRCODE")].

(** AuthorizeCertificateStatusEnum: include/ocpp/v2/ocpp_enums.hpp 111-119, lib/ocpp/v2/ocpp_enums.cpp 196-215 and 217-241. *)
Definition e_v2_authorize_certificate_status_enum : enum := Enum "AuthorizeCertificateStatusEnum"
  ["Accepted"; "SignatureError"; "CertificateExpired"; "CertificateRevoked"; "NoCertificateAvailable"; "CertChainError"; "ContractCancelled"]
  [("Accepted", "Accepted"); ("SignatureError", "SignatureError"); ("CertificateExpired", "CertificateExpired"); ("CertificateRevoked", "CertificateRevoked"); ("NoCertificateAvailable", "NoCertificateAvailable"); ("CertChainError", "CertChainError"); ("ContractCancelled", "ContractCancelled")]
  [("Accepted", "Accepted"); ("SignatureError", "SignatureError"); ("CertificateExpired", "CertificateExpired"); ("CertificateRevoked", "CertificateRevoked"); ("NoCertificateAvailable", "NoCertificateAvailable"); ("CertChainError", "CertChainError"); ("ContractCancelled", "ContractCancelled")].

(** EnergyTransferModeEnum: include/ocpp/v2/ocpp_enums.hpp 137-149, lib/ocpp/v2/ocpp_enums.cpp 251-278 and 280-316. *)
Definition e_v2_energy_transfer_mode_enum : enum := Enum "EnergyTransferModeEnum"
  ["AC_single_phase"; "AC_two_phase"; "AC_three_phase"; "DC"; "AC_BPT"; "AC_BPT_DER"; "AC_DER"; "DC_BPT"; "DC_ACDP"; "DC_ACDP_BPT"; "WPT"]
  [("AC_single_phase", "AC_single_phase"); ("AC_two_phase", "AC_two_phase"); ("AC_three_phase", "AC_three_phase"); ("DC", "DC"); ("AC_BPT", "AC_BPT"); ("AC_BPT_DER", "AC_BPT_DER"); ("AC_DER", "AC_DER"); ("DC_BPT", "DC_BPT"); ("DC_ACDP", "DC_ACDP"); ("DC_ACDP_BPT", "DC_ACDP_BPT"); ("WPT", "WPT")]
  [("AC_single_phase", "AC_single_phase"); ("AC_two_phase", "AC_two_phase"); ("AC_three_phase", "AC_three_phase"); ("DC", "DC"); ("AC_BPT", "AC_BPT"); ("AC_BPT_DER", "AC_BPT_DER"); ("AC_DER", "AC_DER"); ("DC_BPT", "DC_BPT"); ("DC_ACDP", "DC_ACDP"); ("DC_ACDP_BPT", "DC_ACDP_BPT"); ("WPT", "WPT")].

(** DayOfWeekEnum: include/ocpp/v2/ocpp_enums.hpp 167-175, lib/ocpp/v2/ocpp_enums.cpp 326-345 and 347-371. *)
Definition e_v2_day_of_week_enum : enum := Enum "DayOfWeekEnum"
  ["Monday"; "Tuesday"; "Wednesday"; "Thursday"; "Friday"; "Saturday"; "Sunday"]
  [("Monday", "Monday"); ("Tuesday", "Tuesday"); ("Wednesday", "Wednesday"); ("Thursday", "Thursday"); ("Friday", "Friday"); ("Saturday", "Saturday"); ("Sunday", "Sunday")]
  [("Monday", "Monday"); ("Tuesday", "Tuesday"); ("Wednesday", "Wednesday"); ("Thursday", "Thursday"); ("Friday", "Friday"); ("Saturday", "Saturday"); ("Sunday", "Sunday")].

(** EvseKindEnum: include/ocpp/v2/ocpp_enums.hpp 193-196, lib/ocpp/v2/ocpp_enums.cpp 381-390 and 392-401. *)
Definition e_v2_evse_kind_enum : enum := Enum "EvseKindEnum"
  ["AC"; "DC"]
  [("AC", "AC"); ("DC", "DC")]
  [("AC", "AC"); ("DC", "DC")].

(** BatterySwapEventEnum: include/ocpp/v2/ocpp_enums.hpp 213-217, lib/ocpp/v2/ocpp_enums.cpp 411-422 and 424-436. *)
Definition e_v2_battery_swap_event_enum : enum := Enum "BatterySwapEventEnum"
  ["BatteryIn"; "BatteryOut"; "BatteryOutTimeout"]
  [("BatteryIn", "BatteryIn"); ("BatteryOut", "BatteryOut"); ("BatteryOutTimeout", "BatteryOutTimeout")]
  [("BatteryIn", "BatteryIn"); ("BatteryOut", "BatteryOut"); ("BatteryOutTimeout", "BatteryOutTimeout")].

(** BootReasonEnum: include/ocpp/v2/ocpp_enums.hpp 235-245, lib/ocpp/v2/ocpp_enums.cpp 446-469 and 471-501. *)
Definition e_v2_boot_reason_enum : enum := Enum "BootReasonEnum"
  ["ApplicationReset"; "FirmwareUpdate"; "LocalReset"; "PowerUp"; "RemoteReset"; "ScheduledReset"; "Triggered"; "Unknown"; "Watchdog"]
  [("ApplicationReset", "ApplicationReset"); ("FirmwareUpdate", "FirmwareUpdate"); ("LocalReset", "LocalReset"); ("PowerUp", "PowerUp"); ("RemoteReset", "RemoteReset"); ("ScheduledReset", "ScheduledReset"); ("Triggered", "Triggered"); ("Unknown", "Unknown"); ("Watchdog", "Watchdog")]
  [("ApplicationReset", "ApplicationReset"); ("FirmwareUpdate", "FirmwareUpdate"); ("LocalReset", "LocalReset"); ("PowerUp", "PowerUp"); ("RemoteReset", "RemoteReset"); ("ScheduledReset", "ScheduledReset"); ("Triggered", "Triggered"); ("Unknown", "Unknown"); ("Watchdog", "Watchdog")].

(** RegistrationStatusEnum: include/ocpp/v2/ocpp_enums.hpp 263-267, lib/ocpp/v2/ocpp_enums.cpp 511-522 and 524-536. *)
Definition e_v2_registration_status_enum : enum := Enum "RegistrationStatusEnum"
  ["Accepted"; "Pending"; "Rejected"]
  [("Accepted", "Accepted"); ("Pending", "Pending"); ("Rejected", "Rejected")]
  [("Accepted", "Accepted"); ("Pending", "Pending"); ("Rejected", "Rejected")].

(** CancelReservationStatusEnum: include/ocpp/v2/ocpp_enums.hpp 285-288, lib/ocpp/v2/ocpp_enums.cpp 546-555 and 557-566. *)
Definition e_v2_cancel_reservation_status_enum : enum := Enum "CancelReservationStatusEnum"
  ["Accepted"; "Rejected"]
  [("Accepted", "Accepted"); ("Rejected", "Rejected")]
  [("Accepted", "Accepted"); ("Rejected", "Rejected")].

(** CertificateSigningUseEnum: include/ocpp/v2/ocpp_enums.hpp 306-310, lib/ocpp/v2/ocpp_enums.cpp 576-587 and 589-601. *)
Definition e_v2_certificate_signing_use_enum : enum := Enum "CertificateSigningUseEnum"
  ["ChargingStationCertificate"; "V2GCertificate"; "V2G20Certificate"]
  [("ChargingStationCertificate", "ChargingStationCertificate"); ("V2GCertificate", "V2GCertificate"); ("V2G20Certificate", "V2G20Certificate")]
  [("ChargingStationCertificate", "ChargingStationCertificate"); ("V2GCertificate", "V2GCertificate"); ("V2G20Certificate", "V2G20Certificate")].

(** CertificateSignedStatusEnum: include/ocpp/v2/ocpp_enums.hpp 328-331, lib/ocpp/v2/ocpp_enums.cpp 611-620 and 622-631. *)
Definition e_v2_certificate_signed_status_enum : enum := Enum "CertificateSignedStatusEnum"
  ["Accepted"; "Rejected"]
  [("Accepted", "Accepted"); ("Rejected", "Rejected")]
  [("Accepted", "Accepted"); ("Rejected", "Rejected")].

(** OperationalStatusEnum: include/ocpp/v2/ocpp_enums.hpp 349-352, lib/ocpp/v2/ocpp_enums.cpp 641-650 and 652-661. *)
Definition e_v2_operational_status_enum : enum := Enum "OperationalStatusEnum"
  ["Inoperative"; "Operative"]
  [("Inoperative", "Inoperative"); ("Operative", "Operative")]
  [("Inoperative", "Inoperative"); ("Operative", "Operative")].

(** ChangeAvailabilityStatusEnum: include/ocpp/v2/ocpp_enums.hpp 370-374, lib/ocpp/v2/ocpp_enums.cpp 671-682 and 684-696. *)
Definition e_v2_change_availability_status_enum : enum := Enum "ChangeAvailabilityStatusEnum"
  ["Accepted"; "Rejected"; "Scheduled"]
  [("Accepted", "Accepted"); ("Rejected", "Rejected"); ("Scheduled", "Scheduled")]
  [("Accepted", "Accepted"); ("Rejected", "Rejected"); ("Scheduled", "Scheduled")].

(** TariffChangeStatusEnum: include/ocpp/v2/ocpp_enums.hpp 392-399, lib/ocpp/v2/ocpp_enums.cpp 706-723 and 725-746. *)
Definition e_v2_tariff_change_status_enum : enum := Enum "TariffChangeStatusEnum"
  ["Accepted"; "Rejected"; "TooManyElements"; "ConditionNotSupported"; "TxNotFound"; "NoCurrencyChange"]
  [("Accepted", "Accepted"); ("Rejected", "Rejected"); ("TooManyElements", "TooManyElements"); ("ConditionNotSupported", "ConditionNotSupported"); ("TxNotFound", "TxNotFound"); ("NoCurrencyChange", "NoCurrencyChange")]
  [("Accepted", "Accepted"); ("Rejected", "Rejected"); ("TooManyElements", "TooManyElements"); ("ConditionNotSupported", "ConditionNotSupported"); ("TxNotFound", "TxNotFound"); ("NoCurrencyChange", "NoCurrencyChange")].

(** ClearCacheStatusEnum: include/ocpp/v2/ocpp_enums.hpp 417-420, lib/ocpp/v2/ocpp_enums.cpp 756-765 and 767-776. *)
Definition e_v2_clear_cache_status_enum : enum := Enum "ClearCacheStatusEnum"
  ["Accepted"; "Rejected"]
  [("Accepted", "Accepted"); ("Rejected", "Rejected")]
  [("Accepted", "Accepted"); ("Rejected", "Rejected")].

(** ChargingProfilePurposeEnum: include/ocpp/v2/ocpp_enums.hpp 438-445, lib/ocpp/v2/ocpp_enums.cpp 786-803 and 805-826. *)
Definition e_v2_charging_profile_purpose_enum : enum := Enum "ChargingProfilePurposeEnum"
  ["ChargingStationExternalConstraints"; "ChargingStationMaxProfile"; "TxDefaultProfile"; "TxProfile"; "PriorityCharging"; "LocalGeneration"]
  [("ChargingStationExternalConstraints", "ChargingStationExternalConstraints"); ("ChargingStationMaxProfile", "ChargingStationMaxProfile"); ("TxDefaultProfile", "TxDefaultProfile"); ("TxProfile", "TxProfile"); ("PriorityCharging", "PriorityCharging"); ("LocalGeneration", "LocalGeneration")]
  [("ChargingStationExternalConstraints", "ChargingStationExternalConstraints"); ("ChargingStationMaxProfile", "ChargingStationMaxProfile"); ("TxDefaultProfile", "TxDefaultProfile"); ("TxProfile", "TxProfile"); ("PriorityCharging", "PriorityCharging"); ("LocalGeneration", "LocalGeneration")].

(** ClearChargingProfileStatusEnum: include/ocpp/v2/ocpp_enums.hpp 463-466, lib/ocpp/v2/ocpp_enums.cpp 836-845 and 847-856. *)
Definition e_v2_clear_charging_profile_status_enum : enum := Enum "ClearChargingProfileStatusEnum"
  ["Accepted"; "Unknown"]
  [("Accepted", "Accepted"); ("Unknown", "Unknown")]
  [("Accepted", "Accepted"); ("Unknown", "Unknown")].

(** DERControlEnum: include/ocpp/v2/ocpp_enums.hpp 484-507, lib/ocpp/v2/ocpp_enums.cpp 866-915 and 917-986. *)
Definition e_v2_dercontrol_enum : enum := Enum "DERControlEnum"
  ["EnterService"; "FreqDroop"; "FreqWatt"; "FixedPFAbsorb"; "FixedPFInject"; "FixedVar"; "Gradients"; "HFMustTrip"; "HFMayTrip"; "HVMustTrip"; "HVMomCess"; "HVMayTrip"; "LimitMaxDischarge"; "LFMustTrip"; "LVMustTrip"; "LVMomCess"; "LVMayTrip"; "PowerMonitoringMustTrip"; "VoltVar"; "VoltWatt"; "WattPF"; "WattVar"]
  [("EnterService", "EnterService"); ("FreqDroop", "FreqDroop"); ("FreqWatt", "FreqWatt"); ("FixedPFAbsorb", "FixedPFAbsorb"); ("FixedPFInject", "FixedPFInject"); ("FixedVar", "FixedVar"); ("Gradients", "Gradients"); ("HFMustTrip", "HFMustTrip"); ("HFMayTrip", "HFMayTrip"); ("HVMustTrip", "HVMustTrip"); ("HVMomCess", "HVMomCess"); ("HVMayTrip", "HVMayTrip"); ("LimitMaxDischarge", "LimitMaxDischarge"); ("LFMustTrip", "LFMustTrip"); ("LVMustTrip", "LVMustTrip"); ("LVMomCess", "LVMomCess"); ("LVMayTrip", "LVMayTrip"); ("PowerMonitoringMustTrip", "PowerMonitoringMustTrip"); ("VoltVar", "VoltVar"); ("VoltWatt", "VoltWatt"); ("WattPF", "WattPF"); ("WattVar", "WattVar")]
  [("EnterService", "EnterService"); ("FreqDroop", "FreqDroop"); ("FreqWatt", "FreqWatt"); ("FixedPFAbsorb", "FixedPFAbsorb"); ("FixedPFInject", "FixedPFInject"); ("FixedVar", "FixedVar"); ("Gradients", "Gradients"); ("HFMustTrip", "HFMustTrip"); ("HFMayTrip", "HFMayTrip"); ("HVMustTrip", "HVMustTrip"); ("HVMomCess", "HVMomCess"); ("HVMayTrip", "HVMayTrip"); ("LimitMaxDischarge", "LimitMaxDischarge"); ("LFMustTrip", "LFMustTrip"); ("LVMustTrip", "LVMustTrip"); ("LVMomCess", "LVMomCess"); ("LVMayTrip", "LVMayTrip"); ("PowerMonitoringMustTrip", "PowerMonitoringMustTrip"); ("VoltVar", "VoltVar"); ("VoltWatt", "VoltWatt"); ("WattPF", "WattPF"); ("WattVar", "WattVar")].

(** DERControlStatusEnum: include/ocpp/v2/ocpp_enums.hpp 525-530, lib/ocpp/v2/ocpp_enums.cpp 996-1009 and 1011-1026. *)
Definition e_v2_dercontrol_status_enum : enum := Enum "DERControlStatusEnum"
  ["Accepted"; "Rejected"; "NotSupported"; "NotFound"]
  [("Accepted", "Accepted"); ("Rejected", "Rejected"); ("NotSupported", "NotSupported"); ("NotFound", "NotFound")]
  [("Accepted", "Accepted"); ("Rejected", "Rejected"); ("NotSupported", "NotSupported"); ("NotFound", "NotFound")].

(** ClearMessageStatusEnum: include/ocpp/v2/ocpp_enums.hpp 548-552, lib/ocpp/v2/ocpp_enums.cpp 1036-1047 and 1049-1061. *)
Definition e_v2_clear_message_status_enum : enum := Enum "ClearMessageStatusEnum"
  ["Accepted"; "Unknown"; "Rejected"]
  [("Accepted", "Accepted"); ("Unknown", "Unknown"); ("Rejected", "Rejected")]
  [("Accepted", "Accepted"); ("Unknown", "Unknown"); ("Rejected", "Rejected")].

(** TariffClearStatusEnum: include/ocpp/v2/ocpp_enums.hpp 570-574, lib/ocpp/v2/ocpp_enums.cpp 1071-1082 and 1084-1096. *)
Definition e_v2_tariff_clear_status_enum : enum := Enum "TariffClearStatusEnum"
  ["Accepted"; "Rejected"; "NoTariff"]
  [("Accepted", "Accepted"); ("Rejected", "Rejected"); ("NoTariff", "NoTariff")]
  [("Accepted", "Accepted"); ("Rejected", "Rejected"); ("NoTariff", "NoTariff")].

(** ClearMonitoringStatusEnum: include/ocpp/v2/ocpp_enums.hpp 592-596, lib/ocpp/v2/ocpp_enums.cpp 1106-1117 and 1119-1131. *)
Definition e_v2_clear_monitoring_status_enum : enum := Enum "ClearMonitoringStatusEnum"
  ["Accepted"; "Rejected"; "NotFound"]
  [("Accepted", "Accepted"); ("Rejected", "Rejected"); ("NotFound", "NotFound")]
  [("Accepted", "Accepted"); ("Rejected", "Rejected"); ("NotFound", "NotFound")].

(** CustomerInformationStatusEnum: include/ocpp/v2/ocpp_enums.hpp 614-618, lib/ocpp/v2/ocpp_enums.cpp 1141-1152 and 1154-1166. *)
Definition e_v2_customer_information_status_enum : enum := Enum "CustomerInformationStatusEnum"
  ["Accepted"; "Rejected"; "Invalid"]
  [("Accepted", "Accepted"); ("Rejected", "Rejected"); ("Invalid", "Invalid")]
  [("Accepted", "Accepted"); ("Rejected", "Rejected"); ("Invalid", "Invalid")].

(** DataTransferStatusEnum: include/ocpp/v2/ocpp_enums.hpp 636-641, lib/ocpp/v2/ocpp_enums.cpp 1176-1189 and 1191-1206. *)
Definition e_v2_data_transfer_status_enum : enum := Enum "DataTransferStatusEnum"
  ["Accepted"; "Rejected"; "UnknownMessageId"; "UnknownVendorId"]
  [("Accepted", "Accepted"); ("Rejected", "Rejected"); ("UnknownMessageId", "UnknownMessageId"); ("UnknownVendorId", "UnknownVendorId")]
  [("Accepted", "Accepted"); ("Rejected", "Rejected"); ("UnknownMessageId", "UnknownMessageId"); ("UnknownVendorId", "UnknownVendorId")].

(** DeleteCertificateStatusEnum: include/ocpp/v2/ocpp_enums.hpp 659-663, lib/ocpp/v2/ocpp_enums.cpp 1216-1227 and 1229-1241. *)
Definition e_v2_delete_certificate_status_enum : enum := Enum "DeleteCertificateStatusEnum"
  ["Accepted"; "Failed"; "NotFound"]
  [("Accepted", "Accepted"); ("Failed", "Failed"); ("NotFound", "NotFound")]
  [("Accepted", "Accepted"); ("Failed", "Failed"); ("NotFound", "NotFound")].

(** FirmwareStatusEnum: include/ocpp/v2/ocpp_enums.hpp 681-696, lib/ocpp/v2/ocpp_enums.cpp 1251-1284 and 1286-1331. *)
Definition e_v2_firmware_status_enum : enum := Enum "FirmwareStatusEnum"
  ["Downloaded"; "DownloadFailed"; "Downloading"; "DownloadScheduled"; "DownloadPaused"; "Idle"; "InstallationFailed"; "Installing"; "Installed"; "InstallRebooting"; "InstallScheduled"; "InstallVerificationFailed"; "InvalidSignature"; "SignatureVerified"]
  [("Downloaded", "Downloaded"); ("DownloadFailed", "DownloadFailed"); ("Downloading", "Downloading"); ("DownloadScheduled", "DownloadScheduled"); ("DownloadPaused", "DownloadPaused"); ("Idle", "Idle"); ("InstallationFailed", "InstallationFailed"); ("Installing", "Installing"); ("Installed", "Installed"); ("InstallRebooting", "InstallRebooting"); ("InstallScheduled", "InstallScheduled"); ("InstallVerificationFailed", "InstallVerificationFailed"); ("InvalidSignature", "InvalidSignature"); ("SignatureVerified", "SignatureVerified")]
  [("Downloaded", "Downloaded"); ("DownloadFailed", "DownloadFailed"); ("Downloading", "Downloading"); ("DownloadScheduled", "DownloadScheduled"); ("DownloadPaused", "DownloadPaused"); ("Idle", "Idle"); ("InstallationFailed", "InstallationFailed"); ("Installing", "Installing"); ("Installed", "Installed"); ("InstallRebooting", "InstallRebooting"); ("InstallScheduled", "InstallScheduled"); ("InstallVerificationFailed", "InstallVerificationFailed"); ("InvalidSignature", "InvalidSignature"); ("SignatureVerified", "SignatureVerified")].

(** CertificateActionEnum: include/ocpp/v2/ocpp_enums.hpp 714-717, lib/ocpp/v2/ocpp_enums.cpp 1341-1350 and 1352-1361. *)
Definition e_v2_certificate_action_enum : enum := Enum "CertificateActionEnum"
  ["Install"; "Update"]
  [("Install", "Install"); ("Update", "Update")]
  [("Install", "Install"); ("Update", "Update")].

(** Iso15118EVCertificateStatusEnum: include/ocpp/v2/ocpp_enums.hpp 735-738, lib/ocpp/v2/ocpp_enums.cpp 1371-1380 and 1382-1391. *)
Definition e_v2_iso15118evcertificate_status_enum : enum := Enum "Iso15118EVCertificateStatusEnum"
  ["Accepted"; "Failed"]
  [("Accepted", "Accepted"); ("Failed", "Failed")]
  [("Accepted", "Accepted"); ("Failed", "Failed")].

(** ReportBaseEnum: include/ocpp/v2/ocpp_enums.hpp 756-760, lib/ocpp/v2/ocpp_enums.cpp 1401-1412 and 1414-1426. *)
Definition e_v2_report_base_enum : enum := Enum "ReportBaseEnum"
  ["ConfigurationInventory"; "FullInventory"; "SummaryInventory"]
  [("ConfigurationInventory", "ConfigurationInventory"); ("FullInventory", "FullInventory"); ("SummaryInventory", "SummaryInventory")]
  [("ConfigurationInventory", "ConfigurationInventory"); ("FullInventory", "FullInventory"); ("SummaryInventory", "SummaryInventory")].

(** GenericDeviceModelStatusEnum: include/ocpp/v2/ocpp_enums.hpp 778-783, lib/ocpp/v2/ocpp_enums.cpp 1436-1449 and 1451-1466. *)
Definition e_v2_generic_device_model_status_enum : enum := Enum "GenericDeviceModelStatusEnum"
  ["Accepted"; "Rejected"; "NotSupported"; "EmptyResultSet"]
  [("Accepted", "Accepted"); ("Rejected", "Rejected"); ("NotSupported", "NotSupported"); ("EmptyResultSet", "EmptyResultSet")]
  [("Accepted", "Accepted"); ("Rejected", "Rejected"); ("NotSupported", "NotSupported"); ("EmptyResultSet", "EmptyResultSet")].

(** CertificateStatusSourceEnum: include/ocpp/v2/ocpp_enums.hpp 801-804, lib/ocpp/v2/ocpp_enums.cpp 1476-1485 and 1487-1496. *)
Definition e_v2_certificate_status_source_enum : enum := Enum "CertificateStatusSourceEnum"
  ["CRL"; "OCSP"]
  [("CRL", "CRL"); ("OCSP", "OCSP")]
  [("CRL", "CRL"); ("OCSP", "OCSP")].

(** CertificateStatusEnum: include/ocpp/v2/ocpp_enums.hpp 822-827, lib/ocpp/v2/ocpp_enums.cpp 1506-1519 and 1521-1536. *)
Definition e_v2_certificate_status_enum : enum := Enum "CertificateStatusEnum"
  ["Good"; "Revoked"; "Unknown"; "Failed"]
  [("Good", "Good"); ("Revoked", "Revoked"); ("Unknown", "Unknown"); ("Failed", "Failed")]
  [("Good", "Good"); ("Revoked", "Revoked"); ("Unknown", "Unknown"); ("Failed", "Failed")].

(** GetCertificateStatusEnum: include/ocpp/v2/ocpp_enums.hpp 845-848, lib/ocpp/v2/ocpp_enums.cpp 1546-1555 and 1557-1566. *)
Definition e_v2_get_certificate_status_enum : enum := Enum "GetCertificateStatusEnum"
  ["Accepted"; "Failed"]
  [("Accepted", "Accepted"); ("Failed", "Failed")]
  [("Accepted", "Accepted"); ("Failed", "Failed")].

(** GetChargingProfileStatusEnum: include/ocpp/v2/ocpp_enums.hpp 866-869, lib/ocpp/v2/ocpp_enums.cpp 1576-1585 and 1587-1596. *)
Definition e_v2_get_charging_profile_status_enum : enum := Enum "GetChargingProfileStatusEnum"
  ["Accepted"; "NoProfiles"]
  [("Accepted", "Accepted"); ("NoProfiles", "NoProfiles")]
  [("Accepted", "Accepted"); ("NoProfiles", "NoProfiles")].

(** ChargingRateUnitEnum: include/ocpp/v2/ocpp_enums.hpp 887-890, lib/ocpp/v2/ocpp_enums.cpp 1606-1615 and 1617-1626. *)
Definition e_v2_charging_rate_unit_enum : enum := Enum "ChargingRateUnitEnum"
  ["W"; "A"]
  [("W", "W"); ("A", "A")]
  [("W", "W"); ("A", "A")].

(** OperationModeEnum: include/ocpp/v2/ocpp_enums.hpp 908-917, lib/ocpp/v2/ocpp_enums.cpp 1636-1657 and 1659-1686. *)
Definition e_v2_operation_mode_enum : enum := Enum "OperationModeEnum"
  ["Idle"; "ChargingOnly"; "CentralSetpoint"; "ExternalSetpoint"; "ExternalLimits"; "CentralFrequency"; "LocalFrequency"; "LocalLoadBalancing"]
  [("Idle", "Idle"); ("ChargingOnly", "ChargingOnly"); ("CentralSetpoint", "CentralSetpoint"); ("ExternalSetpoint", "ExternalSetpoint"); ("ExternalLimits", "ExternalLimits"); ("CentralFrequency", "CentralFrequency"); ("LocalFrequency", "LocalFrequency"); ("LocalLoadBalancing", "LocalLoadBalancing")]
  [("Idle", "Idle"); ("ChargingOnly", "ChargingOnly"); ("CentralSetpoint", "CentralSetpoint"); ("ExternalSetpoint", "ExternalSetpoint"); ("ExternalLimits", "ExternalLimits"); ("CentralFrequency", "CentralFrequency"); ("LocalFrequency", "LocalFrequency"); ("LocalLoadBalancing", "LocalLoadBalancing")].

(** MessagePriorityEnum: include/ocpp/v2/ocpp_enums.hpp 935-939, lib/ocpp/v2/ocpp_enums.cpp 1696-1707 and 1709-1721. *)
Definition e_v2_message_priority_enum : enum := Enum "MessagePriorityEnum"
  ["AlwaysFront"; "InFront"; "NormalCycle"]
  [("AlwaysFront", "AlwaysFront"); ("InFront", "InFront"); ("NormalCycle", "NormalCycle")]
  [("AlwaysFront", "AlwaysFront"); ("InFront", "InFront"); ("NormalCycle", "NormalCycle")].

(** MessageStateEnum: include/ocpp/v2/ocpp_enums.hpp 957-964, lib/ocpp/v2/ocpp_enums.cpp 1731-1748 and 1750-1771. *)
Definition e_v2_message_state_enum : enum := Enum "MessageStateEnum"
  ["Charging"; "Faulted"; "Idle"; "Unavailable"; "Suspended"; "Discharging"]
  [("Charging", "Charging"); ("Faulted", "Faulted"); ("Idle", "Idle"); ("Unavailable", "Unavailable"); ("Suspended", "Suspended"); ("Discharging", "Discharging")]
  [("Charging", "Charging"); ("Faulted", "Faulted"); ("Idle", "Idle"); ("Unavailable", "Unavailable"); ("Suspended", "Suspended"); ("Discharging", "Discharging")].

(** GetDisplayMessagesStatusEnum: include/ocpp/v2/ocpp_enums.hpp 982-985, lib/ocpp/v2/ocpp_enums.cpp 1781-1790 and 1792-1801. *)
Definition e_v2_get_display_messages_status_enum : enum := Enum "GetDisplayMessagesStatusEnum"
  ["Accepted"; "Unknown"]
  [("Accepted", "Accepted"); ("Unknown", "Unknown")]
  [("Accepted", "Accepted"); ("Unknown", "Unknown")].

(** GetCertificateIdUseEnum: include/ocpp/v2/ocpp_enums.hpp 1003-1010, lib/ocpp/v2/ocpp_enums.cpp 1811-1828 and 1830-1851. *)
Definition e_v2_get_certificate_id_use_enum : enum := Enum "GetCertificateIdUseEnum"
  ["V2GRootCertificate"; "MORootCertificate"; "CSMSRootCertificate"; "V2GCertificateChain"; "ManufacturerRootCertificate"; "OEMRootCertificate"]
  [("V2GRootCertificate", "V2GRootCertificate"); ("MORootCertificate", "MORootCertificate"); ("CSMSRootCertificate", "CSMSRootCertificate"); ("V2GCertificateChain", "V2GCertificateChain"); ("ManufacturerRootCertificate", "ManufacturerRootCertificate"); ("OEMRootCertificate", "OEMRootCertificate")]
  [("V2GRootCertificate", "V2GRootCertificate"); ("MORootCertificate", "MORootCertificate"); ("CSMSRootCertificate", "CSMSRootCertificate"); ("V2GCertificateChain", "V2GCertificateChain"); ("ManufacturerRootCertificate", "ManufacturerRootCertificate"); ("OEMRootCertificate", "OEMRootCertificate")].

(** GetInstalledCertificateStatusEnum: include/ocpp/v2/ocpp_enums.hpp 1028-1031, lib/ocpp/v2/ocpp_enums.cpp 1861-1870 and 1872-1881. *)
Definition e_v2_get_installed_certificate_status_enum : enum := Enum "GetInstalledCertificateStatusEnum"
  ["Accepted"; "NotFound"]
  [("Accepted", "Accepted"); ("NotFound", "NotFound")]
  [("Accepted", "Accepted"); ("NotFound", "NotFound")].

(** LogEnum: include/ocpp/v2/ocpp_enums.hpp 1050-1054, lib/ocpp/v2/ocpp_enums.cpp 1892-1903 and 1905-1917. *)
Definition e_v2_log_enum : enum := Enum "LogEnum"
  ["DiagnosticsLog"; "SecurityLog"; "DataCollectorLog"]
  [("DiagnosticsLog", "DiagnosticsLog"); ("SecurityLog", "SecurityLog"); ("DataCollectorLog", "DataCollectorLog")]
  [("DiagnosticsLog", "DiagnosticsLog"); ("SecurityLog", "SecurityLog"); ("DataCollectorLog", "DataCollectorLog")].

(** LogStatusEnum: include/ocpp/v2/ocpp_enums.hpp 1071-1075, lib/ocpp/v2/ocpp_enums.cpp 1927-1938 and 1940-1952. *)
Definition e_v2_log_status_enum : enum := Enum "LogStatusEnum"
  ["Accepted"; "Rejected"; "AcceptedCanceled"]
  [("Accepted", "Accepted"); ("Rejected", "Rejected"); ("AcceptedCanceled", "AcceptedCanceled")]
  [("Accepted", "Accepted"); ("Rejected", "Rejected"); ("AcceptedCanceled", "AcceptedCanceled")].

(** MonitoringCriterionEnum: include/ocpp/v2/ocpp_enums.hpp 1093-1097, lib/ocpp/v2/ocpp_enums.cpp 1962-1973 and 1975-1987. *)
Definition e_v2_monitoring_criterion_enum : enum := Enum "MonitoringCriterionEnum"
  ["ThresholdMonitoring"; "DeltaMonitoring"; "PeriodicMonitoring"]
  [("ThresholdMonitoring", "ThresholdMonitoring"); ("DeltaMonitoring", "DeltaMonitoring"); ("PeriodicMonitoring", "PeriodicMonitoring")]
  [("ThresholdMonitoring", "ThresholdMonitoring"); ("DeltaMonitoring", "DeltaMonitoring"); ("PeriodicMonitoring", "PeriodicMonitoring")].

(** ComponentCriterionEnum: include/ocpp/v2/ocpp_enums.hpp 1115-1120, lib/ocpp/v2/ocpp_enums.cpp 1997-2010 and 2012-2027. *)
Definition e_v2_component_criterion_enum : enum := Enum "ComponentCriterionEnum"
  ["Active"; "Available"; "Enabled"; "Problem"]
  [("Active", "Active"); ("Available", "Available"); ("Enabled", "Enabled"); ("Problem", "Problem")]
  [("Active", "Active"); ("Available", "Available"); ("Enabled", "Enabled"); ("Problem", "Problem")].

(** TariffGetStatusEnum: include/ocpp/v2/ocpp_enums.hpp 1138-1142, lib/ocpp/v2/ocpp_enums.cpp 2037-2048 and 2050-2062. *)
Definition e_v2_tariff_get_status_enum : enum := Enum "TariffGetStatusEnum"
  ["Accepted"; "Rejected"; "NoTariff"]
  [("Accepted", "Accepted"); ("Rejected", "Rejected"); ("NoTariff", "NoTariff")]
  [("Accepted", "Accepted"); ("Rejected", "Rejected"); ("NoTariff", "NoTariff")].

(** TariffKindEnum: include/ocpp/v2/ocpp_enums.hpp 1160-1163, lib/ocpp/v2/ocpp_enums.cpp 2072-2081 and 2083-2092. *)
Definition e_v2_tariff_kind_enum : enum := Enum "TariffKindEnum"
  ["DefaultTariff"; "DriverTariff"]
  [("DefaultTariff", "DefaultTariff"); ("DriverTariff", "DriverTariff")]
  [("DefaultTariff", "DefaultTariff"); ("DriverTariff", "DriverTariff")].

(** AttributeEnum: include/ocpp/v2/ocpp_enums.hpp 1181-1186, lib/ocpp/v2/ocpp_enums.cpp 2102-2115 and 2117-2132. *)
Definition e_v2_attribute_enum : enum := Enum "AttributeEnum"
  ["Actual"; "Target"; "MinSet"; "MaxSet"]
  [("Actual", "Actual"); ("Target", "Target"); ("MinSet", "MinSet"); ("MaxSet", "MaxSet")]
  [("Actual", "Actual"); ("Target", "Target"); ("MinSet", "MinSet"); ("MaxSet", "MaxSet")].

(** GetVariableStatusEnum: include/ocpp/v2/ocpp_enums.hpp 1204-1210, lib/ocpp/v2/ocpp_enums.cpp 2142-2157 and 2159-2177. *)
Definition e_v2_get_variable_status_enum : enum := Enum "GetVariableStatusEnum"
  ["Accepted"; "Rejected"; "UnknownComponent"; "UnknownVariable"; "NotSupportedAttributeType"]
  [("Accepted", "Accepted"); ("Rejected", "Rejected"); ("UnknownComponent", "UnknownComponent"); ("UnknownVariable", "UnknownVariable"); ("NotSupportedAttributeType", "NotSupportedAttributeType")]
  [("Accepted", "Accepted"); ("Rejected", "Rejected"); ("UnknownComponent", "UnknownComponent"); ("UnknownVariable", "UnknownVariable"); ("NotSupportedAttributeType", "NotSupportedAttributeType")].

(** InstallCertificateUseEnum: include/ocpp/v2/ocpp_enums.hpp 1228-1234, lib/ocpp/v2/ocpp_enums.cpp 2187-2202 and 2204-2222. *)
Definition e_v2_install_certificate_use_enum : enum := Enum "InstallCertificateUseEnum"
  ["V2GRootCertificate"; "MORootCertificate"; "ManufacturerRootCertificate"; "CSMSRootCertificate"; "OEMRootCertificate"]
  [("V2GRootCertificate", "V2GRootCertificate"); ("MORootCertificate", "MORootCertificate"); ("ManufacturerRootCertificate", "ManufacturerRootCertificate"); ("CSMSRootCertificate", "CSMSRootCertificate"); ("OEMRootCertificate", "OEMRootCertificate")]
  [("V2GRootCertificate", "V2GRootCertificate"); ("MORootCertificate", "MORootCertificate"); ("ManufacturerRootCertificate", "ManufacturerRootCertificate"); ("CSMSRootCertificate", "CSMSRootCertificate"); ("OEMRootCertificate", "OEMRootCertificate")].

(** InstallCertificateStatusEnum: include/ocpp/v2/ocpp_enums.hpp 1252-1256, lib/ocpp/v2/ocpp_enums.cpp 2232-2243 and 2245-2257. *)
Definition e_v2_install_certificate_status_enum : enum := Enum "InstallCertificateStatusEnum"
  ["Accepted"; "Rejected"; "Failed"]
  [("Accepted", "Accepted"); ("Rejected", "Rejected"); ("Failed", "Failed")]
  [("Accepted", "Accepted"); ("Rejected", "Rejected"); ("Failed", "Failed")].

(** UploadLogStatusEnum: include/ocpp/v2/ocpp_enums.hpp 1274-1283, lib/ocpp/v2/ocpp_enums.cpp 2267-2288 and 2290-2317. *)
Definition e_v2_upload_log_status_enum : enum := Enum "UploadLogStatusEnum"
  ["BadMessage"; "Idle"; "NotSupportedOperation"; "PermissionDenied"; "Uploaded"; "UploadFailure"; "Uploading"; "AcceptedCanceled"]
  [("BadMessage", "BadMessage"); ("Idle", "Idle"); ("NotSupportedOperation", "NotSupportedOperation"); ("PermissionDenied", "PermissionDenied"); ("Uploaded", "Uploaded"); ("UploadFailure", "UploadFailure"); ("Uploading", "Uploading"); ("AcceptedCanceled", "AcceptedCanceled")]
  [("BadMessage", "BadMessage"); ("Idle", "Idle"); ("NotSupportedOperation", "NotSupportedOperation"); ("PermissionDenied", "PermissionDenied"); ("Uploaded", "Uploaded"); ("UploadFailure", "UploadFailure"); ("Uploading", "Uploading"); ("AcceptedCanceled", "AcceptedCanceled")].

(** MeasurandEnum: include/ocpp/v2/ocpp_enums.hpp 1301-1358, lib/ocpp/v2/ocpp_enums.cpp 2327-2444 and 2446-2617. *)
Definition e_v2_measurand_enum : enum := Enum "MeasurandEnum"
  ["Current_Export"; "Current_Export_Offered"; "Current_Export_Minimum"; "Current_Import"; "Current_Import_Offered"; "Current_Import_Minimum"; "Current_Offered"; "Display_PresentSOC"; "Display_MinimumSOC"; "Display_TargetSOC"; "Display_MaximumSOC"; "Display_RemainingTimeToMinimumSOC"; "Display_RemainingTimeToTargetSOC"; "Display_RemainingTimeToMaximumSOC"; "Display_ChargingComplete"; "Display_BatteryEnergyCapacity"; "Display_InletHot"; "Energy_Active_Export_Interval"; "Energy_Active_Export_Register"; "Energy_Active_Import_Interval"; "Energy_Active_Import_Register"; "Energy_Active_Import_CableLoss"; "Energy_Active_Import_LocalGeneration_Register"; "Energy_Active_Net"; "Energy_Active_Setpoint_Interval"; "Energy_Apparent_Export"; "Energy_Apparent_Import"; "Energy_Apparent_Net"; "Energy_Reactive_Export_Interval"; "Energy_Reactive_Export_Register"; "Energy_Reactive_Import_Interval"; "Energy_Reactive_Import_Register"; "Energy_Reactive_Net"; "EnergyRequest_Target"; "EnergyRequest_Minimum"; "EnergyRequest_Maximum"; "EnergyRequest_Minimum_V2X"; "EnergyRequest_Maximum_V2X"; "EnergyRequest_Bulk"; "Frequency"; "Power_Active_Export"; "Power_Active_Import"; "Power_Active_Setpoint"; "Power_Active_Residual"; "Power_Export_Minimum"; "Power_Export_Offered"; "Power_Factor"; "Power_Import_Offered"; "Power_Import_Minimum"; "Power_Offered"; "Power_Reactive_Export"; "Power_Reactive_Import"; "SoC"; "Voltage"; "Voltage_Minimum"; "Voltage_Maximum"]
  [("Current_Export", "Current.Export"); ("Current_Export_Offered", "Current.Export.Offered"); ("Current_Export_Minimum", "Current.Export.Minimum"); ("Current_Import", "Current.Import"); ("Current_Import_Offered", "Current.Import.Offered"); ("Current_Import_Minimum", "Current.Import.Minimum"); ("Current_Offered", "Current.Offered"); ("Display_PresentSOC", "Display.PresentSOC"); ("Display_MinimumSOC", "Display.MinimumSOC"); ("Display_TargetSOC", "Display.TargetSOC"); ("Display_MaximumSOC", "Display.MaximumSOC"); ("Display_RemainingTimeToMinimumSOC", "Display.RemainingTimeToMinimumSOC"); ("Display_RemainingTimeToTargetSOC", "Display.RemainingTimeToTargetSOC"); ("Display_RemainingTimeToMaximumSOC", "Display.RemainingTimeToMaximumSOC"); ("Display_ChargingComplete", "Display.ChargingComplete"); ("Display_BatteryEnergyCapacity", "Display.BatteryEnergyCapacity"); ("Display_InletHot", "Display.InletHot"); ("Energy_Active_Export_Interval", "Energy.Active.Export.Interval"); ("Energy_Active_Export_Register", "Energy.Active.Export.Register"); ("Energy_Active_Import_Interval", "Energy.Active.Import.Interval"); ("Energy_Active_Import_Register", "Energy.Active.Import.Register"); ("Energy_Active_Import_CableLoss", "Energy.Active.Import.CableLoss"); ("Energy_Active_Import_LocalGeneration_Register", "Energy.Active.Import.LocalGeneration.Register"); ("Energy_Active_Net", "Energy.Active.Net"); ("Energy_Active_Setpoint_Interval", "Energy.Active.Setpoint.Interval"); ("Energy_Apparent_Export", "Energy.Apparent.Export"); ("Energy_Apparent_Import", "Energy.Apparent.Import"); ("Energy_Apparent_Net", "Energy.Apparent.Net"); ("Energy_Reactive_Export_Interval", "Energy.Reactive.Export.Interval"); ("Energy_Reactive_Export_Register", "Energy.Reactive.Export.Register"); ("Energy_Reactive_Import_Interval", "Energy.Reactive.Import.Interval"); ("Energy_Reactive_Import_Register", "Energy.Reactive.Import.Register"); ("Energy_Reactive_Net", "Energy.Reactive.Net"); ("EnergyRequest_Target", "EnergyRequest.Target"); ("EnergyRequest_Minimum", "EnergyRequest.Minimum"); ("EnergyRequest_Maximum", "EnergyRequest.Maximum"); ("EnergyRequest_Minimum_V2X", "EnergyRequest.Minimum.V2X"); ("EnergyRequest_Maximum_V2X", "EnergyRequest.Maximum.V2X"); ("EnergyRequest_Bulk", "EnergyRequest.Bulk"); ("Frequency", "Frequency"); ("Power_Active_Export", "Power.Active.Export"); ("Power_Active_Import", "Power.Active.Import"); ("Power_Active_Setpoint", "Power.Active.Setpoint"); ("Power_Active_Residual", "Power.Active.Residual"); ("Power_Export_Minimum", "Power.Export.Minimum"); ("Power_Export_Offered", "Power.Export.Offered"); ("Power_Factor", "Power.Factor"); ("Power_Import_Offered", "Power.Import.Offered"); ("Power_Import_Minimum", "Power.Import.Minimum"); ("Power_Offered", "Power.Offered"); ("Power_Reactive_Export", "Power.Reactive.Export"); ("Power_Reactive_Import", "Power.Reactive.Import"); ("SoC", "SoC"); ("Voltage", "Voltage"); ("Voltage_Minimum", "Voltage.Minimum"); ("Voltage_Maximum", "Voltage.Maximum")]
  [("Current.Export", "Current_Export"); ("Current.Export.Offered", "Current_Export_Offered"); ("Current.Export.Minimum", "Current_Export_Minimum"); ("Current.Import", "Current_Import"); ("Current.Import.Offered", "Current_Import_Offered"); ("Current.Import.Minimum", "Current_Import_Minimum"); ("Current.Offered", "Current_Offered"); ("Display.PresentSOC", "Display_PresentSOC"); ("Display.MinimumSOC", "Display_MinimumSOC"); ("Display.TargetSOC", "Display_TargetSOC"); ("Display.MaximumSOC", "Display_MaximumSOC"); ("Display.RemainingTimeToMinimumSOC", "Display_RemainingTimeToMinimumSOC"); ("Display.RemainingTimeToTargetSOC", "Display_RemainingTimeToTargetSOC"); ("Display.RemainingTimeToMaximumSOC", "Display_RemainingTimeToMaximumSOC"); ("Display.ChargingComplete", "Display_ChargingComplete"); ("Display.BatteryEnergyCapacity", "Display_BatteryEnergyCapacity"); ("Display.InletHot", "Display_InletHot"); ("Energy.Active.Export.Interval", "Energy_Active_Export_Interval"); ("Energy.Active.Export.Register", "Energy_Active_Export_Register"); ("Energy.Active.Import.Interval", "Energy_Active_Import_Interval"); ("Energy.Active.Import.Register", "Energy_Active_Import_Register"); ("Energy.Active.Import.CableLoss", "Energy_Active_Import_CableLoss"); ("Energy.Active.Import.LocalGeneration.Register", "Energy_Active_Import_LocalGeneration_Register"); ("Energy.Active.Net", "Energy_Active_Net"); ("Energy.Active.Setpoint.Interval", "Energy_Active_Setpoint_Interval"); ("Energy.Apparent.Export", "Energy_Apparent_Export"); ("Energy.Apparent.Import", "Energy_Apparent_Import"); ("Energy.Apparent.Net", "Energy_Apparent_Net"); ("Energy.Reactive.Export.Interval", "Energy_Reactive_Export_Interval"); ("Energy.Reactive.Export.Register", "Energy_Reactive_Export_Register"); ("Energy.Reactive.Import.Interval", "Energy_Reactive_Import_Interval"); ("Energy.Reactive.Import.Register", "Energy_Reactive_Import_Register"); ("Energy.Reactive.Net", "Energy_Reactive_Net"); ("EnergyRequest.Target", "EnergyRequest_Target"); ("EnergyRequest.Minimum", "EnergyRequest_Minimum"); ("EnergyRequest.Maximum", "EnergyRequest_Maximum"); ("EnergyRequest.Minimum.V2X", "EnergyRequest_Minimum_V2X"); ("EnergyRequest.Maximum.V2X", "EnergyRequest_Maximum_V2X"); ("EnergyRequest.Bulk", "EnergyRequest_Bulk"); ("Frequency", "Frequency"); ("Power.Active.Export", "Power_Active_Export"); ("Power.Active.Import", "Power_Active_Import"); ("Power.Active.Setpoint", "Power_Active_Setpoint"); ("Power.Active.Residual", "Power_Active_Residual"); ("Power.Export.Minimum", "Power_Export_Minimum"); ("Power.Export.Offered", "Power_Export_Offered"); ("Power.Factor", "Power_Factor"); ("Power.Import.Offered", "Power_Import_Offered"); ("Power.Import.Minimum", "Power_Import_Minimum"); ("Power.Offered", "Power_Offered"); ("Power.Reactive.Export", "Power_Reactive_Export"); ("Power.Reactive.Import", "Power_Reactive_Import"); ("SoC", "SoC"); ("Voltage", "Voltage"); ("Voltage.Minimum", "Voltage_Minimum"); ("Voltage.Maximum", "Voltage_Maximum")].

(** ReadingContextEnum: include/ocpp/v2/ocpp_enums.hpp 1376-1385, lib/ocpp/v2/ocpp_enums.cpp 2627-2648 and 2650-2677. *)
Definition e_v2_reading_context_enum : enum := Enum "ReadingContextEnum"
  ["Interruption_Begin"; "Interruption_End"; "Other"; "Sample_Clock"; "Sample_Periodic"; "Transaction_Begin"; "Transaction_End"; "Trigger"]
  [("Interruption_Begin", "Interruption.Begin"); ("Interruption_End", "Interruption.End"); ("Other", "Other"); ("Sample_Clock", "Sample.Clock"); ("Sample_Periodic", "Sample.Periodic"); ("Transaction_Begin", "Transaction.Begin"); ("Transaction_End", "Transaction.End"); ("Trigger", "Trigger")]
  [("Interruption.Begin", "Interruption_Begin"); ("Interruption.End", "Interruption_End"); ("Other", "Other"); ("Sample.Clock", "Sample_Clock"); ("Sample.Periodic", "Sample_Periodic"); ("Transaction.Begin", "Transaction_Begin"); ("Transaction.End", "Transaction_End"); ("Trigger", "Trigger")].

(** PhaseEnum: include/ocpp/v2/ocpp_enums.hpp 1403-1414, lib/ocpp/v2/ocpp_enums.cpp 2687-2712 and 2714-2747. *)
Definition e_v2_phase_enum : enum := Enum "PhaseEnum"
  ["L1"; "L2"; "L3"; "N"; "L1_N"; "L2_N"; "L3_N"; "L1_L2"; "L2_L3"; "L3_L1"]
  [("L1", "L1"); ("L2", "L2"); ("L3", "L3"); ("N", "N"); ("L1_N", "L1-N"); ("L2_N", "L2-N"); ("L3_N", "L3-N"); ("L1_L2", "L1-L2"); ("L2_L3", "L2-L3"); ("L3_L1", "L3-L1")]
  [("L1", "L1"); ("L2", "L2"); ("L3", "L3"); ("N", "N"); ("L1-N", "L1_N"); ("L2-N", "L2_N"); ("L3-N", "L3_N"); ("L1-L2", "L1_L2"); ("L2-L3", "L2_L3"); ("L3-L1", "L3_L1")].

(** LocationEnum: include/ocpp/v2/ocpp_enums.hpp 1431-1438, lib/ocpp/v2/ocpp_enums.cpp 2757-2774 and 2776-2797. *)
Definition e_v2_location_enum : enum := Enum "LocationEnum"
  ["Body"; "Cable"; "EV"; "Inlet"; "Outlet"; "Upstream"]
  [("Body", "Body"); ("Cable", "Cable"); ("EV", "EV"); ("Inlet", "Inlet"); ("Outlet", "Outlet"); ("Upstream", "Upstream")]
  [("Body", "Body"); ("Cable", "Cable"); ("EV", "EV"); ("Inlet", "Inlet"); ("Outlet", "Outlet"); ("Upstream", "Upstream")].

(** NotifyAllowedEnergyTransferStatusEnum: include/ocpp/v2/ocpp_enums.hpp 1455-1458, lib/ocpp/v2/ocpp_enums.cpp 2807-2816 and 2818-2827. *)
Definition e_v2_notify_allowed_energy_transfer_status_enum : enum := Enum "NotifyAllowedEnergyTransferStatusEnum"
  ["Accepted"; "Rejected"]
  [("Accepted", "Accepted"); ("Rejected", "Rejected")]
  [("Accepted", "Accepted"); ("Rejected", "Rejected")].

(** CostKindEnum: include/ocpp/v2/ocpp_enums.hpp 1477-1481, lib/ocpp/v2/ocpp_enums.cpp 2838-2849 and 2851-2863. *)
Definition e_v2_cost_kind_enum : enum := Enum "CostKindEnum"
  ["CarbonDioxideEmission"; "RelativePricePercentage"; "RenewableGenerationPercentage"]
  [("CarbonDioxideEmission", "CarbonDioxideEmission"); ("RelativePricePercentage", "RelativePricePercentage"); ("RenewableGenerationPercentage", "RenewableGenerationPercentage")]
  [("CarbonDioxideEmission", "CarbonDioxideEmission"); ("RelativePricePercentage", "RelativePricePercentage"); ("RenewableGenerationPercentage", "RenewableGenerationPercentage")].

(** GridEventFaultEnum: include/ocpp/v2/ocpp_enums.hpp 1498-1510, lib/ocpp/v2/ocpp_enums.cpp 2873-2900 and 2902-2938. *)
Definition e_v2_grid_event_fault_enum : enum := Enum "GridEventFaultEnum"
  ["CurrentImbalance"; "LocalEmergency"; "LowInputPower"; "OverCurrent"; "OverFrequency"; "OverVoltage"; "PhaseRotation"; "RemoteEmergency"; "UnderFrequency"; "UnderVoltage"; "VoltageImbalance"]
  [("CurrentImbalance", "CurrentImbalance"); ("LocalEmergency", "LocalEmergency"); ("LowInputPower", "LowInputPower"); ("OverCurrent", "OverCurrent"); ("OverFrequency", "OverFrequency"); ("OverVoltage", "OverVoltage"); ("PhaseRotation", "PhaseRotation"); ("RemoteEmergency", "RemoteEmergency"); ("UnderFrequency", "UnderFrequency"); ("UnderVoltage", "UnderVoltage"); ("VoltageImbalance", "VoltageImbalance")]
  [("CurrentImbalance", "CurrentImbalance"); ("LocalEmergency", "LocalEmergency"); ("LowInputPower", "LowInputPower"); ("OverCurrent", "OverCurrent"); ("OverFrequency", "OverFrequency"); ("OverVoltage", "OverVoltage"); ("PhaseRotation", "PhaseRotation"); ("RemoteEmergency", "RemoteEmergency"); ("UnderFrequency", "UnderFrequency"); ("UnderVoltage", "UnderVoltage"); ("VoltageImbalance", "VoltageImbalance")].

(** IslandingDetectionEnum: include/ocpp/v2/ocpp_enums.hpp 1528-1544, lib/ocpp/v2/ocpp_enums.cpp 2948-2983 and 2985-3033. *)
Definition e_v2_islanding_detection_enum : enum := Enum "IslandingDetectionEnum"
  ["NoAntiIslandingSupport"; "RoCoF"; "UVP_OVP"; "UFP_OFP"; "VoltageVectorShift"; "ZeroCrossingDetection"; "OtherPassive"; "ImpedanceMeasurement"; "ImpedanceAtFrequency"; "SlipModeFrequencyShift"; "SandiaFrequencyShift"; "SandiaVoltageShift"; "FrequencyJump"; "RCLQFactor"; "OtherActive"]
  [("NoAntiIslandingSupport", "NoAntiIslandingSupport"); ("RoCoF", "RoCoF"); ("UVP_OVP", "UVP_OVP"); ("UFP_OFP", "UFP_OFP"); ("VoltageVectorShift", "VoltageVectorShift"); ("ZeroCrossingDetection", "ZeroCrossingDetection"); ("OtherPassive", "OtherPassive"); ("ImpedanceMeasurement", "ImpedanceMeasurement"); ("ImpedanceAtFrequency", "ImpedanceAtFrequency"); ("SlipModeFrequencyShift", "SlipModeFrequencyShift"); ("SandiaFrequencyShift", "SandiaFrequencyShift"); ("SandiaVoltageShift", "SandiaVoltageShift"); ("FrequencyJump", "FrequencyJump"); ("RCLQFactor", "RCLQFactor"); ("OtherActive", "OtherActive")]
  [("NoAntiIslandingSupport", "NoAntiIslandingSupport"); ("RoCoF", "RoCoF"); ("UVP_OVP", "UVP_OVP"); ("UFP_OFP", "UFP_OFP"); ("VoltageVectorShift", "VoltageVectorShift"); ("ZeroCrossingDetection", "ZeroCrossingDetection"); ("OtherPassive", "OtherPassive"); ("ImpedanceMeasurement", "ImpedanceMeasurement"); ("ImpedanceAtFrequency", "ImpedanceAtFrequency"); ("SlipModeFrequencyShift", "SlipModeFrequencyShift"); ("SandiaFrequencyShift", "SandiaFrequencyShift"); ("SandiaVoltageShift", "SandiaVoltageShift"); ("FrequencyJump", "FrequencyJump"); ("RCLQFactor", "RCLQFactor"); ("OtherActive", "OtherActive")].

(** ControlModeEnum: include/ocpp/v2/ocpp_enums.hpp 1562-1565, lib/ocpp/v2/ocpp_enums.cpp 3043-3052 and 3054-3063. *)
Definition e_v2_control_mode_enum : enum := Enum "ControlModeEnum"
  ["ScheduledControl"; "DynamicControl"]
  [("ScheduledControl", "ScheduledControl"); ("DynamicControl", "DynamicControl")]
  [("ScheduledControl", "ScheduledControl"); ("DynamicControl", "DynamicControl")].

(** MobilityNeedsModeEnum: include/ocpp/v2/ocpp_enums.hpp 1583-1586, lib/ocpp/v2/ocpp_enums.cpp 3073-3082 and 3084-3093. *)
Definition e_v2_mobility_needs_mode_enum : enum := Enum "MobilityNeedsModeEnum"
  ["EVCC"; "EVCC_SECC"]
  [("EVCC", "EVCC"); ("EVCC_SECC", "EVCC_SECC")]
  [("EVCC", "EVCC"); ("EVCC_SECC", "EVCC_SECC")].

(** NotifyEVChargingNeedsStatusEnum: include/ocpp/v2/ocpp_enums.hpp 1604-1609, lib/ocpp/v2/ocpp_enums.cpp 3103-3116 and 3118-3133. *)
Definition e_v2_notify_evcharging_needs_status_enum : enum := Enum "NotifyEVChargingNeedsStatusEnum"
  ["Accepted"; "Rejected"; "Processing"; "NoChargingProfile"]
  [("Accepted", "Accepted"); ("Rejected", "Rejected"); ("Processing", "Processing"); ("NoChargingProfile", "NoChargingProfile")]
  [("Accepted", "Accepted"); ("Rejected", "Rejected"); ("Processing", "Processing"); ("NoChargingProfile", "NoChargingProfile")].

(** EventTriggerEnum: include/ocpp/v2/ocpp_enums.hpp 1627-1631, lib/ocpp/v2/ocpp_enums.cpp 3143-3154 and 3156-3168. *)
Definition e_v2_event_trigger_enum : enum := Enum "EventTriggerEnum"
  ["Alerting"; "Delta"; "Periodic"]
  [("Alerting", "Alerting"); ("Delta", "Delta"); ("Periodic", "Periodic")]
  [("Alerting", "Alerting"); ("Delta", "Delta"); ("Periodic", "Periodic")].

(** EventNotificationEnum: include/ocpp/v2/ocpp_enums.hpp 1649-1654, lib/ocpp/v2/ocpp_enums.cpp 3178-3191 and 3193-3208. *)
Definition e_v2_event_notification_enum : enum := Enum "EventNotificationEnum"
  ["HardWiredNotification"; "HardWiredMonitor"; "PreconfiguredMonitor"; "CustomMonitor"]
  [("HardWiredNotification", "HardWiredNotification"); ("HardWiredMonitor", "HardWiredMonitor"); ("PreconfiguredMonitor", "PreconfiguredMonitor"); ("CustomMonitor", "CustomMonitor")]
  [("HardWiredNotification", "HardWiredNotification"); ("HardWiredMonitor", "HardWiredMonitor"); ("PreconfiguredMonitor", "PreconfiguredMonitor"); ("CustomMonitor", "CustomMonitor")].

(** MonitorEnum: include/ocpp/v2/ocpp_enums.hpp 1672-1680, lib/ocpp/v2/ocpp_enums.cpp 3218-3237 and 3239-3263. *)
Definition e_v2_monitor_enum : enum := Enum "MonitorEnum"
  ["UpperThreshold"; "LowerThreshold"; "Delta"; "Periodic"; "PeriodicClockAligned"; "TargetDelta"; "TargetDeltaRelative"]
  [("UpperThreshold", "UpperThreshold"); ("LowerThreshold", "LowerThreshold"); ("Delta", "Delta"); ("Periodic", "Periodic"); ("PeriodicClockAligned", "PeriodicClockAligned"); ("TargetDelta", "TargetDelta"); ("TargetDeltaRelative", "TargetDeltaRelative")]
  [("UpperThreshold", "UpperThreshold"); ("LowerThreshold", "LowerThreshold"); ("Delta", "Delta"); ("Periodic", "Periodic"); ("PeriodicClockAligned", "PeriodicClockAligned"); ("TargetDelta", "TargetDelta"); ("TargetDeltaRelative", "TargetDeltaRelative")].

(** MutabilityEnum: include/ocpp/v2/ocpp_enums.hpp 1697-1701, lib/ocpp/v2/ocpp_enums.cpp 3273-3284 and 3286-3298. *)
Definition e_v2_mutability_enum : enum := Enum "MutabilityEnum"
  ["ReadOnly"; "WriteOnly"; "ReadWrite"]
  [("ReadOnly", "ReadOnly"); ("WriteOnly", "WriteOnly"); ("ReadWrite", "ReadWrite")]
  [("ReadOnly", "ReadOnly"); ("WriteOnly", "WriteOnly"); ("ReadWrite", "ReadWrite")].

(** DataEnum: include/ocpp/v2/ocpp_enums.hpp 1719-1728, lib/ocpp/v2/ocpp_enums.cpp 3308-3329 and 3331-3358. *)
Definition e_v2_data_enum : enum := Enum "DataEnum"
  ["string"; "decimal"; "integer"; "dateTime"; "boolean"; "OptionList"; "SequenceList"; "MemberList"]
  [("string", "string"); ("decimal", "decimal"); ("integer", "integer"); ("dateTime", "dateTime"); ("boolean", "boolean"); ("OptionList", "OptionList"); ("SequenceList", "SequenceList"); ("MemberList", "MemberList")]
  [("string", "string"); ("decimal", "decimal"); ("integer", "integer"); ("dateTime", "dateTime"); ("boolean", "boolean"); ("OptionList", "OptionList"); ("SequenceList", "SequenceList"); ("MemberList", "MemberList")].

(** PaymentStatusEnum: include/ocpp/v2/ocpp_enums.hpp 1745-1750, lib/ocpp/v2/ocpp_enums.cpp 3368-3381 and 3383-3398. *)
Definition e_v2_payment_status_enum : enum := Enum "PaymentStatusEnum"
  ["Settled"; "Canceled"; "Rejected"; "Failed"]
  [("Settled", "Settled"); ("Canceled", "Canceled"); ("Rejected", "Rejected"); ("Failed", "Failed")]
  [("Settled", "Settled"); ("Canceled", "Canceled"); ("Rejected", "Rejected"); ("Failed", "Failed")].

(** PublishFirmwareStatusEnum: include/ocpp/v2/ocpp_enums.hpp 1768-1779, lib/ocpp/v2/ocpp_enums.cpp 3408-3433 and 3435-3468. *)
Definition e_v2_publish_firmware_status_enum : enum := Enum "PublishFirmwareStatusEnum"
  ["Idle"; "DownloadScheduled"; "Downloading"; "Downloaded"; "Published"; "DownloadFailed"; "DownloadPaused"; "InvalidChecksum"; "ChecksumVerified"; "PublishFailed"]
  [("Idle", "Idle"); ("DownloadScheduled", "DownloadScheduled"); ("Downloading", "Downloading"); ("Downloaded", "Downloaded"); ("Published", "Published"); ("DownloadFailed", "DownloadFailed"); ("DownloadPaused", "DownloadPaused"); ("InvalidChecksum", "InvalidChecksum"); ("ChecksumVerified", "ChecksumVerified"); ("PublishFailed", "PublishFailed")]
  [("Idle", "Idle"); ("DownloadScheduled", "DownloadScheduled"); ("Downloading", "Downloading"); ("Downloaded", "Downloaded"); ("Published", "Published"); ("DownloadFailed", "DownloadFailed"); ("DownloadPaused", "DownloadPaused"); ("InvalidChecksum", "InvalidChecksum"); ("ChecksumVerified", "ChecksumVerified"); ("PublishFailed", "PublishFailed")].

(** ChargingProfileStatusEnum: include/ocpp/v2/ocpp_enums.hpp 1797-1800, lib/ocpp/v2/ocpp_enums.cpp 3478-3487 and 3489-3498. *)
Definition e_v2_charging_profile_status_enum : enum := Enum "ChargingProfileStatusEnum"
  ["Accepted"; "Rejected"]
  [("Accepted", "Accepted"); ("Rejected", "Rejected")]
  [("Accepted", "Accepted"); ("Rejected", "Rejected")].

(** ChargingProfileKindEnum: include/ocpp/v2/ocpp_enums.hpp 1818-1823, lib/ocpp/v2/ocpp_enums.cpp 3508-3521 and 3523-3538. *)
Definition e_v2_charging_profile_kind_enum : enum := Enum "ChargingProfileKindEnum"
  ["Absolute"; "Recurring"; "Relative"; "Dynamic"]
  [("Absolute", "Absolute"); ("Recurring", "Recurring"); ("Relative", "Relative"); ("Dynamic", "Dynamic")]
  [("Absolute", "Absolute"); ("Recurring", "Recurring"); ("Relative", "Relative"); ("Dynamic", "Dynamic")].

(** RecurrencyKindEnum: include/ocpp/v2/ocpp_enums.hpp 1841-1844, lib/ocpp/v2/ocpp_enums.cpp 3548-3557 and 3559-3568. *)
Definition e_v2_recurrency_kind_enum : enum := Enum "RecurrencyKindEnum"
  ["Daily"; "Weekly"]
  [("Daily", "Daily"); ("Weekly", "Weekly")]
  [("Daily", "Daily"); ("Weekly", "Weekly")].

(** PowerDuringCessationEnum: include/ocpp/v2/ocpp_enums.hpp 1862-1865, lib/ocpp/v2/ocpp_enums.cpp 3578-3587 and 3589-3598. *)
Definition e_v2_power_during_cessation_enum : enum := Enum "PowerDuringCessationEnum"
  ["Active"; "Reactive"]
  [("Active", "Active"); ("Reactive", "Reactive")]
  [("Active", "Active"); ("Reactive", "Reactive")].

(** DERUnitEnum: include/ocpp/v2/ocpp_enums.hpp 1883-1890, lib/ocpp/v2/ocpp_enums.cpp 3608-3625 and 3627-3648. *)
Definition e_v2_derunit_enum : enum := Enum "DERUnitEnum"
  ["Not_Applicable"; "PctMaxW"; "PctMaxVar"; "PctWAvail"; "PctVarAvail"; "PctEffectiveV"]
  [("Not_Applicable", "Not_Applicable"); ("PctMaxW", "PctMaxW"); ("PctMaxVar", "PctMaxVar"); ("PctWAvail", "PctWAvail"); ("PctVarAvail", "PctVarAvail"); ("PctEffectiveV", "PctEffectiveV")]
  [("Not_Applicable", "Not_Applicable"); ("PctMaxW", "PctMaxW"); ("PctMaxVar", "PctMaxVar"); ("PctWAvail", "PctWAvail"); ("PctVarAvail", "PctVarAvail"); ("PctEffectiveV", "PctEffectiveV")].

(** RequestStartStopStatusEnum: include/ocpp/v2/ocpp_enums.hpp 1907-1910, lib/ocpp/v2/ocpp_enums.cpp 3658-3667 and 3669-3678. *)
Definition e_v2_request_start_stop_status_enum : enum := Enum "RequestStartStopStatusEnum"
  ["Accepted"; "Rejected"]
  [("Accepted", "Accepted"); ("Rejected", "Rejected")]
  [("Accepted", "Accepted"); ("Rejected", "Rejected")].

(** ReservationUpdateStatusEnum: include/ocpp/v2/ocpp_enums.hpp 1928-1932, lib/ocpp/v2/ocpp_enums.cpp 3688-3699 and 3701-3713. *)
Definition e_v2_reservation_update_status_enum : enum := Enum "ReservationUpdateStatusEnum"
  ["Expired"; "Removed"; "NoTransaction"]
  [("Expired", "Expired"); ("Removed", "Removed"); ("NoTransaction", "NoTransaction")]
  [("Expired", "Expired"); ("Removed", "Removed"); ("NoTransaction", "NoTransaction")].

(** ReserveNowStatusEnum: include/ocpp/v2/ocpp_enums.hpp 1950-1956, lib/ocpp/v2/ocpp_enums.cpp 3723-3738 and 3740-3758. *)
Definition e_v2_reserve_now_status_enum : enum := Enum "ReserveNowStatusEnum"
  ["Accepted"; "Faulted"; "Occupied"; "Rejected"; "Unavailable"]
  [("Accepted", "Accepted"); ("Faulted", "Faulted"); ("Occupied", "Occupied"); ("Rejected", "Rejected"); ("Unavailable", "Unavailable")]
  [("Accepted", "Accepted"); ("Faulted", "Faulted"); ("Occupied", "Occupied"); ("Rejected", "Rejected"); ("Unavailable", "Unavailable")].

(** ResetEnum: include/ocpp/v2/ocpp_enums.hpp 1974-1978, lib/ocpp/v2/ocpp_enums.cpp 3768-3779 and 3781-3793. *)
Definition e_v2_reset_enum : enum := Enum "ResetEnum"
  ["Immediate"; "OnIdle"; "ImmediateAndResume"]
  [("Immediate", "Immediate"); ("OnIdle", "OnIdle"); ("ImmediateAndResume", "ImmediateAndResume")]
  [("Immediate", "Immediate"); ("OnIdle", "OnIdle"); ("ImmediateAndResume", "ImmediateAndResume")].

(** ResetStatusEnum: include/ocpp/v2/ocpp_enums.hpp 1995-1999, lib/ocpp/v2/ocpp_enums.cpp 3803-3814 and 3816-3828. *)
Definition e_v2_reset_status_enum : enum := Enum "ResetStatusEnum"
  ["Accepted"; "Rejected"; "Scheduled"]
  [("Accepted", "Accepted"); ("Rejected", "Rejected"); ("Scheduled", "Scheduled")]
  [("Accepted", "Accepted"); ("Rejected", "Rejected"); ("Scheduled", "Scheduled")].

(** UpdateEnum: include/ocpp/v2/ocpp_enums.hpp 2017-2020, lib/ocpp/v2/ocpp_enums.cpp 3838-3847 and 3849-3858. *)
Definition e_v2_update_enum : enum := Enum "UpdateEnum"
  ["Differential"; "Full"]
  [("Differential", "Differential"); ("Full", "Full")]
  [("Differential", "Differential"); ("Full", "Full")].

(** SendLocalListStatusEnum: include/ocpp/v2/ocpp_enums.hpp 2037-2041, lib/ocpp/v2/ocpp_enums.cpp 3868-3879 and 3881-3893. *)
Definition e_v2_send_local_list_status_enum : enum := Enum "SendLocalListStatusEnum"
  ["Accepted"; "Failed"; "VersionMismatch"]
  [("Accepted", "Accepted"); ("Failed", "Failed"); ("VersionMismatch", "VersionMismatch")]
  [("Accepted", "Accepted"); ("Failed", "Failed"); ("VersionMismatch", "VersionMismatch")].

(** TariffSetStatusEnum: include/ocpp/v2/ocpp_enums.hpp 2059-2065, lib/ocpp/v2/ocpp_enums.cpp 3903-3918 and 3920-3938. *)
Definition e_v2_tariff_set_status_enum : enum := Enum "TariffSetStatusEnum"
  ["Accepted"; "Rejected"; "TooManyElements"; "ConditionNotSupported"; "DuplicateTariffId"]
  [("Accepted", "Accepted"); ("Rejected", "Rejected"); ("TooManyElements", "TooManyElements"); ("ConditionNotSupported", "ConditionNotSupported"); ("DuplicateTariffId", "DuplicateTariffId")]
  [("Accepted", "Accepted"); ("Rejected", "Rejected"); ("TooManyElements", "TooManyElements"); ("ConditionNotSupported", "ConditionNotSupported"); ("DuplicateTariffId", "DuplicateTariffId")].

(** DisplayMessageStatusEnum: include/ocpp/v2/ocpp_enums.hpp 2083-2091, lib/ocpp/v2/ocpp_enums.cpp 3948-3967 and 3969-3993. *)
Definition e_v2_display_message_status_enum : enum := Enum "DisplayMessageStatusEnum"
  ["Accepted"; "NotSupportedMessageFormat"; "Rejected"; "NotSupportedPriority"; "NotSupportedState"; "UnknownTransaction"; "LanguageNotSupported"]
  [("Accepted", "Accepted"); ("NotSupportedMessageFormat", "NotSupportedMessageFormat"); ("Rejected", "Rejected"); ("NotSupportedPriority", "NotSupportedPriority"); ("NotSupportedState", "NotSupportedState"); ("UnknownTransaction", "UnknownTransaction"); ("LanguageNotSupported", "LanguageNotSupported")]
  [("Accepted", "Accepted"); ("NotSupportedMessageFormat", "NotSupportedMessageFormat"); ("Rejected", "Rejected"); ("NotSupportedPriority", "NotSupportedPriority"); ("NotSupportedState", "NotSupportedState"); ("UnknownTransaction", "UnknownTransaction"); ("LanguageNotSupported", "LanguageNotSupported")].

(** MonitoringBaseEnum: include/ocpp/v2/ocpp_enums.hpp 2109-2113, lib/ocpp/v2/ocpp_enums.cpp 4003-4014 and 4016-4028. *)
Definition e_v2_monitoring_base_enum : enum := Enum "MonitoringBaseEnum"
  ["All"; "FactoryDefault"; "HardWiredOnly"]
  [("All", "All"); ("FactoryDefault", "FactoryDefault"); ("HardWiredOnly", "HardWiredOnly")]
  [("All", "All"); ("FactoryDefault", "FactoryDefault"); ("HardWiredOnly", "HardWiredOnly")].

(** APNAuthenticationEnum: include/ocpp/v2/ocpp_enums.hpp 2131-2136, lib/ocpp/v2/ocpp_enums.cpp 4038-4051 and 4053-4068. *)
Definition e_v2_apnauthentication_enum : enum := Enum "APNAuthenticationEnum"
  ["PAP"; "CHAP"; "NONE"; "AUTO"]
  [("PAP", "PAP"); ("CHAP", "CHAP"); ("NONE", "NONE"); ("AUTO", "AUTO")]
  [("PAP", "PAP"); ("CHAP", "CHAP"); ("NONE", "NONE"); ("AUTO", "AUTO")].

(** OCPPVersionEnum: include/ocpp/v2/ocpp_enums.hpp 2154-2161, lib/ocpp/v2/ocpp_enums.cpp 4078-4095 and 4097-4118. *)
Definition e_v2_ocppversion_enum : enum := Enum "OCPPVersionEnum"
  ["OCPP12"; "OCPP15"; "OCPP16"; "OCPP20"; "OCPP201"; "OCPP21"]
  [("OCPP12", "OCPP12"); ("OCPP15", "OCPP15"); ("OCPP16", "OCPP16"); ("OCPP20", "OCPP20"); ("OCPP201", "OCPP201"); ("OCPP21", "OCPP21")]
  [("OCPP12", "OCPP12"); ("OCPP15", "OCPP15"); ("OCPP16", "OCPP16"); ("OCPP20", "OCPP20"); ("OCPP201", "OCPP201"); ("OCPP21", "OCPP21")].

(** OCPPInterfaceEnum: include/ocpp/v2/ocpp_enums.hpp 2179-2189, lib/ocpp/v2/ocpp_enums.cpp 4128-4151 and 4153-4183. *)
Definition e_v2_ocppinterface_enum : enum := Enum "OCPPInterfaceEnum"
  ["Wired0"; "Wired1"; "Wired2"; "Wired3"; "Wireless0"; "Wireless1"; "Wireless2"; "Wireless3"; "Any"]
  [("Wired0", "Wired0"); ("Wired1", "Wired1"); ("Wired2", "Wired2"); ("Wired3", "Wired3"); ("Wireless0", "Wireless0"); ("Wireless1", "Wireless1"); ("Wireless2", "Wireless2"); ("Wireless3", "Wireless3"); ("Any", "Any")]
  [("Wired0", "Wired0"); ("Wired1", "Wired1"); ("Wired2", "Wired2"); ("Wired3", "Wired3"); ("Wireless0", "Wireless0"); ("Wireless1", "Wireless1"); ("Wireless2", "Wireless2"); ("Wireless3", "Wireless3"); ("Any", "Any")].

(** OCPPTransportEnum: include/ocpp/v2/ocpp_enums.hpp 2207-2210, lib/ocpp/v2/ocpp_enums.cpp 4193-4202 and 4204-4213. *)
Definition e_v2_ocpptransport_enum : enum := Enum "OCPPTransportEnum"
  ["SOAP"; "JSON"]
  [("SOAP", "SOAP"); ("JSON", "JSON")]
  [("SOAP", "SOAP"); ("JSON", "JSON")].

(** VPNEnum: include/ocpp/v2/ocpp_enums.hpp 2228-2233, lib/ocpp/v2/ocpp_enums.cpp 4223-4236 and 4238-4253. *)
Definition e_v2_vpnenum : enum := Enum "VPNEnum"
  ["IKEv2"; "IPSec"; "L2TP"; "PPTP"]
  [("IKEv2", "IKEv2"); ("IPSec", "IPSec"); ("L2TP", "L2TP"); ("PPTP", "PPTP")]
  [("IKEv2", "IKEv2"); ("IPSec", "IPSec"); ("L2TP", "L2TP"); ("PPTP", "PPTP")].

(** SetNetworkProfileStatusEnum: include/ocpp/v2/ocpp_enums.hpp 2250-2254, lib/ocpp/v2/ocpp_enums.cpp 4263-4274 and 4276-4288. *)
Definition e_v2_set_network_profile_status_enum : enum := Enum "SetNetworkProfileStatusEnum"
  ["Accepted"; "Rejected"; "Failed"]
  [("Accepted", "Accepted"); ("Rejected", "Rejected"); ("Failed", "Failed")]
  [("Accepted", "Accepted"); ("Rejected", "Rejected"); ("Failed", "Failed")].

(** SetMonitoringStatusEnum: include/ocpp/v2/ocpp_enums.hpp 2272-2279, lib/ocpp/v2/ocpp_enums.cpp 4298-4315 and 4317-4338. *)
Definition e_v2_set_monitoring_status_enum : enum := Enum "SetMonitoringStatusEnum"
  ["Accepted"; "UnknownComponent"; "UnknownVariable"; "UnsupportedMonitorType"; "Rejected"; "Duplicate"]
  [("Accepted", "Accepted"); ("UnknownComponent", "UnknownComponent"); ("UnknownVariable", "UnknownVariable"); ("UnsupportedMonitorType", "UnsupportedMonitorType"); ("Rejected", "Rejected"); ("Duplicate", "Duplicate")]
  [("Accepted", "Accepted"); ("UnknownComponent", "UnknownComponent"); ("UnknownVariable", "UnknownVariable"); ("UnsupportedMonitorType", "UnsupportedMonitorType"); ("Rejected", "Rejected"); ("Duplicate", "Duplicate")].

(** SetVariableStatusEnum: include/ocpp/v2/ocpp_enums.hpp 2297-2304, lib/ocpp/v2/ocpp_enums.cpp 4348-4365 and 4367-4388. *)
Definition e_v2_set_variable_status_enum : enum := Enum "SetVariableStatusEnum"
  ["Accepted"; "Rejected"; "UnknownComponent"; "UnknownVariable"; "NotSupportedAttributeType"; "RebootRequired"]
  [("Accepted", "Accepted"); ("Rejected", "Rejected"); ("UnknownComponent", "UnknownComponent"); ("UnknownVariable", "UnknownVariable"); ("NotSupportedAttributeType", "NotSupportedAttributeType"); ("RebootRequired", "RebootRequired")]
  [("Accepted", "Accepted"); ("Rejected", "Rejected"); ("UnknownComponent", "UnknownComponent"); ("UnknownVariable", "UnknownVariable"); ("NotSupportedAttributeType", "NotSupportedAttributeType"); ("RebootRequired", "RebootRequired")].

(** ConnectorStatusEnum: include/ocpp/v2/ocpp_enums.hpp 2322-2328, lib/ocpp/v2/ocpp_enums.cpp 4398-4413 and 4415-4433. *)
Definition e_v2_connector_status_enum : enum := Enum "ConnectorStatusEnum"
  ["Available"; "Occupied"; "Reserved"; "Unavailable"; "Faulted"]
  [("Available", "Available"); ("Occupied", "Occupied"); ("Reserved", "Reserved"); ("Unavailable", "Unavailable"); ("Faulted", "Faulted")]
  [("Available", "Available"); ("Occupied", "Occupied"); ("Reserved", "Reserved"); ("Unavailable", "Unavailable"); ("Faulted", "Faulted")].

(** CostDimensionEnum: include/ocpp/v2/ocpp_enums.hpp 2346-2354, lib/ocpp/v2/ocpp_enums.cpp 4443-4462 and 4464-4488. *)
Definition e_v2_cost_dimension_enum : enum := Enum "CostDimensionEnum"
  ["Energy"; "MaxCurrent"; "MinCurrent"; "MaxPower"; "MinPower"; "IdleTIme"; "ChargingTime"]
  [("Energy", "Energy"); ("MaxCurrent", "MaxCurrent"); ("MinCurrent", "MinCurrent"); ("MaxPower", "MaxPower"); ("MinPower", "MinPower"); ("IdleTIme", "IdleTIme"); ("ChargingTime", "ChargingTime")]
  [("Energy", "Energy"); ("MaxCurrent", "MaxCurrent"); ("MinCurrent", "MinCurrent"); ("MaxPower", "MaxPower"); ("MinPower", "MinPower"); ("IdleTIme", "IdleTIme"); ("ChargingTime", "ChargingTime")].

(** TariffCostEnum: include/ocpp/v2/ocpp_enums.hpp 2372-2376, lib/ocpp/v2/ocpp_enums.cpp 4498-4509 and 4511-4523. *)
Definition e_v2_tariff_cost_enum : enum := Enum "TariffCostEnum"
  ["NormalCost"; "MinCost"; "MaxCost"]
  [("NormalCost", "NormalCost"); ("MinCost", "MinCost"); ("MaxCost", "MaxCost")]
  [("NormalCost", "NormalCost"); ("MinCost", "MinCost"); ("MaxCost", "MaxCost")].

(** TransactionEventEnum: include/ocpp/v2/ocpp_enums.hpp 2394-2398, lib/ocpp/v2/ocpp_enums.cpp 4533-4544 and 4546-4558. *)
Definition e_v2_transaction_event_enum : enum := Enum "TransactionEventEnum"
  ["Ended"; "Started"; "Updated"]
  [("Ended", "Ended"); ("Started", "Started"); ("Updated", "Updated")]
  [("Ended", "Ended"); ("Started", "Started"); ("Updated", "Updated")].

(** TriggerReasonEnum: include/ocpp/v2/ocpp_enums.hpp 2416-2446, lib/ocpp/v2/ocpp_enums.cpp 4568-4631 and 4633-4723. *)
Definition e_v2_trigger_reason_enum : enum := Enum "TriggerReasonEnum"
  ["AbnormalCondition"; "Authorized"; "CablePluggedIn"; "ChargingRateChanged"; "ChargingStateChanged"; "CostLimitReached"; "Deauthorized"; "EnergyLimitReached"; "EVCommunicationLost"; "EVConnectTimeout"; "EVDeparted"; "EVDetected"; "LimitSet"; "MeterValueClock"; "MeterValuePeriodic"; "OperationModeChanged"; "RemoteStart"; "RemoteStop"; "ResetCommand"; "RunningCost"; "SignedDataReceived"; "SoCLimitReached"; "StopAuthorized"; "TariffChanged"; "TariffNotAccepted"; "TimeLimitReached"; "Trigger"; "TxResumed"; "UnlockCommand"]
  [("AbnormalCondition", "AbnormalCondition"); ("Authorized", "Authorized"); ("CablePluggedIn", "CablePluggedIn"); ("ChargingRateChanged", "ChargingRateChanged"); ("ChargingStateChanged", "ChargingStateChanged"); ("CostLimitReached", "CostLimitReached"); ("Deauthorized", "Deauthorized"); ("EnergyLimitReached", "EnergyLimitReached"); ("EVCommunicationLost", "EVCommunicationLost"); ("EVConnectTimeout", "EVConnectTimeout"); ("EVDeparted", "EVDeparted"); ("EVDetected", "EVDetected"); ("LimitSet", "LimitSet"); ("MeterValueClock", "MeterValueClock"); ("MeterValuePeriodic", "MeterValuePeriodic"); ("OperationModeChanged", "OperationModeChanged"); ("RemoteStart", "RemoteStart"); ("RemoteStop", "RemoteStop"); ("ResetCommand", "ResetCommand"); ("RunningCost", "RunningCost"); ("SignedDataReceived", "SignedDataReceived"); ("SoCLimitReached", "SoCLimitReached"); ("StopAuthorized", "StopAuthorized"); ("TariffChanged", "TariffChanged"); ("TariffNotAccepted", "TariffNotAccepted"); ("TimeLimitReached", "TimeLimitReached"); ("Trigger", "Trigger"); ("TxResumed", "TxResumed"); ("UnlockCommand", "UnlockCommand")]
  [("AbnormalCondition", "AbnormalCondition"); ("Authorized", "Authorized"); ("CablePluggedIn", "CablePluggedIn"); ("ChargingRateChanged", "ChargingRateChanged"); ("ChargingStateChanged", "ChargingStateChanged"); ("CostLimitReached", "CostLimitReached"); ("Deauthorized", "Deauthorized"); ("EnergyLimitReached", "EnergyLimitReached"); ("EVCommunicationLost", "EVCommunicationLost"); ("EVConnectTimeout", "EVConnectTimeout"); ("EVDeparted", "EVDeparted"); ("EVDetected", "EVDetected"); ("LimitSet", "LimitSet"); ("MeterValueClock", "MeterValueClock"); ("MeterValuePeriodic", "MeterValuePeriodic"); ("OperationModeChanged", "OperationModeChanged"); ("RemoteStart", "RemoteStart"); ("RemoteStop", "RemoteStop"); ("ResetCommand", "ResetCommand"); ("RunningCost", "RunningCost"); ("SignedDataReceived", "SignedDataReceived"); ("SoCLimitReached", "SoCLimitReached"); ("StopAuthorized", "StopAuthorized"); ("TariffChanged", "TariffChanged"); ("TariffNotAccepted", "TariffNotAccepted"); ("TimeLimitReached", "TimeLimitReached"); ("Trigger", "Trigger"); ("TxResumed", "TxResumed"); ("UnlockCommand", "UnlockCommand")].

(** PreconditioningStatusEnum: include/ocpp/v2/ocpp_enums.hpp 2464-2469, lib/ocpp/v2/ocpp_enums.cpp 4733-4746 and 4748-4763. *)
Definition e_v2_preconditioning_status_enum : enum := Enum "PreconditioningStatusEnum"
  ["Unknown"; "Ready"; "NotReady"; "Preconditioning"]
  [("Unknown", "Unknown"); ("Ready", "Ready"); ("NotReady", "NotReady"); ("Preconditioning", "Preconditioning")]
  [("Unknown", "Unknown"); ("Ready", "Ready"); ("NotReady", "NotReady"); ("Preconditioning", "Preconditioning")].

(** ChargingStateEnum: include/ocpp/v2/ocpp_enums.hpp 2487-2493, lib/ocpp/v2/ocpp_enums.cpp 4773-4788 and 4790-4808. *)
Definition e_v2_charging_state_enum : enum := Enum "ChargingStateEnum"
  ["EVConnected"; "Charging"; "SuspendedEV"; "SuspendedEVSE"; "Idle"]
  [("EVConnected", "EVConnected"); ("Charging", "Charging"); ("SuspendedEV", "SuspendedEV"); ("SuspendedEVSE", "SuspendedEVSE"); ("Idle", "Idle")]
  [("EVConnected", "EVConnected"); ("Charging", "Charging"); ("SuspendedEV", "SuspendedEV"); ("SuspendedEVSE", "SuspendedEVSE"); ("Idle", "Idle")].

(** ReasonEnum: include/ocpp/v2/ocpp_enums.hpp 2511-2532, lib/ocpp/v2/ocpp_enums.cpp 4818-4863 and 4865-4928. *)
Definition e_v2_reason_enum : enum := Enum "ReasonEnum"
  ["DeAuthorized"; "EmergencyStop"; "EnergyLimitReached"; "EVDisconnected"; "GroundFault"; "ImmediateReset"; "MasterPass"; "Local"; "LocalOutOfCredit"; "Other"; "OvercurrentFault"; "PowerLoss"; "PowerQuality"; "Reboot"; "Remote"; "SOCLimitReached"; "StoppedByEV"; "TimeLimitReached"; "Timeout"; "ReqEnergyTransferRejected"]
  [("DeAuthorized", "DeAuthorized"); ("EmergencyStop", "EmergencyStop"); ("EnergyLimitReached", "EnergyLimitReached"); ("EVDisconnected", "EVDisconnected"); ("GroundFault", "GroundFault"); ("ImmediateReset", "ImmediateReset"); ("MasterPass", "MasterPass"); ("Local", "Local"); ("LocalOutOfCredit", "LocalOutOfCredit"); ("Other", "Other"); ("OvercurrentFault", "OvercurrentFault"); ("PowerLoss", "PowerLoss"); ("PowerQuality", "PowerQuality"); ("Reboot", "Reboot"); ("Remote", "Remote"); ("SOCLimitReached", "SOCLimitReached"); ("StoppedByEV", "StoppedByEV"); ("TimeLimitReached", "TimeLimitReached"); ("Timeout", "Timeout"); ("ReqEnergyTransferRejected", "ReqEnergyTransferRejected")]
  [("DeAuthorized", "DeAuthorized"); ("EmergencyStop", "EmergencyStop"); ("EnergyLimitReached", "EnergyLimitReached"); ("EVDisconnected", "EVDisconnected"); ("GroundFault", "GroundFault"); ("ImmediateReset", "ImmediateReset"); ("MasterPass", "MasterPass"); ("Local", "Local"); ("LocalOutOfCredit", "LocalOutOfCredit"); ("Other", "Other"); ("OvercurrentFault", "OvercurrentFault"); ("PowerLoss", "PowerLoss"); ("PowerQuality", "PowerQuality"); ("Reboot", "Reboot"); ("Remote", "Remote"); ("SOCLimitReached", "SOCLimitReached"); ("StoppedByEV", "StoppedByEV"); ("TimeLimitReached", "TimeLimitReached"); ("Timeout", "Timeout"); ("ReqEnergyTransferRejected", "ReqEnergyTransferRejected")].

(** MessageTriggerEnum: include/ocpp/v2/ocpp_enums.hpp 2549-2563, lib/ocpp/v2/ocpp_enums.cpp 4938-4969 and 4971-5013. *)
Definition e_v2_message_trigger_enum : enum := Enum "MessageTriggerEnum"
  ["BootNotification"; "LogStatusNotification"; "FirmwareStatusNotification"; "Heartbeat"; "MeterValues"; "SignChargingStationCertificate"; "SignV2GCertificate"; "SignV2G20Certificate"; "StatusNotification"; "TransactionEvent"; "SignCombinedCertificate"; "PublishFirmwareStatusNotification"; "CustomTrigger"]
  [("BootNotification", "BootNotification"); ("LogStatusNotification", "LogStatusNotification"); ("FirmwareStatusNotification", "FirmwareStatusNotification"); ("Heartbeat", "Heartbeat"); ("MeterValues", "MeterValues"); ("SignChargingStationCertificate", "SignChargingStationCertificate"); ("SignV2GCertificate", "SignV2GCertificate"); ("SignV2G20Certificate", "SignV2G20Certificate"); ("StatusNotification", "StatusNotification"); ("TransactionEvent", "TransactionEvent"); ("SignCombinedCertificate", "SignCombinedCertificate"); ("PublishFirmwareStatusNotification", "PublishFirmwareStatusNotification"); ("CustomTrigger", "CustomTrigger")]
  [("BootNotification", "BootNotification"); ("LogStatusNotification", "LogStatusNotification"); ("FirmwareStatusNotification", "FirmwareStatusNotification"); ("Heartbeat", "Heartbeat"); ("MeterValues", "MeterValues"); ("SignChargingStationCertificate", "SignChargingStationCertificate"); ("SignV2GCertificate", "SignV2GCertificate"); ("SignV2G20Certificate", "SignV2G20Certificate"); ("StatusNotification", "StatusNotification"); ("TransactionEvent", "TransactionEvent"); ("SignCombinedCertificate", "SignCombinedCertificate"); ("PublishFirmwareStatusNotification", "PublishFirmwareStatusNotification"); ("CustomTrigger", "CustomTrigger")].

(** TriggerMessageStatusEnum: include/ocpp/v2/ocpp_enums.hpp 2581-2585, lib/ocpp/v2/ocpp_enums.cpp 5023-5034 and 5036-5048. *)
Definition e_v2_trigger_message_status_enum : enum := Enum "TriggerMessageStatusEnum"
  ["Accepted"; "Rejected"; "NotImplemented"]
  [("Accepted", "Accepted"); ("Rejected", "Rejected"); ("NotImplemented", "NotImplemented")]
  [("Accepted", "Accepted"); ("Rejected", "Rejected"); ("NotImplemented", "NotImplemented")].

(** UnlockStatusEnum: include/ocpp/v2/ocpp_enums.hpp 2603-2608, lib/ocpp/v2/ocpp_enums.cpp 5058-5071 and 5073-5088. *)
Definition e_v2_unlock_status_enum : enum := Enum "UnlockStatusEnum"
  ["Unlocked"; "UnlockFailed"; "OngoingAuthorizedTransaction"; "UnknownConnector"]
  [("Unlocked", "Unlocked"); ("UnlockFailed", "UnlockFailed"); ("OngoingAuthorizedTransaction", "OngoingAuthorizedTransaction"); ("UnknownConnector", "UnknownConnector")]
  [("Unlocked", "Unlocked"); ("UnlockFailed", "UnlockFailed"); ("OngoingAuthorizedTransaction", "OngoingAuthorizedTransaction"); ("UnknownConnector", "UnknownConnector")].

(** UnpublishFirmwareStatusEnum: include/ocpp/v2/ocpp_enums.hpp 2626-2630, lib/ocpp/v2/ocpp_enums.cpp 5098-5109 and 5111-5123. *)
Definition e_v2_unpublish_firmware_status_enum : enum := Enum "UnpublishFirmwareStatusEnum"
  ["DownloadOngoing"; "NoFirmware"; "Unpublished"]
  [("DownloadOngoing", "DownloadOngoing"); ("NoFirmware", "NoFirmware"); ("Unpublished", "Unpublished")]
  [("DownloadOngoing", "DownloadOngoing"); ("NoFirmware", "NoFirmware"); ("Unpublished", "Unpublished")].

(** UpdateFirmwareStatusEnum: include/ocpp/v2/ocpp_enums.hpp 2648-2654, lib/ocpp/v2/ocpp_enums.cpp 5133-5148 and 5150-5168. *)
Definition e_v2_update_firmware_status_enum : enum := Enum "UpdateFirmwareStatusEnum"
  ["Accepted"; "Rejected"; "AcceptedCanceled"; "InvalidCertificate"; "RevokedCertificate"]
  [("Accepted", "Accepted"); ("Rejected", "Rejected"); ("AcceptedCanceled", "AcceptedCanceled"); ("InvalidCertificate", "InvalidCertificate"); ("RevokedCertificate", "RevokedCertificate")]
  [("Accepted", "Accepted"); ("Rejected", "Rejected"); ("AcceptedCanceled", "AcceptedCanceled"); ("InvalidCertificate", "InvalidCertificate"); ("RevokedCertificate", "RevokedCertificate")].

(** PriorityChargingStatusEnum: include/ocpp/v2/ocpp_enums.hpp 2672-2676, lib/ocpp/v2/ocpp_enums.cpp 5178-5189 and 5191-5203. *)
Definition e_v2_priority_charging_status_enum : enum := Enum "PriorityChargingStatusEnum"
  ["Accepted"; "Rejected"; "NoProfile"]
  [("Accepted", "Accepted"); ("Rejected", "Rejected"); ("NoProfile", "NoProfile")]
  [("Accepted", "Accepted"); ("Rejected", "Rejected"); ("NoProfile", "NoProfile")].

Definition all_enums : list enum :=
  [e_common_session_started_reason;
   e_common_running_cost_state;
   e_common_ca_certificate_type;
   e_common_certificate_validation_result;
   e_common_install_certificate_result;
   e_common_delete_certificate_result;
   e_common_hash_algorithm_enum_type;
   e_common_ocpp_protocol_version;
   e_common_certificate_signing_use_enum;
   e_common_certificate_type;
   e_v16_messagetype;
   e_v16_supported_feature_profiles;
   e_v16_charge_point_connection_state;
   e_v16_authorization_status;
   e_v16_registration_status;
   e_v16_cancel_reservation_status;
   e_v16_certificate_signed_status_enum_type;
   e_v16_availability_type;
   e_v16_availability_status;
   e_v16_configuration_status;
   e_v16_clear_cache_status;
   e_v16_charging_profile_purpose_type;
   e_v16_clear_charging_profile_status;
   e_v16_data_transfer_status;
   e_v16_hash_algorithm_enum_type;
   e_v16_delete_certificate_status_enum_type;
   e_v16_diagnostics_status;
   e_v16_message_trigger_enum_type;
   e_v16_trigger_message_status_enum_type;
   e_v16_firmware_status;
   e_v16_charging_rate_unit;
   e_v16_get_composite_schedule_status;
   e_v16_certificate_use_enum_type;
   e_v16_get_installed_certificate_status_enum_type;
   e_v16_log_enum_type;
   e_v16_log_status_enum_type;
   e_v16_install_certificate_status_enum_type;
   e_v16_upload_log_status_enum_type;
   e_v16_reading_context;
   e_v16_value_format;
   e_v16_measurand;
   e_v16_phase;
   e_v16_location;
   e_v16_unit_of_measure;
   e_v16_charging_profile_kind_type;
   e_v16_recurrency_kind_type;
   e_v16_remote_start_stop_status;
   e_v16_reservation_status;
   e_v16_reset_type;
   e_v16_reset_status;
   e_v16_update_type;
   e_v16_update_status;
   e_v16_charging_profile_status;
   e_v16_generic_status_enum_type;
   e_v16_firmware_status_enum_type;
   e_v16_update_firmware_status_enum_type;
   e_v16_charge_point_error_code;
   e_v16_charge_point_status;
   e_v16_reason;
   e_v16_message_trigger;
   e_v16_trigger_message_status;
   e_v16_unlock_status;
   e_v2_messagetype;
   e_v2_generic_status_enum;
   e_v2_hash_algorithm_enum;
   e_v2_authorization_status_enum;
   e_v2_message_format_enum;
   e_v2_authorize_certificate_status_enum;
   e_v2_energy_transfer_mode_enum;
   e_v2_day_of_week_enum;
   e_v2_evse_kind_enum;
   e_v2_battery_swap_event_enum;
   e_v2_boot_reason_enum;
   e_v2_registration_status_enum;
   e_v2_cancel_reservation_status_enum;
   e_v2_certificate_signing_use_enum;
   e_v2_certificate_signed_status_enum;
   e_v2_operational_status_enum;
   e_v2_change_availability_status_enum;
   e_v2_tariff_change_status_enum;
   e_v2_clear_cache_status_enum;
   e_v2_charging_profile_purpose_enum;
   e_v2_clear_charging_profile_status_enum;
   e_v2_dercontrol_enum;
   e_v2_dercontrol_status_enum;
   e_v2_clear_message_status_enum;
   e_v2_tariff_clear_status_enum;
   e_v2_clear_monitoring_status_enum;
   e_v2_customer_information_status_enum;
   e_v2_data_transfer_status_enum;
   e_v2_delete_certificate_status_enum;
   e_v2_firmware_status_enum;
   e_v2_certificate_action_enum;
   e_v2_iso15118evcertificate_status_enum;
   e_v2_report_base_enum;
   e_v2_generic_device_model_status_enum;
   e_v2_certificate_status_source_enum;
   e_v2_certificate_status_enum;
   e_v2_get_certificate_status_enum;
   e_v2_get_charging_profile_status_enum;
   e_v2_charging_rate_unit_enum;
   e_v2_operation_mode_enum;
   e_v2_message_priority_enum;
   e_v2_message_state_enum;
   e_v2_get_display_messages_status_enum;
   e_v2_get_certificate_id_use_enum;
   e_v2_get_installed_certificate_status_enum;
   e_v2_log_enum;
   e_v2_log_status_enum;
   e_v2_monitoring_criterion_enum;
   e_v2_component_criterion_enum;
   e_v2_tariff_get_status_enum;
   e_v2_tariff_kind_enum;
   e_v2_attribute_enum;
   e_v2_get_variable_status_enum;
   e_v2_install_certificate_use_enum;
   e_v2_install_certificate_status_enum;
   e_v2_upload_log_status_enum;
   e_v2_measurand_enum;
   e_v2_reading_context_enum;
   e_v2_phase_enum;
   e_v2_location_enum;
   e_v2_notify_allowed_energy_transfer_status_enum;
   e_v2_cost_kind_enum;
   e_v2_grid_event_fault_enum;
   e_v2_islanding_detection_enum;
   e_v2_control_mode_enum;
   e_v2_mobility_needs_mode_enum;
   e_v2_notify_evcharging_needs_status_enum;
   e_v2_event_trigger_enum;
   e_v2_event_notification_enum;
   e_v2_monitor_enum;
   e_v2_mutability_enum;
   e_v2_data_enum;
   e_v2_payment_status_enum;
   e_v2_publish_firmware_status_enum;
   e_v2_charging_profile_status_enum;
   e_v2_charging_profile_kind_enum;
   e_v2_recurrency_kind_enum;
   e_v2_power_during_cessation_enum;
   e_v2_derunit_enum;
   e_v2_request_start_stop_status_enum;
   e_v2_reservation_update_status_enum;
   e_v2_reserve_now_status_enum;
   e_v2_reset_enum;
   e_v2_reset_status_enum;
   e_v2_update_enum;
   e_v2_send_local_list_status_enum;
   e_v2_tariff_set_status_enum;
   e_v2_display_message_status_enum;
   e_v2_monitoring_base_enum;
   e_v2_apnauthentication_enum;
   e_v2_ocppversion_enum;
   e_v2_ocppinterface_enum;
   e_v2_ocpptransport_enum;
   e_v2_vpnenum;
   e_v2_set_network_profile_status_enum;
   e_v2_set_monitoring_status_enum;
   e_v2_set_variable_status_enum;
   e_v2_connector_status_enum;
   e_v2_cost_dimension_enum;
   e_v2_tariff_cost_enum;
   e_v2_transaction_event_enum;
   e_v2_trigger_reason_enum;
   e_v2_preconditioning_status_enum;
   e_v2_charging_state_enum;
   e_v2_reason_enum;
   e_v2_message_trigger_enum;
   e_v2_trigger_message_status_enum;
   e_v2_unlock_status_enum;
   e_v2_unpublish_firmware_status_enum;
   e_v2_update_firmware_status_enum;
   e_v2_priority_charging_status_enum].
