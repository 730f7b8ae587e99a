(** The schemas the configuration is validated against when the library is started (config/v16/profile_schemas/*.json).
    Generated by tools/gen_config.py. Descriptions, comments and defaults are left out. *)
From Coq Require Import ZArith List Bool String Ascii.
From Verif Require Import CfgSchemaLang.
Import ListNotations.
Local Open Scope string_scope.
Local Open Scope Z_scope.

(** Internal.json *)
Definition schema_Internal : schema := (SObject true ["ChargePointId"; "CentralSystemURI"; "ChargeBoxSerialNumber"; "ChargePointModel"; "ChargePointVendor"; "FirmwareVersion"] [
  ("ChargePointId", (SText (Some 1) None));
  ("CentralSystemURI", (SText (Some 1) None));
  ("ChargeBoxSerialNumber", (SText (Some 1) (Some 25)));
  ("ChargePointModel", (SText (Some 1) (Some 20)));
  ("ChargePointSerialNumber", (SText (Some 1) (Some 25)));
  ("ChargePointVendor", (SText (Some 1) (Some 20)));
  ("FirmwareVersion", (SText (Some 1) (Some 50)));
  ("ICCID", (SText (Some 1) (Some 20)));
  ("HostName", (SText (Some 1) None));
  ("IFace", (SText (Some 1) None));
  ("IMSI", (SText (Some 1) (Some 20)));
  ("MeterSerialNumber", (SText (Some 1) (Some 25)));
  ("MeterType", (SText (Some 1) (Some 25)));
  ("SupportedCiphers12", (SArray (SText None None)));
  ("SupportedCiphers13", (SArray (SText None None)));
  ("UseTPM", SBool);
  ("UseTPMSeccLeafCertificate", SBool);
  ("RetryBackoffRandomRange", (SInt None None));
  ("RetryBackoffRepeatTimes", (SInt None None));
  ("RetryBackoffWaitMinimum", (SInt None None));
  ("AuthorizeConnectorZeroOnConnectorOne", SBool);
  ("LogMessages", SBool);
  ("LogMessagesRaw", SBool);
  ("LogMessagesFormat", (SArray (SText None None)));
  ("LogRotation", SBool);
  ("LogRotationDateSuffix", SBool);
  ("LogRotationMaximumFileSize", (SInt (Some 0) None));
  ("LogRotationMaximumFileCount", (SInt (Some 0) None));
  ("SupportedChargingProfilePurposeTypes", (SArray (SText None None)));
  ("IgnoredProfilePurposesOffline", (SText None None));
  ("MaxCompositeScheduleDuration", (SInt None None));
  ("CompositeScheduleDefaultLimitAmps", (SNumber (Some 0) None));
  ("CompositeScheduleDefaultLimitWatts", (SNumber (Some 0) None));
  ("CompositeScheduleDefaultNumberPhases", (SNumber (Some 1) (Some 3)));
  ("SupplyVoltage", (SNumber (Some 0) None));
  ("WebsocketPingPayload", (SText None None));
  ("WebsocketPongTimeout", (SInt None None));
  ("UseSslDefaultVerifyPaths", SBool);
  ("VerifyCsmsCommonName", SBool);
  ("VerifyCsmsAllowWildcards", SBool);
  ("OcspRequestInterval", (SInt (Some 86400) None));
  ("SeccLeafSubjectCommonName", (SText (Some 7) (Some 64)));
  ("SeccLeafSubjectCountry", (SText (Some 2) (Some 2)));
  ("SeccLeafSubjectOrganization", (SText (Some 0) (Some 64)));
  ("ConnectorEvseIds", (SText (Some 7) (Some 1000)));
  ("AllowChargingProfileWithoutStartSchedule", SBool);
  ("WaitForStopTransactionsOnResetTimeout", (SInt (Some 0) None));
  ("QueueAllMessages", SBool);
  ("MessageTypesDiscardForQueueing", (SText None None));
  ("MessageQueueSizeThreshold", (SInt (Some 1) None));
  ("SupportedMeasurands", (SText None None));
  ("MaxMessageSize", (SInt (Some 32000) None));
  ("TLSKeylogFile", (SText None None));
  ("EnableTLSKeylog", SBool);
  ("StopTransactionIfUnlockNotSupported", SBool);
  ("MeterPublicKeys", (SArray (SText None None)))]).

(** Core.json *)
Definition schema_Core : schema := (SObject true ["AuthorizeRemoteTxRequests"; "ClockAlignedDataInterval"; "ConnectionTimeOut"; "ConnectorPhaseRotation"; "GetConfigurationMaxKeys"; "HeartbeatInterval"; "LocalAuthorizeOffline"; "LocalPreAuthorize"; "MeterValuesAlignedData"; "MeterValuesSampledData"; "MeterValueSampleInterval"; "NumberOfConnectors"; "ResetRetries"; "StopTransactionOnInvalidId"; "StopTxnAlignedData"; "StopTxnSampledData"; "SupportedFeatureProfiles"; "TransactionMessageAttempts"; "TransactionMessageRetryInterval"; "UnlockConnectorOnEVSideDisconnect"] [
  ("AllowOfflineTxForUnknownId", SBool);
  ("AuthorizationCacheEnabled", SBool);
  ("AuthorizeRemoteTxRequests", SBool);
  ("BlinkRepeat", (SInt (Some 0) None));
  ("ClockAlignedDataInterval", (SInt (Some 0) None));
  ("ConnectionTimeOut", (SInt (Some 0) None));
  ("ConnectorPhaseRotation", (SText None None));
  ("ConnectorPhaseRotationMaxLength", (SInt (Some 0) None));
  ("GetConfigurationMaxKeys", (SInt (Some 0) None));
  ("HeartbeatInterval", (SInt (Some 0) None));
  ("LightIntensity", (SInt (Some 0) (Some 100)));
  ("LocalAuthorizeOffline", SBool);
  ("LocalPreAuthorize", SBool);
  ("MaxEnergyOnInvalidId", (SInt (Some 0) None));
  ("MeterValuesAlignedData", (SText None None));
  ("MeterValuesAlignedDataMaxLength", (SInt (Some 0) None));
  ("MeterValuesSampledData", (SText None None));
  ("MeterValuesSampledDataMaxLength", (SInt (Some 0) None));
  ("MeterValueSampleInterval", (SInt (Some 0) None));
  ("MinimumStatusDuration", (SInt (Some 0) None));
  ("NumberOfConnectors", (SInt (Some 0) None));
  ("ResetRetries", (SInt (Some 0) None));
  ("StopTransactionOnEVSideDisconnect", SBool);
  ("StopTransactionOnInvalidId", SBool);
  ("StopTxnAlignedData", (SText None None));
  ("StopTxnAlignedDataMaxLength", (SInt (Some 0) None));
  ("StopTxnSampledData", (SText None None));
  ("StopTxnSampledDataMaxLength", (SInt (Some 0) None));
  ("SupportedFeatureProfiles", (SText None None));
  ("SupportedFeatureProfilesMaxLength", (SInt (Some 0) None));
  ("TransactionMessageAttempts", (SInt (Some 0) None));
  ("TransactionMessageRetryInterval", (SInt (Some 0) None));
  ("UnlockConnectorOnEVSideDisconnect", SBool);
  ("WebSocketPingInterval", (SInt (Some 0) None))]).

(** LocalAuthListManagement.json *)
Definition schema_LocalAuthListManagement : schema := (SObject true ["LocalAuthListEnabled"; "LocalAuthListMaxLength"; "SendLocalListMaxLength"] [
  ("LocalAuthListEnabled", SBool);
  ("LocalAuthListMaxLength", (SInt (Some 0) None));
  ("SendLocalListMaxLength", (SInt (Some 0) None))]).

(** SmartCharging.json *)
Definition schema_SmartCharging : schema := (SObject true ["ChargeProfileMaxStackLevel"; "ChargingScheduleAllowedChargingRateUnit"; "ChargingScheduleMaxPeriods"; "MaxChargingProfilesInstalled"] [
  ("ChargeProfileMaxStackLevel", (SInt (Some 0) None));
  ("ChargingScheduleAllowedChargingRateUnit", (SText None None));
  ("ChargingScheduleMaxPeriods", (SInt (Some 0) None));
  ("ConnectorSwitch3to1PhaseSupported", SBool);
  ("MaxChargingProfilesInstalled", (SInt (Some 0) None))]).

(** FirmwareManagement.json *)
Definition schema_FirmwareManagement : schema := (SObject true [] [
  ("SupportedFileTransferProtocols", (SText None None))]).

(** Reservation.json *)
Definition schema_Reservation : schema := (SObject true [] [
  ("ReserveConnectorZeroSupported", SBool)]).

(** Security.json *)
Definition schema_Security : schema := (SObject false ["SecurityProfile"] [
  ("AdditionalRootCertificateCheck", SBool);
  ("AuthorizationKey", (SText (Some 8) None));
  ("CertificateSignedMaxChainSize", (SInt None (Some 10000)));
  ("CertificateStoreMaxLength", (SInt (Some 0) None));
  ("CpoName", (SText None None));
  ("SecurityProfile", (SInt (Some 0) (Some 3)));
  ("DisableSecurityEventNotifications", SBool)]).

(** PnC.json *)
Definition schema_PnC : schema := (SObject false ["ISO15118PnCEnabled"; "ContractValidationOffline"] [
  ("ISO15118CertificateManagementEnabled", SBool);
  ("ISO15118PnCEnabled", SBool);
  ("CentralContractValidationAllowed", SBool);
  ("CertSigningWaitMinimum", (SInt (Some 0) None));
  ("CertSigningRepeatTimes", (SInt (Some 0) None));
  ("ContractValidationOffline", SBool)]).

(** CostAndPrice.json *)
Definition schema_CostAndPrice : schema := (SObject false ["CustomDisplayCostAndPrice"] [
  ("CustomDisplayCostAndPrice", SBool);
  ("NumberOfDecimalsForCostValues", (SInt None None));
  ("DefaultPrice", (SObject false ["priceText"] [
    ("chargingPrice", (SObject false [] [
      ("kWhPrice", (SNumber None None));
      ("hourPrice", (SNumber None None));
      ("flatFee", (SNumber None None))]));
    ("priceText", (SText (Some 1) None));
    ("priceTextOffline", (SText (Some 1) None))]));
  ("DefaultPriceText", (SObject false [] [
    ("priceTexts", (SArray (SObject false ["priceText"; "language"] [
      ("priceText", (SText (Some 1) None));
      ("priceTextOffline", (SText (Some 1) None));
      ("language", (SText (Some 2) None))])))]));
  ("TimeOffset", (SText (Some 1) (Some 10)));
  ("NextTimeOffsetTransitionDateTime", (SText (Some 1) (Some 40)));
  ("TimeOffsetNextTransition", (SText (Some 1) (Some 40)));
  ("CustomIdleFeeAfterStop", SBool);
  ("SupportedLanguages", (SText (Some 1) None));
  ("CustomMultiLanguageMessages", SBool);
  ("Language", (SText (Some 1) None));
  ("WaitForSetUserPriceTimeout", (SInt (Some 0) (Some 30000)))]).

(** Config.json; the section Custom is added by Schemas::load_root_schema (lib/ocpp/common/schemas.cpp 36-54). *)
Definition sections : list (string * schema) := [
  ("Internal", schema_Internal);
  ("Core", schema_Core);
  ("LocalAuthListManagement", schema_LocalAuthListManagement);
  ("SmartCharging", schema_SmartCharging);
  ("FirmwareManagement", schema_FirmwareManagement);
  ("Reservation", schema_Reservation);
  ("Security", schema_Security);
  ("PnC", schema_PnC);
  ("CostAndPrice", schema_CostAndPrice)
].
Definition required_sections : list string := ["Internal"; "Core"; "Security"].

(** Every key of the schemas, and whether it can be written ("readOnly": false). *)
Definition catalogue : list (string * string * bool) := [
  ("Internal", "ChargePointId", false);
  ("Internal", "CentralSystemURI", false);
  ("Internal", "ChargeBoxSerialNumber", false);
  ("Internal", "ChargePointModel", false);
  ("Internal", "ChargePointSerialNumber", false);
  ("Internal", "ChargePointVendor", false);
  ("Internal", "FirmwareVersion", false);
  ("Internal", "ICCID", false);
  ("Internal", "HostName", false);
  ("Internal", "IFace", false);
  ("Internal", "IMSI", false);
  ("Internal", "MeterSerialNumber", false);
  ("Internal", "MeterType", false);
  ("Internal", "SupportedCiphers12", false);
  ("Internal", "SupportedCiphers13", false);
  ("Internal", "UseTPM", false);
  ("Internal", "UseTPMSeccLeafCertificate", false);
  ("Internal", "RetryBackoffRandomRange", true);
  ("Internal", "RetryBackoffRepeatTimes", true);
  ("Internal", "RetryBackoffWaitMinimum", true);
  ("Internal", "AuthorizeConnectorZeroOnConnectorOne", false);
  ("Internal", "LogMessages", false);
  ("Internal", "LogMessagesRaw", false);
  ("Internal", "LogMessagesFormat", false);
  ("Internal", "LogRotation", false);
  ("Internal", "LogRotationDateSuffix", false);
  ("Internal", "LogRotationMaximumFileSize", false);
  ("Internal", "LogRotationMaximumFileCount", false);
  ("Internal", "SupportedChargingProfilePurposeTypes", false);
  ("Internal", "IgnoredProfilePurposesOffline", true);
  ("Internal", "MaxCompositeScheduleDuration", false);
  ("Internal", "CompositeScheduleDefaultLimitAmps", true);
  ("Internal", "CompositeScheduleDefaultLimitWatts", true);
  ("Internal", "CompositeScheduleDefaultNumberPhases", true);
  ("Internal", "SupplyVoltage", true);
  ("Internal", "WebsocketPingPayload", false);
  ("Internal", "WebsocketPongTimeout", false);
  ("Internal", "UseSslDefaultVerifyPaths", false);
  ("Internal", "VerifyCsmsCommonName", false);
  ("Internal", "VerifyCsmsAllowWildcards", true);
  ("Internal", "OcspRequestInterval", true);
  ("Internal", "SeccLeafSubjectCommonName", true);
  ("Internal", "SeccLeafSubjectCountry", true);
  ("Internal", "SeccLeafSubjectOrganization", true);
  ("Internal", "ConnectorEvseIds", true);
  ("Internal", "AllowChargingProfileWithoutStartSchedule", true);
  ("Internal", "WaitForStopTransactionsOnResetTimeout", true);
  ("Internal", "QueueAllMessages", false);
  ("Internal", "MessageTypesDiscardForQueueing", false);
  ("Internal", "MessageQueueSizeThreshold", false);
  ("Internal", "SupportedMeasurands", false);
  ("Internal", "MaxMessageSize", false);
  ("Internal", "TLSKeylogFile", false);
  ("Internal", "EnableTLSKeylog", false);
  ("Internal", "StopTransactionIfUnlockNotSupported", true);
  ("Internal", "MeterPublicKeys", false);
  ("Core", "AllowOfflineTxForUnknownId", true);
  ("Core", "AuthorizationCacheEnabled", true);
  ("Core", "AuthorizeRemoteTxRequests", true);
  ("Core", "BlinkRepeat", true);
  ("Core", "ClockAlignedDataInterval", true);
  ("Core", "ConnectionTimeOut", true);
  ("Core", "ConnectorPhaseRotation", true);
  ("Core", "ConnectorPhaseRotationMaxLength", false);
  ("Core", "GetConfigurationMaxKeys", false);
  ("Core", "HeartbeatInterval", true);
  ("Core", "LightIntensity", true);
  ("Core", "LocalAuthorizeOffline", true);
  ("Core", "LocalPreAuthorize", true);
  ("Core", "MaxEnergyOnInvalidId", true);
  ("Core", "MeterValuesAlignedData", true);
  ("Core", "MeterValuesAlignedDataMaxLength", false);
  ("Core", "MeterValuesSampledData", true);
  ("Core", "MeterValuesSampledDataMaxLength", false);
  ("Core", "MeterValueSampleInterval", true);
  ("Core", "MinimumStatusDuration", true);
  ("Core", "NumberOfConnectors", false);
  ("Core", "ResetRetries", true);
  ("Core", "StopTransactionOnEVSideDisconnect", false);
  ("Core", "StopTransactionOnInvalidId", true);
  ("Core", "StopTxnAlignedData", true);
  ("Core", "StopTxnAlignedDataMaxLength", false);
  ("Core", "StopTxnSampledData", true);
  ("Core", "StopTxnSampledDataMaxLength", false);
  ("Core", "SupportedFeatureProfiles", false);
  ("Core", "SupportedFeatureProfilesMaxLength", false);
  ("Core", "TransactionMessageAttempts", true);
  ("Core", "TransactionMessageRetryInterval", true);
  ("Core", "UnlockConnectorOnEVSideDisconnect", true);
  ("Core", "WebSocketPingInterval", true);
  ("LocalAuthListManagement", "LocalAuthListEnabled", true);
  ("LocalAuthListManagement", "LocalAuthListMaxLength", false);
  ("LocalAuthListManagement", "SendLocalListMaxLength", false);
  ("SmartCharging", "ChargeProfileMaxStackLevel", false);
  ("SmartCharging", "ChargingScheduleAllowedChargingRateUnit", false);
  ("SmartCharging", "ChargingScheduleMaxPeriods", false);
  ("SmartCharging", "ConnectorSwitch3to1PhaseSupported", false);
  ("SmartCharging", "MaxChargingProfilesInstalled", false);
  ("FirmwareManagement", "SupportedFileTransferProtocols", false);
  ("Reservation", "ReserveConnectorZeroSupported", false);
  ("Security", "AdditionalRootCertificateCheck", false);
  ("Security", "AuthorizationKey", true);
  ("Security", "CertificateSignedMaxChainSize", false);
  ("Security", "CertificateStoreMaxLength", false);
  ("Security", "CpoName", true);
  ("Security", "SecurityProfile", true);
  ("Security", "DisableSecurityEventNotifications", true);
  ("PnC", "ISO15118CertificateManagementEnabled", true);
  ("PnC", "ISO15118PnCEnabled", true);
  ("PnC", "CentralContractValidationAllowed", true);
  ("PnC", "CertSigningWaitMinimum", true);
  ("PnC", "CertSigningRepeatTimes", true);
  ("PnC", "ContractValidationOffline", true);
  ("CostAndPrice", "CustomDisplayCostAndPrice", false);
  ("CostAndPrice", "NumberOfDecimalsForCostValues", false);
  ("CostAndPrice", "DefaultPrice", true);
  ("CostAndPrice", "DefaultPriceText", true);
  ("CostAndPrice", "TimeOffset", true);
  ("CostAndPrice", "NextTimeOffsetTransitionDateTime", true);
  ("CostAndPrice", "TimeOffsetNextTransition", true);
  ("CostAndPrice", "CustomIdleFeeAfterStop", true);
  ("CostAndPrice", "SupportedLanguages", false);
  ("CostAndPrice", "CustomMultiLanguageMessages", false);
  ("CostAndPrice", "Language", true);
  ("CostAndPrice", "WaitForSetUserPriceTimeout", true)
].

(** The keys with a "default", which the library fills in when it is started. *)
Definition defaulted : list (string * string) := [
  ("Internal", "SupportedCiphers12");
  ("Internal", "SupportedCiphers13");
  ("Internal", "UseTPM");
  ("Internal", "UseTPMSeccLeafCertificate");
  ("Internal", "RetryBackoffRandomRange");
  ("Internal", "RetryBackoffRepeatTimes");
  ("Internal", "RetryBackoffWaitMinimum");
  ("Internal", "AuthorizeConnectorZeroOnConnectorOne");
  ("Internal", "LogMessages");
  ("Internal", "LogMessagesRaw");
  ("Internal", "LogMessagesFormat");
  ("Internal", "LogRotation");
  ("Internal", "LogRotationDateSuffix");
  ("Internal", "LogRotationMaximumFileSize");
  ("Internal", "LogRotationMaximumFileCount");
  ("Internal", "SupportedChargingProfilePurposeTypes");
  ("Internal", "MaxCompositeScheduleDuration");
  ("Internal", "CompositeScheduleDefaultLimitAmps");
  ("Internal", "CompositeScheduleDefaultLimitWatts");
  ("Internal", "CompositeScheduleDefaultNumberPhases");
  ("Internal", "SupplyVoltage");
  ("Internal", "WebsocketPingPayload");
  ("Internal", "WebsocketPongTimeout");
  ("Internal", "UseSslDefaultVerifyPaths");
  ("Internal", "VerifyCsmsCommonName");
  ("Internal", "VerifyCsmsAllowWildcards");
  ("Internal", "OcspRequestInterval");
  ("Internal", "WaitForStopTransactionsOnResetTimeout");
  ("Internal", "SupportedMeasurands");
  ("Internal", "MaxMessageSize");
  ("Internal", "TLSKeylogFile");
  ("Internal", "EnableTLSKeylog");
  ("Internal", "StopTransactionIfUnlockNotSupported");
  ("SmartCharging", "ChargingScheduleAllowedChargingRateUnit");
  ("SmartCharging", "ChargingScheduleMaxPeriods");
  ("SmartCharging", "MaxChargingProfilesInstalled");
  ("Security", "SecurityProfile");
  ("Security", "DisableSecurityEventNotifications");
  ("PnC", "ISO15118CertificateManagementEnabled")
].
