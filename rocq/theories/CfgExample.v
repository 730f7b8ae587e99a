(** config/v16/config-full.json with the default values of the schemas.
    Generated by tools/gen_config.py. *)
From Coq Require Import ZArith List Bool String Ascii.
From Verif Require Import StrModel JsonModel.
Import ListNotations.
Local Open Scope string_scope.
Local Open Scope Z_scope.

Definition example_config : list (string * json) := [
  ("Core", JObj [
    ("AllowOfflineTxForUnknownId", JBool true);
    ("AuthorizationCacheEnabled", JBool true);
    ("AuthorizeRemoteTxRequests", JBool true);
    ("BlinkRepeat", JInt 0);
    ("ClockAlignedDataInterval", JInt 900);
    ("ConnectionTimeOut", JInt 120);
    ("ConnectorPhaseRotation", JStr "RST0.RST,1.RST,2.RTS");
    ("ConnectorPhaseRotationMaxLength", JInt 100);
    ("GetConfigurationMaxKeys", JInt 1024);
    ("HeartbeatInterval", JInt 900);
    ("LightIntensity", JInt 0);
    ("LocalAuthorizeOffline", JBool true);
    ("LocalPreAuthorize", JBool true);
    ("MaxEnergyOnInvalidId", JInt 500);
    ("MeterValueSampleInterval", JInt 300);
    ("MeterValuesAlignedData", JStr "Energy.Active.Import.Register");
    ("MeterValuesAlignedDataMaxLength", JInt 1024);
    ("MeterValuesSampledData", JStr "Energy.Active.Import.Register");
    ("MeterValuesSampledDataMaxLength", JInt 1024);
    ("MinimumStatusDuration", JInt 1);
    ("NumberOfConnectors", JInt 2);
    ("ResetRetries", JInt 1);
    ("StopTransactionOnEVSideDisconnect", JBool true);
    ("StopTransactionOnInvalidId", JBool true);
    ("StopTxnAlignedData", JStr "Energy.Active.Import.Register");
    ("StopTxnAlignedDataMaxLength", JInt 1024);
    ("StopTxnSampledData", JStr "Energy.Active.Import.Register");
    ("StopTxnSampledDataMaxLength", JInt 1024);
    ("SupportedFeatureProfiles", JStr "Core,FirmwareManagement,RemoteTrigger,Reservation,LocalAuthListManagement,SmartCharging");
    ("SupportedFeatureProfilesMaxLength", JInt 1024);
    ("TransactionMessageAttempts", JInt 1);
    ("TransactionMessageRetryInterval", JInt 10);
    ("UnlockConnectorOnEVSideDisconnect", JBool true);
    ("WebSocketPingInterval", JInt 10)]);
  ("CostAndPrice", JObj [
    ("CustomDisplayCostAndPrice", JBool true);
    ("CustomIdleFeeAfterStop", JBool false);
    ("CustomMultiLanguageMessages", JBool true);
    ("DefaultPrice", JObj [
      ("chargingPrice", JObj [
        ("hourPrice", JFloat "0.42");
        ("kWhPrice", JFloat "3.14")]);
      ("priceText", JStr "This is the price");
      ("priceTextOffline", JStr "Show this price text when offline!")]);
    ("DefaultPriceText", JObj [
      ("priceTexts", JArr [JObj [
        ("language", JStr "en");
        ("priceText", JStr "This is the price");
        ("priceTextOffline", JStr "Show this price text when offline!")]; JObj [
        ("language", JStr "nl");
        ("priceText", JStr "Dit is de prijs");
        ("priceTextOffline", JStr "Laat dit zien wanneer de charging station offline is!")]; JObj [
        ("language", JStr "nb_NO");
        ("priceText", JStr "Dette er prisen");
        ("priceTextOffline", JStr "Vis denne pristeksten når du er frakoblet")]])]);
    ("Language", JStr "en");
    ("NextTimeOffsetTransitionDateTime", JStr "2024-01-01T00:00:00");
    ("NumberOfDecimalsForCostValues", JInt 4);
    ("SupportedLanguages", JStr "en, nl, de, nb_NO");
    ("TimeOffset", JStr "02:00");
    ("TimeOffsetNextTransition", JStr "01:00");
    ("WaitForSetUserPriceTimeout", JInt 5000)]);
  ("FirmwareManagement", JObj [
    ("SupportedFileTransferProtocols", JStr "FTP")]);
  ("Internal", JObj [
    ("AllowChargingProfileWithoutStartSchedule", JBool false);
    ("AuthorizeConnectorZeroOnConnectorOne", JBool true);
    ("CentralSystemURI", JStr "127.0.0.1:8180/steve/websocket/CentralSystemService/");
    ("ChargeBoxSerialNumber", JStr "cp001");
    ("ChargePointId", JStr "cp001");
    ("ChargePointModel", JStr "Yeti");
    ("ChargePointSerialNumber", JStr "cp001");
    ("ChargePointVendor", JStr "Pionix");
    ("CompositeScheduleDefaultLimitAmps", JInt 48);
    ("CompositeScheduleDefaultLimitWatts", JInt 33120);
    ("CompositeScheduleDefaultNumberPhases", JInt 3);
    ("ConnectorEvseIds", JStr "DE*PNX*100001,DE*PNX*100002");
    ("EnableTLSKeylog", JBool false);
    ("FirmwareVersion", JStr "0.1");
    ("ICCID", JStr "891004234814455936F");
    ("IMSI", JStr "262 01 9876543210");
    ("LogMessages", JBool true);
    ("LogMessagesFormat", JArr [JStr "log"; JStr "html"; JStr "session_logging"; JStr "security"]);
    ("LogMessagesRaw", JBool false);
    ("LogRotation", JBool false);
    ("LogRotationDateSuffix", JBool false);
    ("LogRotationMaximumFileCount", JInt 0);
    ("LogRotationMaximumFileSize", JInt 0);
    ("MaxCompositeScheduleDuration", JInt 31536000);
    ("MaxMessageSize", JInt 65000);
    ("MessageQueueSizeThreshold", JInt 5000);
    ("MessageTypesDiscardForQueueing", JStr "Heartbeat");
    ("MeterSerialNumber", JStr "123-456-789");
    ("MeterType", JStr "AC");
    ("OcspRequestInterval", JInt 604800);
    ("QueueAllMessages", JBool true);
    ("RetryBackoffRandomRange", JInt 10);
    ("RetryBackoffRepeatTimes", JInt 3);
    ("RetryBackoffWaitMinimum", JInt 3);
    ("SeccLeafSubjectCommonName", JStr "DEPNX100001");
    ("SeccLeafSubjectCountry", JStr "DE");
    ("SeccLeafSubjectOrganization", JStr "Pionix");
    ("StopTransactionIfUnlockNotSupported", JBool false);
    ("SupplyVoltage", JInt 230);
    ("SupportedChargingProfilePurposeTypes", JArr [JStr "ChargePointMaxProfile"; JStr "TxDefaultProfile"; JStr "TxProfile"]);
    ("SupportedCiphers12", JArr [JStr "ECDHE-ECDSA-AES128-GCM-SHA256"; JStr "ECDHE-ECDSA-AES256-GCM-SHA384"; JStr "AES128-GCM-SHA256"; JStr "AES256-GCM-SHA384"]);
    ("SupportedCiphers13", JArr [JStr "TLS_AES_256_GCM_SHA384"; JStr "TLS_AES_128_GCM_SHA256"]);
    ("SupportedMeasurands", JStr "Energy.Active.Import.Register,Energy.Active.Export.Register,Power.Active.Import,Voltage,Current.Import,Frequency,Current.Offered,Power.Offered,SoC");
    ("TLSKeylogFile", JStr "/tmp/ocpp_tls_keylog.txt");
    ("UseSslDefaultVerifyPaths", JBool true);
    ("UseTPM", JBool false);
    ("UseTPMSeccLeafCertificate", JBool false);
    ("VerifyCsmsAllowWildcards", JBool true);
    ("VerifyCsmsCommonName", JBool true);
    ("WaitForStopTransactionsOnResetTimeout", JInt 60);
    ("WebsocketPingPayload", JStr "Hello from EVerest!");
    ("WebsocketPongTimeout", JInt 5)]);
  ("LocalAuthListManagement", JObj [
    ("LocalAuthListEnabled", JBool true);
    ("LocalAuthListMaxLength", JInt 1024);
    ("SendLocalListMaxLength", JInt 1024)]);
  ("PnC", JObj [
    ("CentralContractValidationAllowed", JBool true);
    ("CertSigningRepeatTimes", JInt 2);
    ("CertSigningWaitMinimum", JInt 30);
    ("ContractValidationOffline", JBool true);
    ("ISO15118CertificateManagementEnabled", JBool true);
    ("ISO15118PnCEnabled", JBool true)]);
  ("Reservation", JObj [
    ("ReserveConnectorZeroSupported", JBool false)]);
  ("Security", JObj [
    ("AdditionalRootCertificateCheck", JBool false);
    ("AuthorizationKey", JStr "DEADBEEFDEADBEEF");
    ("CertificateSignedMaxChainSize", JInt 10000);
    ("CertificateStoreMaxLength", JInt 1000);
    ("CpoName", JStr "Pionix");
    ("DisableSecurityEventNotifications", JBool false);
    ("SecurityProfile", JInt 1)]);
  ("SmartCharging", JObj [
    ("ChargeProfileMaxStackLevel", JInt 1000);
    ("ChargingScheduleAllowedChargingRateUnit", JStr "Current,Power");
    ("ChargingScheduleMaxPeriods", JInt 1000);
    ("ConnectorSwitch3to1PhaseSupported", JBool true);
    ("MaxChargingProfilesInstalled", JInt 1000)])
].
