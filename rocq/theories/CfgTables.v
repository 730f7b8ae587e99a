(** What ChargePointConfiguration::get and ::set do per key (lib/ocpp/v16/charge_point_configuration.cpp).
    Generated by tools/gen_config.py from the source; the lines of every function used are given. *)
From Coq Require Import ZArith List Bool String Ascii.
From Verif Require Import StrModel JsonModel CfgModel.
Import ListNotations.
Local Open Scope string_scope.
Local Open Scope Z_scope.

(** get (3382-3785), in the order of its comparisons. *)
Definition readers : list item := [
  Plain (Reader "ChargePointId" None "Internal" "ChargePointId" "ChargePointId" Must KText ReadOnly); (* getChargePointIdKeyValue 651-657, getChargePointId 367-369 *)
  Plain (Reader "CentralSystemURI" None "Internal" "CentralSystemURI" "CentralSystemURI" Must KText ByInternalSchema); (* getCentralSystemURIKeyValue 659-665, getCentralSystemURI 370-372 *)
  Plain (Reader "ChargeBoxSerialNumber" None "Internal" "ChargeBoxSerialNumber" "ChargeBoxSerialNumber" Must KText ReadOnly); (* getChargeBoxSerialNumberKeyValue 667-673, getChargeBoxSerialNumber 373-375 *)
  Plain (Reader "ChargePointModel" None "Internal" "ChargePointModel" "ChargePointModel" Must (KShort 20%nat) ReadOnly); (* getChargePointModelKeyValue 675-681, getChargePointModel 377-379 *)
  Plain (Reader "ChargePointSerialNumber" None "Internal" "ChargePointSerialNumber" "ChargePointSerialNumber" May (KShort 25%nat) ReadOnly); (* getChargePointSerialNumberKeyValue 683-694, getChargePointSerialNumber 380-386 *)
  Plain (Reader "ChargePointVendor" None "Internal" "ChargePointVendor" "ChargePointVendor" Must (KShort 20%nat) ReadOnly); (* getChargePointVendorKeyValue 696-702, getChargePointVendor 388-390 *)
  Plain (Reader "FirmwareVersion" None "Internal" "FirmwareVersion" "FirmwareVersion" Must (KShort 50%nat) ReadOnly); (* getFirmwareVersionKeyValue 704-710, getFirmwareVersion 391-393 *)
  Plain (Reader "ICCID" None "Internal" "ICCID" "ICCID" May (KShort 20%nat) ReadOnly); (* getICCIDKeyValue 712-723, getICCID 394-400 *)
  Plain (Reader "IMSI" None "Internal" "IMSI" "IMSI" May (KShort 20%nat) ReadOnly); (* getIMSIKeyValue 725-736, getIMSI 401-407 *)
  Plain (Reader "MeterSerialNumber" None "Internal" "MeterSerialNumber" "MeterSerialNumber" May (KShort 25%nat) ReadOnly); (* getMeterSerialNumberKeyValue 738-749, getMeterSerialNumber 408-414 *)
  Plain (Reader "MeterType" None "Internal" "MeterType" "MeterType" May (KShort 25%nat) ReadOnly); (* getMeterTypeKeyValue 751-762, getMeterType 415-421 *)
  Plain (Reader "SupportedCiphers12" None "Internal" "SupportedCiphers12" "SupportedCiphers12" Must KColons ReadOnly); (* getSupportedCiphers12KeyValue 872-878, getSupportedCiphers12 612-615 *)
  Plain (Reader "SupportedCiphers13" None "Internal" "SupportedCiphers13" "SupportedCiphers13" Must KColons ReadOnly); (* getSupportedCiphers13KeyValue 880-886, getSupportedCiphers13 617-620 *)
  Plain (Reader "RetryBackoffRandomRange" None "Internal" "RetryBackoffRandomRange" "RetryBackoffRandomRange" Must KInt ReadWrite); (* getRetryBackoffRandomRangeKeyValue 982-988, getRetryBackoffRandomRange 973-975 *)
  Plain (Reader "RetryBackoffRepeatTimes" None "Internal" "RetryBackoffRepeatTimes" "RetryBackoffRepeatTimes" Must KInt ReadWrite); (* getRetryBackoffRepeatTimesKeyValue 999-1005, getRetryBackoffRepeatTimes 990-992 *)
  Plain (Reader "RetryBackoffWaitMinimum" None "Internal" "RetryBackoffWaitMinimum" "RetryBackoffWaitMinimum" Must KInt ReadWrite); (* getRetryBackoffWaitMinimumKeyValue 1016-1022, getRetryBackoffWaitMinimum 1007-1009 *)
  Plain (Reader "AuthorizeConnectorZeroOnConnectorOne" None "Internal" "AuthorizeConnectorZeroOnConnectorOne" "AuthorizeConnectorZeroOnConnectorOne" Must KIfSingle ReadOnly); (* getAuthorizeConnectorZeroOnConnectorOneKeyValue 764-770, getAuthorizeConnectorZeroOnConnectorOne 422-427 *)
  Plain (Reader "LogMessages" None "Internal" "LogMessages" "LogMessages" Must KBool ReadOnly); (* getLogMessagesKeyValue 772-778, getLogMessages 428-430 *)
  Plain (Reader "LogMessagesRaw" None "Internal" "LogMessagesRaw" "LogMessagesRaw" Must KBool ReadOnly); (* getLogMessagesRawKeyValue 780-786, getLogMessagesRaw 431-433 *)
  Plain (Reader "LogMessagesFormat" None "Internal" "LogMessagesFormat" "LogMessagesFormat" Must KCommas ReadOnly); (* getLogMessagesFormatKeyValue 788-794, getLogMessagesFormat 434-436 *)
  Plain (Reader "SupportedChargingProfilePurposeTypes" None "Internal" "SupportedChargingProfilePurposeTypes" "SupportedChargingProfilePurposeTypes" Must KPurposes ReadOnly); (* getSupportedChargingProfilePurposeTypesKeyValue 828-842, getSupportedChargingProfilePurposeTypes 454-465 *)
  Plain (Reader "IgnoredProfilePurposesOffline" None "Internal" "IgnoredProfilePurposesOffline" "IgnoredProfilePurposesOffline" May KPurposeText ReadWrite); (* getIgnoredProfilePurposesOfflineKeyValue 844-862, getIgnoredProfilePurposesOffline 467-482 *)
  Plain (Reader "MaxCompositeScheduleDuration" None "Internal" "MaxCompositeScheduleDuration" "MaxCompositeScheduleDuration" Must KInt ReadOnly); (* getMaxCompositeScheduleDurationKeyValue 864-870, getMaxCompositeScheduleDuration 504-506 *)
  Plain (Reader "CompositeScheduleDefaultLimitAmps" None "Internal" "CompositeScheduleDefaultLimitAmps" "CompositeScheduleDefaultLimitAmps" May KInt ReadWrite); (* getCompositeScheduleDefaultLimitAmpsKeyValue 515-525, getCompositeScheduleDefaultLimitAmps 508-513 *)
  Plain (Reader "CompositeScheduleDefaultLimitWatts" None "Internal" "CompositeScheduleDefaultLimitWatts" "CompositeScheduleDefaultLimitWatts" May KInt ReadWrite); (* getCompositeScheduleDefaultLimitWattsKeyValue 541-551, getCompositeScheduleDefaultLimitWatts 534-539 *)
  Plain (Reader "CompositeScheduleDefaultNumberPhases" None "Internal" "CompositeScheduleDefaultNumberPhases" "CompositeScheduleDefaultNumberPhases" May KInt ReadWrite); (* getCompositeScheduleDefaultNumberPhasesKeyValue 567-577, getCompositeScheduleDefaultNumberPhases 560-565 *)
  Plain (Reader "SupplyVoltage" None "Internal" "SupplyVoltage" "SupplyVoltage" May KInt ReadWrite); (* getSupplyVoltageKeyValue 593-603, getSupplyVoltage 586-591 *)
  Plain (Reader "WebsocketPingPayload" None "Internal" "WebsocketPingPayload" "WebsocketPingPayload" Must KText ReadOnly); (* getWebsocketPingPayloadKeyValue 957-963, getWebsocketPingPayload 1150-1152 *)
  Plain (Reader "WebsocketPongTimeout" None "Internal" "WebsocketPongTimeout" "WebsocketPongTimeout" Must KInt ReadOnly); (* getWebsocketPongTimeoutKeyValue 965-971, getWebsocketPongTimeout 1154-1156 *)
  Plain (Reader "UseSslDefaultVerifyPaths" None "Internal" "UseSslDefaultVerifyPaths" "UseSslDefaultVerifyPaths" Must KBool ReadOnly); (* getUseSslDefaultVerifyPathsKeyValue 888-894, getUseSslDefaultVerifyPaths 622-624 *)
  Plain (Reader "VerifyCsmsCommonName" None "Internal" "VerifyCsmsCommonName" "VerifyCsmsCommonName" Must KBool ReadOnly); (* getVerifyCsmsCommonNameKeyValue 896-902, getVerifyCsmsCommonName 626-628 *)
  Plain (Reader "VerifyCsmsAllowWildcards" None "Internal" "VerifyCsmsAllowWildcards" "VerifyCsmsAllowWildcards" Must KBool ReadOnly); (* getVerifyCsmsAllowWildcardsKeyValue 904-910, getVerifyCsmsAllowWildcards 638-640 *)
  Plain (Reader "OcspRequestInterval" None "Internal" "OcspRequestInterval" "OcspRequestInterval" Must KInt ReadWrite); (* getOcspRequestIntervalKeyValue 2535-2541, getOcspRequestInterval 2526-2528 *)
  Plain (Reader "SeccLeafSubjectCommonName" None "Internal" "SeccLeafSubjectCommonName" "SeccLeafSubjectCommonName" May KText ReadWrite); (* getSeccLeafSubjectCommonNameKeyValue 2558-2569, getSeccLeafSubjectCommonName 2543-2549 *)
  Plain (Reader "SeccLeafSubjectCountry" None "Internal" "SeccLeafSubjectCountry" "SeccLeafSubjectCountry" May KText ReadWrite); (* getSeccLeafSubjectCountryKeyValue 2586-2597, getSeccLeafSubjectCountry 2571-2577 *)
  Plain (Reader "SeccLeafSubjectOrganization" None "Internal" "SeccLeafSubjectOrganization" "SeccLeafSubjectOrganization" May KText ReadWrite); (* getSeccLeafSubjectOrganizationKeyValue 2614-2625, getSeccLeafSubjectOrganization 2599-2605 *)
  Plain (Reader "ConnectorEvseIds" None "Internal" "ConnectorEvseIds" "ConnectorEvseIds" May KText ReadWrite); (* getConnectorEvseIdsKeyValue 2642-2653, getConnectorEvseIds 2627-2633 *)
  Plain (Reader "AllowChargingProfileWithoutStartSchedule" None "Internal" "AllowChargingProfileWithoutStartSchedule" "AllowChargingProfileWithoutStartSchedule" May KBool ReadWrite); (* getAllowChargingProfileWithoutStartScheduleKeyValue 2670-2681, getAllowChargingProfileWithoutStartSchedule 2655-2661 *)
  Plain (Reader "WaitForStopTransactionsOnResetTimeout" None "Internal" "WaitForStopTransactionsOnResetTimeout" "WaitForStopTransactionsOnResetTimeout" Must KInt ReadWrite); (* getWaitForStopTransactionsOnResetTimeoutKeyValue 2694-2700, getWaitForStopTransactionsOnResetTimeout 2683-2685 *)
  Plain (Reader "HostName" None "Internal" "HostName" "HostName" May KText ReadOnly); (* getHostNameKeyValue 1929-1940, getHostName 1158-1164 *)
  Plain (Reader "SupportedMeasurands" None "Internal" "SupportedMeasurands" "SupportedMeasurands" Must KText ReadOnly); (* getSupportedMeasurandsKeyValue 912-918, getSupportedMeasurands 647-649 *)
  Plain (Reader "MaxMessageSize" None "Internal" "MaxMessageSize" "MaxMessageSize" Must KInt ReadOnly); (* getMaxMessageSizeKeyValue 924-930, getMaxMessageSize 920-922 *)
  Plain (Reader "QueueAllMessages" None "Internal" "QueueAllMessages" "QueueAllMessages" May KBool ReadOnly); (* getQueueAllMessagesKeyValue 1182-1193, getQueueAllMessages 1174-1180 *)
  Plain (Reader "MessageTypesDiscardForQueueing" None "Internal" "MessageTypesDiscardForQueueing" "MessageTypesDiscardForQueueing" May KText ReadOnly); (* getMessageTypesDiscardForQueueingKeyValue 1202-1213, getMessageTypesDiscardForQueueing 1195-1200 *)
  Plain (Reader "MessageQueueSizeThreshold" None "Internal" "MessageQueueSizeThreshold" "MessageQueueSizeThreshold" May KInt ReadOnly); (* getMessageQueueSizeThresholdKeyValue 1223-1234, getMessageQueueSizeThreshold 1215-1221 *)
  Plain (Reader "StopTransactionIfUnlockNotSupported" None "Internal" "StopTransactionIfUnlockNotSupported" "StopTransactionIfUnlockNotSupported" Must KBool ReadWrite); (* getStopTransactionIfUnlockNotSupportedKeyValue 949-955, getStopTransactionIfUnlockNotSupported 940-942 *)
  Plain (Reader "AllowOfflineTxForUnknownId" None "Core" "AllowOfflineTxForUnknownId" "AllowOfflineTxForUnknownId" May KBool ReadWrite); (* getAllowOfflineTxForUnknownIdKeyValue 1250-1261, getAllowOfflineTxForUnknownId 1237-1243 *)
  Plain (Reader "AuthorizationCacheEnabled" None "Core" "AuthorizationCacheEnabled" "AuthorizationCacheEnabled" May KBool ReadWrite); (* getAuthorizationCacheEnabledKeyValue 1277-1288, getAuthorizationCacheEnabled 1264-1270 *)
  Plain (Reader "AuthorizeRemoteTxRequests" None "Core" "AuthorizeRemoteTxRequests" "AuthorizeRemoteTxRequests" Must KBool ReadWrite); (* getAuthorizeRemoteTxRequestsKeyValue 1298-1304, getAuthorizeRemoteTxRequests 1291-1293 *)
  Plain (Reader "BlinkRepeat" None "Core" "BlinkRepeat" "BlinkRepeat" May KInt ReadWrite); (* getBlinkRepeatKeyValue 1320-1331, getBlinkRepeat 1307-1313 *)
  Plain (Reader "ClockAlignedDataInterval" None "Core" "ClockAlignedDataInterval" "ClockAlignedDataInterval" Must KInt ReadWrite); (* getClockAlignedDataIntervalKeyValue 1341-1347, getClockAlignedDataInterval 1334-1336 *)
  Plain (Reader "ConnectionTimeOut" None "Core" "ConnectionTimeOut" "ConnectionTimeOut" Must KInt ReadWrite); (* getConnectionTimeOutKeyValue 1357-1363, getConnectionTimeOut 1350-1352 *)
  Plain (Reader "ConnectorPhaseRotation" None "Core" "ConnectorPhaseRotation" "ConnectorPhaseRotation" Must KText ReadWrite); (* getConnectorPhaseRotationKeyValue 1373-1379, getConnectorPhaseRotation 1366-1368 *)
  Plain (Reader "ConnectorPhaseRotationMaxLength" None "Core" "ConnectorPhaseRotationMaxLength" "ConnectorPhaseRotationMaxLength" May KInt ReadOnly); (* getConnectorPhaseRotationMaxLengthKeyValue 1389-1400, getConnectorPhaseRotationMaxLength 1382-1388 *)
  Plain (Reader "GetConfigurationMaxKeys" None "Core" "GetConfigurationMaxKeys" "GetConfigurationMaxKeys" Must KInt ReadOnly); (* getGetConfigurationMaxKeysKeyValue 1406-1412, getGetConfigurationMaxKeys 1403-1405 *)
  Plain (Reader "HeartbeatInterval" None "Core" "HeartbeatInterval" "HeartbeatInterval" Must KInt ReadWrite); (* getHeartbeatIntervalKeyValue 1422-1428, getHeartbeatInterval 1415-1417 *)
  Plain (Reader "LightIntensity" None "Core" "LightIntensity" "LightIntensity" May KInt ReadWrite); (* getLightIntensityKeyValue 1444-1455, getLightIntensity 1431-1437 *)
  Plain (Reader "LocalAuthorizeOffline" None "Core" "LocalAuthorizeOffline" "LocalAuthorizeOffline" Must KBool ReadWrite); (* getLocalAuthorizeOfflineKeyValue 1465-1471, getLocalAuthorizeOffline 1458-1460 *)
  Plain (Reader "LocalPreAuthorize" None "Core" "LocalPreAuthorize" "LocalPreAuthorize" Must KBool ReadWrite); (* getLocalPreAuthorizeKeyValue 1481-1487, getLocalPreAuthorize 1474-1476 *)
  Plain (Reader "MaxEnergyOnInvalidId" None "Core" "MaxEnergyOnInvalidId" "MaxEnergyOnInvalidId" May KInt ReadWrite); (* getMaxEnergyOnInvalidIdKeyValue 1503-1514, getMaxEnergyOnInvalidId 1490-1496 *)
  Plain (Reader "MeterValuesAlignedData" None "Core" "MeterValuesAlignedData" "MeterValuesAlignedData" Must KText ReadWrite); (* getMeterValuesAlignedDataKeyValue 1528-1534, getMeterValuesAlignedData 1517-1519 *)
  Plain (Reader "MeterValuesAlignedDataMaxLength" None "Core" "MeterValuesAlignedDataMaxLength" "MeterValuesAlignedDataMaxLength" May KInt ReadOnly); (* getMeterValuesAlignedDataMaxLengthKeyValue 1547-1558, getMeterValuesAlignedDataMaxLength 1540-1546 *)
  Plain (Reader "MeterValuesSampledData" None "Core" "MeterValuesSampledData" "MeterValuesSampledData" Must KText ReadWrite); (* getMeterValuesSampledDataKeyValue 1572-1578, getMeterValuesSampledData 1561-1563 *)
  Plain (Reader "MeterValuesSampledDataMaxLength" None "Core" "MeterValuesSampledDataMaxLength" "MeterValuesSampledDataMaxLength" May KInt ReadOnly); (* getMeterValuesSampledDataMaxLengthKeyValue 1591-1602, getMeterValuesSampledDataMaxLength 1584-1590 *)
  Plain (Reader "MeterValueSampleInterval" None "Core" "MeterValueSampleInterval" "MeterValueSampleInterval" Must KInt ReadWrite); (* getMeterValueSampleIntervalKeyValue 1612-1618, getMeterValueSampleInterval 1605-1607 *)
  Plain (Reader "MinimumStatusDuration" None "Core" "MinimumStatusDuration" "MinimumStatusDuration" May KInt ReadWrite); (* getMinimumStatusDurationKeyValue 1634-1645, getMinimumStatusDuration 1621-1627 *)
  Plain (Reader "NumberOfConnectors" None "Core" "NumberOfConnectors" "NumberOfConnectors" Must KInt ReadOnly); (* getNumberOfConnectorsKeyValue 1651-1657, getNumberOfConnectors 1648-1650 *)
  Plain (Reader "ReserveConnectorZeroSupported" None "Reservation" "ReserveConnectorZeroSupported" "ReserveConnectorZeroSupported" May KBool ReadOnly); (* getReserveConnectorZeroSupportedKeyValue 1669-1680, getReserveConnectorZeroSupported 1660-1667 *)
  Plain (Reader "ResetRetries" None "Core" "ResetRetries" "ResetRetries" Must KInt ReadWrite); (* getResetRetriesKeyValue 1690-1696, getResetRetries 1683-1685 *)
  Plain (Reader "StopTransactionOnEVSideDisconnect" None "Core" "StopTransactionOnEVSideDisconnect" "StopTransactionOnEVSideDisconnect" May KBool ReadOnly); (* getStopTransactionOnEVSideDisconnectKeyValue 1706-1717, getStopTransactionOnEVSideDisconnect 1699-1705 *)
  Plain (Reader "StopTransactionOnInvalidId" None "Core" "StopTransactionOnInvalidId" "StopTransactionOnInvalidId" Must KBool ReadWrite); (* getStopTransactionOnInvalidIdKeyValue 1727-1733, getStopTransactionOnInvalidId 1720-1722 *)
  Plain (Reader "StopTxnAlignedData" None "Core" "StopTxnAlignedData" "StopTxnAlignedData" Must KText ReadWrite); (* getStopTxnAlignedDataKeyValue 1747-1753, getStopTxnAlignedData 1736-1738 *)
  Plain (Reader "StopTxnAlignedDataMaxLength" None "Core" "StopTxnAlignedDataMaxLength" "StopTxnAlignedDataMaxLength" May KInt ReadOnly); (* getStopTxnAlignedDataMaxLengthKeyValue 1763-1774, getStopTxnAlignedDataMaxLength 1756-1762 *)
  Plain (Reader "StopTxnSampledData" None "Core" "StopTxnSampledData" "StopTxnSampledData" Must KText ReadWrite); (* getStopTxnSampledDataKeyValue 1789-1795, getStopTxnSampledData 1777-1779 *)
  Plain (Reader "StopTxnSampledDataMaxLength" None "Core" "StopTxnSampledDataMaxLength" "StopTxnSampledDataMaxLength" May KInt ReadOnly); (* getStopTxnSampledDataMaxLengthKeyValue 1805-1816, getStopTxnSampledDataMaxLength 1798-1804 *)
  Plain (Reader "SupportedFeatureProfiles" None "Core" "SupportedFeatureProfiles" "SupportedFeatureProfiles" Must KText ReadOnly); (* getSupportedFeatureProfilesKeyValue 1822-1828, getSupportedFeatureProfiles 1819-1821 *)
  Plain (Reader "SupportedFeatureProfilesMaxLength" None "Core" "SupportedFeatureProfilesMaxLength" "SupportedFeatureProfilesMaxLength" May KInt ReadOnly); (* getSupportedFeatureProfilesMaxLengthKeyValue 1841-1852, getSupportedFeatureProfilesMaxLength 1834-1840 *)
  Plain (Reader "TransactionMessageAttempts" None "Core" "TransactionMessageAttempts" "TransactionMessageAttempts" Must KInt ReadWrite); (* getTransactionMessageAttemptsKeyValue 1862-1868, getTransactionMessageAttempts 1855-1857 *)
  Plain (Reader "TransactionMessageRetryInterval" None "Core" "TransactionMessageRetryInterval" "TransactionMessageRetryInterval" Must KInt ReadWrite); (* getTransactionMessageRetryIntervalKeyValue 1878-1884, getTransactionMessageRetryInterval 1871-1873 *)
  Plain (Reader "UnlockConnectorOnEVSideDisconnect" None "Core" "UnlockConnectorOnEVSideDisconnect" "UnlockConnectorOnEVSideDisconnect" Must KBool ByCoreSchema); (* getUnlockConnectorOnEVSideDisconnectKeyValue 1894-1900, getUnlockConnectorOnEVSideDisconnect 1887-1889 *)
  Plain (Reader "WebSocketPingInterval" None "Core" "WebSocketPingInterval" "WebSocketPingInterval" May KInt ReadWrite); (* getWebsocketPingIntervalKeyValue 1916-1927, getWebsocketPingInterval 1903-1909 *)
  PublicKeys; (* get 3630-3647 *)
  Plain (Reader "SupportedFileTransferProtocols" (Some "FirmwareManagement") "FirmwareManagement" "SupportedFileTransferProtocols" "SupportedFileTransferProtocols" May KText ReadOnly); (* getSupportedFileTransferProtocolsKeyValue 1966-1977, getSupportedFileTransferProtocols 1958-1964 *)
  Plain (Reader "ISO15118CertificateManagementEnabled" (Some "PnC") "PnC" "ISO15118CertificateManagementEnabled" "ISO15118CertificateManagementEnabled" Must KBool ReadWrite); (* getISO15118CertificateManagementEnabledKeyValue 2402-2408, getISO15118CertificateManagementEnabled 2392-2394 *)
  Plain (Reader "ISO15118PnCEnabled" (Some "PnC") "PnC" "ISO15118PnCEnabled" "ISO15118PnCEnabled" Must KBool ReadWrite); (* getISO15118PnCEnabledKeyValue 2419-2425, getISO15118PnCEnabled 2410-2412 *)
  Plain (Reader "CentralContractValidationAllowed" (Some "PnC") "PnC" "CentralContractValidationAllowed" "CentralContractValidationAllowed" May KBool ReadWrite); (* getCentralContractValidationAllowedKeyValue 2441-2452, getCentralContractValidationAllowed 2427-2433 *)
  Plain (Reader "CertSigningWaitMinimum" (Some "PnC") "PnC" "CertSigningWaitMinimum" "CertSigningWaitMinimum" May KInt ReadWrite); (* getCertSigningWaitMinimumKeyValue 2469-2480, getCertSigningWaitMinimum 2454-2460 *)
  Plain (Reader "CertSigningRepeatTimes" (Some "PnC") "PnC" "CertSigningRepeatTimes" "CertSigningRepeatTimes" May KInt ReadWrite); (* getCertSigningRepeatTimesKeyValue 2496-2507, getCertSigningRepeatTimes 2482-2488 *)
  Plain (Reader "ContractValidationOffline" (Some "PnC") "PnC" "ContractValidationOffline" "ContractValidationOffline" Must KBool ReadWrite); (* getContractValidationOfflineKeyValue 2518-2524, getContractValidationOffline 2509-2511 *)
  Plain (Reader "ChargeProfileMaxStackLevel" (Some "SmartCharging") "SmartCharging" "ChargeProfileMaxStackLevel" "ChargeProfileMaxStackLevel" Must KInt ReadOnly); (* getChargeProfileMaxStackLevelKeyValue 1984-1990, getChargeProfileMaxStackLevel 1981-1983 *)
  Plain (Reader "ChargingScheduleAllowedChargingRateUnit" (Some "SmartCharging") "SmartCharging" "ChargingScheduleAllowedChargingRateUnit" "ChargingScheduleAllowedChargingRateUnit" Must KText ReadOnly); (* getChargingScheduleAllowedChargingRateUnitKeyValue 1995-2001, getChargingScheduleAllowedChargingRateUnit 1992-1994 *)
  Plain (Reader "ChargingScheduleMaxPeriods" (Some "SmartCharging") "SmartCharging" "ChargingScheduleMaxPeriods" "ChargingScheduleMaxPeriods" Must KInt ReadOnly); (* getChargingScheduleMaxPeriodsKeyValue 2020-2026, getChargingScheduleMaxPeriods 2017-2019 *)
  Plain (Reader "ConnectorSwitch3to1PhaseSupported" (Some "SmartCharging") "SmartCharging" "ConnectorSwitch3to1PhaseSupported" "ConnectorSwitch3to1PhaseSupported" May KBool ReadOnly); (* getConnectorSwitch3to1PhaseSupportedKeyValue 2036-2048, getConnectorSwitch3to1PhaseSupported 2028-2035 *)
  Plain (Reader "MaxChargingProfilesInstalled" (Some "SmartCharging") "SmartCharging" "MaxChargingProfilesInstalled" "MaxChargingProfilesInstalled" Must KInt ReadOnly); (* getMaxChargingProfilesInstalledKeyValue 2053-2059, getMaxChargingProfilesInstalled 2050-2052 *)
  Plain (Reader "AdditionalRootCertificateCheck" (Some "Security") "Security" "AdditionalRootCertificateCheck" "AdditionalRootCertificateCheck" May KBool ReadOnly); (* getAdditionalRootCertificateCheckKeyValue 2070-2082, getAdditionalRootCertificateCheck 2062-2068 *)
  Plain (Reader "CertificateSignedMaxChainSize" (Some "Security") "Security" "CertificateSignedMaxChainSize" "CertificateSignedMaxChainSize" May KInt ReadOnly); (* getCertificateSignedMaxChainSizeKeyValue 2247-2258, getCertificateSignedMaxChainSize 2239-2245 *)
  Plain (Reader "CertificateStoreMaxLength" (Some "Security") "Security" "CertificateStoreMaxLength" "CertificateStoreMaxLength" May KInt ReadOnly); (* getCertificateStoreMaxLengthKeyValue 2269-2280, getCertificateStoreMaxLength 2261-2267 *)
  Plain (Reader "CpoName" (Some "Security") "Security" "CpoName" "CpoName" OrBlank KText ReadWrite); (* getCpoNameKeyValue 2296-2307, getCpoName 2283-2289 *)
  Plain (Reader "SecurityProfile" (Some "Security") "Security" "SecurityProfile" "SecurityProfile" Must KInt ReadWrite); (* getSecurityProfileKeyValue 2321-2328, getSecurityProfile 2310-2312 *)
  Plain (Reader "DisableSecurityEventNotifications" (Some "Security") "Security" "DisableSecurityEventNotifications" "DisableSecurityEventNotifications" Must KBool ReadWrite); (* getDisableSecurityEventNotificationsKeyValue 2339-2345, getDisableSecurityEventNotifications 2330-2332 *)
  Plain (Reader "LocalAuthListEnabled" (Some "LocalAuthListManagement") "LocalAuthListManagement" "LocalAuthListEnabled" "LocalAuthListEnabled" OrFalseSection KBool ReadWrite); (* getLocalAuthListEnabledKeyValue 2359-2365, getLocalAuthListEnabled 2348-2353 *)
  Plain (Reader "LocalAuthListMaxLength" (Some "LocalAuthListManagement") "LocalAuthListManagement" "LocalAuthListMaxLength" "LocalAuthListMaxLength" Must KInt ReadOnly); (* getLocalAuthListMaxLengthKeyValue 2371-2377, getLocalAuthListMaxLength 2368-2370 *)
  Plain (Reader "SendLocalListMaxLength" (Some "LocalAuthListManagement") "LocalAuthListManagement" "SendLocalListMaxLength" "SendLocalListMaxLength" Must KInt ReadOnly); (* getSendLocalListMaxLengthKeyValue 2383-2389, getSendLocalListMaxLength 2380-2382 *)
  Plain (Reader "CustomDisplayCostAndPrice" (Some "CostAndPrice") "CostAndPrice" "CustomDisplayCostAndPrice" "CustomDisplayCostAndPrice" OrFalse KBool ReadOnly); (* getCustomDisplayCostAndPriceEnabledKeyValue 2712-2719, getCustomDisplayCostAndPriceEnabled 2703-2710 *)
  Plain (Reader "NumberOfDecimalsForCostValues" (Some "CostAndPrice") "CostAndPrice" "NumberOfDecimalsForCostValues" "NumberOfDecimalsForCostValues" May KUnsigned ReadOnly); (* getPriceNumberOfDecimalsForCostValuesKeyValue 2730-2741, getPriceNumberOfDecimalsForCostValues 2721-2728 *)
  Plain (Reader "DefaultPrice" (Some "CostAndPrice") "CostAndPrice" "DefaultPrice" "DefaultPrice" May KPretty ReadWrite); (* getDefaultPriceKeyValue 2972-2983, getDefaultPrice 2948-2954 *)
  PriceTexts; (* get 3748-3753 *)
  Plain (Reader "TimeOffset" (Some "CostAndPrice") "CostAndPrice" "TimeOffset" "TimeOffset" May KText ReadWrite); (* getDisplayTimeOffsetKeyValue 3002-3013, getDisplayTimeOffset 2985-2991 *)
  Plain (Reader "NextTimeOffsetTransitionDateTime" (Some "CostAndPrice") "CostAndPrice" "NextTimeOffsetTransitionDateTime" "NextTimeOffsetTransitionDateTime" May KText ReadWrite); (* getNextTimeOffsetTransitionDateTimeKeyValue 3036-3047, getNextTimeOffsetTransitionDateTime 3015-3022 *)
  Plain (Reader "TimeOffsetNextTransition" (Some "CostAndPrice") "CostAndPrice" "TimeOffsetNextTransition" "TimeOffsetNextTransition" May KText ReadWrite); (* getTimeOffsetNextTransitionKeyValue 3066-3077, getTimeOffsetNextTransition 3049-3055 *)
  Plain (Reader "CustomIdleFeeAfterStop" (Some "CostAndPrice") "CostAndPrice" "CustomIdleFeeAfterStop" "CustomIdleFeeAfterStop" May KBool ReadWrite); (* getCustomIdleFeeAfterStopKeyValue 3092-3103, getCustomIdleFeeAfterStop 3079-3085 *)
  Plain (Reader "SupportedLanguages" (Some "CostAndPrice") "CostAndPrice" "SupportedLanguages" "SupportedLanguages" May KText ReadOnly); (* getMultiLanguageSupportedLanguagesKeyValue 3135-3146, getMultiLanguageSupportedLanguages 3127-3133 *)
  Plain (Reader "CustomMultiLanguageMessages" (Some "CostAndPrice") "CostAndPrice" "CustomMultiLanguageMessages" "CustomMultiLanguageMessages" May KBool ReadOnly); (* getCustomMultiLanguageMessagesEnabledKeyValue 3114-3125, getCustomMultiLanguageMessagesEnabled 3105-3112 *)
  Plain (Reader "Language" (Some "CostAndPrice") "CostAndPrice" "Language" "Language" May KText ReadOnly); (* getLanguageKeyValue 3262-3273, getLanguage 3148-3154 *)
  Plain (Reader "WaitForSetUserPriceTimeout" (Some "CostAndPrice") "CostAndPrice" "WaitForSetUserPriceTimeout" "WaitForSetUserPriceTimeout" May KInt ReadWrite) (* getWaitForSetUserPriceTimeoutKeyValue 3171-3182, getWaitForSetUserPriceTimeout 3156-3162 *)
].

(** set (3826-4322), in the order of its comparisons. *)
Definition writers : list witem := [
  Wanted (Writer "IgnoredProfilePurposesOffline" Always RPurposes "Internal" "IgnoredProfilePurposesOffline" false); (* set 3828-3831, setIgnoredProfilePurposesOffline 484-502 *)
  Wanted (Writer "AllowOfflineTxForUnknownId" (IfThere KBool) RBool "Core" "AllowOfflineTxForUnknownId" true); (* set 3832-3840, setAllowOfflineTxForUnknownId 1244-1249 *)
  Wanted (Writer "AuthorizationCacheEnabled" (IfThere KBool) RBool "Core" "AuthorizationCacheEnabled" true); (* set 3841-3849, setAuthorizationCacheEnabled 1271-1276 *)
  Wanted (Writer "AuthorizationKey" Always RAuthorizationKey "Security" "AuthorizationKey" false); (* set 3850-3857, setAuthorizationKey 2123-2136 *)
  Wanted (Writer "AuthorizeRemoteTxRequests" Always RAnyBool "Core" "AuthorizeRemoteTxRequests" false); (* set 3858-3859, setAuthorizeRemoteTxRequests 1294-1297 *)
  Wanted (Writer "BlinkRepeat" (IfThere KInt) (RInt 0 int_max) "Core" "BlinkRepeat" true); (* set 3860-3874, setBlinkRepeat 1314-1319 *)
  Wanted (Writer "ClockAlignedDataInterval" Always (RInt 0 int_max) "Core" "ClockAlignedDataInterval" false); (* set 3875-3886, setClockAlignedDataInterval 1337-1340 *)
  Wanted (Writer "ConnectionTimeOut" Always (RInt 0 int_max) "Core" "ConnectionTimeOut" false); (* set 3887-3898, setConnectionTimeOut 1353-1356 *)
  Wanted (Writer "ConnectorPhaseRotation" Always RRotation "Core" "ConnectorPhaseRotation" false); (* set 3899-3904, setConnectorPhaseRotation 1369-1372 *)
  Wanted (Writer "CentralContractValidationAllowed" (IfThere KBool) RAnyBool "PnC" "CentralContractValidationAllowed" true); (* set 3905-3909, setCentralContractValidationAllowed 2435-2440 *)
  Wanted (Writer "CertSigningWaitMinimum" (IfThere KInt) (RInt 0 int_max) "PnC" "CertSigningWaitMinimum" true); (* set 3910-3924, setCertSigningWaitMinimum 2462-2467 *)
  Wanted (Writer "CertSigningRepeatTimes" (IfThere KInt) (RInt 0 int_max) "PnC" "CertSigningRepeatTimes" true); (* set 3925-3939, setCertSigningRepeatTimes 2489-2494 *)
  Wanted (Writer "ContractValidationOffline" Always RAnyBool "PnC" "ContractValidationOffline" false); (* set 3940-3941, setContractValidationOffline 2513-2516 *)
  Wanted (Writer "CpoName" Always (RText None None) "Security" "CpoName" false); (* set 3942-3943, setCpoName 2291-2294 *)
  Wanted (Writer "DisableSecurityEventNotifications" Always RAnyBool "Security" "DisableSecurityEventNotifications" false); (* set 3944-3945, setDisableSecurityEventNotifications 2334-2337 *)
  Wanted (Writer "HeartbeatInterval" Always (RInt 0 int_max) "Core" "HeartbeatInterval" false); (* set 3946-3957, setHeartbeatInterval 1418-1421 *)
  Wanted (Writer "ISO15118CertificateManagementEnabled" Always RAnyBool "PnC" "ISO15118CertificateManagementEnabled" false); (* set 3958-3959, setISO15118CertificateManagementEnabled 2396-2400 *)
  Wanted (Writer "ISO15118PnCEnabled" Always RAnyBool "PnC" "ISO15118PnCEnabled" false); (* set 3960-3961, setISO15118PnCEnabled 2414-2417 *)
  Wanted (Writer "LightIntensity" (IfThere KInt) (RInt 0 100) "Core" "LightIntensity" true); (* set 3962-3976, setLightIntensity 1438-1443 *)
  Wanted (Writer "LocalAuthorizeOffline" Always RBool "Core" "LocalAuthorizeOffline" false); (* set 3977-3982, setLocalAuthorizeOffline 1461-1464 *)
  Wanted (Writer "LocalPreAuthorize" Always RBool "Core" "LocalPreAuthorize" false); (* set 3983-3988, setLocalPreAuthorize 1477-1480 *)
  Wanted (Writer "MaxEnergyOnInvalidId" (IfThere KInt) (RInt 0 int_max) "Core" "MaxEnergyOnInvalidId" true); (* set 3989-4003, setMaxEnergyOnInvalidId 1497-1502 *)
  Wanted (Writer "MeterValuesAlignedData" Always RMeasurands "Core" "MeterValuesAlignedData" false); (* set 4004-4007, setMeterValuesAlignedData 1520-1527 *)
  Wanted (Writer "MeterValuesSampledData" Always RMeasurands "Core" "MeterValuesSampledData" false); (* set 4008-4011, setMeterValuesSampledData 1564-1571 *)
  Wanted (Writer "MeterValueSampleInterval" Always (RInt 0 int_max) "Core" "MeterValueSampleInterval" false); (* set 4012-4023, setMeterValueSampleInterval 1608-1611 *)
  Wanted (Writer "MinimumStatusDuration" (IfThere KInt) (RInt 0 int_max) "Core" "MinimumStatusDuration" true); (* set 4024-4038, setMinimumStatusDuration 1628-1633 *)
  Wanted (Writer "OcspRequestInterval" Always (RInt 86400 int_max) "Internal" "OcspRequestInterval" false); (* set 4039-4050, setOcspRequestInterval 2530-2533 *)
  Wanted (Writer "WaitForStopTransactionsOnResetTimeout" Always (RInt 0 int_max) "Internal" "WaitForStopTransactionsOnResetTimeout" false); (* set 4051-4062, setWaitForStopTransactionsOnResetTimeout 2687-2692 *)
  Wanted (Writer "ResetRetries" Always (RInt 0 int_max) "Core" "ResetRetries" false); (* set 4063-4074, setResetRetries 1686-1689 *)
  Wanted (Writer "StopTransactionOnInvalidId" Always RBool "Core" "StopTransactionOnInvalidId" false); (* set 4075-4080, setStopTransactionOnInvalidId 1723-1726 *)
  Wanted (Writer "StopTxnAlignedData" Always RMeasurands "Core" "StopTxnAlignedData" false); (* set 4081-4084, setStopTxnAlignedData 1739-1746 *)
  Wanted (Writer "StopTxnSampledData" Always RMeasurands "Core" "StopTxnSampledData" false); (* set 4085-4088, setStopTxnSampledData 1780-1788 *)
  Wanted (Writer "TransactionMessageAttempts" Always (RInt 0 int_max) "Core" "TransactionMessageAttempts" false); (* set 4089-4100, setTransactionMessageAttempts 1858-1861 *)
  Wanted (Writer "TransactionMessageRetryInterval" Always (RInt 0 int_max) "Core" "TransactionMessageRetryInterval" false); (* set 4101-4112, setTransactionMessageRetryInterval 1874-1877 *)
  Wanted (Writer "UnlockConnectorOnEVSideDisconnect" IfUnlockWritable RBool "Core" "UnlockConnectorOnEVSideDisconnect" false); (* set 4113-4118, setUnlockConnectorOnEVSideDisconnect 1890-1893 *)
  Wanted (Writer "WebSocketPingInterval" (IfThere KInt) (RInt 0 int_max) "Core" "WebSocketPingInterval" true); (* set 4119-4133, setWebsocketPingInterval 1910-1915 *)
  Wanted (Writer "StopTransactionIfUnlockNotSupported" Always RBool "Internal" "StopTransactionIfUnlockNotSupported" false); (* set 4134-4139, setStopTransactionIfUnlockNotSupported 944-947 *)
  Wanted (Writer "LocalAuthListEnabled" (IfProfile "LocalAuthListManagement") RBool "LocalAuthListManagement" "LocalAuthListEnabled" false); (* set 4140-4150, setLocalAuthListEnabled 2355-2358 *)
  Wanted (Writer "CompositeScheduleDefaultLimitAmps" (IfThere KInt) (RInt 0 int_max) "Internal" "CompositeScheduleDefaultLimitAmps" true); (* set 4151-4165, setCompositeScheduleDefaultLimitAmps 527-532 *)
  Wanted (Writer "CompositeScheduleDefaultLimitWatts" (IfThere KInt) (RInt 0 int_max) "Internal" "CompositeScheduleDefaultLimitWatts" true); (* set 4166-4180, setCompositeScheduleDefaultLimitWatts 553-558 *)
  Wanted (Writer "CompositeScheduleDefaultNumberPhases" (IfThere KInt) RPhases "Internal" "CompositeScheduleDefaultNumberPhases" true); (* set 4181-4195, setCompositeScheduleDefaultNumberPhases 579-584 *)
  Wanted (Writer "SupplyVoltage" (IfThere KInt) (RInt 0 int_max) "Internal" "SupplyVoltage" true); (* set 4196-4210, setSupplyVoltage 605-610 *)
  Wanted (Writer "VerifyCsmsAllowWildcards" Always RBool "Internal" "VerifyCsmsAllowWildcards" false); (* set 4211-4216, setVerifyCsmsAllowWildcards 642-645 *)
  Wanted (Writer "SeccLeafSubjectCommonName" (IfThere KText) (RText (Some 7%nat) (Some 64%nat)) "Internal" "SeccLeafSubjectCommonName" true); (* set 4217-4228, setSeccLeafSubjectCommonName 2551-2556 *)
  Wanted (Writer "SeccLeafSubjectCountry" (IfThere KText) (RText (Some 2%nat) (Some 2%nat)) "Internal" "SeccLeafSubjectCountry" true); (* set 4229-4238, setSeccLeafSubjectCountry 2579-2584 *)
  Wanted (Writer "SeccLeafSubjectOrganization" (IfThere KText) (RText None (Some 64%nat)) "Internal" "SeccLeafSubjectOrganization" true); (* set 4239-4248, setSeccLeafSubjectOrganization 2607-2612 *)
  Wanted (Writer "ConnectorEvseIds" (IfThere KText) REvseIds "Internal" "ConnectorEvseIds" true); (* set 4249-4258, setConnectorEvseIds 2635-2640 *)
  Wanted (Writer "AllowChargingProfileWithoutStartSchedule" (IfThere KBool) RAnyBool "Internal" "AllowChargingProfileWithoutStartSchedule" true); (* set 4259-4264, setAllowChargingProfileWithoutStartSchedule 2663-2668 *)
  WPriceText; (* set 4265-4269 *)
  Wanted (Writer "DefaultPrice" Always RJson "CostAndPrice" "DefaultPrice" false); (* set 4270-4274, setDefaultPrice 2956-2970 *)
  Wanted (Writer "TimeOffset" Always RTimeOffset "CostAndPrice" "TimeOffset" false); (* set 4275-4279, setDisplayTimeOffset 2993-3000 *)
  Wanted (Writer "NextTimeOffsetTransitionDateTime" Always RFuture "CostAndPrice" "NextTimeOffsetTransitionDateTime" false); (* set 4280-4284, setNextTimeOffsetTransitionDateTime 3024-3034 *)
  Wanted (Writer "TimeOffsetNextTransition" Always RTimeOffset "CostAndPrice" "TimeOffsetNextTransition" false); (* set 4285-4289, setTimeOffsetNextTransition 3057-3064 *)
  Wanted (Writer "CustomIdleFeeAfterStop" Always RAnyBool "CostAndPrice" "CustomIdleFeeAfterStop" false); (* set 4290-4291, setCustomIdleFeeAfterStop 3087-3090 *)
  Wanted (Writer "Language" Always (RText None None) "CostAndPrice" "Language" false); (* set 4292-4293, setLanguage 3257-3260 *)
  Wanted (Writer "WaitForSetUserPriceTimeout" Always (RInt 0 30000) "CostAndPrice" "WaitForSetUserPriceTimeout" true); (* set 4294-4308, setWaitForSetUserPriceTimeout 3164-3169 *)
  Wanted (Writer "CentralSystemURI" Always RReboot "Internal" "CentralSystemURI" false); (* set 4309-4311, setCentralSystemURI 3333-3337 *)
  WCustom; (* set 4312-4313 *)
  WNothing "SecurityProfile" (* set 4314-4315 *)
].
