(* Generated by a script from the modules in asn1/: the numbers given to names in INTEGER types. *)
From Verif Require Import Base.
From Coq Require Import String List.
Import ListNotations.
Local Open Scope string_scope.
Local Open Scope list_scope.
Local Open Scope Z_scope.

Definition ranap_named : list (string * list (string * Z)) := [
  (* asn1/ranap/RANAP-CommonDataTypes.asn:24-72 *)
  ("ProcedureCode", [("id-RAB-Assignment", 0); ("id-Iu-Release", 1); ("id-RelocationPreparation", 2); ("id-RelocationResourceAllocation", 3); ("id-RelocationCancel", 4); ("id-SRNS-ContextTransfer", 5); ("id-SecurityModeControl", 6); ("id-DataVolumeReport", 7); ("id-Reset", 9); ("id-RAB-ReleaseRequest", 10); ("id-Iu-ReleaseRequest", 11); ("id-RelocationDetect", 12); ("id-RelocationComplete", 13); ("id-Paging", 14); ("id-CommonID", 15); ("id-CN-InvokeTrace", 16); ("id-LocationReportingControl", 17); ("id-LocationReport", 18); ("id-InitialUE-Message", 19); ("id-DirectTransfer", 20); ("id-OverloadControl", 21); ("id-ErrorIndication", 22); ("id-SRNS-DataForward", 23); ("id-ForwardSRNS-Context", 24); ("id-privateMessage", 25); ("id-CN-DeactivateTrace", 26); ("id-ResetResource", 27); ("id-RANAP-Relocation", 28); ("id-RAB-ModifyRequest", 29); ("id-LocationRelatedData", 30); ("id-InformationTransfer", 31); ("id-UESpecificInformation", 32); ("id-UplinkInformationExchange", 33); ("id-DirectInformationTransfer", 34); ("id-MBMSSessionStart", 35); ("id-MBMSSessionUpdate", 36); ("id-MBMSSessionStop", 37); ("id-MBMSUELinking", 38); ("id-MBMSRegistration", 39); ("id-MBMSCNDe-Registration-Procedure", 40); ("id-MBMSRABEstablishmentIndication", 41); ("id-MBMSRABRelease", 42); ("id-enhancedRelocationComplete", 43); ("id-enhancedRelocationCompleteConfirm", 44); ("id-RANAPenhancedRelocation", 45); ("id-SRVCCPreparation", 46); ("id-UeRadioCapabilityMatch", 47)]);
  (* asn1/ranap/RANAP-CommonDataTypes.asn:76-349 *)
  ("ProtocolIE-ID", [("id-AreaIdentity", 0); ("id-CN-DomainIndicator", 3); ("id-Cause", 4); ("id-ChosenEncryptionAlgorithm", 5); ("id-ChosenIntegrityProtectionAlgorithm", 6); ("id-ClassmarkInformation2", 7); ("id-ClassmarkInformation3", 8); ("id-CriticalityDiagnostics", 9); ("id-DL-GTP-PDU-SequenceNumber", 10); ("id-EncryptionInformation", 11); ("id-IntegrityProtectionInformation", 12); ("id-IuTransportAssociation", 13); ("id-L3-Information", 14); ("id-LAI", 15); ("id-NAS-PDU", 16); ("id-NonSearchingIndication", 17); ("id-NumberOfSteps", 18); ("id-OMC-ID", 19); ("id-OldBSS-ToNewBSS-Information", 20); ("id-PagingAreaID", 21); ("id-PagingCause", 22); ("id-PermanentNAS-UE-ID", 23); ("id-RAB-ContextItem", 24); ("id-RAB-ContextList", 25); ("id-RAB-DataForwardingItem", 26); ("id-RAB-DataForwardingItem-SRNS-CtxReq", 27); ("id-RAB-DataForwardingList", 28); ("id-RAB-DataForwardingList-SRNS-CtxReq", 29); ("id-RAB-DataVolumeReportItem", 30); ("id-RAB-DataVolumeReportList", 31); ("id-RAB-DataVolumeReportRequestItem", 32); ("id-RAB-DataVolumeReportRequestList", 33); ("id-RAB-FailedItem", 34); ("id-RAB-FailedList", 35); ("id-RAB-ID", 36); ("id-RAB-QueuedItem", 37); ("id-RAB-QueuedList", 38); ("id-RAB-ReleaseFailedList", 39); ("id-RAB-ReleaseItem", 40); ("id-RAB-ReleaseList", 41); ("id-RAB-ReleasedItem", 42); ("id-RAB-ReleasedList", 43); ("id-RAB-ReleasedList-IuRelComp", 44); ("id-RAB-RelocationReleaseItem", 45); ("id-RAB-RelocationReleaseList", 46); ("id-RAB-SetupItem-RelocReq", 47); ("id-RAB-SetupItem-RelocReqAck", 48); ("id-RAB-SetupList-RelocReq", 49); ("id-RAB-SetupList-RelocReqAck", 50); ("id-RAB-SetupOrModifiedItem", 51); ("id-RAB-SetupOrModifiedList", 52); ("id-RAB-SetupOrModifyItem", 53); ("id-RAB-SetupOrModifyList", 54); ("id-RAC", 55); ("id-RelocationType", 56); ("id-RequestType", 57); ("id-SAI", 58); ("id-SAPI", 59); ("id-SourceID", 60); ("id-Source-ToTarget-TransparentContainer", 61); ("id-TargetID", 62); ("id-Target-ToSource-TransparentContainer", 63); ("id-TemporaryUE-ID", 64); ("id-TraceReference", 65); ("id-TraceType", 66); ("id-TransportLayerAddress", 67); ("id-TriggerID", 68); ("id-UE-ID", 69); ("id-UL-GTP-PDU-SequenceNumber", 70); ("id-RAB-FailedtoReportItem", 71); ("id-RAB-FailedtoReportList", 72); ("id-KeyStatus", 75); ("id-DRX-CycleLengthCoefficient", 76); ("id-IuSigConIdList", 77); ("id-IuSigConIdItem", 78); ("id-IuSigConId", 79); ("id-DirectTransferInformationItem-RANAP-RelocInf", 80); ("id-DirectTransferInformationList-RANAP-RelocInf", 81); ("id-RAB-ContextItem-RANAP-RelocInf", 82); ("id-RAB-ContextList-RANAP-RelocInf", 83); ("id-RAB-ContextFailedtoTransferItem", 84); ("id-RAB-ContextFailedtoTransferList", 85); ("id-GlobalRNC-ID", 86); ("id-RAB-ReleasedItem-IuRelComp", 87); ("id-MessageStructure", 88); ("id-Alt-RAB-Parameters", 89); ("id-Ass-RAB-Parameters", 90); ("id-RAB-ModifyList", 91); ("id-RAB-ModifyItem", 92); ("id-TypeOfError", 93); ("id-BroadcastAssistanceDataDecipheringKeys", 94); ("id-LocationRelatedDataRequestType", 95); ("id-GlobalCN-ID", 96); ("id-LastKnownServiceArea", 97); ("id-SRB-TrCH-Mapping", 98); ("id-InterSystemInformation-TransparentContainer", 99); ("id-NewBSS-To-OldBSS-Information", 100); ("id-SourceRNC-PDCP-context-info", 103); ("id-InformationTransferID", 104); ("id-SNA-Access-Information", 105); ("id-ProvidedData", 106); ("id-GERAN-BSC-Container", 107); ("id-GERAN-Classmark", 108); ("id-GERAN-Iumode-RAB-Failed-RABAssgntResponse-Item", 109); ("id-GERAN-Iumode-RAB-FailedList-RABAssgntResponse", 110); ("id-VerticalAccuracyCode", 111); ("id-ResponseTime", 112); ("id-PositioningPriority", 113); ("id-ClientType", 114); ("id-LocationRelatedDataRequestTypeSpecificToGERANIuMode", 115); ("id-SignallingIndication", 116); ("id-hS-DSCH-MAC-d-Flow-ID", 117); ("id-UESBI-Iu", 118); ("id-PositionData", 119); ("id-PositionDataSpecificToGERANIuMode", 120); ("id-CellLoadInformationGroup", 121); ("id-AccuracyFulfilmentIndicator", 122); ("id-InformationTransferType", 123); ("id-TraceRecordingSessionInformation", 124); ("id-TracePropagationParameters", 125); ("id-InterSystemInformationTransferType", 126); ("id-SelectedPLMN-ID", 127); ("id-RedirectionCompleted", 128); ("id-RedirectionIndication", 129); ("id-NAS-SequenceNumber", 130); ("id-RejectCauseValue", 131); ("id-APN", 132); ("id-CNMBMSLinkingInformation", 133); ("id-DeltaRAListofIdleModeUEs", 134); ("id-FrequenceLayerConvergenceFlag", 135); ("id-InformationExchangeID", 136); ("id-InformationExchangeType", 137); ("id-InformationRequested", 138); ("id-InformationRequestType", 139); ("id-IPMulticastAddress", 140); ("id-JoinedMBMSBearerServicesList", 141); ("id-LeftMBMSBearerServicesList", 142); ("id-MBMSBearerServiceType", 143); ("id-MBMSCNDe-Registration", 144); ("id-MBMSServiceArea", 145); ("id-MBMSSessionDuration", 146); ("id-MBMSSessionIdentity", 147); ("id-PDP-TypeInformation", 148); ("id-RAB-Parameters", 149); ("id-RAListofIdleModeUEs", 150); ("id-MBMSRegistrationRequestType", 151); ("id-SessionUpdateID", 152); ("id-TMGI", 153); ("id-TransportLayerInformation", 154); ("id-UnsuccessfulLinkingList", 155); ("id-MBMSLinkingInformation", 156); ("id-MBMSSessionRepetitionNumber", 157); ("id-AlternativeRABConfiguration", 158); ("id-AlternativeRABConfigurationRequest", 159); ("id-E-DCH-MAC-d-Flow-ID", 160); ("id-SourceBSS-ToTargetBSS-TransparentContainer", 161); ("id-TargetBSS-ToSourceBSS-TransparentContainer", 162); ("id-TimeToMBMSDataTransfer", 163); ("id-IncludeVelocity", 164); ("id-VelocityEstimate", 165); ("id-RedirectAttemptFlag", 166); ("id-RAT-Type", 167); ("id-PeriodicLocationInfo", 168); ("id-MBMSCountingInformation", 169); ("id-170-not-to-be-used-for-IE-ids", 170); ("id-ExtendedRNC-ID", 171); ("id-Alt-RAB-Parameter-ExtendedGuaranteedBitrateInf", 172); ("id-Alt-RAB-Parameter-ExtendedMaxBitrateInf", 173); ("id-Ass-RAB-Parameter-ExtendedGuaranteedBitrateList", 174); ("id-Ass-RAB-Parameter-ExtendedMaxBitrateList", 175); ("id-RAB-Parameter-ExtendedGuaranteedBitrateList", 176); ("id-RAB-Parameter-ExtendedMaxBitrateList", 177); ("id-Requested-RAB-Parameter-ExtendedMaxBitrateList", 178); ("id-Requested-RAB-Parameter-ExtendedGuaranteedBitrateList", 179); ("id-LAofIdleModeUEs", 180); ("id-newLAListofIdleModeUEs", 181); ("id-LAListwithNoIdleModeUEsAnyMore", 182); ("id-183-not-to-be-used-for-IE-ids", 183); ("id-GANSS-PositioningDataSet", 184); ("id-RequestedGANSSAssistanceData", 185); ("id-BroadcastGANSSAssistanceDataDecipheringKeys", 186); ("id-d-RNTI-for-NoIuCSUP", 187); ("id-RAB-SetupList-EnhancedRelocCompleteReq", 188); ("id-RAB-SetupItem-EnhancedRelocCompleteReq", 189); ("id-RAB-SetupList-EnhancedRelocCompleteRes", 190); ("id-RAB-SetupItem-EnhancedRelocCompleteRes", 191); ("id-RAB-SetupList-EnhRelocInfoReq", 192); ("id-RAB-SetupItem-EnhRelocInfoReq", 193); ("id-RAB-SetupList-EnhRelocInfoRes", 194); ("id-RAB-SetupItem-EnhRelocInfoRes", 195); ("id-OldIuSigConId", 196); ("id-RAB-FailedList-EnhRelocInfoRes", 197); ("id-RAB-FailedItem-EnhRelocInfoRes", 198); ("id-Global-ENB-ID", 199); ("id-UE-History-Information", 200); ("id-MBMSSynchronisationInformation", 201); ("id-SubscriberProfileIDforRFP", 202); ("id-CSG-Id", 203); ("id-OldIuSigConIdCS", 204); ("id-OldIuSigConIdPS", 205); ("id-GlobalCN-IDCS", 206); ("id-GlobalCN-IDPS", 207); ("id-SourceExtendedRNC-ID", 208); ("id-RAB-ToBeReleasedItem-EnhancedRelocCompleteRes", 209); ("id-RAB-ToBeReleasedList-EnhancedRelocCompleteRes", 210); ("id-SourceRNC-ID", 211); ("id-Relocation-TargetRNC-ID", 212); ("id-Relocation-TargetExtendedRNC-ID", 213); ("id-Alt-RAB-Parameter-SupportedGuaranteedBitrateInf", 214); ("id-Alt-RAB-Parameter-SupportedMaxBitrateInf", 215); ("id-Ass-RAB-Parameter-SupportedGuaranteedBitrateList", 216); ("id-Ass-RAB-Parameter-SupportedMaxBitrateList", 217); ("id-RAB-Parameter-SupportedGuaranteedBitrateList", 218); ("id-RAB-Parameter-SupportedMaxBitrateList", 219); ("id-Requested-RAB-Parameter-SupportedMaxBitrateList", 220); ("id-Requested-RAB-Parameter-SupportedGuaranteedBitrateList", 221); ("id-Relocation-SourceRNC-ID", 222); ("id-Relocation-SourceExtendedRNC-ID", 223); ("id-EncryptionKey", 224); ("id-IntegrityProtectionKey", 225); ("id-SRVCC-HO-Indication", 226); ("id-SRVCC-Information", 227); ("id-SRVCC-Operation-Possible", 228); ("id-CSG-Id-List", 229); ("id-PSRABtobeReplaced", 230); ("id-E-UTRAN-Service-Handover", 231); ("id-UE-AggregateMaximumBitRate", 233); ("id-CSG-Membership-Status", 234); ("id-Cell-Access-Mode", 235); ("id-IP-Source-Address", 236); ("id-CSFB-Information", 237); ("id-PDP-TypeInformation-extension", 238); ("id-MSISDN", 239); ("id-Offload-RAB-Parameters", 240); ("id-LGW-TransportLayerAddress", 241); ("id-Correlation-ID", 242); ("id-IRAT-Measurement-Configuration", 243); ("id-MDT-Configuration", 244); ("id-Priority-Class-Indicator", 245); ("id-RNSAPRelocationParameters", 247); ("id-RABParametersList", 248); ("id-Management-Based-MDT-Allowed", 249); ("id-HigherBitratesThan16MbpsFlag", 250); ("id-Trace-Collection-Entity-IP-Addess", 251); ("id-End-Of-CSFB", 252); ("id-Time-UE-StayedInCell-EnhancedGranularity", 253); ("id-Out-Of-UTRAN", 254); ("id-TraceRecordingSessionReference", 255); ("id-IMSI", 256); ("id-HO-Cause", 257); ("id-VoiceSupportMatchIndicator", 258); ("id-RSRVCC-HO-Indication", 259); ("id-RSRVCC-Information", 260); ("id-AnchorPLMN-ID", 261); ("id-Tunnel-Information-for-BBF", 262); ("id-Management-Based-MDT-PLMN-List", 263); ("id-SignallingBasedMDTPLMNList", 264); ("id-M4Report", 265); ("id-M5Report", 266); ("id-M6Report", 267); ("id-M7Report", 268); ("id-TimingDifferenceULDL", 269); ("id-Serving-Cell-Identifier", 270); ("id-EARFCN-Extended", 271); ("id-RSRVCC-Operation-Possible", 272); ("id-SIPTO-LGW-TransportLayerAddress", 273); ("id-SIPTO-Correlation-ID", 274); ("id-LHN-ID", 275); ("id-Session-Re-establishment-Indicator", 276); ("id-LastE-UTRANPLMNIdentity", 277); ("id-RSRQ-Type", 278); ("id-RSRQ-Extension", 279)]);
  (* asn1/ranap/RANAP-IEs.asn:305-310 *)
  ("CauseMisc", [("om-intervention", 113); ("no-resource-available", 114); ("unspecified-failure", 115); ("network-optimisation", 116)]);
  (* asn1/ranap/RANAP-IEs.asn:312-317 *)
  ("CauseNAS", [("user-restriction-start-indication", 81); ("user-restriction-end-indication", 82); ("normal-release", 83); ("csg-subscription-expiry", 84)]);
  (* asn1/ranap/RANAP-IEs.asn:319-326 *)
  ("CauseProtocol", [("transfer-syntax-error", 97); ("semantic-error", 98); ("message-not-compatible-with-receiver-state", 99); ("abstract-syntax-error-reject", 100); ("abstract-syntax-error-ignore-and-notify", 101); ("abstract-syntax-error-falsely-constructed-message", 102)]);
  (* asn1/ranap/RANAP-IEs.asn:328-393 *)
  ("CauseRadioNetwork", [("rab-pre-empted", 1); ("trelocoverall-expiry", 2); ("trelocprep-expiry", 3); ("treloccomplete-expiry", 4); ("tqueing-expiry", 5); ("relocation-triggered", 6); ("trellocalloc-expiry", 7); ("unable-to-establish-during-relocation", 8); ("unknown-target-rnc", 9); ("relocation-cancelled", 10); ("successful-relocation", 11); ("requested-ciphering-and-or-integrity-protection-algorithms-not-supported", 12); ("conflict-with-already-existing-integrity-protection-and-or-ciphering-information", 13); ("failure-in-the-radio-interface-procedure", 14); ("release-due-to-utran-generated-reason", 15); ("user-inactivity", 16); ("time-critical-relocation", 17); ("requested-traffic-class-not-available", 18); ("invalid-rab-parameters-value", 19); ("requested-maximum-bit-rate-not-available", 20); ("requested-guaranteed-bit-rate-not-available", 21); ("requested-transfer-delay-not-achievable", 22); ("invalid-rab-parameters-combination", 23); ("condition-violation-for-sdu-parameters", 24); ("condition-violation-for-traffic-handling-priority", 25); ("condition-violation-for-guaranteed-bit-rate", 26); ("user-plane-versions-not-supported", 27); ("iu-up-failure", 28); ("relocation-failure-in-target-CN-RNC-or-target-system", 29); ("invalid-RAB-ID", 30); ("no-remaining-rab", 31); ("interaction-with-other-procedure", 32); ("requested-maximum-bit-rate-for-dl-not-available", 33); ("requested-maximum-bit-rate-for-ul-not-available", 34); ("requested-guaranteed-bit-rate-for-dl-not-available", 35); ("requested-guaranteed-bit-rate-for-ul-not-available", 36); ("repeated-integrity-checking-failure", 37); ("requested-request-type-not-supported", 38); ("request-superseded", 39); ("release-due-to-UE-generated-signalling-connection-release", 40); ("resource-optimisation-relocation", 41); ("requested-information-not-available", 42); ("relocation-desirable-for-radio-reasons", 43); ("relocation-not-supported-in-target-RNC-or-target-system", 44); ("directed-retry", 45); ("radio-connection-with-UE-Lost", 46); ("rNC-unable-to-establish-all-RFCs", 47); ("deciphering-keys-not-available", 48); ("dedicated-assistance-data-not-available", 49); ("relocation-target-not-allowed", 50); ("location-reporting-congestion", 51); ("reduce-load-in-serving-cell", 52); ("no-radio-resources-available-in-target-cell", 53); ("gERAN-Iumode-failure", 54); ("access-restricted-due-to-shared-networks", 55); ("incoming-relocation-not-supported-due-to-PUESBINE-feature", 56); ("traffic-load-in-the-target-cell-higher-than-in-the-source-cell", 57); ("mBMS-no-multicast-service-for-this-UE", 58); ("mBMS-unknown-UE-ID", 59); ("successful-MBMS-session-start-no-data-bearer-necessary", 60); ("mBMS-superseded-due-to-NNSF", 61); ("mBMS-UE-linking-already-done", 62); ("mBMS-UE-de-linking-failure-no-existing-UE-linking", 63); ("tMGI-unknown", 64)]);
  (* asn1/ranap/RANAP-IEs.asn:395-409 *)
  ("CauseRadioNetworkExtension", [("iP-multicast-address-and-APN-not-valid", 257); ("mBMS-de-registration-rejected-due-to-implicit-registration", 258); ("mBMS-request-superseded", 259); ("mBMS-de-registration-during-session-not-allowed", 260); ("mBMS-no-data-bearer-necessary", 261); ("periodicLocationInformationNotAvailable", 262); ("gTP-Resources-Unavailable", 263); ("tMGI-inUse-overlapping-MBMS-service-area", 264); ("mBMS-no-cell-in-MBMS-service-area", 265); ("no-Iu-CS-UP-relocation", 266); ("successful-MBMS-Session-Start-IP-Multicast-Bearer-established", 267); ("cS-fallback-triggered", 268); ("invalid-CSG-Id", 269)]);
  (* asn1/ranap/RANAP-IEs.asn:414-417 *)
  ("CauseTransmissionNetwork", [("signalling-transport-resource-failure", 65); ("iu-transport-connection-failed-to-establish", 66)]);
  (* asn1/ranap/RANAP-IEs.asn:613-613 *)
  ("EncryptionAlgorithm", [("no-encryption", 0); ("standard-UMTS-encryption-algorith-UEA1", 1); ("standard-UMTS-encryption-algorithm-UEA2", 2)]);
  (* asn1/ranap/RANAP-IEs.asn:884-887 *)
  ("IntegrityProtectionAlgorithm", [("standard-UMTS-integrity-algorithm-UIA1", 0); ("standard-UMTS-integrity-algorithm-UIA2", 1); ("no-value", 15)]);
  (* asn1/ranap/RANAP-IEs.asn:1387-1387 *)
  ("PriorityLevel", [("spare", 0); ("highest", 1); ("lowest", 14); ("no-priority", 15)]);
  (* asn1/ranap/RANAP-IEs.asn:2048-2048 *)
  ("TrafficHandlingPriority", [("spare", 0); ("highest", 1); ("lowest", 14); ("no-priority-used", 15)]) ].

Definition rua_named : list (string * list (string * Z)) := [
  (* asn1/rua/RUA-CommonDataTypes.asn:35-42 *)
  ("ProcedureCode", [("id-Connect", 1); ("id-DirectTransfer", 2); ("id-Disconnect", 3); ("id-ConnectionlessTransfer", 4); ("id-ErrorIndication", 5); ("id-privateMessage", 6)]);
  (* asn1/rua/RUA-CommonDataTypes.asn:49-58 *)
  ("ProtocolIE-ID", [("id-Cause", 1); ("id-CriticalityDiagnostics", 2); ("id-Context-ID", 3); ("id-RANAP-Message", 4); ("id-IntraDomainNasNodeSelector", 5); ("id-Establishment-Cause", 6); ("id-CN-DomainIndicator", 7); ("id-CSGMembershipStatus", 9)]) ].

Definition hnbap_named : list (string * list (string * Z)) := [
  (* asn1/hnbap/HNBAP-CommonDataTypes.asn:40-52 *)
  ("ProcedureCode", [("id-HNBRegister", 1); ("id-HNBDe-Register", 2); ("id-UERegister", 3); ("id-UEDe-Register", 4); ("id-ErrorIndication", 5); ("id-privateMessage", 6); ("id-CSGMembershipUpdate", 7); ("id-TNLUpdate", 9); ("id-HNBConfigTransfer", 10); ("id-RelocationComplete", 11); ("id-U-RNTIQuery", 14)]);
  (* asn1/hnbap/HNBAP-CommonDataTypes.asn:55-98 *)
  ("ProtocolIE-ID", [("id-Cause", 1); ("id-CriticalityDiagnostics", 2); ("id-HNB-Identity", 3); ("id-Context-ID", 4); ("id-UE-Identity", 5); ("id-LAC", 6); ("id-RAC", 7); ("id-HNB-Location-Information", 8); ("id-PLMNidentity", 9); ("id-SAC", 10); ("id-CellIdentity", 11); ("id-Registration-Cause", 12); ("id-UE-Capabilities", 13); ("id-RNC-ID", 14); ("id-CSG-ID", 15); ("id-BackoffTimer", 16); ("id-HNB-Internet-Information", 17); ("id-HNB-Cell-Access-Mode", 18); ("id-MuxPortNumber", 19); ("id-Service-Area-For-Broadcast", 20); ("id-CSGMembershipStatus", 21); ("id-RABList", 22); ("id-HNBConfigInfo", 23); ("id-AccessResult", 25); ("id-Update-cause", 26); ("id-NeighbourInfoList", 27); ("id-NeighbourInfoRequestList", 28); ("id-Iurh-Signalling-TNL-Address", 29); ("id-PSC", 30); ("id-HNB-Cell-Identifier", 31); ("id-Tunnel-Information", 41); ("id-CELL-FACHMobilitySupport", 42); ("id-S-RNTIPrefix", 43); ("id-URAIdentity", 44); ("id-NeighbourIdentity", 45); ("id-HNBCapacity", 46); ("id-NeighbourCellIdentityList", 47); ("id-AdditionalNeighbourInfoList", 48); ("id-U-RNTI", 49); ("id-UnknownU-RNTIIndication", 50); ("id-HNB-GWResponse", 51); ("id-URAIdentityList", 52)]) ].

Definition sabp_named : list (string * list (string * Z)) := [
  (* asn1/sabp/SABP-CommonDataTypes.asn:13-22 *)
  ("ProcedureCode", [("id-Write-Replace", 0); ("id-Kill", 1); ("id-Load-Status-Enquiry", 2); ("id-Message-Status-Query", 3); ("id-Restart-Indication", 4); ("id-Reset", 5); ("id-Failure-Indication", 6); ("id-Error-Indication", 7)]);
  (* asn1/sabp/SABP-CommonDataTypes.asn:24-46 *)
  ("ProtocolIE-ID", [("id-Broadcast-Message-Content", 0); ("id-Category", 1); ("id-Cause", 2); ("id-Data-Coding-Scheme", 4); ("id-Failure-List", 5); ("id-Message-Identifier", 6); ("id-New-Serial-Number", 7); ("id-Number-of-Broadcasts-Completed-List", 8); ("id-Number-of-Broadcasts-Requested", 9); ("id-Old-Serial-Number", 10); ("id-Radio-Resource-Loading-List", 11); ("id-Recovery-Indication", 12); ("id-Repetition-Period", 13); ("id-Serial-Number", 14); ("id-Service-Areas-List", 15); ("id-MessageStructure", 16); ("id-TypeOfError", 17); ("id-Paging-ETWS-Indicator", 18); ("id-Warning-Type", 19); ("id-WarningSecurityInfo", 20); ("id-Broadcast-Message-Content-Validity-Indicator", 21)]);
  (* asn1/sabp/SABP-IEs.asn:47-66 *)
  ("Cause", [("parameter-not-recognised", 0); ("parameter-value-invalid", 1); ("valid-CN-message-not-identified", 2); ("service-area-identity-not-valid", 3); ("unrecognised-message", 4); ("missing-mandatory-element", 5); ("rNC-capacity-exceeded", 6); ("rNC-memory-exceeded", 7); ("service-area-broadcast-not-supported", 8); ("service-area-broadcast-not-operational", 9); ("message-reference-already-used", 10); ("unspecifed-error", 11); ("transfer-syntax-error", 12); ("semantic-error", 13); ("message-not-compatible-with-receiver-state", 14); ("abstract-syntax-error-reject", 15); ("abstract-syntax-error-ignore-and-notify", 16); ("abstract-syntax-error-falsely-constructed-message", 17)]);
  (* asn1/sabp/SABP-IEs.asn:144-146 *)
  ("Number-of-Broadcasts-Requested", [("broadcast-indefinitely", 0)]) ].

