(* Generated by a script from the modules asn1/ranap/ that src/ranap/Makefile.am
   compiles (RANAP-CommonDataTypes.asn, RANAP-Constants.asn, RANAP-IEs.asn, RANAP-PDU.asn): each entry
   is one type assignment, in the order of the files.  Numbers given to named
   integers are left out (they do not restrict the type), and so are the
   information object sets of SABP-IEs.asn, which define no type. *)
From Verif Require Import Base Asn1_spec.
From Coq Require Import String List.
Import ListNotations.
Local Open Scope Z_scope.
Local Open Scope string_scope.
Local Open Scope list_scope.

(* value assignments of asn1/ranap/RANAP-Constants.asn and the other modules, in their order *)
Definition ranap_consts : list (string * Z) := [
  (* asn1/ranap/RANAP-Constants.asn *)
  ("id-RAB-Assignment", 0);
  ("id-Iu-Release", 1);
  ("id-RelocationPreparation", 2);
  ("id-RelocationResourceAllocation", 3);
  ("id-RelocationCancel", 4);
  ("id-SRNS-ContextTransfer", 5);
  ("id-SecurityModeControl", 6);
  ("id-DataVolumeReport", 7);
  ("id-Reset", 9);
  ("id-RAB-ReleaseRequest", 10);
  ("id-Iu-ReleaseRequest", 11);
  ("id-RelocationDetect", 12);
  ("id-RelocationComplete", 13);
  ("id-Paging", 14);
  ("id-CommonID", 15);
  ("id-CN-InvokeTrace", 16);
  ("id-LocationReportingControl", 17);
  ("id-LocationReport", 18);
  ("id-InitialUE-Message", 19);
  ("id-DirectTransfer", 20);
  ("id-OverloadControl", 21);
  ("id-ErrorIndication", 22);
  ("id-SRNS-DataForward", 23);
  ("id-ForwardSRNS-Context", 24);
  ("id-privateMessage", 25);
  ("id-CN-DeactivateTrace", 26);
  ("id-ResetResource", 27);
  ("id-RANAP-Relocation", 28);
  ("id-RAB-ModifyRequest", 29);
  ("id-LocationRelatedData", 30);
  ("id-InformationTransfer", 31);
  ("id-UESpecificInformation", 32);
  ("id-UplinkInformationExchange", 33);
  ("id-DirectInformationTransfer", 34);
  ("id-MBMSSessionStart", 35);
  ("id-MBMSSessionUpdate", 36);
  ("id-MBMSSessionStop", 37);
  ("id-MBMSUELinking", 38);
  ("id-MBMSRegistration", 39);
  ("id-MBMSCNDe-Registration-Procedure", 40);
  ("id-MBMSRABEstablishmentIndication", 41);
  ("id-MBMSRABRelease", 42);
  ("id-enhancedRelocationComplete", 43);
  ("id-enhancedRelocationCompleteConfirm", 44);
  ("id-RANAPenhancedRelocation", 45);
  ("id-SRVCCPreparation", 46);
  ("id-UeRadioCapabilityMatch", 47);
  ("maxPrivateIEs", 65535);
  ("maxProtocolExtensions", 65535);
  ("maxProtocolIEs", 65535);
  ("maxNrOfDTs", 15);
  ("maxNrOfErrors", 256);
  ("maxNrOfIuSigConIds", 250);
  ("maxNrOfPDPDirections", 2);
  ("maxNrOfPoints", 15);
  ("maxNrOfRABs", 256);
  ("maxNrOfSeparateTrafficDirections", 2);
  ("maxNrOfSRBs", 8);
  ("maxNrOfVol", 2);
  ("maxNrOfLevels", 256);
  ("maxNrOfAltValues", 16);
  ("maxNrOfPLMNsSN", 32);
  ("maxNrOfLAs", 65536);
  ("maxNrOfSNAs", 65536);
  ("maxNrOfUEsToBeTraced", 64);
  ("maxNrOfInterfaces", 16);
  ("maxRAB-Subflows", 7);
  ("maxRAB-SubflowCombination", 64);
  ("maxSet", 9);
  ("maxNrOfHSDSCHMACdFlows-1", 7);
  ("maxnoofMulticastServicesPerUE", 128);
  ("maxnoofMulticastServicesPerRNC", 512);
  ("maxMBMSSA", 256);
  ("maxMBMSRA", 65536);
  ("maxNrOfEDCHMACdFlows-1", 7);
  ("maxGANSSSet", 9);
  ("maxNrOfCSGs", 256);
  ("maxNrOfEUTRAFreqs", 8);
  ("maxNrOfCellIds", 32);
  ("maxNrOfRAIs", 8);
  ("maxNrOfLAIs", 8);
  ("maxSizeOfIMSInfo", 32);
  ("maxnoofMDTPLMNs", 16);
  ("id-AreaIdentity", 0);
  ("id-CN-DomainIndicator", 3);
  ("id-Cause", 4);
  ("id-ChosenEncryptionAlgorithm", 5);
  ("id-ChosenIntegrityProtectionAlgorithm", 6);
  ("id-ClassmarkInformation2", 7);
  ("id-ClassmarkInformation3", 8);
  ("id-CriticalityDiagnostics", 9);
  ("id-DL-GTP-PDU-SequenceNumber", 10);
  ("id-EncryptionInformation", 11);
  ("id-IntegrityProtectionInformation", 12);
  ("id-IuTransportAssociation", 13);
  ("id-L3-Information", 14);
  ("id-LAI", 15);
  ("id-NAS-PDU", 16);
  ("id-NonSearchingIndication", 17);
  ("id-NumberOfSteps", 18);
  ("id-OMC-ID", 19);
  ("id-OldBSS-ToNewBSS-Information", 20);
  ("id-PagingAreaID", 21);
  ("id-PagingCause", 22);
  ("id-PermanentNAS-UE-ID", 23);
  ("id-RAB-ContextItem", 24);
  ("id-RAB-ContextList", 25);
  ("id-RAB-DataForwardingItem", 26);
  ("id-RAB-DataForwardingItem-SRNS-CtxReq", 27);
  ("id-RAB-DataForwardingList", 28);
  ("id-RAB-DataForwardingList-SRNS-CtxReq", 29);
  ("id-RAB-DataVolumeReportItem", 30);
  ("id-RAB-DataVolumeReportList", 31);
  ("id-RAB-DataVolumeReportRequestItem", 32);
  ("id-RAB-DataVolumeReportRequestList", 33);
  ("id-RAB-FailedItem", 34);
  ("id-RAB-FailedList", 35);
  ("id-RAB-ID", 36);
  ("id-RAB-QueuedItem", 37);
  ("id-RAB-QueuedList", 38);
  ("id-RAB-ReleaseFailedList", 39);
  ("id-RAB-ReleaseItem", 40);
  ("id-RAB-ReleaseList", 41);
  ("id-RAB-ReleasedItem", 42);
  ("id-RAB-ReleasedList", 43);
  ("id-RAB-ReleasedList-IuRelComp", 44);
  ("id-RAB-RelocationReleaseItem", 45);
  ("id-RAB-RelocationReleaseList", 46);
  ("id-RAB-SetupItem-RelocReq", 47);
  ("id-RAB-SetupItem-RelocReqAck", 48);
  ("id-RAB-SetupList-RelocReq", 49);
  ("id-RAB-SetupList-RelocReqAck", 50);
  ("id-RAB-SetupOrModifiedItem", 51);
  ("id-RAB-SetupOrModifiedList", 52);
  ("id-RAB-SetupOrModifyItem", 53);
  ("id-RAB-SetupOrModifyList", 54);
  ("id-RAC", 55);
  ("id-RelocationType", 56);
  ("id-RequestType", 57);
  ("id-SAI", 58);
  ("id-SAPI", 59);
  ("id-SourceID", 60);
  ("id-Source-ToTarget-TransparentContainer", 61);
  ("id-TargetID", 62);
  ("id-Target-ToSource-TransparentContainer", 63);
  ("id-TemporaryUE-ID", 64);
  ("id-TraceReference", 65);
  ("id-TraceType", 66);
  ("id-TransportLayerAddress", 67);
  ("id-TriggerID", 68);
  ("id-UE-ID", 69);
  ("id-UL-GTP-PDU-SequenceNumber", 70);
  ("id-RAB-FailedtoReportItem", 71);
  ("id-RAB-FailedtoReportList", 72);
  ("id-KeyStatus", 75);
  ("id-DRX-CycleLengthCoefficient", 76);
  ("id-IuSigConIdList", 77);
  ("id-IuSigConIdItem", 78);
  ("id-IuSigConId", 79);
  ("id-DirectTransferInformationItem-RANAP-RelocInf", 80);
  ("id-DirectTransferInformationList-RANAP-RelocInf", 81);
  ("id-RAB-ContextItem-RANAP-RelocInf", 82);
  ("id-RAB-ContextList-RANAP-RelocInf", 83);
  ("id-RAB-ContextFailedtoTransferItem", 84);
  ("id-RAB-ContextFailedtoTransferList", 85);
  ("id-GlobalRNC-ID", 86);
  ("id-RAB-ReleasedItem-IuRelComp", 87);
  ("id-MessageStructure", 88);
  ("id-Alt-RAB-Parameters", 89);
  ("id-Ass-RAB-Parameters", 90);
  ("id-RAB-ModifyList", 91);
  ("id-RAB-ModifyItem", 92);
  ("id-TypeOfError", 93);
  ("id-BroadcastAssistanceDataDecipheringKeys", 94);
  ("id-LocationRelatedDataRequestType", 95);
  ("id-GlobalCN-ID", 96);
  ("id-LastKnownServiceArea", 97);
  ("id-SRB-TrCH-Mapping", 98);
  ("id-InterSystemInformation-TransparentContainer", 99);
  ("id-NewBSS-To-OldBSS-Information", 100);
  ("id-SourceRNC-PDCP-context-info", 103);
  ("id-InformationTransferID", 104);
  ("id-SNA-Access-Information", 105);
  ("id-ProvidedData", 106);
  ("id-GERAN-BSC-Container", 107);
  ("id-GERAN-Classmark", 108);
  ("id-GERAN-Iumode-RAB-Failed-RABAssgntResponse-Item", 109);
  ("id-GERAN-Iumode-RAB-FailedList-RABAssgntResponse", 110);
  ("id-VerticalAccuracyCode", 111);
  ("id-ResponseTime", 112);
  ("id-PositioningPriority", 113);
  ("id-ClientType", 114);
  ("id-LocationRelatedDataRequestTypeSpecificToGERANIuMode", 115);
  ("id-SignallingIndication", 116);
  ("id-hS-DSCH-MAC-d-Flow-ID", 117);
  ("id-UESBI-Iu", 118);
  ("id-PositionData", 119);
  ("id-PositionDataSpecificToGERANIuMode", 120);
  ("id-CellLoadInformationGroup", 121);
  ("id-AccuracyFulfilmentIndicator", 122);
  ("id-InformationTransferType", 123);
  ("id-TraceRecordingSessionInformation", 124);
  ("id-TracePropagationParameters", 125);
  ("id-InterSystemInformationTransferType", 126);
  ("id-SelectedPLMN-ID", 127);
  ("id-RedirectionCompleted", 128);
  ("id-RedirectionIndication", 129);
  ("id-NAS-SequenceNumber", 130);
  ("id-RejectCauseValue", 131);
  ("id-APN", 132);
  ("id-CNMBMSLinkingInformation", 133);
  ("id-DeltaRAListofIdleModeUEs", 134);
  ("id-FrequenceLayerConvergenceFlag", 135);
  ("id-InformationExchangeID", 136);
  ("id-InformationExchangeType", 137);
  ("id-InformationRequested", 138);
  ("id-InformationRequestType", 139);
  ("id-IPMulticastAddress", 140);
  ("id-JoinedMBMSBearerServicesList", 141);
  ("id-LeftMBMSBearerServicesList", 142);
  ("id-MBMSBearerServiceType", 143);
  ("id-MBMSCNDe-Registration", 144);
  ("id-MBMSServiceArea", 145);
  ("id-MBMSSessionDuration", 146);
  ("id-MBMSSessionIdentity", 147);
  ("id-PDP-TypeInformation", 148);
  ("id-RAB-Parameters", 149);
  ("id-RAListofIdleModeUEs", 150);
  ("id-MBMSRegistrationRequestType", 151);
  ("id-SessionUpdateID", 152);
  ("id-TMGI", 153);
  ("id-TransportLayerInformation", 154);
  ("id-UnsuccessfulLinkingList", 155);
  ("id-MBMSLinkingInformation", 156);
  ("id-MBMSSessionRepetitionNumber", 157);
  ("id-AlternativeRABConfiguration", 158);
  ("id-AlternativeRABConfigurationRequest", 159);
  ("id-E-DCH-MAC-d-Flow-ID", 160);
  ("id-SourceBSS-ToTargetBSS-TransparentContainer", 161);
  ("id-TargetBSS-ToSourceBSS-TransparentContainer", 162);
  ("id-TimeToMBMSDataTransfer", 163);
  ("id-IncludeVelocity", 164);
  ("id-VelocityEstimate", 165);
  ("id-RedirectAttemptFlag", 166);
  ("id-RAT-Type", 167);
  ("id-PeriodicLocationInfo", 168);
  ("id-MBMSCountingInformation", 169);
  ("id-170-not-to-be-used-for-IE-ids", 170);
  ("id-ExtendedRNC-ID", 171);
  ("id-Alt-RAB-Parameter-ExtendedGuaranteedBitrateInf", 172);
  ("id-Alt-RAB-Parameter-ExtendedMaxBitrateInf", 173);
  ("id-Ass-RAB-Parameter-ExtendedGuaranteedBitrateList", 174);
  ("id-Ass-RAB-Parameter-ExtendedMaxBitrateList", 175);
  ("id-RAB-Parameter-ExtendedGuaranteedBitrateList", 176);
  ("id-RAB-Parameter-ExtendedMaxBitrateList", 177);
  ("id-Requested-RAB-Parameter-ExtendedMaxBitrateList", 178);
  ("id-Requested-RAB-Parameter-ExtendedGuaranteedBitrateList", 179);
  ("id-LAofIdleModeUEs", 180);
  ("id-newLAListofIdleModeUEs", 181);
  ("id-LAListwithNoIdleModeUEsAnyMore", 182);
  ("id-183-not-to-be-used-for-IE-ids", 183);
  ("id-GANSS-PositioningDataSet", 184);
  ("id-RequestedGANSSAssistanceData", 185);
  ("id-BroadcastGANSSAssistanceDataDecipheringKeys", 186);
  ("id-d-RNTI-for-NoIuCSUP", 187);
  ("id-RAB-SetupList-EnhancedRelocCompleteReq", 188);
  ("id-RAB-SetupItem-EnhancedRelocCompleteReq", 189);
  ("id-RAB-SetupList-EnhancedRelocCompleteRes", 190);
  ("id-RAB-SetupItem-EnhancedRelocCompleteRes", 191);
  ("id-RAB-SetupList-EnhRelocInfoReq", 192);
  ("id-RAB-SetupItem-EnhRelocInfoReq", 193);
  ("id-RAB-SetupList-EnhRelocInfoRes", 194);
  ("id-RAB-SetupItem-EnhRelocInfoRes", 195);
  ("id-OldIuSigConId", 196);
  ("id-RAB-FailedList-EnhRelocInfoRes", 197);
  ("id-RAB-FailedItem-EnhRelocInfoRes", 198);
  ("id-Global-ENB-ID", 199);
  ("id-UE-History-Information", 200);
  ("id-MBMSSynchronisationInformation", 201);
  ("id-SubscriberProfileIDforRFP", 202);
  ("id-CSG-Id", 203);
  ("id-OldIuSigConIdCS", 204);
  ("id-OldIuSigConIdPS", 205);
  ("id-GlobalCN-IDCS", 206);
  ("id-GlobalCN-IDPS", 207);
  ("id-SourceExtendedRNC-ID", 208);
  ("id-RAB-ToBeReleasedItem-EnhancedRelocCompleteRes", 209);
  ("id-RAB-ToBeReleasedList-EnhancedRelocCompleteRes", 210);
  ("id-SourceRNC-ID", 211);
  ("id-Relocation-TargetRNC-ID", 212);
  ("id-Relocation-TargetExtendedRNC-ID", 213);
  ("id-Alt-RAB-Parameter-SupportedGuaranteedBitrateInf", 214);
  ("id-Alt-RAB-Parameter-SupportedMaxBitrateInf", 215);
  ("id-Ass-RAB-Parameter-SupportedGuaranteedBitrateList", 216);
  ("id-Ass-RAB-Parameter-SupportedMaxBitrateList", 217);
  ("id-RAB-Parameter-SupportedGuaranteedBitrateList", 218);
  ("id-RAB-Parameter-SupportedMaxBitrateList", 219);
  ("id-Requested-RAB-Parameter-SupportedMaxBitrateList", 220);
  ("id-Requested-RAB-Parameter-SupportedGuaranteedBitrateList", 221);
  ("id-Relocation-SourceRNC-ID", 222);
  ("id-Relocation-SourceExtendedRNC-ID", 223);
  ("id-EncryptionKey", 224);
  ("id-IntegrityProtectionKey", 225);
  ("id-SRVCC-HO-Indication", 226);
  ("id-SRVCC-Information", 227);
  ("id-SRVCC-Operation-Possible", 228);
  ("id-CSG-Id-List", 229);
  ("id-PSRABtobeReplaced", 230);
  ("id-E-UTRAN-Service-Handover", 231);
  ("id-UE-AggregateMaximumBitRate", 233);
  ("id-CSG-Membership-Status", 234);
  ("id-Cell-Access-Mode", 235);
  ("id-IP-Source-Address", 236);
  ("id-CSFB-Information", 237);
  ("id-PDP-TypeInformation-extension", 238);
  ("id-MSISDN", 239);
  ("id-Offload-RAB-Parameters", 240);
  ("id-LGW-TransportLayerAddress", 241);
  ("id-Correlation-ID", 242);
  ("id-IRAT-Measurement-Configuration", 243);
  ("id-MDT-Configuration", 244);
  ("id-Priority-Class-Indicator", 245);
  ("id-RNSAPRelocationParameters", 247);
  ("id-RABParametersList", 248);
  ("id-Management-Based-MDT-Allowed", 249);
  ("id-HigherBitratesThan16MbpsFlag", 250);
  ("id-Trace-Collection-Entity-IP-Addess", 251);
  ("id-End-Of-CSFB", 252);
  ("id-Time-UE-StayedInCell-EnhancedGranularity", 253);
  ("id-Out-Of-UTRAN", 254);
  ("id-TraceRecordingSessionReference", 255);
  ("id-IMSI", 256);
  ("id-HO-Cause", 257);
  ("id-VoiceSupportMatchIndicator", 258);
  ("id-RSRVCC-HO-Indication", 259);
  ("id-RSRVCC-Information", 260);
  ("id-AnchorPLMN-ID", 261);
  ("id-Tunnel-Information-for-BBF", 262);
  ("id-Management-Based-MDT-PLMN-List", 263);
  ("id-SignallingBasedMDTPLMNList", 264);
  ("id-M4Report", 265);
  ("id-M5Report", 266);
  ("id-M6Report", 267);
  ("id-M7Report", 268);
  ("id-TimingDifferenceULDL", 269);
  ("id-Serving-Cell-Identifier", 270);
  ("id-EARFCN-Extended", 271);
  ("id-RSRVCC-Operation-Possible", 272);
  ("id-SIPTO-LGW-TransportLayerAddress", 273);
  ("id-SIPTO-Correlation-ID", 274);
  ("id-LHN-ID", 275);
  ("id-Session-Re-establishment-Indicator", 276);
  ("id-LastE-UTRANPLMNIdentity", 277);
  ("id-RSRQ-Type", 278);
  ("id-RSRQ-Extension", 279) ].

(* type assignments of the modules named in the header, in their order *)
Definition ranap_common : list (string * asn) := [
  (* asn1/ranap/RANAP-CommonDataTypes.asn *)
  ("Criticality",
    (AEnum false ["reject"; "ignore"; "notify"] []));
  ("Presence",
    (AEnum false ["optional"; "conditional"; "mandatory"] []));
  ("PrivateIE-ID",
    (AChoice false [("local", (AInt (Some (Rng (Num (0)) (Num (65535)) false))));
      ("global", AOid)] []));
  ("ProcedureCode",
    (AInt (Some (Rng (Num (0)) (Num (255)) false))));
  ("ProtocolExtensionID",
    (AInt (Some (Rng (Num (0)) (Num (65535)) false))));
  ("ProtocolIE-ID",
    (AInt (Some (Rng (Num (0)) (Num (65535)) false))));
  ("TriggeringMessage",
    (AEnum false ["initiating-message"; "successful-outcome"; "unsuccessfull-outcome"; "outcome"] []));
  (* asn1/ranap/RANAP-IEs.asn *)
  ("IE-Extensions",
    (ASeqOf (Some (Rng (Num (1)) (Cst "maxProtocolExtensions") false)) (ARef "IE")));
  ("AccuracyFulfilmentIndicator",
    (AEnum true ["requested-Accuracy-Fulfilled"; "requested-Accuracy-Not-Fulfilled"] []));
  ("AllocationOrRetentionPriority",
    (ASeq true [("priorityLevel", (false, (ARef "PriorityLevel")));
      ("pre-emptionCapability", (false, (ARef "Pre-emptionCapability")));
      ("pre-emptionVulnerability", (false, (ARef "Pre-emptionVulnerability")));
      ("queuingAllowed", (false, (ARef "QueuingAllowed")));
      ("iE-Extensions", (true, (ARef "IE-Extensions")))] []));
  ("Alt-RAB-Parameters",
    (ASeq true [("altMaxBitrateInf", (true, (ARef "Alt-RAB-Parameter-MaxBitrateInf")));
      ("altGuaranteedBitRateInf", (true, (ARef "Alt-RAB-Parameter-GuaranteedBitrateInf")));
      ("iE-Extensions", (true, (ARef "IE-Extensions")))] []));
  ("Alt-RAB-Parameter-ExtendedGuaranteedBitrateInf",
    (ASeq true [("altExtendedGuaranteedBitrateType", (false, (ARef "Alt-RAB-Parameter-GuaranteedBitrateType")));
      ("altExtendedGuaranteedBitrates", (true, (ARef "Alt-RAB-Parameter-ExtendedGuaranteedBitrates")))] []));
  ("Alt-RAB-Parameter-ExtendedGuaranteedBitrates",
    (ASeqOf (Some (Rng (Num (1)) (Cst "maxNrOfAltValues") false)) (ARef "Alt-RAB-Parameter-ExtendedGuaranteedBitrateList")));
  ("Alt-RAB-Parameter-ExtendedGuaranteedBitrateList",
    (ASeqOf (Some (Rng (Num (1)) (Cst "maxNrOfSeparateTrafficDirections") false)) (ARef "ExtendedGuaranteedBitrate")));
  ("Alt-RAB-Parameter-GuaranteedBitrateInf",
    (ASeq true [("altGuaranteedBitrateType", (false, (ARef "Alt-RAB-Parameter-GuaranteedBitrateType")));
      ("altGuaranteedBitrates", (true, (ARef "Alt-RAB-Parameter-GuaranteedBitrates")))] []));
  ("Alt-RAB-Parameter-GuaranteedBitrateType",
    (AEnum true ["unspecified"; "value-range"; "discrete-values"] []));
  ("Alt-RAB-Parameter-GuaranteedBitrates",
    (ASeqOf (Some (Rng (Num (1)) (Cst "maxNrOfAltValues") false)) (ARef "Alt-RAB-Parameter-GuaranteedBitrateList")));
  ("Alt-RAB-Parameter-GuaranteedBitrateList",
    (ASeqOf (Some (Rng (Num (1)) (Cst "maxNrOfSeparateTrafficDirections") false)) (ARef "GuaranteedBitrate")));
  ("Alt-RAB-Parameter-SupportedGuaranteedBitrateInf",
    (ASeq true [("altSupportedGuaranteedBitrateType", (false, (ARef "Alt-RAB-Parameter-GuaranteedBitrateType")));
      ("altSupportedGuaranteedBitrates", (true, (ARef "Alt-RAB-Parameter-SupportedGuaranteedBitrates")));
      ("iE-Extensions", (true, (ARef "IE-Extensions")))] []));
  ("Alt-RAB-Parameter-SupportedGuaranteedBitrates",
    (ASeqOf (Some (Rng (Num (1)) (Cst "maxNrOfAltValues") false)) (ARef "SupportedRAB-ParameterBitrateList")));
  ("Alt-RAB-Parameter-ExtendedMaxBitrateInf",
    (ASeq true [("altExtendedMaxBitrateType", (false, (ARef "Alt-RAB-Parameter-MaxBitrateType")));
      ("altExtendedMaxBitrates", (true, (ARef "Alt-RAB-Parameter-ExtendedMaxBitrates")))] []));
  ("Alt-RAB-Parameter-ExtendedMaxBitrates",
    (ASeqOf (Some (Rng (Num (1)) (Cst "maxNrOfAltValues") false)) (ARef "Alt-RAB-Parameter-ExtendedMaxBitrateList")));
  ("Alt-RAB-Parameter-ExtendedMaxBitrateList",
    (ASeqOf (Some (Rng (Num (1)) (Cst "maxNrOfSeparateTrafficDirections") false)) (ARef "ExtendedMaxBitrate")));
  ("Alt-RAB-Parameter-MaxBitrateInf",
    (ASeq true [("altMaxBitrateType", (false, (ARef "Alt-RAB-Parameter-MaxBitrateType")));
      ("altMaxBitrates", (true, (ARef "Alt-RAB-Parameter-MaxBitrates")))] []));
  ("Alt-RAB-Parameter-MaxBitrateType",
    (AEnum true ["unspecified"; "value-range"; "discrete-values"] []));
  ("Alt-RAB-Parameter-MaxBitrates",
    (ASeqOf (Some (Rng (Num (1)) (Cst "maxNrOfAltValues") false)) (ARef "Alt-RAB-Parameter-MaxBitrateList")));
  ("Alt-RAB-Parameter-MaxBitrateList",
    (ASeqOf (Some (Rng (Num (1)) (Cst "maxNrOfSeparateTrafficDirections") false)) (ARef "MaxBitrate")));
  ("Alt-RAB-Parameter-SupportedMaxBitrateInf",
    (ASeq true [("altSupportedMaxBitrateType", (false, (ARef "Alt-RAB-Parameter-MaxBitrateType")));
      ("altSupportedMaxBitrates", (true, (ARef "Alt-RAB-Parameter-SupportedMaxBitrates")));
      ("iE-Extensions", (true, (ARef "IE-Extensions")))] []));
  ("Alt-RAB-Parameter-SupportedMaxBitrates",
    (ASeqOf (Some (Rng (Num (1)) (Cst "maxNrOfAltValues") false)) (ARef "SupportedRAB-ParameterBitrateList")));
  ("AlternativeRABConfigurationRequest",
    (AEnum true ["alternative-RAB-configuration-Requested"] []));
  ("APN",
    (AOcts (Some (Rng (Num (1)) (Num (255)) false))));
  ("AreaIdentity",
    (AChoice true [("sAI", (ARef "SAI"));
      ("geographicalArea", (ARef "GeographicalArea"))] []));
  ("Ass-RAB-Parameters",
    (ASeq true [("assMaxBitrateInf", (true, (ARef "Ass-RAB-Parameter-MaxBitrateList")));
      ("assGuaranteedBitRateInf", (true, (ARef "Ass-RAB-Parameter-GuaranteedBitrateList")));
      ("iE-Extensions", (true, (ARef "IE-Extensions")))] []));
  ("Ass-RAB-Parameter-ExtendedGuaranteedBitrateList",
    (ASeqOf (Some (Rng (Num (1)) (Cst "maxNrOfSeparateTrafficDirections") false)) (ARef "ExtendedGuaranteedBitrate")));
  ("Ass-RAB-Parameter-ExtendedMaxBitrateList",
    (ASeqOf (Some (Rng (Num (1)) (Cst "maxNrOfSeparateTrafficDirections") false)) (ARef "ExtendedMaxBitrate")));
  ("Ass-RAB-Parameter-GuaranteedBitrateList",
    (ASeqOf (Some (Rng (Num (1)) (Cst "maxNrOfSeparateTrafficDirections") false)) (ARef "GuaranteedBitrate")));
  ("Ass-RAB-Parameter-MaxBitrateList",
    (ASeqOf (Some (Rng (Num (1)) (Cst "maxNrOfSeparateTrafficDirections") false)) (ARef "MaxBitrate")));
  ("AuthorisedPLMNs",
    (ASeqOf (Some (Rng (Num (1)) (Cst "maxNrOfPLMNsSN") false)) (ARef "AuthorisedPLMNs-Value")));
  ("AuthorisedPLMNs-Value",
    (ASeq true [("pLMNidentity", (false, (ARef "PLMNidentity")));
      ("authorisedSNAsList", (true, (ARef "AuthorisedSNAs")));
      ("iE-Extensions", (true, (ARef "IE-Extensions")))] []));
  ("AuthorisedSNAs",
    (ASeqOf (Some (Rng (Num (1)) (Cst "maxNrOfSNAs") false)) (ARef "SNAC")));
  ("BindingID",
    (AOcts (Some (Rng (Num (4)) (Num (4)) false))));
  ("BroadcastAssistanceDataDecipheringKeys",
    (ASeq true [("cipheringKeyFlag", (false, (ABits (Some (Rng (Num (1)) (Num (1)) false)))));
      ("currentDecipheringKey", (false, (ABits (Some (Rng (Num (56)) (Num (56)) false)))));
      ("nextDecipheringKey", (false, (ABits (Some (Rng (Num (56)) (Num (56)) false)))))] []));
  ("Cause",
    (AChoice true [("radioNetwork", (ARef "CauseRadioNetwork"));
      ("transmissionNetwork", (ARef "CauseTransmissionNetwork"));
      ("nAS", (ARef "CauseNAS"));
      ("protocol", (ARef "CauseProtocol"));
      ("misc", (ARef "CauseMisc"));
      ("non-Standard", (ARef "CauseNon-Standard"))] [("radioNetworkExtension", (ARef "CauseRadioNetworkExtension"))]));
  ("CauseMisc",
    (AInt (Some (Rng (Num (113)) (Num (128)) false))));
  ("CauseNAS",
    (AInt (Some (Rng (Num (81)) (Num (96)) false))));
  ("CauseProtocol",
    (AInt (Some (Rng (Num (97)) (Num (112)) false))));
  ("CauseRadioNetwork",
    (AInt (Some (Rng (Num (1)) (Num (64)) false))));
  ("CauseRadioNetworkExtension",
    (AInt (Some (Rng (Num (257)) (Num (512)) false))));
  ("CauseNon-Standard",
    (AInt (Some (Rng (Num (129)) (Num (256)) false))));
  ("CauseTransmissionNetwork",
    (AInt (Some (Rng (Num (65)) (Num (80)) false))));
  ("Cell-Access-Mode",
    (AEnum true ["hybrid"] []));
  ("CellBased",
    (ASeq true [("cellIdList", (false, (ARef "CellIdList")));
      ("iE-Extensions", (true, (ARef "IE-Extensions")))] []));
  ("CellIdList",
    (ASeqOf (Some (Rng (Num (1)) (Cst "maxNrOfCellIds") false)) (ARef "Cell-Id")));
  ("Cell-Id",
    (AInt (Some (Rng (Num (0)) (Num (268435455)) false))));
  ("Cell-Capacity-Class-Value",
    (AInt (Some (Rng (Num (1)) (Num (100)) true))));
  ("CellLoadInformation",
    (ASeq true [("cell-Capacity-Class-Value", (false, (ARef "Cell-Capacity-Class-Value")));
      ("loadValue", (false, (ARef "LoadValue")));
      ("rTLoadValue", (true, (ARef "RTLoadValue")));
      ("nRTLoadInformationValue", (true, (ARef "NRTLoadInformationValue")));
      ("iE-Extensions", (true, (ARef "IE-Extensions")))] []));
  ("CellLoadInformationGroup",
    (ASeq true [("sourceCellID", (false, (ARef "SourceCellID")));
      ("uplinkCellLoadInformation", (true, (ARef "CellLoadInformation")));
      ("downlinkCellLoadInformation", (true, (ARef "CellLoadInformation")));
      ("iE-Extensions", (true, (ARef "IE-Extensions")))] []));
  ("CellType",
    (AEnum true ["macro"; "micro"; "pico"; "femto"] []));
  ("ClientType",
    (AEnum true ["emergency-Services"; "value-Added-Services"; "pLMN-Operator-Services"; "lawful-Intercept-Services"; "pLMN-Operator-Broadcast-Services"; "pLMN-Operator-O-et-M"; "pLMN-Operator-Anonymous-Statistics"; "pLMN-Operator-Target-MS-Service-Support"] []));
  ("CriticalityDiagnostics",
    (ASeq true [("procedureCode", (true, (ARef "ProcedureCode")));
      ("triggeringMessage", (true, (ARef "TriggeringMessage")));
      ("procedureCriticality", (true, (ARef "Criticality")));
      ("iEsCriticalityDiagnostics", (true, (ARef "CriticalityDiagnostics-IE-List")));
      ("iE-Extensions", (true, (ARef "IE-Extensions")))] []));
  ("CriticalityDiagnostics-IE-List",
    (ASeqOf (Some (Rng (Num (1)) (Cst "maxNrOfErrors") false)) (ARef "CriticalityDiagnostics-IE-List-Value")));
  ("CriticalityDiagnostics-IE-List-Value",
    (ASeq true [("iECriticality", (false, (ARef "Criticality")));
      ("iE-ID", (false, (ARef "ProtocolIE-ID")));
      ("repetitionNumber", (true, (ARef "RepetitionNumber0")));
      ("iE-Extensions", (true, (ARef "IE-Extensions")))] []));
  ("MessageStructure",
    (ASeqOf (Some (Rng (Num (1)) (Cst "maxNrOfLevels") false)) (ARef "MessageStructure-Value")));
  ("MessageStructure-Value",
    (ASeq true [("iE-ID", (false, (ARef "ProtocolIE-ID")));
      ("repetitionNumber", (true, (ARef "RepetitionNumber1")));
      ("iE-Extensions", (true, (ARef "IE-Extensions")))] []));
  ("CGI",
    (ASeq false [("pLMNidentity", (false, (ARef "PLMNidentity")));
      ("lAC", (false, (ARef "LAC")));
      ("cI", (false, (ARef "CI")));
      ("iE-Extensions", (true, (ARef "IE-Extensions")))] []));
  ("ChosenEncryptionAlgorithm",
    (ARef "EncryptionAlgorithm"));
  ("ChosenIntegrityProtectionAlgorithm",
    (ARef "IntegrityProtectionAlgorithm"));
  ("CI",
    (AOcts (Some (Rng (Num (2)) (Num (2)) false))));
  ("ClassmarkInformation2",
    (AOcts None));
  ("ClassmarkInformation3",
    (AOcts None));
  ("CN-DomainIndicator",
    (AEnum false ["cs-domain"; "ps-domain"] []));
  ("CN-ID",
    (AInt (Some (Rng (Num (0)) (Num (4095)) false))));
  ("Correlation-ID",
    (AOcts (Some (Rng (Num (4)) (Num (4)) false))));
  ("CSFB-Information",
    (AEnum true ["csfb"; "csfb-high-priority"] []));
  ("CSG-Id",
    (ABits (Some (Rng (Num (27)) (Num (27)) false))));
  ("CSG-Id-List",
    (ASeqOf (Some (Rng (Num (1)) (Cst "maxNrOfCSGs") false)) (ARef "CSG-Id")));
  ("CSG-Membership-Status",
    (AEnum true ["member"; "non-member"] []));
  ("DataPDUType",
    (AEnum true ["pDUtype0"; "pDUtype1"] []));
  ("DataVolumeReference",
    (AInt (Some (Rng (Num (0)) (Num (255)) false))));
  ("DataVolumeReportingIndication",
    (AEnum false ["do-report"; "do-not-report"] []));
  ("DCH-ID",
    (AInt (Some (Rng (Num (0)) (Num (255)) false))));
  ("DeliveryOfErroneousSDU",
    (AEnum false ["yes"; "no"; "no-error-detection-consideration"] []));
  ("DeliveryOrder",
    (AEnum false ["delivery-order-requested"; "delivery-order-not-requested"] []));
  ("DeltaRAListofIdleModeUEs",
    (ASeq false [("newRAListofIdleModeUEs", (true, (ARef "NewRAListofIdleModeUEs")));
      ("rAListwithNoIdleModeUEsAnyMore", (true, (ARef "RAListwithNoIdleModeUEsAnyMore")));
      ("iE-Extensions", (true, (ARef "IE-Extensions")))] []));
  ("NewRAListofIdleModeUEs",
    (ASeqOf (Some (Rng (Num (1)) (Cst "maxMBMSRA") false)) (ARef "RAC")));
  ("RAListwithNoIdleModeUEsAnyMore",
    (ASeqOf (Some (Rng (Num (1)) (Cst "maxMBMSRA") false)) (ARef "RAC")));
  ("ForwardingIndication",
    (AEnum true ["forwarding-admitted"] []));
  ("DL-GTP-PDU-SequenceNumber",
    (AInt (Some (Rng (Num (0)) (Num (65535)) false))));
  ("DL-N-PDU-SequenceNumber",
    (AInt (Some (Rng (Num (0)) (Num (65535)) false))));
  ("D-RNTI",
    (AInt (Some (Rng (Num (0)) (Num (1048575)) false))));
  ("DRX-CycleLengthCoefficient",
    (AInt (Some (Rng (Num (6)) (Num (9)) false))));
  ("DSCH-ID",
    (AInt (Some (Rng (Num (0)) (Num (255)) false))));
  ("EARFCN-Extended",
    (AInt (Some (Rng (Num (65536)) (Num (262143)) true))));
  ("E-DCH-MAC-d-Flow-ID",
    (AInt (Some (Rng (Num (0)) (Cst "maxNrOfEDCHMACdFlows-1") false))));
  ("ENB-ID",
    (AChoice true [("macroENB-ID", (ABits (Some (Rng (Num (20)) (Num (20)) false))));
      ("homeENB-ID", (ABits (Some (Rng (Num (28)) (Num (28)) false))))] []));
  ("EncryptionAlgorithm",
    (AInt (Some (Rng (Num (0)) (Num (15)) false))));
  ("EncryptionInformation",
    (ASeq false [("permittedAlgorithms", (false, (ARef "PermittedEncryptionAlgorithms")));
      ("key", (false, (ARef "EncryptionKey")));
      ("iE-Extensions", (true, (ARef "IE-Extensions")))] []));
  ("EncryptionKey",
    (ABits (Some (Rng (Num (128)) (Num (128)) false))));
  ("End-Of-CSFB",
    (AEnum true ["end-of-CSFB"] []));
  ("EquipmentsToBeTraced",
    (AChoice true [("iMEIlist", (ARef "IMEIList"));
      ("iMEISVlist", (ARef "IMEISVList"));
      ("iMEIgroup", (ARef "IMEIGroup"));
      ("iMEISVgroup", (ARef "IMEISVGroup"))] []));
  ("E-UTRAN-Service-Handover",
    (AEnum true ["handover-to-E-UTRAN-shall-not-be-performed"] []));
  ("Event",
    (AEnum true ["stop-change-of-service-area"; "direct"; "change-of-servicearea"] ["stop-direct"; "periodic"; "stop-periodic"]));
  ("Event1F-Parameters",
    (ASeq true [("measurementQuantity", (false, (ARef "MeasurementQuantity")));
      ("threshold", (false, (AInt (Some (Rng (Num (-120)) (Num (165)) false)))))] []));
  ("Event1I-Parameters",
    (ASeq true [("threshold", (false, (AInt (Some (Rng (Num (-120)) (Num (-25)) false)))))] []));
  ("ExtendedGuaranteedBitrate",
    (AInt (Some (Rng (Num (16000001)) (Num (256000000)) false))));
  ("ExtendedMaxBitrate",
    (AInt (Some (Rng (Num (16000001)) (Num (256000000)) false))));
  ("ExtendedRNC-ID",
    (AInt (Some (Rng (Num (4096)) (Num (65535)) false))));
  ("FrameSequenceNumber",
    (AInt (Some (Rng (Num (0)) (Num (15)) false))));
  ("FrequenceLayerConvergenceFlag",
    (AEnum true ["no-FLC-flag"] []));
  ("GANSS-PositioningDataSet",
    (ASeqOf (Some (Rng (Num (1)) (Cst "maxGANSSSet") false)) (ARef "GANSS-PositioningMethodAndUsage")));
  ("GANSS-PositioningMethodAndUsage",
    (AOcts (Some (Rng (Num (1)) (Num (1)) false))));
  ("GeographicalArea",
    (AChoice true [("point", (ARef "GA-Point"));
      ("pointWithUnCertainty", (ARef "GA-PointWithUnCertainty"));
      ("polygon", (ARef "GA-Polygon"))] [("pointWithUncertaintyEllipse", (ARef "GA-PointWithUnCertaintyEllipse"));
      ("pointWithAltitude", (ARef "GA-PointWithAltitude"));
      ("pointWithAltitudeAndUncertaintyEllipsoid", (ARef "GA-PointWithAltitudeAndUncertaintyEllipsoid"));
      ("ellipsoidArc", (ARef "GA-EllipsoidArc"))]));
  ("GeographicalCoordinates",
    (ASeq true [("latitudeSign", (false, (AEnum false ["north"; "south"] [])));
      ("latitude", (false, (AInt (Some (Rng (Num (0)) (Num (8388607)) false)))));
      ("longitude", (false, (AInt (Some (Rng (Num (-8388608)) (Num (8388607)) false)))));
      ("iE-Extensions", (true, (ARef "IE-Extensions")))] []));
  ("GA-AltitudeAndDirection",
    (ASeq true [("directionOfAltitude", (false, (AEnum false ["height"; "depth"] [])));
      ("altitude", (false, (AInt (Some (Rng (Num (0)) (Num (32767)) false)))))] []));
  ("GA-EllipsoidArc",
    (ASeq true [("geographicalCoordinates", (false, (ARef "GeographicalCoordinates")));
      ("innerRadius", (false, (AInt (Some (Rng (Num (0)) (Num (65535)) false)))));
      ("uncertaintyRadius", (false, (AInt (Some (Rng (Num (0)) (Num (127)) false)))));
      ("offsetAngle", (false, (AInt (Some (Rng (Num (0)) (Num (179)) false)))));
      ("includedAngle", (false, (AInt (Some (Rng (Num (0)) (Num (179)) false)))));
      ("confidence", (false, (AInt (Some (Rng (Num (0)) (Num (127)) false)))));
      ("iE-Extensions", (true, (ARef "IE-Extensions")))] []));
  ("GA-Point",
    (ASeq true [("geographicalCoordinates", (false, (ARef "GeographicalCoordinates")));
      ("iE-Extensions", (true, (ARef "IE-Extensions")))] []));
  ("GA-PointWithAltitude",
    (ASeq true [("geographicalCoordinates", (false, (ARef "GeographicalCoordinates")));
      ("altitudeAndDirection", (false, (ARef "GA-AltitudeAndDirection")));
      ("iE-Extensions", (true, (ARef "IE-Extensions")))] []));
  ("GA-PointWithAltitudeAndUncertaintyEllipsoid",
    (ASeq true [("geographicalCoordinates", (false, (ARef "GeographicalCoordinates")));
      ("altitudeAndDirection", (false, (ARef "GA-AltitudeAndDirection")));
      ("uncertaintyEllipse", (false, (ARef "GA-UncertaintyEllipse")));
      ("uncertaintyAltitude", (false, (AInt (Some (Rng (Num (0)) (Num (127)) false)))));
      ("confidence", (false, (AInt (Some (Rng (Num (0)) (Num (127)) false)))));
      ("iE-Extensions", (true, (ARef "IE-Extensions")))] []));
  ("GA-PointWithUnCertainty",
    (ASeq false [("geographicalCoordinates", (false, (ARef "GeographicalCoordinates")));
      ("iE-Extensions", (true, (ARef "IE-Extensions")));
      ("uncertaintyCode", (false, (AInt (Some (Rng (Num (0)) (Num (127)) false)))))] []));
  ("GA-PointWithUnCertaintyEllipse",
    (ASeq true [("geographicalCoordinates", (false, (ARef "GeographicalCoordinates")));
      ("uncertaintyEllipse", (false, (ARef "GA-UncertaintyEllipse")));
      ("confidence", (false, (AInt (Some (Rng (Num (0)) (Num (127)) false)))));
      ("iE-Extensions", (true, (ARef "IE-Extensions")))] []));
  ("GA-Polygon",
    (ASeqOf (Some (Rng (Num (1)) (Cst "maxNrOfPoints") false)) (ARef "GA-Polygon-Value")));
  ("GA-Polygon-Value",
    (ASeq true [("geographicalCoordinates", (false, (ARef "GeographicalCoordinates")));
      ("iE-Extensions", (true, (ARef "IE-Extensions")))] []));
  ("GA-UncertaintyEllipse",
    (ASeq true [("uncertaintySemi-major", (false, (AInt (Some (Rng (Num (0)) (Num (127)) false)))));
      ("uncertaintySemi-minor", (false, (AInt (Some (Rng (Num (0)) (Num (127)) false)))));
      ("orientationOfMajorAxis", (false, (AInt (Some (Rng (Num (0)) (Num (179)) false)))))] []));
  ("GERAN-BSC-Container",
    (AOcts None));
  ("GERAN-Cell-ID",
    (ASeq false [("lAI", (false, (ARef "LAI")));
      ("rAC", (false, (ARef "RAC")));
      ("cI", (false, (ARef "CI")));
      ("iE-Extensions", (true, (ARef "IE-Extensions")))] []));
  ("GERAN-Classmark",
    (AOcts None));
  ("GlobalCN-ID",
    (ASeq false [("pLMNidentity", (false, (ARef "PLMNidentity")));
      ("cN-ID", (false, (ARef "CN-ID")))] []));
  ("GlobalRNC-ID",
    (ASeq false [("pLMNidentity", (false, (ARef "PLMNidentity")));
      ("rNC-ID", (false, (ARef "RNC-ID")))] []));
  ("GTP-TEI",
    (AOcts (Some (Rng (Num (4)) (Num (4)) false))));
  ("GuaranteedBitrate",
    (AInt (Some (Rng (Num (0)) (Num (16000000)) false))));
  ("HigherBitratesThan16MbpsFlag",
    (AEnum true ["allowed"; "not-allowed"] []));
  ("HS-DSCH-MAC-d-Flow-ID",
    (AInt (Some (Rng (Num (0)) (Cst "maxNrOfHSDSCHMACdFlows-1") false))));
  ("IMEI",
    (AOcts (Some (Rng (Num (8)) (Num (8)) false))));
  ("IMEIGroup",
    (ASeq false [("iMEI", (false, (ARef "IMEI")));
      ("iMEIMask", (false, (ABits (Some (Rng (Num (7)) (Num (7)) false)))));
      ("iE-Extensions", (true, (ARef "IE-Extensions")))] []));
  ("IMEIList",
    (ASeqOf (Some (Rng (Num (1)) (Cst "maxNrOfUEsToBeTraced") false)) (ARef "IMEI")));
  ("IMEISV",
    (AOcts (Some (Rng (Num (8)) (Num (8)) false))));
  ("IMEISVGroup",
    (ASeq false [("iMEISV", (false, (ARef "IMEISV")));
      ("iMEISVMask", (false, (ABits (Some (Rng (Num (7)) (Num (7)) false)))));
      ("iE-Extensions", (true, (ARef "IE-Extensions")))] []));
  ("IMEISVList",
    (ASeqOf (Some (Rng (Num (1)) (Cst "maxNrOfUEsToBeTraced") false)) (ARef "IMEISV")));
  ("ImmediateMDT",
    (ASeq true [("measurementsToActivate", (false, (ARef "MeasurementsToActivate")));
      ("m1report", (true, (ARef "M1Report")));
      ("m2report", (true, (ARef "M2Report")))] [("iE-Extensions", (true, (ARef "IE-Extensions")))]));
  ("IMSI",
    (AOcts (Some (Rng (Num (3)) (Num (8)) false))));
  ("IncludeVelocity",
    (AEnum false ["requested"] []));
  ("InformationExchangeID",
    (AInt (Some (Rng (Num (0)) (Num (1048575)) false))));
  ("InformationExchangeType",
    (AEnum true ["transfer"; "request"] []));
  ("InformationRequested",
    (AChoice true [("requestedMBMSIPMulticastAddressandAPNRequest", (ARef "RequestedMBMSIPMulticastAddressandAPNRequest"));
      ("requestedMulticastServiceList", (ARef "RequestedMulticastServiceList"))] []));
  ("InformationRequestType",
    (AChoice true [("mBMSIPMulticastAddressandAPNRequest", (ARef "MBMSIPMulticastAddressandAPNRequest"));
      ("permanentNAS-UE-ID", (ARef "PermanentNAS-UE-ID"))] []));
  ("InformationTransferID",
    (AInt (Some (Rng (Num (0)) (Num (1048575)) false))));
  ("InformationTransferType",
    (AChoice true [("rNCTraceInformation", (ARef "RNCTraceInformation"))] []));
  ("IntegrityProtectionAlgorithm",
    (AInt (Some (Rng (Num (0)) (Num (15)) false))));
  ("IntegrityProtectionInformation",
    (ASeq false [("permittedAlgorithms", (false, (ARef "PermittedIntegrityProtectionAlgorithms")));
      ("key", (false, (ARef "IntegrityProtectionKey")));
      ("iE-Extensions", (true, (ARef "IE-Extensions")))] []));
  ("IntegrityProtectionKey",
    (ABits (Some (Rng (Num (128)) (Num (128)) false))));
  ("InterSystemInformationTransferType",
    (AChoice true [("rIM-Transfer", (ARef "RIM-Transfer"))] []));
  ("InterSystemInformation-TransparentContainer",
    (ASeq true [("downlinkCellLoadInformation", (true, (ARef "CellLoadInformation")));
      ("uplinkCellLoadInformation", (true, (ARef "CellLoadInformation")));
      ("iE-Extensions", (true, (ARef "IE-Extensions")))] []));
  ("IPMulticastAddress",
    (AOcts (Some (Rng (Num (4)) (Num (16)) false))));
  ("IuSignallingConnectionIdentifier",
    (ABits (Some (Rng (Num (24)) (Num (24)) false))));
  ("IuTransportAssociation",
    (AChoice true [("gTP-TEI", (ARef "GTP-TEI"));
      ("bindingID", (ARef "BindingID"))] []));
  ("KeyStatus",
    (AEnum true ["old"; "new"] []));
  ("LA-LIST",
    (ASeqOf (Some (Rng (Num (1)) (Cst "maxNrOfLAs") false)) (ARef "LA-LIST-Value")));
  ("LA-LIST-Value",
    (ASeq true [("lAC", (false, (ARef "LAC")));
      ("listOF-SNAs", (false, (ARef "ListOF-SNAs")));
      ("iE-Extensions", (true, (ARef "IE-Extensions")))] []));
  ("LAC",
    (AOcts (Some (Rng (Num (2)) (Num (2)) false))));
  ("LAI",
    (ASeq false [("pLMNidentity", (false, (ARef "PLMNidentity")));
      ("lAC", (false, (ARef "LAC")));
      ("iE-Extensions", (true, (ARef "IE-Extensions")))] []));
  ("LastKnownServiceArea",
    (ASeq true [("sAI", (false, (ARef "SAI")));
      ("ageOfSAI", (false, (AInt (Some (Rng (Num (0)) (Num (32767)) false)))));
      ("iE-Extensions", (true, (ARef "IE-Extensions")))] []));
  ("LastVisitedUTRANCell-Item",
    (ASeq true [("uTRAN-CellID", (false, (ARef "UTRAN-CellID")));
      ("cellType", (false, (ARef "CellType")));
      ("time-UE-StayedInCell", (false, (ARef "Time-UE-StayedInCell")));
      ("iE-Extensions", (true, (ARef "IE-Extensions")))] []));
  ("LHN-ID",
    (AOcts (Some (Rng (Num (32)) (Num (256)) false))));
  ("Links-to-log",
    (AEnum true ["uplink"; "downlink"; "both-uplink-and-downlink"] []));
  ("ListOF-SNAs",
    (ASeqOf (Some (Rng (Num (1)) (Cst "maxNrOfSNAs") false)) (ARef "SNAC")));
  ("ListOfInterfacesToTrace",
    (ASeqOf (Some (Rng (Num (1)) (Cst "maxNrOfInterfaces") false)) (ARef "InterfacesToTraceItem")));
  ("InterfacesToTraceItem",
    (ASeq true [("interface", (false, (AEnum true ["iu-cs"; "iu-ps"; "iur"; "iub"; "uu"] [])));
      ("iE-Extensions", (true, (ARef "IE-Extensions")))] []));
  ("LoadValue",
    (AInt (Some (Rng (Num (0)) (Num (100)) false))));
  ("LocationRelatedDataRequestType",
    (ASeq true [("requestedLocationRelatedDataType", (false, (ARef "RequestedLocationRelatedDataType")));
      ("requestedGPSAssistanceData", (true, (ARef "RequestedGPSAssistanceData")))] []));
  ("LocationRelatedDataRequestTypeSpecificToGERANIuMode",
    (AEnum true ["decipheringKeysEOTD"; "dedicatedMobileAssistedEOTDAssistanceData"; "dedicatedMobileBasedEOTDAssistanceData"] []));
  ("LocationReportingTransferInformation",
    (ASeq true [("reportChangeOfSAI", (true, (ARef "ReportChangeOfSAI")));
      ("periodicReportingIndicator", (true, (ARef "PeriodicReportingIndicator")));
      ("directReportingIndicator", (true, (ARef "DirectReportingIndicator")));
      ("verticalAccuracyCode", (true, (ARef "VerticalAccuracyCode")));
      ("positioningPriorityChangeSAI", (true, (ARef "PositioningPriority")));
      ("positioningPriorityDirect", (true, (ARef "PositioningPriority")));
      ("clientTypePeriodic", (true, (ARef "ClientType")));
      ("clientTypeDirect", (true, (ARef "ClientType")));
      ("responseTime", (true, (ARef "ResponseTime")));
      ("includeVelocity", (true, (ARef "IncludeVelocity")));
      ("periodicLocationInfo", (true, (ARef "PeriodicLocationInfo")));
      ("iE-Extensions", (true, (ARef "IE-Extensions")))] []));
  ("ReportChangeOfSAI",
    (AEnum true ["requested"] []));
  ("PeriodicReportingIndicator",
    (AEnum true ["periodicSAI"; "periodicGeo"] []));
  ("DirectReportingIndicator",
    (AEnum true ["directSAI"; "directGeo"] []));
  ("L3-Information",
    (AOcts None));
  ("M1Report",
    (AChoice true [("periodic", (ARef "MDT-Report-Parameters"));
      ("event1F", (ARef "Event1F-Parameters"))] []));
  ("M2Report",
    (AChoice true [("periodic", (ARef "MDT-Report-Parameters"));
      ("event1I", (ARef "Event1I-Parameters"))] []));
  ("M4Report",
    (AChoice true [("all", ANull);
      ("m4-collection-parameters", (ARef "M4-Collection-Parameters"))] []));
  ("M4-Collection-Parameters",
    (ASeq true [("m4-period", (false, (ARef "M4-Period")));
      ("m4-threshold", (true, (ARef "M4-Threshold")));
      ("iE-Extensions", (true, (ARef "IE-Extensions")))] []));
  ("M4-Period",
    (AEnum true ["ms100"; "ms250"; "ms500"; "ms1000"; "ms2000"; "ms3000"; "ms4000"; "ms6000"] []));
  ("M4-Threshold",
    (AInt (Some (Rng (Num (0)) (Num (31)) false))));
  ("M5Report",
    (AChoice true [("when-available", ANull);
      ("m5-period", (ARef "M5-Period"))] []));
  ("M5-Period",
    (AEnum true ["ms100"; "ms250"; "ms500"; "ms1000"; "ms2000"; "ms3000"; "ms4000"; "ms6000"] []));
  ("M6Report",
    (ASeq true [("m6-period", (false, (ARef "M6-Period")));
      ("m6-links-to-log", (false, (ARef "Links-to-log")));
      ("iE-Extensions", (true, (ARef "IE-Extensions")))] []));
  ("M6-Period",
    (AEnum true ["ms1000"; "ms2000"; "ms3000"; "ms4000"; "ms6000"; "ms8000"; "ms12000"; "ms16000"; "ms20000"; "ms24000"; "ms28000"; "ms32000"; "ms64000"] []));
  ("M7Report",
    (ASeq true [("m7-period", (false, (ARef "M7-Period")));
      ("m7-links-to-log", (false, (ARef "Links-to-log")));
      ("iE-Extensions", (true, (ARef "IE-Extensions")))] []));
  ("M7-Period",
    (AEnum true ["ms1000"; "ms2000"; "ms3000"; "ms4000"; "ms6000"; "ms8000"; "ms12000"; "ms16000"; "ms20000"; "ms24000"; "ms28000"; "ms32000"; "ms64000"] []));
  ("Management-Based-MDT-Allowed",
    (AEnum true ["allowed"] []));
  ("MaxBitrate",
    (AInt (Some (Rng (Num (1)) (Num (16000000)) false))));
  ("MaxSDU-Size",
    (AInt (Some (Rng (Num (0)) (Num (32768)) false))));
  ("MBMS-PTP-RAB-ID",
    (ABits (Some (Rng (Num (8)) (Num (8)) false))));
  ("MBMSBearerServiceType",
    (AEnum true ["multicast"; "broadcast"] []));
  ("MBMSCNDe-Registration",
    (AEnum true ["normalsessionstop"; "deregister"] []));
  ("MBMSCountingInformation",
    (AEnum true ["counting"; "notcounting"] []));
  ("MBMSHCIndicator",
    (AEnum true ["uncompressed-header"; "compressed-header"] []));
  ("MBMSIPMulticastAddressandAPNRequest",
    (ASeqOf (Some (Rng (Num (1)) (Cst "maxnoofMulticastServicesPerRNC") false)) (ARef "TMGI")));
  ("MBMSLinkingInformation",
    (AEnum true ["uE-has-joined-multicast-services"] []));
  ("MBMSRegistrationRequestType",
    (AEnum true ["register"; "deregister"] []));
  ("MBMSServiceArea",
    (AOcts None));
  ("MBMSSessionDuration",
    (AOcts (Some (Rng (Num (3)) (Num (3)) false))));
  ("MBMSSessionIdentity",
    (AOcts (Some (Rng (Num (1)) (Num (1)) false))));
  ("MBMSSessionRepetitionNumber",
    (AOcts (Some (Rng (Num (1)) (Num (1)) false))));
  ("MDT-Activation",
    (AEnum true ["immediateMDTonly"; "loggedMDTonly"; "immediateMDTandTrace"] []));
  ("MDTAreaScope",
    (AChoice true [("cellbased", (ARef "CellBased"));
      ("labased", (ARef "LABased"));
      ("rabased", (ARef "RABased"));
      ("plmn-area-based", ANull)] []));
  ("MDT-Configuration",
    (ASeq true [("mdtActivation", (false, (ARef "MDT-Activation")));
      ("mdtAreaScope", (false, (ARef "MDTAreaScope")));
      ("mdtMode", (false, (ARef "MDTMode")));
      ("iE-Extensions", (true, (ARef "IE-Extensions")))] []));
  ("MDTMode",
    (AChoice true [("immediateMDT", (ARef "ImmediateMDT"));
      ("loggedMDT", (ARef "LoggedMDT"))] []));
  ("MDT-PLMN-List",
    (ASeqOf (Some (Rng (Num (1)) (Cst "maxnoofMDTPLMNs") false)) (ARef "PLMNidentity")));
  ("MDT-Report-Parameters",
    (ASeq true [("reportInterval", (false, (ARef "ReportInterval")));
      ("reportAmount", (false, (ARef "ReportAmount")))] []));
  ("MeasurementQuantity",
    (AEnum true ["cpichEcNo"; "cpichRSCP"; "pathloss"] []));
  ("MeasurementsToActivate",
    (ABits (Some (Rng (Num (8)) (Num (8)) false))));
  ("MSISDN",
    (AOcts (Some (Rng (Num (1)) (Num (9)) false))));
  ("NAS-PDU",
    (AOcts None));
  ("NAS-SequenceNumber",
    (ABits (Some (Rng (Num (2)) (Num (2)) false))));
  ("NAS-SynchronisationIndicator",
    (ABits (Some (Rng (Num (4)) (Num (4)) false))));
  ("NewBSS-To-OldBSS-Information",
    (AOcts None));
  ("NonSearchingIndication",
    (AEnum false ["non-searching"; "searching"] []));
  ("NRTLoadInformationValue",
    (AInt (Some (Rng (Num (0)) (Num (3)) false))));
  ("NumberOfIuInstances",
    (AInt (Some (Rng (Num (1)) (Num (2)) false))));
  ("NumberOfSteps",
    (AInt (Some (Rng (Num (1)) (Num (16)) false))));
  ("Offload-RAB-Parameters",
    (ASeq true [("accessPointName", (false, (ARef "Offload-RAB-Parameters-APN")));
      ("chargingCharacteristics", (false, (ARef "Offload-RAB-Parameters-ChargingCharacteristics")));
      ("iE-Extensions", (true, (ARef "IE-Extensions")))] []));
  ("Offload-RAB-Parameters-APN",
    (AOcts (Some (Rng (Num (1)) (Num (255)) false))));
  ("Offload-RAB-Parameters-ChargingCharacteristics",
    (AOcts (Some (Rng (Num (2)) (Num (2)) false))));
  ("OldBSS-ToNewBSS-Information",
    (AOcts None));
  ("OMC-ID",
    (AOcts (Some (Rng (Num (3)) (Num (22)) false))));
  ("Out-Of-UTRAN",
    (AEnum true ["cell-reselection-to-EUTRAN"] []));
  ("PagingAreaID",
    (AChoice true [("lAI", (ARef "LAI"));
      ("rAI", (ARef "RAI"))] []));
  ("PagingCause",
    (AEnum true ["terminating-conversational-call"; "terminating-streaming-call"; "terminating-interactive-call"; "terminating-background-call"; "terminating-low-priority-signalling"] ["terminating-high-priority-signalling"]));
  ("PDP-TypeInformation",
    (ASeqOf (Some (Rng (Num (1)) (Cst "maxNrOfPDPDirections") false)) (ARef "PDP-Type")));
  ("PDP-Type",
    (AEnum true ["empty"; "ppp"; "osp-ihoss"; "ipv4"; "ipv6"] []));
  ("PDP-TypeInformation-extension",
    (ASeqOf (Some (Rng (Num (1)) (Cst "maxNrOfPDPDirections") false)) (ARef "PDP-Type-extension")));
  ("PDP-Type-extension",
    (AEnum true ["ipv4-and-ipv6"] []));
  ("PDUType14FrameSequenceNumber",
    (AInt (Some (Rng (Num (0)) (Num (3)) false))));
  ("PeriodicLocationInfo",
    (ASeq true [("reportingAmount", (false, (AInt (Some (Rng (Num (1)) (Num (8639999)) true)))));
      ("reportingInterval", (false, (AInt (Some (Rng (Num (1)) (Num (8639999)) true)))));
      ("iE-Extensions", (true, (ARef "IE-Extensions")))] []));
  ("PermanentNAS-UE-ID",
    (AChoice true [("iMSI", (ARef "IMSI"))] []));
  ("PermittedEncryptionAlgorithms",
    (ASeqOf (Some (Rng (Num (1)) (Num (16)) false)) (ARef "EncryptionAlgorithm")));
  ("PermittedIntegrityProtectionAlgorithms",
    (ASeqOf (Some (Rng (Num (1)) (Num (16)) false)) (ARef "IntegrityProtectionAlgorithm")));
  ("LABased",
    (ASeq true [("laiList", (false, (ARef "LAI-List")));
      ("iE-Extensions", (true, (ARef "IE-Extensions")))] []));
  ("LAI-List",
    (ASeqOf (Some (Rng (Num (1)) (Cst "maxNrOfLAIs") false)) (ARef "LAI")));
  ("LoggedMDT",
    (ASeq true [("loggingInterval", (false, (ARef "LoggingInterval")));
      ("loggingDuration", (false, (ARef "LoggingDuration")));
      ("iE-Extensions", (true, (ARef "IE-Extensions")))] []));
  ("LoggingInterval",
    (AEnum true ["s1d28"; "s2d56"; "s5d12"; "s10d24"; "s20d48"; "s30d72"; "s40d96"; "s61d44"] []));
  ("LoggingDuration",
    (AEnum true ["min10"; "min20"; "min40"; "min60"; "min90"; "min120"] []));
  ("PLMNidentity",
    (AOcts (Some (Rng (Num (3)) (Num (3)) false))));
  ("PLMNs-in-shared-network",
    (ASeqOf (Some (Rng (Num (1)) (Cst "maxNrOfPLMNsSN") false)) (ARef "PLMNs-in-shared-network-Value")));
  ("PLMNs-in-shared-network-Value",
    (ASeq true [("pLMNidentity", (false, (ARef "PLMNidentity")));
      ("lA-LIST", (false, (ARef "LA-LIST")));
      ("iE-Extensions", (true, (ARef "IE-Extensions")))] []));
  ("Port-Number",
    (AOcts (Some (Rng (Num (2)) (Num (2)) false))));
  ("PositioningDataDiscriminator",
    (ABits (Some (Rng (Num (4)) (Num (4)) false))));
  ("PositioningDataSet",
    (ASeqOf (Some (Rng (Num (1)) (Cst "maxSet") false)) (ARef "PositioningMethodAndUsage")));
  ("PositioningMethodAndUsage",
    (AOcts (Some (Rng (Num (1)) (Num (1)) false))));
  ("PositioningPriority",
    (AEnum true ["high-Priority"; "normal-Priority"] []));
  ("PositionData",
    (ASeq true [("positioningDataDiscriminator", (false, (ARef "PositioningDataDiscriminator")));
      ("positioningDataSet", (true, (ARef "PositioningDataSet")));
      ("iE-Extensions", (true, (ARef "IE-Extensions")))] []));
  ("PositionDataSpecificToGERANIuMode",
    (AOcts None));
  ("Pre-emptionCapability",
    (AEnum false ["shall-not-trigger-pre-emption"; "may-trigger-pre-emption"] []));
  ("Pre-emptionVulnerability",
    (AEnum false ["not-pre-emptable"; "pre-emptable"] []));
  ("PriorityLevel",
    (AInt (Some (Rng (Num (0)) (Num (15)) false))));
  ("Priority-Class-Indicator",
    (ABits (Some (Rng (Num (8)) (Num (8)) false))));
  ("ProvidedData",
    (AChoice true [("shared-network-information", (ARef "Shared-Network-Information"))] []));
  ("P-TMSI",
    (AOcts (Some (Rng (Num (4)) (Num (4)) false))));
  ("QueuingAllowed",
    (AEnum false ["queueing-not-allowed"; "queueing-allowed"] []));
  ("RAB-AsymmetryIndicator",
    (AEnum true ["symmetric-bidirectional"; "asymmetric-unidirectional-downlink"; "asymmetric-unidirectional-uplink"; "asymmetric-bidirectional"] []));
  ("RABased",
    (ASeq true [("raiList", (false, (ARef "RAI-List")));
      ("iE-Extensions", (true, (ARef "IE-Extensions")))] []));
  ("RAI-List",
    (ASeqOf (Some (Rng (Num (1)) (Cst "maxNrOfRAIs") false)) (ARef "RAI")));
  ("RABDataVolumeReport",
    (ASeqOf (Some (Rng (Num (1)) (Cst "maxNrOfVol") false)) (ARef "RABDataVolumeReport-Value")));
  ("RABDataVolumeReport-Value",
    (ASeq true [("dl-UnsuccessfullyTransmittedDataVolume", (false, (ARef "UnsuccessfullyTransmittedDataVolume")));
      ("dataVolumeReference", (true, (ARef "DataVolumeReference")));
      ("iE-Extensions", (true, (ARef "IE-Extensions")))] []));
  ("RAB-ID",
    (ABits (Some (Rng (Num (8)) (Num (8)) false))));
  ("RAB-Parameter-ExtendedGuaranteedBitrateList",
    (ASeqOf (Some (Rng (Num (1)) (Cst "maxNrOfSeparateTrafficDirections") false)) (ARef "ExtendedGuaranteedBitrate")));
  ("RAB-Parameter-ExtendedMaxBitrateList",
    (ASeqOf (Some (Rng (Num (1)) (Cst "maxNrOfSeparateTrafficDirections") false)) (ARef "ExtendedMaxBitrate")));
  ("RAB-Parameter-GuaranteedBitrateList",
    (ASeqOf (Some (Rng (Num (1)) (Cst "maxNrOfSeparateTrafficDirections") false)) (ARef "GuaranteedBitrate")));
  ("RAB-Parameter-MaxBitrateList",
    (ASeqOf (Some (Rng (Num (1)) (Cst "maxNrOfSeparateTrafficDirections") false)) (ARef "MaxBitrate")));
  ("RAB-Parameters",
    (ASeq true [("trafficClass", (false, (ARef "TrafficClass")));
      ("rAB-AsymmetryIndicator", (false, (ARef "RAB-AsymmetryIndicator")));
      ("maxBitrate", (false, (ARef "RAB-Parameter-MaxBitrateList")));
      ("guaranteedBitRate", (true, (ARef "RAB-Parameter-GuaranteedBitrateList")));
      ("deliveryOrder", (false, (ARef "DeliveryOrder")));
      ("maxSDU-Size", (false, (ARef "MaxSDU-Size")));
      ("sDU-Parameters", (false, (ARef "SDU-Parameters")));
      ("transferDelay", (true, (ARef "TransferDelay")));
      ("trafficHandlingPriority", (true, (ARef "TrafficHandlingPriority")));
      ("allocationOrRetentionPriority", (true, (ARef "AllocationOrRetentionPriority")));
      ("sourceStatisticsDescriptor", (true, (ARef "SourceStatisticsDescriptor")));
      ("relocationRequirement", (true, (ARef "RelocationRequirement")));
      ("iE-Extensions", (true, (ARef "IE-Extensions")))] []));
  ("RABParametersList",
    (ASeqOf (Some (Rng (Num (1)) (Cst "maxNrOfRABs") false)) (ARef "RABParametersList-Value")));
  ("RABParametersList-Value",
    (ASeq true [("rab-Id", (false, (ARef "RAB-ID")));
      ("cn-domain", (false, (ARef "CN-DomainIndicator")));
      ("rabDataVolumeReport", (true, (ARef "RABDataVolumeReport")));
      ("upInformation", (true, (ARef "UPInformation")));
      ("iE-Extensions", (true, (ARef "IE-Extensions")))] []));
  ("RAB-SubflowCombinationBitRate",
    (AInt (Some (Rng (Num (0)) (Num (16000000)) false))));
  ("RAB-TrCH-Mapping",
    (ASeqOf (Some (Rng (Num (1)) (Cst "maxNrOfRABs") false)) (ARef "RAB-TrCH-MappingItem")));
  ("RAB-TrCH-MappingItem",
    (ASeq true [("rAB-ID", (false, (ARef "RAB-ID")));
      ("trCH-ID-List", (false, (ARef "TrCH-ID-List")));
      ("iE-Extensions", (true, (ARef "IE-Extensions")))] []));
  ("RAC",
    (AOcts (Some (Rng (Num (1)) (Num (1)) false))));
  ("RAI",
    (ASeq true [("lAI", (false, (ARef "LAI")));
      ("rAC", (false, (ARef "RAC")));
      ("iE-Extensions", (true, (ARef "IE-Extensions")))] []));
  ("RAListofIdleModeUEs",
    (AChoice true [("notEmptyRAListofIdleModeUEs", (ARef "NotEmptyRAListofIdleModeUEs"));
      ("emptyFullRAListofIdleModeUEs", (AEnum true ["emptylist"; "fulllist"] []))] []));
  ("NotEmptyRAListofIdleModeUEs",
    (ASeq false [("rAofIdleModeUEs", (false, (ARef "RAofIdleModeUEs")));
      ("iE-Extensions", (true, (ARef "IE-Extensions")))] []));
  ("RAofIdleModeUEs",
    (ASeqOf (Some (Rng (Num (1)) (Cst "maxMBMSRA") false)) (ARef "RAC")));
  ("LAListofIdleModeUEs",
    (ASeqOf (Some (Rng (Num (1)) (Cst "maxMBMSRA") false)) (ARef "LAI")));
  ("RAT-Type",
    (AEnum true ["utran"; "geran"] []));
  ("RateControlAllowed",
    (AEnum false ["not-allowed"; "allowed"] []));
  ("RedirectAttemptFlag",
    ANull);
  ("RedirectionCompleted",
    (AEnum true ["redirection-completed"] []));
  ("RejectCauseValue",
    (AEnum true ["pLMN-Not-Allowed"; "location-Area-Not-Allowed"; "roaming-Not-Allowed-In-This-Location-Area"; "no-Suitable-Cell-In-Location-Area"; "gPRS-Services-Not-Allowed-In-This-PLMN"; "cS-PS-coordination-required"] ["network-failure"; "not-authorized-for-this-CSG"]));
  ("RelocationRequirement",
    (AEnum true ["lossless"; "none"] ["realtime"]));
  ("RelocationType",
    (AEnum true ["ue-not-involved"; "ue-involved"] []));
  ("RepetitionNumber0",
    (AInt (Some (Rng (Num (0)) (Num (255)) false))));
  ("RepetitionNumber1",
    (AInt (Some (Rng (Num (1)) (Num (256)) false))));
  ("ReportArea",
    (AEnum true ["service-area"; "geographical-area"] []));
  ("ReportInterval",
    (AEnum true ["ms250"; "ms500"; "ms1000"; "ms2000"; "ms3000"; "ms4000"; "ms6000"; "ms12000"; "ms16000"; "ms20000"; "ms24000"; "ms32000"; "ms64000"] ["ms8000"; "ms28000"]));
  ("ReportAmount",
    (AEnum true ["n1"; "n2"; "n4"; "n8"; "n16"; "n32"; "n64"; "infinity"] []));
  ("RequestedGPSAssistanceData",
    (AOcts (Some (Rng (Num (1)) (Num (38)) false))));
  ("RequestedGANSSAssistanceData",
    (AOcts (Some (Rng (Num (1)) (Num (201)) false))));
  ("RequestedLocationRelatedDataType",
    (AEnum true ["decipheringKeysUEBasedOTDOA"; "decipheringKeysAssistedGPS"; "dedicatedAssistanceDataUEBasedOTDOA"; "dedicatedAssistanceDataAssistedGPS"] ["decipheringKeysAssistedGANSS"; "dedicatedAssistanceDataAssistedGANSS"; "decipheringKeysAssistedGPSandGANSS"; "dedicatedAssistanceDataAssistedGPSandGANSS"]));
  ("RequestedMBMSIPMulticastAddressandAPNRequest",
    (ASeqOf (Some (Rng (Num (1)) (Cst "maxnoofMulticastServicesPerRNC") false)) (ARef "MBMSIPMulticastAddressandAPNlist")));
  ("MBMSIPMulticastAddressandAPNlist",
    (ASeq true [("tMGI", (false, (ARef "TMGI")));
      ("iPMulticastAddress", (false, (ARef "IPMulticastAddress")));
      ("aPN", (false, (ARef "APN")));
      ("iE-Extensions", (true, (ARef "IE-Extensions")))] []));
  ("RequestedMulticastServiceList",
    (ASeqOf (Some (Rng (Num (1)) (Cst "maxnoofMulticastServicesPerUE") false)) (ARef "TMGI")));
  ("Requested-RAB-Parameter-Values",
    (ASeq true [("requestedMaxBitrates", (true, (ARef "Requested-RAB-Parameter-MaxBitrateList")));
      ("requestedGuaranteedBitrates", (true, (ARef "Requested-RAB-Parameter-GuaranteedBitrateList")));
      ("iE-Extensions", (true, (ARef "IE-Extensions")))] []));
  ("Requested-RAB-Parameter-ExtendedMaxBitrateList",
    (ASeqOf (Some (Rng (Num (1)) (Cst "maxNrOfSeparateTrafficDirections") false)) (ARef "ExtendedMaxBitrate")));
  ("Requested-RAB-Parameter-ExtendedGuaranteedBitrateList",
    (ASeqOf (Some (Rng (Num (1)) (Cst "maxNrOfSeparateTrafficDirections") false)) (ARef "ExtendedGuaranteedBitrate")));
  ("Requested-RAB-Parameter-MaxBitrateList",
    (ASeqOf (Some (Rng (Num (1)) (Cst "maxNrOfSeparateTrafficDirections") false)) (ARef "MaxBitrate")));
  ("Requested-RAB-Parameter-GuaranteedBitrateList",
    (ASeqOf (Some (Rng (Num (1)) (Cst "maxNrOfSeparateTrafficDirections") false)) (ARef "GuaranteedBitrate")));
  ("RequestType",
    (ASeq true [("event", (false, (ARef "Event")));
      ("reportArea", (false, (ARef "ReportArea")));
      ("accuracyCode", (true, (AInt (Some (Rng (Num (0)) (Num (127)) false)))))] []));
  ("ResidualBitErrorRatio",
    (ASeq false [("mantissa", (false, (AInt (Some (Rng (Num (1)) (Num (9)) false)))));
      ("exponent", (false, (AInt (Some (Rng (Num (1)) (Num (8)) false)))));
      ("iE-Extensions", (true, (ARef "IE-Extensions")))] []));
  ("ResponseTime",
    (AEnum true ["lowdelay"; "delaytolerant"] []));
  ("RIMInformation",
    (AOcts None));
  ("RIM-Transfer",
    (ASeq false [("rIMInformation", (false, (ARef "RIMInformation")));
      ("rIMRoutingAddress", (true, (ARef "RIMRoutingAddress")));
      ("iE-Extensions", (true, (ARef "IE-Extensions")))] []));
  ("RIMRoutingAddress",
    (AChoice true [("targetRNC-ID", (ARef "TargetRNC-ID"));
      ("gERAN-Cell-ID", (ARef "GERAN-Cell-ID"))] [("targeteNB-ID", (ARef "TargetENB-ID"))]));
  ("RNC-ID",
    (AInt (Some (Rng (Num (0)) (Num (4095)) false))));
  ("RNCTraceInformation",
    (ASeq false [("traceReference", (false, (ARef "TraceReference")));
      ("traceActivationIndicato", (false, (AEnum false ["activated"; "deactivated"] [])));
      ("equipmentsToBeTraced", (true, (ARef "EquipmentsToBeTraced")));
      ("iE-Extensions", (true, (ARef "IE-Extensions")))] []));
  ("RNSAPRelocationParameters",
    (ASeq true [("rabParmetersList", (true, (ARef "RABParametersList")));
      ("locationReporting", (true, (ARef "LocationReportingTransferInformation")));
      ("traceInformation", (true, (ARef "TraceInformation")));
      ("sourceSAI", (true, (ARef "SAI")));
      ("iE-Extensions", (true, (ARef "IE-Extensions")))] []));
  ("RRC-Container",
    (AOcts None));
  ("RTLoadValue",
    (AInt (Some (Rng (Num (0)) (Num (100)) false))));
  ("RSRVCC-HO-Indication",
    (AEnum true ["ps-only"] []));
  ("RSRVCC-Information",
    (ASeq true [("nonce", (false, (ABits (Some (Rng (Num (128)) (Num (128)) false)))));
      ("iMSInformation", (false, (AOcts (Some (Rng (Num (1)) (Cst "maxSizeOfIMSInfo") false)))));
      ("iE-Extensions", (true, (ARef "IE-Extensions")))] []));
  ("RSRVCC-Operation-Possible",
    (AEnum true ["rsrvcc-possible"] []));
  ("SAC",
    (AOcts (Some (Rng (Num (2)) (Num (2)) false))));
  ("SAI",
    (ASeq false [("pLMNidentity", (false, (ARef "PLMNidentity")));
      ("lAC", (false, (ARef "LAC")));
      ("sAC", (false, (ARef "SAC")));
      ("iE-Extensions", (true, (ARef "IE-Extensions")))] []));
  ("SAPI",
    (AEnum true ["sapi-0"; "sapi-3"] []));
  ("SessionUpdateID",
    (AInt (Some (Rng (Num (0)) (Num (1048575)) false))));
  ("Shared-Network-Information",
    (ASeq true [("pLMNs-in-shared-network", (false, (ARef "PLMNs-in-shared-network")));
      ("iE-Extensions", (true, (ARef "IE-Extensions")))] []));
  ("Session-Re-establishment-Indicator",
    (AEnum true ["true"] []));
  ("SignallingIndication",
    (AEnum true ["signalling"] []));
  ("SDU-ErrorRatio",
    (ASeq false [("mantissa", (false, (AInt (Some (Rng (Num (1)) (Num (9)) false)))));
      ("exponent", (false, (AInt (Some (Rng (Num (1)) (Num (6)) false)))));
      ("iE-Extensions", (true, (ARef "IE-Extensions")))] []));
  ("SDU-FormatInformationParameters",
    (ASeqOf (Some (Rng (Num (1)) (Cst "maxRAB-SubflowCombination") false)) (ARef "SDU-FormatInformationParameterItem")));
  ("SDU-FormatInformationParameterItem",
    (ASeq true [("subflowSDU-Size", (true, (ARef "SubflowSDU-Size")));
      ("rAB-SubflowCombinationBitRate", (true, (ARef "RAB-SubflowCombinationBitRate")));
      ("iE-Extensions", (true, (ARef "IE-Extensions")))] []));
  ("SDU-Parameters",
    (ASeqOf (Some (Rng (Num (1)) (Cst "maxRAB-Subflows") false)) (ARef "SDU-ParameterItem")));
  ("SDU-ParameterItem",
    (ASeq true [("sDU-ErrorRatio", (true, (ARef "SDU-ErrorRatio")));
      ("residualBitErrorRatio", (false, (ARef "ResidualBitErrorRatio")));
      ("deliveryOfErroneousSDU", (false, (ARef "DeliveryOfErroneousSDU")));
      ("sDU-FormatInformationParameters", (true, (ARef "SDU-FormatInformationParameters")));
      ("iE-Extensions", (true, (ARef "IE-Extensions")))] []));
  ("SNA-Access-Information",
    (ASeq true [("authorisedPLMNs", (false, (ARef "AuthorisedPLMNs")));
      ("iE-Extensions", (true, (ARef "IE-Extensions")))] []));
  ("SNAC",
    (AInt (Some (Rng (Num (0)) (Num (65535)) false))));
  ("Service-Handover",
    (AEnum true ["handover-to-GSM-should-be-performed"; "handover-to-GSM-should-not-be-performed"; "handover-to-GSM-shall-not-be-performed"] []));
  ("Source-ToTarget-TransparentContainer",
    (AOcts None));
  ("SourceeNodeB-ToTargeteNodeB-TransparentContainer",
    (AOcts None));
  ("SourceCellID",
    (AChoice true [("sourceUTRANCellID", (ARef "SourceUTRANCellID"));
      ("sourceGERANCellID", (ARef "CGI"))] []));
  ("SourceBSS-ToTargetBSS-TransparentContainer",
    (AOcts None));
  ("SourceID",
    (AChoice true [("sourceRNC-ID", (ARef "SourceRNC-ID"));
      ("sAI", (ARef "SAI"))] []));
  ("SourceRNC-ID",
    (ASeq false [("pLMNidentity", (false, (ARef "PLMNidentity")));
      ("rNC-ID", (false, (ARef "RNC-ID")));
      ("iE-Extensions", (true, (ARef "IE-Extensions")))] []));
  ("SourceRNC-ToTargetRNC-TransparentContainer",
    (ASeq true [("rRC-Container", (false, (ARef "RRC-Container")));
      ("numberOfIuInstances", (false, (ARef "NumberOfIuInstances")));
      ("relocationType", (false, (ARef "RelocationType")));
      ("chosenIntegrityProtectionAlgorithm", (true, (ARef "ChosenIntegrityProtectionAlgorithm")));
      ("integrityProtectionKey", (true, (ARef "IntegrityProtectionKey")));
      ("chosenEncryptionAlgorithForSignalling", (true, (ARef "ChosenEncryptionAlgorithm")));
      ("cipheringKey", (true, (ARef "EncryptionKey")));
      ("chosenEncryptionAlgorithForCS", (true, (ARef "ChosenEncryptionAlgorithm")));
      ("chosenEncryptionAlgorithForPS", (true, (ARef "ChosenEncryptionAlgorithm")));
      ("d-RNTI", (true, (ARef "D-RNTI")));
      ("targetCellId", (true, (ARef "TargetCellId")));
      ("rAB-TrCH-Mapping", (true, (ARef "RAB-TrCH-Mapping")));
      ("iE-Extensions", (true, (ARef "IE-Extensions")))] []));
  ("IRAT-Measurement-Configuration",
    (ASeq false [("rSRP", (true, (AInt (Some (Rng (Num (0)) (Num (97)) false)))));
      ("rSRQ", (true, (AInt (Some (Rng (Num (0)) (Num (34)) false)))));
      ("iRATmeasurementParameters", (false, (ARef "IRATmeasurementParameters")));
      ("iE-Extensions", (true, (ARef "IE-Extensions")))] []));
  ("IRATmeasurementParameters",
    (ASeq false [("measurementDuration", (false, (AInt (Some (Rng (Num (1)) (Num (100)) false)))));
      ("eUTRANFrequencies", (true, (ARef "EUTRANFrequencies")));
      ("iE-Extensions", (true, (ARef "IE-Extensions")))] []));
  ("RSRQ-Type",
    (ASeq false [("allSymbols", (false, ABool));
      ("wideBand", (false, ABool))] []));
  ("RSRQ-Extension",
    (AInt (Some (Rng (Num (-30)) (Num (46)) true))));
  ("EUTRANFrequencies",
    (ASeqOf (Some (Rng (Num (1)) (Cst "maxNrOfEUTRAFreqs") false)) (ARef "EUTRANFrequencies-Value")));
  ("EUTRANFrequencies-Value",
    (ASeq false [("earfcn", (false, (AInt (Some (Rng (Num (0)) (Num (65535)) false)))));
      ("measBand", (true, (ARef "MeasBand")));
      ("iE-Extensions", (true, (ARef "IE-Extensions")))] []));
  ("MeasBand",
    (AEnum false ["v6"; "v15"; "v25"; "v50"; "v75"; "v100"] []));
  ("SubscriberProfileIDforRFP",
    (AInt (Some (Rng (Num (1)) (Num (256)) false))));
  ("SourceStatisticsDescriptor",
    (AEnum true ["speech"; "unknown"] []));
  ("SupportedRAB-ParameterBitrateList",
    (ASeqOf (Some (Rng (Num (1)) (Cst "maxNrOfSeparateTrafficDirections") false)) (ARef "SupportedBitrate")));
  ("SupportedBitrate",
    (AInt (Some (Rng (Num (1)) (Num (1000000000)) true))));
  ("SourceUTRANCellID",
    (ASeq false [("pLMNidentity", (false, (ARef "PLMNidentity")));
      ("uTRANcellID", (false, (ARef "TargetCellId")));
      ("iE-Extensions", (true, (ARef "IE-Extensions")))] []));
  ("SRB-ID",
    (AInt (Some (Rng (Num (1)) (Num (32)) false))));
  ("SRB-TrCH-Mapping",
    (ASeqOf (Some (Rng (Num (1)) (Cst "maxNrOfSRBs") false)) (ARef "SRB-TrCH-MappingItem")));
  ("SRB-TrCH-MappingItem",
    (ASeq true [("sRB-ID", (false, (ARef "SRB-ID")));
      ("trCH-ID", (false, (ARef "TrCH-ID")));
      ("iE-Extensions", (true, (ARef "IE-Extensions")))] []));
  ("SRVCC-HO-Indication",
    (AEnum true ["ps-and-cs"; "cs-only"] []));
  ("SRVCC-Information",
    (ASeq true [("nonce", (false, (ABits (Some (Rng (Num (128)) (Num (128)) false)))));
      ("iE-Extensions", (true, (ARef "IE-Extensions")))] []));
  ("SRVCC-Operation-Possible",
    (AEnum true ["srvcc-possible"] []));
  ("SubflowSDU-Size",
    (AInt (Some (Rng (Num (0)) (Num (4095)) false))));
  ("TAC",
    (AOcts (Some (Rng (Num (2)) (Num (2)) false))));
  ("TAI",
    (ASeq false [("pLMNidentity", (false, (ARef "PLMNidentity")));
      ("tAC", (false, (ARef "TAC")));
      ("iE-Extensions", (true, (ARef "IE-Extensions")))] []));
  ("Target-ToSource-TransparentContainer",
    (AOcts None));
  ("TargeteNodeB-ToSourceeNodeB-TransparentContainer",
    (AOcts None));
  ("TargetBSS-ToSourceBSS-TransparentContainer",
    (AOcts None));
  ("TargetCellId",
    (AInt (Some (Rng (Num (0)) (Num (268435455)) false))));
  ("TargetID",
    (AChoice true [("targetRNC-ID", (ARef "TargetRNC-ID"));
      ("cGI", (ARef "CGI"))] [("targeteNB-ID", (ARef "TargetENB-ID"))]));
  ("TargetENB-ID",
    (ASeq true [("pLMNidentity", (false, (ARef "PLMNidentity")));
      ("eNB-ID", (false, (ARef "ENB-ID")));
      ("iE-Extensions", (true, (ARef "IE-Extensions")));
      ("selectedTAI", (false, (ARef "TAI")))] []));
  ("TargetRNC-ID",
    (ASeq false [("lAI", (false, (ARef "LAI")));
      ("rAC", (true, (ARef "RAC")));
      ("rNC-ID", (false, (ARef "RNC-ID")));
      ("iE-Extensions", (true, (ARef "IE-Extensions")))] []));
  ("TargetRNC-ToSourceRNC-TransparentContainer",
    (ASeq true [("rRC-Container", (false, (ARef "RRC-Container")));
      ("d-RNTI", (true, (ARef "D-RNTI")));
      ("iE-Extensions", (true, (ARef "IE-Extensions")))] []));
  ("TBCD-STRING",
    (AOcts None));
  ("TemporaryUE-ID",
    (AChoice true [("tMSI", (ARef "TMSI"));
      ("p-TMSI", (ARef "P-TMSI"))] []));
  ("Time-UE-StayedInCell",
    (AInt (Some (Rng (Num (0)) (Num (4095)) false))));
  ("Time-UE-StayedInCell-EnhancedGranularity",
    (AInt (Some (Rng (Num (0)) (Num (40950)) false))));
  ("TimeToMBMSDataTransfer",
    (AOcts (Some (Rng (Num (1)) (Num (1)) false))));
  ("TimingDifferenceULDL",
    (AOcts (Some (Rng (Num (1)) (Num (1)) false))));
  ("TMGI",
    (ASeq false [("pLMNidentity", (false, (ARef "PLMNidentity")));
      ("serviceID", (false, (AOcts (Some (Rng (Num (3)) (Num (3)) false)))));
      ("iE-Extensions", (true, (ARef "IE-Extensions")))] []));
  ("TMSI",
    (AOcts (Some (Rng (Num (4)) (Num (4)) false))));
  ("TraceDepth",
    (AEnum true ["minimum"; "medium"; "maximum"] []));
  ("TraceInformation",
    (ASeq true [("traceReference", (false, (ARef "TraceReference")));
      ("ue-identity", (false, (ARef "UE-ID")));
      ("tracePropagationParameters", (true, (ARef "TracePropagationParameters")));
      ("iE-Extensions", (true, (ARef "IE-Extensions")))] []));
  ("TracePropagationParameters",
    (ASeq true [("traceRecordingSessionReference", (false, (ARef "TraceRecordingSessionReference")));
      ("traceDepth", (false, (ARef "TraceDepth")));
      ("listOfInterfacesToTrace", (true, (ARef "ListOfInterfacesToTrace")));
      ("iE-Extensions", (true, (ARef "IE-Extensions")))] []));
  ("TraceRecordingSessionInformation",
    (ASeq true [("traceReference", (false, (ARef "TraceReference")));
      ("traceRecordingSessionReference", (false, (ARef "TraceRecordingSessionReference")));
      ("iE-Extensions", (true, (ARef "IE-Extensions")))] []));
  ("TraceRecordingSessionReference",
    (AInt (Some (Rng (Num (0)) (Num (65535)) false))));
  ("TraceReference",
    (AOcts (Some (Rng (Num (2)) (Num (3)) false))));
  ("TraceType",
    (AOcts (Some (Rng (Num (1)) (Num (1)) false))));
  ("TrafficClass",
    (AEnum true ["conversational"; "streaming"; "interactive"; "background"] []));
  ("TrafficHandlingPriority",
    (AInt (Some (Rng (Num (0)) (Num (15)) false))));
  ("TransferDelay",
    (AInt (Some (Rng (Num (0)) (Num (65535)) false))));
  ("UnsuccessfullyTransmittedDataVolume",
    (AInt (Some (Rng (Num (0)) (Num (4294967295)) false))));
  ("TransportLayerAddress",
    (ABits (Some (Rng (Num (1)) (Num (160)) true))));
  ("TrCH-ID",
    (ASeq true [("dCH-ID", (true, (ARef "DCH-ID")));
      ("dSCH-ID", (true, (ARef "DSCH-ID")));
      ("uSCH-ID", (true, (ARef "USCH-ID")));
      ("iE-Extensions", (true, (ARef "IE-Extensions")))] []));
  ("TrCH-ID-List",
    (ASeqOf (Some (Rng (Num (1)) (Cst "maxRAB-Subflows") false)) (ARef "TrCH-ID")));
  ("TriggerID",
    (AOcts (Some (Rng (Num (3)) (Num (22)) false))));
  ("TunnelInformation",
    (ASeq true [("transportLayerAddress", (false, (ARef "TransportLayerAddress")));
      ("uDP-Port-Number", (true, (ARef "Port-Number")));
      ("iE-Extensions", (true, (ARef "IE-Extensions")))] []));
  ("TypeOfError",
    (AEnum true ["not-understood"; "missing"] []));
  ("UE-AggregateMaximumBitRate",
    (ASeq true [("uE-AggregateMaximumBitRateDownlink", (true, (ARef "UE-AggregateMaximumBitRateDownlink")));
      ("uE-AggregateMaximumBitRateUplink", (true, (ARef "UE-AggregateMaximumBitRateUplink")))] []));
  ("UE-AggregateMaximumBitRateDownlink",
    (AInt (Some (Rng (Num (1)) (Num (1000000000)) false))));
  ("UE-AggregateMaximumBitRateUplink",
    (AInt (Some (Rng (Num (1)) (Num (1000000000)) false))));
  ("UE-History-Information",
    (AOcts None));
  ("UE-ID",
    (AChoice true [("imsi", (ARef "IMSI"));
      ("imei", (ARef "IMEI"))] [("imeisv", (ARef "IMEISV"))]));
  ("UESBI-Iu",
    (ASeq true [("uESBI-IuA", (true, (ARef "UESBI-IuA")));
      ("uESBI-IuB", (true, (ARef "UESBI-IuB")));
      ("iE-Extensions", (true, (ARef "IE-Extensions")))] []));
  ("UESBI-IuA",
    (ABits (Some (Rng (Num (1)) (Num (128)) false))));
  ("UESBI-IuB",
    (ABits (Some (Rng (Num (1)) (Num (128)) false))));
  ("UL-GTP-PDU-SequenceNumber",
    (AInt (Some (Rng (Num (0)) (Num (65535)) false))));
  ("UL-N-PDU-SequenceNumber",
    (AInt (Some (Rng (Num (0)) (Num (65535)) false))));
  ("UPInformation",
    (ASeq true [("frameSeqNoUL", (false, (ARef "FrameSequenceNumber")));
      ("frameSeqNoDL", (false, (ARef "FrameSequenceNumber")));
      ("pdu14FrameSeqNoUL", (false, (ARef "PDUType14FrameSequenceNumber")));
      ("pdu14FrameSeqNoDL", (false, (ARef "PDUType14FrameSequenceNumber")));
      ("dataPDUType", (false, (ARef "DataPDUType")));
      ("upinitialisationFrame", (false, (ARef "UPInitialisationFrame")));
      ("iE-Extensions", (true, (ARef "IE-Extensions")))] []));
  ("UPInitialisationFrame",
    (AOcts None));
  ("UP-ModeVersions",
    (ABits (Some (Rng (Num (16)) (Num (16)) false))));
  ("USCH-ID",
    (AInt (Some (Rng (Num (0)) (Num (255)) false))));
  ("UserPlaneMode",
    (AEnum true ["transparent-mode"; "support-mode-for-predefined-SDU-sizes"] []));
  ("UTRAN-CellID",
    (ASeq false [("pLMNidentity", (false, (ARef "PLMNidentity")));
      ("cellID", (false, (ARef "TargetCellId")));
      ("iE-Extensions", (true, (ARef "IE-Extensions")))] []));
  ("VelocityEstimate",
    (AChoice true [("horizontalVelocity", (ARef "HorizontalVelocity"));
      ("horizontalWithVerticalVelocity", (ARef "HorizontalWithVerticalVelocity"));
      ("horizontalVelocityWithUncertainty", (ARef "HorizontalVelocityWithUncertainty"));
      ("horizontalWithVeritcalVelocityAndUncertainty", (ARef "HorizontalWithVerticalVelocityAndUncertainty"))] []));
  ("HorizontalVelocity",
    (ASeq true [("horizontalSpeedAndBearing", (false, (ARef "HorizontalSpeedAndBearing")));
      ("iE-Extensions", (true, (ARef "IE-Extensions")))] []));
  ("HorizontalWithVerticalVelocity",
    (ASeq true [("horizontalSpeedAndBearing", (false, (ARef "HorizontalSpeedAndBearing")));
      ("veritcalVelocity", (false, (ARef "VerticalVelocity")));
      ("iE-Extensions", (true, (ARef "IE-Extensions")))] []));
  ("HorizontalVelocityWithUncertainty",
    (ASeq true [("horizontalSpeedAndBearing", (false, (ARef "HorizontalSpeedAndBearing")));
      ("uncertaintySpeed", (false, (AInt (Some (Rng (Num (0)) (Num (255)) false)))));
      ("iE-Extensions", (true, (ARef "IE-Extensions")))] []));
  ("HorizontalWithVerticalVelocityAndUncertainty",
    (ASeq true [("horizontalSpeedAndBearing", (false, (ARef "HorizontalSpeedAndBearing")));
      ("veritcalVelocity", (false, (ARef "VerticalVelocity")));
      ("horizontalUncertaintySpeed", (false, (AInt (Some (Rng (Num (0)) (Num (255)) false)))));
      ("verticalUncertaintySpeed", (false, (AInt (Some (Rng (Num (0)) (Num (255)) false)))));
      ("iE-Extensions", (true, (ARef "IE-Extensions")))] []));
  ("HorizontalSpeedAndBearing",
    (ASeq false [("bearing", (false, (AInt (Some (Rng (Num (0)) (Num (359)) false)))));
      ("horizontalSpeed", (false, (AInt (Some (Rng (Num (0)) (Num (2047)) false)))))] []));
  ("VerticalVelocity",
    (ASeq false [("veritcalSpeed", (false, (AInt (Some (Rng (Num (0)) (Num (255)) false)))));
      ("veritcalSpeedDirection", (false, (ARef "VerticalSpeedDirection")))] []));
  ("VerticalSpeedDirection",
    (AEnum false ["upward"; "downward"] []));
  ("VerticalAccuracyCode",
    (AInt (Some (Rng (Num (0)) (Num (127)) false))));
  ("VoiceSupportMatchIndicator",
    (AEnum true ["supported"; "not-supported"] [])) ].
(* the type assignments of asn1/ranap/RANAP-PDU.asn *)
Definition ranap_compiled : list (string * asn) := [
  ("RANAP-PDU",
    (AChoice true [("initiatingMessage", (ARef "InitiatingMessage"));
      ("successfulOutcome", (ARef "SuccessfulOutcome"));
      ("unsuccessfulOutcome", (ARef "UnsuccessfulOutcome"));
      ("outcome", (ARef "Outcome"))] []));
  ("InitiatingMessage",
    (ASeq false [("procedureCode", (false, (ARef "ProcedureCode")));
      ("criticality", (false, (ARef "Criticality")));
      ("value", (false, AAny))] []));
  ("SuccessfulOutcome",
    (ASeq false [("procedureCode", (false, (ARef "ProcedureCode")));
      ("criticality", (false, (ARef "Criticality")));
      ("value", (false, AAny))] []));
  ("UnsuccessfulOutcome",
    (ASeq false [("procedureCode", (false, (ARef "ProcedureCode")));
      ("criticality", (false, (ARef "Criticality")));
      ("value", (false, AAny))] []));
  ("Outcome",
    (ASeq false [("procedureCode", (false, (ARef "ProcedureCode")));
      ("criticality", (false, (ARef "Criticality")));
      ("value", (false, AAny))] []));
  ("Iu-ReleaseCommand",
    (ASeq true [("iu-ReleaseCommand-ies", (false, (ASeqOf (Some (Rng (Num (0)) (Cst "maxProtocolIEs") false)) (ARef "IE"))))] []));
  ("Iu-ReleaseComplete",
    (ASeq true [("iu-ReleaseComplete-ies", (false, (ASeqOf (Some (Rng (Num (0)) (Cst "maxProtocolIEs") false)) (ARef "IE"))))] []));
  ("RelocationRequired",
    (ASeq true [("relocationRequired-ies", (false, (ASeqOf (Some (Rng (Num (0)) (Cst "maxProtocolIEs") false)) (ARef "IE"))))] []));
  ("RelocationCommand",
    (ASeq true [("relocationCommand-ies", (false, (ASeqOf (Some (Rng (Num (0)) (Cst "maxProtocolIEs") false)) (ARef "IE"))))] []));
  ("RelocationPreparationFailure",
    (ASeq true [("relocationPreparationFailure-ies", (false, (ASeqOf (Some (Rng (Num (0)) (Cst "maxProtocolIEs") false)) (ARef "IE"))))] []));
  ("RelocationRequest",
    (ASeq true [("relocationRequest-ies", (false, (ASeqOf (Some (Rng (Num (0)) (Cst "maxProtocolIEs") false)) (ARef "IE"))))] []));
  ("RelocationRequestAcknowledge",
    (ASeq true [("relocationRequestAcknowledge-ies", (false, (ASeqOf (Some (Rng (Num (0)) (Cst "maxProtocolIEs") false)) (ARef "IE"))))] []));
  ("RelocationFailure",
    (ASeq true [("relocationFailure-ies", (false, (ASeqOf (Some (Rng (Num (0)) (Cst "maxProtocolIEs") false)) (ARef "IE"))))] []));
  ("RelocationCancel",
    (ASeq true [("relocationCancel-ies", (false, (ASeqOf (Some (Rng (Num (0)) (Cst "maxProtocolIEs") false)) (ARef "IE"))))] []));
  ("RelocationCancelAcknowledge",
    (ASeq true [("relocationCancelAcknowledge-ies", (false, (ASeqOf (Some (Rng (Num (0)) (Cst "maxProtocolIEs") false)) (ARef "IE"))))] []));
  ("SRNS-ContextRequest",
    (ASeq true [("srnS-ContextRequest-ies", (false, (ASeqOf (Some (Rng (Num (0)) (Cst "maxProtocolIEs") false)) (ARef "IE"))))] []));
  ("RAB-DataForwardingList-SRNS-CtxReq",
    (ASeq true [("raB-DataForwardingList-SRNS-CtxReq-ies", (false, (ASeqOf (Some (Rng (Num (0)) (Cst "maxProtocolIEs") false)) (ARef "IE"))))] []));
  ("DataVolumeReportRequest",
    (ASeq true [("dataVolumeReportRequest-ies", (false, (ASeqOf (Some (Rng (Num (0)) (Cst "maxProtocolIEs") false)) (ARef "IE"))))] []));
  ("SRNS-ContextResponse",
    (ASeq true [("srnS-ContextResponse-ies", (false, (ASeqOf (Some (Rng (Num (0)) (Cst "maxProtocolIEs") false)) (ARef "IE"))))] []));
  ("SecurityModeCommand",
    (ASeq true [("securityModeCommand-ies", (false, (ASeqOf (Some (Rng (Num (0)) (Cst "maxProtocolIEs") false)) (ARef "IE"))))] []));
  ("SecurityModeComplete",
    (ASeq true [("securityModeComplete-ies", (false, (ASeqOf (Some (Rng (Num (0)) (Cst "maxProtocolIEs") false)) (ARef "IE"))))] []));
  ("SecurityModeReject",
    (ASeq true [("securityModeReject-ies", (false, (ASeqOf (Some (Rng (Num (0)) (Cst "maxProtocolIEs") false)) (ARef "IE"))))] []));
  ("DataVolumeReport",
    (ASeq true [("dataVolumeReport-ies", (false, (ASeqOf (Some (Rng (Num (0)) (Cst "maxProtocolIEs") false)) (ARef "IE"))))] []));
  ("Reset",
    (ASeq true [("reset-ies", (false, (ASeqOf (Some (Rng (Num (0)) (Cst "maxProtocolIEs") false)) (ARef "IE"))))] []));
  ("ResetAcknowledge",
    (ASeq true [("resetAcknowledge-ies", (false, (ASeqOf (Some (Rng (Num (0)) (Cst "maxProtocolIEs") false)) (ARef "IE"))))] []));
  ("RAB-ReleaseRequest",
    (ASeq true [("raB-ReleaseRequest-ies", (false, (ASeqOf (Some (Rng (Num (0)) (Cst "maxProtocolIEs") false)) (ARef "IE"))))] []));
  ("RedirectionIndication",
    (ASeq true [("redirectionIndication-ies", (false, (ASeqOf (Some (Rng (Num (0)) (Cst "maxProtocolIEs") false)) (ARef "IE"))))] []));
  ("RAB-ReleaseList",
    (ASeq true [("raB-ReleaseList-ies", (false, (ASeqOf (Some (Rng (Num (0)) (Cst "maxProtocolIEs") false)) (ARef "IE"))))] []));
  ("Iu-ReleaseRequest",
    (ASeq true [("iu-ReleaseRequest-ies", (false, (ASeqOf (Some (Rng (Num (0)) (Cst "maxProtocolIEs") false)) (ARef "IE"))))] []));
  ("RelocationDetect",
    (ASeq true [("relocationDetect-ies", (false, (ASeqOf (Some (Rng (Num (0)) (Cst "maxProtocolIEs") false)) (ARef "IE"))))] []));
  ("RelocationComplete",
    (ASeq true [("relocationComplete-ies", (false, (ASeqOf (Some (Rng (Num (0)) (Cst "maxProtocolIEs") false)) (ARef "IE"))))] []));
  ("Paging",
    (ASeq true [("paging-ies", (false, (ASeqOf (Some (Rng (Num (0)) (Cst "maxProtocolIEs") false)) (ARef "IE"))))] []));
  ("CommonID",
    (ASeq true [("commonID-ies", (false, (ASeqOf (Some (Rng (Num (0)) (Cst "maxProtocolIEs") false)) (ARef "IE"))))] []));
  ("CN-InvokeTrace",
    (ASeq true [("cN-InvokeTrace-ies", (false, (ASeqOf (Some (Rng (Num (0)) (Cst "maxProtocolIEs") false)) (ARef "IE"))))] []));
  ("CN-DeactivateTrace",
    (ASeq true [("cN-DeactivateTrace-ies", (false, (ASeqOf (Some (Rng (Num (0)) (Cst "maxProtocolIEs") false)) (ARef "IE"))))] []));
  ("LocationReportingControl",
    (ASeq true [("locationReportingControl-ies", (false, (ASeqOf (Some (Rng (Num (0)) (Cst "maxProtocolIEs") false)) (ARef "IE"))))] []));
  ("LocationReport",
    (ASeq true [("locationReport-ies", (false, (ASeqOf (Some (Rng (Num (0)) (Cst "maxProtocolIEs") false)) (ARef "IE"))))] []));
  ("InitialUE-Message",
    (ASeq true [("initialUE-Message-ies", (false, (ASeqOf (Some (Rng (Num (0)) (Cst "maxProtocolIEs") false)) (ARef "IE"))))] []));
  ("DirectTransfer",
    (ASeq true [("directTransfer-ies", (false, (ASeqOf (Some (Rng (Num (0)) (Cst "maxProtocolIEs") false)) (ARef "IE"))))] []));
  ("Overload",
    (ASeq true [("overload-ies", (false, (ASeqOf (Some (Rng (Num (0)) (Cst "maxProtocolIEs") false)) (ARef "IE"))))] []));
  ("ErrorIndication",
    (ASeq true [("errorIndication-ies", (false, (ASeqOf (Some (Rng (Num (0)) (Cst "maxProtocolIEs") false)) (ARef "IE"))))] []));
  ("SRNS-DataForwardCommand",
    (ASeq true [("srnS-DataForwardCommand-ies", (false, (ASeqOf (Some (Rng (Num (0)) (Cst "maxProtocolIEs") false)) (ARef "IE"))))] []));
  ("ForwardSRNS-Context",
    (ASeq true [("forwardSRNS-Context-ies", (false, (ASeqOf (Some (Rng (Num (0)) (Cst "maxProtocolIEs") false)) (ARef "IE"))))] []));
  ("RAB-AssignmentRequest",
    (ASeq true [("raB-AssignmentRequest-ies", (false, (ASeqOf (Some (Rng (Num (0)) (Cst "maxProtocolIEs") false)) (ARef "IE"))))] []));
  ("RAB-SetupOrModifyList",
    (ARef "RAB-IE-ContainerPairList"));
  ("RAB-AssignmentResponse",
    (ASeq true [("raB-AssignmentResponse-ies", (false, (ASeqOf (Some (Rng (Num (0)) (Cst "maxProtocolIEs") false)) (ARef "IE"))))] []));
  ("PrivateMessage",
    (ASeq true [("privateMessage-ies", (false, (ASeqOf (Some (Rng (Num (0)) (Cst "maxProtocolIEs") false)) (ARef "IE"))))] []));
  ("ResetResource",
    (ASeq true [("resetResource-ies", (false, (ASeqOf (Some (Rng (Num (0)) (Cst "maxProtocolIEs") false)) (ARef "IE"))))] []));
  ("ResetResourceAcknowledge",
    (ASeq true [("resetResourceAcknowledge-ies", (false, (ASeqOf (Some (Rng (Num (0)) (Cst "maxProtocolIEs") false)) (ARef "IE"))))] []));
  ("RANAP-RelocationInformation",
    (ASeq true [("ranaP-RelocationInformation-ies", (false, (ASeqOf (Some (Rng (Num (0)) (Cst "maxProtocolIEs") false)) (ARef "IE"))))] []));
  ("RAB-ModifyRequest",
    (ASeq true [("raB-ModifyRequest-ies", (false, (ASeqOf (Some (Rng (Num (0)) (Cst "maxProtocolIEs") false)) (ARef "IE"))))] []));
  ("LocationRelatedDataRequest",
    (ASeq true [("locationRelatedDataRequest-ies", (false, (ASeqOf (Some (Rng (Num (0)) (Cst "maxProtocolIEs") false)) (ARef "IE"))))] []));
  ("LocationRelatedDataResponse",
    (ASeq true [("locationRelatedDataResponse-ies", (false, (ASeqOf (Some (Rng (Num (0)) (Cst "maxProtocolIEs") false)) (ARef "IE"))))] []));
  ("LocationRelatedDataFailure",
    (ASeq true [("locationRelatedDataFailure-ies", (false, (ASeqOf (Some (Rng (Num (0)) (Cst "maxProtocolIEs") false)) (ARef "IE"))))] []));
  ("InformationTransferIndication",
    (ASeq true [("informationTransferIndication-ies", (false, (ASeqOf (Some (Rng (Num (0)) (Cst "maxProtocolIEs") false)) (ARef "IE"))))] []));
  ("InformationTransferConfirmation",
    (ASeq true [("informationTransferConfirmation-ies", (false, (ASeqOf (Some (Rng (Num (0)) (Cst "maxProtocolIEs") false)) (ARef "IE"))))] []));
  ("InformationTransferFailure",
    (ASeq true [("informationTransferFailure-ies", (false, (ASeqOf (Some (Rng (Num (0)) (Cst "maxProtocolIEs") false)) (ARef "IE"))))] []));
  ("UESpecificInformationIndication",
    (ASeq true [("ueSpecificInformationIndication-ies", (false, (ASeqOf (Some (Rng (Num (0)) (Cst "maxProtocolIEs") false)) (ARef "IE"))))] []));
  ("DirectInformationTransfer",
    (ASeq true [("directInformationTransfer-ies", (false, (ASeqOf (Some (Rng (Num (0)) (Cst "maxProtocolIEs") false)) (ARef "IE"))))] []));
  ("UplinkInformationExchangeRequest",
    (ASeq true [("uplinkInformationExchangeRequest-ies", (false, (ASeqOf (Some (Rng (Num (0)) (Cst "maxProtocolIEs") false)) (ARef "IE"))))] []));
  ("UplinkInformationExchangeResponse",
    (ASeq true [("uplinkInformationExchangeResponse-ies", (false, (ASeqOf (Some (Rng (Num (0)) (Cst "maxProtocolIEs") false)) (ARef "IE"))))] []));
  ("UplinkInformationExchangeFailure",
    (ASeq true [("uplinkInformationExchangeFailure-ies", (false, (ASeqOf (Some (Rng (Num (0)) (Cst "maxProtocolIEs") false)) (ARef "IE"))))] []));
  ("MBMSSessionStart",
    (ASeq true [("mbmsSessionStart-ies", (false, (ASeqOf (Some (Rng (Num (0)) (Cst "maxProtocolIEs") false)) (ARef "IE"))))] []));
  ("MBMSSessionStartResponse",
    (ASeq true [("mbmsSessionStartResponse-ies", (false, (ASeqOf (Some (Rng (Num (0)) (Cst "maxProtocolIEs") false)) (ARef "IE"))))] []));
  ("MBMSSessionStartFailure",
    (ASeq true [("mbmsSessionStartFailure-ies", (false, (ASeqOf (Some (Rng (Num (0)) (Cst "maxProtocolIEs") false)) (ARef "IE"))))] []));
  ("MBMSSessionUpdate",
    (ASeq true [("mbmsSessionUpdate-ies", (false, (ASeqOf (Some (Rng (Num (0)) (Cst "maxProtocolIEs") false)) (ARef "IE"))))] []));
  ("MBMSSessionUpdateResponse",
    (ASeq true [("mbmsSessionUpdateResponse-ies", (false, (ASeqOf (Some (Rng (Num (0)) (Cst "maxProtocolIEs") false)) (ARef "IE"))))] []));
  ("MBMSSessionUpdateFailure",
    (ASeq true [("mbmsSessionUpdateFailure-ies", (false, (ASeqOf (Some (Rng (Num (0)) (Cst "maxProtocolIEs") false)) (ARef "IE"))))] []));
  ("MBMSSessionStop",
    (ASeq true [("mbmsSessionStop-ies", (false, (ASeqOf (Some (Rng (Num (0)) (Cst "maxProtocolIEs") false)) (ARef "IE"))))] []));
  ("MBMSSessionStopResponse",
    (ASeq true [("mbmsSessionStopResponse-ies", (false, (ASeqOf (Some (Rng (Num (0)) (Cst "maxProtocolIEs") false)) (ARef "IE"))))] []));
  ("MBMSUELinkingRequest",
    (ASeq true [("mbmsueLinkingRequest-ies", (false, (ASeqOf (Some (Rng (Num (0)) (Cst "maxProtocolIEs") false)) (ARef "IE"))))] []));
  ("MBMSUELinkingResponse",
    (ASeq true [("mbmsueLinkingResponse-ies", (false, (ASeqOf (Some (Rng (Num (0)) (Cst "maxProtocolIEs") false)) (ARef "IE"))))] []));
  ("MBMSRegistrationRequest",
    (ASeq true [("mbmsRegistrationRequest-ies", (false, (ASeqOf (Some (Rng (Num (0)) (Cst "maxProtocolIEs") false)) (ARef "IE"))))] []));
  ("MBMSRegistrationResponse",
    (ASeq true [("mbmsRegistrationResponse-ies", (false, (ASeqOf (Some (Rng (Num (0)) (Cst "maxProtocolIEs") false)) (ARef "IE"))))] []));
  ("MBMSRegistrationFailure",
    (ASeq true [("mbmsRegistrationFailure-ies", (false, (ASeqOf (Some (Rng (Num (0)) (Cst "maxProtocolIEs") false)) (ARef "IE"))))] []));
  ("MBMSCNDe-RegistrationRequest",
    (ASeq true [("mbmscnDe-RegistrationRequest-ies", (false, (ASeqOf (Some (Rng (Num (0)) (Cst "maxProtocolIEs") false)) (ARef "IE"))))] []));
  ("MBMSCNDe-RegistrationResponse",
    (ASeq true [("mbmscnDe-RegistrationResponse-ies", (false, (ASeqOf (Some (Rng (Num (0)) (Cst "maxProtocolIEs") false)) (ARef "IE"))))] []));
  ("MBMSRABEstablishmentIndication",
    (ASeq true [("mbmsrabEstablishmentIndication-ies", (false, (ASeqOf (Some (Rng (Num (0)) (Cst "maxProtocolIEs") false)) (ARef "IE"))))] []));
  ("MBMSRABReleaseRequest",
    (ASeq true [("mbmsrabReleaseRequest-ies", (false, (ASeqOf (Some (Rng (Num (0)) (Cst "maxProtocolIEs") false)) (ARef "IE"))))] []));
  ("MBMSRABRelease",
    (ASeq true [("mbmsrabRelease-ies", (false, (ASeqOf (Some (Rng (Num (0)) (Cst "maxProtocolIEs") false)) (ARef "IE"))))] []));
  ("MBMSRABReleaseFailure",
    (ASeq true [("mbmsrabReleaseFailure-ies", (false, (ASeqOf (Some (Rng (Num (0)) (Cst "maxProtocolIEs") false)) (ARef "IE"))))] []));
  ("EnhancedRelocationCompleteRequest",
    (ASeq true [("enhancedRelocationCompleteRequest-ies", (false, (ASeqOf (Some (Rng (Num (0)) (Cst "maxProtocolIEs") false)) (ARef "IE"))))] []));
  ("EnhancedRelocationCompleteResponse",
    (ASeq true [("enhancedRelocationCompleteResponse-ies", (false, (ASeqOf (Some (Rng (Num (0)) (Cst "maxProtocolIEs") false)) (ARef "IE"))))] []));
  ("EnhancedRelocationCompleteFailure",
    (ASeq true [("enhancedRelocationCompleteFailure-ies", (false, (ASeqOf (Some (Rng (Num (0)) (Cst "maxProtocolIEs") false)) (ARef "IE"))))] []));
  ("EnhancedRelocationCompleteConfirm",
    (ASeq true [("enhancedRelocationCompleteConfirm-ies", (false, (ASeqOf (Some (Rng (Num (0)) (Cst "maxProtocolIEs") false)) (ARef "IE"))))] []));
  ("RANAP-EnhancedRelocationInformationRequest",
    (ASeq true [("ranaP-EnhancedRelocationInformationRequest-ies", (false, (ASeqOf (Some (Rng (Num (0)) (Cst "maxProtocolIEs") false)) (ARef "IE"))))] []));
  ("RANAP-EnhancedRelocationInformationResponse",
    (ASeq true [("ranaP-EnhancedRelocationInformationResponse-ies", (false, (ASeqOf (Some (Rng (Num (0)) (Cst "maxProtocolIEs") false)) (ARef "IE"))))] []));
  ("SRVCC-CSKeysRequest",
    (ASeq true [("srvcC-CSKeysRequest-ies", (false, (ASeqOf (Some (Rng (Num (0)) (Cst "maxProtocolIEs") false)) (ARef "IE"))))] []));
  ("SRVCC-CSKeysResponse",
    (ASeq true [("srvcC-CSKeysResponse-ies", (false, (ASeqOf (Some (Rng (Num (0)) (Cst "maxProtocolIEs") false)) (ARef "IE"))))] []));
  ("UeRadioCapabilityMatchRequest",
    (ASeq true [("ueRadioCapabilityMatchRequest-ies", (false, (ASeqOf (Some (Rng (Num (0)) (Cst "maxProtocolIEs") false)) (ARef "IE"))))] []));
  ("UeRadioCapabilityMatchResponse",
    (ASeq true [("ueRadioCapabilityMatchResponse-ies", (false, (ASeqOf (Some (Rng (Num (0)) (Cst "maxProtocolIEs") false)) (ARef "IE"))))] []));
  ("ProtocolExtensionContainer",
    (ASeqOf (Some (Rng (Num (1)) (Cst "maxProtocolExtensions") false)) (ARef "ProtocolExtensionField")));
  ("ProtocolExtensionField",
    (ASeq false [("id", (false, (ARef "ProtocolIE-ID")));
      ("criticality", (false, (ARef "Criticality")));
      ("value", (false, AAny))] []));
  ("IE",
    (ASeq false [("id", (false, (ARef "ProtocolIE-ID")));
      ("criticality", (false, (ARef "Criticality")));
      ("value", (false, AAny))] []));
  ("ProtocolIE-Container",
    (ASeqOf (Some (Rng (Num (0)) (Cst "maxProtocolIEs") false)) (ARef "IE")));
  ("ProtocolIE-FieldPair",
    (ASeq false [("id", (false, (ARef "ProtocolIE-ID")));
      ("firstCriticality", (false, (ARef "Criticality")));
      ("firstValue", (false, AAny));
      ("secondCriticality", (false, (ARef "Criticality")));
      ("secondValue", (false, AAny))] []));
  ("ProtocolIE-ContainerPair",
    (ASeqOf (Some (Rng (Num (0)) (Cst "maxProtocolIEs") false)) (ARef "ProtocolIE-FieldPair")));
  ("RAB-IE-ContainerList",
    (ASeqOf (Some (Rng (Num (1)) (Cst "maxNrOfRABs") false)) (ARef "ProtocolIE-Container")));
  ("RAB-IE-ContainerPairList",
    (ASeqOf (Some (Rng (Num (1)) (Cst "maxNrOfRABs") false)) (ARef "ProtocolIE-ContainerPair")));
  ("ProtocolError-IE-ContainerList",
    (ASeqOf (Some (Rng (Num (1)) (Cst "maxNrOfRABs") false)) (ARef "ProtocolIE-Container")));
  ("IuSigConId-IE-ContainerList",
    (ASeqOf (Some (Rng (Num (1)) (Cst "maxNrOfIuSigConIds") false)) (ARef "ProtocolIE-Container")));
  ("DirectTransfer-IE-ContainerList",
    (ASeqOf (Some (Rng (Num (1)) (Cst "maxNrOfDTs") false)) (ARef "ProtocolIE-Container")));
  ("DataVolumeReportList",
    (ASeq true [("dataVolumeReportListe-ies", (false, (ASeqOf (Some (Rng (Num (0)) (Cst "maxProtocolIEs") false)) (ARef "IE"))))] []));
  ("RAB-ReleasedList-IuRelComp",
    (ASeq true [("raB-ReleasedList-IuRelComp-ies", (false, (ASeqOf (Some (Rng (Num (0)) (Cst "maxProtocolIEs") false)) (ARef "IE"))))] []));
  ("RAB-RelocationReleaseList",
    (ASeq true [("raB-RelocationReleaseList-ies", (false, (ASeqOf (Some (Rng (Num (0)) (Cst "maxProtocolIEs") false)) (ARef "IE"))))] []));
  ("RAB-DataForwardingList",
    (ASeq true [("raB-DataForwardingList-ies", (false, (ASeqOf (Some (Rng (Num (0)) (Cst "maxProtocolIEs") false)) (ARef "IE"))))] []));
  ("RAB-SetupList-RelocReq",
    (ASeq true [("raB-SetupList-RelocReq-ies", (false, (ASeqOf (Some (Rng (Num (0)) (Cst "maxProtocolIEs") false)) (ARef "IE"))))] []));
  ("RAB-SetupList-RelocReqAck",
    (ASeq true [("raB-SetupList-RelocReqAck-ies", (false, (ASeqOf (Some (Rng (Num (0)) (Cst "maxProtocolIEs") false)) (ARef "IE"))))] []));
  ("RAB-FailedList",
    (ASeq true [("raB-FailedList-ies", (false, (ASeqOf (Some (Rng (Num (0)) (Cst "maxProtocolIEs") false)) (ARef "IE"))))] []));
  ("RAB-ContextList",
    (ASeq true [("raB-ContextList-ies", (false, (ASeqOf (Some (Rng (Num (0)) (Cst "maxProtocolIEs") false)) (ARef "IE"))))] []));
  ("RABs-ContextFailedtoTransferList",
    (ASeq true [("raBs-ContextFailedtoTransferList-ies", (false, (ASeqOf (Some (Rng (Num (0)) (Cst "maxProtocolIEs") false)) (ARef "IE"))))] []));
  ("RAB-DataVolumeReportRequestList",
    (ASeq true [("raB-DataVolumeReportRequestList-ies", (false, (ASeqOf (Some (Rng (Num (0)) (Cst "maxProtocolIEs") false)) (ARef "IE"))))] []));
  ("RAB-DataVolumeReportRequestItem",
    (ASeq true [("rAB-ID", (false, (ARef "RAB-ID")));
      ("iE-Extensions", (true, (ARef "ProtocolExtensionContainer")))] []));
  ("RABs-failed-to-reportList",
    (ASeq true [("raBs-failed-to-reportList-ies", (false, (ASeqOf (Some (Rng (Num (0)) (Cst "maxProtocolIEs") false)) (ARef "IE"))))] []));
  ("RAB-SetupList-EnhancedRelocCompleteReq",
    (ASeq true [("raB-SetupList-EnhancedRelocCompleteReq-ies", (false, (ASeqOf (Some (Rng (Num (0)) (Cst "maxProtocolIEs") false)) (ARef "IE"))))] []));
  ("RAB-SetupList-EnhancedRelocCompleteRes",
    (ASeq true [("raB-SetupList-EnhancedRelocCompleteRes-ies", (false, (ASeqOf (Some (Rng (Num (0)) (Cst "maxProtocolIEs") false)) (ARef "IE"))))] []));
  ("RAB-ToBeReleasedList-EnhancedRelocCompleteRes",
    (ASeq true [("raB-ToBeReleasedList-EnhancedRelocCompleteRes-ies", (false, (ASeqOf (Some (Rng (Num (0)) (Cst "maxProtocolIEs") false)) (ARef "IE"))))] []));
  ("RAB-SetupOrModifiedList",
    (ASeq true [("raB-SetupOrModifiedList-ies", (false, (ASeqOf (Some (Rng (Num (0)) (Cst "maxProtocolIEs") false)) (ARef "IE"))))] []));
  ("RAB-ReleasedList",
    (ASeq true [("raB-ReleasedList-ies", (false, (ASeqOf (Some (Rng (Num (0)) (Cst "maxProtocolIEs") false)) (ARef "IE"))))] []));
  ("RAB-QueuedList",
    (ASeq true [("raB-QueuedList-ies", (false, (ASeqOf (Some (Rng (Num (0)) (Cst "maxProtocolIEs") false)) (ARef "IE"))))] []));
  ("RAB-ContextList-RANAP-RelocInf",
    (ASeq true [("raB-ContextList-RANAP-RelocInf-ies", (false, (ASeqOf (Some (Rng (Num (0)) (Cst "maxProtocolIEs") false)) (ARef "IE"))))] []));
  ("RAB-SetupList-EnhRelocInfoReq",
    (ASeq true [("raB-SetupList-EnhRelocInfoReq-ies", (false, (ASeqOf (Some (Rng (Num (0)) (Cst "maxProtocolIEs") false)) (ARef "IE"))))] []));
  ("RAB-SetupList-EnhRelocInfoRes",
    (ASeq true [("raB-SetupList-EnhRelocInfoRes-ies", (false, (ASeqOf (Some (Rng (Num (0)) (Cst "maxProtocolIEs") false)) (ARef "IE"))))] []));
  ("RAB-FailedList-EnhRelocInfoRes",
    (ASeq true [("raB-FailedList-EnhRelocInfoRes-ies", (false, (ASeqOf (Some (Rng (Num (0)) (Cst "maxProtocolIEs") false)) (ARef "IE"))))] []));
  ("RAB-ModifyList",
    (ASeq true [("raB-ModifyList-ies", (false, (ASeqOf (Some (Rng (Num (0)) (Cst "maxProtocolIEs") false)) (ARef "IE"))))] []));
  ("RAB-DataVolumeReportList",
    (ASeq true [("raB-DataVolumeReportList-ies", (false, (ASeqOf (Some (Rng (Num (0)) (Cst "maxProtocolIEs") false)) (ARef "IE"))))] []));
  ("RAB-DataVolumeReportItem",
    (ASeq true [("rAB-ID", (false, (ARef "RAB-ID")));
      ("dl-UnsuccessfullyTransmittedDataVolume", (true, (ARef "DataVolumeList")));
      ("iE-Extensions", (true, (ARef "ProtocolExtensionContainer")))] []));
  ("RAB-ReleasedItem-IuRelComp",
    (ASeq true [("rAB-ID", (false, (ARef "RAB-ID")));
      ("dL-GTP-PDU-SequenceNumber", (true, (ARef "DL-GTP-PDU-SequenceNumber")));
      ("uL-GTP-PDU-SequenceNumber", (true, (ARef "UL-GTP-PDU-SequenceNumber")));
      ("iE-Extensions", (true, (ARef "ProtocolExtensionContainer")))] []));
  ("RAB-RelocationReleaseItem",
    (ASeq true [("rAB-ID", (false, (ARef "RAB-ID")));
      ("iE-Extensions", (true, (ARef "ProtocolExtensionContainer")))] []));
  ("RAB-DataForwardingItem",
    (ASeq true [("rAB-ID", (false, (ARef "RAB-ID")));
      ("transportLayerAddress", (false, (ARef "TransportLayerAddress")));
      ("iuTransportAssociation", (false, (ARef "IuTransportAssociation")));
      ("iE-Extensions", (true, (ARef "ProtocolExtensionContainer")))] []));
  ("RAB-DataForwardingItem-SRNS-CtxReq",
    (ASeq true [("rAB-ID", (false, (ARef "RAB-ID")));
      ("iE-Extensions", (true, (ARef "ProtocolExtensionContainer")))] []));
  ("RAB-SetupItem-RelocReq",
    (ASeq true [("rAB-ID", (false, (ARef "RAB-ID")));
      ("nAS-SynchronisationIndicator", (true, (ARef "NAS-SynchronisationIndicator")));
      ("rAB-Parameters", (false, (ARef "RAB-Parameters")));
      ("dataVolumeReportingIndication", (true, (ARef "DataVolumeReportingIndication")));
      ("pDP-TypeInformation", (true, (ARef "PDP-TypeInformation")));
      ("userPlaneInformation", (false, (ARef "UserPlaneInformation")));
      ("transportLayerAddress", (false, (ARef "TransportLayerAddress")));
      ("iuTransportAssociation", (false, (ARef "IuTransportAssociation")));
      ("service-Handover", (true, (ARef "Service-Handover")));
      ("iE-Extensions", (true, (ARef "ProtocolExtensionContainer")))] []));
  ("UserPlaneInformation",
    (ASeq true [("userPlaneMode", (false, (ARef "UserPlaneMode")));
      ("uP-ModeVersions", (false, (ARef "UP-ModeVersions")));
      ("iE-Extensions", (true, (ARef "ProtocolExtensionContainer")))] []));
  ("CNMBMSLinkingInformation",
    (ASeq true [("joinedMBMSBearerService-IEs", (false, (ARef "JoinedMBMSBearerService-IEs")));
      ("iE-Extensions", (true, (ARef "ProtocolExtensionContainer")))] []));
  ("JoinedMBMSBearerService-IEs",
    (ASeqOf (Some (Rng (Num (1)) (Cst "maxnoofMulticastServicesPerUE") false)) (ARef "JoinedMBMSBearerService-IEs-Value")));
  ("JoinedMBMSBearerService-IEs-Value",
    (ASeq true [("tMGI", (false, (ARef "TMGI")));
      ("mBMS-PTP-RAB-ID", (false, (ARef "MBMS-PTP-RAB-ID")));
      ("iE-Extensions", (true, (ARef "ProtocolExtensionContainer")))] []));
  ("RAB-SetupItem-RelocReqAck",
    (ASeq true [("rAB-ID", (false, (ARef "RAB-ID")));
      ("transportLayerAddress", (true, (ARef "TransportLayerAddress")));
      ("iuTransportAssociation", (true, (ARef "IuTransportAssociation")));
      ("iE-Extensions", (true, (ARef "ProtocolExtensionContainer")))] []));
  ("RAB-FailedItem",
    (ASeq true [("rAB-ID", (false, (ARef "RAB-ID")));
      ("cause", (false, (ARef "Cause")));
      ("iE-Extensions", (true, (ARef "ProtocolExtensionContainer")))] []));
  ("RAB-ContextItem",
    (ASeq true [("rAB-ID", (false, (ARef "RAB-ID")));
      ("dl-GTP-PDU-SequenceNumber", (true, (ARef "DL-GTP-PDU-SequenceNumber")));
      ("ul-GTP-PDU-SequenceNumber", (true, (ARef "UL-GTP-PDU-SequenceNumber")));
      ("dl-N-PDU-SequenceNumber", (true, (ARef "DL-N-PDU-SequenceNumber")));
      ("ul-N-PDU-SequenceNumber", (true, (ARef "UL-N-PDU-SequenceNumber")));
      ("iE-Extensions", (true, (ARef "ProtocolExtensionContainer")))] []));
  ("RABs-ContextFailedtoTransferItem",
    (ASeq true [("rAB-ID", (false, (ARef "RAB-ID")));
      ("cause", (false, (ARef "Cause")));
      ("iE-Extensions", (true, (ARef "ProtocolExtensionContainer")))] []));
  ("RABs-failed-to-reportItem",
    (ASeq true [("rAB-ID", (false, (ARef "RAB-ID")));
      ("cause", (false, (ARef "Cause")));
      ("iE-Extensions", (true, (ARef "ProtocolExtensionContainer")))] []));
  ("ResetResourceList",
    (ASeq true [("resetResourceList-ies", (false, (ASeqOf (Some (Rng (Num (0)) (Cst "maxProtocolIEs") false)) (ARef "IE"))))] []));
  ("ResetResourceItem",
    (ASeq true [("iuSigConId", (false, (ARef "IuSignallingConnectionIdentifier")));
      ("iE-Extensions", (true, (ARef "ProtocolExtensionContainer")))] []));
  ("ResetResourceAckList",
    (ASeq true [("resetResourceAckList-ies", (false, (ASeqOf (Some (Rng (Num (0)) (Cst "maxProtocolIEs") false)) (ARef "IE"))))] []));
  ("ResetResourceAckItem",
    (ASeq true [("iuSigConId", (false, (ARef "IuSignallingConnectionIdentifier")));
      ("iE-Extensions", (true, (ARef "ProtocolExtensionContainer")))] []));
  ("RAB-ReleaseItem",
    (ASeq true [("rAB-ID", (false, (ARef "RAB-ID")));
      ("cause", (false, (ARef "Cause")));
      ("iE-Extensions", (true, (ARef "ProtocolExtensionContainer")))] []));
  ("RAB-SetupItem-EnhancedRelocCompleteReq",
    (ASeq true [("rAB-ID", (false, (ARef "RAB-ID")));
      ("transportLayerAddressReq1", (true, (ARef "TransportLayerAddress")));
      ("iuTransportAssociationReq1", (true, (ARef "IuTransportAssociation")));
      ("ass-RAB-Parameters", (true, (ARef "Ass-RAB-Parameters")));
      ("iE-Extensions", (true, (ARef "ProtocolExtensionContainer")))] []));
  ("RAB-SetupItem-EnhancedRelocCompleteRes",
    (ASeq true [("rAB-ID", (false, (ARef "RAB-ID")));
      ("rAB-Parameters", (true, (ARef "RAB-Parameters")));
      ("userPlaneInformation", (false, (ARef "UserPlaneInformation")));
      ("transportLayerAddressRes1", (true, (ARef "TransportLayerAddress")));
      ("iuTransportAssociationRes1", (true, (ARef "IuTransportAssociation")));
      ("rab2beReleasedList", (true, (ARef "RAB-ToBeReleasedList-EnhancedRelocCompleteRes")));
      ("iE-Extensions", (true, (ARef "ProtocolExtensionContainer")))] []));
  ("RAB-ToBeReleasedItem-EnhancedRelocCompleteRes",
    (ASeq true [("rAB-ID", (false, (ARef "RAB-ID")));
      ("cause", (false, (ARef "Cause")));
      ("iE-Extensions", (true, (ARef "ProtocolExtensionContainer")))] []));
  ("RAB-SetupOrModifyItemFirst",
    (ASeq true [("rAB-ID", (false, (ARef "RAB-ID")));
      ("nAS-SynchronisationIndicator", (true, (ARef "NAS-SynchronisationIndicator")));
      ("rAB-Parameters", (true, (ARef "RAB-Parameters")));
      ("userPlaneInformation", (true, (ARef "UserPlaneInformation")));
      ("transportLayerInformation", (true, (ARef "TransportLayerInformation")));
      ("service-Handover", (true, (ARef "Service-Handover")));
      ("iE-Extensions", (true, (ARef "ProtocolExtensionContainer")))] []));
  ("TransportLayerInformation",
    (ASeq true [("transportLayerAddress", (false, (ARef "TransportLayerAddress")));
      ("iuTransportAssociation", (false, (ARef "IuTransportAssociation")));
      ("iE-Extensions", (true, (ARef "ProtocolExtensionContainer")))] []));
  ("RAB-SetupOrModifyItemSecond",
    (ASeq true [("pDP-TypeInformation", (true, (ARef "PDP-TypeInformation")));
      ("dataVolumeReportingIndication", (true, (ARef "DataVolumeReportingIndication")));
      ("dl-GTP-PDU-SequenceNumber", (true, (ARef "DL-GTP-PDU-SequenceNumber")));
      ("ul-GTP-PDU-SequenceNumber", (true, (ARef "UL-GTP-PDU-SequenceNumber")));
      ("dl-N-PDU-SequenceNumber", (true, (ARef "DL-N-PDU-SequenceNumber")));
      ("ul-N-PDU-SequenceNumber", (true, (ARef "UL-N-PDU-SequenceNumber")));
      ("iE-Extensions", (true, (ARef "ProtocolExtensionContainer")))] []));
  ("RAB-SetupOrModifiedItem",
    (ASeq true [("rAB-ID", (false, (ARef "RAB-ID")));
      ("transportLayerAddress", (true, (ARef "TransportLayerAddress")));
      ("iuTransportAssociation", (true, (ARef "IuTransportAssociation")));
      ("dl-dataVolumes", (true, (ARef "DataVolumeList")));
      ("iE-Extensions", (true, (ARef "ProtocolExtensionContainer")))] []));
  ("RAB-ReleasedItem",
    (ASeq true [("rAB-ID", (false, (ARef "RAB-ID")));
      ("dl-dataVolumes", (true, (ARef "DataVolumeList")));
      ("dL-GTP-PDU-SequenceNumber", (true, (ARef "DL-GTP-PDU-SequenceNumber")));
      ("uL-GTP-PDU-SequenceNumber", (true, (ARef "UL-GTP-PDU-SequenceNumber")));
      ("iE-Extensions", (true, (ARef "ProtocolExtensionContainer")))] []));
  ("DataVolumeList",
    (ASeqOf (Some (Rng (Num (1)) (Cst "maxNrOfVol") false)) (ARef "DataVolumeList-Value")));
  ("DataVolumeList-Value",
    (ASeq true [("dl-UnsuccessfullyTransmittedDataVolume", (false, (ARef "UnsuccessfullyTransmittedDataVolume")));
      ("dataVolumeReference", (true, (ARef "DataVolumeReference")));
      ("iE-Extensions", (true, (ARef "ProtocolExtensionContainer")))] []));
  ("RAB-QueuedItem",
    (ASeq true [("rAB-ID", (false, (ARef "RAB-ID")));
      ("iE-Extensions", (true, (ARef "ProtocolExtensionContainer")))] []));
  ("RAB-ReleaseFailedList",
    (ARef "RAB-FailedList"));
  ("GERAN-Iumode-RAB-Failed-RABAssgntResponse-List",
    (ASeq true [("geraN-Iumode-RAB-Failed-RABAssgntResponse-List-ies", (false, (ASeqOf (Some (Rng (Num (0)) (Cst "maxProtocolIEs") false)) (ARef "IE"))))] []));
  ("GERAN-Iumode-RAB-Failed-RABAssgntResponse-Item",
    (ASeq true [("rAB-ID", (false, (ARef "RAB-ID")));
      ("cause", (false, (ARef "Cause")));
      ("gERAN-Classmark", (true, (ARef "GERAN-Classmark")));
      ("iE-Extensions", (true, (ARef "ProtocolExtensionContainer")))] []));
  ("DirectTransferInformationItem-RANAP-RelocInf",
    (ASeq true [("nAS-PDU", (false, (ARef "NAS-PDU")));
      ("sAPI", (false, (ARef "SAPI")));
      ("cN-DomainIndicator", (false, (ARef "CN-DomainIndicator")));
      ("iE-Extensions", (true, (ARef "ProtocolExtensionContainer")))] []));
  ("RAB-ContextItem-RANAP-RelocInf",
    (ASeq true [("rAB-ID", (false, (ARef "RAB-ID")));
      ("dl-GTP-PDU-SequenceNumber", (true, (ARef "DL-GTP-PDU-SequenceNumber")));
      ("ul-GTP-PDU-SequenceNumber", (true, (ARef "UL-GTP-PDU-SequenceNumber")));
      ("dl-N-PDU-SequenceNumber", (true, (ARef "DL-N-PDU-SequenceNumber")));
      ("ul-N-PDU-SequenceNumber", (true, (ARef "UL-N-PDU-SequenceNumber")));
      ("iE-Extensions", (true, (ARef "ProtocolExtensionContainer")))] []));
  ("RAB-SetupItem-EnhRelocInfoReq",
    (ASeq true [("rAB-ID", (false, (ARef "RAB-ID")));
      ("cN-DomainIndicator", (false, (ARef "CN-DomainIndicator")));
      ("rAB-Parameters", (false, (ARef "RAB-Parameters")));
      ("dataVolumeReportingIndication", (true, (ARef "DataVolumeReportingIndication")));
      ("pDP-TypeInformation", (true, (ARef "PDP-TypeInformation")));
      ("userPlaneInformation", (false, (ARef "UserPlaneInformation")));
      ("dataForwardingInformation", (true, (ARef "TNLInformationEnhRelInfoReq")));
      ("sourceSideIuULTNLInfo", (true, (ARef "TNLInformationEnhRelInfoReq")));
      ("service-Handover", (true, (ARef "Service-Handover")));
      ("alt-RAB-Parameters", (true, (ARef "Alt-RAB-Parameters")));
      ("iE-Extensions", (true, (ARef "ProtocolExtensionContainer")))] []));
  ("TNLInformationEnhRelInfoReq",
    (ASeq true [("transportLayerAddress", (false, (ARef "TransportLayerAddress")));
      ("iuTransportAssociation", (false, (ARef "IuTransportAssociation")));
      ("iE-Extensions", (true, (ARef "ProtocolExtensionContainer")))] []));
  ("RAB-SetupItem-EnhRelocInfoRes",
    (ASeq true [("cN-DomainIndicator", (false, (ARef "CN-DomainIndicator")));
      ("rAB-ID", (false, (ARef "RAB-ID")));
      ("dataForwardingInformation", (true, (ARef "TNLInformationEnhRelInfoRes")));
      ("ass-RAB-Parameters", (true, (ARef "Ass-RAB-Parameters")));
      ("iE-Extensions", (true, (ARef "ProtocolExtensionContainer")))] []));
  ("RAB-FailedItem-EnhRelocInfoRes",
    (ASeq true [("cN-DomainIndicator", (false, (ARef "CN-DomainIndicator")));
      ("rAB-ID", (false, (ARef "RAB-ID")));
      ("cause", (false, (ARef "Cause")));
      ("iE-Extensions", (true, (ARef "ProtocolExtensionContainer")))] []));
  ("TNLInformationEnhRelInfoRes",
    (ASeq true [("dl-forwardingTransportLayerAddress", (false, (ARef "TransportLayerAddress")));
      ("dl-forwardingTransportAssociation", (false, (ARef "IuTransportAssociation")));
      ("iE-Extensions", (true, (ARef "ProtocolExtensionContainer")))] []));
  ("RAB-ModifyItem",
    (ASeq true [("rAB-ID", (false, (ARef "RAB-ID")));
      ("requested-RAB-Parameter-Values", (false, (ARef "Requested-RAB-Parameter-Values")));
      ("iE-Extensions", (true, (ARef "ProtocolExtensionContainer")))] []));
  ("MBMSSynchronisationInformation",
    (ASeq true [("mBMSHCIndicator", (false, (ARef "MBMSHCIndicator")));
      ("iPMulticastAddress", (false, (ARef "IPMulticastAddress")));
      ("gTPDLTEID", (false, (ARef "GTP-TEI")));
      ("iE-Extensions", (true, (ARef "ProtocolExtensionContainer")))] []));
  ("LeftMBMSBearerService-IEs",
    (ASeqOf (Some (Rng (Num (1)) (Cst "maxnoofMulticastServicesPerUE") false)) (ARef "LeftMBMSBearerService-IEs-Value")));
  ("LeftMBMSBearerService-IEs-Value",
    (ASeq true [("tMGI", (false, (ARef "TMGI")));
      ("iE-Extensions", (true, (ARef "ProtocolExtensionContainer")))] []));
  ("UnsuccessfulLinking-IEs",
    (ASeqOf (Some (Rng (Num (1)) (Cst "maxnoofMulticastServicesPerUE") false)) (ARef "UnsuccessfulLinking-IEs-Value")));
  ("UnsuccessfulLinking-IEs-Value",
    (ASeq true [("tMGI", (false, (ARef "TMGI")));
      ("cause", (false, (ARef "Cause")));
      ("iE-Extensions", (true, (ARef "ProtocolExtensionContainer")))] [])) ].
(* asn1/ranap/RANAP-CommonDataTypes.asn, RANAP-Constants.asn, RANAP-IEs.asn, RANAP-PDU.asn *)
Definition ranap_asn_types : list (string * asn) := ranap_common ++ ranap_compiled.

(* both together *)
Definition ranap_asn : grammar := Gram ranap_asn_types ranap_consts.
