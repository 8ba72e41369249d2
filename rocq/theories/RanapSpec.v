(* Generated by a script: the IEs that the object sets of
   asn1/ranap/RANAP-PDU-Contents.asn declare, read without regard to line
   structure, with the numbers of asn1/ranap/RANAP-Constants.asn: name, number,
   criticality, type, presence. *)
From Verif Require Import Base Aper Container.
From Coq Require Import String.
Local Open Scope string_scope.

(* asn1/ranap/RANAP-PDU-Contents.asn:1-3600 *)
Definition ranap_spec : list (string * list (string * N * Z * string * presence)) :=
  [ ("Iu-ReleaseCommandIEs",
      [ ("id-Cause", 4%N, 1%Z, "Cause", Mandatory) ]);
    ("Iu-ReleaseCompleteIEs",
      [ ("id-RAB-DataVolumeReportList", 31%N, 1%Z, "RAB-DataVolumeReportList", Optional);
        ("id-RAB-ReleasedList-IuRelComp", 44%N, 1%Z, "RAB-ReleasedList-IuRelComp", Optional);
        ("id-CriticalityDiagnostics", 9%N, 1%Z, "CriticalityDiagnostics", Optional) ]);
    ("RAB-DataVolumeReportItemIEs",
      [ ("id-RAB-DataVolumeReportItem", 30%N, 1%Z, "RAB-DataVolumeReportItem", Mandatory) ]);
    ("RAB-ReleasedItem-IuRelComp-IEs",
      [ ("id-RAB-ReleasedItem-IuRelComp", 87%N, 1%Z, "RAB-ReleasedItem-IuRelComp", Mandatory) ]);
    ("RelocationRequiredIEs",
      [ ("id-RelocationType", 56%N, 0%Z, "RelocationType", Mandatory);
        ("id-Cause", 4%N, 1%Z, "Cause", Mandatory);
        ("id-SourceID", 60%N, 1%Z, "SourceID", Mandatory);
        ("id-TargetID", 62%N, 0%Z, "TargetID", Mandatory);
        ("id-ClassmarkInformation2", 7%N, 0%Z, "ClassmarkInformation2", Conditional);
        ("id-ClassmarkInformation3", 8%N, 1%Z, "ClassmarkInformation3", Conditional);
        ("id-Source-ToTarget-TransparentContainer", 61%N, 0%Z, "Source-ToTarget-TransparentContainer", Conditional);
        ("id-OldBSS-ToNewBSS-Information", 20%N, 1%Z, "OldBSS-ToNewBSS-Information", Optional) ]);
    ("RelocationCommandIEs",
      [ ("id-Target-ToSource-TransparentContainer", 63%N, 0%Z, "Target-ToSource-TransparentContainer", Optional);
        ("id-L3-Information", 14%N, 1%Z, "L3-Information", Optional);
        ("id-RAB-RelocationReleaseList", 46%N, 1%Z, "RAB-RelocationReleaseList", Optional);
        ("id-RAB-DataForwardingList", 28%N, 1%Z, "RAB-DataForwardingList", Optional);
        ("id-CriticalityDiagnostics", 9%N, 1%Z, "CriticalityDiagnostics", Optional) ]);
    ("RAB-RelocationReleaseItemIEs",
      [ ("id-RAB-RelocationReleaseItem", 45%N, 1%Z, "RAB-RelocationReleaseItem", Mandatory) ]);
    ("RAB-DataForwardingItemIEs",
      [ ("id-RAB-DataForwardingItem", 26%N, 1%Z, "RAB-DataForwardingItem", Mandatory) ]);
    ("RelocationPreparationFailureIEs",
      [ ("id-Cause", 4%N, 1%Z, "Cause", Mandatory);
        ("id-CriticalityDiagnostics", 9%N, 1%Z, "CriticalityDiagnostics", Optional) ]);
    ("RelocationRequestIEs",
      [ ("id-PermanentNAS-UE-ID", 23%N, 1%Z, "PermanentNAS-UE-ID", Optional);
        ("id-Cause", 4%N, 1%Z, "Cause", Mandatory);
        ("id-CN-DomainIndicator", 3%N, 0%Z, "CN-DomainIndicator", Mandatory);
        ("id-Source-ToTarget-TransparentContainer", 61%N, 0%Z, "SourceRNC-ToTargetRNC-TransparentContainer", Mandatory);
        ("id-RAB-SetupList-RelocReq", 49%N, 0%Z, "RAB-SetupList-RelocReq", Optional);
        ("id-IntegrityProtectionInformation", 12%N, 1%Z, "IntegrityProtectionInformation", Optional);
        ("id-EncryptionInformation", 11%N, 1%Z, "EncryptionInformation", Optional);
        ("id-IuSigConId", 79%N, 1%Z, "IuSignallingConnectionIdentifier", Mandatory) ]);
    ("RAB-SetupItem-RelocReq-IEs",
      [ ("id-RAB-SetupItem-RelocReq", 47%N, 0%Z, "RAB-SetupItem-RelocReq", Mandatory) ]);
    ("RelocationRequestAcknowledgeIEs",
      [ ("id-Target-ToSource-TransparentContainer", 63%N, 1%Z, "TargetRNC-ToSourceRNC-TransparentContainer", Optional);
        ("id-RAB-SetupList-RelocReqAck", 50%N, 1%Z, "RAB-SetupList-RelocReqAck", Optional);
        ("id-RAB-FailedList", 35%N, 1%Z, "RAB-FailedList", Optional);
        ("id-ChosenIntegrityProtectionAlgorithm", 6%N, 1%Z, "ChosenIntegrityProtectionAlgorithm", Optional);
        ("id-ChosenEncryptionAlgorithm", 5%N, 1%Z, "ChosenEncryptionAlgorithm", Optional);
        ("id-CriticalityDiagnostics", 9%N, 1%Z, "CriticalityDiagnostics", Optional) ]);
    ("RAB-SetupItem-RelocReqAck-IEs",
      [ ("id-RAB-SetupItem-RelocReqAck", 48%N, 0%Z, "RAB-SetupItem-RelocReqAck", Mandatory) ]);
    ("RAB-FailedItemIEs",
      [ ("id-RAB-FailedItem", 34%N, 1%Z, "RAB-FailedItem", Mandatory) ]);
    ("RelocationFailureIEs",
      [ ("id-Cause", 4%N, 1%Z, "Cause", Mandatory);
        ("id-CriticalityDiagnostics", 9%N, 1%Z, "CriticalityDiagnostics", Optional) ]);
    ("RelocationCancelIEs",
      [ ("id-Cause", 4%N, 1%Z, "Cause", Mandatory) ]);
    ("RelocationCancelAcknowledgeIEs",
      [ ("id-CriticalityDiagnostics", 9%N, 1%Z, "CriticalityDiagnostics", Optional) ]);
    ("SRNS-ContextRequestIEs",
      [ ("id-RAB-DataForwardingList-SRNS-CtxReq", 29%N, 1%Z, "RAB-DataForwardingList-SRNS-CtxReq", Mandatory) ]);
    ("RAB-DataForwardingItem-SRNS-CtxReq-IEs",
      [ ("id-RAB-DataForwardingItem-SRNS-CtxReq", 27%N, 0%Z, "RAB-DataForwardingItem-SRNS-CtxReq", Mandatory) ]);
    ("SRNS-ContextResponseIEs",
      [ ("id-RAB-ContextList", 25%N, 1%Z, "RAB-ContextList", Optional);
        ("id-RAB-ContextFailedtoTransferList", 85%N, 1%Z, "RABs-ContextFailedtoTransferList", Optional);
        ("id-CriticalityDiagnostics", 9%N, 1%Z, "CriticalityDiagnostics", Optional) ]);
    ("RAB-ContextItemIEs",
      [ ("id-RAB-ContextItem", 24%N, 1%Z, "RAB-ContextItem", Mandatory) ]);
    ("RABs-ContextFailedtoTransferItemIEs",
      [ ("id-RAB-ContextFailedtoTransferItem", 84%N, 1%Z, "RABs-ContextFailedtoTransferItem", Mandatory) ]);
    ("SecurityModeCommandIEs",
      [ ("id-IntegrityProtectionInformation", 12%N, 0%Z, "IntegrityProtectionInformation", Mandatory);
        ("id-EncryptionInformation", 11%N, 1%Z, "EncryptionInformation", Optional);
        ("id-KeyStatus", 75%N, 0%Z, "KeyStatus", Mandatory) ]);
    ("SecurityModeCompleteIEs",
      [ ("id-ChosenIntegrityProtectionAlgorithm", 6%N, 0%Z, "ChosenIntegrityProtectionAlgorithm", Mandatory);
        ("id-ChosenEncryptionAlgorithm", 5%N, 1%Z, "ChosenEncryptionAlgorithm", Optional);
        ("id-CriticalityDiagnostics", 9%N, 1%Z, "CriticalityDiagnostics", Optional) ]);
    ("SecurityModeRejectIEs",
      [ ("id-Cause", 4%N, 1%Z, "Cause", Mandatory);
        ("id-CriticalityDiagnostics", 9%N, 1%Z, "CriticalityDiagnostics", Optional) ]);
    ("DataVolumeReportRequestIEs",
      [ ("id-RAB-DataVolumeReportRequestList", 33%N, 1%Z, "RAB-DataVolumeReportRequestList", Mandatory) ]);
    ("RAB-DataVolumeReportRequestItemIEs",
      [ ("id-RAB-DataVolumeReportRequestItem", 32%N, 0%Z, "RAB-DataVolumeReportRequestItem", Mandatory) ]);
    ("DataVolumeReportIEs",
      [ ("id-RAB-DataVolumeReportList", 31%N, 1%Z, "RAB-DataVolumeReportList", Optional);
        ("id-RAB-FailedtoReportList", 72%N, 1%Z, "RABs-failed-to-reportList", Optional);
        ("id-CriticalityDiagnostics", 9%N, 1%Z, "CriticalityDiagnostics", Optional) ]);
    ("RABs-failed-to-reportItemIEs",
      [ ("id-RAB-FailedtoReportItem", 71%N, 1%Z, "RABs-failed-to-reportItem", Mandatory) ]);
    ("ResetIEs",
      [ ("id-Cause", 4%N, 1%Z, "Cause", Mandatory);
        ("id-CN-DomainIndicator", 3%N, 0%Z, "CN-DomainIndicator", Mandatory);
        ("id-GlobalRNC-ID", 86%N, 1%Z, "GlobalRNC-ID", Optional) ]);
    ("ResetAcknowledgeIEs",
      [ ("id-CN-DomainIndicator", 3%N, 0%Z, "CN-DomainIndicator", Mandatory);
        ("id-CriticalityDiagnostics", 9%N, 1%Z, "CriticalityDiagnostics", Optional);
        ("id-GlobalRNC-ID", 86%N, 1%Z, "GlobalRNC-ID", Optional) ]);
    ("ResetResourceIEs",
      [ ("id-CN-DomainIndicator", 3%N, 0%Z, "CN-DomainIndicator", Mandatory);
        ("id-Cause", 4%N, 1%Z, "Cause", Mandatory);
        ("id-IuSigConIdList", 77%N, 1%Z, "ResetResourceList", Mandatory);
        ("id-GlobalRNC-ID", 86%N, 1%Z, "GlobalRNC-ID", Optional) ]);
    ("ResetResourceItemIEs",
      [ ("id-IuSigConIdItem", 78%N, 0%Z, "ResetResourceItem", Mandatory) ]);
    ("ResetResourceAcknowledgeIEs",
      [ ("id-CN-DomainIndicator", 3%N, 0%Z, "CN-DomainIndicator", Mandatory);
        ("id-IuSigConIdList", 77%N, 1%Z, "ResetResourceAckList", Mandatory);
        ("id-GlobalRNC-ID", 86%N, 1%Z, "GlobalRNC-ID", Optional);
        ("id-CriticalityDiagnostics", 9%N, 1%Z, "CriticalityDiagnostics", Optional) ]);
    ("ResetResourceAckItemIEs",
      [ ("id-IuSigConIdItem", 78%N, 0%Z, "ResetResourceAckItem", Mandatory) ]);
    ("RAB-ReleaseRequestIEs",
      [ ("id-RAB-ReleaseList", 41%N, 1%Z, "RAB-ReleaseList", Mandatory) ]);
    ("RAB-ReleaseItemIEs",
      [ ("id-RAB-ReleaseItem", 40%N, 1%Z, "RAB-ReleaseItem", Mandatory) ]);
    ("Iu-ReleaseRequestIEs",
      [ ("id-Cause", 4%N, 1%Z, "Cause", Mandatory) ]);
    ("EnhancedRelocationCompleteRequestIEs",
      [ ("id-OldIuSigConId", 196%N, 0%Z, "IuSignallingConnectionIdentifier", Mandatory);
        ("id-IuSigConId", 79%N, 0%Z, "IuSignallingConnectionIdentifier", Mandatory);
        ("id-Relocation-SourceRNC-ID", 222%N, 1%Z, "GlobalRNC-ID", Mandatory);
        ("id-Relocation-SourceExtendedRNC-ID", 223%N, 1%Z, "ExtendedRNC-ID", Optional);
        ("id-Relocation-TargetRNC-ID", 212%N, 0%Z, "GlobalRNC-ID", Mandatory);
        ("id-Relocation-TargetExtendedRNC-ID", 213%N, 0%Z, "ExtendedRNC-ID", Optional);
        ("id-RAB-SetupList-EnhancedRelocCompleteReq", 188%N, 0%Z, "RAB-SetupList-EnhancedRelocCompleteReq", Optional) ]);
    ("RAB-SetupItem-EnhancedRelocCompleteReq-IEs",
      [ ("id-RAB-SetupItem-EnhancedRelocCompleteReq", 189%N, 0%Z, "RAB-SetupItem-EnhancedRelocCompleteReq", Mandatory) ]);
    ("EnhancedRelocationCompleteResponseIEs",
      [ ("id-RAB-SetupList-EnhancedRelocCompleteRes", 190%N, 1%Z, "RAB-SetupList-EnhancedRelocCompleteRes", Optional);
        ("id-RAB-ToBeReleasedList-EnhancedRelocCompleteRes", 210%N, 1%Z, "RAB-ToBeReleasedList-EnhancedRelocCompleteRes", Optional);
        ("id-CriticalityDiagnostics", 9%N, 1%Z, "CriticalityDiagnostics", Optional) ]);
    ("RAB-SetupItem-EnhancedRelocCompleteRes-IEs",
      [ ("id-RAB-SetupItem-EnhancedRelocCompleteRes", 191%N, 0%Z, "RAB-SetupItem-EnhancedRelocCompleteRes", Mandatory) ]);
    ("RAB-ToBeReleasedItem-EnhancedRelocCompleteRes-IEs",
      [ ("id-RAB-ToBeReleasedItem-EnhancedRelocCompleteRes", 209%N, 1%Z, "RAB-ToBeReleasedItem-EnhancedRelocCompleteRes", Mandatory) ]);
    ("EnhancedRelocationCompleteFailureIEs",
      [ ("id-Cause", 4%N, 1%Z, "Cause", Mandatory);
        ("id-CriticalityDiagnostics", 9%N, 1%Z, "CriticalityDiagnostics", Optional) ]);
    ("EnhancedRelocationCompleteConfirmIEs",
      [ ("id-RAB-FailedList", 35%N, 1%Z, "RAB-FailedList", Optional) ]);
    ("PagingIEs",
      [ ("id-CN-DomainIndicator", 3%N, 1%Z, "CN-DomainIndicator", Mandatory);
        ("id-PermanentNAS-UE-ID", 23%N, 1%Z, "PermanentNAS-UE-ID", Mandatory);
        ("id-TemporaryUE-ID", 64%N, 1%Z, "TemporaryUE-ID", Optional);
        ("id-PagingAreaID", 21%N, 1%Z, "PagingAreaID", Optional);
        ("id-PagingCause", 22%N, 1%Z, "PagingCause", Optional);
        ("id-NonSearchingIndication", 17%N, 1%Z, "NonSearchingIndication", Optional);
        ("id-DRX-CycleLengthCoefficient", 76%N, 1%Z, "DRX-CycleLengthCoefficient", Optional) ]);
    ("CommonID-IEs",
      [ ("id-PermanentNAS-UE-ID", 23%N, 1%Z, "PermanentNAS-UE-ID", Mandatory) ]);
    ("CN-InvokeTraceIEs",
      [ ("id-TraceType", 66%N, 1%Z, "TraceType", Optional);
        ("id-TraceReference", 65%N, 1%Z, "TraceReference", Mandatory);
        ("id-TriggerID", 68%N, 1%Z, "TriggerID", Optional);
        ("id-UE-ID", 69%N, 1%Z, "UE-ID", Optional);
        ("id-OMC-ID", 19%N, 1%Z, "OMC-ID", Optional) ]);
    ("CN-DeactivateTraceIEs",
      [ ("id-TraceReference", 65%N, 1%Z, "TraceReference", Mandatory);
        ("id-TriggerID", 68%N, 1%Z, "TriggerID", Optional) ]);
    ("LocationReportingControlIEs",
      [ ("id-RequestType", 57%N, 1%Z, "RequestType", Mandatory) ]);
    ("LocationReportIEs",
      [ ("id-AreaIdentity", 0%N, 1%Z, "AreaIdentity", Optional);
        ("id-Cause", 4%N, 1%Z, "Cause", Optional);
        ("id-RequestType", 57%N, 1%Z, "RequestType", Optional) ]);
    ("InitialUE-MessageIEs",
      [ ("id-CN-DomainIndicator", 3%N, 1%Z, "CN-DomainIndicator", Mandatory);
        ("id-LAI", 15%N, 1%Z, "LAI", Mandatory);
        ("id-RAC", 55%N, 1%Z, "RAC", Conditional);
        ("id-SAI", 58%N, 1%Z, "SAI", Mandatory);
        ("id-NAS-PDU", 16%N, 1%Z, "NAS-PDU", Mandatory);
        ("id-IuSigConId", 79%N, 1%Z, "IuSignallingConnectionIdentifier", Mandatory);
        ("id-GlobalRNC-ID", 86%N, 1%Z, "GlobalRNC-ID", Mandatory) ]);
    ("DirectTransferIEs",
      [ ("id-NAS-PDU", 16%N, 1%Z, "NAS-PDU", Mandatory);
        ("id-LAI", 15%N, 1%Z, "LAI", Optional);
        ("id-RAC", 55%N, 1%Z, "RAC", Optional);
        ("id-SAI", 58%N, 1%Z, "SAI", Optional);
        ("id-SAPI", 59%N, 1%Z, "SAPI", Optional) ]);
    ("RedirectionIndication-IEs",
      [ ("id-NAS-PDU", 16%N, 1%Z, "NAS-PDU", Mandatory);
        ("id-RejectCauseValue", 131%N, 1%Z, "RejectCauseValue", Mandatory);
        ("id-NAS-SequenceNumber", 130%N, 1%Z, "NAS-SequenceNumber", Optional);
        ("id-PermanentNAS-UE-ID", 23%N, 1%Z, "PermanentNAS-UE-ID", Optional) ]);
    ("OverloadIEs",
      [ ("id-NumberOfSteps", 18%N, 1%Z, "NumberOfSteps", Optional);
        ("id-GlobalRNC-ID", 86%N, 1%Z, "GlobalRNC-ID", Optional) ]);
    ("ErrorIndicationIEs",
      [ ("id-Cause", 4%N, 1%Z, "Cause", Optional);
        ("id-CriticalityDiagnostics", 9%N, 1%Z, "CriticalityDiagnostics", Optional);
        ("id-CN-DomainIndicator", 3%N, 1%Z, "CN-DomainIndicator", Optional);
        ("id-GlobalRNC-ID", 86%N, 1%Z, "GlobalRNC-ID", Optional) ]);
    ("SRNS-DataForwardCommandIEs",
      [ ("id-RAB-DataForwardingList", 28%N, 1%Z, "RAB-DataForwardingList", Optional) ]);
    ("ForwardSRNS-ContextIEs",
      [ ("id-RAB-ContextList", 25%N, 1%Z, "RAB-ContextList", Mandatory) ]);
    ("RAB-AssignmentRequestIEs",
      [ ("id-RAB-SetupOrModifyList", 54%N, 1%Z, "RAB-SetupOrModifyList", Optional);
        ("id-RAB-ReleaseList", 41%N, 1%Z, "RAB-ReleaseList", Optional) ]);
    ("RAB-AssignmentResponseIEs",
      [ ("id-RAB-SetupOrModifiedList", 52%N, 1%Z, "RAB-SetupOrModifiedList", Optional);
        ("id-RAB-ReleasedList", 43%N, 1%Z, "RAB-ReleasedList", Optional);
        ("id-RAB-QueuedList", 38%N, 1%Z, "RAB-QueuedList", Optional);
        ("id-RAB-FailedList", 35%N, 1%Z, "RAB-FailedList", Optional);
        ("id-RAB-ReleaseFailedList", 39%N, 1%Z, "RAB-ReleaseFailedList", Optional);
        ("id-CriticalityDiagnostics", 9%N, 1%Z, "CriticalityDiagnostics", Optional) ]);
    ("RAB-SetupOrModifiedItemIEs",
      [ ("id-RAB-SetupOrModifiedItem", 51%N, 1%Z, "RAB-SetupOrModifiedItem", Mandatory) ]);
    ("RAB-ReleasedItemIEs",
      [ ("id-RAB-ReleasedItem", 42%N, 1%Z, "RAB-ReleasedItem", Mandatory) ]);
    ("RAB-QueuedItemIEs",
      [ ("id-RAB-QueuedItem", 37%N, 1%Z, "RAB-QueuedItem", Mandatory) ]);
    ("GERAN-Iumode-RAB-Failed-RABAssgntResponse-ItemIEs",
      [ ("id-GERAN-Iumode-RAB-Failed-RABAssgntResponse-Item", 109%N, 1%Z, "GERAN-Iumode-RAB-Failed-RABAssgntResponse-Item", Mandatory) ]);
    ("RANAP-RelocationInformationIEs",
      [ ("id-DirectTransferInformationList-RANAP-RelocInf", 81%N, 1%Z, "DirectTransferInformationList-RANAP-RelocInf", Optional);
        ("id-RAB-ContextList-RANAP-RelocInf", 83%N, 1%Z, "RAB-ContextList-RANAP-RelocInf", Optional) ]);
    ("DirectTransferInformationItemIEs-RANAP-RelocInf",
      [ ("id-DirectTransferInformationItem-RANAP-RelocInf", 80%N, 1%Z, "DirectTransferInformationItem-RANAP-RelocInf", Mandatory) ]);
    ("RAB-ContextItemIEs-RANAP-RelocInf",
      [ ("id-RAB-ContextItem-RANAP-RelocInf", 82%N, 1%Z, "RAB-ContextItem-RANAP-RelocInf", Mandatory) ]);
    ("RANAP-EnhancedRelocationInformationRequestIEs",
      [ ("id-Source-ToTarget-TransparentContainer", 61%N, 0%Z, "SourceRNC-ToTargetRNC-TransparentContainer", Mandatory);
        ("id-OldIuSigConIdCS", 204%N, 1%Z, "IuSignallingConnectionIdentifier", Optional);
        ("id-GlobalCN-IDCS", 206%N, 0%Z, "GlobalCN-ID", Optional);
        ("id-OldIuSigConIdPS", 205%N, 1%Z, "IuSignallingConnectionIdentifier", Optional);
        ("id-GlobalCN-IDPS", 207%N, 0%Z, "GlobalCN-ID", Optional);
        ("id-RAB-SetupList-EnhRelocInfoReq", 192%N, 0%Z, "RAB-SetupList-EnhRelocInfoReq", Optional);
        ("id-SNA-Access-Information", 105%N, 1%Z, "SNA-Access-Information", Optional);
        ("id-UESBI-Iu", 118%N, 1%Z, "UESBI-Iu", Optional);
        ("id-SelectedPLMN-ID", 127%N, 1%Z, "PLMNidentity", Optional);
        ("id-CNMBMSLinkingInformation", 133%N, 1%Z, "CNMBMSLinkingInformation", Optional) ]);
    ("RAB-SetupItem-EnhRelocInfoReq-IEs",
      [ ("id-RAB-SetupItem-EnhRelocInfoReq", 193%N, 0%Z, "RAB-SetupItem-EnhRelocInfoReq", Mandatory) ]);
    ("RANAP-EnhancedRelocationInformationResponseIEs",
      [ ("id-Target-ToSource-TransparentContainer", 63%N, 1%Z, "TargetRNC-ToSourceRNC-TransparentContainer", Optional);
        ("id-RAB-SetupList-EnhRelocInfoRes", 194%N, 1%Z, "RAB-SetupList-EnhRelocInfoRes", Optional);
        ("id-RAB-FailedList-EnhRelocInfoRes", 197%N, 1%Z, "RAB-FailedList-EnhRelocInfoRes", Optional);
        ("id-CriticalityDiagnostics", 9%N, 1%Z, "CriticalityDiagnostics", Optional) ]);
    ("RAB-SetupItem-EnhRelocInfoRes-IEs",
      [ ("id-RAB-SetupItem-EnhRelocInfoRes", 195%N, 0%Z, "RAB-SetupItem-EnhRelocInfoRes", Mandatory) ]);
    ("RAB-FailedItem-EnhRelocInfoRes-IEs",
      [ ("id-RAB-FailedItem-EnhRelocInfoRes", 198%N, 0%Z, "RAB-FailedItem-EnhRelocInfoRes", Mandatory) ]);
    ("RAB-ModifyRequestIEs",
      [ ("id-RAB-ModifyList", 91%N, 1%Z, "RAB-ModifyList", Mandatory) ]);
    ("RAB-ModifyItemIEs",
      [ ("id-RAB-ModifyItem", 92%N, 1%Z, "RAB-ModifyItem", Mandatory) ]);
    ("LocationRelatedDataRequestIEs",
      [ ("id-LocationRelatedDataRequestType", 95%N, 0%Z, "LocationRelatedDataRequestType", Optional) ]);
    ("LocationRelatedDataResponseIEs",
      [ ("id-BroadcastAssistanceDataDecipheringKeys", 94%N, 1%Z, "BroadcastAssistanceDataDecipheringKeys", Optional) ]);
    ("LocationRelatedDataFailureIEs",
      [ ("id-Cause", 4%N, 1%Z, "Cause", Mandatory) ]);
    ("InformationTransferIndicationIEs",
      [ ("id-InformationTransferID", 104%N, 0%Z, "InformationTransferID", Mandatory);
        ("id-ProvidedData", 106%N, 0%Z, "ProvidedData", Mandatory);
        ("id-CN-DomainIndicator", 3%N, 0%Z, "CN-DomainIndicator", Mandatory);
        ("id-GlobalCN-ID", 96%N, 1%Z, "GlobalCN-ID", Optional) ]);
    ("InformationTransferConfirmationIEs",
      [ ("id-InformationTransferID", 104%N, 1%Z, "InformationTransferID", Mandatory);
        ("id-CN-DomainIndicator", 3%N, 1%Z, "CN-DomainIndicator", Mandatory);
        ("id-CriticalityDiagnostics", 9%N, 1%Z, "CriticalityDiagnostics", Optional);
        ("id-GlobalRNC-ID", 86%N, 1%Z, "GlobalRNC-ID", Mandatory) ]);
    ("InformationTransferFailureIEs",
      [ ("id-InformationTransferID", 104%N, 1%Z, "InformationTransferID", Mandatory);
        ("id-CN-DomainIndicator", 3%N, 1%Z, "CN-DomainIndicator", Mandatory);
        ("id-Cause", 4%N, 1%Z, "Cause", Mandatory);
        ("id-CriticalityDiagnostics", 9%N, 1%Z, "CriticalityDiagnostics", Optional);
        ("id-GlobalRNC-ID", 86%N, 1%Z, "GlobalRNC-ID", Mandatory) ]);
    ("UESpecificInformationIndicationIEs",
      [ ("id-UESBI-Iu", 118%N, 1%Z, "UESBI-Iu", Optional) ]);
    ("DirectInformationTransferIEs",
      [ ("id-InterSystemInformationTransferType", 126%N, 1%Z, "InterSystemInformationTransferType", Optional);
        ("id-CN-DomainIndicator", 3%N, 1%Z, "CN-DomainIndicator", Mandatory);
        ("id-GlobalRNC-ID", 86%N, 1%Z, "GlobalRNC-ID", Optional);
        ("id-GlobalCN-ID", 96%N, 1%Z, "GlobalCN-ID", Optional) ]);
    ("UplinkInformationExchangeRequestIEs",
      [ ("id-InformationExchangeID", 136%N, 0%Z, "InformationExchangeID", Mandatory);
        ("id-InformationExchangeType", 137%N, 0%Z, "InformationExchangeType", Mandatory);
        ("id-InformationTransferType", 123%N, 0%Z, "InformationTransferType", Conditional);
        ("id-InformationRequestType", 139%N, 0%Z, "InformationRequestType", Conditional);
        ("id-CN-DomainIndicator", 3%N, 0%Z, "CN-DomainIndicator", Mandatory);
        ("id-GlobalRNC-ID", 86%N, 0%Z, "GlobalRNC-ID", Mandatory) ]);
    ("UplinkInformationExchangeResponseIEs",
      [ ("id-InformationExchangeID", 136%N, 1%Z, "InformationExchangeID", Mandatory);
        ("id-InformationRequested", 138%N, 1%Z, "InformationRequested", Optional);
        ("id-CN-DomainIndicator", 3%N, 1%Z, "CN-DomainIndicator", Mandatory);
        ("id-GlobalCN-ID", 96%N, 1%Z, "GlobalCN-ID", Optional);
        ("id-CriticalityDiagnostics", 9%N, 1%Z, "CriticalityDiagnostics", Optional) ]);
    ("UplinkInformationExchangeFailureIEs",
      [ ("id-InformationExchangeID", 136%N, 1%Z, "InformationExchangeID", Mandatory);
        ("id-CN-DomainIndicator", 3%N, 1%Z, "CN-DomainIndicator", Mandatory);
        ("id-GlobalCN-ID", 96%N, 1%Z, "GlobalCN-ID", Optional);
        ("id-Cause", 4%N, 1%Z, "Cause", Mandatory);
        ("id-CriticalityDiagnostics", 9%N, 1%Z, "CriticalityDiagnostics", Optional) ]);
    ("MBMSSessionStartIEs",
      [ ("id-TMGI", 153%N, 0%Z, "TMGI", Mandatory);
        ("id-MBMSSessionIdentity", 147%N, 1%Z, "MBMSSessionIdentity", Optional);
        ("id-MBMSBearerServiceType", 143%N, 0%Z, "MBMSBearerServiceType", Mandatory);
        ("id-IuSigConId", 79%N, 0%Z, "IuSignallingConnectionIdentifier", Mandatory);
        ("id-RAB-Parameters", 149%N, 0%Z, "RAB-Parameters", Mandatory);
        ("id-PDP-TypeInformation", 148%N, 1%Z, "PDP-TypeInformation", Optional);
        ("id-MBMSSessionDuration", 146%N, 0%Z, "MBMSSessionDuration", Mandatory);
        ("id-MBMSServiceArea", 145%N, 0%Z, "MBMSServiceArea", Mandatory);
        ("id-FrequenceLayerConvergenceFlag", 135%N, 1%Z, "FrequenceLayerConvergenceFlag", Optional);
        ("id-RAListofIdleModeUEs", 150%N, 1%Z, "RAListofIdleModeUEs", Optional);
        ("id-GlobalCN-ID", 96%N, 0%Z, "GlobalCN-ID", Optional);
        ("id-MBMSSessionRepetitionNumber", 157%N, 1%Z, "MBMSSessionRepetitionNumber", Optional);
        ("id-TimeToMBMSDataTransfer", 163%N, 0%Z, "TimeToMBMSDataTransfer", Mandatory) ]);
    ("MBMSSessionStartResponseIEs",
      [ ("id-TransportLayerInformation", 154%N, 1%Z, "TransportLayerInformation", Optional);
        ("id-Cause", 4%N, 1%Z, "Cause", Optional);
        ("id-CriticalityDiagnostics", 9%N, 1%Z, "CriticalityDiagnostics", Optional) ]);
    ("MBMSSessionStartFailureIEs",
      [ ("id-Cause", 4%N, 1%Z, "Cause", Mandatory);
        ("id-CriticalityDiagnostics", 9%N, 1%Z, "CriticalityDiagnostics", Optional) ]);
    ("MBMSSessionUpdateIEs",
      [ ("id-SessionUpdateID", 152%N, 0%Z, "SessionUpdateID", Mandatory);
        ("id-DeltaRAListofIdleModeUEs", 134%N, 0%Z, "DeltaRAListofIdleModeUEs", Mandatory) ]);
    ("MBMSSessionUpdateResponseIEs",
      [ ("id-SessionUpdateID", 152%N, 1%Z, "SessionUpdateID", Mandatory);
        ("id-TransportLayerInformation", 154%N, 1%Z, "TransportLayerInformation", Optional);
        ("id-Cause", 4%N, 1%Z, "Cause", Optional);
        ("id-CriticalityDiagnostics", 9%N, 1%Z, "CriticalityDiagnostics", Optional) ]);
    ("MBMSSessionUpdateFailureIEs",
      [ ("id-SessionUpdateID", 152%N, 1%Z, "SessionUpdateID", Mandatory);
        ("id-Cause", 4%N, 1%Z, "Cause", Mandatory);
        ("id-CriticalityDiagnostics", 9%N, 1%Z, "CriticalityDiagnostics", Optional) ]);
    ("MBMSSessionStopIEs",
      [ ("id-MBMSCNDe-Registration", 144%N, 0%Z, "MBMSCNDe-Registration", Mandatory) ]);
    ("MBMSSessionStopResponseIEs",
      [ ("id-Cause", 4%N, 1%Z, "Cause", Optional);
        ("id-CriticalityDiagnostics", 9%N, 1%Z, "CriticalityDiagnostics", Optional) ]);
    ("MBMSUELinkingRequestIEs",
      [ ("id-JoinedMBMSBearerServicesList", 141%N, 0%Z, "JoinedMBMSBearerService-IEs", Optional);
        ("id-LeftMBMSBearerServicesList", 142%N, 0%Z, "LeftMBMSBearerService-IEs", Optional) ]);
    ("MBMSUELinkingResponseIEs",
      [ ("id-UnsuccessfulLinkingList", 155%N, 1%Z, "UnsuccessfulLinking-IEs", Optional);
        ("id-CriticalityDiagnostics", 9%N, 1%Z, "CriticalityDiagnostics", Optional) ]);
    ("MBMSRegistrationRequestIEs",
      [ ("id-MBMSRegistrationRequestType", 151%N, 0%Z, "MBMSRegistrationRequestType", Mandatory);
        ("id-TMGI", 153%N, 0%Z, "TMGI", Mandatory);
        ("id-IPMulticastAddress", 140%N, 0%Z, "IPMulticastAddress", Conditional);
        ("id-APN", 132%N, 0%Z, "APN", Conditional);
        ("id-GlobalRNC-ID", 86%N, 0%Z, "GlobalRNC-ID", Optional) ]);
    ("MBMSRegistrationResponseIEs",
      [ ("id-TMGI", 153%N, 1%Z, "TMGI", Optional);
        ("id-GlobalCN-ID", 96%N, 1%Z, "GlobalCN-ID", Optional);
        ("id-CriticalityDiagnostics", 9%N, 1%Z, "CriticalityDiagnostics", Optional) ]);
    ("MBMSRegistrationFailureIEs",
      [ ("id-TMGI", 153%N, 1%Z, "TMGI", Optional);
        ("id-GlobalCN-ID", 96%N, 1%Z, "GlobalCN-ID", Optional);
        ("id-Cause", 4%N, 1%Z, "Cause", Mandatory);
        ("id-CriticalityDiagnostics", 9%N, 1%Z, "CriticalityDiagnostics", Optional) ]);
    ("MBMSCNDe-RegistrationRequestIEs",
      [ ("id-TMGI", 153%N, 0%Z, "TMGI", Mandatory);
        ("id-GlobalCN-ID", 96%N, 0%Z, "GlobalCN-ID", Optional) ]);
    ("MBMSCNDe-RegistrationResponseIEs",
      [ ("id-TMGI", 153%N, 1%Z, "TMGI", Mandatory);
        ("id-GlobalRNC-ID", 86%N, 1%Z, "GlobalRNC-ID", Mandatory);
        ("id-Cause", 4%N, 1%Z, "Cause", Optional);
        ("id-CriticalityDiagnostics", 9%N, 1%Z, "CriticalityDiagnostics", Optional) ]);
    ("MBMSRABEstablishmentIndicationIEs",
      [ ("id-TransportLayerInformation", 154%N, 1%Z, "TransportLayerInformation", Mandatory) ]);
    ("MBMSRABReleaseRequestIEs",
      [ ("id-Cause", 4%N, 1%Z, "Cause", Mandatory) ]);
    ("MBMSRABReleaseIEs",
      [ ("id-Cause", 4%N, 1%Z, "Cause", Mandatory);
        ("id-CriticalityDiagnostics", 9%N, 1%Z, "CriticalityDiagnostics", Optional) ]);
    ("MBMSRABReleaseFailureIEs",
      [ ("id-Cause", 4%N, 1%Z, "Cause", Mandatory);
        ("id-CriticalityDiagnostics", 9%N, 1%Z, "CriticalityDiagnostics", Optional) ]);
    ("SRVCC-CSKeysResponseIEs",
      [ ("id-IntegrityProtectionKey", 225%N, 0%Z, "IntegrityProtectionKey", Mandatory);
        ("id-EncryptionKey", 224%N, 0%Z, "EncryptionKey", Mandatory);
        ("id-SRVCC-Information", 227%N, 0%Z, "SRVCC-Information", Mandatory);
        ("id-CriticalityDiagnostics", 9%N, 1%Z, "CriticalityDiagnostics", Optional) ]);
    ("UeRadioCapabilityMatchResponseIEs",
      [ ("id-VoiceSupportMatchIndicator", 258%N, 0%Z, "VoiceSupportMatchIndicator", Mandatory) ]) ].
