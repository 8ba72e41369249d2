(* Generated by a script: the tables that asn1/utils/asn1tostruct.py reads from
   asn1/ranap/RANAP-PDU-Contents.asn with its regular expressions (lines 141-159), with
   the numbers of include/osmocom/ranap/RANAP_ProtocolIE-ID.h. *)
From Verif Require Import Base Aper Container RanapTypes.
From Coq Require Import String.
Local Open Scope string_scope.

(* asn1/ranap/RANAP-PDU-Contents.asn:452-455 Iu-ReleaseCommandIEs *)
Definition M_RANAP_Iu_ReleaseCommandIEs : msgdef := mkMsg "RANAP_" "Iu-ReleaseCommandIEs" T_RANAP_Iu_ReleaseCommand
  [ mkRow "id-Cause" 4 1 "Cause" T_RANAP_Cause Mandatory ].
(* asn1/ranap/RANAP-PDU-Contents.asn:476-481 Iu-ReleaseCompleteIEs *)
Definition M_RANAP_Iu_ReleaseCompleteIEs : msgdef := mkMsg "RANAP_" "Iu-ReleaseCompleteIEs" T_RANAP_Iu_ReleaseComplete
  [ mkRow "id-RAB-DataVolumeReportList" 31 1 "RAB-DataVolumeReportList" T_RANAP_RAB_DataVolumeReportList Optional;
    mkRow "id-RAB-ReleasedList-IuRelComp" 44 1 "RAB-ReleasedList-IuRelComp" T_RANAP_RAB_ReleasedList_IuRelComp Optional;
    mkRow "id-CriticalityDiagnostics" 9 1 "CriticalityDiagnostics" T_RANAP_CriticalityDiagnostics Optional ].
(* asn1/ranap/RANAP-PDU-Contents.asn:485-488 RAB-DataVolumeReportItemIEs *)
Definition M_RANAP_RAB_DataVolumeReportItemIEs : msgdef := mkMsg "RANAP_" "RAB-DataVolumeReportItemIEs" T_RANAP_RAB_DataVolumeReportList
  [ mkRow "id-RAB-DataVolumeReportItem" 30 1 "RAB-DataVolumeReportItem" T_RANAP_RAB_DataVolumeReportItem Mandatory ].
(* asn1/ranap/RANAP-PDU-Contents.asn:504-507 RAB-ReleasedItem-IuRelComp-IEs *)
Definition M_RANAP_RAB_ReleasedItem_IuRelComp_IEs : msgdef := mkMsg "RANAP_" "RAB-ReleasedItem-IuRelComp-IEs" T_RANAP_RAB_ReleasedList_IuRelComp
  [ mkRow "id-RAB-ReleasedItem-IuRelComp" 87 1 "RAB-ReleasedItem-IuRelComp" T_RANAP_RAB_ReleasedItem_IuRelComp Mandatory ].
(* asn1/ranap/RANAP-PDU-Contents.asn:544-557 RelocationRequiredIEs *)
Definition M_RANAP_RelocationRequiredIEs : msgdef := mkMsg "RANAP_" "RelocationRequiredIEs" T_RANAP_RelocationRequired
  [ mkRow "id-RelocationType" 56 0 "RelocationType" T_RANAP_RelocationType Mandatory;
    mkRow "id-Cause" 4 1 "Cause" T_RANAP_Cause Mandatory;
    mkRow "id-SourceID" 60 1 "SourceID" T_RANAP_SourceID Mandatory;
    mkRow "id-TargetID" 62 0 "TargetID" T_RANAP_TargetID Mandatory;
    mkRow "id-OldBSS-ToNewBSS-Information" 20 1 "OldBSS-ToNewBSS-Information" T_RANAP_OldBSS_ToNewBSS_Information Optional ].
(* asn1/ranap/RANAP-PDU-Contents.asn:587-595 RelocationCommandIEs *)
Definition M_RANAP_RelocationCommandIEs : msgdef := mkMsg "RANAP_" "RelocationCommandIEs" T_RANAP_RelocationCommand
  [ mkRow "id-L3-Information" 14 1 "L3-Information" T_RANAP_L3_Information Optional;
    mkRow "id-RAB-RelocationReleaseList" 46 1 "RAB-RelocationReleaseList" T_RANAP_RAB_RelocationReleaseList Optional;
    mkRow "id-RAB-DataForwardingList" 28 1 "RAB-DataForwardingList" T_RANAP_RAB_DataForwardingList Optional;
    mkRow "id-CriticalityDiagnostics" 9 1 "CriticalityDiagnostics" T_RANAP_CriticalityDiagnostics Optional ].
(* asn1/ranap/RANAP-PDU-Contents.asn:599-602 RAB-RelocationReleaseItemIEs *)
Definition M_RANAP_RAB_RelocationReleaseItemIEs : msgdef := mkMsg "RANAP_" "RAB-RelocationReleaseItemIEs" T_RANAP_RAB_RelocationReleaseList
  [ mkRow "id-RAB-RelocationReleaseItem" 45 1 "RAB-RelocationReleaseItem" T_RANAP_RAB_RelocationReleaseItem Mandatory ].
(* asn1/ranap/RANAP-PDU-Contents.asn:616-619 RAB-DataForwardingItemIEs *)
Definition M_RANAP_RAB_DataForwardingItemIEs : msgdef := mkMsg "RANAP_" "RAB-DataForwardingItemIEs" T_RANAP_RAB_DataForwardingList
  [ mkRow "id-RAB-DataForwardingItem" 26 1 "RAB-DataForwardingItem" T_RANAP_RAB_DataForwardingItem Mandatory ].
(* asn1/ranap/RANAP-PDU-Contents.asn:660-664 RelocationPreparationFailureIEs *)
Definition M_RANAP_RelocationPreparationFailureIEs : msgdef := mkMsg "RANAP_" "RelocationPreparationFailureIEs" T_RANAP_RelocationPreparationFailure
  [ mkRow "id-Cause" 4 1 "Cause" T_RANAP_Cause Mandatory;
    mkRow "id-CriticalityDiagnostics" 9 1 "CriticalityDiagnostics" T_RANAP_CriticalityDiagnostics Optional ].
(* asn1/ranap/RANAP-PDU-Contents.asn:690-700 RelocationRequestIEs *)
Definition M_RANAP_RelocationRequestIEs : msgdef := mkMsg "RANAP_" "RelocationRequestIEs" T_RANAP_RelocationRequest
  [ mkRow "id-PermanentNAS-UE-ID" 23 1 "PermanentNAS-UE-ID" T_RANAP_PermanentNAS_UE_ID Optional;
    mkRow "id-Cause" 4 1 "Cause" T_RANAP_Cause Mandatory;
    mkRow "id-CN-DomainIndicator" 3 0 "CN-DomainIndicator" T_RANAP_CN_DomainIndicator Mandatory;
    mkRow "id-Source-ToTarget-TransparentContainer" 61 0 "SourceRNC-ToTargetRNC-TransparentContainer" T_RANAP_SourceRNC_ToTargetRNC_TransparentContainer Mandatory;
    mkRow "id-RAB-SetupList-RelocReq" 49 0 "RAB-SetupList-RelocReq" T_RANAP_RAB_SetupList_RelocReq Optional;
    mkRow "id-IntegrityProtectionInformation" 12 1 "IntegrityProtectionInformation" T_RANAP_IntegrityProtectionInformation Optional;
    mkRow "id-EncryptionInformation" 11 1 "EncryptionInformation" T_RANAP_EncryptionInformation Optional;
    mkRow "id-IuSigConId" 79 1 "IuSignallingConnectionIdentifier" T_RANAP_IuSignallingConnectionIdentifier Mandatory ].
(* asn1/ranap/RANAP-PDU-Contents.asn:704-707 RAB-SetupItem-RelocReq-IEs *)
Definition M_RANAP_RAB_SetupItem_RelocReq_IEs : msgdef := mkMsg "RANAP_" "RAB-SetupItem-RelocReq-IEs" T_RANAP_RAB_SetupList_RelocReq
  [ mkRow "id-RAB-SetupItem-RelocReq" 47 0 "RAB-SetupItem-RelocReq" T_RANAP_RAB_SetupItem_RelocReq Mandatory ].
(* asn1/ranap/RANAP-PDU-Contents.asn:808-816 RelocationRequestAcknowledgeIEs *)
Definition M_RANAP_RelocationRequestAcknowledgeIEs : msgdef := mkMsg "RANAP_" "RelocationRequestAcknowledgeIEs" T_RANAP_RelocationRequestAcknowledge
  [ mkRow "id-Target-ToSource-TransparentContainer" 63 1 "TargetRNC-ToSourceRNC-TransparentContainer" T_RANAP_TargetRNC_ToSourceRNC_TransparentContainer Optional;
    mkRow "id-RAB-SetupList-RelocReqAck" 50 1 "RAB-SetupList-RelocReqAck" T_RANAP_RAB_SetupList_RelocReqAck Optional;
    mkRow "id-RAB-FailedList" 35 1 "RAB-FailedList" T_RANAP_RAB_FailedList Optional;
    mkRow "id-ChosenIntegrityProtectionAlgorithm" 6 1 "ChosenIntegrityProtectionAlgorithm" T_RANAP_ChosenIntegrityProtectionAlgorithm Optional;
    mkRow "id-ChosenEncryptionAlgorithm" 5 1 "ChosenEncryptionAlgorithm" T_RANAP_ChosenEncryptionAlgorithm Optional;
    mkRow "id-CriticalityDiagnostics" 9 1 "CriticalityDiagnostics" T_RANAP_CriticalityDiagnostics Optional ].
(* asn1/ranap/RANAP-PDU-Contents.asn:820-823 RAB-SetupItem-RelocReqAck-IEs *)
Definition M_RANAP_RAB_SetupItem_RelocReqAck_IEs : msgdef := mkMsg "RANAP_" "RAB-SetupItem-RelocReqAck-IEs" T_RANAP_RAB_SetupList_RelocReqAck
  [ mkRow "id-RAB-SetupItem-RelocReqAck" 48 0 "RAB-SetupItem-RelocReqAck" T_RANAP_RAB_SetupItem_RelocReqAck Mandatory ].
(* asn1/ranap/RANAP-PDU-Contents.asn:844-847 RAB-FailedItemIEs *)
Definition M_RANAP_RAB_FailedItemIEs : msgdef := mkMsg "RANAP_" "RAB-FailedItemIEs" T_RANAP_RAB_FailedList
  [ mkRow "id-RAB-FailedItem" 34 1 "RAB-FailedItem" T_RANAP_RAB_FailedItem Mandatory ].
(* asn1/ranap/RANAP-PDU-Contents.asn:879-883 RelocationFailureIEs *)
Definition M_RANAP_RelocationFailureIEs : msgdef := mkMsg "RANAP_" "RelocationFailureIEs" T_RANAP_RelocationFailure
  [ mkRow "id-Cause" 4 1 "Cause" T_RANAP_Cause Mandatory;
    mkRow "id-CriticalityDiagnostics" 9 1 "CriticalityDiagnostics" T_RANAP_CriticalityDiagnostics Optional ].
(* asn1/ranap/RANAP-PDU-Contents.asn:911-914 RelocationCancelIEs *)
Definition M_RANAP_RelocationCancelIEs : msgdef := mkMsg "RANAP_" "RelocationCancelIEs" T_RANAP_RelocationCancel
  [ mkRow "id-Cause" 4 1 "Cause" T_RANAP_Cause Mandatory ].
(* asn1/ranap/RANAP-PDU-Contents.asn:932-935 RelocationCancelAcknowledgeIEs *)
Definition M_RANAP_RelocationCancelAcknowledgeIEs : msgdef := mkMsg "RANAP_" "RelocationCancelAcknowledgeIEs" T_RANAP_RelocationCancelAcknowledge
  [ mkRow "id-CriticalityDiagnostics" 9 1 "CriticalityDiagnostics" T_RANAP_CriticalityDiagnostics Optional ].
(* asn1/ranap/RANAP-PDU-Contents.asn:959-962 SRNS-ContextRequestIEs *)
Definition M_RANAP_SRNS_ContextRequestIEs : msgdef := mkMsg "RANAP_" "SRNS-ContextRequestIEs" T_RANAP_SRNS_ContextRequest
  [ mkRow "id-RAB-DataForwardingList-SRNS-CtxReq" 29 1 "RAB-DataForwardingList-SRNS-CtxReq" T_RANAP_RAB_DataForwardingList_SRNS_CtxReq Mandatory ].
(* asn1/ranap/RANAP-PDU-Contents.asn:966-969 RAB-DataForwardingItem-SRNS-CtxReq-IEs *)
Definition M_RANAP_RAB_DataForwardingItem_SRNS_CtxReq_IEs : msgdef := mkMsg "RANAP_" "RAB-DataForwardingItem-SRNS-CtxReq-IEs" T_RANAP_RAB_DataForwardingList_SRNS_CtxReq
  [ mkRow "id-RAB-DataForwardingItem-SRNS-CtxReq" 27 0 "RAB-DataForwardingItem-SRNS-CtxReq" T_RANAP_RAB_DataForwardingItem_SRNS_CtxReq Mandatory ].
(* asn1/ranap/RANAP-PDU-Contents.asn:999-1004 SRNS-ContextResponseIEs *)
Definition M_RANAP_SRNS_ContextResponseIEs : msgdef := mkMsg "RANAP_" "SRNS-ContextResponseIEs" T_RANAP_SRNS_ContextResponse
  [ mkRow "id-RAB-ContextList" 25 1 "RAB-ContextList" T_RANAP_RAB_ContextList Optional;
    mkRow "id-RAB-ContextFailedtoTransferList" 85 1 "RABs-ContextFailedtoTransferList" T_RANAP_RABs_ContextFailedtoTransferList Optional;
    mkRow "id-CriticalityDiagnostics" 9 1 "CriticalityDiagnostics" T_RANAP_CriticalityDiagnostics Optional ].
(* asn1/ranap/RANAP-PDU-Contents.asn:1008-1011 RAB-ContextItemIEs *)
Definition M_RANAP_RAB_ContextItemIEs : msgdef := mkMsg "RANAP_" "RAB-ContextItemIEs" T_RANAP_RAB_ContextList
  [ mkRow "id-RAB-ContextItem" 24 1 "RAB-ContextItem" T_RANAP_RAB_ContextItem Mandatory ].
(* asn1/ranap/RANAP-PDU-Contents.asn:1029-1032 RABs-ContextFailedtoTransferItemIEs *)
Definition M_RANAP_RABs_ContextFailedtoTransferItemIEs : msgdef := mkMsg "RANAP_" "RABs-ContextFailedtoTransferItemIEs" T_RANAP_RABs_ContextFailedtoTransferList
  [ mkRow "id-RAB-ContextFailedtoTransferItem" 84 1 "RABs-ContextFailedtoTransferItem" T_RANAP_RABs_ContextFailedtoTransferItem Mandatory ].
(* asn1/ranap/RANAP-PDU-Contents.asn:1068-1073 SecurityModeCommandIEs *)
Definition M_RANAP_SecurityModeCommandIEs : msgdef := mkMsg "RANAP_" "SecurityModeCommandIEs" T_RANAP_SecurityModeCommand
  [ mkRow "id-IntegrityProtectionInformation" 12 0 "IntegrityProtectionInformation" T_RANAP_IntegrityProtectionInformation Mandatory;
    mkRow "id-EncryptionInformation" 11 1 "EncryptionInformation" T_RANAP_EncryptionInformation Optional;
    mkRow "id-KeyStatus" 75 0 "KeyStatus" T_RANAP_KeyStatus Mandatory ].
(* asn1/ranap/RANAP-PDU-Contents.asn:1091-1096 SecurityModeCompleteIEs *)
Definition M_RANAP_SecurityModeCompleteIEs : msgdef := mkMsg "RANAP_" "SecurityModeCompleteIEs" T_RANAP_SecurityModeComplete
  [ mkRow "id-ChosenIntegrityProtectionAlgorithm" 6 0 "ChosenIntegrityProtectionAlgorithm" T_RANAP_ChosenIntegrityProtectionAlgorithm Mandatory;
    mkRow "id-ChosenEncryptionAlgorithm" 5 1 "ChosenEncryptionAlgorithm" T_RANAP_ChosenEncryptionAlgorithm Optional;
    mkRow "id-CriticalityDiagnostics" 9 1 "CriticalityDiagnostics" T_RANAP_CriticalityDiagnostics Optional ].
(* asn1/ranap/RANAP-PDU-Contents.asn:1114-1118 SecurityModeRejectIEs *)
Definition M_RANAP_SecurityModeRejectIEs : msgdef := mkMsg "RANAP_" "SecurityModeRejectIEs" T_RANAP_SecurityModeReject
  [ mkRow "id-Cause" 4 1 "Cause" T_RANAP_Cause Mandatory;
    mkRow "id-CriticalityDiagnostics" 9 1 "CriticalityDiagnostics" T_RANAP_CriticalityDiagnostics Optional ].
(* asn1/ranap/RANAP-PDU-Contents.asn:1142-1145 DataVolumeReportRequestIEs *)
Definition M_RANAP_DataVolumeReportRequestIEs : msgdef := mkMsg "RANAP_" "DataVolumeReportRequestIEs" T_RANAP_DataVolumeReportRequest
  [ mkRow "id-RAB-DataVolumeReportRequestList" 33 1 "RAB-DataVolumeReportRequestList" T_RANAP_RAB_DataVolumeReportRequestList Mandatory ].
(* asn1/ranap/RANAP-PDU-Contents.asn:1149-1152 RAB-DataVolumeReportRequestItemIEs *)
Definition M_RANAP_RAB_DataVolumeReportRequestItemIEs : msgdef := mkMsg "RANAP_" "RAB-DataVolumeReportRequestItemIEs" T_RANAP_RAB_DataVolumeReportRequestList
  [ mkRow "id-RAB-DataVolumeReportRequestItem" 32 0 "RAB-DataVolumeReportRequestItem" T_RANAP_RAB_DataVolumeReportRequestItem Mandatory ].
(* asn1/ranap/RANAP-PDU-Contents.asn:1180-1185 DataVolumeReportIEs *)
Definition M_RANAP_DataVolumeReportIEs : msgdef := mkMsg "RANAP_" "DataVolumeReportIEs" T_RANAP_DataVolumeReport
  [ mkRow "id-RAB-DataVolumeReportList" 31 1 "RAB-DataVolumeReportList" T_RANAP_RAB_DataVolumeReportList Optional;
    mkRow "id-RAB-FailedtoReportList" 72 1 "RABs-failed-to-reportList" T_RANAP_RABs_failed_to_reportList Optional;
    mkRow "id-CriticalityDiagnostics" 9 1 "CriticalityDiagnostics" T_RANAP_CriticalityDiagnostics Optional ].
(* asn1/ranap/RANAP-PDU-Contents.asn:1193-1196 RABs-failed-to-reportItemIEs *)
Definition M_RANAP_RABs_failed_to_reportItemIEs : msgdef := mkMsg "RANAP_" "RABs-failed-to-reportItemIEs" T_RANAP_RABs_failed_to_reportList
  [ mkRow "id-RAB-FailedtoReportItem" 71 1 "RABs-failed-to-reportItem" T_RANAP_RABs_failed_to_reportItem Mandatory ].
(* asn1/ranap/RANAP-PDU-Contents.asn:1229-1234 ResetIEs *)
Definition M_RANAP_ResetIEs : msgdef := mkMsg "RANAP_" "ResetIEs" T_RANAP_Reset
  [ mkRow "id-Cause" 4 1 "Cause" T_RANAP_Cause Mandatory;
    mkRow "id-CN-DomainIndicator" 3 0 "CN-DomainIndicator" T_RANAP_CN_DomainIndicator Mandatory;
    mkRow "id-GlobalRNC-ID" 86 1 "GlobalRNC-ID" T_RANAP_GlobalRNC_ID Optional ].
(* asn1/ranap/RANAP-PDU-Contents.asn:1256-1261 ResetAcknowledgeIEs *)
Definition M_RANAP_ResetAcknowledgeIEs : msgdef := mkMsg "RANAP_" "ResetAcknowledgeIEs" T_RANAP_ResetAcknowledge
  [ mkRow "id-CN-DomainIndicator" 3 0 "CN-DomainIndicator" T_RANAP_CN_DomainIndicator Mandatory;
    mkRow "id-CriticalityDiagnostics" 9 1 "CriticalityDiagnostics" T_RANAP_CriticalityDiagnostics Optional;
    mkRow "id-GlobalRNC-ID" 86 1 "GlobalRNC-ID" T_RANAP_GlobalRNC_ID Optional ].
(* asn1/ranap/RANAP-PDU-Contents.asn:1289-1295 ResetResourceIEs *)
Definition M_RANAP_ResetResourceIEs : msgdef := mkMsg "RANAP_" "ResetResourceIEs" T_RANAP_ResetResource
  [ mkRow "id-CN-DomainIndicator" 3 0 "CN-DomainIndicator" T_RANAP_CN_DomainIndicator Mandatory;
    mkRow "id-Cause" 4 1 "Cause" T_RANAP_Cause Mandatory;
    mkRow "id-IuSigConIdList" 77 1 "ResetResourceList" T_RANAP_ResetResourceList Mandatory;
    mkRow "id-GlobalRNC-ID" 86 1 "GlobalRNC-ID" T_RANAP_GlobalRNC_ID Optional ].
(* asn1/ranap/RANAP-PDU-Contents.asn:1299-1302 ResetResourceItemIEs *)
Definition M_RANAP_ResetResourceItemIEs : msgdef := mkMsg "RANAP_" "ResetResourceItemIEs" T_RANAP_ResetResourceList
  [ mkRow "id-IuSigConIdItem" 78 0 "ResetResourceItem" T_RANAP_ResetResourceItem Mandatory ].
(* asn1/ranap/RANAP-PDU-Contents.asn:1334-1340 ResetResourceAcknowledgeIEs *)
Definition M_RANAP_ResetResourceAcknowledgeIEs : msgdef := mkMsg "RANAP_" "ResetResourceAcknowledgeIEs" T_RANAP_ResetResourceAcknowledge
  [ mkRow "id-CN-DomainIndicator" 3 0 "CN-DomainIndicator" T_RANAP_CN_DomainIndicator Mandatory;
    mkRow "id-IuSigConIdList" 77 1 "ResetResourceAckList" T_RANAP_ResetResourceAckList Mandatory;
    mkRow "id-GlobalRNC-ID" 86 1 "GlobalRNC-ID" T_RANAP_GlobalRNC_ID Optional;
    mkRow "id-CriticalityDiagnostics" 9 1 "CriticalityDiagnostics" T_RANAP_CriticalityDiagnostics Optional ].
(* asn1/ranap/RANAP-PDU-Contents.asn:1343-1346 ResetResourceAckItemIEs *)
Definition M_RANAP_ResetResourceAckItemIEs : msgdef := mkMsg "RANAP_" "ResetResourceAckItemIEs" T_RANAP_ResetResourceAckList
  [ mkRow "id-IuSigConIdItem" 78 0 "ResetResourceAckItem" T_RANAP_ResetResourceAckItem Mandatory ].
(* asn1/ranap/RANAP-PDU-Contents.asn:1384-1387 RAB-ReleaseRequestIEs *)
Definition M_RANAP_RAB_ReleaseRequestIEs : msgdef := mkMsg "RANAP_" "RAB-ReleaseRequestIEs" T_RANAP_RAB_ReleaseRequest
  [ mkRow "id-RAB-ReleaseList" 41 1 "RAB-ReleaseList" T_RANAP_RAB_ReleaseList Mandatory ].
(* asn1/ranap/RANAP-PDU-Contents.asn:1391-1394 RAB-ReleaseItemIEs *)
Definition M_RANAP_RAB_ReleaseItemIEs : msgdef := mkMsg "RANAP_" "RAB-ReleaseItemIEs" T_RANAP_RAB_ReleaseList
  [ mkRow "id-RAB-ReleaseItem" 40 1 "RAB-ReleaseItem" T_RANAP_RAB_ReleaseItem Mandatory ].
(* asn1/ranap/RANAP-PDU-Contents.asn:1429-1432 Iu-ReleaseRequestIEs *)
Definition M_RANAP_Iu_ReleaseRequestIEs : msgdef := mkMsg "RANAP_" "Iu-ReleaseRequestIEs" T_RANAP_Iu_ReleaseRequest
  [ mkRow "id-Cause" 4 1 "Cause" T_RANAP_Cause Mandatory ].
(* asn1/ranap/RANAP-PDU-Contents.asn:1514-1523 EnhancedRelocationCompleteRequestIEs *)
Definition M_RANAP_EnhancedRelocationCompleteRequestIEs : msgdef := mkMsg "RANAP_" "EnhancedRelocationCompleteRequestIEs" T_RANAP_EnhancedRelocationCompleteRequest
  [ mkRow "id-OldIuSigConId" 196 0 "IuSignallingConnectionIdentifier" T_RANAP_IuSignallingConnectionIdentifier Mandatory;
    mkRow "id-IuSigConId" 79 0 "IuSignallingConnectionIdentifier" T_RANAP_IuSignallingConnectionIdentifier Mandatory;
    mkRow "id-Relocation-SourceRNC-ID" 222 1 "GlobalRNC-ID" T_RANAP_GlobalRNC_ID Mandatory;
    mkRow "id-Relocation-SourceExtendedRNC-ID" 223 1 "ExtendedRNC-ID" T_RANAP_ExtendedRNC_ID Optional;
    mkRow "id-Relocation-TargetRNC-ID" 212 0 "GlobalRNC-ID" T_RANAP_GlobalRNC_ID Mandatory;
    mkRow "id-Relocation-TargetExtendedRNC-ID" 213 0 "ExtendedRNC-ID" T_RANAP_ExtendedRNC_ID Optional;
    mkRow "id-RAB-SetupList-EnhancedRelocCompleteReq" 188 0 "RAB-SetupList-EnhancedRelocCompleteReq" T_RANAP_RAB_SetupList_EnhancedRelocCompleteReq Optional ].
(* asn1/ranap/RANAP-PDU-Contents.asn:1527-1530 RAB-SetupItem-EnhancedRelocCompleteReq-IEs *)
Definition M_RANAP_RAB_SetupItem_EnhancedRelocCompleteReq_IEs : msgdef := mkMsg "RANAP_" "RAB-SetupItem-EnhancedRelocCompleteReq-IEs" T_RANAP_RAB_SetupList_EnhancedRelocCompleteReq
  [ mkRow "id-RAB-SetupItem-EnhancedRelocCompleteReq" 189 0 "RAB-SetupItem-EnhancedRelocCompleteReq" T_RANAP_RAB_SetupItem_EnhancedRelocCompleteReq Mandatory ].
(* asn1/ranap/RANAP-PDU-Contents.asn:1572-1577 EnhancedRelocationCompleteResponseIEs *)
Definition M_RANAP_EnhancedRelocationCompleteResponseIEs : msgdef := mkMsg "RANAP_" "EnhancedRelocationCompleteResponseIEs" T_RANAP_EnhancedRelocationCompleteResponse
  [ mkRow "id-RAB-SetupList-EnhancedRelocCompleteRes" 190 1 "RAB-SetupList-EnhancedRelocCompleteRes" T_RANAP_RAB_SetupList_EnhancedRelocCompleteRes Optional;
    mkRow "id-RAB-ToBeReleasedList-EnhancedRelocCompleteRes" 210 1 "RAB-ToBeReleasedList-EnhancedRelocCompleteRes" T_RANAP_RAB_ToBeReleasedList_EnhancedRelocCompleteRes Optional;
    mkRow "id-CriticalityDiagnostics" 9 1 "CriticalityDiagnostics" T_RANAP_CriticalityDiagnostics Optional ].
(* asn1/ranap/RANAP-PDU-Contents.asn:1581-1584 RAB-SetupItem-EnhancedRelocCompleteRes-IEs *)
Definition M_RANAP_RAB_SetupItem_EnhancedRelocCompleteRes_IEs : msgdef := mkMsg "RANAP_" "RAB-SetupItem-EnhancedRelocCompleteRes-IEs" T_RANAP_RAB_SetupList_EnhancedRelocCompleteRes
  [ mkRow "id-RAB-SetupItem-EnhancedRelocCompleteRes" 191 0 "RAB-SetupItem-EnhancedRelocCompleteRes" T_RANAP_RAB_SetupItem_EnhancedRelocCompleteRes Mandatory ].
(* asn1/ranap/RANAP-PDU-Contents.asn:1605-1608 RAB-ToBeReleasedItem-EnhancedRelocCompleteRes-IEs *)
Definition M_RANAP_RAB_ToBeReleasedItem_EnhancedRelocCompleteRes_IEs : msgdef := mkMsg "RANAP_" "RAB-ToBeReleasedItem-EnhancedRelocCompleteRes-IEs" T_RANAP_RAB_ToBeReleasedList_EnhancedRelocCompleteRes
  [ mkRow "id-RAB-ToBeReleasedItem-EnhancedRelocCompleteRes" 209 1 "RAB-ToBeReleasedItem-EnhancedRelocCompleteRes" T_RANAP_RAB_ToBeReleasedItem_EnhancedRelocCompleteRes Mandatory ].
(* asn1/ranap/RANAP-PDU-Contents.asn:1642-1646 EnhancedRelocationCompleteFailureIEs *)
Definition M_RANAP_EnhancedRelocationCompleteFailureIEs : msgdef := mkMsg "RANAP_" "EnhancedRelocationCompleteFailureIEs" T_RANAP_EnhancedRelocationCompleteFailure
  [ mkRow "id-Cause" 4 1 "Cause" T_RANAP_Cause Mandatory;
    mkRow "id-CriticalityDiagnostics" 9 1 "CriticalityDiagnostics" T_RANAP_CriticalityDiagnostics Optional ].
(* asn1/ranap/RANAP-PDU-Contents.asn:1664-1667 EnhancedRelocationCompleteConfirmIEs *)
Definition M_RANAP_EnhancedRelocationCompleteConfirmIEs : msgdef := mkMsg "RANAP_" "EnhancedRelocationCompleteConfirmIEs" T_RANAP_EnhancedRelocationCompleteConfirm
  [ mkRow "id-RAB-FailedList" 35 1 "RAB-FailedList" T_RANAP_RAB_FailedList Optional ].
(* asn1/ranap/RANAP-PDU-Contents.asn:1692-1701 PagingIEs *)
Definition M_RANAP_PagingIEs : msgdef := mkMsg "RANAP_" "PagingIEs" T_RANAP_Paging
  [ mkRow "id-CN-DomainIndicator" 3 1 "CN-DomainIndicator" T_RANAP_CN_DomainIndicator Mandatory;
    mkRow "id-PermanentNAS-UE-ID" 23 1 "PermanentNAS-UE-ID" T_RANAP_PermanentNAS_UE_ID Mandatory;
    mkRow "id-TemporaryUE-ID" 64 1 "TemporaryUE-ID" T_RANAP_TemporaryUE_ID Optional;
    mkRow "id-PagingAreaID" 21 1 "PagingAreaID" T_RANAP_PagingAreaID Optional;
    mkRow "id-PagingCause" 22 1 "PagingCause" T_RANAP_PagingCause Optional;
    mkRow "id-NonSearchingIndication" 17 1 "NonSearchingIndication" T_RANAP_NonSearchingIndication Optional;
    mkRow "id-DRX-CycleLengthCoefficient" 76 1 "DRX-CycleLengthCoefficient" T_RANAP_DRX_CycleLengthCoefficient Optional ].
(* asn1/ranap/RANAP-PDU-Contents.asn:1729-1732 CommonID-IEs *)
Definition M_RANAP_CommonID_IEs : msgdef := mkMsg "RANAP_" "CommonID-IEs" T_RANAP_CommonID
  [ mkRow "id-PermanentNAS-UE-ID" 23 1 "PermanentNAS-UE-ID" T_RANAP_PermanentNAS_UE_ID Mandatory ].
(* asn1/ranap/RANAP-PDU-Contents.asn:1776-1787 CN-InvokeTraceIEs *)
Definition M_RANAP_CN_InvokeTraceIEs : msgdef := mkMsg "RANAP_" "CN-InvokeTraceIEs" T_RANAP_CN_InvokeTrace
  [ mkRow "id-TraceType" 66 1 "TraceType" T_RANAP_TraceType Optional;
    mkRow "id-TraceReference" 65 1 "TraceReference" T_RANAP_TraceReference Mandatory;
    mkRow "id-TriggerID" 68 1 "TriggerID" T_RANAP_TriggerID Optional;
    mkRow "id-UE-ID" 69 1 "UE-ID" T_RANAP_UE_ID Optional;
    mkRow "id-OMC-ID" 19 1 "OMC-ID" T_RANAP_OMC_ID Optional ].
(* asn1/ranap/RANAP-PDU-Contents.asn:1817-1822 CN-DeactivateTraceIEs *)
Definition M_RANAP_CN_DeactivateTraceIEs : msgdef := mkMsg "RANAP_" "CN-DeactivateTraceIEs" T_RANAP_CN_DeactivateTrace
  [ mkRow "id-TraceReference" 65 1 "TraceReference" T_RANAP_TraceReference Mandatory;
    mkRow "id-TriggerID" 68 1 "TriggerID" T_RANAP_TriggerID Optional ].
(* asn1/ranap/RANAP-PDU-Contents.asn:1846-1849 LocationReportingControlIEs *)
Definition M_RANAP_LocationReportingControlIEs : msgdef := mkMsg "RANAP_" "LocationReportingControlIEs" T_RANAP_LocationReportingControl
  [ mkRow "id-RequestType" 57 1 "RequestType" T_RANAP_RequestType Mandatory ].
(* asn1/ranap/RANAP-PDU-Contents.asn:1885-1890 LocationReportIEs *)
Definition M_RANAP_LocationReportIEs : msgdef := mkMsg "RANAP_" "LocationReportIEs" T_RANAP_LocationReport
  [ mkRow "id-AreaIdentity" 0 1 "AreaIdentity" T_RANAP_AreaIdentity Optional;
    mkRow "id-Cause" 4 1 "Cause" T_RANAP_Cause Optional;
    mkRow "id-RequestType" 57 1 "RequestType" T_RANAP_RequestType Optional ].
(* asn1/ranap/RANAP-PDU-Contents.asn:1925-1935 InitialUE-MessageIEs *)
Definition M_RANAP_InitialUE_MessageIEs : msgdef := mkMsg "RANAP_" "InitialUE-MessageIEs" T_RANAP_InitialUE_Message
  [ mkRow "id-CN-DomainIndicator" 3 1 "CN-DomainIndicator" T_RANAP_CN_DomainIndicator Mandatory;
    mkRow "id-LAI" 15 1 "LAI" T_RANAP_LAI Mandatory;
    mkRow "id-RAC" 55 1 "RAC" T_RANAP_RAC Conditional;
    mkRow "id-SAI" 58 1 "SAI" T_RANAP_SAI Mandatory;
    mkRow "id-NAS-PDU" 16 1 "NAS-PDU" T_RANAP_NAS_PDU Mandatory;
    mkRow "id-IuSigConId" 79 1 "IuSignallingConnectionIdentifier" T_RANAP_IuSignallingConnectionIdentifier Mandatory;
    mkRow "id-GlobalRNC-ID" 86 1 "GlobalRNC-ID" T_RANAP_GlobalRNC_ID Mandatory ].
(* asn1/ranap/RANAP-PDU-Contents.asn:1985-1992 DirectTransferIEs *)
Definition M_RANAP_DirectTransferIEs : msgdef := mkMsg "RANAP_" "DirectTransferIEs" T_RANAP_DirectTransfer
  [ mkRow "id-NAS-PDU" 16 1 "NAS-PDU" T_RANAP_NAS_PDU Mandatory;
    mkRow "id-LAI" 15 1 "LAI" T_RANAP_LAI Optional;
    mkRow "id-RAC" 55 1 "RAC" T_RANAP_RAC Optional;
    mkRow "id-SAI" 58 1 "SAI" T_RANAP_SAI Optional;
    mkRow "id-SAPI" 59 1 "SAPI" T_RANAP_SAPI Optional ].
(* asn1/ranap/RANAP-PDU-Contents.asn:2012-2018 RedirectionIndication-IEs *)
Definition M_RANAP_RedirectionIndication_IEs : msgdef := mkMsg "RANAP_" "RedirectionIndication-IEs" T_RANAP_RedirectionIndication
  [ mkRow "id-NAS-PDU" 16 1 "NAS-PDU" T_RANAP_NAS_PDU Mandatory;
    mkRow "id-RejectCauseValue" 131 1 "RejectCauseValue" T_RANAP_RejectCauseValue Mandatory;
    mkRow "id-NAS-SequenceNumber" 130 1 "NAS-SequenceNumber" T_RANAP_NAS_SequenceNumber Optional;
    mkRow "id-PermanentNAS-UE-ID" 23 1 "PermanentNAS-UE-ID" T_RANAP_PermanentNAS_UE_ID Optional ].
(* asn1/ranap/RANAP-PDU-Contents.asn:2038-2042 OverloadIEs *)
Definition M_RANAP_OverloadIEs : msgdef := mkMsg "RANAP_" "OverloadIEs" T_RANAP_Overload
  [ mkRow "id-NumberOfSteps" 18 1 "NumberOfSteps" T_RANAP_NumberOfSteps Optional;
    mkRow "id-GlobalRNC-ID" 86 1 "GlobalRNC-ID" T_RANAP_GlobalRNC_ID Optional ].
(* asn1/ranap/RANAP-PDU-Contents.asn:2074-2080 ErrorIndicationIEs *)
Definition M_RANAP_ErrorIndicationIEs : msgdef := mkMsg "RANAP_" "ErrorIndicationIEs" T_RANAP_ErrorIndication
  [ mkRow "id-Cause" 4 1 "Cause" T_RANAP_Cause Optional;
    mkRow "id-CriticalityDiagnostics" 9 1 "CriticalityDiagnostics" T_RANAP_CriticalityDiagnostics Optional;
    mkRow "id-CN-DomainIndicator" 3 1 "CN-DomainIndicator" T_RANAP_CN_DomainIndicator Optional;
    mkRow "id-GlobalRNC-ID" 86 1 "GlobalRNC-ID" T_RANAP_GlobalRNC_ID Optional ].
(* asn1/ranap/RANAP-PDU-Contents.asn:2108-2111 SRNS-DataForwardCommandIEs *)
Definition M_RANAP_SRNS_DataForwardCommandIEs : msgdef := mkMsg "RANAP_" "SRNS-DataForwardCommandIEs" T_RANAP_SRNS_DataForwardCommand
  [ mkRow "id-RAB-DataForwardingList" 28 1 "RAB-DataForwardingList" T_RANAP_RAB_DataForwardingList Optional ].
(* asn1/ranap/RANAP-PDU-Contents.asn:2135-2138 ForwardSRNS-ContextIEs *)
Definition M_RANAP_ForwardSRNS_ContextIEs : msgdef := mkMsg "RANAP_" "ForwardSRNS-ContextIEs" T_RANAP_ForwardSRNS_Context
  [ mkRow "id-RAB-ContextList" 25 1 "RAB-ContextList" T_RANAP_RAB_ContextList Mandatory ].
(* asn1/ranap/RANAP-PDU-Contents.asn:2164-2168 RAB-AssignmentRequestIEs *)
Definition M_RANAP_RAB_AssignmentRequestIEs : msgdef := mkMsg "RANAP_" "RAB-AssignmentRequestIEs" T_RANAP_RAB_AssignmentRequest
  [ mkRow "id-RAB-SetupOrModifyList" 54 1 "RAB-SetupOrModifyList" T_RANAP_RAB_SetupOrModifyList Optional;
    mkRow "id-RAB-ReleaseList" 41 1 "RAB-ReleaseList" T_RANAP_RAB_ReleaseList Optional ].
(* asn1/ranap/RANAP-PDU-Contents.asn:2253-2261 RAB-AssignmentResponseIEs *)
Definition M_RANAP_RAB_AssignmentResponseIEs : msgdef := mkMsg "RANAP_" "RAB-AssignmentResponseIEs" T_RANAP_RAB_AssignmentResponse
  [ mkRow "id-RAB-SetupOrModifiedList" 52 1 "RAB-SetupOrModifiedList" T_RANAP_RAB_SetupOrModifiedList Optional;
    mkRow "id-RAB-ReleasedList" 43 1 "RAB-ReleasedList" T_RANAP_RAB_ReleasedList Optional;
    mkRow "id-RAB-QueuedList" 38 1 "RAB-QueuedList" T_RANAP_RAB_QueuedList Optional;
    mkRow "id-RAB-FailedList" 35 1 "RAB-FailedList" T_RANAP_RAB_FailedList Optional;
    mkRow "id-RAB-ReleaseFailedList" 39 1 "RAB-ReleaseFailedList" T_RANAP_RAB_ReleaseFailedList Optional;
    mkRow "id-CriticalityDiagnostics" 9 1 "CriticalityDiagnostics" T_RANAP_CriticalityDiagnostics Optional ].
(* asn1/ranap/RANAP-PDU-Contents.asn:2265-2268 RAB-SetupOrModifiedItemIEs *)
Definition M_RANAP_RAB_SetupOrModifiedItemIEs : msgdef := mkMsg "RANAP_" "RAB-SetupOrModifiedItemIEs" T_RANAP_RAB_SetupOrModifiedList
  [ mkRow "id-RAB-SetupOrModifiedItem" 51 1 "RAB-SetupOrModifiedItem" T_RANAP_RAB_SetupOrModifiedItem Mandatory ].
(* asn1/ranap/RANAP-PDU-Contents.asn:2287-2290 RAB-ReleasedItemIEs *)
Definition M_RANAP_RAB_ReleasedItemIEs : msgdef := mkMsg "RANAP_" "RAB-ReleasedItemIEs" T_RANAP_RAB_ReleasedList
  [ mkRow "id-RAB-ReleasedItem" 42 1 "RAB-ReleasedItem" T_RANAP_RAB_ReleasedItem Mandatory ].
(* asn1/ranap/RANAP-PDU-Contents.asn:2320-2323 RAB-QueuedItemIEs *)
Definition M_RANAP_RAB_QueuedItemIEs : msgdef := mkMsg "RANAP_" "RAB-QueuedItemIEs" T_RANAP_RAB_QueuedList
  [ mkRow "id-RAB-QueuedItem" 37 1 "RAB-QueuedItem" T_RANAP_RAB_QueuedItem Mandatory ].
(* asn1/ranap/RANAP-PDU-Contents.asn:2345-2348 GERAN-Iumode-RAB-Failed-RABAssgntResponse-ItemIEs *)
Definition M_RANAP_GERAN_Iumode_RAB_Failed_RABAssgntResponse_ItemIEs : msgdef := mkMsg "RANAP_" "GERAN-Iumode-RAB-Failed-RABAssgntResponse-ItemIEs" T_RANAP_GERAN_Iumode_RAB_Failed_RABAssgntResponse_List
  [ mkRow "id-GERAN-Iumode-RAB-Failed-RABAssgntResponse-Item" 109 1 "GERAN-Iumode-RAB-Failed-RABAssgntResponse-Item" T_RANAP_GERAN_Iumode_RAB_Failed_RABAssgntResponse_Item Mandatory ].
(* asn1/ranap/RANAP-PDU-Contents.asn:2389-2395 RANAP-RelocationInformationIEs *)
Definition M_RANAP_RANAP_RelocationInformationIEs : msgdef := mkMsg "RANAP_" "RANAP-RelocationInformationIEs" T_RANAP_RANAP_RelocationInformation
  [ mkRow "id-RAB-ContextList-RANAP-RelocInf" 83 1 "RAB-ContextList-RANAP-RelocInf" T_RANAP_RAB_ContextList_RANAP_RelocInf Optional ].
(* asn1/ranap/RANAP-PDU-Contents.asn:2420-2423 RAB-ContextItemIEs-RANAP-RelocInf *)
Definition M_RANAP_RAB_ContextItemIEs_RANAP_RelocInf : msgdef := mkMsg "RANAP_" "RAB-ContextItemIEs-RANAP-RelocInf" T_RANAP_RAB_ContextList_RANAP_RelocInf
  [ mkRow "id-RAB-ContextItem-RANAP-RelocInf" 82 1 "RAB-ContextItem-RANAP-RelocInf" T_RANAP_RAB_ContextItem_RANAP_RelocInf Mandatory ].
(* asn1/ranap/RANAP-PDU-Contents.asn:2465-2477 RANAP-EnhancedRelocationInformationRequestIEs *)
Definition M_RANAP_RANAP_EnhancedRelocationInformationRequestIEs : msgdef := mkMsg "RANAP_" "RANAP-EnhancedRelocationInformationRequestIEs" T_RANAP_RANAP_EnhancedRelocationInformationRequest
  [ mkRow "id-Source-ToTarget-TransparentContainer" 61 0 "SourceRNC-ToTargetRNC-TransparentContainer" T_RANAP_SourceRNC_ToTargetRNC_TransparentContainer Mandatory;
    mkRow "id-OldIuSigConIdCS" 204 1 "IuSignallingConnectionIdentifier" T_RANAP_IuSignallingConnectionIdentifier Optional;
    mkRow "id-GlobalCN-IDCS" 206 0 "GlobalCN-ID" T_RANAP_GlobalCN_ID Optional;
    mkRow "id-OldIuSigConIdPS" 205 1 "IuSignallingConnectionIdentifier" T_RANAP_IuSignallingConnectionIdentifier Optional;
    mkRow "id-GlobalCN-IDPS" 207 0 "GlobalCN-ID" T_RANAP_GlobalCN_ID Optional;
    mkRow "id-RAB-SetupList-EnhRelocInfoReq" 192 0 "RAB-SetupList-EnhRelocInfoReq" T_RANAP_RAB_SetupList_EnhRelocInfoReq Optional;
    mkRow "id-SNA-Access-Information" 105 1 "SNA-Access-Information" T_RANAP_SNA_Access_Information Optional;
    mkRow "id-UESBI-Iu" 118 1 "UESBI-Iu" T_RANAP_UESBI_Iu Optional;
    mkRow "id-SelectedPLMN-ID" 127 1 "PLMNidentity" T_RANAP_PLMNidentity Optional;
    mkRow "id-CNMBMSLinkingInformation" 133 1 "CNMBMSLinkingInformation" T_RANAP_CNMBMSLinkingInformation Optional ].
(* asn1/ranap/RANAP-PDU-Contents.asn:2481-2484 RAB-SetupItem-EnhRelocInfoReq-IEs *)
Definition M_RANAP_RAB_SetupItem_EnhRelocInfoReq_IEs : msgdef := mkMsg "RANAP_" "RAB-SetupItem-EnhRelocInfoReq-IEs" T_RANAP_RAB_SetupList_EnhRelocInfoReq
  [ mkRow "id-RAB-SetupItem-EnhRelocInfoReq" 193 0 "RAB-SetupItem-EnhRelocInfoReq" T_RANAP_RAB_SetupItem_EnhRelocInfoReq Mandatory ].
(* asn1/ranap/RANAP-PDU-Contents.asn:2549-2555 RANAP-EnhancedRelocationInformationResponseIEs *)
Definition M_RANAP_RANAP_EnhancedRelocationInformationResponseIEs : msgdef := mkMsg "RANAP_" "RANAP-EnhancedRelocationInformationResponseIEs" T_RANAP_RANAP_EnhancedRelocationInformationResponse
  [ mkRow "id-Target-ToSource-TransparentContainer" 63 1 "TargetRNC-ToSourceRNC-TransparentContainer" T_RANAP_TargetRNC_ToSourceRNC_TransparentContainer Optional;
    mkRow "id-RAB-SetupList-EnhRelocInfoRes" 194 1 "RAB-SetupList-EnhRelocInfoRes" T_RANAP_RAB_SetupList_EnhRelocInfoRes Optional;
    mkRow "id-RAB-FailedList-EnhRelocInfoRes" 197 1 "RAB-FailedList-EnhRelocInfoRes" T_RANAP_RAB_FailedList_EnhRelocInfoRes Optional;
    mkRow "id-CriticalityDiagnostics" 9 1 "CriticalityDiagnostics" T_RANAP_CriticalityDiagnostics Optional ].
(* asn1/ranap/RANAP-PDU-Contents.asn:2559-2562 RAB-SetupItem-EnhRelocInfoRes-IEs *)
Definition M_RANAP_RAB_SetupItem_EnhRelocInfoRes_IEs : msgdef := mkMsg "RANAP_" "RAB-SetupItem-EnhRelocInfoRes-IEs" T_RANAP_RAB_SetupList_EnhRelocInfoRes
  [ mkRow "id-RAB-SetupItem-EnhRelocInfoRes" 195 0 "RAB-SetupItem-EnhRelocInfoRes" T_RANAP_RAB_SetupItem_EnhRelocInfoRes Mandatory ].
(* asn1/ranap/RANAP-PDU-Contents.asn:2579-2582 RAB-FailedItem-EnhRelocInfoRes-IEs *)
Definition M_RANAP_RAB_FailedItem_EnhRelocInfoRes_IEs : msgdef := mkMsg "RANAP_" "RAB-FailedItem-EnhRelocInfoRes-IEs" T_RANAP_RAB_FailedList_EnhRelocInfoRes
  [ mkRow "id-RAB-FailedItem-EnhRelocInfoRes" 198 0 "RAB-FailedItem-EnhRelocInfoRes" T_RANAP_RAB_FailedItem_EnhRelocInfoRes Mandatory ].
(* asn1/ranap/RANAP-PDU-Contents.asn:2627-2630 RAB-ModifyRequestIEs *)
Definition M_RANAP_RAB_ModifyRequestIEs : msgdef := mkMsg "RANAP_" "RAB-ModifyRequestIEs" T_RANAP_RAB_ModifyRequest
  [ mkRow "id-RAB-ModifyList" 91 1 "RAB-ModifyList" T_RANAP_RAB_ModifyList Mandatory ].
(* asn1/ranap/RANAP-PDU-Contents.asn:2634-2637 RAB-ModifyItemIEs *)
Definition M_RANAP_RAB_ModifyItemIEs : msgdef := mkMsg "RANAP_" "RAB-ModifyItemIEs" T_RANAP_RAB_ModifyList
  [ mkRow "id-RAB-ModifyItem" 92 1 "RAB-ModifyItem" T_RANAP_RAB_ModifyItem Mandatory ].
(* asn1/ranap/RANAP-PDU-Contents.asn:2672-2676 LocationRelatedDataRequestIEs *)
Definition M_RANAP_LocationRelatedDataRequestIEs : msgdef := mkMsg "RANAP_" "LocationRelatedDataRequestIEs" T_RANAP_LocationRelatedDataRequest
  [ mkRow "id-LocationRelatedDataRequestType" 95 0 "LocationRelatedDataRequestType" T_RANAP_LocationRelatedDataRequestType Optional ].
(* asn1/ranap/RANAP-PDU-Contents.asn:2700-2703 LocationRelatedDataResponseIEs *)
Definition M_RANAP_LocationRelatedDataResponseIEs : msgdef := mkMsg "RANAP_" "LocationRelatedDataResponseIEs" T_RANAP_LocationRelatedDataResponse
  [ mkRow "id-BroadcastAssistanceDataDecipheringKeys" 94 1 "BroadcastAssistanceDataDecipheringKeys" T_RANAP_BroadcastAssistanceDataDecipheringKeys Optional ].
(* asn1/ranap/RANAP-PDU-Contents.asn:2724-2727 LocationRelatedDataFailureIEs *)
Definition M_RANAP_LocationRelatedDataFailureIEs : msgdef := mkMsg "RANAP_" "LocationRelatedDataFailureIEs" T_RANAP_LocationRelatedDataFailure
  [ mkRow "id-Cause" 4 1 "Cause" T_RANAP_Cause Mandatory ].
(* asn1/ranap/RANAP-PDU-Contents.asn:2753-2759 InformationTransferIndicationIEs *)
Definition M_RANAP_InformationTransferIndicationIEs : msgdef := mkMsg "RANAP_" "InformationTransferIndicationIEs" T_RANAP_InformationTransferIndication
  [ mkRow "id-InformationTransferID" 104 0 "InformationTransferID" T_RANAP_InformationTransferID Mandatory;
    mkRow "id-ProvidedData" 106 0 "ProvidedData" T_RANAP_ProvidedData Mandatory;
    mkRow "id-CN-DomainIndicator" 3 0 "CN-DomainIndicator" T_RANAP_CN_DomainIndicator Mandatory;
    mkRow "id-GlobalCN-ID" 96 1 "GlobalCN-ID" T_RANAP_GlobalCN_ID Optional ].
(* asn1/ranap/RANAP-PDU-Contents.asn:2777-2783 InformationTransferConfirmationIEs *)
Definition M_RANAP_InformationTransferConfirmationIEs : msgdef := mkMsg "RANAP_" "InformationTransferConfirmationIEs" T_RANAP_InformationTransferConfirmation
  [ mkRow "id-InformationTransferID" 104 1 "InformationTransferID" T_RANAP_InformationTransferID Mandatory;
    mkRow "id-CN-DomainIndicator" 3 1 "CN-DomainIndicator" T_RANAP_CN_DomainIndicator Mandatory;
    mkRow "id-CriticalityDiagnostics" 9 1 "CriticalityDiagnostics" T_RANAP_CriticalityDiagnostics Optional;
    mkRow "id-GlobalRNC-ID" 86 1 "GlobalRNC-ID" T_RANAP_GlobalRNC_ID Mandatory ].
(* asn1/ranap/RANAP-PDU-Contents.asn:2803-2810 InformationTransferFailureIEs *)
Definition M_RANAP_InformationTransferFailureIEs : msgdef := mkMsg "RANAP_" "InformationTransferFailureIEs" T_RANAP_InformationTransferFailure
  [ mkRow "id-InformationTransferID" 104 1 "InformationTransferID" T_RANAP_InformationTransferID Mandatory;
    mkRow "id-CN-DomainIndicator" 3 1 "CN-DomainIndicator" T_RANAP_CN_DomainIndicator Mandatory;
    mkRow "id-Cause" 4 1 "Cause" T_RANAP_Cause Mandatory;
    mkRow "id-CriticalityDiagnostics" 9 1 "CriticalityDiagnostics" T_RANAP_CriticalityDiagnostics Optional;
    mkRow "id-GlobalRNC-ID" 86 1 "GlobalRNC-ID" T_RANAP_GlobalRNC_ID Mandatory ].
(* asn1/ranap/RANAP-PDU-Contents.asn:2836-2839 UESpecificInformationIndicationIEs *)
Definition M_RANAP_UESpecificInformationIndicationIEs : msgdef := mkMsg "RANAP_" "UESpecificInformationIndicationIEs" T_RANAP_UESpecificInformationIndication
  [ mkRow "id-UESBI-Iu" 118 1 "UESBI-Iu" T_RANAP_UESBI_Iu Optional ].
(* asn1/ranap/RANAP-PDU-Contents.asn:2863-2869 DirectInformationTransferIEs *)
Definition M_RANAP_DirectInformationTransferIEs : msgdef := mkMsg "RANAP_" "DirectInformationTransferIEs" T_RANAP_DirectInformationTransfer
  [ mkRow "id-InterSystemInformationTransferType" 126 1 "InterSystemInformationTransferType" T_RANAP_InterSystemInformationTransferType Optional;
    mkRow "id-CN-DomainIndicator" 3 1 "CN-DomainIndicator" T_RANAP_CN_DomainIndicator Mandatory;
    mkRow "id-GlobalRNC-ID" 86 1 "GlobalRNC-ID" T_RANAP_GlobalRNC_ID Optional;
    mkRow "id-GlobalCN-ID" 96 1 "GlobalCN-ID" T_RANAP_GlobalCN_ID Optional ].
(* asn1/ranap/RANAP-PDU-Contents.asn:2895-2905 UplinkInformationExchangeRequestIEs *)
Definition M_RANAP_UplinkInformationExchangeRequestIEs : msgdef := mkMsg "RANAP_" "UplinkInformationExchangeRequestIEs" T_RANAP_UplinkInformationExchangeRequest
  [ mkRow "id-InformationExchangeID" 136 0 "InformationExchangeID" T_RANAP_InformationExchangeID Mandatory;
    mkRow "id-InformationExchangeType" 137 0 "InformationExchangeType" T_RANAP_InformationExchangeType Mandatory;
    mkRow "id-CN-DomainIndicator" 3 0 "CN-DomainIndicator" T_RANAP_CN_DomainIndicator Mandatory;
    mkRow "id-GlobalRNC-ID" 86 0 "GlobalRNC-ID" T_RANAP_GlobalRNC_ID Mandatory ].
(* asn1/ranap/RANAP-PDU-Contents.asn:2925-2932 UplinkInformationExchangeResponseIEs *)
Definition M_RANAP_UplinkInformationExchangeResponseIEs : msgdef := mkMsg "RANAP_" "UplinkInformationExchangeResponseIEs" T_RANAP_UplinkInformationExchangeResponse
  [ mkRow "id-InformationExchangeID" 136 1 "InformationExchangeID" T_RANAP_InformationExchangeID Mandatory;
    mkRow "id-InformationRequested" 138 1 "InformationRequested" T_RANAP_InformationRequested Optional;
    mkRow "id-CN-DomainIndicator" 3 1 "CN-DomainIndicator" T_RANAP_CN_DomainIndicator Mandatory;
    mkRow "id-GlobalCN-ID" 96 1 "GlobalCN-ID" T_RANAP_GlobalCN_ID Optional;
    mkRow "id-CriticalityDiagnostics" 9 1 "CriticalityDiagnostics" T_RANAP_CriticalityDiagnostics Optional ].
(* asn1/ranap/RANAP-PDU-Contents.asn:2950-2957 UplinkInformationExchangeFailureIEs *)
Definition M_RANAP_UplinkInformationExchangeFailureIEs : msgdef := mkMsg "RANAP_" "UplinkInformationExchangeFailureIEs" T_RANAP_UplinkInformationExchangeFailure
  [ mkRow "id-InformationExchangeID" 136 1 "InformationExchangeID" T_RANAP_InformationExchangeID Mandatory;
    mkRow "id-CN-DomainIndicator" 3 1 "CN-DomainIndicator" T_RANAP_CN_DomainIndicator Mandatory;
    mkRow "id-GlobalCN-ID" 96 1 "GlobalCN-ID" T_RANAP_GlobalCN_ID Optional;
    mkRow "id-Cause" 4 1 "Cause" T_RANAP_Cause Mandatory;
    mkRow "id-CriticalityDiagnostics" 9 1 "CriticalityDiagnostics" T_RANAP_CriticalityDiagnostics Optional ].
(* asn1/ranap/RANAP-PDU-Contents.asn:2981-2996 MBMSSessionStartIEs *)
Definition M_RANAP_MBMSSessionStartIEs : msgdef := mkMsg "RANAP_" "MBMSSessionStartIEs" T_RANAP_MBMSSessionStart
  [ mkRow "id-TMGI" 153 0 "TMGI" T_RANAP_TMGI Mandatory;
    mkRow "id-MBMSSessionIdentity" 147 1 "MBMSSessionIdentity" T_RANAP_MBMSSessionIdentity Optional;
    mkRow "id-MBMSBearerServiceType" 143 0 "MBMSBearerServiceType" T_RANAP_MBMSBearerServiceType Mandatory;
    mkRow "id-IuSigConId" 79 0 "IuSignallingConnectionIdentifier" T_RANAP_IuSignallingConnectionIdentifier Mandatory;
    mkRow "id-RAB-Parameters" 149 0 "RAB-Parameters" T_RANAP_RAB_Parameters Mandatory;
    mkRow "id-PDP-TypeInformation" 148 1 "PDP-TypeInformation" T_RANAP_PDP_TypeInformation Optional;
    mkRow "id-MBMSSessionDuration" 146 0 "MBMSSessionDuration" T_RANAP_MBMSSessionDuration Mandatory;
    mkRow "id-MBMSServiceArea" 145 0 "MBMSServiceArea" T_RANAP_MBMSServiceArea Mandatory;
    mkRow "id-FrequenceLayerConvergenceFlag" 135 1 "FrequenceLayerConvergenceFlag" T_RANAP_FrequenceLayerConvergenceFlag Optional;
    mkRow "id-RAListofIdleModeUEs" 150 1 "RAListofIdleModeUEs" T_RANAP_RAListofIdleModeUEs Optional;
    mkRow "id-GlobalCN-ID" 96 0 "GlobalCN-ID" T_RANAP_GlobalCN_ID Optional;
    mkRow "id-MBMSSessionRepetitionNumber" 157 1 "MBMSSessionRepetitionNumber" T_RANAP_MBMSSessionRepetitionNumber Optional;
    mkRow "id-TimeToMBMSDataTransfer" 163 0 "TimeToMBMSDataTransfer" T_RANAP_TimeToMBMSDataTransfer Mandatory ].
(* asn1/ranap/RANAP-PDU-Contents.asn:3034-3039 MBMSSessionStartResponseIEs *)
Definition M_RANAP_MBMSSessionStartResponseIEs : msgdef := mkMsg "RANAP_" "MBMSSessionStartResponseIEs" T_RANAP_MBMSSessionStartResponse
  [ mkRow "id-TransportLayerInformation" 154 1 "TransportLayerInformation" T_RANAP_TransportLayerInformation Optional;
    mkRow "id-Cause" 4 1 "Cause" T_RANAP_Cause Optional;
    mkRow "id-CriticalityDiagnostics" 9 1 "CriticalityDiagnostics" T_RANAP_CriticalityDiagnostics Optional ].
(* asn1/ranap/RANAP-PDU-Contents.asn:3057-3061 MBMSSessionStartFailureIEs *)
Definition M_RANAP_MBMSSessionStartFailureIEs : msgdef := mkMsg "RANAP_" "MBMSSessionStartFailureIEs" T_RANAP_MBMSSessionStartFailure
  [ mkRow "id-Cause" 4 1 "Cause" T_RANAP_Cause Mandatory;
    mkRow "id-CriticalityDiagnostics" 9 1 "CriticalityDiagnostics" T_RANAP_CriticalityDiagnostics Optional ].
(* asn1/ranap/RANAP-PDU-Contents.asn:3085-3089 MBMSSessionUpdateIEs *)
Definition M_RANAP_MBMSSessionUpdateIEs : msgdef := mkMsg "RANAP_" "MBMSSessionUpdateIEs" T_RANAP_MBMSSessionUpdate
  [ mkRow "id-SessionUpdateID" 152 0 "SessionUpdateID" T_RANAP_SessionUpdateID Mandatory;
    mkRow "id-DeltaRAListofIdleModeUEs" 134 0 "DeltaRAListofIdleModeUEs" T_RANAP_DeltaRAListofIdleModeUEs Mandatory ].
(* asn1/ranap/RANAP-PDU-Contents.asn:3107-3113 MBMSSessionUpdateResponseIEs *)
Definition M_RANAP_MBMSSessionUpdateResponseIEs : msgdef := mkMsg "RANAP_" "MBMSSessionUpdateResponseIEs" T_RANAP_MBMSSessionUpdateResponse
  [ mkRow "id-SessionUpdateID" 152 1 "SessionUpdateID" T_RANAP_SessionUpdateID Mandatory;
    mkRow "id-TransportLayerInformation" 154 1 "TransportLayerInformation" T_RANAP_TransportLayerInformation Optional;
    mkRow "id-Cause" 4 1 "Cause" T_RANAP_Cause Optional;
    mkRow "id-CriticalityDiagnostics" 9 1 "CriticalityDiagnostics" T_RANAP_CriticalityDiagnostics Optional ].
(* asn1/ranap/RANAP-PDU-Contents.asn:3131-3136 MBMSSessionUpdateFailureIEs *)
Definition M_RANAP_MBMSSessionUpdateFailureIEs : msgdef := mkMsg "RANAP_" "MBMSSessionUpdateFailureIEs" T_RANAP_MBMSSessionUpdateFailure
  [ mkRow "id-SessionUpdateID" 152 1 "SessionUpdateID" T_RANAP_SessionUpdateID Mandatory;
    mkRow "id-Cause" 4 1 "Cause" T_RANAP_Cause Mandatory;
    mkRow "id-CriticalityDiagnostics" 9 1 "CriticalityDiagnostics" T_RANAP_CriticalityDiagnostics Optional ].
(* asn1/ranap/RANAP-PDU-Contents.asn:3160-3163 MBMSSessionStopIEs *)
Definition M_RANAP_MBMSSessionStopIEs : msgdef := mkMsg "RANAP_" "MBMSSessionStopIEs" T_RANAP_MBMSSessionStop
  [ mkRow "id-MBMSCNDe-Registration" 144 0 "MBMSCNDe-Registration" T_RANAP_MBMSCNDe_Registration Mandatory ].
(* asn1/ranap/RANAP-PDU-Contents.asn:3181-3185 MBMSSessionStopResponseIEs *)
Definition M_RANAP_MBMSSessionStopResponseIEs : msgdef := mkMsg "RANAP_" "MBMSSessionStopResponseIEs" T_RANAP_MBMSSessionStopResponse
  [ mkRow "id-Cause" 4 1 "Cause" T_RANAP_Cause Optional;
    mkRow "id-CriticalityDiagnostics" 9 1 "CriticalityDiagnostics" T_RANAP_CriticalityDiagnostics Optional ].
(* asn1/ranap/RANAP-PDU-Contents.asn:3209-3213 MBMSUELinkingRequestIEs *)
Definition M_RANAP_MBMSUELinkingRequestIEs : msgdef := mkMsg "RANAP_" "MBMSUELinkingRequestIEs" T_RANAP_MBMSUELinkingRequest
  [ mkRow "id-JoinedMBMSBearerServicesList" 141 0 "JoinedMBMSBearerService-IEs" T_RANAP_JoinedMBMSBearerService_IEs Optional;
    mkRow "id-LeftMBMSBearerServicesList" 142 0 "LeftMBMSBearerService-IEs" T_RANAP_LeftMBMSBearerService_IEs Optional ].
(* asn1/ranap/RANAP-PDU-Contents.asn:3243-3247 MBMSUELinkingResponseIEs *)
Definition M_RANAP_MBMSUELinkingResponseIEs : msgdef := mkMsg "RANAP_" "MBMSUELinkingResponseIEs" T_RANAP_MBMSUELinkingResponse
  [ mkRow "id-UnsuccessfulLinkingList" 155 1 "UnsuccessfulLinking-IEs" T_RANAP_UnsuccessfulLinking_IEs Optional;
    mkRow "id-CriticalityDiagnostics" 9 1 "CriticalityDiagnostics" T_RANAP_CriticalityDiagnostics Optional ].
(* asn1/ranap/RANAP-PDU-Contents.asn:3284-3293 MBMSRegistrationRequestIEs *)
Definition M_RANAP_MBMSRegistrationRequestIEs : msgdef := mkMsg "RANAP_" "MBMSRegistrationRequestIEs" T_RANAP_MBMSRegistrationRequest
  [ mkRow "id-MBMSRegistrationRequestType" 151 0 "MBMSRegistrationRequestType" T_RANAP_MBMSRegistrationRequestType Mandatory;
    mkRow "id-TMGI" 153 0 "TMGI" T_RANAP_TMGI Mandatory;
    mkRow "id-GlobalRNC-ID" 86 0 "GlobalRNC-ID" T_RANAP_GlobalRNC_ID Optional ].
(* asn1/ranap/RANAP-PDU-Contents.asn:3313-3318 MBMSRegistrationResponseIEs *)
Definition M_RANAP_MBMSRegistrationResponseIEs : msgdef := mkMsg "RANAP_" "MBMSRegistrationResponseIEs" T_RANAP_MBMSRegistrationResponse
  [ mkRow "id-TMGI" 153 1 "TMGI" T_RANAP_TMGI Optional;
    mkRow "id-GlobalCN-ID" 96 1 "GlobalCN-ID" T_RANAP_GlobalCN_ID Optional;
    mkRow "id-CriticalityDiagnostics" 9 1 "CriticalityDiagnostics" T_RANAP_CriticalityDiagnostics Optional ].
(* asn1/ranap/RANAP-PDU-Contents.asn:3336-3342 MBMSRegistrationFailureIEs *)
Definition M_RANAP_MBMSRegistrationFailureIEs : msgdef := mkMsg "RANAP_" "MBMSRegistrationFailureIEs" T_RANAP_MBMSRegistrationFailure
  [ mkRow "id-TMGI" 153 1 "TMGI" T_RANAP_TMGI Optional;
    mkRow "id-GlobalCN-ID" 96 1 "GlobalCN-ID" T_RANAP_GlobalCN_ID Optional;
    mkRow "id-Cause" 4 1 "Cause" T_RANAP_Cause Mandatory;
    mkRow "id-CriticalityDiagnostics" 9 1 "CriticalityDiagnostics" T_RANAP_CriticalityDiagnostics Optional ].
(* asn1/ranap/RANAP-PDU-Contents.asn:3366-3370 MBMSCNDe-RegistrationRequestIEs *)
Definition M_RANAP_MBMSCNDe_RegistrationRequestIEs : msgdef := mkMsg "RANAP_" "MBMSCNDe-RegistrationRequestIEs" T_RANAP_MBMSCNDe_RegistrationRequest
  [ mkRow "id-TMGI" 153 0 "TMGI" T_RANAP_TMGI Mandatory;
    mkRow "id-GlobalCN-ID" 96 0 "GlobalCN-ID" T_RANAP_GlobalCN_ID Optional ].
(* asn1/ranap/RANAP-PDU-Contents.asn:3388-3394 MBMSCNDe-RegistrationResponseIEs *)
Definition M_RANAP_MBMSCNDe_RegistrationResponseIEs : msgdef := mkMsg "RANAP_" "MBMSCNDe-RegistrationResponseIEs" T_RANAP_MBMSCNDe_RegistrationResponse
  [ mkRow "id-TMGI" 153 1 "TMGI" T_RANAP_TMGI Mandatory;
    mkRow "id-GlobalRNC-ID" 86 1 "GlobalRNC-ID" T_RANAP_GlobalRNC_ID Mandatory;
    mkRow "id-Cause" 4 1 "Cause" T_RANAP_Cause Optional;
    mkRow "id-CriticalityDiagnostics" 9 1 "CriticalityDiagnostics" T_RANAP_CriticalityDiagnostics Optional ].
(* asn1/ranap/RANAP-PDU-Contents.asn:3420-3423 MBMSRABEstablishmentIndicationIEs *)
Definition M_RANAP_MBMSRABEstablishmentIndicationIEs : msgdef := mkMsg "RANAP_" "MBMSRABEstablishmentIndicationIEs" T_RANAP_MBMSRABEstablishmentIndication
  [ mkRow "id-TransportLayerInformation" 154 1 "TransportLayerInformation" T_RANAP_TransportLayerInformation Mandatory ].
(* asn1/ranap/RANAP-PDU-Contents.asn:3447-3450 MBMSRABReleaseRequestIEs *)
Definition M_RANAP_MBMSRABReleaseRequestIEs : msgdef := mkMsg "RANAP_" "MBMSRABReleaseRequestIEs" T_RANAP_MBMSRABReleaseRequest
  [ mkRow "id-Cause" 4 1 "Cause" T_RANAP_Cause Mandatory ].
(* asn1/ranap/RANAP-PDU-Contents.asn:3469-3473 MBMSRABReleaseIEs *)
Definition M_RANAP_MBMSRABReleaseIEs : msgdef := mkMsg "RANAP_" "MBMSRABReleaseIEs" T_RANAP_MBMSRABRelease
  [ mkRow "id-Cause" 4 1 "Cause" T_RANAP_Cause Mandatory;
    mkRow "id-CriticalityDiagnostics" 9 1 "CriticalityDiagnostics" T_RANAP_CriticalityDiagnostics Optional ].
(* asn1/ranap/RANAP-PDU-Contents.asn:3491-3495 MBMSRABReleaseFailureIEs *)
Definition M_RANAP_MBMSRABReleaseFailureIEs : msgdef := mkMsg "RANAP_" "MBMSRABReleaseFailureIEs" T_RANAP_MBMSRABReleaseFailure
  [ mkRow "id-Cause" 4 1 "Cause" T_RANAP_Cause Mandatory;
    mkRow "id-CriticalityDiagnostics" 9 1 "CriticalityDiagnostics" T_RANAP_CriticalityDiagnostics Optional ].
(* asn1/ranap/RANAP-PDU-Contents.asn:3539-3545 SRVCC-CSKeysResponseIEs *)
Definition M_RANAP_SRVCC_CSKeysResponseIEs : msgdef := mkMsg "RANAP_" "SRVCC-CSKeysResponseIEs" T_RANAP_SRVCC_CSKeysResponse
  [ mkRow "id-IntegrityProtectionKey" 225 0 "IntegrityProtectionKey" T_RANAP_IntegrityProtectionKey Mandatory;
    mkRow "id-EncryptionKey" 224 0 "EncryptionKey" T_RANAP_EncryptionKey Mandatory;
    mkRow "id-SRVCC-Information" 227 0 "SRVCC-Information" T_RANAP_SRVCC_Information Mandatory;
    mkRow "id-CriticalityDiagnostics" 9 1 "CriticalityDiagnostics" T_RANAP_CriticalityDiagnostics Optional ].
(* asn1/ranap/RANAP-PDU-Contents.asn:3590-3593 UeRadioCapabilityMatchResponseIEs *)
Definition M_RANAP_UeRadioCapabilityMatchResponseIEs : msgdef := mkMsg "RANAP_" "UeRadioCapabilityMatchResponseIEs" T_RANAP_UeRadioCapabilityMatchResponse
  [ mkRow "id-VoiceSupportMatchIndicator" 258 0 "VoiceSupportMatchIndicator" T_RANAP_VoiceSupportMatchIndicator Mandatory ].

(* all object sets of asn1/ranap/RANAP-PDU-Contents.asn, each at the lines cited above *)
Definition ranap_msgs : list msgdef :=
  [ M_RANAP_Iu_ReleaseCommandIEs;
    M_RANAP_Iu_ReleaseCompleteIEs;
    M_RANAP_RAB_DataVolumeReportItemIEs;
    M_RANAP_RAB_ReleasedItem_IuRelComp_IEs;
    M_RANAP_RelocationRequiredIEs;
    M_RANAP_RelocationCommandIEs;
    M_RANAP_RAB_RelocationReleaseItemIEs;
    M_RANAP_RAB_DataForwardingItemIEs;
    M_RANAP_RelocationPreparationFailureIEs;
    M_RANAP_RelocationRequestIEs;
    M_RANAP_RAB_SetupItem_RelocReq_IEs;
    M_RANAP_RelocationRequestAcknowledgeIEs;
    M_RANAP_RAB_SetupItem_RelocReqAck_IEs;
    M_RANAP_RAB_FailedItemIEs;
    M_RANAP_RelocationFailureIEs;
    M_RANAP_RelocationCancelIEs;
    M_RANAP_RelocationCancelAcknowledgeIEs;
    M_RANAP_SRNS_ContextRequestIEs;
    M_RANAP_RAB_DataForwardingItem_SRNS_CtxReq_IEs;
    M_RANAP_SRNS_ContextResponseIEs;
    M_RANAP_RAB_ContextItemIEs;
    M_RANAP_RABs_ContextFailedtoTransferItemIEs;
    M_RANAP_SecurityModeCommandIEs;
    M_RANAP_SecurityModeCompleteIEs;
    M_RANAP_SecurityModeRejectIEs;
    M_RANAP_DataVolumeReportRequestIEs;
    M_RANAP_RAB_DataVolumeReportRequestItemIEs;
    M_RANAP_DataVolumeReportIEs;
    M_RANAP_RABs_failed_to_reportItemIEs;
    M_RANAP_ResetIEs;
    M_RANAP_ResetAcknowledgeIEs;
    M_RANAP_ResetResourceIEs;
    M_RANAP_ResetResourceItemIEs;
    M_RANAP_ResetResourceAcknowledgeIEs;
    M_RANAP_ResetResourceAckItemIEs;
    M_RANAP_RAB_ReleaseRequestIEs;
    M_RANAP_RAB_ReleaseItemIEs;
    M_RANAP_Iu_ReleaseRequestIEs;
    M_RANAP_EnhancedRelocationCompleteRequestIEs;
    M_RANAP_RAB_SetupItem_EnhancedRelocCompleteReq_IEs;
    M_RANAP_EnhancedRelocationCompleteResponseIEs;
    M_RANAP_RAB_SetupItem_EnhancedRelocCompleteRes_IEs;
    M_RANAP_RAB_ToBeReleasedItem_EnhancedRelocCompleteRes_IEs;
    M_RANAP_EnhancedRelocationCompleteFailureIEs;
    M_RANAP_EnhancedRelocationCompleteConfirmIEs;
    M_RANAP_PagingIEs;
    M_RANAP_CommonID_IEs;
    M_RANAP_CN_InvokeTraceIEs;
    M_RANAP_CN_DeactivateTraceIEs;
    M_RANAP_LocationReportingControlIEs;
    M_RANAP_LocationReportIEs;
    M_RANAP_InitialUE_MessageIEs;
    M_RANAP_DirectTransferIEs;
    M_RANAP_RedirectionIndication_IEs;
    M_RANAP_OverloadIEs;
    M_RANAP_ErrorIndicationIEs;
    M_RANAP_SRNS_DataForwardCommandIEs;
    M_RANAP_ForwardSRNS_ContextIEs;
    M_RANAP_RAB_AssignmentRequestIEs;
    M_RANAP_RAB_AssignmentResponseIEs;
    M_RANAP_RAB_SetupOrModifiedItemIEs;
    M_RANAP_RAB_ReleasedItemIEs;
    M_RANAP_RAB_QueuedItemIEs;
    M_RANAP_GERAN_Iumode_RAB_Failed_RABAssgntResponse_ItemIEs;
    M_RANAP_RANAP_RelocationInformationIEs;
    M_RANAP_RAB_ContextItemIEs_RANAP_RelocInf;
    M_RANAP_RANAP_EnhancedRelocationInformationRequestIEs;
    M_RANAP_RAB_SetupItem_EnhRelocInfoReq_IEs;
    M_RANAP_RANAP_EnhancedRelocationInformationResponseIEs;
    M_RANAP_RAB_SetupItem_EnhRelocInfoRes_IEs;
    M_RANAP_RAB_FailedItem_EnhRelocInfoRes_IEs;
    M_RANAP_RAB_ModifyRequestIEs;
    M_RANAP_RAB_ModifyItemIEs;
    M_RANAP_LocationRelatedDataRequestIEs;
    M_RANAP_LocationRelatedDataResponseIEs;
    M_RANAP_LocationRelatedDataFailureIEs;
    M_RANAP_InformationTransferIndicationIEs;
    M_RANAP_InformationTransferConfirmationIEs;
    M_RANAP_InformationTransferFailureIEs;
    M_RANAP_UESpecificInformationIndicationIEs;
    M_RANAP_DirectInformationTransferIEs;
    M_RANAP_UplinkInformationExchangeRequestIEs;
    M_RANAP_UplinkInformationExchangeResponseIEs;
    M_RANAP_UplinkInformationExchangeFailureIEs;
    M_RANAP_MBMSSessionStartIEs;
    M_RANAP_MBMSSessionStartResponseIEs;
    M_RANAP_MBMSSessionStartFailureIEs;
    M_RANAP_MBMSSessionUpdateIEs;
    M_RANAP_MBMSSessionUpdateResponseIEs;
    M_RANAP_MBMSSessionUpdateFailureIEs;
    M_RANAP_MBMSSessionStopIEs;
    M_RANAP_MBMSSessionStopResponseIEs;
    M_RANAP_MBMSUELinkingRequestIEs;
    M_RANAP_MBMSUELinkingResponseIEs;
    M_RANAP_MBMSRegistrationRequestIEs;
    M_RANAP_MBMSRegistrationResponseIEs;
    M_RANAP_MBMSRegistrationFailureIEs;
    M_RANAP_MBMSCNDe_RegistrationRequestIEs;
    M_RANAP_MBMSCNDe_RegistrationResponseIEs;
    M_RANAP_MBMSRABEstablishmentIndicationIEs;
    M_RANAP_MBMSRABReleaseRequestIEs;
    M_RANAP_MBMSRABReleaseIEs;
    M_RANAP_MBMSRABReleaseFailureIEs;
    M_RANAP_SRVCC_CSKeysResponseIEs;
    M_RANAP_UeRadioCapabilityMatchResponseIEs ].
